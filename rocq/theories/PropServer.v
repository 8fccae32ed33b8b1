(** C30, C41, C53: the two servers with all their clients. *)
From Verif Require Import Base BaseProofs PacketModel MapperModel ReaderModel ReaderSpec ConfigModel CryptoModel ExtModel PathModel ConnModel
  HandshakeModel ConnSpec ServerModel ServerSpec ServerProofs.
From Coq Require Import Sorting.Sorted.

(** ** C30: the limit of connections and one connection for each address *)
Lemma clean_clients g s i s1 o : step_clean g s i = (s1, o) -> NoDup (addrs (s_clients s)) ->
  exists f, s_clients s1 = filter f (s_clients s) /\ s_recv s1 = s_recv s /\ s_send s1 = s_send s /\ s_sockid s1 = s_sockid s.
Proof.
  unfold step_clean. intros E ND. destruct (2000 <? _).
  - destruct (retain _ _ _) as [t o1] eqn:ER. apply retain_clients_spec in ER as [-> _]; [|exact ND].
    injection E as <- _. eexists. cbn. auto.
  - injection E as <- _. exists (fun _ => true). split; [|auto].
    induction (s_clients s) as [|x l IH]; cbn; [reflexivity|]. f_equal. apply IH. inversion ND; assumption.
Qed.
Lemma filter_len {A} (f : A -> bool) l : (length (filter f l) <= length l)%nat.
Proof. induction l as [|x l IH]; cbn; [lia|]. destruct (f x); cbn; lia. Qed.
Lemma send_clients t next i t' o b n : send_data_blocks t next i = (t', o, b, n) -> addrs t' = addrs t.
Proof.
  unfold send_data_blocks. destruct (pass _ _ (i_send1 i) 0 t) as [[t1 o1] r1] eqn:E1. apply pass_addrs in E1.
  destruct r1; [intros [= <- _ _ _]; exact E1|].
  destruct (pass _ _ (i_send2 i) 0 t1) as [[t2 o2] r2] eqn:E2. apply pass_addrs in E2.
  destruct r2; intros [= <- _ _ _]; congruence.
Qed.
Lemma step_send_addrs s i s' o : step_send s i = (s', o) ->
  addrs (s_clients s') = addrs (s_clients s) /\ s_recv s' = s_recv s /\ s_sockid s' = s_sockid s.
Proof.
  unfold step_send. destruct (send_data_blocks _ _ _) as [[[t o1] b] n] eqn:E. apply send_clients in E.
  intros [= <- _]. cbn. auto.
Qed.
Lemma addrs_length {A B} (t : list (addr * A)) (t' : list (addr * B)) : addrs t = addrs t' -> length t = length t'.
Proof. unfold addrs. intros E. rewrite <- (map_length fst t), <- (map_length fst t'), E. reflexivity. Qed.

Definition TableOk (g : srvcfg) (s : sstate) : Prop :=
  sorted (s_clients s) /\ N.of_nat (length (s_clients s)) <= g_max_conn g.
Lemma step_recv_ok c g s i s' o : TableOk g s -> step_recv c g s i = Some (s', o) -> TableOk g s'.
Proof.
  intros [S L] E. unfold step_recv in E. destruct (scan _ _ _ _) as [found cursor].
  destruct found as [[a d]|].
  - destruct (find_entry (s_clients s) a) as [e|]; [|discriminate]. unfold known_client in E.
    destruct (handle_client _ _ _ _ _) as [[e' plain]|]; [|discriminate]. injection E as <- _.
    unfold TableOk, sorted. cbn [s_clients set_recv]. rewrite update_addrs. split; [exact S|].
    rewrite (addrs_length _ _ (update_addrs (s_clients s) a e')). exact L.
  - destruct (i_main i) as [from d| |].
    + unfold has_entry in E. destruct (find_entry (s_clients s) from) as [e|] eqn:EF.
      { injection E as <- _. split; assumption. }
      unfold new_client in E. cbn [s_clients set_recv] in E.
      destruct (N.leb_spec (g_max_conn g) (N.of_nat (length (s_clients s)))) as [Hm|Hm].
      { injection E as <- _. split; assumption. }
      destruct (server_new _ _ _ _ _) as [|reply|x reply]; [discriminate| |].
      { injection E as <- _. split; assumption. }
      injection E as <- _. split; cbn.
      * apply insert_sorted; assumption.
      * rewrite insert_length. lia.
    + injection E as <- _. split; assumption.
    + discriminate.
Qed.
Lemma clean_ok g s i s1 o : TableOk g s -> step_clean g s i = (s1, o) -> TableOk g s1.
Proof.
  intros [S L] E. destruct (clean_clients g s i s1 o E (sorted_nodup _ S)) as (f & F & _).
  split; rewrite F; [apply sorted_filter; exact S|]. pose proof (filter_len f (s_clients s)). lia.
Qed.
Lemma send_ok g s i s1 o : TableOk g s -> step_send s i = (s1, o) -> TableOk g s1.
Proof.
  intros [S L] E. apply step_send_addrs in E as (E & _). unfold TableOk, sorted. rewrite E. split; [exact S|].
  rewrite (addrs_length _ _ E). exact L.
Qed.
Lemma sreach_ok c g s : sreach c g s -> TableOk g s.
Proof.
  induction 1 as [now|s i s' o R IH E]; [split; [constructor|cbn; lia]|].
  unfold server_step in E. destruct (step_clean g s i) as [s1 o1] eqn:E1. destruct (step_send s1 i) as [s2 o2] eqn:E2.
  destruct (step_recv c g s2 i) as [[s3 o3]|] eqn:E3; [|discriminate]. injection E as <- _.
  eapply step_recv_ok; [|exact E3]. eapply send_ok; [|exact E2]. eapply clean_ok; [exact IH|exact E1].
Qed.

(** The single threaded server never has more connections than allowed nor two for one address. *)
Theorem single_thread_connection_limit : forall c g s, sreach c g s ->
  N.of_nat (length (s_clients s)) <= g_max_conn g /\ NoDup (map fst (s_clients s)).
Proof. intros c g s R. destruct (sreach_ok c g s R) as [S L]. split; [exact L|apply sorted_nodup; exact S]. Qed.

(** Handles *)
Lemma find_handle_none h a : find_handle h a = None <-> ~ In a (addrs h).
Proof.
  unfold addrs. induction h as [|[b x] h IH]; cbn; [tauto|]. destruct (N.eqb_spec a b) as [->|Hne].
  - split; [discriminate|]. intros H. exfalso. auto.
  - rewrite IH. split; [intros H [E|E]; [congruence|auto]|auto].
Qed.
Lemma insert_handle_addrs t a e : forall x, In x (addrs (insert_handle t a e)) <-> x = a \/ In x (addrs t).
Proof.
  unfold addrs. induction t as [|[b y] t IH]; intros x; cbn; [intuition congruence|].
  destruct (a <? b); cbn; [intuition congruence|]. rewrite IH. intuition congruence.
Qed.
Lemma insert_handle_sorted t a e : sorted t -> find_handle t a = None -> sorted (insert_handle t a e).
Proof.
  unfold sorted. induction t as [|[b y] t IH]; cbn; intros S F; [repeat constructor|].
  destruct (N.eqb_spec a b) as [->|Hne]; [discriminate|]. inversion S as [|? ? S' FA]; subst.
  destruct (N.ltb_spec a b) as [Hlt|Hge]; cbn.
  - constructor; [exact S|]. constructor; [exact Hlt|]. eapply Forall_impl; [|exact FA]. intros z Hz. cbn in Hz. lia.
  - constructor; [apply IH; assumption|]. apply Forall_forall. intros z Hz. apply insert_handle_addrs in Hz as [->|Hz]; [lia|].
    eapply Forall_forall in FA; eassumption.
Qed.
Lemma insert_handle_length t a e : length (insert_handle t a e) = S (length t).
Proof. induction t as [|[b y] t IH]; cbn; [reflexivity|]. destruct (a <? b); cbn; [reflexivity|]. rewrite IH. reflexivity. Qed.
Lemma find_insert_handle t a e b : find_handle t a = None ->
  find_handle (insert_handle t a e) b = if b =? a then Some e else find_handle t b.
Proof.
  induction t as [|[d y] t IH]; cbn.
  - intros _. destruct (b =? a); reflexivity.
  - destruct (N.eqb_spec a d) as [->|Hne]; [discriminate|]. intros F.
    destruct (a <? d); cbn; [reflexivity|]. rewrite IH by exact F.
    destruct (N.eqb_spec b d) as [->|]; [|reflexivity]. destruct (N.eqb_spec d a) as [->|]; [congruence|reflexivity].
Qed.
Lemma update_handle_addrs t a e : addrs (update_handle t a e) = addrs t.
Proof. unfold addrs. induction t as [|[b y] t IH]; cbn; [reflexivity|]. destruct (a =? b); cbn; congruence. Qed.
Lemma find_update_handle t a e b : find_handle t a <> None ->
  find_handle (update_handle t a e) b = if b =? a then Some e else find_handle t b.
Proof.
  induction t as [|[d y] t IH]; cbn; [congruence|].
  destruct (N.eqb_spec a d) as [->|Hne]; cbn.
  - intros _. destruct (b =? d); reflexivity.
  - intros F. rewrite IH by exact F. destruct (N.eqb_spec b d) as [->|]; [|reflexivity].
    destruct (N.eqb_spec d a); [congruence|reflexivity].
Qed.
Lemma find_filter_live (h : handles) a : NoDup (addrs h) ->
  find_handle (filter (fun x => th_live (snd x)) h) a =
  match find_handle h a with Some t => if th_live t then Some t else None | None => None end.
Proof.
  unfold addrs. induction h as [|[b e] t IH]; cbn; intros ND; [reflexivity|].
  inversion ND as [|? ? Hni ND']; subst. destruct (N.eqb_spec a b) as [->|Hne].
  - destruct (th_live e); cbn; [rewrite N.eqb_refl; reflexivity|]. rewrite IH by assumption.
    rewrite (proj2 (find_handle_none t b) Hni). reflexivity.
  - destruct (th_live e); cbn; [|apply IH; assumption].
    destruct (N.eqb_spec a b); [congruence|]. apply IH; assumption.
Qed.
Lemma mstep_ok c g m m' o : sorted (m_handles m) -> N.of_nat (length (m_handles m)) <= g_max_conn g ->
  mstep c g m m' o -> sorted (m_handles m') /\ N.of_nat (length (m_handles m')) <= g_max_conn g.
Proof.
  intros S L H. destruct H as [m ev i m' o E|m a e buflen v1 v2 v3 ev t plain EF ET].
  - unfold main_turn in E. set (h := filter _ (m_handles m)) in *.
    assert (Sh : sorted h) by (apply sorted_filter; exact S).
    assert (Lh : N.of_nat (length h) <= g_max_conn g) by (pose proof (filter_len (fun x => th_live (snd x)) (m_handles m)); unfold h; lia).
    destruct ev as [from d| |]; [|injection E as <- _; auto|discriminate].
    destruct (find_handle h from) eqn:EF; [injection E as <- _; auto|].
    destruct (N.leb_spec (g_max_conn g) (N.of_nat (length h))) as [Hm|Hm]; [injection E as <- _; auto|].
    destruct (server_new _ _ _ _ _) as [|reply|x reply]; [discriminate|injection E as <- _; auto|].
    injection E as <- _. cbn. split; [apply insert_handle_sorted; assumption|]. rewrite insert_handle_length. lia.
  - cbn [m_handles]. unfold sorted. rewrite update_handle_addrs. split; [exact S|].
    rewrite (addrs_length _ _ (update_handle_addrs (m_handles m) a t)). exact L.
Qed.
Lemma mreach_ok c g m : mreach c g m -> sorted (m_handles m) /\ N.of_nat (length (m_handles m)) <= g_max_conn g.
Proof.
  induction 1 as [|m m' o R [S L] H]; [split; [constructor|cbn; lia]|]. eapply mstep_ok; eassumption.
Qed.
(** The same for the threads of the multi threaded server. *)
Theorem multi_thread_connection_limit : forall c g m, mreach c g m ->
  N.of_nat (length (filter (fun x => th_live (snd x)) (m_handles m))) <= g_max_conn g /\ NoDup (map fst (m_handles m)).
Proof.
  intros c g m R. destruct (mreach_ok c g m R) as [S L]. split; [|apply sorted_nodup; exact S].
  pose proof (filter_len (fun x => th_live (snd x)) (m_handles m)). lia.
Qed.

(** Who is admitted: a datagram on the main socket creates a connection exactly if its sender
    has none, the limit is not reached and the request is acceptable; otherwise all
    connections stay as they are. *)
Theorem admission : forall c g s i s' o from d, sreach c g s ->
  scan (i_rx i) (s_recv s) (s_recv s) (s_clients s) = (None, snd (scan (i_rx i) (s_recv s) (s_recv s) (s_clients s))) ->
  i_main i = MData from d -> step_recv c g s i = Some (s', o) ->
  if has_entry (s_clients s) from || (g_max_conn g <=? N.of_nat (length (s_clients s)))
  then s_clients s' = s_clients s /\ o = []
  else match server_new c (g_cfg g) (i_henv i) (i_av i) (recv_cut g d) with
       | SAccepted x _ =>
           length (s_clients s') = S (length (s_clients s)) /\
           forall a, find_entry (s_clients s') a =
             if a =? from then Some (new_entry x (e_now (i_env i)) (i_file i)) else find_entry (s_clients s) a
       | _ => s_clients s' = s_clients s
       end.
Proof.
  intros c g s i s' o from d R ES EM E. unfold step_recv in E. rewrite ES, EM in E. cbn iota beta in E.
  unfold has_entry in *. destruct (find_entry (s_clients s) from) as [e|] eqn:EF; cbn [orb] in *.
  { injection E as <- <-. split; reflexivity. }
  unfold new_client in E. cbn [s_clients set_recv] in E.
  destruct (g_max_conn g <=? N.of_nat (length (s_clients s))); [injection E as <- <-; split; reflexivity|].
  destruct (server_new _ _ _ _ _) as [|reply|x reply]; [discriminate|injection E as <- _; reflexivity|].
  injection E as <- _. cbn. split; [apply insert_length|]. intros a. apply find_insert. exact EF.
Qed.

(** ** C53: clients do not disturb each other *)
Inductive owns (c : crypto) (g : srvcfg) (i : input) (a : addr) : option entry -> option entry -> list out -> Prop :=
| owns_none x : owns c g i a x x []
| owns_cons x y z o1 o2 : own c g i a x y o1 -> owns c g i a y z o2 -> owns c g i a x z (o1 ++ o2).
Lemma owns_app c g i a x y z o1 o2 : owns c g i a x y o1 -> owns c g i a y z o2 -> owns c g i a x z (o1 ++ o2).
Proof. induction 1; intros H'; [exact H'|]. rewrite <- app_assoc. econstructor; eauto. Qed.
Lemma owns_one c g i a x y o : own c g i a x y o -> owns c g i a x y o.
Proof. intros H. rewrite <- (app_nil_r o). econstructor; [exact H|constructor]. Qed.

Lemma clean_owns c g s i s1 o a : NoDup (addrs (s_clients s)) -> step_clean g s i = (s1, o) ->
  owns c g i a (find_entry (s_clients s) a) (find_entry (s_clients s1) a) (sent_to a o).
Proof.
  intros ND E. unfold step_clean in E. destruct (2000 <? _).
  2: { injection E as <- <-. constructor. }
  destruct (retain _ _ _) as [t o1] eqn:ER. apply retain_clients_spec in ER as [-> Ho]; [|exact ND].
  injection E as <- <-. cbn. rewrite Ho, find_filter by exact ND.
  destruct (find_entry (s_clients s) a) as [e|]; [|constructor]. cbn.
  destruct (timeout_client (en_conn e) _ _ _ _) as [drop plain] eqn:ET. cbn.
  destruct drop; cbn.
  - apply owns_one. eapply own_end. exact ET.
  - assert (plain = []) as ->; [|constructor].
    unfold timeout_client in ET. destruct (_ || _)%bool; [discriminate|]. destruct (_ <=? _); [|discriminate].
    injection ET as <-. reflexivity.
Qed.
Lemma send_owns c g s i s1 o a : NoDup (addrs (s_clients s)) -> step_send s i = (s1, o) ->
  owns c g i a (find_entry (s_clients s) a) (find_entry (s_clients s1) a) (sent_to a o).
Proof.
  intros ND E. unfold step_send in E. destruct (send_data_blocks _ _ _) as [[[t o1] b] n] eqn:ES.
  injection E as <- <-. cbn. unfold send_data_blocks in ES.
  destruct (pass _ _ (i_send1 i) 0 (s_clients s)) as [[t1 p1] r1] eqn:E1.
  assert (H1 : owns c g i a (find_entry (s_clients s) a) (find_entry t1 a) (sent_to a p1)).
  { destruct (pass_own _ _ _ a _ _ _ _ _ E1 ND) as [[-> ->]|(e & j & e' & plain & ok & -> & Ha & _ & _ & Hs & -> & ->)]; [constructor|].
    apply owns_one. eapply own_send with (v := i_send1 i a); [exact Ha|left; reflexivity|exact Hs]. }
  destruct r1 as [n1|]; [injection ES as <- <- _ _; exact H1|].
  destruct (pass _ _ (i_send2 i) 0 t1) as [[t2 p2] r2] eqn:E2.
  assert (ND1 : NoDup (addrs t1)) by (rewrite (pass_addrs _ _ _ _ _ _ _ _ E1); exact ND).
  assert (H2 : owns c g i a (find_entry t1 a) (find_entry t2 a) (sent_to a p2)).
  { destruct (pass_own _ _ _ a _ _ _ _ _ E2 ND1) as [[-> ->]|(e & j & e' & plain & ok & -> & Ha & _ & _ & Hs & -> & ->)]; [constructor|].
    apply owns_one. eapply own_send with (v := i_send2 i a); [exact Ha|right; reflexivity|exact Hs]. }
  assert (H3 : owns c g i a (find_entry (s_clients s) a) (find_entry t2 a) (sent_to a (p1 ++ p2)))
    by (rewrite sent_to_app; eapply owns_app; eassumption).
  destruct r2; injection ES as <- <- _ _; exact H3.
Qed.
Lemma scan_rx rx : forall t skip cursor a d n, scan rx skip cursor t = (Some (a, d), n) -> rx a = Some d /\ In a (addrs t).
Proof.
  unfold addrs. induction t as [|[b e] t IH]; cbn; intros skip cursor a d n E; [discriminate|].
  destruct (0 <? skip); [apply IH in E; tauto|].
  destruct (rx b) eqn:ER; [injection E as <- <- _; auto|]. apply IH in E. tauto.
Qed.
Lemma recv_owns c g s i s1 o a : NoDup (addrs (s_clients s)) -> step_recv c g s i = Some (s1, o) ->
  owns c g i a (find_entry (s_clients s) a) (find_entry (s_clients s1) a) (sent_to a o).
Proof.
  intros ND E. unfold step_recv in E. destruct (scan _ _ _ _) as [found cursor] eqn:ES.
  destruct found as [[b d]|].
  - apply scan_rx in ES as [Hrx _]. destruct (find_entry (s_clients s) b) as [e|] eqn:EF; [|discriminate].
    unfold known_client in E. destruct (handle_client _ _ _ _ _) as [[e' plain]|] eqn:EH; [|discriminate].
    injection E as <- <-. cbn. rewrite sent_to_plains, find_update by congruence.
    destruct (N.eqb_spec b a) as [->|Hne].
    + rewrite N.eqb_refl, EF. apply owns_one. eapply own_receive; eassumption.
    + destruct (N.eqb_spec a b); [congruence|]. constructor.
  - destruct (i_main i) as [from d| |] eqn:EM; [|injection E as <- <-; constructor|discriminate].
    unfold has_entry in E. destruct (find_entry (s_clients s) from) as [e|] eqn:EF; [injection E as <- <-; constructor|].
    unfold new_client in E. cbn [s_clients set_recv] in E.
    destruct (g_max_conn g <=? _); [injection E as <- <-; constructor|].
    destruct (server_new _ _ _ _ _) as [|reply|x reply] eqn:EN; [discriminate| |].
    + injection E as <- <-. cbn. rewrite sent_to_wire. destruct (N.eqb_spec from a) as [->|]; [|constructor].
      rewrite EF. apply owns_one. eapply own_refused; eassumption.
    + injection E as <- <-. cbn. rewrite sent_to_wire, find_insert by exact EF.
      destruct (N.eqb_spec from a) as [->|Hne].
      * rewrite N.eqb_refl, EF. apply owns_one. eapply own_connect; eassumption.
      * destruct (N.eqb_spec a from); [congruence|]. constructor.
Qed.
(** In one turn of the single threaded server the client at any address [a], and what is sent to
    it, change only by events of its own: other clients do not occur in [own]. *)
Theorem single_thread_isolation : forall c g s i s' o a, sreach c g s -> server_step c g s i = Some (s', o) ->
  owns c g i a (find_entry (s_clients s) a) (find_entry (s_clients s') a) (sent_to a o).
Proof.
  intros c g s i s' o a R E. destruct (sreach_ok c g s R) as [S L]. unfold server_step in E.
  destruct (step_clean g s i) as [s1 o1] eqn:E1. destruct (step_send s1 i) as [s2 o2] eqn:E2.
  destruct (step_recv c g s2 i) as [[s3 o3]|] eqn:E3; [|discriminate]. injection E as <- <-.
  pose proof (clean_ok g s i s1 o1 (conj S L) E1) as T1. pose proof (send_ok g s1 i s2 o2 T1 E2) as T2.
  rewrite !sent_to_app.
  eapply owns_app; [eapply clean_owns; [apply sorted_nodup, S|exact E1]|].
  eapply owns_app; [eapply send_owns; [apply sorted_nodup, T1|exact E2]|].
  eapply recv_owns; [apply sorted_nodup, T2|exact E3].
Qed.

(** Multi threaded: a step changes at most the client it is about; the accepting loop changes
    nothing but the admission of new clients. *)
Theorem multi_thread_isolation : forall c g m m' o, mreach c g m -> mstep c g m m' o ->
  exists a, (forall b, b <> a -> live_entry (m_handles m') b = live_entry (m_handles m) b /\ sent_to b o = []) /\
    (live_entry (m_handles m') a = live_entry (m_handles m) a /\ sent_to a o = [] \/
     (exists e buflen v1 v2 v3 ev t plain, live_entry (m_handles m) a = Some e /\
        thread_turn c g e buflen v1 v2 v3 ev = (t, plain) /\ sent_to a o = map OPlain plain /\
        live_entry (m_handles m') a = if th_live t then Some (th_entry t) else None) \/
     (exists d i, live_entry (m_handles m) a = None /\
        match server_new c (g_cfg g) (i_henv i) (i_av i) (recv_cut g d) with
        | SPanic => False
        | SRefused reply => live_entry (m_handles m') a = None /\ sent_to a o = match reply with Some w => [OWire w] | None => [] end
        | SAccepted x reply => live_entry (m_handles m') a = Some (new_entry x (e_now (i_env i)) (i_file i)) /\
            sent_to a o = match reply with Some w => [OWire w] | None => [] end
        end)).
Proof.
  intros c g m m' o R H. destruct (mreach_ok c g m R) as [S L]. pose proof (sorted_nodup _ S) as ND.
  destruct H as [m ev i m' o E|m a e buflen v1 v2 v3 ev t plain EF ET].
  - unfold main_turn in E. set (h := filter _ (m_handles m)) in *.
    assert (Hh : forall b, live_entry h b = live_entry (m_handles m) b).
    { intros b. unfold live_entry, h. rewrite find_filter_live by exact ND.
      destruct (find_handle (m_handles m) b) as [[[] x]|]; reflexivity. }
    destruct ev as [from d| |]; [|injection E as <- <-; exists 0; cbn; auto|discriminate].
    destruct (find_handle h from) eqn:EF; [injection E as <- <-; exists 0; cbn; auto|].
    destruct (g_max_conn g <=? _); [injection E as <- <-; exists 0; cbn; auto|].
    assert (Hl : live_entry (m_handles m) from = None) by (rewrite <- Hh; unfold live_entry; rewrite EF; reflexivity).
    exists from. destruct (server_new _ _ _ _ _) as [|reply|x reply] eqn:EN; [discriminate| |].
    + injection E as <- <-. cbn [m_handles]. split.
      * intros b Hb. split; [apply Hh|]. rewrite sent_to_wire. destruct (N.eqb_spec from b); [congruence|reflexivity].
      * right. right. exists d, i. split; [exact Hl|]. rewrite EN. split; [rewrite Hh; exact Hl|].
        rewrite sent_to_wire, N.eqb_refl. reflexivity.
    + injection E as <- <-. cbn [m_handles]. split.
      * intros b Hb. rewrite sent_to_wire. destruct (N.eqb_spec from b); [congruence|]. split; [|reflexivity].
        rewrite <- Hh. unfold live_entry. rewrite find_insert_handle by exact EF.
        destruct (N.eqb_spec b from); [congruence|reflexivity].
      * right. right. exists d, i. split; [exact Hl|]. rewrite EN. rewrite sent_to_wire, N.eqb_refl. split; [|reflexivity].
        unfold live_entry. rewrite find_insert_handle by exact EF. rewrite N.eqb_refl. reflexivity.
  - exists a. cbn [m_handles]. split.
    + intros b Hb. rewrite sent_to_plains. destruct (N.eqb_spec a b); [congruence|]. split; [|reflexivity].
      unfold live_entry. rewrite find_update_handle by congruence. destruct (N.eqb_spec b a); [congruence|reflexivity].
    + right. left. exists e, buflen, v1, v2, v3, ev, t, plain. unfold live_entry at 1. rewrite EF. split; [reflexivity|].
      split; [exact ET|]. rewrite sent_to_plains, N.eqb_refl. split; [reflexivity|].
      unfold live_entry. rewrite find_update_handle, N.eqb_refl by congruence. destruct t as [[] x]; reflexivity.
Qed.
Print Assumptions single_thread_connection_limit.
Print Assumptions multi_thread_connection_limit.
Print Assumptions admission.
Print Assumptions single_thread_isolation.
Print Assumptions multi_thread_isolation.
