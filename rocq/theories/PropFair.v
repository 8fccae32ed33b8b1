(** C41: fairness of the single threaded server's loop, and how long it waits. *)
From Verif Require Import Base BaseProofs PacketModel MapperModel ReaderModel ReaderSpec ConfigModel CryptoModel ExtModel PathModel ConnModel
  HandshakeModel ConnSpec ServerModel ServerSpec ServerProofs PropServer CryptoSpec.

(** Position of an address in a list. *)
Fixpoint index_of (l : list addr) (a : addr) : option N :=
  match l with
  | [] => None
  | b :: l' => if a =? b then Some 0 else option_map N.succ (index_of l' a)
  end.
Lemma index_of_in l a : In a l -> exists j, index_of l a = Some j /\ j < N.of_nat (length l).
Proof.
  induction l as [|b l IH]; cbn [In index_of length]; [tauto|]. destruct (N.eqb_spec a b) as [->|Hne].
  - intros _. exists 0. split; [reflexivity|lia].
  - intros [H|H]; [congruence|]. destruct (IH H) as (j & -> & Hj). exists (N.succ j). split; [reflexivity|lia].
Qed.

(** The addresses of the clients that are reading and not over, in table order. *)
Definition active_addrs (t : table) : list addr := map fst (filter (fun x => active (snd x)) t).
Lemma active_addrs_in t a : In a (active_addrs t) -> In a (addrs t).
Proof.
  unfold active_addrs, addrs. intros H. apply in_map_iff in H as (x & <- & H). apply filter_In in H as [H _].
  apply in_map. exact H.
Qed.
Lemma rank_index t : NoDup (addrs t) -> forall k a, rank t k a = option_map (fun j => k + j) (index_of (active_addrs t) a).
Proof.
  unfold addrs, active_addrs. induction t as [|[b e] t IH]; cbn; intros ND k a; [reflexivity|].
  inversion ND as [|? ? Hni ND']; subst. specialize (IH ND'). destruct (active e) eqn:EA; cbn.
  - destruct (N.eqb_spec a b) as [->|Hne]; [cbn [option_map]; rewrite N.add_0_r; reflexivity|]. rewrite IH.
    destruct (index_of _ a); cbn [option_map]; [|reflexivity]. f_equal. lia.
  - destruct (N.eqb_spec a b) as [->|Hne]; [|apply IH].
    destruct (index_of _ b) eqn:EI; [|reflexivity]. exfalso.
    assert (In b (map fst (filter (fun x => active (snd x)) t))).
    { revert EI. generalize (map fst (filter (fun x : addr * entry => active (snd x)) t)). clear.
      intros l. revert n. induction l as [|x l IH]; cbn; intros n E; [discriminate|].
      destruct (N.eqb_spec b x); [auto|]. destruct (index_of l b); [right; eauto|discriminate]. }
    apply Hni. exact (active_addrs_in t b H).
Qed.

(** A pass stops at the first position tried where sending succeeds. *)
Lemma pass_first buflen try v a : forall t k t' o r, pass buflen try v k t = (t', o, r) -> NoDup (addrs t) ->
  forall j e, rank t k a = Some j -> find_entry t a = Some e -> try j = true -> snd (send_client buflen e (v a)) = true ->
  exists n, r = Some n /\ k < n <= j + 1 /\
    (n = j + 1 -> exists e' plain, send_client buflen e (v a) = (e', plain, true) /\
       find_entry t' a = Some e' /\ sent_to a o = map OPlain plain) /\ try (n - 1) = true.
Proof.
  unfold addrs. induction t as [|[b x] t IH]; cbn; intros k t' o r E ND j e HR HF HT HS; [discriminate|].
  inversion ND as [|? ? Hni ND']; subst. destruct (active x) eqn:EA.
  - destruct (N.eqb_spec a b) as [->|Hne].
    + injection HR as ->. injection HF as ->. rewrite HT in E.
      destruct (send_client buflen e (v b)) as [[e1 plain] ok] eqn:ES. cbn in HS. subst ok.
      injection E as <- <- <-. exists (j + 1). split; [reflexivity|]. split; [lia|]. split.
      * intros _. exists e1, plain. cbn. rewrite N.eqb_refl, sent_to_plains, N.eqb_refl. auto.
      * replace (j + 1 - 1) with j by lia. exact HT.
    + assert (Hkj : k + 1 <= j) by (eapply rank_ge; exact HR).
      destruct (try k) eqn:Etk.
      * destruct (send_client buflen x (v b)) as [[e1 plain] ok] eqn:ES. destruct ok.
        { injection E as <- <- <-. exists (k + 1). split; [reflexivity|]. split; [lia|]. split; [intros; lia|].
          replace (k + 1 - 1) with k by lia. exact Etk. }
        destruct (pass buflen try v (k + 1) t) as [[t1 o1] r1] eqn:EP. injection E as <- <- <-.
        destruct (IH _ _ _ _ EP ND' j e HR HF HT HS) as (n & -> & Hn & Hl & Ht). exists n. split; [reflexivity|]. split; [lia|].
        split; [|exact Ht]. intros En. destruct (Hl En) as (e' & pl & H1 & H2 & H3). exists e', pl. split; [exact H1|].
        rewrite sent_to_app, sent_to_plains. cbn. destruct (N.eqb_spec a b); [congruence|].
        destruct (N.eqb_spec b a); [congruence|]. auto.
      * destruct (pass buflen try v (k + 1) t) as [[t1 o1] r1] eqn:EP. injection E as <- <- <-.
        destruct (IH _ _ _ _ EP ND' j e HR HF HT HS) as (n & -> & Hn & Hl & Ht). exists n. split; [reflexivity|]. split; [lia|].
        split; [|exact Ht]. intros En. destruct (Hl En) as (e' & pl & H1 & H2 & H3). exists e', pl. cbn.
        destruct (N.eqb_spec a b); [congruence|]. auto.
  - destruct (N.eqb_spec a b) as [->|Hne]; [discriminate|].
    destruct (pass buflen try v k t) as [[t1 o1] r1] eqn:EP. injection E as <- <- <-.
    destruct (IH _ _ _ _ EP ND' j e HR HF HT HS) as (n & -> & Hn & Hl & Ht). exists n. split; [reflexivity|]. split; [lia|].
    split; [|exact Ht]. intros En. destruct (Hl En) as (e' & pl & H1 & H2 & H3). exists e', pl. cbn.
    destruct (N.eqb_spec a b); [congruence|]. auto.
Qed.
(** The result is a position tried among those of the table. *)
Lemma pass_range buflen try v : forall t k t' o n, pass buflen try v k t = (t', o, Some n) ->
  k < n <= k + N.of_nat (length (active_addrs t)) /\ try (n - 1) = true.
Proof.
  unfold active_addrs. induction t as [|[b x] t IH]; cbn; intros k t' o n E; [discriminate|]. destruct (active x) eqn:EA; cbn.
  - destruct (try k) eqn:Etk.
    + destruct (send_client buflen x (v b)) as [[e1 plain] ok] eqn:ES. destruct ok.
      { injection E as _ _ <-. split; [lia|]. replace (k + 1 - 1) with k by lia. exact Etk. }
      destruct (pass buflen try v (k + 1) t) as [[t1 o1] r1] eqn:EP. injection E as _ _ ->. apply IH in EP as [H1 H2]. split; [lia|exact H2].
    + destruct (pass buflen try v (k + 1) t) as [[t1 o1] r1] eqn:EP. injection E as _ _ ->. apply IH in EP as [H1 H2]. split; [lia|exact H2].
  - destruct (pass buflen try v k t) as [[t1 o1] r1] eqn:EP. injection E as _ _ ->. apply IH in EP. exact EP.
Qed.

(** [a] is ready in this turn: whenever the server tries to send to it in this turn, a block goes out. *)
Definition ready (t : table) (i : input) (a : addr) : Prop :=
  exists e, find_entry t a = Some e /\
    snd (send_client (i_buflen i) e (i_send1 i a)) = true /\ snd (send_client (i_buflen i) e (i_send2 i a)) = true.
(** A block is sent to [a] by this send_data_blocks. *)
Definition served (t : table) (next : N) (i : input) (a : addr) : Prop :=
  let '(t', o, _, _) := send_data_blocks t next i in
  exists e e' plain v, find_entry t a = Some e /\ (v = i_send1 i a \/ v = i_send2 i a) /\
    send_client (i_buflen i) e v = (e', plain, true) /\ find_entry t' a = Some e' /\ sent_to a o = map OPlain plain.

(** How many clients come before [j] when starting at the cursor. *)
Definition dist (n j cursor : N) : N :=
  if cursor <=? j then j - cursor else if cursor <? n then n - cursor + j else j.

Lemma round_progress t next i a t' o b next' j : NoDup (addrs t) ->
  index_of (active_addrs t) a = Some j -> j < N.of_nat (length (active_addrs t)) ->
  ready t i a -> send_data_blocks t next i = (t', o, b, next') ->
  served t next i a \/ dist (N.of_nat (length (active_addrs t))) j next' < dist (N.of_nat (length (active_addrs t))) j next.
Proof.
  intros ND HI Hj (e & HF & HS1 & HS2) E. unfold served. rewrite E. unfold send_data_blocks in E.
  assert (HR : rank t 0 a = Some j) by (rewrite rank_index, HI by assumption; reflexivity).
  set (n := N.of_nat (length (active_addrs t))) in *.
  destruct (pass (i_buflen i) (fun k => next <=? k) (i_send1 i) 0 t) as [[t1 o1] r1] eqn:E1.
  destruct (N.leb_spec next j) as [Hn|Hn].
  - destruct (pass_first _ _ _ a _ _ _ _ _ E1 ND j e HR HF (proj2 (N.leb_le next j) Hn) HS1) as (k & -> & Hk & Hl & Ht).
    injection E as <- <- _ <-. destruct (N.eq_dec k (j + 1)) as [Ek|Ek].
    + left. destruct (Hl Ek) as (e' & plain & H1 & H2 & H3). exists e, e', plain, (i_send1 i a). auto.
    + right. unfold dist. apply N.leb_le in Ht. destruct (N.leb_spec k j); [|lia]. destruct (N.leb_spec next j); lia.
  - destruct r1 as [k|].
    + injection E as <- <- _ <-. apply pass_range in E1 as [Hk Ht]. apply N.leb_le in Ht. fold n in Hk.
      right. unfold dist. destruct (N.leb_spec next j); [lia|].
      assert (Hlt : next < n) by lia. destruct (N.ltb_spec next n); [|lia].
      destruct (N.leb_spec k j); [lia|]. destruct (N.ltb_spec k n); lia.
    + destruct (pass (i_buflen i) (fun k => k <? next) (i_send2 i) 0 t1) as [[t2 o2] r2] eqn:E2.
      assert (ND1 : NoDup (addrs t1)) by (rewrite (pass_addrs _ _ _ _ _ _ _ _ E1); exact ND).
      assert (HR1 : rank t1 0 a = Some j) by (eapply pass_rank_low; eassumption).
      assert (HF1 : find_entry t1 a = Some e /\ sent_to a o1 = []).
      { destruct (pass_own _ _ _ a _ _ _ _ _ E1 ND) as [[-> ->]|(e0 & j0 & e' & plain & ok & _ & _ & HR0 & HT & _)]; [auto|].
        rewrite HR in HR0. injection HR0 as <-. apply N.leb_le in HT. lia. }
      destruct HF1 as [HF1 Ho1].
      destruct (pass_first _ _ _ a _ _ _ _ _ E2 ND1 j e HR1 HF1 (proj2 (N.ltb_lt j next) Hn) HS2) as (k & -> & Hk & Hl & Ht).
      injection E as <- <- _ <-. destruct (N.eq_dec k (j + 1)) as [Ek|Ek].
      * left. destruct (Hl Ek) as (e' & plain & H1 & H2 & H3). exists e, e', plain, (i_send2 i a).
        rewrite sent_to_app, Ho1, H3. auto.
      * right. unfold dist. destruct (N.leb_spec k j); [|lia]. destruct (N.leb_spec next j); [lia|]. destruct (N.ltb_spec next n); lia.
Qed.

(** A run of the server in which, turn after turn, the clients being sent to are [L], the client
    at [a] is ready, and is not served. *)
Inductive waiting (c : crypto) (g : srvcfg) (L : list addr) (a : addr) : sstate -> list input -> Prop :=
| waiting_nil s : waiting c g L a s []
| waiting_cons s i s1 o1 s' o is :
    step_clean g s i = (s1, o1) -> active_addrs (s_clients s1) = L -> ready (s_clients s1) i a ->
    ~ served (s_clients s1) (s_send s1) i a ->
    server_step c g s i = Some (s', o) -> waiting c g L a s' is -> waiting c g L a s (i :: is).

Lemma recv_keeps_send c g s i s' o : step_recv c g s i = Some (s', o) -> s_send s' = s_send s.
Proof.
  unfold step_recv. destruct (scan _ _ _ _) as [found cursor]. destruct found as [[a d]|].
  - destruct (find_entry (s_clients s) a); [|discriminate]. unfold known_client.
    destruct (handle_client _ _ _ _ _) as [[e' plain]|]; [|discriminate]. intros [= <- _]. reflexivity.
  - destruct (i_main i) as [from d| |]; [|intros [= <- _]; reflexivity|discriminate].
    destruct (has_entry _ _); [intros [= <- _]; reflexivity|]. unfold new_client.
    destruct (_ <=? _); [intros [= <- _]; reflexivity|].
    destruct (server_new _ _ _ _ _); [discriminate| |]; intros [= <- _]; reflexivity.
Qed.

(** With [n] readers having something to send, a ready one is served within [n] turns: there is
    no run of [n] turns in which it is always passed over. *)
Theorem sending_is_fair : forall c g L a s is, sreach c g s -> In a L -> waiting c g L a s is ->
  (length is < length L)%nat.
Proof.
  intros c g L a s is R Hin W. destruct (index_of_in L a Hin) as (j & HI & Hj).
  assert (D : forall s is, sreach c g s -> waiting c g L a s is -> (length is = 0)%nat \/ N.of_nat (length is) <= dist (N.of_nat (length L)) j (s_send s)).
  { clear s is R W. intros s is R W. induction W as [s|s i s1 o1 s' o is EC EL HR HS E W IH]; [left; reflexivity|].
    right. assert (R' : sreach c g s') by (eapply sreach_step; eassumption).
    destruct (sreach_ok c g s R) as [So Le]. pose proof (clean_ok g s i s1 o1 (conj So Le) EC) as [So1 _].
    destruct (clean_clients g s i s1 o1 EC (sorted_nodup _ So)) as (f & _ & _ & Hsend & _).
    unfold server_step in E. rewrite EC in E. destruct (step_send s1 i) as [s2 o2] eqn:E2.
    destruct (step_recv c g s2 i) as [[s3 o3]|] eqn:E3; [|discriminate]. injection E as <- _.
    apply recv_keeps_send in E3. unfold step_send in E2.
    destruct (send_data_blocks (s_clients s1) (s_send s1) i) as [[[t' o'] b] next'] eqn:ES. injection E2 as <- _. cbn in E3.
    destruct (round_progress (s_clients s1) (s_send s1) i a t' o' b next' j) as [Hs|Hd]; try assumption.
    - apply sorted_nodup; exact So1.
    - rewrite EL. exact HI.
    - rewrite EL. exact Hj.
    - contradiction.
    - rewrite EL, Hsend in Hd. specialize (IH R'). rewrite E3 in IH. cbn [length]. lia. }
  destruct (D s is R W) as [H|H].
  - destruct L; [destruct Hin|cbn; lia].
  - unfold dist in H. destruct (N.leb_spec (s_send s) j); [lia|]. destruct (N.ltb_spec (s_send s) (N.of_nat (length L))); [lia|]. lia.
Qed.

(** ** Receiving *)
Lemma scan_spec rx : forall t skip cursor r n, NoDup (addrs t) -> scan rx skip cursor t = (r, n) -> skip <= cursor ->
  match r with
  | Some (a, d) => exists j, index_of (addrs t) a = Some j /\ skip <= j /\ n = cursor + (j - skip) + 1 /\ rx a = Some d /\
      (forall b k, index_of (addrs t) b = Some k -> skip <= k -> k < j -> rx b = None)
  | None => forall a j, index_of (addrs t) a = Some j -> skip <= j -> rx a = None
  end.
Proof.
  assert (Hidx : forall l a j, index_of l a = Some j -> In a l).
  { induction l as [|x l IH]; cbn; intros a j E; [discriminate|]. destruct (N.eqb_spec a x); [auto|].
    destruct (index_of l a) eqn:EI; [|discriminate]. right. eauto. }
  unfold addrs. induction t as [|[b e] t IH]; cbn [scan map fst index_of]; intros skip cursor r n ND E Hs.
  - injection E as <- _. discriminate.
  - inversion ND as [|? ? Hni ND']; subst.
    destruct (N.ltb_spec 0 skip) as [Hk|Hk].
    + specialize (IH (skip - 1) cursor r n ND' E ltac:(lia)). destruct r as [[a d]|].
      * destruct IH as (j & HI & H1 & H2 & H3 & H4). rewrite HI. destruct (N.eqb_spec a b) as [->|Hne].
        -- apply Hidx in HI. contradiction.
        -- exists (N.succ j). cbn [option_map]. split; [reflexivity|]. split; [lia|]. split; [lia|]. split; [exact H3|].
           intros x k Hx Hk1 Hk2. destruct (N.eqb_spec x b) as [->|]; [injection Hx as <-; lia|].
           destruct (index_of _ x) eqn:EX; [|discriminate]. injection Hx as <-. eapply H4; [exact EX|lia|lia].
      * intros a j Ha Hj. destruct (N.eqb_spec a b) as [->|]; [injection Ha as <-; lia|].
        destruct (index_of _ a) eqn:EX; [|discriminate]. injection Ha as <-. eapply IH; [exact EX|lia].
    + assert (skip = 0) as -> by lia. destruct (rx b) as [d|] eqn:Erx.
      * injection E as <- <-. exists 0. rewrite N.eqb_refl. split; [reflexivity|]. split; [lia|]. split; [lia|].
        split; [exact Erx|]. intros. lia.
      * specialize (IH 0 (cursor + 1) r n ND' E ltac:(lia)). destruct r as [[a d]|].
        -- destruct IH as (j & HI & H1 & H2 & H3 & H4). rewrite HI. destruct (N.eqb_spec a b) as [->|Hne].
           ++ apply Hidx in HI. contradiction.
           ++ exists (N.succ j). cbn [option_map]. split; [reflexivity|]. split; [lia|]. split; [lia|]. split; [exact H3|].
              intros x k Hx Hk1 Hk2. destruct (N.eqb_spec x b) as [->|]; [exact Erx|].
              destruct (index_of _ x) eqn:EX; [|discriminate]. injection Hx as <-. eapply H4; [exact EX|lia|lia].
        -- intros a j Ha Hj. destruct (N.eqb_spec a b) as [->|]; [exact Erx|].
           destruct (index_of _ a) eqn:EX; [|discriminate]. injection Ha as <-. eapply IH; [exact EX|lia].
Qed.

(** The main socket is asked in this turn (with state [s] before receiving). *)
Definition asks_main (s : sstate) (i : input) : Prop :=
  fst (scan (i_rx i) (s_recv s) (s_recv s) (s_clients s)) = None.
(** The datagram waiting for [a] is taken in this turn. *)
Definition takes (s : sstate) (i : input) (a : addr) : Prop :=
  exists d, fst (scan (i_rx i) (s_recv s) (s_recv s) (s_clients s)) = Some (a, d).
(** The state in which a turn reaches the receiving phase. *)
Definition before_recv (g : srvcfg) (s : sstate) (i : input) : sstate :=
  fst (step_send (fst (step_clean g s i)) i).

Lemma before_recv_facts c g s i s' o : sreach c g s -> server_step c g s i = Some (s', o) ->
  sorted (s_clients (before_recv g s i)) /\ s_recv (before_recv g s i) = s_recv s /\
  (length (s_clients (before_recv g s i)) <= length (s_clients s))%nat /\
  exists o3, step_recv c g (before_recv g s i) i = Some (s', o3).
Proof.
  intros R E. unfold before_recv, server_step in *. destruct (sreach_ok c g s R) as [So Le].
  destruct (step_clean g s i) as [s1 o1] eqn:E1. cbn [fst]. pose proof (clean_ok g s i s1 o1 (conj So Le) E1) as T1.
  destruct (clean_clients g s i s1 o1 E1 (sorted_nodup _ So)) as (f & F1 & F2 & _).
  destruct (step_send s1 i) as [s2 o2] eqn:E2. cbn [fst]. pose proof (send_ok g s1 i s2 o2 T1 E2) as [T2 _].
  apply step_send_addrs in E2 as (A & B & _).
  destruct (step_recv c g s2 i) as [[s3 o3]|] eqn:E3; [|discriminate]. injection E as <- _.
  split; [exact T2|]. split; [congruence|]. split; [|eauto].
  rewrite (addrs_length _ _ A), F1. apply filter_len.
Qed.
Lemma recv_cursor c g s i s' o : step_recv c g s i = Some (s', o) ->
  match fst (scan (i_rx i) (s_recv s) (s_recv s) (s_clients s)) with
  | Some _ => s_recv s' = snd (scan (i_rx i) (s_recv s) (s_recv s) (s_clients s)) /\ addrs (s_clients s') = addrs (s_clients s)
  | None => s_recv s' = 0
  end.
Proof.
  unfold step_recv. destruct (scan _ _ _ _) as [found cursor]. cbn [fst snd]. destruct found as [[a d]|].
  - destruct (find_entry (s_clients s) a); [|discriminate]. unfold known_client.
    destruct (handle_client _ _ _ _ _) as [[e' plain]|]; [|discriminate]. intros [= <- _]. cbn [s_recv s_clients set_recv].
    split; [reflexivity|apply update_addrs].
  - destruct (i_main i) as [from d| |]; [|intros [= <- _]; reflexivity|discriminate].
    destruct (has_entry _ _); [intros [= <- _]; reflexivity|]. unfold new_client.
    destruct (_ <=? _); [intros [= <- _]; reflexivity|].
    destruct (server_new _ _ _ _ _); [discriminate| |]; intros [= <- _]; reflexivity.
Qed.

(** New clients are not starved by busy ones: with [n] connections the main socket is asked at
    least once in [n + 1] turns. *)
Inductive deaf (c : crypto) (g : srvcfg) : sstate -> list input -> Prop :=
| deaf_nil s : deaf c g s []
| deaf_cons s i s' o is : ~ asks_main (before_recv g s i) i -> server_step c g s i = Some (s', o) -> deaf c g s' is ->
    deaf c g s (i :: is).
Theorem main_socket_is_not_starved : forall c g s is, sreach c g s -> deaf c g s is ->
  (length is <= length (s_clients s))%nat.
Proof.
  intros c g s is R D.
  assert (H : N.of_nat (length is) <= N.of_nat (length (s_clients s)) - s_recv s \/ length is = 0%nat).
  { induction D as [s|s i s' o is HA E D IH]; [right; reflexivity|]. left.
    destruct (before_recv_facts c g s i s' o R E) as (S2 & Hr & Hl & o3 & E3).
    apply recv_cursor in E3. unfold asks_main in HA. pose proof (sorted_nodup _ S2) as ND.
    destruct (scan (i_rx i) (s_recv (before_recv g s i)) (s_recv (before_recv g s i)) (s_clients (before_recv g s i))) as [r n] eqn:ES.
    pose proof (scan_spec _ _ _ _ _ _ ND ES (N.le_refl _)) as SP. cbn [fst snd] in *.
    destruct r as [[a d]|]; [|congruence]. destruct SP as (j & HI & H1 & H2 & _).
    assert (Hj : j < N.of_nat (length (s_clients (before_recv g s i)))).
    { rewrite <- (map_length fst (s_clients (before_recv g s i))). change (map fst ?t) with (addrs t).
      destruct (index_of_in (addrs (s_clients (before_recv g s i))) a) as (j' & Hj' & Hlt).
      { clear -HI. revert j HI. generalize (addrs (s_clients (before_recv g s i))). intros l. induction l as [|x l IH]; cbn; intros j E; [discriminate|].
        destruct (N.eqb_spec a x); [auto|]. destruct (index_of l a); [right; eauto|discriminate]. }
      rewrite HI in Hj'. injection Hj' as <-. exact Hlt. }
    destruct E3 as [E3 E4]. apply addrs_length in E4.
    assert (R' : sreach c g s') by (eapply sreach_step; eassumption).
    specialize (IH R'). cbn [length]. rewrite E3, H2, E4 in IH. rewrite Hr in *. lia. }
  lia.
Qed.

(** A client with datagrams waiting is heard within [n + 1] turns while the connections stay the same. *)
Inductive unheard (c : crypto) (g : srvcfg) (L : list addr) (a : addr) : sstate -> list input -> Prop :=
| unheard_nil s : unheard c g L a s []
| unheard_cons s i s' o is :
    addrs (s_clients (before_recv g s i)) = L -> i_rx i a <> None -> ~ takes (before_recv g s i) i a ->
    server_step c g s i = Some (s', o) -> unheard c g L a s' is -> unheard c g L a s (i :: is).
Theorem receiving_is_fair : forall c g L a s is, sreach c g s -> In a L -> unheard c g L a s is ->
  (length is <= length L)%nat.
Proof.
  intros c g L a s is R Hin U. destruct (index_of_in L a Hin) as (j & HI & Hj).
  set (n := N.of_nat (length L)) in *.
  set (wt := fun cursor => if cursor <=? j then j - cursor else if cursor <? n then n - cursor + j + 1 else j + 1).
  assert (H : N.of_nat (length is) <= wt (s_recv s)).
  { clear Hin. induction U as [s|s i s' o is HL Hrx HT E U IH]; [cbn; lia|].
    destruct (before_recv_facts c g s i s' o R E) as (S2 & Hr & Hl & o3 & E3).
    apply recv_cursor in E3. pose proof (sorted_nodup _ S2) as ND. unfold takes in HT.
    destruct (scan (i_rx i) (s_recv (before_recv g s i)) (s_recv (before_recv g s i)) (s_clients (before_recv g s i))) as [r k] eqn:ES.
    pose proof (scan_spec _ _ _ _ _ _ ND ES (N.le_refl _)) as SP. cbn [fst snd] in *. rewrite HL, Hr in SP.
    assert (R' : sreach c g s') by (eapply sreach_step; eassumption). specialize (IH R'). cbn [length].
    destruct r as [[b d]|].
    - destruct SP as (jb & HIb & H1 & H2 & H3 & H4). destruct E3 as [E3 _]. rewrite E3, H2 in IH.
      assert (Hb : b <> a) by (intros ->; apply HT; eauto).
      assert (Hjb : jb < n).
      { destruct (index_of_in L b) as (j' & Hj' & Hlt); [|rewrite HIb in Hj'; injection Hj' as <-; exact Hlt].
        clear -HIb. revert jb HIb. induction L as [|x l IH]; cbn; intros jb E; [discriminate|].
        destruct (N.eqb_spec b x); [auto|]. destruct (index_of l b); [right; eauto|discriminate]. }
      assert (Hne : jb <> j).
      { intros ->. apply Hb. clear -HI HIb. revert j HI HIb. induction L as [|x l IH]; cbn; intros j E1 E2; [discriminate|].
        destruct (N.eqb_spec a x) as [->|]; [injection E1 as <-|].
        - destruct (N.eqb_spec b x) as [->|]; [reflexivity|]. destruct (index_of l b); [|discriminate]. injection E2 as E2. destruct n0; discriminate.
        - destruct (index_of l a) eqn:EA; [|discriminate]. injection E1 as <-.
          destruct (N.eqb_spec b x) as [->|]; [injection E2 as E2; destruct n0; discriminate|].
          destruct (index_of l b) eqn:EB; [|discriminate]. injection E2 as E2. apply N.succ_inj in E2 as ->. eapply IH; eauto. }
      assert (Hord : s_recv s <= j -> jb < j).
      { intros Hle. destruct (N.lt_trichotomy jb j) as [Hx|[Hx|Hx]]; [exact Hx|congruence|].
        exfalso. apply Hrx. eapply H4; eassumption. }
      unfold wt in *. replace (s_recv s + (jb - s_recv s) + 1) with (jb + 1) in IH by lia.
      destruct (N.leb_spec (s_recv s) j) as [Hc|Hc].
      + specialize (Hord Hc). destruct (N.leb_spec (jb + 1) j); [lia|lia].
      + destruct (N.leb_spec (jb + 1) j); [lia|]. destruct (N.ltb_spec (s_recv s) n); [|lia].
        destruct (N.ltb_spec (jb + 1) n); lia.
    - rewrite E3 in IH. unfold wt in *. destruct (N.leb_spec (s_recv s) j) as [Hc|Hc].
      + exfalso. apply Hrx. eapply SP; eassumption.
      + destruct (N.leb_spec 0 j); [|lia]. destruct (s_recv s <? n); lia. }
  unfold wt in H. destruct (N.leb_spec (s_recv s) j); [lia|]. destruct (N.ltb_spec (s_recv s) n); lia.
Qed.

(** ** Cleaning up (C29) *)
(** When more than two seconds have passed since the last time, exactly the connections that
    are over (finished, failed, or idle for longer than the request timeout) are removed. *)
Theorem clean_up_exact : forall c g s i s1 o, sreach c g s -> step_clean g s i = (s1, o) ->
  2000 < i_now i - s_cleaned s -> forall a e,
  find_entry (s_clients s1) a = Some e <->
  find_entry (s_clients s) a = Some e /\ c_invalid (en_conn e) = None /\ c_finished (en_conn e) = false /\
    e_now (i_clean i a) - c_updated (en_conn e) <= g_timeout g.
Proof.
  intros c g s i s1 o R E Ht a e. destruct (sreach_ok c g s R) as [So _]. pose proof (sorted_nodup _ So) as ND.
  unfold step_clean in E. apply N.ltb_lt in Ht. rewrite Ht in E.
  destruct (retain _ _ _) as [t o1] eqn:ER. apply retain_clients_spec in ER as [-> _]; [|exact ND]. injection E as <- _. cbn [s_clients].
  rewrite find_filter by exact ND. destruct (find_entry (s_clients s) a) as [x|]; [|split; [discriminate|intros [H _]; discriminate]].
  cbn [fst snd]. unfold timeout_client. destruct (c_invalid (en_conn x)) as [t|] eqn:Ei; cbn [orb].
  { split; [discriminate|]. intros ([= ->] & H & _). congruence. }
  destruct (c_finished (en_conn x)) eqn:Ef.
  { split; [discriminate|]. intros ([= ->] & _ & H & _). congruence. }
  destruct (N.leb_spec (e_now (i_clean i a) - c_updated (en_conn x)) (g_timeout g)) as [Hle|Hgt]; cbn [negb fst].
  - split; [intros [= ->]; auto|]. intros (H & _). exact H.
  - split; [discriminate|]. intros ([= ->] & _ & _ & H). lia.
Qed.

(** The same for the threads: a thread whose connection is over ends at the start of its next
    turn, leaves the connection as it is and tells a merely silent peer; otherwise it ends only
    if its socket fails or handling the datagram panics. *)
Theorem thread_ends_iff : forall c g e buflen v1 v2 v3 ev t plain,
  thread_turn c g e buflen v1 v2 v3 ev = (t, plain) ->
  let k := en_conn e in
  let over := c_invalid k <> None \/ c_finished k = true \/ g_timeout g < e_now v1 - c_updated k in
  (over -> th_live t = false /\ th_entry t = e /\
     (c_invalid k = None -> c_finished k = false ->
      plain = if e_sock v1 then [to_bytes (PError AccessViolation (e_txt v1))] else []) /\
     (c_invalid k <> None \/ c_finished k = true -> plain = [])) /\
  (~ over -> (th_live t = false <->
     ev = TError \/
     exists d, ev = TData d /\
       handle_client c (g_max_size g) (fst (fst (send_client buflen e v2))) (thread_cut e d) v3 = None)).
Proof.
  intros c g e buflen v1 v2 v3 ev t plain E k over. unfold thread_turn, timeout_client in E. fold k in E.
  destruct (c_invalid k) as [x|] eqn:Ei; cbn [orb] in E.
  { injection E as <- <-. split; [intros _; repeat split; congruence|]. intros H. exfalso. apply H. left. congruence. }
  destruct (c_finished k) eqn:Ef.
  { injection E as <- <-. split; [intros _; repeat split; congruence|]. intros H. exfalso. apply H. right. left. reflexivity. }
  destruct (N.leb_spec (e_now v1 - c_updated k) (g_timeout g)) as [Hle|Hgt].
  - split; [intros [H|[H|H]]; [congruence|congruence|lia]|]. intros _.
    destruct (send_client buflen e v2) as [[e1 plain1] ok]. cbn [fst].
    destruct ev as [d| |].
    + destruct (handle_client _ _ _ _ _) as [[e2 plain2]|] eqn:EH; injection E as <- _; cbn [th_live].
      * split; [discriminate|]. intros [H|(d' & [= <-] & H)]; congruence.
      * split; [|reflexivity]. intros _. right. exists d. auto.
    + injection E as <- _. cbn. split; [discriminate|]. intros [H|(d & H & _)]; discriminate.
    + injection E as <- _. cbn. split; auto.
  - injection E as <- <-. split; [|intros H; exfalso; apply H; right; right; exact Hgt].
    intros _. cbn. repeat split; [intros [H|H]; congruence].
Qed.
(** The accepting loop forgets ended threads, so their places and addresses are free again. *)
Theorem ended_threads_forgotten : forall c g m ev i m' o, main_turn c g m ev i = Some (m', o) ->
  forall a t, In (a, t) (m_handles m') -> th_live t = true.
Proof.
  intros c g m ev i m' o E a t Hin. unfold main_turn in E. set (h := filter _ (m_handles m)) in *.
  assert (Hh : forall b y, In (b, y) h -> th_live y = true) by (intros b y H; apply filter_In in H as [_ H]; exact H).
  destruct ev as [from d| |]; [|injection E as <- _; eauto|discriminate].
  destruct (find_handle h from); [injection E as <- _; eauto|].
  destruct (g_max_conn g <=? _); [injection E as <- _; eauto|].
  destruct (server_new _ _ _ _ _) as [|reply|x reply]; [discriminate|injection E as <- _; eauto|].
  injection E as <- _. cbn [m_handles] in Hin. revert Hin Hh. generalize h. clear.
  induction h as [|[b y] h IH]; cbn; intros Hin Hh.
  - destruct Hin as [[= _ <-]|[]]. reflexivity.
  - destruct (from <? b).
    + destruct Hin as [[= _ <-]|Hin]; [reflexivity|]. apply (Hh a t). exact Hin.
    + destruct Hin as [Hin|Hin]; [apply (Hh a t); left; exact Hin|]. apply IH; [exact Hin|]. intros b' y' H. apply (Hh b' y'). right. exact H.
Qed.
(** A thread of an upload begun at 10 with a request timeout of 100 ms: at 110 it goes on, at 111
    it ends and says so. *)
Example thread_ends_case :
  let g := mkSC (mkScfg 1400 8 100 1000000 None None false false false) 5 in
  let e := mkE (conn_new default_options 10) None (WWrite [] writer_new) in
  let v n := mkEnv n true None true [84] in
  let turn n := thread_turn toy g e 0 (v n) (v n) (v n) TWouldBlock in
  th_live (fst (turn 110)) = true /\ snd (turn 110) = [] /\
  th_live (fst (turn 111)) = false /\ snd (turn 111) = [to_bytes (PError AccessViolation [84])].
Proof. vm_compute. auto. Qed.

(** ** Waiting *)
(** The server never waits longer than half a second for a datagram, and not at all after a
    turn in which it sent or received something. *)
Theorem wait_bounded : forall c g s, sreach c g s ->
  wt_idle (s_wait s) < 256 /\
  forall n, match wait_for (s_wait s) n with Some t => t <= 500 | None => 0 < n end.
Proof.
  intros c g s R. assert (H : wt_idle (s_wait s) < 256).
  { assert (W1 : forall w b, wt_idle w < 256 -> wt_idle (wait_sending w b) < 256).
    { intros w b Hw. unfold wait_sending. destruct b; cbn [wt_idle]; [lia|]. apply N.mod_upper_bound. discriminate. }
    induction R as [now|s i s' o R IH E]; [cbn; lia|].
    unfold server_step in E. destruct (step_clean g s i) as [s1 o1] eqn:E1. destruct (step_send s1 i) as [s2 o2] eqn:E2.
    destruct (step_recv c g s2 i) as [[s3 o3]|] eqn:E3; [|discriminate]. injection E as <- _.
    assert (H1 : wt_idle (s_wait s1) < 256).
    { unfold step_clean in E1. destruct (2000 <? _); [destruct (retain _ _ _)|]; injection E1 as <- _; exact IH. }
    assert (H2 : wt_idle (s_wait s2) < 256).
    { unfold step_send in E2. destruct (send_data_blocks _ _ _) as [[[t o'] b] n]. injection E2 as <- _. apply W1. exact H1. }
    unfold step_recv in E3. destruct (scan _ _ _ _) as [[[a d]|] cursor].
    - destruct (find_entry (s_clients s2) a); [|discriminate]. unfold known_client in E3.
      destruct (handle_client _ _ _ _ _) as [[e' plain]|]; [|discriminate]. injection E3 as <- _. cbn. lia.
    - destruct (i_main i) as [from d| |]; [| |discriminate].
      + destruct (has_entry _ _); [injection E3 as <- _; exact H2|]. unfold new_client in E3.
        destruct (_ <=? _); [injection E3 as <- _; cbn; lia|].
        destruct (server_new _ _ _ _ _); [discriminate| |]; injection E3 as <- _; cbn; lia.
      + injection E3 as <- _. cbn. apply N.mod_upper_bound. discriminate. }
  split; [exact H|]. intros n. unfold wait_for. destruct (N.eqb_spec n 0); [lia|].
  destruct (negb _ && negb _); lia.
Qed.
(** Socket ids handed out are never 0 (the id of the main socket). *)
Theorem socket_ids_valid : forall c g s, sreach c g s -> 1 <= s_sockid s <= 4294967295.
Proof.
  intros c g s R. induction R as [now|s i s' o R IH E]; [cbn; lia|].
  unfold server_step in E. destruct (step_clean g s i) as [s1 o1] eqn:E1. destruct (step_send s1 i) as [s2 o2] eqn:E2.
  destruct (step_recv c g s2 i) as [[s3 o3]|] eqn:E3; [|discriminate]. injection E as <- _.
  assert (H1 : s_sockid s2 = s_sockid s).
  { apply step_send_addrs in E2 as (_ & _ & ->). unfold step_clean in E1. destruct (2000 <? _); [destruct (retain _ _ _)|]; injection E1 as <- _; reflexivity. }
  unfold step_recv in E3. destruct (scan _ _ _ _) as [[[a d]|] cursor].
  - destruct (find_entry (s_clients s2) a); [|discriminate]. unfold known_client in E3.
    destruct (handle_client _ _ _ _ _) as [[e' plain]|]; [|discriminate]. injection E3 as <- _. cbn. lia.
  - destruct (i_main i) as [from d| |]; [| |discriminate].
    + destruct (has_entry _ _); [injection E3 as <- _; cbn; lia|]. unfold new_client in E3.
      destruct (_ <=? _); [injection E3 as <- _; cbn; lia|].
      destruct (server_new _ _ _ _ _); [discriminate| |]; injection E3 as <- _; cbn [s_sockid set_recv]; [lia|].
      rewrite H1. unfold next_socket_id. destruct (N.leb_spec (s_sockid s + 1) 4294967295); lia.
    + injection E3 as <- _. cbn. lia.
Qed.
Print Assumptions sending_is_fair.
Print Assumptions main_socket_is_not_starved.
Print Assumptions receiving_is_fair.
Print Assumptions clean_up_exact.
Print Assumptions thread_ends_iff.
Print Assumptions ended_threads_forgotten.
Print Assumptions wait_bounded.
Print Assumptions socket_ids_valid.
