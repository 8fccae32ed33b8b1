(** Invariant of the poller: no connection's socket is forgotten. *)
From Verif Require Import Base BaseProofs PacketModel ConfigModel CryptoModel ExtModel ConnModel ConnSpec HandshakeModel ServerModel ServerSpec
  ServerProofs PropServer PropFair PollModel.

Lemma mem_in x l : mem x l = true <-> In x l.
Proof.
  unfold mem. rewrite existsb_exists. split; [intros (y & H & E); apply N.eqb_eq in E as ->; exact H|].
  intros H. exists x. split; [exact H|apply N.eqb_refl].
Qed.
Lemma mem_not x l : mem x l = false <-> ~ In x l.
Proof. rewrite <- mem_in. destruct (mem x l); split; congruence. Qed.
Lemma upd_same {A} (f : N -> A) k v : upd f k v k = v.
Proof. unfold upd. rewrite N.eqb_refl. reflexivity. Qed.
Lemma upd_other {A} (f : N -> A) k v x : x <> k -> upd f k v x = f x.
Proof. unfold upd. destruct (N.eqb_spec x k); [contradiction|reflexivity]. Qed.
Lemma enlist_in l id x : In x (enlist l id) <-> In x l \/ x = id.
Proof.
  unfold enlist. destruct (mem id l) eqn:M.
  - apply mem_in in M. split; [auto|]. intros [H| ->]; assumption.
  - rewrite in_app_iff. cbn [In]. split; [intros [H|[H|[]]]; auto|intros [H| ->]; auto].
Qed.
Lemma enlist_nodup l id : NoDup l -> NoDup (enlist l id).
Proof.
  unfold enlist. destruct (mem id l) eqn:M; [auto|]. apply mem_not in M. intros H.
  apply (NoDup_Add (a := id) (l := l)); [|split; assumption]. rewrite <- (app_nil_r l) at 1. apply Add_app.
Qed.
Lemma has_entry_in t a : has_entry t a = true <-> In a (addrs t).
Proof.
  unfold has_entry. destruct (find_entry t a) as [e|] eqn:F.
  - split; [|auto]. intros _. apply find_in in F. apply (in_map fst) in F. exact F.
  - apply find_none in F. split; [discriminate|contradiction].
Qed.
Lemma nodup_filter {A} (f : A -> bool) l : NoDup l -> NoDup (filter f l).
Proof. apply NoDup_filter. Qed.

Record PI (L : list addr) (k : N) (p : poll) : Prop := mkPI {
  pi_ids : forall a, In a L -> po_ids p a <> MAIN /\ po_ids p a <= k;
  pi_inj : forall a b, In a L -> In b L -> po_ids p a = po_ids p b -> a = b;
  pi_watch : forall a, In a L -> po_armed p (po_ids p a) = true \/ po_noted p (po_ids p a) = true;
  pi_ready : forall a, In a L -> po_armed p (po_ids p a) = true -> po_queue p a <> [] -> In (po_ids p a) (po_ready p);
  pi_nodup : NoDup (po_ready p);
  pi_sub : forall id, In id (po_ready p) -> id = MAIN \/ exists a, In a L /\ po_ids p a = id }.

Lemma PI_arrive L k p a d : PI L k p -> In a L -> PI L k (arrive p a d).
Proof.
  intros [H1 H2 H3 H4 H5 H6] Ha. unfold arrive. split; cbn [po_ids po_armed po_ready po_noted po_queue]; try assumption.
  - intros b Hb A Q. destruct (N.eqb_spec b a) as [->|Hne].
    + rewrite A. apply enlist_in. auto.
    + rewrite upd_other in Q by exact Hne. destruct (po_armed p (po_ids p a)); [apply enlist_in; left|]; apply H4; assumption.
  - destruct (po_armed p _); [apply enlist_nodup|]; exact H5.
  - intros id. destruct (po_armed p _); [|apply H6]. rewrite enlist_in. intros [H| ->]; [apply H6; exact H|right; eauto].
Qed.
Lemma PI_main L k p : PI L k p -> PI L k (main_readable p).
Proof.
  intros [H1 H2 H3 H4 H5 H6]. unfold main_readable. split; cbn [po_ids po_armed po_ready po_noted po_queue]; try assumption.
  - intros b Hb A Q. destruct (po_armed p MAIN); [apply enlist_in; left|]; apply H4; assumption.
  - destruct (po_armed p _); [apply enlist_nodup|]; exact H5.
  - intros id. destruct (po_armed p _); [|apply H6]. rewrite enlist_in. intros [H| ->]; [apply H6; exact H|auto].
Qed.
Lemma PI_close L k p t : PI L k p -> (forall a, In a (addrs t) -> In a L) -> PI (addrs t) k (close_others p t).
Proof.
  intros [H1 H2 H3 H4 H5 H6] HS. unfold close_others.
  assert (O : forall a, In a (addrs t) -> existsb (fun x => po_ids p (fst x) =? po_ids p a) t = true).
  { intros a Ha. apply existsb_exists. unfold addrs in Ha. apply in_map_iff in Ha as (x & <- & Hx). exists x. split; [exact Hx|apply N.eqb_refl]. }
  split; cbn [po_ids po_armed po_ready po_noted po_queue].
  - auto.
  - auto.
  - intros a Ha. rewrite (O a Ha), Bool.orb_true_r, Bool.andb_true_r. auto.
  - intros a Ha A Q. apply Bool.andb_true_iff in A as [A _]. apply filter_In. split; [apply H4; auto|]. rewrite (O a Ha). apply Bool.orb_true_r.
  - apply NoDup_filter. exact H5.
  - intros id HI. apply filter_In in HI as [HI E]. apply Bool.orb_true_iff in E as [E|E]; [left; apply N.eqb_eq; exact E|].
    apply existsb_exists in E as (x & Hx & E). apply N.eqb_eq in E. right. exists (fst x). split; [apply in_map; exact Hx|exact E].
Qed.
Lemma PI_modify L k p a : PI L k p -> In a L ->
  let q := tl (po_queue p a) in
  PI L k (modify_interest (mkPoll (po_ids p) (po_armed p) (po_ready p) (po_noted p) (upd (po_queue p) a q)) (po_ids p a)
    (match q with [] => false | _ => true end)).
Proof.
  intros [H1 H2 H3 H4 H5 H6] Ha q. unfold modify_interest. split; cbn [po_ids po_armed po_ready po_noted po_queue]; try assumption.
  - intros b Hb. destruct (N.eqb_spec (po_ids p b) (po_ids p a)) as [E|E].
    + rewrite E, upd_same. auto.
    + rewrite !upd_other by exact E. auto.
  - intros b Hb A Q. destruct (N.eqb_spec b a) as [->|Hne].
    + rewrite upd_same in Q. destruct q; [contradiction|]. apply enlist_in. auto.
    + rewrite upd_other in Q by exact Hne. rewrite upd_other in A by (intros E; apply Hne; auto).
      specialize (H4 b Hb A Q). destruct q; [exact H4|apply enlist_in; auto].
  - destruct q; [exact H5|apply enlist_nodup; exact H5].
  - intros id HI. assert (HI' : In id (po_ready p) \/ id = po_ids p a) by (destruct q; [auto|apply enlist_in; exact HI]).
    destruct HI' as [H| ->]; [auto|right; eauto].
Qed.
Lemma PI_modify_main L k p more : PI L k p -> PI L k (modify_interest p MAIN more).
Proof.
  intros [H1 H2 H3 H4 H5 H6]. unfold modify_interest. split; cbn [po_ids po_armed po_ready po_noted po_queue]; try assumption.
  - intros b Hb. destruct (H1 b Hb) as [N0 _]. rewrite !upd_other by exact N0. auto.
  - intros b Hb A Q. destruct (H1 b Hb) as [N0 _]. rewrite upd_other in A by exact N0.
    destruct more; [apply enlist_in; left|]; apply H4; assumption.
  - destruct more; [apply enlist_nodup|]; exact H5.
  - intros id. destruct more; [|apply H6]. rewrite enlist_in. intros [H| ->]; [apply H6; exact H|auto].
Qed.
Lemma in_split_at {A} (n : nat) (l : list A) x : In x l -> In x (firstn n l) \/ In x (skipn n l).
Proof. intros H. rewrite <- (firstn_skipn n l) in H. apply in_app_iff in H. exact H. Qed.
Lemma in_skipn {A} (n : nat) (l : list A) x : In x (skipn n l) -> In x l.
Proof. intros H. rewrite <- (firstn_skipn n l). apply in_app_iff. auto. Qed.
Lemma nodup_skipn {A} (n : nat) (l : list A) : NoDup l -> NoDup (skipn n l).
Proof. revert l. induction n as [|n IH]; intros [|x l] H; cbn; try assumption. inversion H; subst. auto. Qed.
Lemma PI_wait L k p cap gone : PI L k p -> PI L k (wait_events p cap gone).
Proof.
  intros [H1 H2 H3 H4 H5 H6]. unfold wait_events. set (l := if gone then _ else _). set (e := firstn (N.to_nat cap) l).
  assert (SL : forall x, In x l -> In x (po_ready p)) by (unfold l; destruct gone; [intros x H; apply filter_In in H; tauto|auto]).
  assert (LS : forall a, In a L -> In (po_ids p a) (po_ready p) -> In (po_ids p a) l).
  { intros a Ha H. unfold l. destruct gone; [|exact H]. apply filter_In. split; [exact H|].
    destruct (H1 a Ha) as [N0 _]. destruct (N.eqb_spec (po_ids p a) MAIN); [contradiction|reflexivity]. }
  split; cbn [po_ids po_armed po_ready po_noted po_queue]; try assumption.
  - intros a Ha. destruct (mem (po_ids p a) e) eqn:M; [right; apply Bool.orb_true_r|].
    cbn [negb]. rewrite Bool.andb_true_r, Bool.orb_false_r. auto.
  - intros a Ha A Q. apply Bool.andb_true_iff in A as [A M]. specialize (LS a Ha (H4 a Ha A Q)).
    destruct (in_split_at (N.to_nat cap) l _ LS) as [H|H]; [|exact H]. apply mem_in in H. fold e in H. rewrite H in M. discriminate.
  - apply nodup_skipn. unfold l. destruct gone; [apply NoDup_filter|]; exact H5.
  - intros id H. apply H6. apply SL. eapply in_skipn. exact H.
Qed.
Lemma PI_add L k p a : PI L k p -> ~ In a L -> forall L', (forall x, In x L' <-> x = a \/ In x L) -> PI L' (k + 1) (add_interest p a (k + 1)).
Proof.
  intros [H1 H2 H3 H4 H5 H6] Ha L' HL. unfold add_interest.
  assert (OTH : forall b, In b L -> b <> a) by (intros b Hb ->; contradiction).
  assert (FR : forall b, In b L -> po_ids p b <> k + 1) by (intros b Hb; destruct (H1 b Hb); lia).
  split; cbn [po_ids po_armed po_ready po_noted po_queue].
  - intros b Hb. apply HL in Hb as [->|Hb]; [rewrite upd_same; unfold MAIN; lia|]. rewrite upd_other by auto. destruct (H1 b Hb). split; [assumption|lia].
  - intros b b' Hb Hb'. apply HL in Hb. apply HL in Hb'. destruct Hb as [->|Hb], Hb' as [->|Hb']; rewrite ?upd_same, ?upd_other by auto; intros E.
    + reflexivity.
    + exfalso. apply (FR b' Hb'). congruence.
    + exfalso. apply (FR b Hb). congruence.
    + auto.
  - intros b Hb. apply HL in Hb as [->|Hb]; [rewrite !upd_same; auto|]. rewrite (upd_other (po_ids p) a (k + 1) b) by auto. rewrite upd_other by auto. auto.
  - intros b Hb. apply HL in Hb as [->|Hb]; [rewrite (upd_same (po_queue p)); congruence|].
    rewrite (upd_other (po_ids p) a (k + 1) b) by auto. rewrite !upd_other by auto. auto.
  - exact H5.
  - intros id H. destruct (H6 id H) as [->|(b & Hb & <-)]; [auto|right]. exists b. split; [apply HL; auto|]. apply upd_other. auto.
Qed.
Lemma PI_arrivals L k t l p : addrs t = L -> PI L k p -> PI L k (arrivals t p l).
Proof.
  intros E. unfold arrivals. revert p. induction l as [|[[a d]|] l IH]; intros p H; cbn [fold_left]; [exact H| |].
  - apply IH. destruct (has_entry t a) eqn:HE; [|exact H]. apply PI_arrive; [exact H|]. rewrite <- E. apply has_entry_in. exact HE.
  - apply IH. apply PI_main. exact H.
Qed.

(** ** Every reachable state *)
Lemma modify_ids p id more : po_ids (modify_interest p id more) = po_ids p.
Proof. reflexivity. Qed.
Lemma recv_table c g s i s' o : step_recv c g s i = Some (s', o) ->
  match fst (scan (i_rx i) (s_recv s) (s_recv s) (s_clients s)) with
  | Some (a, _) => In a (addrs (s_clients s)) /\ addrs (s_clients s') = addrs (s_clients s) /\ s_sockid s' = s_sockid s
  | None =>
      addrs (s_clients s') = addrs (s_clients s) /\ s_sockid s' = s_sockid s \/
      exists a d, i_main i = MData a d /\ has_entry (s_clients s) a = false /\ has_entry (s_clients s') a = true /\
        (forall x, In x (addrs (s_clients s')) <-> x = a \/ In x (addrs (s_clients s))) /\ s_sockid s' = next_socket_id (s_sockid s)
  end.
Proof.
  unfold step_recv. destruct (scan _ _ _ _) as [found cursor]. cbn [fst snd]. destruct found as [[a d]|].
  - destruct (find_entry (s_clients s) a) eqn:F; [|discriminate]. unfold known_client.
    destruct (handle_client _ _ _ _ _) as [[e' plain]|]; [|discriminate]. intros [= <- _]. cbn [s_sockid s_clients set_recv].
    split; [apply find_in in F; apply (in_map fst) in F; exact F|]. split; [apply update_addrs|reflexivity].
  - destruct (i_main i) as [from d| |]; [|intros [= <- _]; left; auto|discriminate].
    destruct (has_entry _ _) eqn:HE; [intros [= <- _]; left; auto|]. unfold new_client.
    destruct (_ <=? _); [intros [= <- _]; left; auto|].
    destruct (server_new _ _ _ _ _) as [| |x reply]; [discriminate|intros [= <- _]; left; auto|].
    intros [= <- _]. right. exists from, d. cbn [s_clients s_sockid set_recv].
    assert (I : forall t e y, In y (addrs (insert_entry t from e)) <-> y = from \/ In y (addrs t)).
    { unfold addrs. intros t e y. induction t as [|[b z] t IH]; cbn [insert_entry map fst In]; [firstorder|].
      destruct (from <? b); cbn [map fst In]; [firstorder|]. rewrite IH. firstorder. }
    split; [reflexivity|]. split; [exact HE|]. split; [apply has_entry_in, I; auto|]. split; [|reflexivity].
    intros y. apply I.
Qed.
Lemma middle_facts c g s i s' o : sreach c g s -> server_step c g s i = Some (s', o) ->
  sorted (s_clients (middle g s i)) /\ s_recv (middle g s i) = s_recv s /\ s_sockid (middle g s i) = s_sockid s /\
  (forall a, In a (addrs (s_clients (middle g s i))) -> In a (addrs (s_clients s))) /\
  wt_receiving (s_wait (middle g s i)) = wt_receiving (s_wait s) /\
  exists o3, step_recv c g (middle g s i) i = Some (s', o3).
Proof.
  intros R E. destruct (before_recv_facts c g s i s' o R E) as (H1 & H2 & _ & H3). change (before_recv g s i) with (middle g s i) in *.
  split; [exact H1|]. split; [exact H2|]. unfold middle in *.
  destruct (sreach_ok c g s R) as [So _]. destruct (step_clean g s i) as [s1 o1] eqn:E1. cbn [fst] in *.
  destruct (clean_clients g s i s1 o1 E1 (sorted_nodup _ So)) as (f & F1 & F2 & _ & F3).
  assert (W1 : s_wait s1 = s_wait s) by (unfold step_clean in E1; destruct (2000 <? _); [destruct (retain _ _ _)|]; injection E1 as <- _; reflexivity).
  destruct (step_send s1 i) as [s2 o2] eqn:E2. cbn [fst] in *.
  assert (W2 : wt_receiving (s_wait s2) = wt_receiving (s_wait s1)).
  { unfold step_send in E2. destruct (send_data_blocks _ _ _) as [[[t o'] b] nx]. injection E2 as <- _. cbn [s_wait]. unfold wait_sending. destruct b; reflexivity. }
  apply step_send_addrs in E2 as (A & B & C). split; [congruence|]. split; [|split; [congruence|exact H3]].
  intros a. rewrite A. unfold addrs. rewrite F1. intros H. apply in_map_iff in H as (x & <- & H). apply filter_In in H as [H _]. apply in_map. exact H.
Qed.

Definition PInv (c : crypto) (g : srvcfg) (st : pstate) : Prop :=
  sreach c g (ps_srv st) /\ PI (addrs (s_clients (ps_srv st))) (s_sockid (ps_srv st)) (ps_poll st) /\
  (s_recv (ps_srv st) <> 0 -> wt_receiving (s_wait (ps_srv st)) = true).
Lemma pinv_arrive c g st st' : PInv c g st -> parrive st st' -> PInv c g st'.
Proof.
  intros (R & P & W) H. destruct H as [st a d HE|st]; unfold PInv; cbn [ps_srv ps_poll].
  - split; [exact R|]. split; [apply PI_arrive; [exact P|apply has_entry_in; exact HE]|exact W].
  - split; [exact R|]. split; [apply PI_main; exact P|exact W].
Qed.
Lemma pinv_turn c g st i fails st' : PInv c g st -> pturn c g st i fails st' -> s_sockid (ps_srv st) <= s_sockid (ps_srv st') ->
  PInv c g st'.
Proof.
  intros (R & P & W) T HS. destruct T as [st i fails w s' o m p1 HRX E p2].
  cbn [ps_srv ps_poll] in *. destruct (middle_facts c g _ i s' o R E) as (SO & HR & HK & HA & HW & o3 & E3). fold m in SO, HR, HK, HA, HW, E3.
  assert (P1 : PI (addrs (s_clients m)) (s_sockid (ps_srv st)) p1) by (apply PI_close with (L := addrs (s_clients (ps_srv st))); assumption).
  pose proof (recv_table _ _ _ _ _ _ E3) as RT. pose proof (recv_cursor _ _ _ _ _ _ E3) as RC.
  split; [eapply sreach_step; eassumption|]. unfold p2, poll_recv. cbn [ps_srv ps_poll]. rewrite HK in RT.
  destruct (fst (scan (i_rx i) (s_recv m) (s_recv m) (s_clients m))) as [[a d]|] eqn:ES.
  - destruct RT as (Hin & -> & ->). split; [apply PI_modify; assumption|]. intros _.
    unfold step_recv in E3. destruct (scan (i_rx i) (s_recv m) (s_recv m) (s_clients m)) as [found cur]. cbn [fst] in ES. subst found.
    destruct (find_entry (s_clients m) a); [|discriminate]. unfold known_client in E3.
    destruct (handle_client _ _ _ _ _) as [[e' plain]|]; [|discriminate]. injection E3 as <- _. reflexivity.
  - split; [|congruence].
    set (q := wait_events _ _ _). assert (Q : PI (addrs (s_clients m)) (s_sockid (ps_srv st)) q).
    { unfold q. apply PI_wait. apply PI_arrivals; [reflexivity|]. apply PI_modify_main. exact P1. }
    destruct RT as [[RA RK]|(a & d & EM & H1 & H2 & H3 & H4)].
    + rewrite RA, RK. unfold poll_new_client. destruct (i_main i) as [a d| |]; [|exact Q|exact Q].
      destruct (has_entry (s_clients m) a) eqn:HE; [exact Q|]. destruct (has_entry (s_clients s') a) eqn:HE'; [|exact Q].
      exfalso. apply has_entry_in in HE'. rewrite RA in HE'. apply has_entry_in in HE'. congruence.
    + unfold poll_new_client. rewrite EM, H1, H2. unfold next_socket_id in H4.
      pose proof (socket_ids_valid _ _ _ R) as [K _].
      destruct (N.leb_spec (s_sockid (ps_srv st) + 1) 4294967295).
      * rewrite H4. apply PI_add with (L := addrs (s_clients m)); [exact Q| |exact H3].
        intros X. apply has_entry_in in X. congruence.
      * exfalso. pose proof (socket_ids_valid _ _ _ R). lia.
Qed.
Theorem preach_inv c g st : preach c g st -> PInv c g st.
Proof.
  intros H. induction H as [now|st st' H IH A|st i fails st' H IH T K].
  - split; [constructor|]. split; [|intros X; exfalso; apply X; reflexivity].
    split; cbn; try (intros; contradiction). constructor.
  - eapply pinv_arrive; eassumption.
  - eapply pinv_turn; eassumption.
Qed.
