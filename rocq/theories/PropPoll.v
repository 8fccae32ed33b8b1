(** C68: the single threaded server does not lose wake-ups. *)
From Verif Require Import Base BaseProofs PacketModel ConfigModel CryptoModel ExtModel ConnModel ConnSpec HandshakeModel ServerModel ServerSpec
  ServerProofs PropServer PropFair PollModel PollProofs.

(** The connection of [a] has a datagram waiting to be read. *)
Definition pending (st : pstate) (a : addr) : Prop :=
  In a (addrs (s_clients (ps_srv st))) /\ po_queue (ps_poll st) a <> [].
(** The server knows that the socket of [a] is readable, or the system is about to say so. *)
Definition known (p : poll) (a : addr) : Prop := po_noted p (po_ids p a) = true.
Definition announced (p : poll) (a : addr) : Prop := In (po_ids p a) (po_ready p).

(** Whatever has happened: a connection with a datagram waiting is known to be readable, or about to be
    announced; the socket of a connection is its own; and a socket that is neither known to be readable nor
    announced is watched, so that the next datagram will be announced. *)
Theorem no_lost_wakeup : forall c g st, preach c g st ->
  (forall a, pending st a -> known (ps_poll st) a \/ announced (ps_poll st) a) /\
  (forall a, In a (addrs (s_clients (ps_srv st))) ->
     known (ps_poll st) a \/ po_armed (ps_poll st) (po_ids (ps_poll st) a) = true) /\
  (forall a b, In a (addrs (s_clients (ps_srv st))) -> In b (addrs (s_clients (ps_srv st))) ->
     po_ids (ps_poll st) a = po_ids (ps_poll st) b -> a = b) /\
  (forall a, In a (addrs (s_clients (ps_srv st))) -> po_ids (ps_poll st) a <> MAIN).
Proof.
  intros c g st H. apply preach_inv in H as (_ & [H1 H2 H3 H4 _ _] & _). unfold pending, known, announced.
  split; [intros a [Ha Q]; destruct (H3 a Ha); auto|]. split; [intros a Ha; destruct (H3 a Ha); auto|].
  split; [exact H2|]. intros a Ha. apply H1. exact Ha.
Qed.

(** When the server goes to sleep (it asks the main socket with a time to wait and there are connections),
    every connection with a datagram waiting is on the system's ready list, so that the wait returns at once. *)
Theorem never_sleeps_on_data : forall c g st i fails st' a, preach c g st -> pturn c g st i fails st' ->
  let m := middle g (ps_srv st) i in
  asks_main m i -> wait_for (s_wait m) (N.of_nat (length (s_clients m))) <> None ->
  In a (addrs (s_clients m)) -> po_queue (ps_poll st) a <> [] -> fails a = false ->
  announced (close_others (ps_poll st) (s_clients m)) a.
Proof.
  intros c g st i fails st' a HP T m AM WF Ha HQ HF. pose proof (preach_inv _ _ _ HP) as (R & P & W).
  destruct T as [st i fails w s' o m' p1 HRX E p2]. change m' with m in *. clear m'.
  destruct (middle_facts c g _ i s' o R E) as (SO & HR & HK & HA & HW & o3 & E3). fold m in SO, HR, HK, HA, HW, E3.
  assert (P1 : PI (addrs (s_clients m)) (s_sockid (ps_srv st)) p1) by (apply PI_close with (L := addrs (s_clients (ps_srv st))); assumption).
  fold p1. destruct P1 as [H1 H2 H3 H4 _ _]. change (po_queue (ps_poll st) a) with (po_queue p1 a) in HQ.
  destruct (H3 a Ha) as [A|A]; [apply H4; assumption|]. exfalso.
  assert (R0 : s_recv (ps_srv st) = 0).
  { destruct (N.eq_dec (s_recv (ps_srv st)) 0) as [|NZ]; [assumption|]. specialize (W NZ). exfalso. apply WF. unfold wait_for.
    rewrite HW, W. cbn [negb]. rewrite Bool.andb_false_r. destruct (N.eqb_spec (N.of_nat (length (s_clients m))) 0) as [Z|Z]; [|reflexivity].
    destruct (s_clients m); [destruct Ha|cbn in Z; lia]. }
  unfold asks_main in AM. destruct (scan (i_rx i) (s_recv m) (s_recv m) (s_clients m)) as [r k] eqn:ES. cbn [fst] in AM. subst r.
  pose proof (scan_spec _ _ _ _ _ _ (sorted_nodup _ SO) ES (N.le_refl _)) as SP. cbn iota in SP.
  destruct (index_of_in _ _ Ha) as (j & HI & _). specialize (SP a j HI ltac:(lia)). rewrite HRX in SP. unfold heard in SP. rewrite A, HF in SP.
  cbn [negb andb] in SP. destruct (po_queue p1 a); [contradiction|discriminate].
Qed.

(** ** A datagram that waits is read in time *)
(** [k] turns in which no connection is removed, at most [n] connections exist, the socket of [a] reports no
    error, and no datagram of [a] is read; in between, datagrams arrive and clients join. *)
Inductive passed_over (c : crypto) (g : srvcfg) (n : N) (a : addr) : pstate -> N -> Prop :=
| over_none st : N.of_nat (length (s_clients (ps_srv st))) <= n -> passed_over c g n a st 0
| over_arrive st st' k : parrive st st' -> passed_over c g n a st' k -> passed_over c g n a st k
| over_turn st i fails st' k :
    pturn c g st i fails st' -> s_sockid (ps_srv st) <= s_sockid (ps_srv st') ->
    N.of_nat (length (s_clients (ps_srv st))) <= n ->
    addrs (s_clients (middle g (ps_srv st) i)) = addrs (s_clients (ps_srv st)) ->
    fails a = false -> ~ takes (middle g (ps_srv st) i) i a ->
    passed_over c g n a st' k -> passed_over c g n a st (k + 1).

Lemma front_app {A} (x : A) n l m : In x (firstn n l) -> In x (firstn n (l ++ m)).
Proof. rewrite firstn_app. intros H. apply in_app_iff. auto. Qed.
Lemma front_enlist x n l id : In x (firstn n l) -> In x (firstn n (enlist l id)).
Proof. unfold enlist. destruct (mem id l); [auto|apply front_app]. Qed.
Lemma front_filter {A} (f : A -> bool) x l : f x = true -> forall n, In x (firstn n l) -> In x (firstn n (filter f l)).
Proof.
  intros Fx. induction l as [|y l IH]; intros n; [rewrite firstn_nil; intros []|]. destruct n as [|n]; [intros []|].
  cbn [firstn In filter]. intros [->|H].
  - rewrite Fx. cbn [firstn In]. auto.
  - destruct (f y); [cbn [firstn In]; auto|]. specialize (IH n H). revert IH. generalize (filter f l). clear. intros l.
    revert n. induction l as [|z l IH]; intros [|n]; cbn [firstn In]; try tauto. intros [->|H]; [auto|]. right. apply IH. exact H.
Qed.

Section Reading.
  Context (c : crypto) (g : srvcfg) (n : N) (a : addr).
  Definition cap : nat := N.to_nat (g_max_conn g).
  Definition front (p : poll) : Prop := In (po_ids p a) (firstn cap (po_ready p)).
  (** How many turns it takes at most. *)
  Inductive within (st : pstate) (b : N) : Prop :=
  | w_known j : known (ps_poll st) a -> index_of (addrs (s_clients (ps_srv st))) a = Some j ->
      (if s_recv (ps_srv st) <=? j then j - s_recv (ps_srv st) else n - s_recv (ps_srv st) + n) <= b -> within st b
  | w_front : front (ps_poll st) -> n - s_recv (ps_srv st) + 1 + n <= b -> within st b
  | w_back : announced (ps_poll st) a -> n + 1 + (n - s_recv (ps_srv st)) + 1 + n <= b -> within st b.

  Lemma within_start st : preach c g st -> pending st a -> N.of_nat (length (s_clients (ps_srv st))) <= n -> within st (3 * n + 2).
  Proof.
    intros R [Ha Q] Hn. destruct (proj1 (no_lost_wakeup _ _ _ R) a (conj Ha Q)) as [H|H].
    - destruct (index_of_in _ _ Ha) as (j & HI & Hj). apply (w_known _ _ j H HI). unfold addrs in Hj. rewrite map_length in Hj.
      destruct (_ <=? _); lia.
    - apply w_back; [exact H|lia].
  Qed.
  Lemma within_arrive st st' b : parrive st st' -> within st b -> within st' b.
  Proof.
    intros H W. destruct H as [st x d HE|st]; destruct W as [j K HI B|F B|A B]; cbn [ps_srv ps_poll].
    - apply (w_known _ _ j); assumption.
    - apply w_front; [|exact B]. unfold front, arrive in *. cbn [ps_poll po_ready po_ids]. destruct (po_armed _ _); [apply front_enlist|]; exact F.
    - apply w_back; [|exact B]. unfold announced, arrive in *. cbn [ps_poll po_ready po_ids]. destruct (po_armed _ _); [apply enlist_in; left|]; exact A.
    - apply (w_known _ _ j); assumption.
    - apply w_front; [|exact B]. unfold front, main_readable in *. cbn [ps_poll po_ready po_ids]. destruct (po_armed _ _); [apply front_enlist|]; exact F.
    - apply w_back; [|exact B]. unfold announced, main_readable in *. cbn [ps_poll po_ready po_ids]. destruct (po_armed _ _); [apply enlist_in; left|]; exact A.
  Qed.

  Lemma arrivals_facts t l : forall p, let q := arrivals t p l in
    po_ids q = po_ids p /\ po_noted q = po_noted p /\ (po_queue p a <> [] -> po_queue q a <> []) /\
    (forall x k, In x (firstn k (po_ready p)) -> In x (firstn k (po_ready q))) /\ (forall x, In x (po_ready p) -> In x (po_ready q)).
  Proof.
    unfold arrivals. induction l as [|[[b d]|] l IH]; intros p; cbn [fold_left]; [auto 6| |].
    - destruct (has_entry t b); [|apply IH]. destruct (IH (arrive p b d)) as (H1 & H2 & H3 & H4 & H5).
      cbn [arrive po_ids po_noted po_ready po_queue] in *. split; [exact H1|]. split; [exact H2|]. split; [|split].
      + intros H. apply H3. destruct (N.eq_dec a b) as [->|Hne]; [rewrite upd_same; intros X; apply app_eq_nil in X as [X _]; contradiction|].
        rewrite upd_other by exact Hne. exact H.
      + intros x k H. apply H4. destruct (po_armed p _); [apply front_enlist|]; exact H.
      + intros x H. apply H5. destruct (po_armed p _); [apply enlist_in; left|]; exact H.
    - destruct (IH (main_readable p)) as (H1 & H2 & H3 & H4 & H5). cbn [main_readable po_ids po_noted po_ready po_queue] in *.
      split; [exact H1|]. split; [exact H2|]. split; [exact H3|]. split.
      + intros x k H. apply H4. destruct (po_armed p _); [apply front_enlist|]; exact H.
      + intros x H. apply H5. destruct (po_armed p _); [apply enlist_in; left|]; exact H.
  Qed.

  (** What a poll does for [a]. *)
  Lemma wait_facts L k p gone : PI L k p -> In a L -> N.of_nat (length L) <= g_max_conn g ->
    let q := wait_events p (g_max_conn g) gone in
    (known p a -> known q a) /\ (front p -> known q a) /\ (announced p a -> known q a \/ front q).
  Proof.
    intros P Ha HL q. unfold known, front, announced, q, wait_events. cbn [po_ids po_noted po_ready].
    set (l := if gone then _ else _). destruct P as [H1 H2 H3 H4 H5 H6]. set (x := po_ids p a) in *.
    destruct (H1 a Ha) as [X0 _]. fold x in X0.
    assert (Fx : negb (x =? MAIN) = true) by (destruct (N.eqb_spec x MAIN); [contradiction|reflexivity]).
    split; [intros H; rewrite H; reflexivity|]. split.
    - intros H. assert (I : In x (firstn (N.to_nat (g_max_conn g)) l)).
      { unfold l. destruct gone; [|exact H]. apply (front_filter (fun y => negb (y =? MAIN)) x _ Fx). exact H. }
      apply mem_in in I. rewrite I. apply Bool.orb_true_r.
    - intros H. assert (I : In x l) by (unfold l; destruct gone; [apply filter_In; split; [exact H|exact Fx]|exact H]).
      destruct (in_split_at (N.to_nat (g_max_conn g)) l x I) as [I1|I1]; [left; apply mem_in in I1; rewrite I1; apply Bool.orb_true_r|right].
      assert (ND : NoDup l) by (unfold l; destruct gone; [apply NoDup_filter|]; exact H5).
      assert (LEN : (length l <= S (length L))%nat).
      { rewrite <- (map_length (po_ids p) L) at 1.
        change (S (length (map (po_ids p) L))) with (length (MAIN :: map (po_ids p) L)). apply NoDup_incl_length; [exact ND|].
        intros y Hy. assert (Hy' : In y (po_ready p)) by (unfold l in Hy; destruct gone; [apply filter_In in Hy; tauto|exact Hy]).
        destruct (H6 y Hy') as [->|(b & Hb & <-)]; [left; reflexivity|right; apply in_map; exact Hb]. }
      assert (LS : (length (skipn (N.to_nat (g_max_conn g)) l) <= 1)%nat) by (rewrite skipn_length; lia).
      destruct (skipn (N.to_nat (g_max_conn g)) l) as [|y [|z r]]; [destruct I1| |cbn in LS; lia].
      unfold cap. destruct (N.to_nat (g_max_conn g)) as [|m] eqn:EC; [|rewrite firstn_all2 by (cbn; lia); exact I1].
      exfalso. destruct L; [destruct Ha|cbn [length] in HL; lia].
  Qed.

  Lemma within_turn st i fails st' b : preach c g st -> pending st a -> within st b ->
    pturn c g st i fails st' -> s_sockid (ps_srv st) <= s_sockid (ps_srv st') ->
    N.of_nat (length (s_clients (ps_srv st))) <= n -> N.of_nat (length (s_clients (ps_srv st'))) <= n ->
    addrs (s_clients (middle g (ps_srv st) i)) = addrs (s_clients (ps_srv st)) ->
    fails a = false -> ~ takes (middle g (ps_srv st) i) i a ->
    pending st' a /\ exists b', within st' b' /\ b' + 1 <= b.
  Proof.
    intros HP [Ha Q] W T HS Hn Hn' HM HF HT. pose proof (preach_inv _ _ _ HP) as (R & P & _).
    destruct T as [st i fails w s' o m p1 HRX E p2]. cbn [ps_srv ps_poll] in *. fold m in HM, HT.
    destruct (middle_facts c g _ i s' o R E) as (SO & HR & HK & HA & HW & o3 & E3). fold m in SO, HR, HK, HA, HW, E3.
    assert (P1 : PI (addrs (s_clients m)) (s_sockid (ps_srv st)) p1) by (apply PI_close with (L := addrs (s_clients (ps_srv st))); assumption).
    assert (Ham : In a (addrs (s_clients m))) by (rewrite HM; exact Ha).
    assert (X : po_ids p1 = po_ids (ps_poll st)) by reflexivity.
    assert (XN : po_noted p1 = po_noted (ps_poll st)) by reflexivity.
    assert (XQ : po_queue p1 = po_queue (ps_poll st)) by reflexivity.
    assert (XO : (po_ids (ps_poll st) a =? MAIN) || existsb (fun x => po_ids (ps_poll st) (fst x) =? po_ids (ps_poll st) a) (s_clients m) = true).
    { apply Bool.orb_true_iff. right. apply existsb_exists. unfold addrs in Ham. apply in_map_iff in Ham as (y & Ey & Hy).
      exists y. split; [exact Hy|]. rewrite Ey. apply N.eqb_refl. }
    assert (XF : front (ps_poll st) -> front p1).
    { intros F. unfold front, p1, close_others. cbn [po_ids po_ready].
      apply (front_filter (fun id => (id =? MAIN) || existsb (fun x => po_ids (ps_poll st) (fst x) =? id) (s_clients m))); [exact XO|exact F]. }
    assert (XA : announced (ps_poll st) a -> announced p1 a).
    { intros F. unfold announced, p1, close_others. cbn [po_ids po_ready].
      apply filter_In. split; [exact F|exact XO]. }
    pose proof (recv_table _ _ _ _ _ _ E3) as RT. pose proof (recv_cursor _ _ _ _ _ _ E3) as RC.
    unfold takes in HT. unfold p2, poll_recv.
    destruct (scan (i_rx i) (s_recv m) (s_recv m) (s_clients m)) as [r cur] eqn:ES. cbn [fst snd] in *.
    pose proof (scan_spec _ _ _ _ _ _ (sorted_nodup _ SO) ES (N.le_refl _)) as SP. rewrite HM, HR in SP.
    assert (HEARD : known (ps_poll st) a -> i_rx i a <> None).
    { intros K. rewrite HRX. unfold heard. unfold known in K. rewrite X, XN, XQ, K, HF. cbn [negb andb].
      destruct (po_queue (ps_poll st) a); [contradiction|discriminate]. }
    destruct r as [[y d]|].
    - destruct SP as (jy & HIy & H1 & H2 & H3 & H4). destruct RT as (Hin & RA & RK). destruct RC as [RC _].
      assert (Hy : y <> a) by (intros ->; apply HT; eauto).
      assert (Hjy : jy < n).
      { destruct (index_of_in (addrs (s_clients (ps_srv st))) y) as (j' & Hj' & Hlt).
        - rewrite HM in Hin. exact Hin.
        - rewrite HIy in Hj'. injection Hj' as <-. unfold addrs in Hlt. rewrite map_length in Hlt. lia. }
      assert (NE : po_ids p1 a <> po_ids p1 y).
      { intros Ei. apply Hy. symmetry. eapply (pi_inj _ _ _ P1); eassumption. }
      unfold pending. cbn [ps_srv ps_poll]. rewrite RA, HM.
      assert (QQ : po_queue (modify_interest
         (mkPoll (po_ids p1) (po_armed p1) (po_ready p1) (po_noted p1) (upd (po_queue p1) y (tl (po_queue p1 y)))) (po_ids p1 y)
         match tl (po_queue p1 y) with [] => false | _ :: _ => true end) a <> []).
      { cbn [modify_interest po_queue]. rewrite upd_other by (intros Ei; apply Hy; congruence). exact Q. }
      split; [split; [exact Ha|exact QQ]|]. replace (s_recv (ps_srv st) + (jy - s_recv (ps_srv st)) + 1) with (jy + 1) in H2 by lia.
      destruct W as [j K HI B|F B|A B].
      + specialize (HEARD K).
        assert (Hjj : jy <> j).
        { intros ->. apply Hy. clear -HIy HI. revert j HI HIy. generalize (addrs (s_clients (ps_srv st))). intros l. induction l as [|x l IH]; cbn; intros j E1 E2; [discriminate|].
          destruct (N.eqb_spec a x) as [->|]; [injection E1 as <-|].
          - destruct (N.eqb_spec y x) as [->|]; [reflexivity|]. destruct (index_of l y) as [z|]; [|discriminate]. injection E2 as E2. destruct z; discriminate.
          - destruct (index_of l a) as [z|] eqn:EA; [|discriminate]. injection E1 as <-.
            destruct (N.eqb_spec y x) as [->|]; [injection E2 as E2; destruct z; discriminate|].
            destruct (index_of l y) eqn:EB; [|discriminate]. injection E2 as E2. apply N.succ_inj in E2 as ->. eapply IH; eauto. }
        assert (Hord : s_recv (ps_srv st) <= j -> jy < j).
        { intros Hle. destruct (N.lt_trichotomy jy j) as [Hx|[Hx|Hx]]; [exact Hx|congruence|]. exfalso. apply HEARD. eapply H4; eassumption. }
        assert (Hj : j < n).
        { destruct (index_of_in _ _ Ha) as (j' & Hj' & Hlt). rewrite HI in Hj'. injection Hj' as <-. unfold addrs in Hlt. rewrite map_length in Hlt. lia. }
        exists (b - 1). split.
        * apply (w_known _ _ j).
          -- unfold known. cbn [ps_poll modify_interest po_ids po_noted]. rewrite upd_other by exact NE. exact K.
          -- cbn [ps_srv]. rewrite RA, HM. exact HI.
          -- cbn [ps_srv]. rewrite RC, H2. destruct (N.leb_spec (s_recv (ps_srv st)) j) as [Hc|Hc].
             ++ specialize (Hord Hc). destruct (N.leb_spec (jy + 1) j); lia.
             ++ destruct (N.leb_spec (jy + 1) j); lia.
        * destruct (N.leb_spec (s_recv (ps_srv st)) j) as [Hc|Hc]; [specialize (Hord Hc)|]; lia.
      + exists (b - 1). split; [|lia]. apply w_front; [|cbn [ps_srv]; rewrite RC, H2; lia].
        apply XF in F. unfold front in *. cbn [ps_poll modify_interest po_ids po_ready].
        destruct (tl (po_queue p1 y)); [exact F|apply front_enlist; exact F].
      + exists (b - 1). split; [|lia]. apply w_back; [|cbn [ps_srv]; rewrite RC, H2; lia].
        apply XA in A. unfold announced in *. cbn [ps_poll modify_interest po_ids po_ready].
        destruct (tl (po_queue p1 y)); [exact A|apply enlist_in; left; exact A].
    - set (p0 := modify_interest p1 MAIN (du_main w)). destruct (arrivals_facts (s_clients m) (du_arrive w) p0) as (A1 & A2 & A3 & A4 & A5).
      set (p3 := arrivals (s_clients m) p0 (du_arrive w)) in *.
      assert (P3 : PI (addrs (s_clients m)) (s_sockid (ps_srv st)) p3) by (apply PI_arrivals; [reflexivity|]; apply PI_modify_main; exact P1).
      assert (LM : N.of_nat (length (addrs (s_clients m))) <= g_max_conn g).
      { rewrite HM. unfold addrs. rewrite map_length. destruct (sreach_ok c g _ R) as [_ LE]. exact LE. }
      destruct (wait_facts _ _ p3 (du_gone w) P3 Ham LM) as (W1 & W2 & W3).
      set (p4 := wait_events p3 (g_max_conn g) (du_gone w)) in *.
      assert (X0 : po_ids p1 a <> MAIN) by (apply (pi_ids _ _ _ P1); exact Ham).
      assert (K3 : known (ps_poll st) a -> known p3 a).
      { unfold known. intros K. rewrite A1, A2. cbn [p0 modify_interest po_ids po_noted]. rewrite upd_other by exact X0. exact K. }
      assert (F3 : front (ps_poll st) -> front p3).
      { intros F. apply XF in F. unfold front in *. rewrite A1. apply A4. cbn [p0 modify_interest po_ids po_ready].
        destruct (du_main w); [apply front_enlist|]; exact F. }
      assert (N3 : announced (ps_poll st) a -> announced p3 a).
      { intros F. apply XA in F. unfold announced in *. rewrite A1. apply A5. cbn [p0 modify_interest po_ids po_ready].
        destruct (du_main w); [apply enlist_in; left|]; exact F. }
      assert (Q4 : po_queue p4 a <> []) by (apply A3; exact Q).
      (* accepting a client leaves the connection of [a] alone *)
      assert (NC : let p5 := poll_new_client m s' p4 i in
        po_ids p5 a = po_ids p4 a /\ po_noted p5 = po_noted p4 /\ po_ready p5 = po_ready p4 /\ po_queue p5 a = po_queue p4 a).
      { unfold poll_new_client. destruct (i_main i) as [x d| |]; [|auto|auto]. destruct (has_entry (s_clients m) x) eqn:HE; [auto|].
        destruct (has_entry (s_clients s') x); [|auto]. assert (a <> x) by (intros <-; apply has_entry_in in Ham; congruence).
        cbn [add_interest po_ids po_noted po_ready po_queue]. rewrite !upd_other by assumption. auto. }
      destruct NC as (C1 & C2 & C3 & C4). set (p5 := poll_new_client m s' p4 i) in *.
      assert (Ha' : In a (addrs (s_clients s'))).
      { destruct RT as [[RA _]|(x & d & _ & _ & _ & RA & _)]; [rewrite RA; exact Ham|apply RA; auto]. }
      split; [split; [exact Ha'|cbn [ps_poll]; rewrite C4; exact Q4]|].
      destruct (index_of_in _ _ Ha') as (j' & HI' & Hj'). unfold addrs in Hj'. rewrite map_length in Hj'.
      assert (KN : known p4 a -> n <= b -> exists b', within (mkPs s' p5) b' /\ b' + 1 <= b).
      { intros K B. exists (n - 1). split; [|lia]. apply (w_known _ _ j').
        - unfold known. cbn [ps_poll]. rewrite C1, C2. exact K.
        - exact HI'.
        - cbn [ps_srv]. rewrite RC. destruct (N.leb_spec 0 j'); lia. }
      destruct W as [j K HI B|F B|A B].
      + apply KN; [auto|]. destruct (N.leb_spec (s_recv (ps_srv st)) j) as [Hc|Hc]; [|lia].
        exfalso. apply (HEARD K). eapply SP; eassumption.
      + apply KN; [auto|lia].
      + destruct (W3 (N3 A)) as [K|F]; [apply KN; [exact K|lia]|].
        exists (n + 1 + n). split; [|lia]. apply w_front; [|cbn [ps_srv]; rewrite RC; lia].
        unfold front in *. cbn [ps_poll]. rewrite C1, C3. exact F.
  Qed.

End Reading.

(** While nobody leaves, a datagram that waits is read within 3n + 3 turns: there is no run of 3n + 3
    turns in which it is always passed over. *)
Theorem heard_in_time : forall c g n a st k, preach c g st -> pending st a -> passed_over c g n a st k -> k <= 3 * n + 2.
Proof.
  intros c g n a st k R PE O.
  assert (N0 : N.of_nat (length (s_clients (ps_srv st))) <= n).
  { clear R PE. induction O as [st H|st st' k A O IH|st i fails st' k T HS Hn HM HF HT O IH]; [exact H| |exact Hn].
    destruct A; exact IH. }
  pose proof (within_start c g n a st R PE N0) as W. clear N0. generalize dependent (3 * n + 2). intros b W.
  revert b W. induction O as [st H|st st' k A O IH|st i fails st' k T HS Hn HM HF HT O IH]; intros b W; [lia| |].
  - apply IH; [eapply preach_arrive; eassumption| |eapply within_arrive; eassumption].
    destruct PE as [P1 P2]. destruct A as [st x d HE|st]; split; cbn [ps_srv ps_poll arrive main_readable po_queue]; try assumption.
    destruct (N.eq_dec a x) as [<-|Hne]; [rewrite upd_same; intros X; apply app_eq_nil in X as [X _]; contradiction|].
    rewrite upd_other by exact Hne. exact P2.
  - assert (N1 : N.of_nat (length (s_clients (ps_srv st'))) <= n).
    { clear -O. induction O as [st H|st st' k A O IH|st i fails st' k T HS Hn HM HF HT O IH]; [exact H| |exact Hn]. destruct A; exact IH. }
    destruct (within_turn c g n a st i fails st' b R PE W T HS Hn N1 HM HF HT) as (PE' & b' & W' & B).
    assert (k <= b'); [|lia]. apply IH; [eapply preach_turn; eassumption|exact PE'|exact W'].
Qed.

(** ** A run *)
(** A turn computed. *)
Definition set_rx (i : input) (rx : addr -> option bytes) : input :=
  mkIn (i_now i) (i_clean i) (i_buflen i) (i_send1 i) (i_send2 i) rx (i_main i) (i_env i) (i_henv i) (i_av i) (i_file i).
Definition rx_of (g : srvcfg) (st : pstate) (i : input) (fails : addr -> bool) : input :=
  set_rx i (heard (close_others (ps_poll st) (s_clients (middle g (ps_srv st) i))) fails).
Definition pgo (c : crypto) (g : srvcfg) (st : pstate) (i0 : input) (fails : addr -> bool) (w : during) : option pstate :=
  let i := rx_of g st i0 fails in
  let m := middle g (ps_srv st) i in
  let p1 := close_others (ps_poll st) (s_clients m) in
  match server_step c g (ps_srv st) i with
  | Some (s', _) =>
      let p2 := poll_recv (g_max_conn g) m p1 i w in
      Some (mkPs s' (match fst (scan (i_rx i) (s_recv m) (s_recv m) (s_clients m)) with
                     | Some _ => p2
                     | None => poll_new_client m s' p2 i
                     end))
  | None => None
  end.
Lemma pgo_turn c g st i0 fails w st' : pgo c g st i0 fails w = Some st' -> pturn c g st (rx_of g st i0 fails) fails st'.
Proof.
  unfold pgo. destruct (server_step c g (ps_srv st) (rx_of g st i0 fails)) as [[s' o]|] eqn:E; [|discriminate]. intros [= <-].
  apply pt_turn with (o := o); [|exact E]. intros a. reflexivity.
Qed.
