(** C60: what lost datagrams do to the timing of uploads. *)
From Verif Require Import Base BaseProofs PacketModel MapperModel ReaderModel ReaderSpec ConfigModel ConnModel ClientModel FlowModel FlowSpec FlowLossSpec PacketSpec PacketProofs.

Definition lo : flow_opts := mkFO 512 512 1 80000000 15000000000 false.
Definition lfile : bytes := repeat 97 (512 * 20).
Definition ldec (b : bytes) : option bytes := Some b.
Definition ms : N := 1000000.
Definition lgap : N := 250 * ms.

(** A turn of the loop in which nothing arrives, and whether something was sent in it. *)
Definition lturn (x : sloop * N * list (bytes * N)) (t : N) : option (sloop * N * list (bytes * N) * bool) :=
  let '(st, now, sent) := x in
  if (now <=? t) && (t <=? now + lgap) then
    match loop_send lfile lo st 1429 IoOk (Some true) t t with
    | Ok (st', plain, CRun) =>
        match loop_recv ldec lo st' EvWouldBlock t with
        | Ok (st2, CRun) => Some (st2, t, map (fun p => (p, t)) plain ++ sent, match plain with [] => false | _ => true end)
        | _ => None
        end
    | _ => None
    end
  else None.
Lemma lturn_ok m x t st now sent b : lturn x t = Some (st, now, sent, b) ->
  answered_within m lgap ldec lfile lo KSingle (fst (fst x)) (snd (fst x)) (snd x) -> answered_within m lgap ldec lfile lo KSingle st now sent.
Proof.
  destruct x as [[s0 n0] l0]. cbn [fst snd]. unfold lturn. destruct (_ && _)%bool eqn:G; [|discriminate].
  apply Bool.andb_true_iff in G as [G1 G2]. apply N.leb_le in G1, G2.
  destruct (loop_send _ _ _ _ _ _ _ _) as [[[st1 plain] [| |]]| |] eqn:E1; try discriminate.
  destruct (loop_recv _ _ _ _ _) as [[st2 [| |]]| |] eqn:E2; try discriminate. intros [= <- <- <- _] H.
  eapply aw_recv; [|split; [apply N.le_refl|lia]| |exact E2]; [|intros wire p b1 D; discriminate].
  eapply aw_send; [exact H|lia| |exact E1]. cbv. discriminate.
Qed.
(** Turns every 250 ms until something is sent. *)
Fixpoint lpoll (n : nat) (x : sloop * N * list (bytes * N)) (t : N) : option (sloop * N * list (bytes * N)) :=
  match n with
  | O => None
  | S n => match lturn x t with Some (y, true) => Some y | Some (y, false) => lpoll n y (t + lgap) | None => None end
  end.
Lemma lpoll_ok m n x t st now sent : lpoll n x t = Some (st, now, sent) ->
  answered_within m lgap ldec lfile lo KSingle (fst (fst x)) (snd (fst x)) (snd x) -> answered_within m lgap ldec lfile lo KSingle st now sent.
Proof.
  revert x t. induction n as [|n IH]; intros x t; cbn [lpoll]; [discriminate|].
  destruct (lturn x t) as [[[[s1 n1] l1] [|]]|] eqn:E; [|intros H I; eapply (IH (s1, n1, l1)); [exact H|exact (lturn_ok m _ _ _ _ _ _ E I)]|discriminate].
  intros [= <- <- <-] I. exact (lturn_ok m _ _ _ _ _ _ E I).
Qed.
(** Block [k] is sent and lost, sent again, and acknowledged 1 ms later. *)
Definition lblock (x : sloop * N * list (bytes * N)) (k : N) : option (sloop * N * list (bytes * N)) :=
  match lpoll 2 x (snd (fst x)) with
  | Some x1 =>
      match lpoll 100 x1 (snd (fst x1) + lgap) with
      | Some (st, now, sent) =>
          match sent with
          | (p, s) :: _ =>
              if beq p (block_packet lfile 512 k) && (now =? s) then
                match loop_recv ldec lo st (EvDatagram true (to_bytes (PAck k))) (now + ms) with
                | Ok (st', CRun) => Some (st', now + ms, sent)
                | _ => None
                end
              else None
          | [] => None
          end
      | None => None
      end
  | None => None
  end.
Lemma lblock_ok x k st now sent : k < 65536 -> lblock x k = Some (st, now, sent) ->
  answered_within ms lgap ldec lfile lo KSingle (fst (fst x)) (snd (fst x)) (snd x) -> answered_within ms lgap ldec lfile lo KSingle st now sent.
Proof.
  intros HK. unfold lblock. destruct (lpoll 2 x _) as [[[s1 n1] l1]|] eqn:E1; [|discriminate].
  destruct (lpoll 100 _ _) as [[[s2 n2] l2]|] eqn:E2; [|discriminate]. destruct l2 as [|[p s] l2]; [discriminate|].
  destruct (_ && _)%bool eqn:G; [|discriminate]. apply Bool.andb_true_iff in G as [G1 G2]. apply N.eqb_eq in G2. subst s.
  destruct (loop_recv _ _ _ _ _) as [[st2 [| |]]| |] eqn:E3; try discriminate. intros [= <- <- <-] H.
  eapply aw_recv; [eapply (lpoll_ok ms _ (s1, n1, l1)); [exact E2|]; eapply (lpoll_ok ms _ x); [exact E1|exact H]|unfold lgap, ms; lia| |exact E3].
  intros wire q b [= <-] [= <-] FB. assert (EB : b = k) by (rewrite (round_trip (PAck k)) in FB; [congruence|exact HK|discriminate]). subst b.
  apply beq_eq in G1. rewrite G1. unfold block_packet. rewrite N.mod_small by exact HK. eexists _, n2. split; [left; reflexivity|lia].
Qed.
Fixpoint lrun (n : nat) (k : N) (x : sloop * N * list (bytes * N)) : option (sloop * N * list (bytes * N)) :=
  match n with O => Some x | S n => match lblock x k with Some y => lrun n (k + 1) y | None => None end end.
Lemma lrun_ok n k x st now sent : k + N.of_nat n < 65536 -> lrun n k x = Some (st, now, sent) ->
  answered_within ms lgap ldec lfile lo KSingle (fst (fst x)) (snd (fst x)) (snd x) -> answered_within ms lgap ldec lfile lo KSingle st now sent.
Proof.
  revert k x. induction n as [|n IH]; intros k x HK; cbn [lrun]; [intros [= ->]; auto|].
  destruct (lblock x k) as [[[s1 n1] l1]|] eqn:E; [|discriminate]. intros H I. eapply (IH (k + 1) (s1, n1, l1)); [lia|exact H|].
  eapply (lblock_ok x k); [lia|exact E|exact I].
Qed.
(** [n] turns 250 ms apart in which nothing is sent. *)
Fixpoint lwait (n : nat) (x : sloop * N * list (bytes * N)) : option (sloop * N * list (bytes * N)) :=
  match n with
  | O => Some x
  | S n => match lturn x (snd (fst x) + lgap) with Some (y, false) => lwait n y | _ => None end
  end.
Lemma lwait_ok n x st now sent : lwait n x = Some (st, now, sent) ->
  answered_within ms lgap ldec lfile lo KSingle (fst (fst x)) (snd (fst x)) (snd x) -> answered_within ms lgap ldec lfile lo KSingle st now sent.
Proof.
  revert x. induction n as [|n IH]; intros x; cbn [lwait]; [intros [= ->]; auto|].
  destruct (lturn x _) as [[[[s1 n1] l1] [|]]|] eqn:E; try discriminate. intros H I. eapply (IH (s1, n1, l1)); [exact H|].
  exact (lturn_ok ms _ _ _ _ _ _ E I).
Qed.
Definition lx0 : option (sloop * N * list (bytes * N)) :=
  match rate_start lo 0 ms with Ok r => Some (sloop_new (new_reader KSingle 512 1) r ms, ms, []) | _ => None end.
Definition twice_at_most (sent : list (bytes * N)) : bool := forallb (fun x => Nat.leb (times_sent (fst x) sent) 2) sent.
Lemma twice_ok sent p : twice_at_most sent = true -> (times_sent p sent <= 2)%nat.
Proof.
  intros H. unfold twice_at_most in H. rewrite forallb_forall in H. destruct (existsb (fun x => beq (fst x) p) sent) eqn:E.
  - apply existsb_exists in E as (x & IX & EX). apply beq_eq in EX. specialize (H x IX). apply Nat.leb_le in H. rewrite EX in H. exact H.
  - unfold times_sent. replace (filter _ sent) with (@nil (bytes * N)); [cbn; lia|]. symmetry. clear H. induction sent as [|y sent IH]; [reflexivity|].
    cbn [existsb] in E. apply Bool.orb_false_iff in E as [E1 E2]. cbn [filter]. rewrite E1. exact (IH E2).
Qed.
Definition lcheck (x y z : sloop * N * list (bytes * N)) : bool :=
  twice_at_most (snd x) && match snd y with (p, t) :: l => beq p (block_packet lfile 512 15) && (t =? snd (fst x)) && Nat.eqb (length l) (length (snd x)) | [] => false end &&
  (snd (fst z) =? snd (fst x) + fo_timeout lo) &&
  match loop_recv ldec lo (fst (fst z)) EvWouldBlock (snd (fst z) + 1) with Ok (_, CFail) => true | _ => false end.
Lemma lall_true :
  match lx0 with
  | Some x0 => match lrun 14 1 x0 with
     | Some x => match lturn x (snd (fst x)) with
        | Some (y, _) => match lwait 60 y with Some z => lcheck x y z | None => false end
        | None => false end
     | None => false end
  | None => false end = true.
Proof. vm_compute. reflexivity. Qed.
Lemma lturn_sent x t y b : lturn x t = Some (y, b) -> exists plain, snd y = map (fun p => (p, t)) plain ++ snd x /\ b = match plain with [] => false | _ => true end.
Proof.
  destruct x as [[s0 n0] l0]. unfold lturn. destruct (_ && _)%bool; [|discriminate].
  destruct (loop_send _ _ _ _ _ _ _ _) as [[[st1 plain] [| |]]| |]; try discriminate.
  destruct (loop_recv _ _ _ _ _) as [[st2 [| |]]| |]; try discriminate. intros [= <- <-]. exists plain. auto.
Qed.
Lemma lwait_sent n x y : lwait n x = Some y -> snd y = snd x.
Proof.
  revert x. induction n as [|n IH]; intros x; cbn [lwait]; [intros [= ->]; reflexivity|].
  destruct (lturn x _) as [[y1 [|]]|] eqn:E; try discriminate. intros H. apply IH in H. rewrite H.
  apply lturn_sent in E as ([|p plain] & -> & E); [reflexivity|discriminate].
Qed.
(** The interval is not bounded by the round trips of the network.  In this upload (default limits: 15 seconds of patience,
    80 ms between retransmissions, a window of one block) every acknowledgement that arrives does so within one
    millisecond of the sending it answers, the loop turns at least four times a second, and no block has to be sent
    more than twice; yet when block 15 is lost once, it is not sent again at all before the command gives up. *)
Theorem losses_delay_retransmission : exists st now sent st1,
  answered_within (1 * ms) (250 * ms) ldec lfile lo KSingle st now sent /\ (forall p, (times_sent p sent <= 2)%nat) /\
  answered_within (1 * ms) (250 * ms) ldec lfile lo KSingle st1 (now + 15000 * ms) ((block_packet lfile 512 15, now) :: sent) /\
  exists st2, loop_recv ldec lo st1 EvWouldBlock (now + 15000 * ms + 1) = Ok (st2, CFail).
Proof.
  pose proof lall_true as H. destruct lx0 as [x0|] eqn:E0; [|discriminate].
  destruct (lrun 14 1 x0) as [[[st now] sent]|] eqn:E1; [|discriminate].
  destruct (lturn (st, now, sent) _) as [[[[s1 n1] l1] b]|] eqn:E2; [|discriminate].
  destruct (lwait 60 _) as [[[s2 n2] l2]|] eqn:E3; [|discriminate]. unfold lcheck in H. cbn [fst snd] in *.
  apply Bool.andb_true_iff in H as [H H5]. apply Bool.andb_true_iff in H as [H H4]. apply Bool.andb_true_iff in H as [H1 H2].
  assert (A0 : answered_within ms lgap ldec lfile lo KSingle (fst (fst x0)) (snd (fst x0)) (snd x0)).
  { unfold lx0 in E0. destruct (rate_start lo 0 ms) as [r| |] eqn:R; try discriminate E0. injection E0 as <-. cbn [fst snd].
    apply (aw_start ms lgap ldec lfile lo KSingle 0 ms r); [unfold ms; lia|exact R]. }
  assert (A1 : answered_within ms lgap ldec lfile lo KSingle st now sent) by (eapply lrun_ok; [|exact E1|exact A0]; reflexivity).
  pose proof (lturn_ok ms _ _ _ _ _ _ E2 A1) as A2. pose proof (lwait_ok _ _ _ _ _ E3 A2) as A3.
  apply lwait_sent in E3. cbn [snd] in E3. subst l2. apply lturn_sent in E2 as (plain & E2 & _). cbn [snd] in E2.
  apply N.eqb_eq in H4. change (fo_timeout lo) with (15000 * ms) in H4. subst n2.
  assert (EL : l1 = (block_packet lfile 512 15, now) :: sent).
  { destruct l1 as [|[p t] l]; [discriminate|]. apply Bool.andb_true_iff in H2 as [H2 H3]. apply Bool.andb_true_iff in H2 as [H2 H6].
    apply beq_eq in H2. apply N.eqb_eq in H6. apply Nat.eqb_eq in H3. subst p t. destruct plain as [|q [|q2 plain]]; cbn [map app] in E2.
    - exfalso. rewrite <- E2 in H3. cbn in H3. lia.
    - injection E2 as _ ->. reflexivity.
    - exfalso. injection E2 as _ ->. cbn [length] in H3. rewrite app_length in H3. lia. }
  exists st, now, sent, s2. rewrite N.mul_1_l. split; [exact A1|]. split; [intros p; apply twice_ok; exact H1|]. rewrite <- EL. split; [exact A3|].
  destruct (loop_recv ldec lo s2 EvWouldBlock _) as [[st2 [| |]]| |]; try discriminate H5. exists st2. reflexivity.
Qed.
Print Assumptions losses_delay_retransmission.
