(** Block readers (C07-C12). *)
From Verif Require Import Base BaseProofs MapperModel MapperProofs ReaderModel ReaderSpec BlockLemmas ReaderProofs.

(** Usual conditions: block size positive and 16 bit, caller's buffer large enough. *)
Definition usable (bs cap : N) : Prop := 0 < bs /\ bs < 65536 /\ bs <= cap.

Lemma run_init k file bs w cap l : usable bs cap ->
  (k = KSeek -> no_ack_after_finish (run_reader file cap (new_reader k bs w) l)) ->
  run_reader file cap (new_reader k bs w) l = run_spec k file bs w mapper_new (mkWin 0 0 0) l.
Proof.
  intros (H1 & H2 & H3) Hk. apply run_refines; auto; [eapply sim_init; eassumption|].
  intros E. split; [auto|]. pose proof (nblocks_bounds file bs H1). cbn. lia.
Qed.

(** C07: whatever calls are made, the stop-and-wait reader answers like the window
    specification with window 1; in particular it only returns true blocks of the file. *)
Theorem single_reader_refines : forall file bs w cap l, usable bs cap ->
  run_reader file cap (RS (single_new bs)) l
    = run_spec KSingle file bs w mapper_new (mkWin 0 0 0) l /\
  Forall (good_out file bs) (run_reader file cap (RS (single_new bs)) l).
Proof.
  intros file bs w cap l U.
  assert (E : run_reader file cap (RS (single_new bs)) l
    = run_spec KSingle file bs w mapper_new (mkWin 0 0 0) l)
    by (apply (run_init KSingle); [assumption|discriminate]).
  split; [exact E|]. rewrite E. destruct U as (? & ? & ?). eapply run_spec_good; try eapply win_init_ok; eassumption.
Qed.
Print Assumptions single_reader_refines.
Example single_reader_case :
  usable 2 6 /\
  run_reader [1;2;3;4] 6 (RS (single_new 2))
    [Next false false; Next false false; Ack 0; Next true false; Ack 1; Next false true; Next false false;
     Ack 2; Next true false; Ack 3; Next false false]
  = [ONext (Ok (Some (mkBlk 1 1 [1;2] false))) false; ONext (Ok None) false; OAck (Some 0) false;
     ONext (Ok (Some (mkBlk 1 1 [1;2] true))) false; OAck (Some 2) false; ONext (Err RFile) false;
     ONext (Ok (Some (mkBlk 2 2 [3;4] false))) false; OAck (Some 2) false;
     ONext (Ok (Some (mkBlk 3 3 [] false))) false; OAck (Some 0) true; ONext (Ok None) true].
Proof. split; [unfold usable; lia|reflexivity]. Qed.

(** C08: the buffering reader, with window [w]. *)
Theorem multi_reader_refines : forall file bs w cap l, usable bs cap ->
  run_reader file cap (RM (multi_new bs w)) l
    = run_spec KMulti file bs w mapper_new (mkWin 0 0 0) l /\
  Forall (good_out file bs) (run_reader file cap (RM (multi_new bs w)) l).
Proof.
  intros file bs w cap l U.
  assert (E : run_reader file cap (RM (multi_new bs w)) l
    = run_spec KMulti file bs w mapper_new (mkWin 0 0 0) l)
    by (apply (run_init KMulti); [assumption|discriminate]).
  split; [exact E|]. rewrite E. destruct U as (? & ? & ?). eapply run_spec_good; try eapply win_init_ok; eassumption.
Qed.
Print Assumptions multi_reader_refines.
Example multi_reader_case :
  run_reader [1;2;3;4;5] 6 (RM (multi_new 2 2))
    [Next false false; Next false false; Next false false; Next true false; Ack 2; Next true false; Ack 7]
  = [ONext (Ok (Some (mkBlk 1 1 [1;2] false))) false; ONext (Ok (Some (mkBlk 2 2 [3;4] false))) false;
     ONext (Ok None) false; ONext (Ok (Some (mkBlk 1 1 [1;2] true))) false;
     OAck (Some 4) false; ONext (Ok (Some (mkBlk 3 3 [5] false))) false; OAck (Some 1) true].
Proof. reflexivity. Qed.

(** C09: the seeking reader, as long as no acknowledgement reaches it after it finished. *)
Theorem seek_reader_refines : forall file bs w cap l, usable bs cap ->
  no_ack_after_finish (run_reader file cap (RK (seek_new bs w)) l) ->
  run_reader file cap (RK (seek_new bs w)) l
    = run_spec KSeek file bs w mapper_new (mkWin 0 0 0) l /\
  Forall (good_out file bs) (run_reader file cap (RK (seek_new bs w)) l).
Proof.
  intros file bs w cap l U HN.
  assert (E : run_reader file cap (RK (seek_new bs w)) l
    = run_spec KSeek file bs w mapper_new (mkWin 0 0 0) l)
    by (apply (run_init KSeek); [assumption|auto]).
  split; [exact E|]. rewrite E. destruct U as (? & ? & ?). eapply run_spec_good; try eapply win_init_ok; eassumption.
Qed.
Print Assumptions seek_reader_refines.
Example seek_reader_case :
  no_ack_after_finish (run_reader [1;2;3;4;5] 6 (RK (seek_new 2 2))
    [Next false false; Next false false; Next false false; Next true false; Ack 2; Next true false; Ack 7; Next true true]).
Proof. vm_compute. repeat split; intros; try discriminate; repeat constructor. Qed.
(** The condition is needed: an acknowledgement beyond the end after the transfer has
    finished makes the subtraction in the seeking reader underflow (a panic). *)
Theorem seek_reader_refuted_after_finish :
  exists file bs w cap l, usable bs cap /\
    In (OAck None true) (run_reader file cap (RK (seek_new bs w)) l) /\
    ~ In (OAck None true) (run_reader file cap (RM (multi_new bs w)) l).
Proof.
  exists [1], 2, 1, 6, [Next false false; Ack 1; Ack 2]. split; [unfold usable; lia|].
  split; [vm_compute; auto|]. vm_compute. intuition discriminate.
Qed.
Print Assumptions seek_reader_refuted_after_finish.

(** C10 and C11: at the end of any history there is a number [c] of acknowledged blocks
    such that the sizes returned by the acknowledgements add up to the size of the first
    [c] blocks, the number of blocks returned for the first time is between [c] and
    [c] + window, and the reader is finished exactly if [c] is the number of blocks. *)
Theorem reader_accounting : forall k file bs w cap l, usable bs cap ->
  (k = KSeek -> no_ack_after_finish (run_reader file cap (new_reader k bs w) l)) ->
  let out := run_reader file cap (new_reader k bs w) l in
  exists c, acked_bytes out = prefix_size file bs c /\
    c <= fresh_blocks out /\ fresh_blocks out <= c + window_of k w /\
    fresh_blocks out <= nblocks file bs /\
    (last_finished out false = true <-> c = nblocks file bs).
Proof.
  intros k file bs w cap l U Hk. cbn zeta. rewrite run_init by assumption.
  pose proof U as (Hbs & _ & _). pose proof (nblocks_bounds file bs Hbs) as B.
  destruct (run_spec_account file bs w cap Hbs (proj1 (proj2 U)) (proj2 (proj2 U)) k l mapper_new (mkWin 0 0 0)
     (win_init_ok file bs w cap Hbs (proj1 (proj2 U)) (proj2 (proj2 U)) k)) as (c & C1 & C2 & C3 & C4 & C5 & C6).
  cbn [conf hi] in *. rewrite prefix_0, N.add_0_l in *.
  exists c. split; [symmetry; assumption|]. repeat split; try assumption.
  - intros H. apply C6. unfold spec_finished. cbn [conf].
    replace (0 =? nblocks file bs) with false by (symmetry; apply N.eqb_neq; lia). assumption.
  - intros H. apply C6 in H. unfold spec_finished in H. cbn [conf] in H.
    replace (0 =? nblocks file bs) with false in H by (symmetry; apply N.eqb_neq; lia). assumption.
Qed.
Print Assumptions reader_accounting.

Theorem reader_window_bound : forall k file bs w cap l, usable bs cap ->
  (k = KSeek -> no_ack_after_finish (run_reader file cap (new_reader k bs w) l)) ->
  let out := run_reader file cap (new_reader k bs w) l in
  exists c, acked_bytes out = prefix_size file bs c /\ c <= fresh_blocks out /\
    fresh_blocks out <= c + window_of k w.
Proof.
  intros k file bs w cap l U Hk. destruct (reader_accounting k file bs w cap l U Hk) as (c & H).
  exists c. tauto.
Qed.
Print Assumptions reader_window_bound.
(** ... and the buffering reader never holds more than [w] block buffers. *)
Theorem multi_reader_memory : forall file bs w cap l, usable bs cap ->
  N.of_nat (length (r_blocks (multi_state file cap (multi_new bs w) l))) <= w.
Proof.
  intros file bs w cap l (H1 & H2 & H3).
  apply (multi_buffers file bs w cap H1 H2 H3 l _ _ _ (simM_init file bs w cap H1 H2 H3)).
Qed.
Print Assumptions multi_reader_memory.

Theorem acknowledged_bytes_total : forall k file bs w cap l, usable bs cap ->
  (k = KSeek -> no_ack_after_finish (run_reader file cap (new_reader k bs w) l)) ->
  let out := run_reader file cap (new_reader k bs w) l in
  acked_bytes out <= blen file /\
  (last_finished out false = true -> acked_bytes out = blen file).
Proof.
  intros k file bs w cap l U Hk. destruct (reader_accounting k file bs w cap l U Hk) as (c & H1 & H2 & H3 & H4 & H5).
  cbn zeta. rewrite H1. split.
  - unfold prefix_size. lia.
  - intros H. apply H5 in H. subst c. apply prefix_all; [apply U|lia].
Qed.
Print Assumptions acknowledged_bytes_total.
Example reader_accounting_case :
  let out := run_reader [1;2;3;4;5] 6 (new_reader KMulti 2 2)
    [Next false false; Next false false; Ack 1; Ack 1; Next false false; Next false false; Next true false; Ack 9] in
  acked_bytes out = 5 /\ fresh_blocks out = 3 /\ last_finished out false = true.
Proof. repeat split; reflexivity. Qed.

(** C12: without device failures the buffering and the seeking reader give the same answers. *)
Definition no_io (op : rop) : Prop := match op with Next _ io => io = false | Ack _ => True end.
Theorem multi_seek_interchangeable : forall file bs w cap l, usable bs cap ->
  Forall no_io l -> no_ack_after_finish (run_reader file cap (RK (seek_new bs w)) l) ->
  run_reader file cap (RM (multi_new bs w)) l = run_reader file cap (RK (seek_new bs w)) l.
Proof.
  intros file bs w cap l U HI HN.
  rewrite (proj1 (multi_reader_refines file bs w cap l U)), (proj1 (seek_reader_refines file bs w cap l U HN)).
  clear HN. revert HI. generalize mapper_new, (mkWin 0 0 0). induction l as [|[retry io|b] l IH]; intros m s HI;
    cbn [run_spec]; [reflexivity| |]; inversion HI as [|? ? H1 H2]; subst.
  - cbn in H1. subst io.
    assert (E : spec_next KMulti file bs w s retry false = spec_next KSeek file bs w s retry false) by reflexivity.
    rewrite E. destruct (spec_next KSeek file bs w s retry false). f_equal. apply IH. assumption.
  - destruct (map_index m b) as [i m'].
    assert (E : spec_free KMulti file bs s i = spec_free KSeek file bs s i) by reflexivity.
    rewrite E. destruct (spec_free KSeek file bs s i). f_equal. apply IH. assumption.
Qed.
Print Assumptions multi_seek_interchangeable.
Example multi_seek_case :
  Forall no_io [Next false false; Next false false; Next true false; Ack 2; Next true false; Ack 3] /\
  run_reader [1;2;3;4;5] 6 (RM (multi_new 2 3)) [Next false false; Next false false; Next true false; Ack 2; Next true false; Ack 3]
  = run_reader [1;2;3;4;5] 6 (RK (seek_new 2 3)) [Next false false; Next false false; Next true false; Ack 2; Next true false; Ack 3].
Proof. split; [repeat constructor|reflexivity]. Qed.
