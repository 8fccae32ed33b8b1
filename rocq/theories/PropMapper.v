(** Block numbers (C05, C06). *)
From Verif Require Import Base BaseProofs MapperModel MapperProofs ReaderModel WriterSpec WriterProofs.

(** C05: a history [l] of true indices, each at most 10000 away from the highest one seen
    so far, is recovered exactly from the 16-bit numbers on the wire. *)
Theorem block_numbers_resolved : forall l, within 10000 0 l ->
  map_run mapper_new (map (fun i => i mod 65536) l) = l.
Proof. intros l. apply map_run_near. apply mapper_new_inv. Qed.
Print Assumptions block_numbers_resolved.

(** The number sent for an index is its remainder modulo 65536, so what one side numbers with
    [map_block] the other recovers. *)
Theorem block_number_of_index : forall i, map_block i = i mod 65536.
Proof. apply map_block_mod. Qed.
Theorem block_numbers_round_trip : forall l, within 10000 0 l -> map_run mapper_new (map map_block l) = l.
Proof. intros l H. rewrite (map_ext _ _ map_block_mod). apply block_numbers_resolved. exact H. Qed.
Print Assumptions block_number_of_index.
Print Assumptions block_numbers_round_trip.

(** Transfers of at most 55535 blocks need no such condition. *)
Theorem block_numbers_resolved_small : forall l, Forall (fun i => i <= 55535) l ->
  map_run mapper_new (map (fun i => i mod 65536) l) = l.
Proof.
  induction 1 as [|i l Hi _ IH]; [reflexivity|].
  cbn [map map_run]. rewrite map_index_small by assumption. f_equal. exact IH.
Qed.
Print Assumptions block_numbers_resolved_small.

(** The bound is tight in both directions. *)
Theorem block_numbers_bound_tight :
  (exists l i, within 10000 0 l /\ within 10001 0 (l ++ [i]) /\ (forall x, In x l -> x < i) /\
     map_run mapper_new (map (fun i => i mod 65536) (l ++ [i])) <> l ++ [i]) /\
  (exists l i, within 10000 0 l /\ within 10001 0 (l ++ [i]) /\ (exists x, In x l /\ i < x) /\
     map_run mapper_new (map (fun i => i mod 65536) (l ++ [i])) <> l ++ [i]).
Proof.
  split.
  - exists [10000; 20000; 30000; 40000; 50000; 55535], 65536.
    split; [vm_compute; intuition discriminate|]. split; [vm_compute; intuition discriminate|].
    split; [intros x; cbn [In]; intuition (subst; reflexivity)|]. vm_compute. discriminate.
  - exists [10000; 20000; 30000; 40000; 50000; 60000; 70000; 75536], 65535.
    split; [vm_compute; intuition discriminate|]. split; [vm_compute; intuition discriminate|].
    split; [exists 75536; cbn [In]; split; [auto 10|reflexivity]|]. vm_compute. discriminate.
Qed.
Print Assumptions block_numbers_bound_tight.

Example block_numbers_case :
  within 10000 0 [1; 2; 10000; 20000; 30000; 40000; 50000; 60000; 65536; 65535; 65537; 75537; 65537] /\
  map_run mapper_new [1; 2; 10000; 20000; 30000; 40000; 50000; 60000; 0; 65535; 1; 10001; 1]
  = [1; 2; 10000; 20000; 30000; 40000; 50000; 60000; 65536; 65535; 65537; 75537; 65537].
Proof. split; [vm_compute; intuition discriminate|reflexivity]. Qed.

(** C06: a first packet with an unexpected block number [b] is rejected.  Numbers up to
    55535 leave the writer as it was; any higher number makes it reject every later
    packet with a number in 1..9999, whatever it contains. *)
Lemma mapper_stuck l : forall w, w_map w = mkMap 1 2 -> w_written w = 0 ->
  Forall (fun o => wo_block o < 10000) l ->
  w_out (fst (run_writer w l)) = w_out w /\
  Forall (fun r => exists e, r = Err e) (snd (run_writer w l)).
Proof.
  induction l as [|o l IH]; intros w Hm Hw HF; cbn [run_writer]; [cbn; auto|].
  inversion HF as [|? ? Ho HF']; subst.
  pose proof (write_block_cases w (wo_block o) (wo_data o) (wo_io o) (wo_short o)) as C.
  assert (E : map_index (w_map w) (wo_block o) = (65536 + wo_block o, mkMap 1 2)).
  { rewrite Hm. unfold map_index. cbn [m_cur m_next N.eqb Pos.eqb andb negb].
    assert (Hlt : (wo_block o <? 10000) = true) by lia. rewrite Hlt. f_equal. lia. }
  rewrite E in C. cbn [fst snd] in C. cbn zeta in C.
  destruct (write_block w (wo_block o) (wo_data o) (wo_io o) (wo_short o)) as [w1 r].
  destruct C as [C0 C].
  assert (H : w_out w1 = w_out w /\ w_written w1 = 0 /\ exists e, r = Err e).
  { rewrite Hw in C. destruct r as [[c j]|[c j|c j|]|].
    - destruct C as (C & _). lia.
    - destruct C as (C & _). lia.
    - intuition eauto.
    - destruct C as (C & _). lia.
    - destruct C. }
  destruct H as (H1 & H2 & H3).
  destruct (IH w1 C0 H2 HF') as [I1 I2]. destruct (run_writer w1 l) as [w2 rs]. cbn in *.
  split; [congruence|constructor; assumption].
Qed.
Theorem stray_block_number : forall b data io short, b < 65536 -> b <> 1 ->
  let '(w, r) := write_block writer_new b data io short in
  (exists e, r = Err e) /\
  (b <= 55535 -> w = writer_new) /\
  (55535 < b -> forall l, Forall (fun o => wo_block o < 10000) l ->
     w_out (fst (run_writer w l)) = [] /\
     Forall (fun r => exists e, r = Err e) (snd (run_writer w l))).
Proof.
  intros b data io short Hb Hb1.
  destruct (N.leb_spec b 55535) as [H|H].
  - unfold write_block, writer_new. cbn [w_map w_out w_written].
    pose proof (map_index_small b H) as E. rewrite N.mod_small in E by lia. rewrite E.
    destruct (b <? 0 + 1) eqn:E1; [split; [eauto|split; [reflexivity|lia]]|].
    destruct (0 + 1 <? b) eqn:E2; [split; [eauto|split; [reflexivity|lia]]|lia].
  - unfold write_block, writer_new. cbn [w_map w_out w_written].
    assert (E : map_index mapper_new b = (b, mkMap 1 2)).
    { unfold map_index, mapper_new. cbn [m_cur m_next]. rewrite N.eqb_refl.
      assert (E1 : (65535 - 10000 <? b) = true) by lia. rewrite E1.
      cbn [andb negb m_cur m_next N.eqb Pos.eqb N.add Pos.add].
      assert (E2 : (b <? 10000) = false) by lia. rewrite E2.
      assert (E3 : (b <? 20000) = false) by lia. rewrite E3, andb_false_r.
      cbn [m_cur m_next]. f_equal. }
    rewrite E.
    assert (E1 : (b <? 0 + 1) = false) by lia. rewrite E1.
    assert (E2 : (0 + 1 <? b) = true) by lia. rewrite E2.
    split; [eauto|]. split; [lia|]. intros _ l HF. apply mapper_stuck; auto.
Qed.
Print Assumptions stray_block_number.

Example stray_block_case :
  let w := fst (write_block writer_new 65535 [1;2;3] false None) in
  w_out (fst (run_writer w [mkWop 1 [9;9] false None; mkWop 1 [9;9] false None; mkWop 2 [8] false None])) = [] /\
  w_out (fst (run_writer writer_new [mkWop 1 [9;9] false None; mkWop 1 [9;9] false None; mkWop 2 [8] false None])) = [9;9;8].
Proof. split; reflexivity. Qed.
