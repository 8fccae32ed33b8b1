(** Arithmetic of a file cut into blocks. *)
From Coq Require Import Permutation.
From Verif Require Import Base BaseProofs MapperModel ReaderModel ReaderSpec.
Ltac Zify.zify_post_hook ::= Z.div_mod_to_equations.

Section B.
Variables (file : bytes) (bs : N).
Hypothesis Hbs : 0 < bs.
Notation n := (nblocks file bs).

Lemma nblocks_bounds : (n - 1) * bs <= blen file /\ blen file < n * bs /\ 1 <= n.
Proof.
  unfold nblocks. pose proof (N.div_mod (blen file) bs ltac:(lia)).
  pose proof (N.mod_upper_bound (blen file) bs ltac:(lia)). nia.
Qed.
Lemma prefix_full k : k < n -> prefix_size file bs k = k * bs.
Proof. intros H. unfold prefix_size. pose proof nblocks_bounds. nia. Qed.
Lemma prefix_all k : n <= k -> prefix_size file bs k = blen file.
Proof. intros H. unfold prefix_size. pose proof nblocks_bounds. nia. Qed.
Lemma prefix_0 : prefix_size file bs 0 = 0.
Proof. clear Hbs. unfold prefix_size. lia. Qed.
Lemma blen_block k : 1 <= k ->
  blen (block_of file bs k) = N.min bs (blen file - (k - 1) * bs).
Proof. intros. unfold block_of. rewrite blen_takeN, blen_dropN. reflexivity. Qed.
Lemma block_full k : 1 <= k -> k < n -> blen (block_of file bs k) = bs.
Proof. intros H1 H2. rewrite blen_block by assumption. pose proof nblocks_bounds. nia. Qed.
Lemma block_last : blen (block_of file bs n) < bs.
Proof. rewrite blen_block by apply nblocks_bounds. pose proof nblocks_bounds. nia. Qed.
Lemma block_short k : 1 <= k -> k <= n -> (blen (block_of file bs k) < bs <-> k = n).
Proof.
  intros H1 H2. split; intros H.
  - destruct (N.eq_dec k n); [assumption|]. rewrite block_full in H by lia. lia.
  - subst k. apply block_last.
Qed.
Lemma block_le k : blen (block_of file bs k) <= bs.
Proof. clear Hbs. unfold block_of. rewrite blen_takeN. lia. Qed.
Lemma prefix_step k : k < n ->
  prefix_size file bs (k + 1) = prefix_size file bs k + blen (block_of file bs (k + 1)).
Proof.
  intros H. rewrite blen_block by lia. unfold prefix_size. pose proof nblocks_bounds.
  replace (k + 1 - 1) with k by lia. nia.
Qed.
Lemma read_next k : k < n ->
  file_read file (prefix_size file bs k) bs = block_of file bs (k + 1).
Proof.
  intros H. rewrite prefix_full by assumption. unfold file_read, block_of.
  replace (k + 1 - 1) with k by lia. reflexivity.
Qed.
Lemma read_at k : file_read file (k * bs) bs = block_of file bs (k + 1).
Proof. clear Hbs. unfold file_read, block_of. replace (k + 1 - 1) with k by lia. reflexivity. Qed.
Lemma prefix_mono a b : a <= b -> prefix_size file bs a <= prefix_size file bs b.
Proof. clear Hbs. unfold prefix_size. nia. Qed.

(** Concatenating the first [k] blocks gives the prefix of that size. *)
Lemma prefix_snoc k : k < n ->
  takeN (prefix_size file bs k) file ++ block_of file bs (k + 1)
  = takeN (prefix_size file bs (k + 1)) file.
Proof.
  intros H. rewrite prefix_step by assumption. rewrite <- read_next by assumption.
  unfold file_read. set (p := prefix_size file bs k).
  rewrite <- (takeN_dropN p file) at 4.
  assert (Hp : blen (takeN p file) = p).
  { rewrite blen_takeN. unfold p, prefix_size. lia. }
  rewrite takeN_app. rewrite Hp. rewrite (takeN_all (p + _)) by lia. f_equal.
  rewrite blen_takeN, blen_dropN.
  replace (p + N.min bs (blen file - p) - p) with (N.min bs (blen file - p)) by lia.
  destruct (N.leb_spec bs (blen file - p)).
  - f_equal. lia.
  - rewrite !takeN_all by (rewrite blen_dropN; lia). reflexivity.
Qed.

(** Consecutive numbers. *)
Fixpoint seqN (a : N) (m : nat) : list N :=
  match m with O => [] | S m' => a :: seqN (a + 1) m' end.
Lemma seqN_length a m : length (seqN a m) = m.
Proof. clear Hbs. revert a; induction m; intros; cbn; congruence. Qed.
Lemma seqN_in a m x : In x (seqN a m) <-> a <= x /\ x < a + N.of_nat m.
Proof. clear Hbs.
  revert a; induction m as [|m IH]; intros a; cbn [seqN In]; [lia|]. rewrite IH. lia.
Qed.
Lemma seqN_app a p q : seqN a (p + q) = seqN a p ++ seqN (a + N.of_nat p) q.
Proof. clear Hbs.
  revert a; induction p as [|p IH]; intros a; cbn [seqN Nat.add app].
  - f_equal. lia.
  - rewrite IH. do 3 f_equal. lia.
Qed.
Definition sumN (l : list N) : N := fold_right N.add 0 l.
Lemma sumN_cons x l : sumN (x :: l) = x + sumN l.
Proof. clear Hbs. reflexivity. Qed.
Lemma sumN_perm l l' : Permutation l l' -> sumN l = sumN l'.
Proof. clear Hbs. induction 1; rewrite ?sumN_cons in *; try lia. Qed.
Lemma sum_blocks a m : a + N.of_nat m <= n ->
  sumN (map (fun k => blen (block_of file bs k)) (seqN (a + 1) m))
  = prefix_size file bs (a + N.of_nat m) - prefix_size file bs a.
Proof.
  revert a; induction m as [|m IH]; intros a H.
  - cbn. rewrite N.add_0_r. lia.
  - cbn [seqN map]. rewrite sumN_cons, IH by lia.
    pose proof (prefix_step a ltac:(lia)).
    pose proof (prefix_mono (a + 1) (a + 1 + N.of_nat m) ltac:(lia)).
    replace (a + 1 + N.of_nat m) with (a + N.of_nat (S m)) in * by lia. lia.
Qed.
Lemma filter_seqN a m i : filter (fun x => x <=? i) (seqN a m) = seqN a (N.to_nat (N.min (i + 1 - a) (N.of_nat m))).
Proof. clear Hbs.
  revert a; induction m as [|m IH]; intros a; cbn [seqN filter].
  - replace (N.min (i + 1 - a) (N.of_nat 0)) with 0 by lia. reflexivity.
  - rewrite IH. destruct (N.leb_spec a i).
    + replace (N.to_nat (N.min (i + 1 - a) (N.of_nat (S m))))
        with (S (N.to_nat (N.min (i + 1 - (a + 1)) (N.of_nat m)))) by lia.
      reflexivity.
    + replace (N.min (i + 1 - a) (N.of_nat (S m))) with 0 by lia.
      replace (N.min (i + 1 - (a + 1)) (N.of_nat m)) with 0 by lia. reflexivity.
Qed.
Lemma filter_seqN_gt a m i :
  filter (fun x => negb (x <=? i)) (seqN a m)
  = seqN (N.max a (i + 1)) (N.to_nat (N.of_nat m - N.min (i + 1 - a) (N.of_nat m))).
Proof. clear Hbs.
  revert a; induction m as [|m IH]; intros a; cbn [seqN filter].
  - reflexivity.
  - rewrite IH. destruct (N.leb_spec a i); cbn [negb].
    + f_equal; lia.
    + replace (N.to_nat (N.of_nat (S m) - N.min (i + 1 - a) (N.of_nat (S m))))
        with (S (N.to_nat (N.of_nat m - N.min (i + 1 - (a + 1)) (N.of_nat m)))) by lia.
      cbn [seqN]. f_equal; [lia|]. f_equal; lia.
Qed.
End B.
