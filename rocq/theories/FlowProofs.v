(** Bounds on the retransmission interval (for PropFlow.v). *)
From Coq Require Import Reals Lra Floats.SpecFloat.
From Flocq Require Import Core IEEE754.BinarySingleNaN.
From Verif Require Import Base PacketModel MapperModel ReaderModel ConfigModel ConnModel ClientModel FlowModel F32Proofs ReaderSpec FlowSpec.
Open Scope R_scope.

Definition Mj (j : N) : R := bpow radix2 (Z.of_N j - 9).

Lemma Mj_pos j : 0 < Mj j. Proof. apply bpow_gt_0. Qed.
Lemma nanos_R : IZR (Z.of_N NANOS) = IZR 1953125 * bpow radix2 9. Proof. change (bpow radix2 9) with 512. rewrite <- mult_IZR. reflexivity. Qed.
Lemma pow2_R j : IZR (Z.of_N (2 ^ j)) = bpow radix2 (Z.of_N j).
Proof. rewrite N2Z.inj_pow. change (Z.of_N 2) with (radix_val radix2). rewrite IZR_Zpower by lia. reflexivity. Qed.
Lemma lim_R j : IZR (Z.of_N (lim j)) = Mj j * IZR (Z.of_N NANOS).
Proof.
  unfold lim, Mj. rewrite N2Z.inj_mul, mult_IZR, pow2_R, nanos_R.
  replace (Z.of_N j) with (Z.of_N j - 9 + 9)%Z at 1 by ring. rewrite bpow_plus. simpl (Z.of_N 1953125). ring.
Qed.

Lemma fin_small n : (n < 2 ^ 32)%N -> fin (f_of n) (rnd (IZR (Z.of_N n))).
Proof.
  intros H. apply fin_of. apply rnd_small with 32%Z; [apply IZR_le; lia| |lia].
  change (bpow radix2 32) with (IZR (2 ^ 32)). apply IZR_le. lia.
Qed.
Lemma fin_exact n : (n < 2 ^ 24)%N -> fin (f_of n) (IZR (Z.of_N n)).
Proof. intros H. rewrite <- (rnd_int (Z.of_N n)) by lia. apply fin_small. lia. Qed.
Lemma fin_nanos : fin (f_of NANOS) (IZR (Z.of_N NANOS)).
Proof.
  assert (E : rnd (IZR (Z.of_N NANOS)) = IZR (Z.of_N NANOS)).
  { rewrite nanos_R. apply rnd_F2R; [reflexivity|lia]. }
  rewrite <- E. apply fin_small. reflexivity.
Qed.
Lemma nanos_pos : 0 < IZR (Z.of_N NANOS). Proof. apply IZR_lt. reflexivity. Qed.

(** A fraction of a second. *)
Lemma frac_le n B e : (n < 2 ^ 32)%N -> 0 <= B -> rnd (IZR (Z.of_N n)) <= B * IZR (Z.of_N NANOS) -> rnd B = B -> B <= bpow radix2 e -> (-149 <= e < 128)%Z ->
  exists a, fin (fdiv (f_of n) (f_of NANOS)) a /\ 0 <= a <= B.
Proof.
  intros HN HB H EB HE Re. set (v := rnd (IZR (Z.of_N n))) in *.
  assert (V0 : 0 <= v) by (apply rnd_pos, IZR_le; lia).
  assert (Q0 : 0 <= v / IZR (Z.of_N NANOS)).
  { apply Rmult_le_pos; [exact V0|]. left. apply Rinv_0_lt_compat, nanos_pos. }
  assert (Q1 : v / IZR (Z.of_N NANOS) <= B).
  { apply Rmult_le_reg_r with (IZR (Z.of_N NANOS)); [apply nanos_pos|]. unfold Rdiv. rewrite Rmult_assoc, Rinv_l; [lra|].
    apply Rgt_not_eq, nanos_pos. }
  exists (rnd (v / IZR (Z.of_N NANOS))). split.
  - apply fin_div; [now apply fin_small|apply fin_nanos|apply Rgt_not_eq, nanos_pos|].
    apply rnd_small with e; [exact Q0|lra|exact Re].
  - split; [now apply rnd_pos|]. rewrite <- EB. now apply rnd_le.
Qed.

Lemma as_secs_bounds ns j : (j <= 33)%N -> (ns <= lim j)%N ->
  exists a, fin (as_secs ns) a /\ 0 <= a <= Mj j /\ IZR (Z.of_N (ns / NANOS)) <= a.
Proof.
  intros HJ HN. unfold as_secs.
  pose proof (N.div_mod ns NANOS ltac:(discriminate)) as DM. pose proof (N.mod_lt ns NANOS ltac:(discriminate)) as ML.
  set (s := (ns / NANOS)%N) in *. set (f := (ns mod NANOS)%N) in *.
  assert (EM : rnd (Mj j) = Mj j) by (apply rnd_bpow; lia).
  destruct (N.lt_ge_cases j 9) as [J|J].
  - assert (P : (2 ^ j <= 2 ^ 8)%N) by (apply N.pow_le_mono_r; lia).
    assert (S0 : s = 0%N) by (unfold lim, NANOS in *; nia).
    assert (F0 : f = ns) by lia. rewrite S0, F0 in *.
    destruct (frac_le ns (Mj j) 0) as (a & Ha & A0 & A1).
    + unfold NANOS in *. lia.
    + left. apply Mj_pos.
    + rewrite <- lim_R. assert (EL : rnd (IZR (Z.of_N (lim j))) = IZR (Z.of_N (lim j))).
      { unfold lim. rewrite N2Z.inj_mul, mult_IZR, pow2_R. apply rnd_F2R; [reflexivity|lia]. }
      rewrite <- EL. apply rnd_le, IZR_le. lia.
    + exact EM.
    + unfold Mj. apply bpow_le. lia.
    + lia.
    + exists (rnd (0 + a)). split.
      * apply fin_add; [exact (fin_exact 0 ltac:(reflexivity))|exact Ha|].
        apply rnd_small with 0%Z; [lra| |lia]. assert (Mj j <= bpow radix2 0) by (apply bpow_le; lia). lra.
      * assert (RP : 0 <= rnd (0 + a)) by (apply rnd_pos; lra).
        split; [split; [exact RP|]; rewrite <- EM; apply rnd_le; lra|]. simpl (IZR (Z.of_N 0)). exact RP.
  - assert (K : exists k, j = (k + 9)%N /\ (k <= 24)%N) by (exists (j - 9)%N; lia). destruct K as (k & -> & HK).
    assert (EL : lim (k + 9) = (2 ^ k * NANOS)%N) by (unfold lim, NANOS; rewrite N.pow_add_r; change (2 ^ 9)%N with 512%N; lia).
    assert (EMk : Mj (k + 9) = IZR (Z.of_N (2 ^ k))).
    { unfold Mj. rewrite pow2_R. f_equal. lia. }
    assert (P : (2 ^ k <= 2 ^ 24)%N) by (apply N.pow_le_mono_r; lia).
    rewrite EL in HN. assert (C : (s = 2 ^ k /\ f = 0 \/ s <= 2 ^ k - 1)%N) by (unfold NANOS in *; nia).
    assert (FS : fin (f_of s) (IZR (Z.of_N s))).
    { destruct C as [[-> _]|C]; [|apply fin_exact; lia].
      assert (E : rnd (IZR (Z.of_N (2 ^ k))) = IZR (Z.of_N (2 ^ k))) by (rewrite pow2_R; apply rnd_bpow; lia).
      rewrite <- E. apply fin_small. lia. }
    assert (S0 : 0 <= IZR (Z.of_N s)) by (apply IZR_le; lia).
    assert (FA : exists a, fin (fdiv (f_of f) (f_of NANOS)) a /\ 0 <= a <= 1 /\ (f = 0%N -> a = 0)).
    { destruct (N.eq_dec f 0) as [->|NF].
      - destruct (frac_le 0 0 0) as (a & Ha & A).
        + reflexivity.
        + lra.
        + rewrite Rmult_0_l. change (IZR (Z.of_N 0)) with 0. rewrite rnd_0. lra.
        + apply rnd_0.
        + simpl. lra.
        + lia.
        + exists a. split; [exact Ha|]. split; [lra|]. intros _. lra.
      - destruct (frac_le f 1 0) as (a & Ha & A).
        + unfold NANOS in *. lia.
        + lra.
        + rewrite Rmult_1_l. assert (E : rnd (IZR (Z.of_N NANOS)) = IZR (Z.of_N NANOS)).
          { rewrite nanos_R. apply rnd_F2R; [reflexivity|lia]. }
          rewrite <- E. apply rnd_le, IZR_le. lia.
        + exact (rnd_int 1 ltac:(reflexivity)).
        + simpl. lra.
        + lia.
        + exists a. split; [exact Ha|]. split; [lra|]. congruence. }
    destruct FA as (a & Ha & A & AF).
    assert (LE : IZR (Z.of_N s) + a <= Mj (k + 9)).
    { rewrite EMk. destruct C as [[-> C2]|C]; [rewrite (AF C2); lra|].
      assert (IZR (Z.of_N s) <= IZR (Z.of_N (2 ^ k) - 1)) by (apply IZR_le; lia). rewrite minus_IZR in H. lra. }
    exists (rnd (IZR (Z.of_N s) + a)). split.
    + apply fin_add; [exact FS|exact Ha|]. apply rnd_small with 24%Z; [lra| |lia].
      assert (Mj (k + 9) <= bpow radix2 24) by (apply bpow_le; lia). lra.
    + split; [split; [apply rnd_pos; lra|]; rewrite <- EM; apply rnd_le; exact LE|].
      assert (ES : rnd (IZR (Z.of_N s)) = IZR (Z.of_N s)).
      { destruct C as [[-> _]|C]; [rewrite pow2_R; apply rnd_bpow; lia|apply rnd_int; lia]. }
      rewrite <- ES at 1. apply rnd_le. lra.
Qed.
Lemma as_secs_le ns j : (j <= 33)%N -> (ns <= lim j)%N -> exists a, fin (as_secs ns) a /\ 0 <= a <= Mj j.
Proof. intros HJ HN. destruct (as_secs_bounds ns j HJ HN) as (a & H1 & H2 & _). eauto. Qed.

Lemma fin_lit m e : bounded 24 128 m e = true -> fin (S754_finite false m e) (IZR (Zpos m) * bpow radix2 e).
Proof. intros H. exists (B754_finite false m e H). auto. Qed.

Lemma smooth_le x y a b j : (j <= 33)%N -> fin x a -> 0 <= a <= Mj j -> fin y b -> 0 <= b <= Mj j ->
  exists d, fin (smooth x y) d /\ 0 <= d <= Mj j.
Proof.
  intros HJ HX HA HY HB. unfold smooth.
  replace (fsub (f_of 1) f0_9) with (S754_finite false 13421776 (-27)) by (vm_compute; reflexivity).
  pose proof (fin_lit 15099494 (-24) eq_refl) as F1. pose proof (fin_lit 13421776 (-27) eq_refl) as F2. fold f0_9 in F1.
  set (u := IZR 15099494 * bpow radix2 (-24)) in *. set (v := IZR 13421776 * bpow radix2 (-27)) in *.
  pose proof (bpow_gt_0 radix2 (-24)) as P1. pose proof (bpow_gt_0 radix2 (-27)) as P2.
  assert (U0 : 0 <= u) by (unfold u; apply Rmult_le_pos; [apply IZR_le; discriminate|lra]).
  assert (V0 : 0 <= v) by (unfold v; apply Rmult_le_pos; [apply IZR_le; discriminate|lra]).
  assert (UV : u + v = 1) by (unfold u, v; simpl; lra).
  assert (B128 : Mj j < bpow radix2 127) by (apply bpow_lt; lia).
  assert (M0 := Mj_pos j).
  assert (EU : rnd (u * Mj j) = u * Mj j).
  { unfold u, Mj. rewrite Rmult_assoc, <- bpow_plus. apply rnd_F2R; [reflexivity|lia]. }
  assert (EV : rnd (v * Mj j) = v * Mj j).
  { unfold v, Mj. rewrite Rmult_assoc, <- bpow_plus. apply rnd_F2R; [reflexivity|lia]. }
  assert (X1 : 0 <= u * a <= u * Mj j) by (split; [apply Rmult_le_pos; lra|apply Rmult_le_compat_l; lra]).
  assert (Y1 : 0 <= v * b <= v * Mj j) by (split; [apply Rmult_le_pos; lra|apply Rmult_le_compat_l; lra]).
  assert (FX : fin (fmul f0_9 x) (rnd (u * a))).
  { apply fin_mul; auto. apply rnd_small with 127%Z; [lra|nra|lia]. }
  assert (FY : fin (fmul (S754_finite false 13421776 (-27)) y) (rnd (v * b))).
  { apply fin_mul; auto. apply rnd_small with 127%Z; [lra|nra|lia]. }
  assert (RX : 0 <= rnd (u * a) <= u * Mj j).
  { split; [apply rnd_pos; lra|]. rewrite <- EU. apply rnd_le. lra. }
  assert (RY : 0 <= rnd (v * b) <= v * Mj j).
  { split; [apply rnd_pos; lra|]. rewrite <- EV. apply rnd_le. lra. }
  assert (SUM : rnd (u * a) + rnd (v * b) <= Mj j).
  { replace (Mj j) with ((u + v) * Mj j) by (rewrite UV; ring). lra. }
  exists (rnd (rnd (u * a) + rnd (v * b))). split.
  - apply fin_add; auto. apply rnd_small with 127%Z; [lra|lra|lia].
  - split; [apply rnd_pos; lra|]. assert (EM : rnd (Mj j) = Mj j) by (apply rnd_bpow; lia). rewrite <- EM. apply rnd_le. exact SUM.
Qed.

(** The interval: the estimate is at most 2^(j-9) s and two blocks take at most [T] seconds. *)
Lemma interval_le r retry bs j T : (j <= 33)%N ->
  (exists a, fin (r_est r) a /\ 0 <= a <= Mj j) ->
  (bs < 65536)%N -> (1 <= r_allowed r < 2 ^ 32)%N -> (T < 2 ^ 24)%N -> (2 * bs <= T * r_allowed r)%N ->
  exists ti, timeout_interval r retry bs = Ok ti /\ (retry <= ti <= N.max retry (N.max (4 * lim j) (T * NANOS)))%N.
Proof.
  intros HJ (a & HE & A0 & A1) HB [HA1 HA2] HT HR. unfold timeout_interval. destruct (no_estimate (r_est r)).
  { exists retry. split; [reflexivity|lia]. }
  set (al := r_allowed r) in *.
  assert (M0 := Mj_pos j).
  assert (F4 : fin (fmul (f_of 4) (r_est r)) (rnd (4 * a))).
  { apply (fin_mul _ _ 4 a); [exact (fin_exact 4 ltac:(reflexivity))|exact HE|].
    apply rnd_small with 127%Z; [lra| |lia]. assert (Mj j <= bpow radix2 125) by (apply bpow_le; lia).
    change 127%Z with (2 + 125)%Z. rewrite bpow_plus. change (bpow radix2 2) with 4. lra. }
  assert (E4 : 0 <= rnd (4 * a) <= 4 * Mj j).
  { split; [apply rnd_pos; lra|]. replace (4 * Mj j) with (rnd (4 * Mj j)).
    - apply rnd_le. lra.
    - unfold Mj. change 4 with (bpow radix2 2). rewrite <- bpow_plus. apply rnd_bpow. lia. }
  assert (FB : fin (fmul (f_of 2) (f_of bs)) (IZR (Z.of_N (2 * bs)))).
  { assert (E : rnd (2 * IZR (Z.of_N bs)) = IZR (Z.of_N (2 * bs))).
    { rewrite <- (mult_IZR 2). replace (2 * Z.of_N bs)%Z with (Z.of_N (2 * bs)) by lia. apply rnd_int. lia. }
    rewrite <- E. apply (fin_mul _ _ 2); [exact (fin_exact 2 ltac:(reflexivity))|apply fin_exact; lia|].
    rewrite E, Rabs_pos_eq by (apply IZR_le; lia). apply Rlt_trans with (bpow radix2 24); [|apply bpow_lt; lia].
    change (bpow radix2 24) with (IZR (2 ^ 24)). apply IZR_lt. lia. }
  pose proof (fin_small al HA2) as FA. set (ra := rnd (IZR (Z.of_N al))) in *.
  assert (T0 : 0 <= IZR (Z.of_N T)) by (apply IZR_le; lia).
  assert (B0 : 0 <= IZR (Z.of_N (2 * bs))) by (apply IZR_le; lia).
  assert (RA1 : 1 <= ra) by (rewrite <- (rnd_int 1 ltac:(reflexivity)); apply rnd_le, IZR_le; lia).
  assert (Q : exists q, (q <= al)%N /\ (q < 2 ^ 24)%N /\ (1 <= q)%N /\ (2 * bs <= T * q)%N).
  { destruct (N.lt_ge_cases al (2 ^ 24)) as [L|L]; [exists al; lia|].
    exists (2 ^ 24 - 1)%N. split; [lia|]. split; [lia|]. split; [lia|]. destruct (N.eq_dec T 0) as [->|]; [lia|]. nia. }
  destruct Q as (q & Q1 & Q2 & Q3 & Q4).
  assert (RAQ : IZR (Z.of_N q) <= ra).
  { rewrite <- (rnd_int (Z.of_N q)) by lia. apply rnd_le, IZR_le. lia. }
  assert (D0 : 0 <= IZR (Z.of_N (2 * bs)) / ra).
  { apply Rmult_le_pos; [exact B0|]. left. apply Rinv_0_lt_compat. lra. }
  assert (D1 : IZR (Z.of_N (2 * bs)) / ra <= IZR (Z.of_N T)).
  { apply Rmult_le_reg_r with ra; [lra|]. unfold Rdiv. rewrite Rmult_assoc, Rinv_l, Rmult_1_r by lra.
    apply Rle_trans with (IZR (Z.of_N T) * IZR (Z.of_N q)); [rewrite <- mult_IZR; apply IZR_le; lia|].
    apply Rmult_le_compat_l; lra. }
  assert (FD : fin (fdiv (fmul (f_of 2) (f_of bs)) (f_of al)) (rnd (IZR (Z.of_N (2 * bs)) / ra))).
  { apply fin_div; [exact FB|exact FA|lra|]. apply rnd_small with 24%Z; [exact D0| |lia].
    apply Rle_trans with (IZR (Z.of_N T)); [exact D1|]. change (bpow radix2 24) with (IZR (2 ^ 24)). apply IZR_le. lia. }
  assert (ED : 0 <= rnd (IZR (Z.of_N (2 * bs)) / ra) <= IZR (Z.of_N T)).
  { split; [now apply rnd_pos|]. rewrite <- (rnd_int (Z.of_N T)) by lia. now apply rnd_le. }
  pose proof (fin_max _ _ _ _ F4 FD) as FM. cbv zeta.
  destruct (from_secs_ok _ _ (N.max (4 * lim j) (T * NANOS)) FM) as (d & ED' & DL).
  - apply Rle_trans with (rnd (4 * a)); [lra|apply Rmax_l].
  - assert (NP := nanos_pos).
    assert (L4 : 4 * Mj j * IZR (Z.of_N NANOS) <= IZR (Z.of_N (N.max (4 * lim j) (T * NANOS)))).
    { apply Rle_trans with (IZR (Z.of_N (4 * lim j))); [|apply IZR_le; lia].
      rewrite N2Z.inj_mul, mult_IZR, lim_R. simpl (Z.of_N 4). lra. }
    assert (LT : IZR (Z.of_N T) * IZR (Z.of_N NANOS) <= IZR (Z.of_N (N.max (4 * lim j) (T * NANOS)))).
    { rewrite <- mult_IZR. apply IZR_le. lia. }
    unfold Rmax. destruct (Rle_dec _ _).
    + apply Rle_trans with (IZR (Z.of_N T) * IZR (Z.of_N NANOS)); [apply Rmult_le_compat_r; lra|exact LT].
    + apply Rle_trans with (4 * Mj j * IZR (Z.of_N NANOS)); [apply Rmult_le_compat_r; lra|exact L4].
  - assert (P : (2 ^ j <= 2 ^ 33)%N) by (apply N.pow_le_mono_r; lia). unfold lim, NANOS. lia.
  - rewrite ED'. cbn [bindp]. eexists. split; [reflexivity|]. lia.
Qed.

(** Not less than four times the estimate. *)
Lemma interval_ge r retry bs s ti : (exists a, fin (r_est r) a /\ IZR (Z.of_N s) <= a <= bpow radix2 24) ->
  (1 <= s < 2 ^ 22)%N -> (bs < 65536)%N -> (1 <= r_allowed r < 2 ^ 32)%N ->
  timeout_interval r retry bs = Ok ti -> (4 * s * NANOS <= ti)%N.
Proof.
  intros (a & HE & A0 & A1) HS HB [HA1 HA2]. unfold timeout_interval.
  assert (S1 : 1 <= IZR (Z.of_N s)) by (apply IZR_le; lia).
  rewrite (fin_eqb _ _ HE), Req_bool_false by lra. cbv zeta.
  assert (F4 : fin (fmul (f_of 4) (r_est r)) (rnd (4 * a))).
  { apply (fin_mul _ _ 4 a); [exact (fin_exact 4 ltac:(reflexivity))|exact HE|].
    apply rnd_small with 127%Z; [lra| |lia]. assert (bpow radix2 24 <= bpow radix2 125) by (apply bpow_le; lia).
    change 127%Z with (2 + 125)%Z. rewrite bpow_plus. change (bpow radix2 2) with 4. lra. }
  assert (E4 : IZR (Z.of_N (4 * s)) <= rnd (4 * a)).
  { rewrite <- (rnd_int (Z.of_N (4 * s))) by lia. apply rnd_le. rewrite N2Z.inj_mul, mult_IZR. simpl (IZR (Z.of_N 4)). lra. }
  assert (FB : fin (fmul (f_of 2) (f_of bs)) (IZR (Z.of_N (2 * bs)))).
  { assert (E : rnd (2 * IZR (Z.of_N bs)) = IZR (Z.of_N (2 * bs))).
    { rewrite <- (mult_IZR 2). replace (2 * Z.of_N bs)%Z with (Z.of_N (2 * bs)) by lia. apply rnd_int. lia. }
    rewrite <- E. apply (fin_mul _ _ 2); [exact (fin_exact 2 ltac:(reflexivity))|apply fin_exact; lia|].
    rewrite E, Rabs_pos_eq by (apply IZR_le; lia). apply Rlt_trans with (bpow radix2 24); [|apply bpow_lt; lia].
    change (bpow radix2 24) with (IZR (2 ^ 24)). apply IZR_lt. lia. }
  pose proof (fin_small (r_allowed r) HA2) as FA. set (ra := rnd (IZR (Z.of_N (r_allowed r)))) in *.
  assert (RA1 : 1 <= ra) by (unfold ra; rewrite <- (rnd_int 1 ltac:(reflexivity)); apply rnd_le, IZR_le; lia).
  assert (B0 : 0 <= IZR (Z.of_N (2 * bs)) <= bpow radix2 24).
  { split; [apply IZR_le; lia|]. change (bpow radix2 24) with (IZR (2 ^ 24)). apply IZR_le. lia. }
  assert (D0 : 0 <= IZR (Z.of_N (2 * bs)) / ra <= bpow radix2 24).
  { split; [apply Rmult_le_pos; [apply B0|]; left; apply Rinv_0_lt_compat; lra|].
    apply Rmult_le_reg_r with ra; [lra|]. unfold Rdiv. rewrite Rmult_assoc, Rinv_l, Rmult_1_r by lra.
    pose proof (bpow_gt_0 radix2 24). nra. }
  assert (FD : fin (fdiv (fmul (f_of 2) (f_of bs)) (f_of (r_allowed r))) (rnd (IZR (Z.of_N (2 * bs)) / ra))).
  { apply fin_div; [exact FB|exact FA|lra|]. apply rnd_small with 24%Z; [apply D0|apply D0|lia]. }
  pose proof (fin_max _ _ _ _ F4 FD) as FM.
  destruct (from_secs _) as [d| |] eqn:FS; cbn [bindp]; try discriminate. intros [= <-].
  pose proof (from_secs_ge _ _ (4 * s * NANOS) _ FM FS) as G. apply N.le_trans with d; [|lia]. apply G.
  rewrite N2Z.inj_mul, mult_IZR. apply Rmult_le_compat_r; [left; apply nanos_pos|].
  apply Rle_trans with (rnd (4 * a)); [exact E4|apply Rmax_l].
Qed.

Close Scope R_scope.
Open Scope N_scope.
(** ** The invariant *)
Record rate_ok (j bs : N) (r : rate) : Prop := {
  ro_est : exists a, fin (r_est r) a /\ (0 <= a <= Mj j)%R;
  ro_low : bs / 64 <= r_allowed r;
  ro_high : r_allowed r < U32;
  ro_packets : r_packets r < U32 }.

Lemma upto_lt chk m n x : 0 < m -> upto chk m n = Ok x -> x < m.
Proof.
  intros HM. unfold upto. destruct (N.ltb_spec n m); [congruence|]. destruct chk; [discriminate|]. intros [= <-]. apply N.mod_lt. lia.
Qed.
Lemma init_ok chk bs : bs <= 16383 -> exists i, initial_rate chk bs = Ok i /\ 2 * bs <= i <= 4 * bs.
Proof.
  intros H. unfold initial_rate, upto, INITIAL_TCP_WINDOW.
  destruct (N.ltb_spec (4 * bs) 65536); [|lia]. destruct (N.ltb_spec (2 * bs) 65536); [|lia]. cbn [bindp].
  eexists. split; [reflexivity|]. lia.
Qed.
Lemma to_u32_lt x : to_u32 x < U32.
Proof. unfold to_u32, U32, U32_MAX. destruct x as [| [] | |[] m e]; try reflexivity. lia. Qed.
Lemma no_loss p : p < U32 ->
  SFltb (S754_zero false) (fmin (f_of 1) (fdiv (f_of 0) (f_of (N.max p 1)))) = false.
Proof.
  intros HP. pose proof (fin_small (N.max p 1)) as FP. unfold U32 in HP. specialize (FP ltac:(lia)).
  set (b := rnd _) in FP.
  assert (B1 : (1 <= b)%R) by (unfold b; rewrite <- (rnd_int 1 ltac:(reflexivity)); apply rnd_le, IZR_le; lia).
  assert (E0 : rnd (0 / b) = 0%R) by (unfold Rdiv; rewrite Rmult_0_l; apply rnd_0).
  assert (FD : fin (fdiv (f_of 0) (f_of (N.max p 1))) 0).
  { rewrite <- E0. apply (fin_div _ _ 0 b); [exact (fin_exact 0 ltac:(reflexivity))|exact FP|lra|]. rewrite E0, Rabs_R0. apply bpow_gt_0. }
  pose proof (fin_exact 1 ltac:(reflexivity)) as F1.
  set (x := fdiv (f_of 0) (f_of (N.max p 1))) in *.
  assert (L : SFltb x (f_of 1) = true).
  { rewrite (fin_ltb _ _ _ _ FD F1). apply Rlt_bool_true. simpl. lra. }
  assert (E : fmin (f_of 1) x = x).
  { unfold fmin. change (f_of 1) with (S754_finite false 8388608 (-23)) in *. destruct FD as (bx & <- & Fx & _). destruct bx; try discriminate; rewrite L; reflexivity. }
  rewrite E, (fin_ltb _ _ _ _ (fin_zero false) FD). apply Rlt_bool_false. lra.
Qed.

Lemma calculate_ok chk r bs w retry rin j : j <= 33 -> 64 <= bs <= 16383 -> rate_ok j bs r ->
  exists r', calculate chk r bs w retry rin = Ok r' /\ rate_ok j bs r' /\ r_errors r' = 0 /\
    (r_errors r = 0 -> 2 * bs <= r_allowed r').
Proof.
  intros HJ HB [R1 R2 R3 R4]. unfold calculate. destruct (init_ok chk bs ltac:(lia)) as (i & -> & I1). cbn [bindp]. cbv zeta.
  set (al := if r_expired r then r_allowed r else if r_data r =? 0 then 1 else r_allowed r).
  assert (Q1 : 1 <= bs / 64) by (apply N.div_le_lower_bound; lia).
  assert (AL : 1 <= al < U32) by (unfold al, U32 in *; destruct (r_expired r); [lia|]; destruct (r_data r =? 0); lia).
  destruct (if r_limited r then _ else _) as [set limit].
  destruct (interval_le (mkRate al (r_start r) (r_for r) (r_est r) (r_packets r) (r_errors r) (r_sent r) (r_data r) set (r_loss r) (r_nofb r) (r_expired r) (r_limited r))
              retry bs j (2 * bs) HJ) as (ti & -> & _); cbn [r_est r_allowed]; [exact R1|lia|exact AL|lia|nia|].
  cbn [bindp]. eexists. split; [reflexivity|].
  destruct (SFltb _ _) eqn:L; cbn [r_est r_allowed r_errors r_packets].
  - split; [|split; [reflexivity|]].
    + constructor; cbn [r_est r_allowed r_packets]; [exact R1|lia| |reflexivity].
      pose proof (to_u32_lt (fdiv (f_of bs) (f_of 1))). assert (bs / 64 < U32) by (unfold U32; apply N.div_lt_upper_bound; lia).
      apply N.max_lub_lt; [|assumption]. apply N.min_lt_iff. left. apply to_u32_lt.
    + intros E0. rewrite E0 in L. rewrite no_loss in L by assumption. discriminate.
  - split; [|split; [reflexivity|lia]].
    constructor; cbn [r_est r_allowed r_packets]; [exact R1| | |reflexivity].
    + apply N.le_trans with i; [|lia]. apply N.div_le_upper_bound; lia.
    + apply N.max_lub_lt; [|unfold U32; lia]. apply N.min_lt_iff. left. unfold twice, U32, U32_MAX. lia.
Qed.

Lemma calculate_est chk r bs w retry rin r' : calculate chk r bs w retry rin = Ok r' -> r_est r' = r_est r.
Proof.
  unfold calculate. destruct (initial_rate _ _); try discriminate. cbn [bindp]. cbv zeta.
  destruct (if r_limited r then _ else _) as [set limit]. destruct (timeout_interval _ _ _); try discriminate. cbn [bindp].
  intros [= <-]. reflexivity.
Qed.
