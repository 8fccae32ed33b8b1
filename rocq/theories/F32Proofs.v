(** The f32 arithmetic of FlowModel.v against the real numbers, through Flocq. *)
From Coq Require Import Reals Lra Floats.SpecFloat.
From Flocq Require Import Core IEEE754.BinarySingleNaN.
From Verif Require Import Base FlowModel.
Open Scope R_scope.

Notation fx := (SpecFloat.fexp 24 128).
Definition rnd (x : R) : R := round radix2 fx ZnearestE x.
#[global] Instance p24 : Prec_gt_0 24 := eq_refl.
#[global] Instance pe24 : Prec_lt_emax 24 128 := eq_refl.
#[global] Instance vfx : Valid_exp fx := @fexp_correct 24 128 p24.

(** [x] is a finite f32 of value [r]. *)
Definition fin (x : f32) (r : R) : Prop := exists b : binary_float 24 128, B2SF b = x /\ is_finite b = true /\ B2R b = r.

Lemma rne_equiv s m l : round_nearest_even m l = choice_mode mode_NE s m l.
Proof. case l; [reflexivity|intro c]. case c; [ | reflexivity..]. now simpl; unfold Round.cond_incr; case Z.even. Qed.
Lemma aux_equiv sx mx ex lx : SpecFloat.binary_round_aux 24 128 sx mx ex lx = BinarySingleNaN.binary_round_aux 24 128 mode_NE sx mx ex lx.
Proof.
  unfold SpecFloat.binary_round_aux, BinarySingleNaN.binary_round_aux. set (mrse' := shr_fexp _ _ _ _ _).
  case mrse'; intros mrs' e'; simpl. now rewrite (rne_equiv sx).
Qed.
Lemma round_equiv s m e : SpecFloat.binary_round 24 128 s m e = BinarySingleNaN.binary_round 24 128 mode_NE s m e.
Proof.
  unfold SpecFloat.binary_round, BinarySingleNaN.binary_round, shl_align_fexp. set (mez := shl_align _ _ _); case mez as [mz ez].
  apply aux_equiv.
Qed.
Lemma normalize_equiv m e szero :
  SpecFloat.binary_normalize 24 128 m e szero = B2SF (BinarySingleNaN.binary_normalize 24 128 p24 pe24 mode_NE m e szero).
Proof.
  case m as [ | p | p]; [reflexivity| |]; simpl; rewrite B2SF_SF2B; apply round_equiv.
Qed.
Lemma mul_equiv x y : fmul (B2SF x) (B2SF y) = B2SF (@Bmult 24 128 p24 pe24 mode_NE x y).
Proof.
  unfold fmul. destruct x as [sx|sx| |sx mx ex Bx]; destruct y as [sy|sy| |sy my ey By]; [now trivial.. | ].
  simpl. rewrite B2SF_SF2B. apply aux_equiv.
Qed.
Lemma add_equiv x y : fadd (B2SF x) (B2SF y) = B2SF (@Bplus 24 128 p24 pe24 mode_NE x y).
Proof.
  unfold fadd. destruct x as [sx|sx| |sx mx ex Bx]; destruct y as [sy|sy| |sy my ey By];
    [now (trivial || simpl; case Bool.eqb).. | ]. apply normalize_equiv.
Qed.
Lemma div_equiv x y : fdiv (B2SF x) (B2SF y) = B2SF (@Bdiv 24 128 p24 pe24 mode_NE x y).
Proof.
  unfold fdiv. destruct x as [sx|sx| |sx mx ex Bx]; destruct y as [sy|sy| |sy my ey By];
    [now (trivial || simpl; case Bool.eqb).. | ].
  simpl. rewrite B2SF_SF2B. set (melz := SFdiv_core_binary _ _ _ _ _ _). case melz as [[mz ez] lz]. apply aux_equiv.
Qed.

Lemma fin_mul x y a b : fin x a -> fin y b -> Rabs (rnd (a * b)) < bpow radix2 128 -> fin (fmul x y) (rnd (a * b)).
Proof.
  intros (bx & <- & Fx & <-) (b_y & <- & Fy & <-) H. rewrite mul_equiv.
  pose proof (@Bmult_correct 24 128 p24 pe24 mode_NE bx b_y) as C. change (round_mode mode_NE) with ZnearestE in C. fold (rnd (B2R bx * B2R b_y)) in C.
  rewrite Rlt_bool_true in C by exact H. destruct C as (C1 & C2 & _). eexists. split; [reflexivity|]. rewrite C2, Fx, Fy. auto.
Qed.
Lemma fin_add x y a b : fin x a -> fin y b -> Rabs (rnd (a + b)) < bpow radix2 128 -> fin (fadd x y) (rnd (a + b)).
Proof.
  intros (bx & <- & Fx & <-) (b_y & <- & Fy & <-) H. rewrite add_equiv.
  pose proof (@Bplus_correct 24 128 p24 pe24 mode_NE bx b_y Fx Fy) as C. change (round_mode mode_NE) with ZnearestE in C. fold (rnd (B2R bx + B2R b_y)) in C.
  rewrite Rlt_bool_true in C by exact H. destruct C as (C1 & C2 & _). eexists. split; [reflexivity|]. auto.
Qed.
Lemma fin_div x y a b : fin x a -> fin y b -> b <> 0 -> Rabs (rnd (a / b)) < bpow radix2 128 -> fin (fdiv x y) (rnd (a / b)).
Proof.
  intros (bx & <- & Fx & <-) (b_y & <- & Fy & <-) NZ H. rewrite div_equiv.
  pose proof (@Bdiv_correct 24 128 p24 pe24 mode_NE bx b_y NZ) as C. change (round_mode mode_NE) with ZnearestE in C. fold (rnd (B2R bx / B2R b_y)) in C.
  rewrite Rlt_bool_true in C by exact H. destruct C as (C1 & C2 & _). eexists. split; [reflexivity|]. rewrite C2. auto.
Qed.
Lemma fin_of n : Rabs (rnd (IZR (Z.of_N n))) < bpow radix2 128 -> fin (f_of n) (rnd (IZR (Z.of_N n))).
Proof.
  intros H. unfold f_of. rewrite normalize_equiv.
  pose proof (@binary_normalize_correct 24 128 p24 pe24 mode_NE (Z.of_N n) 0 false) as C. cbv zeta in C.
  change (round_mode mode_NE) with ZnearestE in C.
  assert (E : F2R (Float radix2 (Z.of_N n) 0) = IZR (Z.of_N n)) by (unfold F2R; simpl; ring).
  rewrite E in C. fold (rnd (IZR (Z.of_N n))) in C. rewrite Rlt_bool_true in C by exact H. destruct C as (C1 & C2 & _).
  eexists. split; [reflexivity|]. auto.
Qed.

Lemma rnd_le a b : a <= b -> rnd a <= rnd b.
Proof. intros H. apply round_le; [exact _|exact _|exact H]. Qed.
Lemma rnd_F2R m e : (Z.abs m < 2 ^ 24)%Z -> (-149 <= e)%Z -> rnd (IZR m * bpow radix2 e) = IZR m * bpow radix2 e.
Proof.
  intros H1 H2. apply round_generic; [exact _|]. apply generic_format_FLT. exists (Float radix2 m e); [reflexivity|exact H1|exact H2].
Qed.
Lemma rnd_int m : (Z.abs m < 2 ^ 24)%Z -> rnd (IZR m) = IZR m.
Proof. intros H. rewrite <- (Rmult_1_r (IZR m)). change 1 with (bpow radix2 0). apply rnd_F2R; [exact H|lia]. Qed.
Lemma rnd_bpow e : (-149 <= e)%Z -> rnd (bpow radix2 e) = bpow radix2 e.
Proof. intros H. rewrite <- (Rmult_1_l (bpow radix2 e)). apply (rnd_F2R 1); [reflexivity|exact H]. Qed.
Lemma rnd_0 : rnd 0 = 0.
Proof. exact (rnd_int 0 ltac:(reflexivity)). Qed.
Lemma rnd_pos a : 0 <= a -> 0 <= rnd a.
Proof. intros H. rewrite <- rnd_0. now apply rnd_le. Qed.
(** A bound by a power of two settles finiteness. *)
Lemma rnd_small a e : 0 <= a -> a <= bpow radix2 e -> (-149 <= e < 128)%Z -> Rabs (rnd a) < bpow radix2 128.
Proof.
  intros H0 H1 H2. rewrite Rabs_pos_eq by now apply rnd_pos.
  apply Rle_lt_trans with (bpow radix2 e).
  - rewrite <- (rnd_bpow e) by lia. now apply rnd_le.
  - apply bpow_lt. lia.
Qed.
Lemma fin_ltb x y a b : fin x a -> fin y b -> SFltb x y = Rlt_bool a b.
Proof.
  intros (bx & <- & Fx & <-) (b_y & <- & Fy & <-). exact (Bltb_correct 24 128 bx b_y Fx Fy).
Qed.
Lemma fin_zero b : fin (S754_zero b) 0.
Proof. exists (B754_zero b). auto. Qed.
Lemma fin_eqb x a : fin x a -> no_estimate x = Req_bool a 0.
Proof. intros (bx & <- & Fx & <-). exact (Beqb_correct 24 128 bx (B754_zero false) Fx eq_refl). Qed.
Lemma fin_max x y a b : fin x a -> fin y b -> fin (fmax x y) (Rmax a b).
Proof.
  intros HX HY. unfold fmax. pose proof (fin_ltb _ _ _ _ HX HY) as L.
  assert (G : fin (if SFltb x y then y else x) (Rmax a b)).
  { rewrite L. destruct (Rlt_bool_spec a b) as [H|H]; [rewrite Rmax_right by lra; exact HY|rewrite Rmax_left by lra; exact HX]. }
  destruct HX as (bx & EX & Fx & _), HY as (b_y & EY & Fy & _).
  destruct bx; try discriminate; destruct b_y; try discriminate; subst x y; exact G.
Qed.
Lemma fin_finite s m e r : fin (S754_finite s m e) r -> r = IZR (cond_Zopp s (Zpos m)) * bpow radix2 e.
Proof. intros (b & E & _ & <-). destruct b; try discriminate. injection E as -> -> ->. reflexivity. Qed.

(** Rounding to nanoseconds does not pass a whole number of nanoseconds. *)
Lemma near_le num den k : (0 < den)%N -> (num <= k * den)%N -> (near num den <= k)%N.
Proof.
  intros HD H. unfold near. pose proof (N.div_mod num den ltac:(lia)) as DM. pose proof (N.mod_lt num den ltac:(lia)) as ML.
  set (q := (num / den)%N) in *. set (r := (num mod den)%N) in *.
  assert (Q : (q < k \/ q = k /\ r = 0)%N) by nia.
  destruct Q as [Q|[-> ->]].
  - destruct (_ ?= _)%N; [|lia|lia]. destruct (N.even q); lia.
  - destruct (N.compare_spec (2 * 0) den); try lia.
Qed.
Lemma from_secs_ok x r k : fin x r -> 0 <= r -> r * IZR (Z.of_N NANOS) <= IZR (Z.of_N k) -> (k < 2 ^ 64 * NANOS)%N ->
  exists d, from_secs x = Ok d /\ (d <= k)%N.
Proof.
  intros HF H0 HB HK. destruct x as [s|s| |s m e].
  - exists 0%N. split; [reflexivity|lia].
  - destruct HF as (b & E & F & _). destruct b; discriminate.
  - destruct HF as (b & E & F & _). destruct b; discriminate.
  - pose proof (fin_finite _ _ _ _ HF) as ER.
    destruct s.
    { exfalso. subst r. simpl in H0. pose proof (bpow_gt_0 radix2 e). assert (IZR (Zneg m) < 0) by (apply IZR_lt; reflexivity). nra. }
    cbn [cond_Zopp] in ER. unfold from_secs.
    destruct e as [|p|p].
    + simpl in ER. rewrite Rmult_1_r in ER. subst r. rewrite <- mult_IZR in HB. apply le_IZR in HB.
      cbn [Z.to_N N.pow]. unfold NANOS in *.
      rewrite (proj2 (N.leb_gt _ _)) by nia. eexists. split; [reflexivity|]. nia.
    + assert (E2 : bpow radix2 (Zpos p) = IZR (Z.of_N (2 ^ Z.to_N (Zpos p)))).
      { rewrite N2Z.inj_pow. change (Z.of_N 2) with (radix_val radix2). change (Z.of_N (Z.to_N (Zpos p))) with (Zpos p). rewrite IZR_Zpower by lia. reflexivity. }
      rewrite E2, <- mult_IZR in ER. subst r. rewrite <- mult_IZR in HB. apply le_IZR in HB.
      set (q := (2 ^ Z.to_N (Z.pos p))%N) in *. unfold NANOS in *.
      rewrite (proj2 (N.leb_gt _ _)) by nia. eexists. split; [reflexivity|]. nia.
    + assert (E2 : bpow radix2 (Zneg p) * IZR (Z.of_N (2 ^ N.pos p)) = 1).
      { assert (E3 : IZR (Z.of_N (2 ^ N.pos p)) = bpow radix2 (Zpos p)).
        { rewrite N2Z.inj_pow. change (Z.of_N 2) with (radix_val radix2). change (Z.of_N (N.pos p)) with (Zpos p). rewrite IZR_Zpower by lia. reflexivity. }
        rewrite E3, <- bpow_plus. change (Zneg p) with (- Zpos p)%Z. rewrite Z.add_opp_diag_l. reflexivity. }
      set (q := (2 ^ N.pos p)%N) in *.
      assert (QP : (0 < q)%N) by (unfold q; apply N.neq_0_lt_0, N.pow_nonzero; discriminate).
      assert (B1 : (N.pos m * NANOS <= k * q)%N).
      { assert (HB' : IZR (Zpos m) * IZR (Z.of_N NANOS) <= IZR (Z.of_N k) * IZR (Z.of_N q)).
        { subst r. assert (0 < IZR (Z.of_N q)) by (apply IZR_lt; lia).
          apply (Rmult_le_compat_r (IZR (Z.of_N q))) in HB; [|lra].
          replace (IZR (Z.pos m) * bpow radix2 (Z.neg p) * IZR (Z.of_N NANOS) * IZR (Z.of_N q))
            with (IZR (Z.pos m) * IZR (Z.of_N NANOS) * (bpow radix2 (Z.neg p) * IZR (Z.of_N q))) in HB by ring.
          rewrite E2, Rmult_1_r in HB. exact HB. }
        rewrite <- !mult_IZR in HB'. apply le_IZR in HB'. lia. }
      unfold NANOS in *. rewrite (proj2 (N.leb_gt _ _)) by nia.
      eexists. split; [reflexivity|]. apply near_le; assumption.
Qed.

Lemma near_ge num den k : (0 < den)%N -> (k * den <= num)%N -> (k <= near num den)%N.
Proof.
  intros HD H. unfold near. assert (Q : (k <= num / den)%N) by (apply N.div_le_lower_bound; lia).
  destruct (_ ?= _)%N; [|lia|lia]. destruct (N.even _); lia.
Qed.
Lemma from_secs_ge x r k d : fin x r -> from_secs x = Ok d -> IZR (Z.of_N k) <= r * IZR (Z.of_N NANOS) -> (k <= d)%N.
Proof.
  intros HF HD HB. destruct x as [s|s| |[|] m e]; try discriminate.
  - injection HD as <-. destruct HF as (b & E & F & R). destruct b; try discriminate. simpl in R. subst r.
    rewrite Rmult_0_l in HB. apply le_IZR in HB. lia.
  - pose proof (fin_finite _ _ _ _ HF) as ER. cbn [cond_Zopp] in ER. unfold from_secs in HD. destruct e as [|p|p].
    + simpl in ER. rewrite Rmult_1_r in ER. subst r. rewrite <- mult_IZR in HB. apply le_IZR in HB.
      destruct (_ <=? _)%N; [discriminate|]. injection HD as <-. change (2 ^ Z.to_N 0)%N with 1%N. unfold NANOS in *. lia.
    + assert (E2 : bpow radix2 (Zpos p) = IZR (Z.of_N (2 ^ Z.to_N (Zpos p)))).
      { rewrite N2Z.inj_pow. change (Z.of_N 2) with (radix_val radix2). change (Z.of_N (Z.to_N (Zpos p))) with (Zpos p). rewrite IZR_Zpower by lia. reflexivity. }
      rewrite E2, <- mult_IZR in ER. subst r. rewrite <- mult_IZR in HB. apply le_IZR in HB.
      set (q := (2 ^ Z.to_N (Z.pos p))%N) in *.
      destruct (_ <=? _)%N; [discriminate|].
      assert (ED : d = (N.pos m * q * NANOS)%N) by congruence. rewrite ED. unfold NANOS in *. nia.
    + assert (E2 : bpow radix2 (Zneg p) * IZR (Z.of_N (2 ^ N.pos p)) = 1).
      { assert (E3 : IZR (Z.of_N (2 ^ N.pos p)) = bpow radix2 (Zpos p)).
        { rewrite N2Z.inj_pow. change (Z.of_N 2) with (radix_val radix2). change (Z.of_N (N.pos p)) with (Zpos p). rewrite IZR_Zpower by lia. reflexivity. }
        rewrite E3, <- bpow_plus. change (Zneg p) with (- Zpos p)%Z. rewrite Z.add_opp_diag_l. reflexivity. }
      set (q := (2 ^ N.pos p)%N) in *.
      assert (QP : (0 < q)%N) by (unfold q; apply N.neq_0_lt_0, N.pow_nonzero; discriminate).
      destruct (_ <=? _)%N; [discriminate|]. injection HD as <-. apply near_ge; [exact QP|].
      assert (HB' : IZR (Z.of_N k) * IZR (Z.of_N q) <= IZR (Zpos m) * IZR (Z.of_N NANOS)).
      { subst r. assert (0 < IZR (Z.of_N q)) by (apply IZR_lt; lia).
        apply (Rmult_le_compat_r (IZR (Z.of_N q))) in HB; [|lra].
        replace (IZR (Z.pos m) * bpow radix2 (Z.neg p) * IZR (Z.of_N NANOS) * IZR (Z.of_N q))
          with (IZR (Z.pos m) * IZR (Z.of_N NANOS) * (bpow radix2 (Z.neg p) * IZR (Z.of_N q))) in HB by ring.
        rewrite E2, Rmult_1_r in HB. exact HB. }
      rewrite <- !mult_IZR in HB'. apply le_IZR in HB'. unfold NANOS in *. lia.
Qed.
