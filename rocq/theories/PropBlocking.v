(** C38: following a growing file. *)
From Verif Require Import Base BlockingModel.

(** What has been delivered since the last seek, and where that seek went. *)
Fixpoint delivered (base : nat) (d : bytes) (o : list bout) : nat * bytes :=
  match o with
  | [] => (base, d)
  | RData x :: o' => delivered base (d ++ x) o'
  | RSeek p :: o' => delivered p [] o'
  | _ :: o' => delivered base d o'
  end.
(** Every read uses a buffer of [b] bytes and no read of the file fails. *)
Definition regular (b : nat) (e : bev) : Prop :=
  match e with BRead len k => len = b /\ k <> None | _ => True end.

Lemma delivered_app base d a b : delivered base d (a ++ b) = delivered (fst (delivered base d a)) (snd (delivered base d a)) b.
Proof. revert base d. induction a as [|x a IH]; intros; [reflexivity|]. destruct x; cbn; apply IH. Qed.

Lemma skipn_add (A : Type) a b (l : list A) : skipn (a + b) l = skipn b (skipn a l).
Proof. revert l. induction a as [|a IH]; intros l; [reflexivity|]. destruct l; cbn; [now rewrite skipn_nil|apply IH]. Qed.

(** The bytes taken from the file since the seek are those delivered, those of the call under way
    and those kept. *)
Definition taken (base : nat) (d : bytes) (s : bstate) : Prop :=
  let t := d ++ match b_pend s with Some (_, x) => x | None => b_temp s end in
  b_pos s = (base + length t)%nat /\ t = firstn (length t) (skipn base (b_content s)) /\
  (b_pend s <> None -> b_temp s = []).
Lemma firstn_len_eq (A : Type) (t l : list A) : t = firstn (length t) l <-> exists r, l = t ++ r.
Proof.
  split.
  - intros H. exists (skipn (length t) l). rewrite H at 1. symmetry. apply firstn_skipn.
  - intros [r ->]. now rewrite firstn_app, Nat.sub_diag, firstn_all, firstn_O, app_nil_r.
Qed.
Lemma skipn_app_pre (A : Type) n (l x : list A) t r : skipn n l = t ++ r -> t <> [] -> skipn n (l ++ x) = t ++ r ++ x.
Proof.
  intros H N. destruct (Nat.le_gt_cases n (length l)) as [L|L].
  - rewrite skipn_app, H. replace (n - length l)%nat with 0%nat by lia. cbn. now rewrite <- app_assoc.
  - rewrite skipn_all2 in H by lia. destruct t; [congruence|discriminate].
Qed.


(** Invariant: also, the call under way has a buffer of [b] bytes. *)
Definition inv (b base : nat) (d : bytes) (s : bstate) : Prop :=
  taken base d s /\ (length (b_temp s) <= b)%nat /\
  (forall len x, b_pend s = Some (len, x) -> len = b /\ (length x <= b)%nat).
Lemma inv_step b base d s e s' o : inv b base d s -> regular b e -> bstep s e s' o ->
  inv b (fst (delivered base d o)) (snd (delivered base d o)) s'.
Proof.
  intros (T & TB & PB) R S. destruct S as [s x F|s|s len k s' o P OS E|s s' o P E|s p s' o P E].
  - cbn. split; [|split; assumption]. destruct T as (T1 & T2 & T3). unfold taken in *. cbn.
    set (t := d ++ match b_pend s with Some (_, x0) => x0 | None => b_temp s end) in *.
    split; [assumption|]. split; [|assumption]. apply firstn_len_eq in T2. destruct T2 as [r T2].
    clearbody t. destruct t as [|t0 t1]; [reflexivity|]. apply firstn_len_eq. exists (r ++ x).
    apply skipn_app_pre; [assumption|discriminate].
  - cbn. split; [|split; assumption]. exact T.
  - destruct R as [-> KN]. destruct k as [k|]; [|congruence]. specialize (OS k eq_refl). destruct OS as (O1 & O2 & O3).
    unfold read_begin in E. destruct (Nat.ltb_spec b (length (b_temp s))) as [X|X]; [lia|]. injection E as <- <-.
    destruct T as (T1 & T2 & _). rewrite P in T1, T2. cbn [delivered fst snd]. split; [|split; cbn; [lia|]].
    + unfold taken. cbn [b_pend b_pos b_content b_temp]. set (y := firstn k (skipn (b_pos s) (b_content s))).
      assert (LY : length y = k) by (unfold y; rewrite firstn_length, skipn_length; lia).
      rewrite app_assoc. set (t := d ++ b_temp s) in *. rewrite app_length, LY. split; [lia|]. split; [|reflexivity].
      apply firstn_len_eq in T2. destruct T2 as [r T2].
      assert (SK : skipn (b_pos s) (b_content s) = r).
      { rewrite T1, skipn_add, T2, skipn_app, skipn_all, Nat.sub_diag. reflexivity. }
      unfold y. rewrite SK, T2. now rewrite firstn_app_2.
    + intros len x Q. injection Q as <- <-. split; [reflexivity|]. rewrite app_length, firstn_length. lia.
  - unfold read_end in E. destruct (b_pend s) as [[len x]|] eqn:PE; [|congruence].
    destruct (PB len x eq_refl) as [-> LX]. destruct T as (T1 & T2 & T3). rewrite PE in T1, T2.
    assert (G : forall (d' t' : bytes), d' ++ t' = d ++ x -> (length t' <= b)%nat ->
      inv b base d' (mkBs (b_content s) (b_fin s) (b_pos s) t' None)).
    { intros d' t' Q L. split; [|split; [exact L|discriminate]]. unfold taken. cbn. rewrite Q. split; [assumption|]. split; [assumption|congruence]. }
    destruct x as [|x0 x].
    + destruct (b_fin s); injection E as <- <-; cbn [delivered fst snd]; apply G; cbn; rewrite ?app_nil_r; auto; lia.
    + remember (x0 :: x) as xx. destruct (b =? length xx)%nat; [|destruct (b_fin s)]; injection E as <- <-; cbn [delivered fst snd];
        apply G; cbn; rewrite ?app_nil_r; auto; lia.
  - unfold b_seek in E. injection E as <- <-. cbn. split; [|split; [cbn; lia|discriminate]].
    unfold taken. cbn. split; [lia|]. split; [reflexivity|congruence].
Qed.
Lemma inv_steps b base d s l s' o : inv b base d s -> Forall (regular b) l -> bsteps s l s' o ->
  inv b (fst (delivered base d o)) (snd (delivered base d o)) s'.
Proof.
  intros I F S. revert base d I. induction S as [s|s e s1 o1 l s2 o2 S1 S2 IH]; intros base d I; [exact I|].
  inversion_clear F as [|? ? F1 F2]. rewrite delivered_app. apply IH; [assumption|]. now apply (inv_step b base d s e).
Qed.
Lemma inv_open b c f : inv b 0 [] (b_open c f).
Proof. split; [|split; [cbn; lia|discriminate]]. unfold taken. cbn. auto. Qed.

(** In order, nothing lost and nothing twice: at any time, under any interleaving, what has been
    delivered since the last seek is the file from there on, of that length. *)
Theorem delivered_in_order : forall b content fin l s o, Forall (regular b) l ->
  bsteps (b_open content fin) l s o ->
  let '(base, d) := delivered 0 [] o in d = firstn (length d) (skipn base (b_content s)).
Proof.
  intros b content fin l s o F S. pose proof (inv_steps b 0 [] _ l s o (inv_open b content fin) F S) as ((_ & T & _) & _).
  destruct (delivered 0 [] o) as [base d]. cbn [fst snd] in T. apply firstn_len_eq in T. destruct T as [r T].
  apply firstn_len_eq. rewrite <- app_assoc in T. eauto.
Qed.

(** Less than a full buffer, or nothing, is returned only when the flag is set. *)
Theorem short_only_when_finished : forall b content fin l s o s' d, Forall (regular b) l ->
  bsteps (b_open content fin) l s o -> bstep s BCheck s' [RData d] -> (length d < b)%nat \/ d = [] -> b_fin s = true.
Proof.
  intros b content fin l s o s' d F S C L.
  pose proof (inv_steps b 0 [] _ l s o (inv_open b content fin) F S) as (_ & _ & PB).
  inversion C as [| | |? ? ? P E| ]; subst. unfold read_end in E. destruct (b_pend s) as [[len x]|] eqn:PE; [|congruence].
  destruct (PB _ _ eq_refl) as [-> LX]. destruct (b_fin s); [reflexivity|]. exfalso.
  destruct x as [|x0 x]; [discriminate E|]. remember (x0 :: x) as xx.
  destruct (Nat.eqb_spec b (length xx)) as [X|X]; [|discriminate E]. injection E as <- <-. subst xx. destruct L as [L|L]; [lia|discriminate].
Qed.

(** Reads of a regular file give all that there is. *)
Definition full_read (s : bstate) (e : bev) : Prop :=
  match e with
  | BRead len (Some k) => k = Nat.min (len - length (b_temp s)) (length (b_content s) - b_pos s)
  | _ => True
  end.

(** If the flag was set when the call began, a short result is the end of the file: all bytes from
    the last seek to the end have been delivered. *)
Theorem end_is_real : forall b content fin l s o s1 k s2 d, Forall (regular b) l -> k <> None ->
  bsteps (b_open content fin) l s o -> b_fin s = true ->
  bstep s (BRead b k) s1 [] -> full_read s (BRead b k) -> bstep s1 BCheck s2 [RData d] -> (length d < b)%nat ->
  let '(base, got) := delivered 0 [] (o ++ [RData d]) in got = skipn base (b_content s2).
Proof.
  intros b content fin l s o s1 k s2 d F KN S FIN RD FULL CK L.
  pose proof (inv_steps b 0 [] _ l s o (inv_open b content fin) F S) as I.
  pose proof (inv_step b _ _ _ (BRead b k) _ _ I ltac:(cbn; auto) RD) as I1. cbn [delivered fst snd] in I1.
  pose proof (inv_step b _ _ _ BCheck _ _ I1 ltac:(cbn; auto) CK) as I2.
  rewrite delivered_app. destruct (delivered 0 [] o) as [base got]. cbn [fst snd delivered] in *.
  assert (C : b_content s2 = b_content s /\ (length (b_content s) <= b_pos s2)%nat /\ b_temp s2 = [] /\ b_pend s2 = None).
  { inversion RD as [| |? ? ? ? ? P OS E| |]; subst. destruct k as [k|]; [|congruence]. cbn in FULL.
    destruct I as (_ & TB & _). unfold read_begin in E. destruct (Nat.ltb_spec b (length (b_temp s))) as [X|X]; [lia|].
    injection E as <-. inversion CK as [| | |? ? ? P' E'| ]; subst. unfold read_end in E'. cbn in E'.
    destruct I1 as (_ & _ & PB). specialize (PB _ _ eq_refl). destruct PB as [_ PB].
    specialize (OS _ eq_refl). destruct OS as (O1 & O2 & O3).
    set (x := b_temp s ++ firstn _ (skipn (b_pos s) (b_content s))) in *.
    assert (LX : length x = (length (b_temp s) + Nat.min (b - length (b_temp s)) (length (b_content s) - b_pos s))%nat).
    { unfold x. rewrite app_length, firstn_length, skipn_length. lia. }
    rewrite FIN in E'. assert (DX : d = x).
    { destruct x as [|x0 x']; [injection E' as _ <-; reflexivity|]. destruct (b =? length (x0 :: x'))%nat; injection E' as _ <-; reflexivity. }
    assert (S2 : s2 = mkBs (b_content s) true (b_pos s + Nat.min (b - length (b_temp s)) (length (b_content s) - b_pos s))%nat [] None).
    { destruct x as [|x0 x']; [injection E' as <- _; reflexivity|]. destruct (b =? length (x0 :: x'))%nat; injection E' as <- _; reflexivity. }
    subst s2 d. cbn. rewrite LX in L. repeat split; lia. }
  destruct C as (C1 & C2 & C3 & C4). destruct I2 as ((T1 & T2 & _) & _). rewrite C4, C3, app_nil_r in *.
  rewrite T2, firstn_all2; [reflexivity|]. rewrite C1, skipn_length. lia.
Qed.
Print Assumptions delivered_in_order.
Print Assumptions short_only_when_finished.
Print Assumptions end_is_real.

(** A run in which reads give all there is, nobody seeks, and the flag is not set while a call is
    under way. *)
Inductive calm : bstate -> list bev -> bstate -> list bout -> Prop :=
| C_nil s : calm s [] s []
| C_cons s e s1 o1 l s2 o2 : bstep s e s1 o1 -> full_read s e ->
    (e = BFinish -> b_pend s = None) -> (forall p, e <> BSeek p) ->
    calm s1 l s2 o2 -> calm s (e :: l) s2 (o1 ++ o2).
Fixpoint data_of (o : list bout) : bytes :=
  match o with RData d :: o' => d ++ data_of o' | _ :: o' => data_of o' | [] => [] end.
Lemma data_of_app a b : data_of (a ++ b) = data_of a ++ data_of b.
Proof. induction a as [|x a IH]; [reflexivity|]. destruct x; cbn; rewrite ?IH, ?app_assoc; reflexivity. Qed.

(** A call that began with the flag set has reached the end if its buffer is not full. *)
Definition settled (b : nat) (s : bstate) : Prop :=
  b_fin s = true -> forall len x, b_pend s = Some (len, x) -> (length x < b)%nat -> (length (b_content s) <= b_pos s)%nat.

Lemma calm_step b d s e s1 o : inv b 0 d s -> settled b s -> regular b e -> bstep s e s1 o -> full_read s e ->
  (e = BFinish -> b_pend s = None) -> (forall p, e <> BSeek p) ->
  settled b s1 /\ delivered 0 d o = (0%nat, d ++ data_of o) /\
  (exists x, b_content s1 = b_content s ++ x /\ (b_fin s = true -> x = [] /\ b_fin s1 = true)) /\
  (o = [] \/ o = [RBlock] \/ exists x, o = [RData x] /\ (length x <= b)%nat /\
     ((length x < b)%nat -> b_fin s1 = true /\ (length (b_content s1) <= b_pos s1)%nat /\ b_temp s1 = [] /\ b_pend s1 = None)).
Proof.
  intros I ST R S FULL FP NS. destruct S as [s x F|s|s len k s' o P OS E|s s' o P E|s p s' o P E].
  - split; [intros Q; cbn in Q; congruence|]. cbn. rewrite app_nil_r. split; [reflexivity|]. split; [|auto].
    exists x. split; [reflexivity|congruence].
  - specialize (FP eq_refl). split; [intros _ len x Q; cbn in Q; congruence|]. cbn. rewrite app_nil_r. split; [reflexivity|].
    split; [|auto]. exists []. rewrite app_nil_r. auto.
  - destruct R as [-> KN]. destruct k as [k|]; [|congruence]. cbn in FULL. destruct I as (_ & TB & _).
    unfold read_begin in E. destruct (Nat.ltb_spec b (length (b_temp s))) as [X|X]; [lia|]. injection E as <- <-. split; [|split; [|split]].
    + intros _ len x Q L. injection Q as <- <-. cbn. rewrite app_length, firstn_length, skipn_length in L. lia.
    + cbn. now rewrite app_nil_r.
    + exists []. rewrite app_nil_r. auto.
    + auto.
  - destruct I as (_ & _ & PB). unfold read_end in E. destruct (b_pend s) as [[len x]|] eqn:PE; [|congruence].
    destruct (PB _ _ eq_refl) as [-> LX]. specialize (ST). unfold settled in ST.
    assert (PN : forall t, settled b (mkBs (b_content s) (b_fin s) (b_pos s) t None)) by (intros t _ ? ? Q; discriminate).
    assert (EX : exists y, b_content s = b_content s ++ y /\ (b_fin s = true -> y = [] /\ b_fin s = true)).
    { exists []. rewrite app_nil_r. auto. }
    destruct x as [|x0 x].
    + destruct (b_fin s) eqn:FI; injection E as <- <-; (split; [apply PN|]); cbn [delivered data_of app]; rewrite ?app_nil_r;
        (split; [reflexivity|]); (split; [exact EX|]); [|auto].
      right. right. exists []. split; [reflexivity|]. split; [cbn; lia|]. intros L. repeat split; cbn. exact (ST eq_refl _ _ PE L).
    + remember (x0 :: x) as xx. destruct (Nat.eqb_spec b (length xx)) as [Q|Q]; [|destruct (b_fin s) eqn:FI]; injection E as <- <-;
        (split; [apply PN|]); cbn [delivered data_of app]; rewrite ?app_nil_r; (split; [reflexivity|]); (split; [exact EX|]); [| |auto].
      * right. right. exists xx. split; [reflexivity|]. split; [exact LX|]. intros L. lia.
      * right. right. exists xx. split; [reflexivity|]. split; [exact LX|]. intros L. repeat split; cbn. exact (ST eq_refl _ _ PE L).
  - exfalso. now apply (NS p).
Qed.
Lemma calm_content s l s' o : calm s l s' o ->
  exists x, b_content s' = b_content s ++ x /\ (b_fin s = true -> x = []).
Proof.
  induction 1 as [s|s e s1 o1 l s2 o2 S _ _ _ _ (x & E & F)]; [exists []; rewrite app_nil_r; auto|].
  assert (G : exists y, b_content s1 = b_content s ++ y /\ (b_fin s = true -> y = [] /\ b_fin s1 = true)).
  { destruct S as [s z Fz|s|s len k s' o P OS E'|s s' o P E'|s p s' o P E'].
    - exists z. split; [reflexivity|congruence].
    - exists []. rewrite app_nil_r. auto.
    - exists []. rewrite app_nil_r. unfold read_begin in E'. destruct (_ <? _)%nat in E'; [|destruct k as [k|]]; injection E' as <- _; auto.
    - exists []. rewrite app_nil_r. unfold read_end in E'. destruct (b_pend s) as [[len d]|]; [|injection E' as <- _; auto].
      destruct d; [injection E' as <- _; auto|]. destruct (_ =? _)%nat in E'; [injection E' as <- _; auto|].
      destruct (b_fin s) eqn:?; injection E' as <- _; cbn; auto.
    - exists []. rewrite app_nil_r. injection E' as <- _. auto. }
  destruct G as (y & G1 & G2). exists (y ++ x). rewrite E, G1, app_assoc. split; [reflexivity|].
  intros Q. destruct (G2 Q) as [-> Q1]. now rewrite (F Q1).
Qed.

(** Then every result is what reading the finished file at that place would give, so that the
    transfer behaves as one of the finished file with some calls that fail for the moment. *)
Theorem delayed_read_as_static : forall b l s o content fin, Forall (regular b) l -> calm (b_open content fin) l s o ->
  forall o1 d o2, o = o1 ++ RData d :: o2 -> d = firstn b (skipn (length (data_of o1)) (b_content s)).
Proof.
  intros b l s o content fin F C.
  assert (G : forall s0 D, inv b 0 D s0 -> settled b s0 -> forall l s o, Forall (regular b) l -> calm s0 l s o ->
    forall o1 d o2, o = o1 ++ RData d :: o2 -> d = firstn b (skipn (length (D ++ data_of o1)) (b_content s))).
  { clear. intros s0 D I ST l s o F C. revert D I ST. induction C as [s|s e s1 oe l s2 o' S FU FP NS C IH]; intros D I ST o1 d o2 E.
    { destruct o1; discriminate. }
    inversion_clear F as [|? ? F1 F2]. pose proof (inv_step b 0 D s e s1 oe I F1 S) as I1.
    destruct (calm_step b D s e s1 oe I ST F1 S FU FP NS) as (ST1 & DE & (x & X1 & X2) & OE). rewrite DE in I1. cbn [fst snd] in I1.
    assert (REC : forall p, o1 = oe ++ p -> o' = p ++ RData d :: o2 ->
      d = firstn b (skipn (length (D ++ data_of o1)) (b_content s2))).
    { intros p -> E'. rewrite data_of_app, app_assoc. apply (IH F2 (D ++ data_of oe) I1 ST1 p d o2 E'). }
    destruct OE as [->|[->|(y & -> & LY & SH)]].
    - apply (REC o1); [reflexivity|]. exact E.
    - destruct o1 as [|q o1]; [discriminate|]. injection E as <- E. now apply (REC o1).
    - destruct o1 as [|q o1]; [|injection E as <- E; now apply (REC o1)]. injection E as -> ->. cbn [data_of]. rewrite app_nil_r.
      cbn [data_of] in I1. rewrite app_nil_r in I1. clear REC IH.
      destruct (calm_content _ _ _ _ C) as (z & Z1 & Z2). destruct I1 as ((T1 & T2 & _) & _ & _).
      destruct (Nat.lt_ge_cases (length d) b) as [L|L].
      + destruct (SH L) as (FI & PE & TE & PN). rewrite PN, TE, app_nil_r in *. rewrite (Z2 FI), app_nil_r in Z1.
        cbn in T1. cbn [skipn] in T2. rewrite firstn_all2 in T2 by lia. rewrite Z1, <- T2.
        rewrite skipn_app, skipn_all, Nat.sub_diag. cbn. now rewrite firstn_all2 by lia.
      + assert (LB : length d = b) by lia. clear L SH.
        apply firstn_len_eq in T2. destruct T2 as [r T2]. cbn [skipn] in T2. rewrite Z1, T2, <- !app_assoc.
        rewrite skipn_app, skipn_all, Nat.sub_diag. cbn. rewrite <- LB. symmetry.
        replace (length d) with (length d + 0)%nat by lia. rewrite firstn_app_2. cbn. apply app_nil_r. }
  refine (G (b_open content fin) [] (inv_open b content fin) _ l s o F C). intros _ len x Q. discriminate.
Qed.
Print Assumptions delayed_read_as_static.

(** Once the flag is set, calls with a buffer of [b] bytes deliver the rest of the file: each one up
    to [b] bytes of it, and then nothing. *)
Theorem rest_delivered : forall b content fin l s o n, (0 < b)%nat -> Forall (regular b) l ->
  bsteps (b_open content fin) l s o -> b_fin s = true -> b_pend s = None ->
  let '(base, got) := delivered 0 [] o in
  exists l' s' o', bsteps s l' s' o' /\ length l' = (2 * n)%nat /\
    (forall x, In x o' -> exists d, x = RData d) /\
    fst (delivered 0 [] (o ++ o')) = base /\
    snd (delivered 0 [] (o ++ o')) =
      firstn (Nat.max (length got) (Nat.min (length got + n * b) (length (b_content s) - base))) (skipn base (b_content s)).
Proof.
  intros b content fin l s o n B F S FI PN.
  pose proof (inv_steps b 0 [] _ l s o (inv_open b content fin) F S) as I.
  destruct (delivered 0 [] o) as [base got] eqn:DE. cbn [fst snd] in I. clear S F.
  assert (G : forall n s got, inv b base got s -> b_fin s = true -> b_pend s = None ->
    exists l' s' o', bsteps s l' s' o' /\ length l' = (2 * n)%nat /\ (forall x, In x o' -> exists d, x = RData d) /\
      fst (delivered base got o') = base /\
      snd (delivered base got o') = firstn (Nat.max (length got) (Nat.min (length got + n * b) (length (b_content s) - base))) (skipn base (b_content s))).
  { clear -B. induction n as [|n IH]; intros s got I FI PN.
    - exists [], s, []. split; [constructor|]. split; [reflexivity|]. split; [intros ? []|]. split; [reflexivity|].
      cbn [delivered fst snd]. destruct I as ((T1 & T2 & _) & _). rewrite PN in T1, T2. apply firstn_len_eq in T2. destruct T2 as [r T2].
      rewrite T2, <- app_assoc. replace (Nat.max _ _) with (length got + 0)%nat by lia. rewrite firstn_app_2. cbn. now rewrite app_nil_r.
    - pose proof I as I0. destruct I0 as ((T1 & T2 & _) & TB & _). rewrite PN in T1, T2.
      set (k := Nat.min (b - length (b_temp s)) (length (b_content s) - b_pos s)).
      assert (OS : os_ok s (b - length (b_temp s)) k) by (unfold os_ok, k; lia).
      set (x := b_temp s ++ firstn k (skipn (b_pos s) (b_content s))).
      set (s1 := mkBs (b_content s) (b_fin s) (b_pos s + k) [] (Some (b, x))).
      assert (RD : bstep s (BRead b (Some k)) s1 []).
      { apply S_read; [assumption|intros m Q; injection Q as <-; exact OS|]. unfold read_begin.
        destruct (Nat.ltb_spec b (length (b_temp s))); [lia|]. reflexivity. }
      set (s2 := mkBs (b_content s) true (b_pos s + k) [] None).
      assert (CK : bstep s1 BCheck s2 [RData x]).
      { apply S_check; [discriminate|]. unfold read_end, s1. cbn. rewrite FI. fold s2.
        destruct x; [reflexivity|]. now destruct (b =? _)%nat. }
      pose proof (inv_step b base got s (BRead b (Some k)) s1 [] I ltac:(cbn; split; [reflexivity|discriminate]) RD) as I1. cbn [delivered fst snd] in I1.
      pose proof (inv_step b base got s1 BCheck s2 [RData x] I1 ltac:(exact Logic.I) CK) as I2. cbn [delivered fst snd] in I2.
      destruct (IH s2 (got ++ x) I2 eq_refl eq_refl) as (l' & s' & o' & SS & LL & AD & D1 & D2).
      exists (BRead b (Some k) :: BCheck :: l'), s', ([] ++ [RData x] ++ o'). split; [|split; [cbn; lia|split; [|split]]].
      + econstructor; [exact RD|]. econstructor; [exact CK|exact SS].
      + intros y [<-|Y]; [eauto|auto].
      + exact D1.
      + cbn [app delivered]. rewrite D2. unfold s2. cbn [b_content]. f_equal.
        assert (LX : length x = (length (b_temp s) + k)%nat).
        { unfold x. rewrite app_length, firstn_length, skipn_length. unfold k. lia. }
        rewrite app_length, LX. unfold k. apply firstn_len_eq in T2. destruct T2 as [r T2].
        apply (f_equal (@length _)) in T2. rewrite skipn_length, !app_length in T2. rewrite app_length in T1.
        cbn [Nat.mul]. nia. }
  destruct (G n s got I FI PN) as (l' & s' & o' & SS & LL & AD & D1 & D2). exists l', s', o'. rewrite delivered_app, DE. cbn [fst snd]. auto.
Qed.
Print Assumptions rest_delivered.

(** The race: the last part is written and the file closed between the reading of the file and the
    look at the flag.  The short result, which ends the transfer, is not the end of the file. *)
Theorem premature_end : forall b x y, (0 < length x < b)%nat -> y <> [] ->
  exists s, bsteps (b_open [] false) [BAppend x; BRead b (Some (length x)); BAppend y; BFinish; BCheck] s [RData x] /\
    b_content s = x ++ y /\ delivered 0 [] [RData x] = (0%nat, x) /\ x <> b_content s.
Proof.
  intros b x y L NY. exists (mkBs (x ++ y) true (length x) [] None). split; [|split; [reflexivity|split; [reflexivity|]]].
  - assert (A : forall s e s1 l s2 o, bstep s e s1 [] -> bsteps s1 l s2 o -> bsteps s (e :: l) s2 o)
      by (intros s e s1 l0 s2 o S1 S2; exact (SS_cons s e s1 [] l0 s2 o S1 S2)).
    eapply A; [now constructor|]. cbn [b_open b_content b_fin b_pos b_temp b_pend app]. eapply A.
    { apply S_read; [reflexivity| |unfold read_begin; destruct (Nat.ltb_spec b (length (@nil N))) as [Q|Q]; [cbn in Q; lia|reflexivity]].
      intros n Q. injection Q as <-. unfold os_ok. cbn. lia. }
    cbn [b_content b_fin b_pos b_temp b_pend app Nat.add skipn]. rewrite firstn_all.
    eapply A; [now constructor|]. eapply A; [constructor|]. cbn [b_content b_fin b_pos b_temp b_pend].
    change [RData x] with ([RData x] ++ []). econstructor; [|constructor].
    apply S_check; [discriminate|]. unfold read_end. cbn [b_content b_fin b_pos b_temp b_pend].
    destruct x; [cbn in L; lia|]. now destruct (b =? _)%nat.
  - cbn. intros E. apply (f_equal (@length _)) in E. rewrite app_length in E. destruct y; [congruence|cbn in E; lia].
Qed.
Print Assumptions premature_end.

(** ** Cases *)
Ltac step_tac := match goal with
  | |- bstep _ (BAppend _) _ _ => apply S_append; reflexivity
  | |- bstep _ BFinish _ _ => apply S_finish
  | |- bstep _ (BRead _ _) _ _ => apply S_read; [reflexivity|intros ? Q; injection Q as <-; unfold os_ok; cbn; lia|reflexivity]
  | |- bstep _ BCheck _ _ => apply S_check; [discriminate|reflexivity]
  end.
Definition case_events : list bev :=
  let r k := BRead 2 (Some k) in
  [r 0%nat; BCheck; BAppend [1]; r 1%nat; BCheck; BAppend [2; 3];
   r 1%nat; BCheck; BFinish; r 1%nat; BCheck; r 0%nat; BCheck].
(** A file that grows to three bytes while it is read two bytes at a time. *)
Example calm_case : exists s, calm (b_open [] false) case_events s
    ([] ++ [RBlock] ++ [] ++ [] ++ [RBlock] ++ [] ++ [] ++ [RData [1; 2]] ++ [] ++ [] ++ [RData [3]] ++ [] ++ [RData []] ++ []) /\
  b_content s = [1; 2; 3] /\ Forall (regular 2) case_events.
Proof.
  unfold case_events. cbv zeta. eexists. split; [|split].
  - repeat (econstructor; [step_tac|reflexivity|intros Q; first [discriminate Q|reflexivity]|intros p Q; discriminate Q|cbn [b_open b_content b_fin b_pos b_temp b_pend read_begin]]). 
    constructor.
  - reflexivity.
  - repeat constructor; discriminate.
Qed.
(** A failing read of the file loses the bytes kept from the call before. *)
Example error_loses : exists s, bsteps (b_open [] false)
    [BAppend [1]; BRead 2 (Some 1%nat); BCheck; BRead 2 None; BAppend [2; 3]; BRead 2 (Some 2%nat); BCheck] s
    ([] ++ [] ++ [RBlock] ++ [RError] ++ [] ++ [] ++ [RData [2; 3]] ++ []).
Proof.
  eexists. do 3 (econstructor; [step_tac|]). econstructor; [apply S_read; [reflexivity|discriminate|reflexivity]|].
  do 3 (econstructor; [step_tac|]). constructor.
Qed.
