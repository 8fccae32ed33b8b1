(** Lemmas about MapperModel.v. *)
From Verif Require Import Base BaseProofs MapperModel.
Ltac Zify.zify_post_hook ::= Z.div_mod_to_equations.

Lemma map_block_mod i : map_block i = i mod 65536.
Proof.
  unfold map_block. destruct (65535 <? i); [|reflexivity].
  change (65535 + 1) with 65536. cbn zeta. lia.
Qed.

(** [M] is the highest index seen so far. *)
Definition MapInv (m : mapper) (M : N) : Prop :=
  1 <= m_cur m /\
  ((m_next m = m_cur m /\
    (m_cur m = 1 \/ (m_cur m - 1) * 65536 + 10000 <= M) /\
    M <= (m_cur m - 1) * 65536 + 55535) \/
   (m_next m = m_cur m + 1 /\
    (m_cur m - 1) * 65536 + 55536 <= M /\ M <= m_cur m * 65536 + 9999)).

Lemma mapper_new_inv : MapInv mapper_new 0.
Proof. unfold MapInv, mapper_new; cbn; lia. Qed.

Lemma map_index_near m M i :
  MapInv m M -> i <= M + 10000 -> M <= i + 10000 ->
  fst (map_index m (i mod 65536)) = i /\
  MapInv (snd (map_index m (i mod 65536))) (N.max M i).
Proof.
  intros (Hc & H) H1 H2.
  set (e := m_cur m - 1) in *. assert (He : m_cur m = e + 1) by lia.
  set (b := i mod 65536).
  destruct H as [(Hn & Hlo & Hhi)|(Hn & Hlo & Hhi)].
  - (* same set *)
    assert (Hi : i = e * 65536 + b).
    { assert (e * 65536 <= i) by lia. assert (i < e * 65536 + 65536) by lia. subst b. lia. }
    assert (Hb : b < 65536) by (subst b; lia).
    unfold map_index. rewrite Hn, N.eqb_refl. cbn [andb].
    destruct (65535 - 10000 <? b) eqn:E1; cbn [m_cur m_next].
    + assert (Hneq : (m_cur m =? m_cur m + 1) = false) by lia. rewrite Hneq. cbn [negb andb].
      assert (Hb2 : (b <? 10000) = false) by lia. rewrite Hb2.
      assert (Hb3 : ((10000 <=? b) && (b <? 20000))%bool = false) by lia. rewrite Hb3.
      cbn [m_cur m_next fst snd]. fold e. split.
      * destruct (0 <? e) eqn:E0; lia.
      * unfold MapInv; cbn [m_cur m_next]. lia.
    + rewrite Hn, N.eqb_refl. cbn [negb andb m_cur m_next fst snd]. fold e. split.
      * destruct (0 <? e) eqn:E0; lia.
      * unfold MapInv. lia.
  - (* two sets in play *)
    assert (Hneq : (m_cur m =? m_next m) = false) by lia.
    unfold map_index. rewrite Hneq. cbn [andb negb]. rewrite Hneq. cbn [andb negb].
    assert (Hb : b < 65536) by (subst b; lia).
    assert (Hcase : (i = e * 65536 + b /\ 45536 <= b) \/ (i = (e + 1) * 65536 + b /\ b < 20000)).
    { assert (e * 65536 + 45536 <= i) by lia. assert (i < (e + 1) * 65536 + 20000) by lia.
      subst b. lia. }
    destruct (b <? 10000) eqn:E1.
    + cbn [fst snd]. split; [lia|]. unfold MapInv. lia.
    + destruct ((10000 <=? b) && (b <? 20000))%bool eqn:E2; cbn [m_cur m_next fst snd].
      * split; [destruct (0 <? m_cur m + 1 - 1) eqn:E0; lia|].
        unfold MapInv; cbn [m_cur m_next]. lia.
      * fold e. split; [destruct (0 <? e) eqn:E0; lia|]. unfold MapInv. lia.
Qed.

(** Block numbers up to 55535 never leave the first set. *)
Lemma map_index_small i : i <= 55535 -> map_index mapper_new (i mod 65536) = (i, mapper_new).
Proof.
  intros H. replace (i mod 65536) with i by lia.
  unfold map_index, mapper_new. cbn [m_cur m_next]. rewrite N.eqb_refl. cbn [andb].
  assert (E : (65535 - 10000 <? i) = false) by lia. rewrite E. cbn [m_cur m_next].
  rewrite N.eqb_refl. cbn [negb andb m_cur]. change (1 - 1) with 0.
  change (0 <? 0) with false. cbn iota. f_equal; lia.
Qed.

(** Any history of true indices: results of feeding their block numbers. *)
Fixpoint map_run (m : mapper) (l : list N) : list N :=
  match l with
  | [] => []
  | b :: l' => let '(i, m') := map_index m b in i :: map_run m' l'
  end.
(** Each index lies within [d] of the highest one before it ([M] initially). *)
Fixpoint within (d M : N) (l : list N) : Prop :=
  match l with
  | [] => True
  | i :: l' => i <= M + d /\ M <= i + d /\ within d (N.max M i) l'
  end.
Lemma map_run_near l m M : MapInv m M -> within 10000 M l ->
  map_run m (map (fun i => i mod 65536) l) = l.
Proof.
  revert m M; induction l as [|i l IH]; intros m M HI HW; cbn; [reflexivity|].
  destruct HW as (H1 & H2 & HW). pose proof (map_index_near m M i HI H1 H2) as [Hi HI'].
  destruct (map_index m (i mod 65536)) as [j m'] eqn:E. cbn [fst snd] in *. subst j.
  f_equal. eapply IH; eassumption.
Qed.

Lemma map_index_mod m b : b < 65536 -> fst (map_index m b) mod 65536 = b.
Proof.
  intros Hb. unfold map_index.
  assert (H : forall c x, x = c * 65536 + b -> x mod 65536 = b) by (intros c x ->; lia).
  match goal with |- context [m_next (if ?c then ?a else ?b)] => set (m1 := if c then a else b) end.
  destruct (negb (m_cur m1 =? m_next m1) && (b <? 10000))%bool; cbn [fst].
  - apply (H (m_next m1 - 1)). lia.
  - match goal with |- context [m_cur (if ?c then ?a else m1)] => set (m2 := if c then a else m1) end.
    apply (H (m_cur m2 - 1)). destruct (N.ltb_spec 0 (m_cur m2 - 1)); lia.
Qed.
