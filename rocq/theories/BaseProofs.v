(** Lemmas about Base.v. *)
From Verif Require Import Base.
Ltac Zify.zify_post_hook ::= Z.div_mod_to_equations.

Lemma beq_eq a b : beq a b = true <-> a = b.
Proof.
  revert b; induction a as [|x a IH]; intros [|y b]; cbn; split; intros H;
    try reflexivity; try discriminate.
  - apply andb_true_iff in H as [H1 H2]. apply N.eqb_eq in H1. apply IH in H2. congruence.
  - injection H as -> ->. apply andb_true_iff; split; [apply N.eqb_refl | apply IH; reflexivity].
Qed.
Lemma beq_refl a : beq a a = true.
Proof. apply beq_eq; reflexivity. Qed.
Lemma beq_neq a b : beq a b = false <-> a <> b.
Proof. rewrite <- beq_eq. destruct (beq a b); split; congruence. Qed.

Lemma blen_app a b : blen (a ++ b) = blen a + blen b.
Proof. unfold blen. rewrite app_length. lia. Qed.
Lemma blen_cons x a : blen (x :: a) = 1 + blen a.
Proof. unfold blen. cbn [length]. lia. Qed.
Lemma blen_nil : blen [] = 0.
Proof. reflexivity. Qed.
Lemma blen_0 l : blen l = 0 -> l = [].
Proof. unfold blen. destruct l; cbn; [reflexivity | lia]. Qed.

Lemma takeN_0 l : takeN 0 l = [].
Proof. reflexivity. Qed.
Lemma dropN_0 l : dropN 0 l = l.
Proof. reflexivity. Qed.
Lemma takeN_dropN n l : takeN n l ++ dropN n l = l.
Proof. apply firstn_skipn. Qed.
Lemma takeN_all n l : blen l <= n -> takeN n l = l.
Proof. unfold blen, takeN; intros; apply firstn_all2; lia. Qed.
Lemma dropN_all n l : blen l <= n -> dropN n l = [].
Proof. unfold blen, dropN; intros; apply skipn_all2; lia. Qed.
Lemma blen_takeN n l : blen (takeN n l) = N.min n (blen l).
Proof. unfold blen, takeN. rewrite firstn_length. lia. Qed.
Lemma blen_dropN n l : blen (dropN n l) = blen l - n.
Proof. unfold blen, dropN. rewrite skipn_length. lia. Qed.
Lemma takeN_app_exact a b n : n = blen a -> takeN n (a ++ b) = a.
Proof.
  unfold takeN, blen; intros ->. rewrite Nnat.Nat2N.id.
  rewrite firstn_app, Nat.sub_diag, firstn_all. cbn. apply app_nil_r.
Qed.
Lemma dropN_app_exact a b n : n = blen a -> dropN n (a ++ b) = b.
Proof.
  unfold dropN, blen; intros ->. rewrite Nnat.Nat2N.id.
  rewrite skipn_app, Nat.sub_diag, skipn_all. reflexivity.
Qed.
Lemma dropN_dropN n m l : dropN n (dropN m l) = dropN (m + n) l.
Proof.
  unfold dropN. rewrite N2Nat.inj_add. generalize (N.to_nat m) as k. intros k.
  revert l; induction k as [|k IH]; intros l; [reflexivity|].
  destruct l as [|x l]; cbn; [apply skipn_nil | apply IH].
Qed.
Lemma takeN_app a b n : takeN n (a ++ b) = takeN n a ++ takeN (n - blen a) b.
Proof. unfold takeN, blen. rewrite firstn_app. do 2 f_equal. lia. Qed.
Lemma dropN_app a b n : dropN n (a ++ b) = dropN n a ++ dropN (n - blen a) b.
Proof. unfold dropN, blen. rewrite skipn_app. do 2 f_equal. lia. Qed.
Lemma takeN_takeN n m l : takeN n (takeN m l) = takeN (N.min n m) l.
Proof. unfold takeN. rewrite firstn_firstn. f_equal. lia. Qed.

Lemma wf_app a b : wf_bytes (a ++ b) <-> wf_bytes a /\ wf_bytes b.
Proof. apply Forall_app. Qed.
Lemma wf_take n l : wf_bytes l -> wf_bytes (takeN n l).
Proof. intros H. rewrite <- (takeN_dropN n l) in H. apply wf_app in H. tauto. Qed.
Lemma wf_drop n l : wf_bytes l -> wf_bytes (dropN n l).
Proof. intros H. rewrite <- (takeN_dropN n l) in H. apply wf_app in H. tauto. Qed.

Lemma un16_be16 n : un16 (n / 256) (n mod 256) = n.
Proof. unfold un16. lia. Qed.
Lemma be16_un16 a b : b < 256 -> be16 (un16 a b) = [a; b].
Proof. intros; unfold be16, un16; f_equal; [|f_equal]; lia. Qed.
Lemma un16_lt a b : a < 256 -> b < 256 -> un16 a b < 65536.
Proof. unfold un16; lia. Qed.
Lemma wf_be16 n : n < 65536 -> wf_bytes (be16 n).
Proof. intros. unfold be16. repeat constructor; lia. Qed.

Lemma split_nul_app a b : ~ In 0 a -> split_nul (a ++ 0 :: b) = Some (a, b).
Proof.
  induction a as [|x a IH]; cbn; intros H; [reflexivity|].
  destruct (N.eqb_spec x 0) as [->|]; [tauto|]. rewrite IH by tauto. reflexivity.
Qed.
Lemma split_nul_inv l a b : split_nul l = Some (a, b) -> l = a ++ 0 :: b /\ ~ In 0 a.
Proof.
  revert a b; induction l as [|x l IH]; cbn; intros a b H; [discriminate|].
  destruct (N.eqb_spec x 0) as [->|Hx].
  - injection H as <- <-. cbn. tauto.
  - destruct (split_nul l) as [[p r]|] eqn:E; [|discriminate].
    injection H as <- <-. destruct (IH p r eq_refl) as [-> Hn]. cbn. split; [reflexivity|].
    intros [?|?]; tauto.
Qed.
Lemma split_nul_none l : split_nul l = None <-> ~ In 0 l.
Proof.
  induction l as [|x l IH]; cbn; [tauto|].
  destruct (N.eqb_spec x 0) as [->|Hx].
  - split; [discriminate|tauto].
  - destruct (split_nul l) as [[p r]|]; split; try discriminate; try tauto.
    intros H. exfalso. assert (~ In 0 l) by tauto. apply IH in H0. discriminate.
Qed.
