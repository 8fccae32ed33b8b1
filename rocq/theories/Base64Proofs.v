(** Base64 round trips. *)
From Verif Require Import Base BaseProofs ConfigModel Base64Model.
Ltac Zify.zify_post_hook ::= Z.div_mod_to_equations.

Lemma b64_val_char n : n < 64 -> b64_val (b64_char n) = Some n.
Proof.
  intros H. unfold b64_char, b64_val, inr.
  destruct (N.ltb_spec n 26).
  { replace ((65 <=? 65 + n) && (65 + n <=? 90)) with true by lia. f_equal. lia. }
  destruct (N.ltb_spec n 52).
  { replace ((65 <=? 97 + (n - 26)) && (97 + (n - 26) <=? 90)) with false by lia.
    replace ((97 <=? 97 + (n - 26)) && (97 + (n - 26) <=? 122)) with true by lia. f_equal. lia. }
  destruct (N.ltb_spec n 62).
  { replace ((65 <=? 48 + (n - 52)) && (48 + (n - 52) <=? 90)) with false by lia.
    replace ((97 <=? 48 + (n - 52)) && (48 + (n - 52) <=? 122)) with false by lia.
    replace ((48 <=? 48 + (n - 52)) && (48 + (n - 52) <=? 57)) with true by lia. f_equal. lia. }
  destruct (N.eqb_spec n 62) as [->|]; [reflexivity|].
  assert (n = 63) as -> by lia. reflexivity.
Qed.
Lemma b64_char_val c n : b64_val c = Some n -> n < 64 /\ c = b64_char n.
Proof.
  unfold b64_val, b64_char, inr.
  destruct ((65 <=? c) && (c <=? 90)) eqn:E1.
  { intros [= <-]. split; [lia|]. destruct (N.ltb_spec (c - 65) 26); lia. }
  destruct ((97 <=? c) && (c <=? 122)) eqn:E2.
  { intros [= <-]. split; [lia|]. destruct (N.ltb_spec (c - 97 + 26) 26); [lia|].
    destruct (N.ltb_spec (c - 97 + 26) 52); lia. }
  destruct ((48 <=? c) && (c <=? 57)) eqn:E3.
  { intros [= <-]. split; [lia|]. destruct (N.ltb_spec (c - 48 + 52) 26); [lia|].
    destruct (N.ltb_spec (c - 48 + 52) 52); [lia|]. destruct (N.ltb_spec (c - 48 + 52) 62); lia. }
  destruct (N.eqb_spec c 43) as [->|]; [intros [= <-]; split; [lia|reflexivity]|].
  destruct (N.eqb_spec c 47) as [->|]; [intros [= <-]; split; [lia|reflexivity]|discriminate].
Qed.
Lemma b64_char_pad n : n < 64 -> b64_char n <> PAD.
Proof.
  intros H E. pose proof (b64_val_char n H) as V. rewrite E in V. discriminate V.
Qed.
Lemma b64_char_lt n : n < 64 -> b64_char n < 128.
Proof.
  intros H. unfold b64_char.
  destruct (n <? 26) eqn:?; [lia|]. destruct (n <? 52) eqn:?; [lia|].
  destruct (n <? 62) eqn:?; [lia|]. destruct (n =? 62); lia.
Qed.
Lemma b64_char_pos n : b64_char n <> 0.
Proof.
  unfold b64_char.
  destruct (n <? 26) eqn:?; [lia|]. destruct (n <? 52) eqn:?; [lia|].
  destruct (n <? 62) eqn:?; [lia|]. destruct (n =? 62); lia.
Qed.

(** Induction in steps of three. *)
Lemma list_ind3 (A : Type) (P : list A -> Prop) :
  P [] -> (forall a, P [a]) -> (forall a b, P [a; b]) ->
  (forall a b c l, P l -> P (a :: b :: c :: l)) -> forall l, P l.
Proof.
  intros H0 H1 H2 H3.
  fix F 1. intros [|a [|b [|c l]]]; [exact H0|apply H1|apply H2|apply H3, F].
Qed.
Lemma list_ind4 (A : Type) (P : list A -> Prop) :
  P [] -> (forall a, P [a]) -> (forall a b, P [a; b]) -> (forall a b c, P [a; b; c]) ->
  (forall a b c d l, P l -> P (a :: b :: c :: d :: l)) -> forall l, P l.
Proof.
  intros H0 H1 H2 H3 H4.
  fix F 1. intros [|a [|b [|c [|d l]]]]; [exact H0|apply H1|apply H2|apply H3|apply H4, F].
Qed.

Lemma b64_decode_cons w x y z l :
  l <> [] -> b64_decode (w :: x :: y :: z :: l) =
  match b64_val w, b64_val x, b64_val y, b64_val z with
  | Some p, Some q, Some r, Some s =>
      match b64_decode l with
      | Some t => Some (p * 4 + q / 16 :: q mod 16 * 16 + r / 4 :: r mod 4 * 64 + s :: t)
      | None => None
      end
  | _, _, _, _ => None
  end.
Proof. destruct l; [congruence|reflexivity]. Qed.

Ltac conslia := repeat (apply (f_equal2 cons); [lia|]); reflexivity.
Ltac conschar := repeat (apply (f_equal2 cons); [first [reflexivity|apply (f_equal b64_char); lia]|]); try reflexivity.

Lemma b64_round l : wf_bytes l -> b64_decode (b64_encode l) = Some l.
Proof.
  induction l as [|a|a b|a b c l IH] using list_ind3; intros W; [reflexivity|..].
  - inversion_clear W as [|? ? Ha _].
    cbn [b64_encode b64_decode]. unfold b64_last.
    rewrite !b64_val_char by lia. cbn [N.eqb PAD Pos.eqb].
    replace (a mod 4 * 16 mod 16 =? 0) with true by lia. apply (f_equal Some). conslia.
  - inversion_clear W as [|? ? Ha W']. inversion_clear W' as [|? ? Hb _].
    cbn [b64_encode b64_decode]. unfold b64_last.
    rewrite !b64_val_char by lia. cbn [N.eqb PAD Pos.eqb].
    destruct (N.eqb_spec (b64_char (b mod 16 * 4)) PAD) as [E|_].
    { exfalso. apply (b64_char_pad (b mod 16 * 4)); [lia|exact E]. }
    replace (b mod 16 * 4 mod 4 =? 0) with true by lia. apply (f_equal Some). conslia.
  - inversion_clear W as [|? ? Ha W']. inversion_clear W' as [|? ? Hb W''].
    inversion_clear W'' as [|? ? Hc Wl]. specialize (IH Wl).
    cbn [b64_encode app]. destruct (b64_encode l) as [|e es] eqn:E.
    + assert (l = []) as ->.
      { destruct l as [|? [|? [|? ?]]]; cbn in E; congruence || reflexivity. }
      cbn [b64_decode]. unfold b64_last. rewrite !b64_val_char by lia.
      destruct (N.eqb_spec (b64_char (c mod 64)) PAD) as [K|_].
      { exfalso. apply (b64_char_pad (c mod 64)); [lia|exact K]. }
      apply (f_equal Some). conslia.
    + rewrite b64_decode_cons by discriminate. rewrite !b64_val_char by lia. rewrite IH.
      apply (f_equal Some). conslia.
Qed.

Lemma b64_canonical s l : b64_decode s = Some l -> wf_bytes l /\ b64_encode l = s.
Proof.
  revert l. induction s as [|a|a b|a b c|w x y z s IH] using list_ind4; intros l H; try discriminate.
  - injection H as <-. split; [constructor|reflexivity].
  - assert (D : s = [] \/ s <> []) by (destruct s; [left|right]; congruence).
    destruct D as [->|NE].
    + cbn in H. unfold b64_last in H.
      destruct (b64_val w) as [p|] eqn:Ew; [|discriminate].
      destruct (b64_val x) as [q|] eqn:Ex; [|discriminate].
      apply b64_char_val in Ew. apply b64_char_val in Ex.
      destruct Ew as [Hp ->], Ex as [Hq ->].
      destruct (N.eqb_spec z PAD) as [->|NZ].
      * destruct (N.eqb_spec y PAD) as [->|NY].
        -- destruct (N.eqb_spec (q mod 16) 0); [|discriminate]. injection H as <-.
           split; [repeat constructor; lia|]. cbn [b64_encode app]. conschar.
        -- destruct (b64_val y) as [r|] eqn:Ey; [|discriminate].
           apply b64_char_val in Ey. destruct Ey as [Hr ->].
           destruct (N.eqb_spec (r mod 4) 0); [|discriminate]. injection H as <-.
           split; [repeat constructor; lia|]. cbn [b64_encode app]. conschar.
      * destruct (b64_val y) as [r|] eqn:Ey; [|discriminate].
        destruct (b64_val z) as [t|] eqn:Ez; [|discriminate].
        apply b64_char_val in Ey. destruct Ey as [Hr ->].
        apply b64_char_val in Ez. destruct Ez as [Ht ->]. injection H as <-.
        split; [repeat constructor; lia|]. cbn [b64_encode app]. conschar.
    + rewrite b64_decode_cons in H by assumption.
      destruct (b64_val w) as [p|] eqn:Ew; [|discriminate].
      destruct (b64_val x) as [q|] eqn:Ex; [|discriminate].
      destruct (b64_val y) as [r|] eqn:Ey; [|discriminate].
      destruct (b64_val z) as [t|] eqn:Ez; [|discriminate].
      destruct (b64_decode s) as [m|]; [|discriminate]. injection H as <-.
      destruct (IH m eq_refl) as [W <-].
      apply b64_char_val in Ew. apply b64_char_val in Ex.
      apply b64_char_val in Ey. apply b64_char_val in Ez.
      destruct Ew as [Hp ->], Ex as [Hq ->], Ey as [Hr ->], Ez as [Ht ->].
      split; [repeat (constructor; [lia|]); exact W|].
      cbn [b64_encode app]. conschar.
Qed.

Lemma b64_len l : blen (b64_encode l) = (blen l + 2) / 3 * 4.
Proof.
  induction l as [|a|a b|a b c l IH] using list_ind3; [reflexivity..|].
  cbn [b64_encode app]. rewrite !blen_cons, IH. lia.
Qed.

Lemma decode_slice_enc l : wf_bytes l -> blen l <= 87 ->
  decode_slice (b64_encode l) = Some (l ++ repeat 0 (N.to_nat (88 - blen l))).
Proof.
  intros W L. unfold decode_slice. rewrite b64_len, b64_round by assumption.
  change MAX_EXTENSION_VALUE_SIZE with 88.
  replace (((blen l + 2) / 3 * 4 + 3) / 4 * 3 <=? 88) with true by lia. reflexivity.
Qed.

Lemma decode_slice_inv s r : decode_slice s = Some r ->
  exists l, s = b64_encode l /\ wf_bytes l /\ blen l <= 87 /\
    r = l ++ repeat 0 (N.to_nat (88 - blen l)).
Proof.
  unfold decode_slice. change MAX_EXTENSION_VALUE_SIZE with 88.
  destruct ((blen s + 3) / 4 * 3 <=? 88) eqn:L; [|discriminate].
  destruct (b64_decode s) as [l|] eqn:E; [|discriminate].
  intros [= <-]. apply b64_canonical in E. destruct E as [W <-].
  exists l. repeat split; auto. rewrite b64_len in L. lia.
Qed.

Lemma b64_ascii l : wf_bytes l -> Forall (fun c => 0 < c < 128) (b64_encode l).
Proof.
  assert (C : forall n, n < 64 -> 0 < b64_char n < 128).
  { intros n H. pose proof (b64_char_lt n H). pose proof (b64_char_pos n). lia. }
  induction l as [|a|a b|a b c l IH] using list_ind3; intros W; [constructor|..].
  - inversion_clear W as [|? ? Ha _]. cbn [b64_encode].
    repeat constructor; try (apply C; lia); unfold PAD; lia.
  - inversion_clear W as [|? ? Ha W']. inversion_clear W' as [|? ? Hb _]. cbn [b64_encode].
    repeat constructor; try (apply C; lia); unfold PAD; lia.
  - inversion_clear W as [|? ? Ha W']. inversion_clear W' as [|? ? Hb W''].
    inversion_clear W'' as [|? ? Hc Wl]. cbn [b64_encode app].
    repeat (constructor; [apply C; lia|]). auto.
Qed.

Lemma ascii_utf8 l : Forall (fun c => 0 < c < 128) l -> utf8 l = true /\ ~ In 0 l.
Proof.
  induction 1 as [|c l Hc _ [IH1 IH2]]; [split; [reflexivity|intros []]|].
  split.
  - cbn [utf8]. replace (c <=? 127) with true by lia. exact IH1.
  - intros [E|E]; [lia|contradiction].
Qed.

Lemma takeN_pad n l k : blen l <= n -> n <= blen l + N.of_nat k ->
  takeN n (l ++ repeat 0 k) = l ++ repeat 0 (N.to_nat (n - blen l)).
Proof.
  intros H1 H2. rewrite takeN_app, takeN_all by assumption. f_equal.
  unfold takeN. remember (N.to_nat (n - blen l)) as m. assert (m <= k)%nat as L by lia.
  clear -L. revert k L. induction m as [|m IH]; intros [|k] L; try lia; try reflexivity.
  cbn. f_equal. apply IH. lia.
Qed.
Lemma nth_pad l k i : nth i (l ++ repeat 0 k) 0 = nth i l 0.
Proof.
  destruct (Nat.lt_ge_cases i (length l)).
  - now apply app_nth1.
  - rewrite app_nth2 by assumption. rewrite (nth_overflow l) by assumption. apply nth_repeat.
Qed.

Lemma decode_fixed_enc cap k : wf_bytes k -> blen k = cap -> cap <= 64 -> decode_fixed cap (b64_encode k) = Some k.
Proof.
  intros W L C. unfold decode_fixed. rewrite decode_slice_enc by (auto; lia).
  rewrite nth_pad, nth_overflow by (unfold blen in L; lia). cbn [N.eqb].
  rewrite takeN_app_exact by auto. reflexivity.
Qed.
