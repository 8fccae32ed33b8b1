(** C02, C04: which byte strings are text.  The validity check used by the decoder accepts
    exactly the UTF-8 encodings of sequences of Unicode scalar values. *)
From Verif Require Import Base BaseProofs PacketModel PacketSpec PacketProofs.

(** ** Independent specification: the encoder of RFC 3629 *)
(** Unicode scalar values: code points without surrogates. *)
Definition scalar (u : N) : Prop := u < 55296 \/ 57344 <= u /\ u < 1114112.
Definition encode_scalar (u : N) : bytes :=
  if u <? 128 then [u]
  else if u <? 2048 then [192 + u / 64; 128 + u mod 64]
  else if u <? 65536 then [224 + u / 4096; 128 + u / 64 mod 64; 128 + u mod 64]
  else [240 + u / 262144; 128 + u / 4096 mod 64; 128 + u / 64 mod 64; 128 + u mod 64].
Definition encode_text (us : list N) : bytes := concat (map encode_scalar us).

Ltac Zify.zify_post_hook ::= Z.div_mod_to_equations.

Lemma inr_iff lo hi b : inr lo hi b = true <-> lo <= b <= hi.
Proof. unfold inr. rewrite andb_true_iff, !N.leb_le. tauto. Qed.
Lemma inr_false lo hi b : inr lo hi b = false <-> b < lo \/ hi < b.
Proof. unfold inr. rewrite andb_false_iff, !N.leb_gt. tauto. Qed.

Lemma utf8_encode_one u l : scalar u -> utf8 (encode_scalar u ++ l) = utf8 l.
Proof.
  intros S. unfold scalar in S. unfold encode_scalar.
  destruct (N.ltb_spec u 128) as [H|H].
  { cbn [app utf8]. destruct (N.leb_spec u 127); [reflexivity|lia]. }
  destruct (N.ltb_spec u 2048) as [H1|H1].
  { cbn [app utf8]. destruct (N.leb_spec (192 + u / 64) 127); [lia|].
    rewrite (proj2 (inr_iff 194 223 (192 + u / 64))) by lia.
    unfold cont. rewrite (proj2 (inr_iff 128 191 _)) by lia. reflexivity. }
  destruct (N.ltb_spec u 65536) as [H2|H2].
  { cbn [app utf8]. destruct (N.leb_spec (224 + u / 4096) 127); [lia|].
    rewrite (proj2 (inr_false 194 223 (224 + u / 4096))) by lia.
    rewrite (proj2 (inr_iff 224 239 (224 + u / 4096))) by lia.
    unfold cont. rewrite (proj2 (inr_iff 128 191 (128 + u mod 64))) by lia.
    destruct (N.eqb_spec (224 + u / 4096) 224) as [E|E].
    - rewrite (proj2 (inr_iff 160 191 _)) by lia. reflexivity.
    - destruct (N.eqb_spec (224 + u / 4096) 237) as [E'|E'].
      + rewrite (proj2 (inr_iff 128 159 _)) by lia. reflexivity.
      + rewrite (proj2 (inr_iff 128 191 _)) by lia. reflexivity. }
  cbn [app utf8]. destruct (N.leb_spec (240 + u / 262144) 127); [lia|].
  rewrite (proj2 (inr_false 194 223 (240 + u / 262144))) by lia.
  rewrite (proj2 (inr_false 224 239 (240 + u / 262144))) by lia.
  rewrite (proj2 (inr_iff 240 244 (240 + u / 262144))) by lia.
  unfold cont. rewrite (proj2 (inr_iff 128 191 (128 + u mod 64))) by lia.
  rewrite (proj2 (inr_iff 128 191 (128 + u / 64 mod 64))) by lia.
  destruct (N.eqb_spec (240 + u / 262144) 240) as [E|E].
  - rewrite (proj2 (inr_iff 144 191 _)) by lia. reflexivity.
  - destruct (N.eqb_spec (240 + u / 262144) 244) as [E'|E'].
    + rewrite (proj2 (inr_iff 128 143 _)) by lia. reflexivity.
    + rewrite (proj2 (inr_iff 128 191 _)) by lia. reflexivity.
Qed.

Lemma utf8_first l : l <> [] -> utf8 l = true ->
  exists u l', scalar u /\ l = encode_scalar u ++ l' /\ utf8 l' = true.
Proof.
  intros Hn H. destruct l as [|a l1]; [congruence|]. cbn [utf8] in H.
  destruct (N.leb_spec a 127) as [Ha|Ha].
  { exists a, l1. split; [left; lia|]. split; [|exact H]. unfold encode_scalar.
    destruct (N.ltb_spec a 128); [reflexivity|lia]. }
  destruct (inr 194 223 a) eqn:E1.
  { apply inr_iff in E1. destruct l1 as [|b l2]; [discriminate|].
    apply andb_true_iff in H as [Hb H]. apply inr_iff in Hb.
    exists ((a - 192) * 64 + (b - 128)), l2. split; [left; lia|]. split; [|exact H].
    unfold encode_scalar. destruct (N.ltb_spec ((a - 192) * 64 + (b - 128)) 128); [lia|].
    destruct (N.ltb_spec ((a - 192) * 64 + (b - 128)) 2048); [|lia].
    cbn [app]. f_equal; [lia|]. f_equal. lia. }
  destruct (inr 224 239 a) eqn:E2.
  { apply inr_iff in E2. destruct l1 as [|b [|c l3]]; try discriminate.
    apply andb_true_iff in H as [H H']. apply andb_true_iff in H as [Hb Hc]. apply inr_iff in Hc.
    assert (R : 128 <= b <= 191 /\ (a = 224 -> 160 <= b) /\ (a = 237 -> b <= 159)).
    { destruct (N.eqb_spec a 224); [apply inr_iff in Hb; lia|].
      destruct (N.eqb_spec a 237); apply inr_iff in Hb; lia. }
    set (u := (a - 224) * 4096 + (b - 128) * 64 + (c - 128)).
    assert (Q : 2048 <= u < 65536) by (unfold u; lia).
    assert (Q1 : u / 4096 = a - 224) by (unfold u; lia).
    assert (Q2 : u / 64 mod 64 = b - 128) by (unfold u; lia).
    assert (Q3 : u mod 64 = c - 128) by (unfold u; lia).
    exists u, l3. split; [unfold scalar, u; lia|]. split; [|exact H'].
    unfold encode_scalar. destruct (N.ltb_spec u 128); [lia|]. destruct (N.ltb_spec u 2048); [lia|].
    destruct (N.ltb_spec u 65536); [|lia]. rewrite Q1, Q2, Q3. cbn [app].
    f_equal; [lia|]. f_equal; [lia|]. f_equal. lia. }
  destruct (inr 240 244 a) eqn:E3; [|discriminate].
  apply inr_iff in E3. destruct l1 as [|b [|c [|d l4]]]; try discriminate.
  apply andb_true_iff in H as [H H']. apply andb_true_iff in H as [H Hd]. apply andb_true_iff in H as [Hb Hc].
  apply inr_iff in Hc, Hd.
  assert (R : 128 <= b <= 191 /\ (a = 240 -> 144 <= b) /\ (a = 244 -> b <= 143)).
  { destruct (N.eqb_spec a 240); [apply inr_iff in Hb; lia|].
    destruct (N.eqb_spec a 244); apply inr_iff in Hb; lia. }
  set (u := (a - 240) * 262144 + (b - 128) * 4096 + (c - 128) * 64 + (d - 128)).
  assert (Q : 65536 <= u < 1114112) by (unfold u; lia).
  assert (Q1 : u / 262144 = a - 240) by (unfold u; lia).
  assert (Q2 : u / 4096 mod 64 = b - 128) by (unfold u; lia).
  assert (Q3 : u / 64 mod 64 = c - 128) by (unfold u; lia).
  assert (Q4 : u mod 64 = d - 128) by (unfold u; lia).
  exists u, l4. split; [unfold scalar; lia|]. split; [|exact H'].
  unfold encode_scalar. destruct (N.ltb_spec u 128); [lia|]. destruct (N.ltb_spec u 2048); [lia|].
  destruct (N.ltb_spec u 65536); [lia|]. rewrite Q1, Q2, Q3, Q4. cbn [app].
  f_equal; [lia|]. f_equal; [lia|]. f_equal; [lia|]. f_equal. lia.
Qed.

(** The check accepts exactly the encodings of texts. *)
Theorem utf8_iff_text : forall l,
  utf8 l = true <-> exists us, Forall scalar us /\ l = encode_text us.
Proof.
  intros l. split.
  - remember (length l) as k eqn:Hk. assert (Hle : (length l <= k)%nat) by lia. clear Hk. revert l Hle.
    induction k as [|k IH]; intros l Hle H.
    + destruct l; [exists []; split; [constructor|reflexivity]|cbn in Hle; lia].
    + destruct l as [|a l1] eqn:El; [exists []; split; [constructor|reflexivity]|]. rewrite <- El in *.
      destruct (utf8_first l) as (u & l' & S & E & H'); [subst; discriminate|exact H|].
      assert (Hlen : (length l' <= k)%nat).
      { rewrite E, app_length in Hle. assert (1 <= length (encode_scalar u))%nat; [|lia].
        unfold encode_scalar. repeat destruct (_ <? _); cbn; lia. }
      destruct (IH l' Hlen H') as (us & F & ->). exists (u :: us). split; [constructor; assumption|exact E].
  - intros (us & F & ->). induction F as [|u us S F IH]; [reflexivity|].
    unfold encode_text. cbn [map concat]. rewrite utf8_encode_one by assumption. exact IH.
Qed.
Print Assumptions utf8_iff_text.

(** Different texts have different encodings. *)
Lemma encode_scalar_inj u v l l' : scalar u -> scalar v ->
  encode_scalar u ++ l = encode_scalar v ++ l' -> u = v /\ l = l'.
Proof.
  intros Su Sv. unfold scalar in *. unfold encode_scalar.
  destruct (N.ltb_spec u 128); [|destruct (N.ltb_spec u 2048); [|destruct (N.ltb_spec u 65536)]];
    (destruct (N.ltb_spec v 128); [|destruct (N.ltb_spec v 2048); [|destruct (N.ltb_spec v 65536)]]);
    cbn [app]; intros E.
  all: repeat match goal with H : _ :: _ = _ :: _ |- _ =>
    let h := fresh in pose proof (f_equal (@tl N) H) as h; apply (f_equal (hd 0)) in H; cbn [tl hd] in H, h end.
  all: split; [lia|try assumption].
  all: exfalso; lia.
Qed.
Theorem text_encoding_injective : forall us vs, Forall scalar us -> Forall scalar vs ->
  encode_text us = encode_text vs -> us = vs.
Proof.
  assert (P : forall u l, encode_scalar u ++ l <> []).
  { intros u l. unfold encode_scalar. repeat destruct (_ <? _); discriminate. }
  intros us vs Fu. revert vs. induction Fu as [|u us S F IH]; intros vs Fv E.
  - destruct vs as [|v vs]; [reflexivity|]. cbn in E. symmetry in E. destruct (P _ _ E).
  - destruct vs as [|v vs]; [cbn in E; destruct (P _ _ E)|].
    cbn [encode_text map concat] in E. inversion Fv; subst.
    destruct (encode_scalar_inj u v _ _ S H1 E) as [-> E']. f_equal. apply IH; assumption.
Qed.
Print Assumptions text_encoding_injective.

(** Hence names, messages and option values a decoder hands out are texts. *)
Theorem decoded_strings_are_text : forall l p, wf_bytes l -> from_bytes l = Ok p ->
  match p with
  | PRead r | PWrite r =>
      (exists us, Forall scalar us /\ rq_name r = encode_text us) /\
      forall e v, ext_get (rq_exts r) e = Some v -> exists us, Forall scalar us /\ v = encode_text us
  | PError _ m => exists us, Forall scalar us /\ m = encode_text us
  | POack x => forall e v, ext_get x e = Some v -> exists us, Forall scalar us /\ v = encode_text us
  | _ => True
  end.
Proof.
  intros l p W E. pose proof (decode_good l p W E) as G.
  destruct p as [r|r|b d|b|c m|x]; cbn in G; auto.
  - destruct G as [[G1 _] G2]. split; [apply utf8_iff_text; exact G1|]. intros e v Hv. apply utf8_iff_text. apply (G2 e v Hv).
  - destruct G as [[G1 _] G2]. split; [apply utf8_iff_text; exact G1|]. intros e v Hv. apply utf8_iff_text. apply (G2 e v Hv).
  - apply utf8_iff_text. apply G.
  - intros e v Hv. apply utf8_iff_text. apply (G e v Hv).
Qed.
Print Assumptions decoded_strings_are_text.

Example utf8_cases :
  utf8 (encode_text [36; 233; 8364; 128512]) = true /\
  encode_text [36; 233; 8364; 128512] = [36; 195; 169; 226; 130; 172; 240; 159; 152; 128] /\
  utf8 [192; 128] = false /\ utf8 [237; 160; 128] = false /\ utf8 [244; 144; 128; 128] = false /\ utf8 [224; 128; 128] = false.
Proof. repeat split. Qed.
