(** Proofs about padding and packet encryption. *)
From Verif Require Import Base BaseProofs PacketModel PacketProofs ConfigModel Base64Model Base64Proofs
  CryptoModel CryptoSpec.

(** ** The toy instance is an instance. *)
Lemma fit_len n l : length (fit n l) = n.
Proof.
  unfold fit. rewrite firstn_length, app_length, map_length, repeat_length. lia.
Qed.
Lemma fit_wf n l : wf_bytes (fit n l).
Proof.
  unfold fit, wf_bytes. apply Forall_forall. intros x Hx.
  assert (H : In x (map (fun b => b mod 256) l ++ repeat 0 n)).
  { rewrite <- (firstn_skipn n). apply in_or_app. now left. }
  apply in_app_or in H. destruct H as [H|H].
  - apply in_map_iff in H. destruct H as (y & <- & _). apply N.mod_lt. lia.
  - apply repeat_spec in H. lia.
Qed.
Lemma addb_comm a b : addb a b = addb b a.
Proof.
  revert b. induction a as [|x a IH]; intros [|y b]; cbn; try reflexivity.
  f_equal; [f_equal; lia|apply IH].
Qed.
Lemma toy_ok : crypto_ok toy.
Proof.
  constructor; cbn -[fit].
  - intros. apply addb_comm.
  - reflexivity.
  - intros s. unfold blen. rewrite fit_len. reflexivity.
  - intros s m. apply beq_refl.
  - intros s. split; [unfold blen; rewrite fit_len; reflexivity|apply fit_wf].
  - intros s. split; [unfold blen; rewrite fit_len; reflexivity|apply fit_wf].
  - intros s m. split; [unfold blen; rewrite fit_len; reflexivity|apply fit_wf].
  - intros k n m. rewrite rev_involutive, beq_refl. reflexivity.
  - intros k n m. unfold blen. rewrite rev_length, fit_len. auto.
  - intros k n ct tag m. destruct (beq tag _) eqn:E; [|discriminate].
    apply beq_eq in E. intros [= <-]. rewrite rev_involutive, E. reflexivity.
Qed.

(** ** Padding *)
Lemma strip_repeat b n l : strip b (repeat b n ++ l) = strip b l.
Proof. induction n; cbn; [reflexivity|]. now rewrite N.eqb_refl. Qed.
Lemma rev_repeat (A : Type) (x : A) n : rev (repeat x n) = repeat x n.
Proof.
  induction n; [reflexivity|]. cbn. rewrite IHn. clear. induction n; cbn; congruence.
Qed.

Lemma apply_pad_ok buf e : buf <> [] -> blen buf <= e ->
  exists x n, (x = 0 \/ x = 255) /\ (n > 0)%nat /\ N.of_nat n = e - blen buf + 1 /\
    apply_bit_padding buf e = Ok (buf ++ repeat x n) /\
    (forall last pre, buf = pre ++ [last] -> last <> x).
Proof.
  intros NE L. unfold apply_bit_padding.
  destruct (rev buf) as [|last r] eqn:E.
  { exfalso. apply NE. rewrite <- (rev_involutive buf), E. reflexivity. }
  replace (e <? blen buf) with false by lia. change ENCRYPTION_PADDING_SIZE with 1.
  exists (if N.odd last then 0 else 255), (N.to_nat (e - blen buf + 1)).
  split; [destruct (N.odd last); auto|]. split; [lia|]. split; [lia|]. split; [reflexivity|].
  intros l pre ->. rewrite rev_app_distr in E. cbn in E. injection E as <- <-.
  destruct (N.odd l) eqn:O; intros ->; discriminate O.
Qed.

Lemma remove_pad x n buf : (x = 0 \/ x = 255) -> (n > 0)%nat -> buf <> [] ->
  (forall last pre, buf = pre ++ [last] -> last <> x) ->
  remove_bit_padding (buf ++ repeat x n) = Ok buf.
Proof.
  intros HX HN NE HL. unfold remove_bit_padding. rewrite rev_app_distr, rev_repeat.
  destruct n as [|n]; [lia|]. cbn [repeat app].
  assert (S : strip x (x :: repeat x n ++ rev buf) = rev buf).
  { change (x :: repeat x n ++ rev buf) with (repeat x (S n) ++ rev buf). rewrite strip_repeat.
    destruct (rev buf) as [|last r] eqn:E; [reflexivity|]. cbn.
    assert (last <> x).
    { apply (HL last (rev r)). rewrite <- (rev_involutive buf), E. reflexivity. }
    now rewrite (proj2 (N.eqb_neq _ _)). }
  destruct HX as [->| ->]; cbn [N.eqb Pos.eqb]; rewrite S, rev_involutive; reflexivity.
Qed.

Lemma pad_round buf e b : apply_bit_padding buf e = Ok b -> remove_bit_padding b = Ok buf.
Proof.
  intros H.
  assert (NE : buf <> []) by (intros ->; discriminate H).
  assert (L : blen buf <= e).
  { unfold apply_bit_padding in H. destruct (rev buf); [discriminate|].
    destruct (e <? blen buf) eqn:E; [discriminate|lia]. }
  destruct (apply_pad_ok buf e NE L) as (x & n & HX & HN & _ & E & HL).
  rewrite E in H. injection H as <-. now apply remove_pad.
Qed.

Lemma pad_len buf e b : apply_bit_padding buf e = Ok b -> blen b = e + 1 /\ blen buf <= e /\ buf <> [].
Proof.
  intros H.
  assert (NE : buf <> []) by (intros ->; discriminate H).
  assert (L : blen buf <= e).
  { unfold apply_bit_padding in H. destruct (rev buf); [discriminate|].
    destruct (e <? blen buf) eqn:E; [discriminate|lia]. }
  destruct (apply_pad_ok buf e NE L) as (x & n & HX & HN & HC & E & HL).
  rewrite E in H. injection H as <-. rewrite blen_app. unfold blen at 2. rewrite repeat_length.
  split; [lia|auto].
Qed.

Lemma pad_total buf e : buf <> [] -> blen buf <= e -> exists b, apply_bit_padding buf e = Ok b.
Proof.
  intros NE L. destruct (apply_pad_ok buf e NE L) as (x & n & _ & _ & _ & E & _). eauto.
Qed.

(** ** Encryptor *)
Lemma rslice_app n to a b d : blen b = n -> blen d = to -> rslice n to (a ++ b ++ d) = Some b.
Proof.
  intros Hb Hd. unfold rslice. rewrite !blen_app.
  replace (blen a + (blen b + blen d) <? n + to) with false by lia.
  replace (blen a + (blen b + blen d) - n - to) with (blen a) by lia.
  rewrite dropN_app_exact, takeN_app_exact by auto. reflexivity.
Qed.

Lemma encrypt_ok c k n buf from : from <= blen buf ->
  encrypt c k n buf from =
  Ok (takeN from buf ++ fst (c_seal c k n (dropN from buf)) ++ snd (c_seal c k n (dropN from buf)) ++ n).
Proof.
  intros L. unfold encrypt. replace (blen buf <? from) with false by lia.
  destruct (c_seal c k n (dropN from buf)); reflexivity.
Qed.

Lemma decrypt_split c k h ct tag n : blen n = 24 -> blen tag = 16 ->
  decrypt c k (h ++ ct ++ tag ++ n) (blen h) =
  match c_open c k n ct tag with Some m => Ok (h ++ m) | None => Err tt end.
Proof.
  intros Hn Ht. unfold decrypt. change ENCRYPTION_NONCE_SIZE with 24. change ENCRYPTION_TAG_SIZE with 16.
  replace (rslice 24 0 (h ++ ct ++ tag ++ n)) with (Some n).
  2: { symmetry. rewrite !app_assoc. rewrite <- (app_nil_r n) at 1.
       rewrite rslice_app by auto. reflexivity. }
  replace (rslice 16 24 (h ++ ct ++ tag ++ n)) with (Some tag).
  2: { symmetry. rewrite (app_assoc h ct). now rewrite rslice_app by auto. }
  replace (takeN (blen (h ++ ct ++ tag ++ n) - 24 - 16) (h ++ ct ++ tag ++ n)) with (h ++ ct).
  2: { rewrite (app_assoc h ct). symmetry. apply takeN_app_exact. rewrite !blen_app. lia. }
  cbv zeta. replace (blen (h ++ ct) <? blen h) with false by (rewrite blen_app; lia).
  rewrite dropN_app_exact, takeN_app_exact by auto. reflexivity.
Qed.

Lemma crypt_round c k n buf from w : crypto_ok c -> blen n = 24 ->
  encrypt c k n buf from = Ok w -> decrypt c k w from = Ok buf.
Proof.
  intros HC Hn HE.
  assert (L : from <= blen buf).
  { unfold encrypt in HE. destruct (blen buf <? from) eqn:E; [discriminate|lia]. }
  rewrite encrypt_ok in HE by assumption. injection HE as <-.
  assert (F : from = blen (takeN from buf)) by (rewrite blen_takeN; lia).
  remember (takeN from buf) as h. rewrite F.
  rewrite decrypt_split; [|assumption|apply (proj2 (ok_seal_len c HC k n _))].
  rewrite (ok_open c HC). f_equal. rewrite <- F. subst h. apply takeN_dropN.
Qed.

Lemma encrypt_len c k n buf from w : crypto_ok c -> blen n = 24 ->
  encrypt c k n buf from = Ok w -> blen w = blen buf + 40 /\ takeN from w = takeN from buf /\ from <= blen buf.
Proof.
  intros HC Hn HE.
  assert (L : from <= blen buf).
  { unfold encrypt in HE. destruct (blen buf <? from) eqn:E; [discriminate|lia]. }
  rewrite encrypt_ok in HE by assumption. injection HE as <-.
  rewrite !blen_app. destruct (ok_seal_len c HC k n (dropN from buf)) as [-> ->].
  rewrite blen_takeN, blen_dropN, Hn. change ENCRYPTION_TAG_SIZE with 16.
  split; [lia|]. split; [|exact L].
  apply takeN_app_exact. rewrite blen_takeN. lia.
Qed.

Lemma enc_packet_round c k n p e w : crypto_ok c -> blen n = 24 ->
  enc_packet c k n p e = Ok w -> dec_packet c k w = Ok p /\ blen w = e + 41 /\ blen p <= e /\ p <> [].
Proof.
  intros HC Hn H. unfold enc_packet, bindr in H.
  destruct (apply_bit_padding p e) as [b| |] eqn:E; try discriminate.
  pose proof (crypt_round _ _ _ _ _ _ HC Hn H) as R.
  pose proof (encrypt_len _ _ _ _ _ _ HC Hn H) as (L & _ & _).
  unfold dec_packet. rewrite R. cbn [bindr]. rewrite (pad_round _ _ _ E). cbn [bindr].
  destruct (pad_len _ _ _ E) as (L1 & L2 & L3). repeat split; auto. lia.
Qed.

Lemma enc_packet_total c k n p e : p <> [] -> blen p <= e -> exists w, enc_packet c k n p e = Ok w.
Proof.
  intros NE L. unfold enc_packet. destruct (pad_total p e NE L) as [b E]. rewrite E. cbn [bindr].
  rewrite encrypt_ok by lia. eauto.
Qed.

Lemma parse_initial_app ct n pk : blen n = 24 -> blen pk = 32 -> 16 <= blen ct ->
  parse_initial (ct ++ n ++ pk) = Some (ct, n, pk).
Proof.
  intros Hn Hp Hc. unfold parse_initial. change KEY_SIZE with 32.
  change ENCRYPTION_NONCE_SIZE with 24. change ENCRYPTION_TAG_SIZE with 16.
  replace (rslice 32 0 (ct ++ n ++ pk)) with (Some pk).
  2: { symmetry. rewrite app_assoc. rewrite <- (app_nil_r pk) at 1. rewrite rslice_app by auto. reflexivity. }
  rewrite rslice_app by auto.
  replace (takeN (blen (ct ++ n ++ pk) - (32 + 24)) (ct ++ n ++ pk)) with ct.
  2: { symmetry. apply takeN_app_exact. rewrite !blen_app. lia. }
  cbv zeta. replace (blen ct <? 16) with false by lia. reflexivity.
Qed.

Lemma enc_initial_round c k n p e pk w : crypto_ok c -> blen n = 24 -> blen pk = 32 ->
  enc_initial c k n p e pk = Ok w ->
  exists i, parse_initial w = Some (i, n, pk) /\ dec_initial c k (i, n, pk) = Ok p /\
    blen w = e /\ blen p + 73 <= e.
Proof.
  intros HC Hn Hp H. unfold enc_initial in H. change RESERVED with 73 in H.
  destruct (e <? 73) eqn:E0; [discriminate|]. unfold bindr in H at 1.
  destruct (apply_bit_padding p (e - 73)) as [b| |] eqn:E; try discriminate.
  destruct (pad_len _ _ _ E) as (L1 & L2 & L3).
  rewrite encrypt_ok in H by lia. rewrite takeN_0, dropN_0 in H. cbn [bindr] in H.
  apply (f_equal (fun r => match r with Ok x => x | _ => [] end)) in H. subst w. cbn [app].
  destruct (ok_seal_len c HC k n b) as [K1 K2]. change ENCRYPTION_TAG_SIZE with 16 in K2.
  remember (fst (c_seal c k n b)) as ct eqn:Ect. remember (snd (c_seal c k n b)) as tag eqn:Etag.
  exists (ct ++ tag).
  replace ((ct ++ tag ++ n) ++ pk) with ((ct ++ tag) ++ n ++ pk) by now rewrite <- !app_assoc.
  split; [apply parse_initial_app; auto; rewrite blen_app; lia|].
  split.
  - unfold dec_initial, dec_packet.
    rewrite <- app_assoc. pose proof (decrypt_split c k [] ct tag n Hn K2) as D.
    rewrite blen_nil in D. cbn [app] in D. rewrite D, Ect, Etag, (ok_open c HC). cbn [app bindr].
    rewrite (pad_round _ _ _ E). reflexivity.
  - rewrite !blen_app. lia.
Qed.

Lemma enc_initial_total c k n p e pk : p <> [] -> blen p + 73 <= e ->
  exists w, enc_initial c k n p e pk = Ok w.
Proof.
  intros NE L. unfold enc_initial. change RESERVED with 73.
  replace (e <? 73) with false by lia.
  destruct (pad_total p (e - 73) NE ltac:(lia)) as [b E]. rewrite E. cbn [bindr].
  rewrite encrypt_ok by lia. cbn [bindr]. eauto.
Qed.

(** ** Arbitrary datagrams *)
Lemma rslice_none n to buf : rslice n to buf = None <-> blen buf < n + to.
Proof. unfold rslice. destruct (blen buf <? n + to) eqn:E; split; intros; try discriminate; auto; lia. Qed.
Lemma rslice_some n to buf x : rslice n to buf = Some x ->
  n + to <= blen buf /\ x = takeN n (dropN (blen buf - n - to) buf).
Proof. unfold rslice. destruct (blen buf <? n + to) eqn:E; [discriminate|]. intros [= <-]. split; [lia|reflexivity]. Qed.

(** The four parts of a long enough datagram. *)
Lemma split4 buf from : from + 40 <= blen buf -> exists h ct tag n,
  buf = h ++ ct ++ tag ++ n /\ blen h = from /\ blen tag = 16 /\ blen n = 24.
Proof.
  intros L. exists (takeN from buf), (takeN (blen buf - 40 - from) (dropN from buf)),
    (takeN 16 (dropN (blen buf - 40) buf)), (dropN (blen buf - 24) buf).
  rewrite !blen_takeN, !blen_dropN. repeat split; try lia.
  rewrite <- (takeN_dropN from buf) at 1. f_equal.
  rewrite <- (takeN_dropN (blen buf - 40 - from) (dropN from buf)) at 1. f_equal.
  rewrite dropN_dropN. replace (from + (blen buf - 40 - from)) with (blen buf - 40) by lia.
  rewrite <- (takeN_dropN 16 (dropN (blen buf - 40) buf)) at 1. f_equal.
  rewrite dropN_dropN. f_equal. lia.
Qed.

Lemma decrypt_cases c k buf from :
  match decrypt c k buf from with
  | Panic => 40 <= blen buf < 40 + from
  | Err _ => blen buf < 40 \/ 40 + from <= blen buf
  | Ok m => 40 + from <= blen buf /\
      exists h ct tag n t, buf = h ++ ct ++ tag ++ n /\ blen h = from /\ blen tag = 16 /\
        blen n = 24 /\ c_open c k n ct tag = Some t /\ m = h ++ t
  end.
Proof.
  destruct (N.ltb_spec (blen buf) 40) as [L|L].
  - unfold decrypt. change ENCRYPTION_NONCE_SIZE with 24. change ENCRYPTION_TAG_SIZE with 16.
    destruct (rslice 24 0 buf) eqn:E1; [|left; exact L].
    destruct (rslice 16 24 buf) eqn:E2; [|left; exact L].
    apply rslice_some in E2. lia.
  - destruct (N.ltb_spec (blen buf) (40 + from)) as [L2|L2].
    + unfold decrypt. change ENCRYPTION_NONCE_SIZE with 24. change ENCRYPTION_TAG_SIZE with 16.
      destruct (rslice 24 0 buf) eqn:E1; [|apply rslice_none in E1; lia].
      destruct (rslice 16 24 buf) eqn:E2; [|apply rslice_none in E2; lia].
      cbv zeta. rewrite blen_takeN.
      replace (N.min (blen buf - 24 - 16) (blen buf) <? from) with true by lia. lia.
    + destruct (split4 buf from ltac:(lia)) as (h & ct & tag & n & -> & Hh & Ht & Hn).
      rewrite <- Hh. rewrite decrypt_split by assumption.
      destruct (c_open c k n ct tag) as [t|] eqn:E; [|right; lia].
      split; [lia|]. exists h, ct, tag, n, t. auto 10.
Qed.

Lemma remove_pad_no_panic b : remove_bit_padding b <> Panic.
Proof.
  unfold remove_bit_padding. destruct (rev b); [discriminate|].
  destruct (_ =? 255); [discriminate|]. destruct (_ =? 0); discriminate.
Qed.

Lemma dec_packet_no_panic c k buf : dec_packet c k buf <> Panic.
Proof.
  unfold dec_packet. pose proof (decrypt_cases c k buf 0) as D.
  destruct (decrypt c k buf 0) as [b|e|]; cbn [bindr].
  - pose proof (remove_pad_no_panic b). destruct (remove_bit_padding b); cbn; congruence.
  - discriminate.
  - lia.
Qed.

Lemma dec_packet_ok c k buf m : crypto_ok c -> dec_packet c k buf = Ok m ->
  exists ct tag n b, buf = ct ++ tag ++ n /\ blen n = 24 /\
    c_seal c k n b = (ct, tag) /\ remove_bit_padding b = Ok m.
Proof.
  intros HC. unfold dec_packet. pose proof (decrypt_cases c k buf 0) as D.
  destruct (decrypt c k buf 0) as [b|e|]; cbn [bindr]; [|discriminate|discriminate].
  destruct D as (_ & h & ct & tag & n & t & -> & Hh & Ht & Hn & HO & ->).
  apply blen_0 in Hh. subst h. cbn [app].
  destruct (remove_bit_padding t) eqn:E; cbn [bindr]; try discriminate. intros [= <-].
  exists ct, tag, n, t. rewrite (ok_auth c HC _ _ _ _ _ HO). auto.
Qed.
