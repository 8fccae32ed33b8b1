(** Proofs about the client side file encryption. *)
From Verif Require Import Base BaseProofs PacketModel ReaderModel ReaderSpec BlockLemmas ConfigModel
  CryptoModel CryptoSpec StreamModel StreamSpec.
Ltac Zify.zify_post_hook ::= Z.div_mod_to_equations.

Lemma block_of_cons b rest len k : blen b = len -> 1 <= k ->
  block_of (b ++ rest) len (k + 1) = block_of rest len k.
Proof.
  intros H Hk. unfold block_of. f_equal. rewrite dropN_app.
  rewrite dropN_all by (rewrite H; nia). cbn [app]. f_equal. rewrite H. nia.
Qed.
Lemma map_shift {A} (f g : N -> A) a n : (forall k, a <= k -> f (k + 1) = g k) ->
  map f (seqN (a + 1) n) = map g (seqN a n).
Proof.
  revert a; induction n as [|n IH]; intros a H; cbn [seqN map]; [reflexivity|].
  rewrite H by lia. rewrite IH; [reflexivity|]. intros; apply H; lia.
Qed.
Lemma nblocks_cons b rest len : 0 < len -> blen b = len -> nblocks (b ++ rest) len = nblocks rest len + 1.
Proof.
  intros H0 H. unfold nblocks. rewrite blen_app, H.
  replace (len + blen rest) with (1 * len + blen rest) by lia. rewrite N.div_add_l by lia. lia.
Qed.
Lemma blocks_of_cons b rest len : 0 < len -> blen b = len ->
  blocks_of (b ++ rest) len = b :: blocks_of rest len.
Proof.
  intros H0 H. unfold blocks_of. rewrite nblocks_cons by assumption.
  replace (N.to_nat (nblocks rest len + 1)) with (S (N.to_nat (nblocks rest len))) by lia.
  cbn [seqN map]. f_equal.
  - unfold block_of. replace ((1 - 1) * len) with 0 by lia. rewrite dropN_0. now apply takeN_app_exact.
  - apply map_shift. intros k Hk. now apply block_of_cons.
Qed.
Lemma blocks_of_short b len : blen b < len -> blocks_of b len = [b].
Proof.
  intros H. unfold blocks_of, nblocks. rewrite N.div_small by assumption.
  change (N.to_nat (0 + 1)) with 1%nat. cbn [seqN map]. unfold block_of. replace ((1 - 1) * len) with 0 by lia.
  rewrite dropN_0, takeN_all by lia. reflexivity.
Qed.
Lemma blocks_of_nonempty f len : blocks_of f len <> [].
Proof.
  unfold blocks_of, nblocks. replace (N.to_nat (blen f / len + 1)) with (S (N.to_nat (blen f / len))) by lia.
  discriminate.
Qed.

(** Segments. *)
Section C.
Variable c : crypto.
Hypothesis HC : crypto_ok c.

Lemma seal_len key iv pos last m : blen (seal_segment c key iv pos last m) = blen m + 16.
Proof.
  unfold seal_segment. destruct (ok_seal_len c HC key (segment_nonce iv pos last) m) as [A B].
  destruct (c_seal _ _ _ _). cbn in A, B. rewrite blen_app, A, B. reflexivity.
Qed.
Lemma open_seal key iv pos last m :
  open_segment c key iv pos last (seal_segment c key iv pos last m) = Some m.
Proof.
  unfold open_segment. rewrite seal_len. unfold ENCRYPTION_TAG_SIZE.
  destruct (_ <? 16) eqn:E; [lia|]. clear E.
  replace (blen m + 16 - 16) with (blen m) by lia.
  unfold seal_segment. pose proof (ok_open c HC key (segment_nonce iv pos last) m) as O.
  destruct (ok_seal_len c HC key (segment_nonce iv pos last) m) as [A B].
  destruct (c_seal _ _ _ _) as [ct tag]. cbn [fst snd] in *.
  rewrite takeN_app_exact, dropN_app_exact by (symmetry; assumption). assumption.
Qed.
Lemma open_inv key iv pos last d m : open_segment c key iv pos last d = Some m ->
  d = seal_segment c key iv pos last m.
Proof.
  unfold open_segment. destruct (_ <? _) eqn:E; [discriminate|]. intros H.
  apply (ok_auth c HC) in H. unfold seal_segment. rewrite H. symmetry. apply takeN_dropN.
Qed.
End C.

(** One read after the first. *)
Lemma read_later c file key iv pos p len : 37 <= len <= 1425 ->
  let data := file_read file p (len - 16) in
  sr_read c file (mkSR key iv (Some pos) None p) len false None =
    if (blen data =? len - 16) then
      if pos =? COUNTER_MAX then (mkSR key iv (Some pos) None (p + blen data), Err IoInvalid)
      else if blen (seal_segment c key iv pos false data) <=? len
      then (mkSR key iv (Some (pos + 1)) None (p + blen data), Ok (seal_segment c key iv pos false data))
      else (mkSR key iv (Some (pos + 1)) None (p + blen data), Err IoInvalid)
    else if blen (seal_segment c key iv pos true data) <=? len
      then (mkSR key iv None None (p + blen data), Ok (seal_segment c key iv pos true data))
      else (mkSR key iv None None (p + blen data), Err IoInvalid).
Proof.
  intros HL data. unfold sr_read, MIN_STREAM_CAPACITY, MAX_DATA_BLOCK_SIZE, STREAM_BLOCK_SIZE,
    STREAM_NONCE_SIZE, ENCRYPTION_TAG_SIZE.
  destruct (_ && _) eqn:E; [|lia]. clear E. cbn [sr_nonce sr_pos sr_key sr_iv sr_enc].
  change (blen []) with 0. rewrite N.sub_0_r. fold data.
  unfold stream_encrypt. rewrite (N.eqb_sym (len - 16)). destruct (blen data =? len - 16) eqn:E.
  - destruct (pos =? COUNTER_MAX); [reflexivity|]. rewrite N.add_0_l. reflexivity.
  - rewrite N.add_0_l. reflexivity.
Qed.

(** The header in front of the first block. *)
Definition hdr (len : N) (nonce : bytes) : bytes := be16 len ++ nonce.
Lemma read_first c file key nonce len : crypto_ok c -> blen nonce = 19 -> 37 <= len <= 1425 ->
  let data := takeN (len - 37) file in
  sr_read c file (sr_new key nonce) len false None =
    if (blen data =? len - 37) then
      (mkSR key nonce (Some 1) None (blen data), Ok (hdr len nonce ++ seal_segment c key nonce 0 false data))
    else (mkSR key nonce None None (blen data), Ok (hdr len nonce ++ seal_segment c key nonce 0 true data)).
Proof.
  intros HC Hn HL data. unfold sr_read, sr_new, MIN_STREAM_CAPACITY, MAX_DATA_BLOCK_SIZE, STREAM_BLOCK_SIZE,
    STREAM_NONCE_SIZE, ENCRYPTION_TAG_SIZE.
  destruct (_ && _) eqn:E; [|lia]. clear E. cbn [sr_nonce sr_pos sr_key sr_iv sr_enc]. cbv zeta.
  fold (hdr len nonce).
  assert (HH : blen (hdr len nonce) = 21) by (unfold hdr; rewrite blen_app, Hn; reflexivity).
  rewrite HH. replace (len - 16 - 21) with (len - 37) by lia.
  unfold file_read. rewrite dropN_0. fold data.
  assert (blen data <= len - 37) by (unfold data; rewrite blen_takeN; lia).
  unfold stream_encrypt. rewrite (N.eqb_sym (len - 37)). rewrite N.add_0_l. destruct (blen data =? len - 37) eqn:E.
  - destruct (0 =? COUNTER_MAX) eqn:X; [discriminate|]. rewrite seal_len by assumption.
    destruct (_ <=? len) eqn:Y; [reflexivity|lia].
  - rewrite seal_len by assumption. destruct (_ <=? len) eqn:Y; [reflexivity|lia].
Qed.

(** A writer that has taken the first block and is about to take segment [pos]. *)
Lemma write_later c key iv pos out len d (HL : 37 <= len <= 1425) :
  sw_write c (mkSW None (Some (key, iv, Some pos)) (Some len) out) d false None =
    let st x o := mkSW None (Some (key, iv, x)) (Some len) o in
    if len <? blen d then (st (Some pos) out, Err IoInvalid)
    else if len =? blen d then
      if pos =? COUNTER_MAX then (st (Some pos) out, Err IoInvalid)
      else match open_segment c key iv pos false d with
           | Some m => (st (Some (pos + 1)) (out ++ m), Ok (blen m + 16))
           | None => (st (Some pos) out, Err IoInvalid)
           end
    else match open_segment c key iv pos true d with
         | Some m => (st None (out ++ m), Ok (blen m + 16))
         | None => (st None out, Err IoInvalid)
         end.
Proof.
  unfold sw_write, sw_header. cbn [sw_key sw_bs sw_dec sw_out]. rewrite dropN_0, N.sub_0_r. cbv zeta.
  destruct (len <? blen d); [reflexivity|]. unfold stream_decrypt.
  destruct (len =? blen d).
  - destruct (pos =? COUNTER_MAX); [reflexivity|]. destruct (open_segment _ _ _ _ _ _) as [m|]; [|reflexivity].
    rewrite N.add_0_r. reflexivity.
  - destruct (open_segment _ _ _ _ _ _) as [m|]; [|reflexivity]. rewrite N.add_0_r. reflexivity.
Qed.
Lemma slice2 a b t : slice_to_array 2 0 (a :: b :: t) = Some [a; b].
Proof.
  unfold slice_to_array. destruct (_ <=? _) eqn:E; [|rewrite !blen_cons in E; lia]. reflexivity.
Qed.
Lemma slice19 a b nonce t : blen nonce = 19 -> slice_to_array 19 2 (a :: b :: nonce ++ t) = Some nonce.
Proof.
  intros H. unfold slice_to_array. destruct (_ <=? _) eqn:E; [|rewrite !blen_cons, blen_app in E; lia].
  f_equal. change (dropN 2 (a :: b :: nonce ++ t)) with (nonce ++ t). now apply takeN_app_exact.
Qed.
Lemma drop_hdr len nonce d : blen nonce = 19 -> dropN 21 (hdr len nonce ++ d) = d.
Proof. intros H. apply dropN_app_exact. unfold hdr. rewrite blen_app, H. reflexivity. Qed.
Lemma header_ok key nonce len d : blen nonce = 19 -> 37 <= len <= 1425 ->
  sw_header (sw_new key) (hdr len nonce ++ d) =
  Ok (mkSW (Some key) (Some (key, nonce, Some 0)) (Some len) [], 21).
Proof.
  intros Hn HL. unfold sw_header, sw_new, hdr. cbn [sw_key sw_out].
  unfold be16. cbn [app]. unfold STREAM_BLOCK_SIZE, STREAM_NONCE_SIZE. rewrite slice2.
  cbn [nth]. rewrite un16_be16. rewrite slice19 by assumption.
  unfold MIN_STREAM_CAPACITY, STREAM_BLOCK_SIZE, STREAM_NONCE_SIZE, ENCRYPTION_TAG_SIZE, MAX_DATA_BLOCK_SIZE.
  destruct (_ && _) eqn:E; [reflexivity|lia].
Qed.
Lemma write_first c key nonce len d : blen nonce = 19 -> 37 <= len <= 1425 ->
  sw_write c (sw_new key) (hdr len nonce ++ d) false None =
    let st k x o := mkSW k (Some (key, nonce, x)) (Some len) o in
    if len <? blen d then (st (Some key) (Some 0) [], Err IoInvalid)
    else if len - 21 =? blen d then
      match open_segment c key nonce 0 false d with
      | Some m => (st None (Some 1) m, Ok (blen m + 37))
      | None => (st (Some key) (Some 0) [], Err IoInvalid)
      end
    else match open_segment c key nonce 0 true d with
         | Some m => (st None None m, Ok (blen m + 37))
         | None => (st (Some key) None [], Err IoInvalid)
         end.
Proof.
  intros Hn HL. unfold sw_write. rewrite header_ok by assumption. cbn [sw_bs sw_dec sw_key sw_out].
  rewrite drop_hdr by assumption. cbv zeta. destruct (len <? blen d); [reflexivity|].
  unfold stream_decrypt. destruct (len - 21 =? blen d).
  - destruct (0 =? COUNTER_MAX) eqn:X; [discriminate|].
    destruct (open_segment _ _ _ _ _ _) as [m|]; [|reflexivity].
    cbn [app]. unfold ENCRYPTION_TAG_SIZE. do 2 f_equal. lia.
  - destruct (open_segment _ _ _ _ _ _) as [m|]; [|reflexivity].
    cbn [app]. unfold ENCRYPTION_TAG_SIZE. do 2 f_equal. lia.
Qed.
