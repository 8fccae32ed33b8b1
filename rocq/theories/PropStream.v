(** C34: client side file encryption. *)
From Verif Require Import Base BaseProofs PacketModel ReaderModel ReaderSpec BlockLemmas ConfigModel
  CryptoModel CryptoSpec CryptoProofs ConnModel ClientModel SystemModel PropTransfer StreamModel StreamSpec StreamProofs.
Ltac Zify.zify_post_hook ::= Z.div_mod_to_equations.

(** From a reader behind its first block: it delivers the rest of the file as segments, and a
    writer in the same position turns them back into the rest of the file. *)
Lemma later_blocks c file key iv len out : crypto_ok c -> 37 <= len <= 1425 ->
  forall m pos p, N.to_nat (blen file - p) = m -> p <= blen file ->
  pos + (blen file - p) / (len - 16) <= COUNTER_MAX ->
  exists stored, reads c file len (mkSR key iv (Some pos) None p) (blocks_of stored len) /\
    (exists w, writes c (mkSW None (Some (key, iv, Some pos)) (Some len) (out ++ takeN p file)) (blocks_of stored len) w /\
       sw_out w = out ++ file) /\
    blen stored = (blen file - p) + 16 * nblocks stored len /\
    nblocks stored len = (blen file - p) / (len - 16) + 1.
Proof.
  intros HC HL m. induction m as [m IH] using (well_founded_induction Wf_nat.lt_wf). intros pos p Hm Hp HM.
  set (data := file_read file p (len - 16)).
  assert (HD : blen data = N.min (len - 16) (blen file - p)) by (unfold data, file_read; rewrite blen_takeN, blen_dropN; reflexivity).
  assert (GO : takeN p file ++ data = takeN (p + blen data) file).
  { unfold data, file_read. rewrite <- (takeN_dropN p file) at 4. rewrite takeN_app, blen_takeN.
    replace (N.min p (blen file)) with p by lia. rewrite (takeN_all (p + _)) by (rewrite blen_takeN; lia).
    f_equal. replace (p + blen (takeN (len - 16) (dropN p file)) - p) with (blen (takeN (len - 16) (dropN p file))) by lia.
    rewrite blen_takeN, blen_dropN. destruct (N.leb_spec (len - 16) (blen file - p)).
    - f_equal. lia.
    - rewrite !takeN_all by (rewrite blen_dropN; lia). reflexivity. }
  pose proof (read_later c file key iv pos p len HL) as RL. cbv zeta in RL. fold data in RL.
  rewrite !seal_len in RL by assumption.
  destruct (blen data =? len - 16) eqn:E.
  - assert (1 <= (blen file - p) / (len - 16)) by nia.
    destruct (pos =? COUNTER_MAX) eqn:X; [lia|]. destruct (_ <=? len) eqn:Y in RL; [|lia].
    set (b := seal_segment c key iv pos false data) in *.
    assert (LB : blen b = len) by (unfold b; rewrite seal_len by assumption; lia).
    assert (DV : (blen file - p) / (len - 16) = (blen file - (p + blen data)) / (len - 16) + 1).
    { replace (blen file - p) with (1 * (len - 16) + (blen file - (p + blen data))) by lia.
      rewrite N.div_add_l by lia. lia. }
    destruct (IH (N.to_nat (blen file - (p + blen data))) ltac:(lia) (pos + 1) (p + blen data) eq_refl ltac:(lia) ltac:(lia))
      as (rest & R & (w & W & O) & S & NB).
    exists (b ++ rest). rewrite blocks_of_cons by lia. repeat split.
    + eapply reads_more; eassumption.
    + exists w. split; [|assumption]. econstructor; [|eassumption].
      rewrite write_later by assumption. cbv zeta. rewrite LB.
      destruct (len <? len) eqn:Z1; [lia|]. destruct (len =? len) eqn:Z2; [|lia]. rewrite X.
      unfold b. rewrite open_seal by assumption. rewrite <- app_assoc, GO. do 3 f_equal. lia.
    + rewrite blen_app, nblocks_cons, S by lia. lia.
    + rewrite nblocks_cons, NB, DV by lia. lia.
  - destruct (_ <=? len) eqn:Y in RL; [|lia].
    set (b := seal_segment c key iv pos true data) in *.
    assert (LB : blen b = blen data + 16) by (unfold b; now rewrite seal_len by assumption).
    assert (ND : (blen file - p) / (len - 16) = 0) by (apply N.div_small; lia).
    exists b. rewrite blocks_of_short by lia.
    assert (NB : nblocks b len = 1) by (unfold nblocks; rewrite N.div_small by lia; reflexivity).
    repeat split.
    + eapply reads_last; [eassumption|lia].
    + eexists. split; [econstructor; [|constructor]|].
      * rewrite write_later by assumption. cbv zeta. rewrite LB.
        destruct (len <? _) eqn:Z1; [lia|]. destruct (len =? _) eqn:Z2; [lia|].
        unfold b. rewrite open_seal by assumption. rewrite <- app_assoc, GO. reflexivity.
      * cbn [sw_out]. rewrite takeN_all by lia. reflexivity.
    + rewrite NB, LB. lia.
    + rewrite NB, ND. reflexivity.
Qed.

(** C34.  Reading a file through the encrypting reader is like reading some other file [stored],
    block by block, and writing the blocks of [stored] through the decrypting writer restores the
    file.  [stored] is what the transport carries and the server keeps: 21 bytes of header, and a
    16-byte tag for each block.  The only limit is that of the segment counter. *)
Theorem file_encryption_transparent : forall c key nonce file len, crypto_ok c ->
  blen nonce = 19 -> 37 <= len <= 1425 -> (blen file + 21) / (len - 16) <= 4294967295 ->
  exists stored, reads c file len (sr_new key nonce) (blocks_of stored len) /\
    (exists w, writes c (sw_new key) (blocks_of stored len) w /\ sw_out w = file) /\
    blen stored = 21 + blen file + 16 * nblocks stored len /\
    nblocks stored len = (blen file + 21) / (len - 16) + 1.
Proof.
  intros c key nonce file len HC Hn HL HM.
  pose proof (read_first c file key nonce len HC Hn HL) as RF. cbv zeta in RF.
  set (data := takeN (len - 37) file) in *.
  assert (HD : blen data = N.min (len - 37) (blen file)) by (unfold data; now rewrite blen_takeN).
  assert (HH : blen (hdr len nonce) = 21) by (unfold hdr; rewrite blen_app, Hn; reflexivity).
  destruct (blen data =? len - 37) eqn:E.
  - set (b := seal_segment c key nonce 0 false data) in *.
    assert (LB : blen b = len - 21) by (unfold b; rewrite seal_len by assumption; lia).
    assert (DV : (blen file + 21) / (len - 16) = (blen file - blen data) / (len - 16) + 1).
    { replace (blen file + 21) with (1 * (len - 16) + (blen file - blen data)) by lia.
      rewrite N.div_add_l by lia. lia. }
    destruct (later_blocks c file key nonce len [] HC HL _ 1 (blen data) eq_refl ltac:(lia) ltac:(unfold COUNTER_MAX; lia))
      as (rest & R & (w & W & O) & S & NB).
    exists ((hdr len nonce ++ b) ++ rest). assert (LH : blen (hdr len nonce ++ b) = len) by (rewrite blen_app; lia).
    rewrite blocks_of_cons by lia. repeat split.
    + eapply reads_more; eassumption.
    + exists w. split; [|exact O]. econstructor; [|exact W].
      rewrite write_first by assumption. cbv zeta. rewrite LH, LB.
      destruct (len <? _) eqn:Z1; [lia|]. rewrite N.eqb_refl.
      unfold b. rewrite open_seal by assumption. cbn [app].
      assert (TD : takeN (blen data) file = data) by (rewrite HD; unfold data; f_equal; lia).
      rewrite TD. replace (blen data + 37) with len by lia. reflexivity.
    + rewrite blen_app, nblocks_cons, S by lia. lia.
    + rewrite nblocks_cons, NB, DV by lia. lia.
  - set (b := seal_segment c key nonce 0 true data) in *.
    assert (LB : blen b = blen data + 16) by (unfold b; now rewrite seal_len by assumption).
    assert (FD : data = file) by (unfold data; apply takeN_all; lia).
    assert (LH : blen (hdr len nonce ++ b) = blen data + 37) by (rewrite blen_app; lia).
    exists (hdr len nonce ++ b). rewrite blocks_of_short by lia.
    assert (NB : nblocks (hdr len nonce ++ b) len = 1) by (unfold nblocks; rewrite N.div_small by lia; reflexivity).
    repeat split.
    + eapply reads_last; [eassumption|lia].
    + eexists. split; [econstructor; [|constructor]|].
      * rewrite write_first by assumption. cbv zeta. rewrite LH, LB.
        destruct (len <? _) eqn:Z1; [lia|]. destruct (len - 21 =? blen data + 16) eqn:Z2; [lia|].
        unfold b. rewrite open_seal by assumption. reflexivity.
      * exact FD.
    + rewrite NB, LH, FD. lia.
    + rewrite NB. replace (blen file) with (blen data) by now rewrite FD. rewrite N.div_small by lia. reflexivity.
Qed.

(** What a transport with blocks of [len] bytes hands over: full blocks, then a shorter one. *)
Definition complete (len : N) (l : list bytes) : Prop :=
  exists front last, l = front ++ [last] /\ Forall (fun b => blen b = len) front /\ blen last < len.
Lemma blocks_complete f len : 0 < len -> complete len (blocks_of f len).
Proof.
  intros H0. remember (N.to_nat (blen f)) as m eqn:Hm. revert f Hm.
  induction m as [m IH] using (well_founded_induction Wf_nat.lt_wf). intros f Hm.
  destruct (N.ltb_spec (blen f) len) as [E|E].
  - rewrite blocks_of_short by assumption. exists [], f. auto.
  - rewrite <- (takeN_dropN len f). assert (L : blen (takeN len f) = len) by (rewrite blen_takeN; lia).
    rewrite blocks_of_cons by assumption.
    destruct (IH (N.to_nat (blen (dropN len f)))) with (f := dropN len f) as (fr & la & -> & F & S);
      [rewrite blen_dropN; lia|reflexivity|].
    exists (takeN len f :: fr), la. auto.
Qed.

Lemma file_read_app pre m n : blen m <= n -> file_read (pre ++ m) (blen pre) n = m.
Proof. intros H. unfold file_read. rewrite dropN_app_exact by reflexivity. now apply takeN_all. Qed.
Lemma file_read_app3 pre m r n : blen m = n -> file_read (pre ++ m ++ r) (blen pre) n = m.
Proof. intros H. unfold file_read. rewrite dropN_app_exact by reflexivity. now apply takeN_app_exact. Qed.

Lemma later_accepted c key iv len : crypto_ok c -> 37 <= len <= 1425 ->
  forall front last pos out w, Forall (fun b => blen b = len) front -> blen last < len ->
  writes c (mkSW None (Some (key, iv, Some pos)) (Some len) out) (front ++ [last]) w ->
  exists rest, sw_out w = out ++ rest /\
    forall pre, reads c (pre ++ rest) len (mkSR key iv (Some pos) None (blen pre)) (front ++ [last]).
Proof.
  intros HC HL front. induction front as [|b front IH]; intros last pos out w HF HS HW; cbn [app] in *.
  - inversion HW as [|? s' ? ? ? W1 W2]; subst. inversion W2; subst. rewrite write_later in W1 by assumption.
    cbv zeta in W1. destruct (len <? blen last) eqn:E1; [discriminate|]. destruct (len =? blen last) eqn:E2; [lia|].
    destruct (open_segment _ _ _ _ _ _) as [m|] eqn:O; [|discriminate]. injection W1 as <- LM.
    apply open_inv in O; [|assumption]. exists m. split; [reflexivity|]. intros pre.
    apply reads_last with (s' := mkSR key iv None None (blen pre + blen m)); [|assumption].
    pose proof (read_later c (pre ++ m) key iv pos (blen pre) len HL) as RL. cbv zeta in RL.
    rewrite file_read_app in RL by lia. rewrite RL; clear RL; rewrite !seal_len by assumption.
    destruct (blen m =? len - 16) eqn:E3; [lia|]. destruct (_ <=? len) eqn:E4; [|lia]. now rewrite <- O.
  - inversion HF as [|? ? HB HF']; subst. inversion HW as [|? s' ? ? ? W1 W2]; subst.
    rewrite write_later in W1 by assumption. cbv zeta in W1.
    destruct (blen b <? blen b) eqn:E1; [discriminate|]. rewrite N.eqb_refl in W1.
    destruct (pos =? COUNTER_MAX) eqn:E2; [discriminate|].
    destruct (open_segment _ _ _ _ _ _) as [m|] eqn:O; [|discriminate]. injection W1 as <- LM.
    apply open_inv in O; [|assumption].
    destruct (IH last (pos + 1) (out ++ m) w HF' HS W2) as (rest & OW & R).
    exists (m ++ rest). split; [now rewrite app_assoc|]. intros pre.
    apply reads_more with (s' := mkSR key iv (Some (pos + 1)) None (blen pre + blen m)); [|reflexivity|].
    + pose proof (read_later c (pre ++ m ++ rest) key iv pos (blen pre) (blen b) HL) as RL. cbv zeta in RL.
      rewrite file_read_app3 in RL by lia. rewrite RL; clear RL; rewrite !seal_len by assumption.
      destruct (blen m =? blen b - 16) eqn:E3; [|lia]. rewrite E2. destruct (_ <=? blen b) eqn:E4; [|lia].
      now rewrite <- O.
    + specialize (R (pre ++ m)). rewrite blen_app, <- app_assoc in R. exact R.
Qed.

(** Only what the encrypting reader produces is accepted: if a transport whose block size is the
    one named in the header hands over a whole stream and the writer takes all of it, then this
    stream is what reading the resulting file with the same key, and the nonce in the header,
    gives.  So nothing in it can have been changed, left out, reordered or added. *)
Theorem accepted_stream_is_encryption : forall c key len b l w, crypto_ok c -> wf_bytes b ->
  writes c (sw_new key) (b :: l) w -> complete len (b :: l) -> takeN 2 b = be16 len ->
  reads c (sw_out w) len (sr_new key (takeN 19 (dropN 2 b))) (b :: l) /\ 37 <= len <= 1425.
Proof.
  intros c key len b l w HC WB HW (front & last & EL & HF & HS) HB.
  inversion HW as [|? s' ? ? ? W1 W2]; subst.
  assert (HDR : exists nonce d, b = hdr len nonce ++ d /\ blen nonce = 19 /\ 37 <= len <= 1425).
  { unfold sw_write, sw_header, sw_new in W1. cbn [sw_key sw_out] in W1.
    unfold slice_to_array, STREAM_BLOCK_SIZE, STREAM_NONCE_SIZE in W1.
    destruct (0 + 2 <=? blen b) eqn:X1; [|discriminate]. rewrite dropN_0, HB in W1. cbn [nth be16] in W1.
    rewrite un16_be16 in W1.
    unfold MIN_STREAM_CAPACITY, STREAM_BLOCK_SIZE, STREAM_NONCE_SIZE, ENCRYPTION_TAG_SIZE, MAX_DATA_BLOCK_SIZE in W1.
    destruct (_ && _) eqn:X2 in W1; [|discriminate]. destruct (2 + 19 <=? blen b) eqn:X3; [|discriminate].
    exists (takeN 19 (dropN 2 b)), (dropN 19 (dropN 2 b)). unfold hdr. rewrite <- HB.
    rewrite <- app_assoc, !takeN_dropN. rewrite blen_takeN, blen_dropN. repeat split; lia. }
  destruct HDR as (nonce & d & -> & Hn & HL). split; [|assumption].
  replace (takeN 19 (dropN 2 (hdr len nonce ++ d))) with nonce; cycle 1.
  { unfold hdr. rewrite <- app_assoc. rewrite dropN_app_exact by reflexivity. now rewrite takeN_app_exact. }
  assert (HH : blen (hdr len nonce) = 21) by (unfold hdr; rewrite blen_app, Hn; reflexivity).
  rewrite write_first in W1 by assumption. cbv zeta in W1. rewrite blen_app, HH in W1.
  destruct (len <? blen d) eqn:Y1; [discriminate|].
  remember (hdr len nonce ++ d) as b0 eqn:EB.
  destruct front as [|f front]; [rewrite app_nil_l in EL|rewrite <- app_comm_cons in EL]; injection EL as <- ->; subst b0.
  - rewrite blen_app in HS. destruct (len - 21 =? blen d) eqn:Y2; [lia|].
    destruct (open_segment _ _ _ _ _ _) as [m|] eqn:O; [|discriminate]. assert (LM : blen m + 37 = 21 + blen d) by congruence. apply (f_equal fst) in W1; cbn [fst] in W1; subst s'.
    inversion W2; subst. cbn [sw_out]. apply open_inv in O; [|assumption].
    pose proof (read_first c m key nonce len HC Hn HL) as RF. cbv zeta in RF.
    rewrite takeN_all in RF by lia. destruct (blen m =? len - 37) eqn:Y3; [lia|].
    rewrite O. eapply reads_last; [exact RF|]. rewrite <- O, blen_app. lia.
  - pose proof (Forall_inv HF) as HB1. pose proof (Forall_inv_tail HF) as HF'. cbv beta in HB1. rewrite blen_app in HB1.
    destruct (len - 21 =? blen d) eqn:Y2; [|lia].
    destruct (open_segment _ _ _ _ _ _) as [m|] eqn:O; [|discriminate]. assert (LM : blen m + 37 = 21 + blen d) by congruence. apply (f_equal fst) in W1; cbn [fst] in W1; subst s'.
    apply open_inv in O; [|assumption].
    destruct (later_accepted c key nonce len HC HL front last 1 m w HF' HS W2) as (rest & OW & R). rewrite OW.
    eapply reads_more.
    + pose proof (read_first c (m ++ rest) key nonce len HC Hn HL) as RF. cbv zeta in RF.
      rewrite takeN_app_exact in RF by lia. destruct (blen m =? len - 37) eqn:Y3; [|lia].
      rewrite <- O in RF. exact RF.
    + rewrite blen_app. lia.
    + exact (R m).
Qed.

(** A stream cut at the end of a block is noticed: the transport then hands over an empty last
    block, which is refused. *)
Lemma write_keeps_key c s b s' n : sw_write c s b false None = (s', Ok n) -> sw_key s' = None.
Proof.
  unfold sw_write. destruct (sw_header s b) as [[s1 from]| |]; try discriminate.
  destruct (sw_bs s1); [|discriminate]. destruct (sw_dec s1) as [[[k iv] d]|]; [|discriminate].
  destruct (_ <? _); [discriminate|]. destruct (stream_decrypt _ _ _ _ _ _) as [dd [m| |]]; try discriminate.
  intros H. injection H as <- _. reflexivity.
Qed.
Lemma empty_refused c s w : sw_write c s [] false None <> (w, Ok (blen [])).
Proof.
  unfold sw_write, sw_header. destruct (sw_key s).
  - discriminate.
  - destruct (sw_bs s); [|discriminate]. destruct (sw_dec s) as [[[k iv] d]|]; [|discriminate].
    destruct (_ <? _); [discriminate|]. destruct (stream_decrypt _ _ _ _ _ _) as [dd [m| |]]; try discriminate.
    cbv zeta. intros H. injection H as _ H. unfold ENCRYPTION_TAG_SIZE in H. cbn in H. lia.
Qed.
Theorem cut_at_block_refused : forall c key cut len, 0 < len -> blen cut mod len = 0 ->
  ~ exists w, writes c (sw_new key) (blocks_of cut len) w.
Proof.
  intros c key cut len H0 HM [w HW].
  assert (exists l, blocks_of cut len = l ++ [[]]) as [l E].
  { destruct (blocks_complete cut len H0) as (fr & la & E & F & S). exists fr. rewrite E. do 2 f_equal.
    apply blen_0. assert (blen cut = N.of_nat (length fr) * len + blen la) as EL.
    { clear HW HM. revert cut E F. induction fr as [|f fr IH]; intros cut E F.
      - destruct (N.ltb_spec (blen cut) len) as [X|X].
        + rewrite blocks_of_short in E by assumption. injection E as <-. cbn. lia.
        + rewrite <- (takeN_dropN len cut) in E. rewrite blocks_of_cons in E by (rewrite ?blen_takeN; lia).
          injection E as _ E. destruct (blocks_of_nonempty _ _ E).
      - inversion F as [|? ? F1 F2]; subst. destruct (N.ltb_spec (blen cut) (blen f)) as [X|X].
        + rewrite blocks_of_short in E by assumption. injection E as _ E. destruct fr; discriminate.
        + rewrite <- (takeN_dropN (blen f) cut) in E. rewrite blocks_of_cons in E by (rewrite ?blen_takeN; lia).
          injection E as _ E. specialize (IH _ E F2). rewrite blen_dropN in IH. cbn [length]. lia. }
    rewrite EL, N.add_comm, N.mod_add, N.mod_small in HM by lia. assumption. }
  rewrite E in HW. clear -HW. revert HW. generalize (sw_new key). induction l as [|b l IH]; intros s HW; cbn [app] in HW.
  - inversion HW as [|? s' ? ? ? W1 W2]; subst. now apply empty_refused in W1.
  - inversion HW as [|? s' ? ? ? W1 W2]; subst. exact (IH _ W2).
Qed.

(** But a transport with larger blocks than the stream was made for does not notice that only
    the first block is left: it is short for the transport, and the writer takes it as a block
    that others follow. *)
Theorem cut_undetected_by_larger_blocks : forall c key nonce file len larger, crypto_ok c ->
  blen nonce = 19 -> 37 <= len < larger -> len <= 1425 -> len - 37 < blen file ->
  exists s' b w, sr_read c file (sr_new key nonce) len false None = (s', Ok b) /\
    blocks_of b larger = [b] /\ writes c (sw_new key) [b] w /\
    sw_out w = takeN (len - 37) file /\ sw_out w <> file.
Proof.
  intros c key nonce file len larger HC Hn HL HL2 HF.
  pose proof (read_first c file key nonce len HC Hn ltac:(lia)) as RF. cbv zeta in RF.
  set (data := takeN (len - 37) file) in *.
  assert (HD : blen data = len - 37) by (unfold data; rewrite blen_takeN; lia).
  assert (HH : blen (hdr len nonce) = 21) by (unfold hdr; rewrite blen_app, Hn; reflexivity).
  rewrite HD, N.eqb_refl in RF. do 2 eexists. eexists (mkSW None (Some (key, nonce, Some 1)) (Some len) data).
  split; [exact RF|]. split; [|split; [|split]].
  - apply blocks_of_short. rewrite blen_app, seal_len by assumption. lia.
  - econstructor; [|constructor]. rewrite write_first by (auto; lia). cbv zeta. rewrite blen_app, !seal_len by assumption.
    destruct (len <? blen data + 16) eqn:Y1; [lia|]. destruct (len - 21 =? blen data + 16) eqn:Y2; [|lia].
    rewrite open_seal by assumption. do 2 f_equal. lia.
  - reflexivity.
  - cbn [sw_out]. intros E. rewrite E in HD. lia.
Qed.

Lemma nth_error_ext_len {A} (a b : list A) : length a = length b -> (forall k m, nth_error a k = Some m -> nth_error b k = Some m) -> a = b.
Proof.
  revert b. induction a as [|x a IH]; intros [|y b] L H; try discriminate; [reflexivity|].
  f_equal; [|apply IH; [now injection L|intros k m E; exact (H (S k) m E)]].
  specialize (H 0%nat x eq_refl). cbn in H. congruence.
Qed.

(** ** The stored format, and what an attacker would have to do *)
Lemma nonce_same iv pos last : pos <= COUNTER_MAX -> segment_nonce iv pos last = stream_nonce iv pos last.
Proof.
  intros H. unfold COUNTER_MAX in H. unfold segment_nonce, stream_nonce, be32. change (2 ^ 24) with 16777216. change (2 ^ 16) with 65536. change (2 ^ 8) with 256.
  rewrite (N.mod_small (pos / 16777216) 256) by (apply N.div_lt_upper_bound; lia). reflexivity.
Qed.
Lemma seal_same c key iv pos last m : pos <= COUNTER_MAX -> seal_segment c key iv pos last m = sealed c key (stream_nonce iv pos last, m).
Proof. intros H. unfold seal_segment, sealed. cbn [fst snd]. now rewrite nonce_same. Qed.
Lemma segments_cons iv i m ms : ms <> [] -> segments iv i (m :: ms) = (stream_nonce iv i false, m) :: segments iv (i + 1) ms.
Proof. destruct ms; [contradiction|reflexivity]. Qed.
Lemma sr_read_io c file s len s' : sr_read c file s len true None = (s', Err IoFile) -> s' = s.
Proof. unfold sr_read. destruct (_ && _); [|discriminate]. cbv zeta. now intros [= <-]. Qed.

Lemma later_format c file len key iv s l : crypto_ok c -> 37 <= len <= 1425 -> reads c file len s l ->
  forall pos p, s = mkSR key iv (Some pos) None p -> p <= blen file -> pos <= COUNTER_MAX ->
  exists ms, concat l = concat (map (sealed c key) (segments iv pos ms)) /\ concat ms = dropN p file /\ ms <> [] /\
    pos + N.of_nat (length ms) <= 2 ^ 32.
Proof.
  intros HC HL. induction 1 as [s s' l E H IH|s s' b l E LB H IH|s s' b E LB]; intros pos p -> HP HM.
  - apply sr_read_io in E. subst s'. now apply IH.
  - rewrite read_later in E by assumption. cbv zeta in E. set (data := file_read file p (len - 16)) in *.
    assert (HD : blen data = N.min (len - 16) (blen file - p)) by (unfold data, file_read; rewrite blen_takeN, blen_dropN; reflexivity).
    rewrite !seal_len in E by assumption.
    destruct (blen data =? len - 16) eqn:X.
    + destruct (pos =? COUNTER_MAX) eqn:Y; [discriminate|]. destruct (_ <=? len) in E; [|discriminate]. injection E as <- <-.
      destruct (IH (pos + 1) (p + blen data) eq_refl ltac:(lia) ltac:(lia)) as (ms & C & T & NE & CT).
      exists (data :: ms). rewrite segments_cons by assumption. cbn [concat map length].
      rewrite C, T, seal_same by assumption. do 2 (split; [auto|]).
      * unfold data, file_read in *. rewrite <- dropN_dropN.
        replace (blen (takeN (len - 16) (dropN p file))) with (len - 16) by lia. apply takeN_dropN.
      * split; [discriminate|]. lia.
    + destruct (_ <=? len) in E; [|discriminate]. injection E as <- <-. rewrite seal_len in LB by assumption. lia.
  - rewrite read_later in E by assumption. cbv zeta in E. set (data := file_read file p (len - 16)) in *.
    assert (HD : blen data = N.min (len - 16) (blen file - p)) by (unfold data, file_read; rewrite blen_takeN, blen_dropN; reflexivity).
    rewrite !seal_len in E by assumption.
    destruct (blen data =? len - 16) eqn:X.
    + destruct (pos =? COUNTER_MAX) eqn:Y; [discriminate|]. destruct (_ <=? len) in E; [|discriminate]. injection E as <- <-.
      rewrite seal_len in LB by assumption. lia.
    + destruct (_ <=? len) in E; [|discriminate]. injection E as <- <-.
      exists [data]. cbn [segments concat map length]. rewrite seal_same, !app_nil_r by assumption.
      split; [reflexivity|]. split; [|split; [discriminate|unfold COUNTER_MAX in HM; change (2 ^ 32) with 4294967296; lia]].
      unfold data, file_read. apply takeN_all. rewrite blen_dropN. lia.
Qed.

(** The stored file is the block size, the nonce prefix, and the STREAM-BE32 encryption of the file
    cut into segments: the first of [len - 37] bytes, the others of [len - 16], the last shorter. *)
Theorem stored_format : forall c key nonce file len l, crypto_ok c -> blen nonce = 19 -> 37 <= len <= 1425 ->
  reads c file len (sr_new key nonce) l ->
  exists texts, concat l = be16 len ++ nonce ++ concat (map (sealed c key) (segments nonce 0 texts)) /\
    concat texts = file /\ texts <> [] /\ N.of_nat (length texts) <= 2 ^ 32.
Proof.
  intros c key nonce file len l HC Hn HL H. remember (sr_new key nonce) as s eqn:ES. revert ES.
  induction H as [s s' l E H IH|s s' b l E LB H IH|s s' b E LB]; intros ->.
  - apply sr_read_io in E. now apply IH.
  - rewrite read_first in E by assumption. cbv zeta in E. set (data := takeN (len - 37) file) in *.
    assert (HD : blen data = N.min (len - 37) (blen file)) by (unfold data; now rewrite blen_takeN).
    assert (HH : blen (hdr len nonce) = 21) by (unfold hdr; rewrite blen_app, Hn; reflexivity).
    remember (hdr len nonce) as h eqn:EH.
    destruct (blen data =? len - 37) eqn:X; injection E as <- <-.
    + destruct (later_format _ _ _ _ _ _ _ HC HL H 1 (blen data) eq_refl ltac:(lia) ltac:(unfold COUNTER_MAX; lia)) as (ms & C & T & NE & CT).
      exists (data :: ms). rewrite segments_cons by assumption. cbn [concat map length]. rewrite C, T, seal_same by (unfold COUNTER_MAX; lia).
      rewrite EH. unfold hdr. rewrite <- !app_assoc. split; [reflexivity|]. split.
      * replace (blen data) with (len - 37) by lia. apply takeN_dropN.
      * split; [discriminate|]. lia.
    + rewrite blen_app, HH, seal_len in LB by assumption. lia.
  - rewrite read_first in E by assumption. cbv zeta in E. set (data := takeN (len - 37) file) in *.
    assert (HD : blen data = N.min (len - 37) (blen file)) by (unfold data; now rewrite blen_takeN).
    assert (HH : blen (hdr len nonce) = 21) by (unfold hdr; rewrite blen_app, Hn; reflexivity).
    remember (hdr len nonce) as h eqn:EH.
    destruct (blen data =? len - 37) eqn:X; injection E as <- <-.
    + rewrite blen_app, HH, seal_len in LB by assumption. lia.
    + exists [data]. cbn [segments concat map length]. rewrite seal_same, !app_nil_r by (unfold COUNTER_MAX; lia).
      rewrite EH. unfold hdr. rewrite <- app_assoc. split; [reflexivity|]. split; [apply takeN_all; lia|]. split; [discriminate|].
      change (2 ^ 32) with 4294967296. lia.
Qed.

Lemma app_tail_eq (a x y : bytes) : a ++ x = a ++ y -> x = y.
Proof. apply app_inv_head. Qed.
Lemma digits_inj i j : i < 2 ^ 32 -> j < 2 ^ 32 ->
  [i / 2 ^ 24 mod 256; i / 2 ^ 16 mod 256; i / 2 ^ 8 mod 256; i mod 256] = [j / 2 ^ 24 mod 256; j / 2 ^ 16 mod 256; j / 2 ^ 8 mod 256; j mod 256] -> i = j.
Proof.
  change (2 ^ 24) with 16777216. change (2 ^ 16) with 65536. change (2 ^ 8) with 256. change (2 ^ 32) with 4294967296.
  intros Hi Hj E. assert (A : forall k a b cc d : N, [k; a; b; cc] = d :: tl [k; a; b; cc] -> k = d) by (intros; congruence).
  clear A. assert (E1 := f_equal (hd 0) E). assert (E2 := f_equal (fun l => hd 0 (tl l)) E).
  assert (E3 := f_equal (fun l => hd 0 (tl (tl l))) E). assert (E4 := f_equal (fun l => hd 0 (tl (tl (tl l)))) E).
  cbn [hd tl] in *. clear E.
  pose proof (N.div_mod i 256 ltac:(lia)). pose proof (N.div_mod j 256 ltac:(lia)).
  assert (D : i / 256 = j / 256); [|lia].
  assert (I2 : i / 65536 = i / 256 / 256) by (rewrite N.div_div by lia; reflexivity).
  assert (J2 : j / 65536 = j / 256 / 256) by (rewrite N.div_div by lia; reflexivity).
  assert (I3 : i / 16777216 = i / 256 / 256 / 256) by (rewrite !N.div_div by lia; reflexivity).
  assert (J3 : j / 16777216 = j / 256 / 256 / 256) by (rewrite !N.div_div by lia; reflexivity).
  rewrite I2, J2 in *. rewrite I3, J3 in *.
  assert (A1 : i / 256 < 16777216) by (apply N.div_lt_upper_bound; lia). assert (A2 : j / 256 < 16777216) by (apply N.div_lt_upper_bound; lia).
  clear -E1 E2 E3 A1 A2. remember (i / 256) as x. remember (j / 256) as y. clear -E1 E2 E3 A1 A2. lia.
Qed.
Lemma nonce_inj iv i j a b : i < 2 ^ 32 -> j < 2 ^ 32 -> stream_nonce iv i a = stream_nonce iv j b -> i = j /\ a = b.
Proof.
  intros Hi Hj E. unfold stream_nonce in E. apply app_tail_eq in E. apply app_inj_tail in E as [E1 E2]. split.
  - now apply digits_inj.
  - destruct a, b; congruence.
Qed.
Lemma segments_in iv : forall ms i n m, In (n, m) (segments iv i ms) ->
  exists k last, n = stream_nonce iv k last /\ i <= k < i + N.of_nat (length ms) /\
    (last = true <-> k = i + N.of_nat (length ms) - 1) /\ nth_error ms (N.to_nat (k - i)) = Some m.
Proof.
  induction ms as [|m0 ms IH]; intros i n m H; [destruct H|].
  destruct ms as [|m1 ms].
  - destruct H as [H|[]]. injection H as <- <-. exists i, true. split; [reflexivity|]. cbn [length]. split; [lia|]. split; [split; auto; lia|].
    replace (N.to_nat (i - i)) with 0%nat by lia. reflexivity.
  - rewrite segments_cons in H by discriminate. destruct H as [H|H].
    + injection H as <- <-. exists i, false. split; [reflexivity|]. cbn [length]. split; [lia|]. split; [split; [discriminate|lia]|].
      replace (N.to_nat (i - i)) with 0%nat by lia. reflexivity.
    + apply IH in H. destruct H as (k & last & N1 & K & L & NE). exists k, last. split; [exact N1|]. cbn [length] in *.
      split; [lia|]. split; [rewrite L; split; lia|].
      replace (N.to_nat (k - i)) with (S (N.to_nat (k - (i + 1)))) by lia. exact NE.
Qed.
Lemma segments_nth iv : forall ms i k m, nth_error ms k = Some m ->
  In (stream_nonce iv (i + N.of_nat k) (Nat.eqb (S k) (length ms)), m) (segments iv i ms).
Proof.
  induction ms as [|m0 ms IH]; intros i k m H; [destruct k; discriminate|].
  destruct ms as [|m1 ms].
  - destruct k as [|[|k]]; try discriminate. injection H as <-. left. now rewrite N.add_0_r.
  - rewrite segments_cons by discriminate. destruct k as [|k].
    + injection H as <-. left. now rewrite N.add_0_r.
    + right. replace (i + N.of_nat (S k)) with (i + 1 + N.of_nat k) by lia. change (Nat.eqb (S (S k)) (length (m0 :: m1 :: ms))) with (Nat.eqb (S k) (length (m1 :: ms))).
      now apply IH.
Qed.

(** No nonce is used twice. *)
Theorem nonces_distinct : forall iv texts, N.of_nat (length texts) <= 2 ^ 32 -> NoDup (map fst (segments iv 0 texts)).
Proof.
  intros iv texts. change 0 with (0 : N). assert (G : forall ms i, i + N.of_nat (length ms) <= 2 ^ 32 -> NoDup (map fst (segments iv i ms))).
  { induction ms as [|m0 ms IH]; intros i H; [constructor|]. destruct ms as [|m1 ms]; [constructor; [intros []|constructor]|].
    rewrite segments_cons by discriminate. cbn [map fst]. constructor; [|apply IH; cbn [length] in *; lia].
    intros HI. apply in_map_iff in HI. destruct HI as ([n m] & E & HI). cbn [fst] in E. subst n.
    apply segments_in in HI. destruct HI as (k & last & E & K & _). cbn [length] in *. apply nonce_inj in E; lia. }
  intros H. apply G. lia.
Qed.

(** Whoever changes the stored file in transit (keeping its first 21 bytes) and has it accepted has
    forged a segment: some nonce and text that the encrypting reader never sealed, with the tag that
    belongs to them. *)
Theorem tampering_is_forgery : forall c key nonce file len l b' l' w, crypto_ok c -> blen nonce = 19 -> 37 <= len <= 1425 ->
  reads c file len (sr_new key nonce) l ->
  wf_bytes b' -> complete len (b' :: l') -> takeN 21 b' = be16 len ++ nonce ->
  writes c (sw_new key) (b' :: l') w ->
  exists texts, concat texts = file /\ concat l = be16 len ++ nonce ++ concat (map (sealed c key) (segments nonce 0 texts)) /\
  (sw_out w = file /\ concat (b' :: l') = concat l \/
   exists n m before after, ~ In (n, m) (segments nonce 0 texts) /\
     concat (b' :: l') = before ++ sealed c key (n, m) ++ after /\
     c_open c key n (fst (c_seal c key n m)) (snd (c_seal c key n m)) = Some m).
Proof.
  intros c key nonce file len l b' l' w HC Hn HL HR WB CO TK HW.
  destruct (stored_format _ _ _ _ _ _ HC Hn HL HR) as (texts & F & T & NE & LT). exists texts. split; [exact T|]. split; [exact F|].
  assert (T2 : takeN 2 b' = be16 len).
  { rewrite <- (takeN_app_exact (be16 len) nonce 2) by reflexivity. rewrite <- TK. symmetry. rewrite takeN_takeN. f_equal. }
  assert (T19 : takeN 19 (dropN 2 b') = nonce).
  { rewrite <- (takeN_dropN 21 b'), TK, <- app_assoc. rewrite (dropN_app_exact (be16 len)) by reflexivity. now apply takeN_app_exact. }
  destruct (accepted_stream_is_encryption c key len b' l' w HC WB HW CO T2) as [R' _]. rewrite T19 in R'.
  destruct (stored_format _ _ _ _ _ _ HC Hn HL R') as (texts' & F' & T' & NE' & LT').
  destruct (Forall_Exists_dec (fun seg => In seg (segments nonce 0 texts))
    (fun seg => in_dec (fun a b : bytes * bytes => ltac:(decide equality; apply list_eq_dec, N.eq_dec)) seg (segments nonce 0 texts)) (segments nonce 0 texts')) as [A|E].
  - left. assert (EQ : texts' = texts).
    { rewrite Forall_forall in A.
      assert (LL : length texts' = length texts).
      { destruct (exists_last NE') as (fr & la & EL).
        assert (NT : nth_error texts' (length fr) = Some la) by (rewrite EL, nth_error_app2, Nat.sub_diag by lia; reflexivity).
        pose proof (segments_nth nonce texts' 0 _ _ NT) as HI. rewrite EL, app_length, Nat.add_comm in HI. cbn [length Nat.add] in HI. rewrite Nat.eqb_refl, <- EL in HI.
        apply A, segments_in in HI. destruct HI as (k & last & E & K & L & _).
        rewrite EL, app_length in *. cbn [length] in *.
        apply nonce_inj in E; [|lia|lia]. destruct E as [E1 E2]. destruct L as [L _]. specialize (L (eq_sym E2)). lia. }
      apply nth_error_ext_len; [exact LL|]. intros k m NK.
      pose proof (segments_nth nonce texts' 0 _ _ NK) as HI. apply A, segments_in in HI. destruct HI as (j & last & E & J & _ & NJ).
      assert (KL : (k < length texts')%nat) by (apply nth_error_Some; congruence).
      apply nonce_inj in E; [|lia|lia]. destruct E as [E1 _]. rewrite <- NJ. f_equal. lia. }
    subst texts'. split; [congruence|]. rewrite F, F'. reflexivity.
  - right. apply Exists_exists in E. destruct E as ([n m] & HI & HN).
    apply in_split in HI. destruct HI as (s1 & s2 & ES).
    exists n, m, (be16 len ++ nonce ++ concat (map (sealed c key) s1)), (concat (map (sealed c key) s2)). split; [exact HN|]. split.
    + rewrite F', ES, map_app, concat_app. cbn [map concat]. now rewrite <- !app_assoc.
    + pose proof (ok_open c HC key n m) as O. destruct (c_seal c key n m). exact O.
Qed.

(** The whole way: the encrypted file is uploaded, kept by the server, downloaded with the same
    block size and decrypted while it is written.  Whenever the client regards both transfers as
    done, the local file is the original, whatever the network did. *)
Theorem encrypted_round_trip : forall c key nonce file PU PD, crypto_ok c -> blen nonce = 19 ->
  37 <= p_bs PD <= 1425 -> p_bs PU = p_bs PD -> (blen file + 21) / (p_bs PD - 16) <= 4294967295 ->
  valid PU -> valid PD ->
  exists stored, reads c file (p_bs PU) (sr_new key nonce) (blocks_of stored (p_bs PU)) /\
  forall stu tu std td, p_file PU = stored -> ureach PU stu -> u_stat stu = CDone tu ->
    p_file PD = w_out (u_writer stu) -> dreach PD std -> d_stat std = CDone td ->
    exists w, writes c (sw_new key) (blocks_of (w_out (cr_w (d_cl std))) (p_bs PD)) w /\ sw_out w = file.
Proof.
  intros c key nonce file PU PD HC Hn HL HE HM VU VD. rewrite HE.
  destruct (file_encryption_transparent c key nonce file (p_bs PD) HC Hn HL HM) as (stored & R & W & _ & _).
  exists stored. split; [assumption|]. intros stu tu std td FU RU DU FD RD DD.
  destruct (upload_never_corrupts PU stu VU RU) as (_ & U & _). destruct (U _ DU) as [U1 _].
  destruct (download_never_corrupts PD std VD RD) as (_ & D & _). destruct (D _ DD) as [D1 _].
  rewrite D1, FD, U1, FU. exact W.
Qed.
Print Assumptions file_encryption_transparent.
Print Assumptions accepted_stream_is_encryption.
Print Assumptions cut_at_block_refused.
Print Assumptions cut_undetected_by_larger_blocks.
Print Assumptions encrypted_round_trip.
Print Assumptions stored_format.
Print Assumptions nonces_distinct.
Print Assumptions tampering_is_forgery.

(** A file of 70 bytes in blocks of 40: three segments (3, 24, 24 bytes of text) and a last one of
    19; an empty file; a file that ends with a block; and a stream cut after two blocks
    being refused. *)
Definition ex_file : bytes := map N.of_nat (seq 1 70).
Definition ex_nonce : bytes := repeat 9 19.
Fixpoint ex_reads (n : nat) (file : bytes) (s : sreadr) : list (res ioerr bytes) :=
  match n with
  | O => []
  | S n' => let '(s', r) := sr_read toy file s 40 false None in r :: ex_reads n' file s'
  end.
Definition ex_get (r : res ioerr bytes) : bytes := match r with Ok b => b | _ => [] end.
Fixpoint ex_writes (l : list bytes) (s : swritr) : list (res ioerr N) * bytes :=
  match l with
  | [] => ([], sw_out s)
  | b :: l' => let '(s', r) := sw_write toy s b false None in let '(rs, o) := ex_writes l' s' in (r :: rs, o)
  end.
Definition ex_blocks := map ex_get (ex_reads 4 ex_file (sr_new [5] ex_nonce)).
Example stream_case : 
  map blen ex_blocks = [40; 40; 40; 35] /\
  ex_writes ex_blocks (sw_new [5]) = ([Ok 40; Ok 40; Ok 40; Ok 35], ex_file) /\
  nth 4 (ex_reads 5 ex_file (sr_new [5] ex_nonce)) (Ok []) = Err IoUnsupported /\
  map blen (map ex_get (ex_reads 1 [] (sr_new [5] ex_nonce))) = [37] /\
  map blen (map ex_get (ex_reads 3 (takeN 27 ex_file) (sr_new [5] ex_nonce))) = [40; 40; 16] /\
  fst (ex_writes [nth 0 ex_blocks []; nth 1 ex_blocks []; []] (sw_new [5])) = [Ok 40; Ok 40; Err IoInvalid] /\
  blocks_of (takeN 80 (concat ex_blocks)) 40 = [nth 0 ex_blocks []; nth 1 ex_blocks []; []].
Proof. vm_compute. repeat split.  Qed.
(** The hypotheses of [tampering_is_forgery] for that file, and for the file with the second and
    third block exchanged: the tags of the toy cipher do not depend on the end of the nonce, so it
    is accepted.  In the theorem's words it contains a forgery. *)
Definition ex_swapped : list bytes := [nth 0 ex_blocks []; nth 2 ex_blocks []; nth 1 ex_blocks []; nth 3 ex_blocks []].
Example tampering_case :
  reads toy ex_file 40 (sr_new [5] ex_nonce) ex_blocks /\
  wf_bytes (hd [] ex_blocks) /\ complete 40 ex_blocks /\ takeN 21 (hd [] ex_blocks) = be16 40 ++ ex_nonce /\
  (exists w, writes toy (sw_new [5]) ex_blocks w /\ sw_out w = ex_file) /\
  segments ex_nonce 0 [[7]; [8]] = [(ex_nonce ++ [0; 0; 0; 0; 0], [7]); (ex_nonce ++ [0; 0; 0; 1; 1], [8])] /\
  (exists w, writes toy (sw_new [5]) ex_swapped w /\ sw_out w <> ex_file) /\ complete 40 ex_swapped /\
  ~ In (stream_nonce ex_nonce 1 false, map N.of_nat (seq 28 24)) (segments ex_nonce 0 (map (fun '(a, n) => map N.of_nat (seq a n)) [(1, 3); (4, 24); (28, 24); (52, 19)]%nat)).
Proof.
  split; [|split; [|split; [|split; [|split; [|split]]]]].
  - do 3 (eapply reads_more; [vm_compute; reflexivity|reflexivity|]). eapply reads_last; [vm_compute; reflexivity|reflexivity].
  - vm_compute. repeat (apply Forall_cons; [reflexivity|]). constructor.
  - exists (firstn 3 ex_blocks), (nth 3 ex_blocks []). split; [reflexivity|]. split; [|reflexivity].
    vm_compute. repeat (apply Forall_cons; [reflexivity|]). constructor.
  - reflexivity.
  - eexists. split; [do 4 (eapply writes_cons; [vm_compute; reflexivity|]); constructor|vm_compute; reflexivity].
  - reflexivity.
  - split; [|split].
    + eexists. split; [do 4 (eapply writes_cons; [vm_compute; reflexivity|]); constructor|vm_compute; discriminate].
    + exists (firstn 3 ex_swapped), (nth 3 ex_swapped []). split; [reflexivity|]. split; [|reflexivity].
      vm_compute. repeat (apply Forall_cons; [reflexivity|]). constructor.
    + vm_compute. intros [H|[H|[H|[H|[]]]]]; discriminate H.
Qed.
