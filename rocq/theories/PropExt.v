(** Option negotiation: C19, C20, C22-C25, C43. *)
From Verif Require Import Base BaseProofs PacketModel PacketSpec PacketProofs ReaderModel ConfigModel Base64Model Base64Proofs
  CryptoModel CryptoSpec CryptoProofs ExtModel ExtSpec ExtProofs PathModel HandshakeModel.

(** ** C43 level names *)
Theorem level_names : forall s l, level_parse s = Some l <-> s = level_show l.
Proof.
  intros s l. split.
  - unfold level_parse.
    repeat (match goal with |- context [beq s ?b] =>
              let B := fresh in destruct (beq s b) eqn:B;
              [apply beq_eq in B; subst s; intros [= <-]; reflexivity|clear B] end).
    discriminate.
  - intros ->. destruct l; reflexivity.
Qed.
Theorem level_names_distinct : forall a b, level_show a = level_show b -> a = b.
Proof. intros a b H. destruct a, b; reflexivity || discriminate. Qed.
Print Assumptions level_names.
Print Assumptions level_names_distinct.
Example level_names_case : level_parse (s2b "optional-data") = Some LOptData /\ level_parse (s2b "Data") = None.
Proof. vm_compute. auto. Qed.

(** ** C19 what the server grants *)
(** Options as they are before negotiation, except for the encryption level. *)
Definition fresh (o : options) : Prop := o = set_enc default_options (op_enc o).

Lemma n_block_cases cfg ce : match n_block cfg ce with
  | Some b => exists a, asks ce BlockSize U16_MAX a /\ (512 <= a \/ sc_max_bs cfg < a) /\ b = N.min a (sc_max_bs cfg)
  | None => forall a, asks ce BlockSize U16_MAX a -> a < 512 /\ a <= sc_max_bs cfg
  end.
Proof.
  unfold n_block. destruct (ext_get ce BlockSize) as [s|] eqn:E.
  2: { intros a (s & G & _). congruence. }
  cbv zeta. unfold within_range. unfold parse_or0. destruct (parse_num U16_MAX s) as [a|] eqn:P.
  - assert (A : asks ce BlockSize U16_MAX a) by (apply asks_parse; eauto).
    destruct ((512 <=? a) && (a <=? sc_max_bs cfg)) eqn:W; [exists a; split; [exact A|lia]|].
    destruct (sc_max_bs cfg <? a) eqn:L; [exists a; split; [exact A|lia]|].
    intros a' A'. rewrite (asks_unique _ _ _ _ _ _ A' A). lia.
  - replace ((512 <=? 0) && (0 <=? sc_max_bs cfg)) with false by lia.
    replace (sc_max_bs cfg <? 0) with false by lia.
    intros a A. apply asks_parse in A. destruct A as (s' & G & Q). congruence.
Qed.
Lemma n_window_cases maxw ce : match n_window maxw ce with
  | Some w => exists a, asks ce WindowSize U16_MAX a /\ 1 <= a /\ w = N.min a maxw
  | None => forall a, asks ce WindowSize U16_MAX a -> a = 0
  end.
Proof.
  unfold n_window. destruct (ext_get ce WindowSize) as [s|] eqn:E.
  2: { intros a (s & G & _). congruence. }
  cbv zeta. unfold within_range. unfold parse_or0. destruct (parse_num U16_MAX s) as [a|] eqn:P.
  - assert (A : asks ce WindowSize U16_MAX a) by (apply asks_parse; eauto).
    destruct ((1 <=? a) && (a <=? maxw)) eqn:W; [exists a; split; [exact A|lia]|].
    destruct (maxw <? a) eqn:L; [exists a; split; [exact A|lia]|].
    intros a' A'. rewrite (asks_unique _ _ _ _ _ _ A' A). lia.
  - replace ((1 <=? 0) && (0 <=? maxw)) with false by lia.
    replace (maxw <? 0) with false by lia.
    intros a A. apply asks_parse in A. destruct A as (s' & G & Q). congruence.
Qed.
Lemma n_timeout_cases cfg ce : match n_timeout cfg ce with
  | Some t => asks ce Timeout U8_MAX t /\ 1 <= t <= sc_timeout cfg / 1000
  | None => forall t, asks ce Timeout U8_MAX t -> ~ 1 <= t <= sc_timeout cfg / 1000
  end.
Proof.
  unfold n_timeout. destruct (ext_get ce Timeout) as [s|] eqn:E.
  2: { intros a (s & G & _). congruence. }
  cbv zeta. unfold within_range. unfold parse_or0. destruct (parse_num U8_MAX s) as [a|] eqn:P.
  - assert (A : asks ce Timeout U8_MAX a) by (apply asks_parse; eauto).
    destruct ((1 <=? a) && (a <=? sc_timeout cfg / 1000)) eqn:W; [split; [exact A|lia]|].
    intros a' A'. rewrite (asks_unique _ _ _ _ _ _ A' A). lia.
  - replace ((1 <=? 0) && (0 <=? sc_timeout cfg / 1000)) with false by lia.
    intros a A. apply asks_parse in A. destruct A as (s' & G & Q). congruence.
Qed.
Lemma n_tsize_cases ce : match n_tsize ce with
  | Some n => asks ce TransferSize U64_MAX n
  | None => forall n, ~ asks ce TransferSize U64_MAX n
  end.
Proof.
  unfold n_tsize. destruct (ext_get ce TransferSize) as [s|] eqn:E.
  2: { intros a (s & G & _). congruence. }
  destruct (parse_num U64_MAX s) as [n|] eqn:P.
  - apply asks_parse. eauto.
  - intros n A. apply asks_parse in A. destruct A as (s' & G & Q). congruence.
Qed.

(** Granted block size, window, timeout and size, for every request that is not refused. *)
Theorem server_limits : forall c cfg maxw eph ce o0 used o keys, fresh o0 ->
  server_parse c cfg maxw eph ce o0 = Ok (used, o, keys) ->
  (* block size: the request cut to the maximum; 512 without (valid) request *)
  (op_bs o <= N.max 512 (sc_max_bs cfg) /\ N.min 512 (sc_max_bs cfg) <= op_bs o /\
   (forall b, asks ce BlockSize U16_MAX b -> 512 <= b -> op_bs o = N.min b (sc_max_bs cfg)) /\
   (forall b, asks ce BlockSize U16_MAX b -> op_bs o = 512 \/ op_bs o <= b) /\
   ((forall b, ~ asks ce BlockSize U16_MAX b) -> op_bs o = 512)) /\
  (* window *)
  (op_window o <= N.max 1 maxw /\ (1 <= maxw -> 1 <= op_window o) /\
   (forall w, asks ce WindowSize U16_MAX w -> 1 <= w -> op_window o = N.min w maxw) /\
   ((forall w, ~ asks ce WindowSize U16_MAX w) -> op_window o = 1)) /\
  (* retry timeout: only whole seconds within the request timeout, else the default *)
  ((forall t, asks ce Timeout U8_MAX t -> 1 <= t <= sc_timeout cfg / 1000 -> op_retry o = 1000 * t) /\
   ((forall t, asks ce Timeout U8_MAX t -> ~ 1 <= t <= sc_timeout cfg / 1000) -> op_retry o = 80)) /\
  (* transfer size *)
  (forall n, asks ce TransferSize U64_MAX n <-> op_size o = Some n).
Proof.
  intros c cfg maxw eph ce o0 used o keys F H. apply server_parse_inv in H. destruct H as [_ H].
  assert (E : exists l, o = opts_with cfg maxw ce o0 l) by (destruct H as [(_ & _ & -> & _)|(l & se & _ & _ & -> & _)]; eauto).
  destruct E as [l ->]. unfold opts_with. rewrite F. cbn [op_bs op_retry op_size op_window set_enc default_options].
  unfold DEFAULT_DATA_BLOCK_SIZE, DEFAULT_RETRY_PACKET_TIMEOUT.
  pose proof (n_block_cases cfg ce) as B. pose proof (n_window_cases maxw ce) as W.
  pose proof (n_timeout_cases cfg ce) as T. pose proof (n_tsize_cases ce) as S.
  split; [|split; [|split]].
  - destruct (n_block cfg ce) as [b|]; cbn [dflt].
    + destruct B as (a & A & Ha & ->). repeat split; try lia.
      * intros b Hb L. now rewrite (asks_unique _ _ _ _ _ _ Hb A).
      * intros b Hb. rewrite (asks_unique _ _ _ _ _ _ Hb A). lia.
      * intros N. destruct (N _ A).
    + repeat split; try lia; intros b Hb; specialize (B b Hb); lia.
  - destruct (n_window maxw ce) as [b|]; cbn [dflt].
    + destruct W as (a & A & Ha & ->). repeat split; try lia.
      * intros b Hb L. now rewrite (asks_unique _ _ _ _ _ _ Hb A).
      * intros N. destruct (N _ A).
    + repeat split; try lia. intros b Hb; specialize (W b Hb); lia.
  - destruct (n_timeout cfg ce) as [t|]; cbn [dflt option_map].
    + destruct T as [A Ht]. split.
      * intros t' Ht' _. rewrite (asks_unique _ _ _ _ _ _ Ht' A). lia.
      * intros N. destruct (N _ A Ht).
    + split; [|reflexivity]. intros t' Ht' L. destruct (T _ Ht' L).
  - intros n. destruct (n_tsize ce) as [m|].
    + split; [intros A; now rewrite (asks_unique _ _ _ _ _ _ A S)|intros [= <-]; exact S].
    + split; [intros A; destruct (S _ A)|discriminate].
Qed.
(** What the server announces are the values it uses; it announces only requested options. *)
Theorem server_announces : forall c cfg maxw eph ce o0 used o keys, fresh o0 ->
  server_parse c cfg maxw eph ce o0 = Ok (used, o, keys) ->
  (forall e, ext_get used e <> None -> ext_get ce e <> None) /\
  (forall s, ext_get used BlockSize = Some s -> s = show_num (op_bs o)) /\
  (ext_get used BlockSize = None -> op_bs o = 512) /\
  (forall s, ext_get used WindowSize = Some s -> s = show_num (op_window o)) /\
  (ext_get used WindowSize = None -> op_window o = 1) /\
  (forall s, ext_get used Timeout = Some s -> s = show_num (op_retry o / 1000) /\ op_retry o mod 1000 = 0) /\
  (ext_get used Timeout = None -> op_retry o = 80) /\
  (forall s, ext_get used TransferSize = Some s <-> exists n, op_size o = Some n /\ s = show_num n) /\
  (forall s, ext_get used EncLevel = Some s -> s = level_show (op_enc o) /\ keys <> None) /\
  (keys <> None -> ext_get used SessionPublicKey = Some (encode_key (c_pub c eph))).
Proof.
  intros c cfg maxw eph ce o0 used o keys F H. apply server_parse_inv in H. destruct H as [_ H].
  pose proof (n_block_cases cfg ce) as B. pose proof (n_window_cases maxw ce) as W.
  pose proof (n_timeout_cases cfg ce) as T. pose proof (n_tsize_cases ce) as S.
  assert (AB : n_block cfg ce <> None -> ext_get ce BlockSize <> None)
    by (unfold n_block; destruct (ext_get ce BlockSize); congruence).
  assert (AW : n_window maxw ce <> None -> ext_get ce WindowSize <> None)
    by (unfold n_window; destruct (ext_get ce WindowSize); congruence).
  assert (AT : n_timeout cfg ce <> None -> ext_get ce Timeout <> None)
    by (unfold n_timeout; destruct (ext_get ce Timeout); congruence).
  assert (AS : n_tsize ce <> None -> ext_get ce TransferSize <> None)
    by (unfold n_tsize; destruct (ext_get ce TransferSize); congruence).
  assert (E : exists l sess, o = opts_with cfg maxw ce o0 l /\ used = used_with c cfg maxw ce sess /\
     (keys = None /\ sess = None \/ keys <> None /\ sess = Some (l, eph) /\
        asked_level ce <> None /\ session_of ce <> None /\ exists s, check_signature c ce s (auth_of c ce) = Ok tt)).
  { destruct H as [(_ & -> & -> & ->)|(l & se & (L & _ & _ & SE & _ & CS & _) & -> & -> & ->)].
    - eauto 10.
    - exists (granted l), (Some (granted l, eph)). split; [reflexivity|]. split; [reflexivity|]. right.
      split; [discriminate|]. split; [reflexivity|]. split; [congruence|]. split; [congruence|eauto]. }
  destruct E as (l & sess & -> & -> & K). clear H.
  assert (NK : forall n k, k <> 0 -> k * n / k = n) by (intros; rewrite N.mul_comm; now apply N.div_mul).
  rewrite F. unfold opts_with, used_with. cbn [ext_get x_blk x_timeout x_tsize x_enc x_win x_spk x_apk x_sig
    op_bs op_retry op_size op_window op_enc set_enc default_options].
  unfold DEFAULT_DATA_BLOCK_SIZE, DEFAULT_RETRY_PACKET_TIMEOUT.
  split.
  { assert (AU : forall s, auth_of c ce = Some s -> ext_get ce AuthPublicKey <> None)
      by (unfold auth_of; intros s; destruct (ext_get ce AuthPublicKey); congruence).
    assert (SG : forall x s, auth_of c ce = Some x -> check_signature c ce s (auth_of c ce) = Ok tt -> ext_get ce Signature <> None).
    { intros x s E CS. rewrite E in CS. rewrite check_signature_ok in CS.
      destruct (CS _ eq_refl) as (_ & t & sg & G & _). congruence. }
    intros [| | | | | | |]; cbn [ext_get x_blk x_timeout x_tsize x_enc x_win x_spk x_apk x_sig].
    - intros X. apply AB. now destruct (n_block cfg ce).
    - intros X. apply AT. now destruct (n_timeout cfg ce).
    - intros X. apply AS. now destruct (n_tsize ce).
    - destruct K as [[_ ->]|(_ & -> & KL & _)]; [cbn; congruence|]. intros _.
      unfold asked_level in KL. change (x_enc ce) with (ext_get ce EncLevel). now destruct (ext_get ce EncLevel).
    - intros X. apply AW. now destruct (n_window maxw ce).
    - destruct K as [[_ ->]|(_ & -> & _ & KL & _)]; [cbn; congruence|]. intros _.
      unfold session_of in KL. change (x_spk ce) with (ext_get ce SessionPublicKey). now destruct (ext_get ce SessionPublicKey).
    - destruct sess; [|congruence]. destruct (sc_key cfg); [|congruence]. destruct (auth_of c ce) eqn:EA; [|congruence].
      intros _. exact (AU _ eq_refl).
    - destruct K as [[_ ->]|(_ & -> & _ & _ & s & CS)]; [congruence|].
      destruct (sc_key cfg); [|congruence]. destruct (auth_of c ce) eqn:EA; [|congruence].
      intros _. eapply SG; eauto. }
  split; [destruct (n_block cfg ce); cbn; congruence|].
  split; [destruct (n_block cfg ce); cbn; congruence|].
  split; [destruct (n_window maxw ce); cbn; congruence|].
  split; [destruct (n_window maxw ce); cbn; congruence|].
  split.
  { destruct (n_timeout cfg ce) as [t|]; cbn [option_map dflt]; [|discriminate]. intros s [= <-].
    rewrite N.div_mul, N.mod_mul by lia. auto. }
  split; [destruct (n_timeout cfg ce); cbn; congruence|].
  split.
  { intros s. destruct (n_tsize ce) as [n|]; cbn.
    - split; [intros [= <-]; eauto|]. intros (m & [= <-] & ->). reflexivity.
    - split; [discriminate|]. intros (m & ? & _). discriminate. }
  split.
  { destruct K as [[-> ->]|(KK & -> & _)]; cbn; [discriminate|]. intros s [= <-]. auto. }
  destruct K as [[-> ->]|(_ & -> & _)]; cbn; congruence.
Qed.
(** Every request for a valid block size, window, timeout or size is answered, so the client learns what it got. *)
Theorem server_answers : forall c cfg maxw eph ce o0 used o keys,
  server_parse c cfg maxw eph ce o0 = Ok (used, o, keys) ->
  (forall b, asks ce BlockSize U16_MAX b -> 512 <= b -> ext_get used BlockSize <> None) /\
  (forall w, asks ce WindowSize U16_MAX w -> 1 <= w -> ext_get used WindowSize <> None) /\
  (forall t, asks ce Timeout U8_MAX t -> 1 <= t <= sc_timeout cfg / 1000 -> ext_get used Timeout <> None) /\
  (forall n, asks ce TransferSize U64_MAX n -> ext_get used TransferSize <> None).
Proof.
  intros c cfg maxw eph ce o0 used o keys H. apply server_parse_inv in H. destruct H as [_ H].
  assert (E : exists sess, used = used_with c cfg maxw ce sess) by (destruct H as [(_ & -> & -> & ->)|(l & se & _ & -> & -> & ->)]; eauto).
  destruct E as [sess ->]. unfold used_with. cbn [ext_get x_blk x_timeout x_tsize x_win].
  pose proof (n_block_cases cfg ce) as B. pose proof (n_window_cases maxw ce) as W.
  pose proof (n_timeout_cases cfg ce) as T. pose proof (n_tsize_cases ce) as S.
  split; [|split; [|split]].
  - destruct (n_block cfg ce); [discriminate|]. intros b A L. specialize (B b A). lia.
  - destruct (n_window maxw ce); [discriminate|]. intros b A L. specialize (W b A). lia.
  - destruct (n_timeout cfg ce); [discriminate|]. intros b A L. specialize (T b A). lia.
  - destruct (n_tsize ce); [discriminate|]. intros b A. destruct (S b A).
Qed.
Print Assumptions server_limits.
Print Assumptions server_answers.
Print Assumptions server_announces.

Definition cfg_ex : scfg := mkScfg 1024 8 5000 1000000 None None false false false.
Definition ask_ex : exts :=
  ext_insert (ext_insert (ext_insert exts_empty BlockSize (s2b "65000")) WindowSize (s2b "+4")) Timeout (s2b "9").
Example server_limits_case : fresh default_options /\
  match server_parse toy cfg_ex 8 [1] ask_ex default_options with
  | Ok (used, o, keys) => op_bs o = 1024 /\ op_window o = 4 /\ op_retry o = 80 /\ keys = None /\
       ext_get used BlockSize = Some (s2b "1024") /\ ext_get used WindowSize = Some (s2b "4") /\ ext_get used Timeout = None
  | _ => False
  end /\ asks ask_ex BlockSize U16_MAX 65000.
Proof.
  split; [reflexivity|]. split; [vm_compute; repeat split|].
  exists (s2b "65000"). split; [reflexivity|]. split; [|reflexivity || (unfold U16_MAX; lia)].
  exists (s2b "65000"). split; [auto|]. split; [discriminate|].
  split; [|reflexivity]. cbn. repeat constructor; unfold digit; lia.
Qed.
