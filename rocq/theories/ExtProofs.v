(** Lemmas about numbers in options and about the two option parsers. *)
From Verif Require Import Base BaseProofs PacketModel PacketSpec PacketProofs ConfigModel Base64Model Base64Proofs
  CryptoModel CryptoSpec ExtModel ExtSpec.
Ltac Zify.zify_post_hook ::= Z.div_mod_to_equations.

(** ** Numbers *)
Lemma inr_digit d : inr 48 57 d = true <-> digit d.
Proof. unfold inr, digit. lia. Qed.
Lemma fold_mono ds a : a <= fold_left (fun a d => 10 * a + (d - 48)) ds a.
Proof. revert a. induction ds as [|d ds IH]; intros a; cbn [fold_left]; [lia|]. specialize (IH (10 * a + (d - 48))). lia. Qed.
Lemma parse_digits_spec max ds a : a <= max -> forall n,
  parse_digits max a ds = Some n <->
  Forall digit ds /\ n = fold_left (fun a d => 10 * a + (d - 48)) ds a /\ n <= max.
Proof.
  revert a. induction ds as [|d ds IH]; intros a Ha n; cbn [parse_digits fold_left].
  - split; [intros [= <-]; auto|]. intros (_ & -> & _). reflexivity.
  - destruct (inr 48 57 d) eqn:D.
    + apply inr_digit in D. destruct (N.leb_spec (10 * a + (d - 48)) max).
      * rewrite IH by assumption. split; intros (F & ? & ?); (split; [|auto]); [constructor; auto|now inversion F].
      * split; [discriminate|]. intros (_ & -> & L).
        pose proof (fold_mono ds (10 * a + (d - 48))). lia.
    + split; [discriminate|]. intros (F & _). inversion_clear F as [|? ? Hd _].
      apply inr_digit in Hd. congruence.
Qed.
Lemma parse_num_cons max a s : parse_num max (a :: s) =
  if a =? 43 then match s with [] => None | _ => parse_digits max 0 s end else parse_digits max 0 (a :: s).
Proof.
  destruct a as [|p]; [destruct s; reflexivity|].
  destruct p as [[[[[[p|p|]|[p|p|]|]|[[p|p|]|[p|p|]|]|]|[[[p|p|]|[p|p|]|]|[[p|p|]|[p|p|]|]|]|]|p|]|p|]; destruct s; reflexivity.
Qed.
Lemma parse_num_spec max s n : parse_num max s = Some n <-> decimal s n /\ n <= max.
Proof.
  unfold decimal, digits_value.
  assert (P : forall ds, ds <> [] ->
    (parse_digits max 0 ds = Some n <->
     (Forall digit ds /\ n = fold_left (fun a d => 10 * a + (d - 48)) ds 0) /\ n <= max)).
  { intros ds _. rewrite parse_digits_spec by lia. tauto. }
  assert (G : forall ds, ds <> [] -> hd 0 ds <> 43 ->
    (parse_digits max 0 ds = Some n <->
     (exists ds', (ds = ds' \/ ds = 43 :: ds') /\ ds' <> [] /\ Forall digit ds' /\
        n = fold_left (fun a d => 10 * a + (d - 48)) ds' 0) /\ n <= max)).
  { intros ds NE H. rewrite P by assumption. split.
    - intros [[F E] L]. split; [|exact L]. exists ds. auto.
    - intros [(ds' & [<-|E] & NE' & F & E') L]; [auto|]. rewrite E in H. now cbn in H. }
  destruct s as [|a s].
  { cbn. split; [discriminate|]. intros [(ds & [<-|E] & NE & _) _]; congruence. }
  destruct (N.eq_dec a 43) as [->|Na].
  - cbn [parse_num]. destruct s as [|b s].
    + split; [discriminate|]. intros [(ds & [<-|E] & NE & F & _) _].
      * inversion_clear F as [|? ? D _]. unfold digit in D. lia.
      * injection E as <-. congruence.
    + rewrite P by discriminate. split.
      * intros [[F E] L]. split; [|exact L]. exists (b :: s). split; [auto|]. split; [discriminate|auto].
      * intros [(ds & [<-|E] & NE & F & E') L].
        -- inversion_clear F as [|? ? D _]. unfold digit in D. lia.
        -- injection E as <-. auto.
  - rewrite <- (G (a :: s)) by (cbn; congruence). rewrite parse_num_cons.
    replace (a =? 43) with false by lia. reflexivity.
Qed.
Lemma decimal_unique s n m : decimal s n -> decimal s m -> n = m.
Proof.
  intros (d1 & E1 & N1 & F1 & ->) (d2 & E2 & N2 & F2 & ->).
  assert (X : forall d, Forall digit d -> hd 0 d <> 43).
  { intros d F. destruct d; cbn; [lia|]. inversion_clear F. unfold digit in *. lia. }
  destruct E1 as [-> | ->], E2 as [E2|E2]; subst; [reflexivity|..].
  - destruct (X _ F1 eq_refl).
  - destruct (X _ F2 eq_refl).
  - now injection E2 as ->.
Qed.

Lemma show_fuel_parse max f : forall n acc, n < 10 ^ N.of_nat f ->
  parse_digits max 0 (show_fuel f n acc) = if n <=? max then parse_digits max n acc else None.
Proof.
  induction f as [|f IH]; intros n acc Hn.
  - assert (n = 0) as -> by (cbn in Hn; lia). replace (0 <=? max) with true by lia. reflexivity.
  - cbn [show_fuel]. rewrite Nat2N.inj_succ, N.pow_succ_r' in Hn.
    assert (M : n mod 10 < 10) by (apply N.mod_lt; lia).
    assert (DM : n = 10 * (n / 10) + n mod 10) by (apply N.div_mod; lia).
    destruct (N.eqb_spec (n / 10) 0) as [Z|Z].
    + cbn [parse_digits]. replace (inr 48 57 (48 + n mod 10)) with true by (unfold inr; lia).
      replace (10 * 0 + (48 + n mod 10 - 48)) with n by lia. reflexivity.
    + rewrite IH by lia.
      destruct (N.leb_spec (n / 10) max).
      * cbn [parse_digits]. replace (inr 48 57 (48 + n mod 10)) with true by (unfold inr; lia).
        replace (10 * (n / 10) + (48 + n mod 10 - 48)) with n by lia. reflexivity.
      * replace (n <=? max) with false by lia. reflexivity.
Qed.
Lemma show_fuel_digits f : forall n acc, Forall digit acc -> Forall digit (show_fuel f n acc).
Proof.
  induction f as [|f IH]; intros n acc F; cbn [show_fuel]; [assumption|].
  assert (M : n mod 10 < 10) by (apply N.mod_lt; lia).
  assert (F' : Forall digit (48 + n mod 10 :: acc)) by (constructor; [unfold digit; lia|assumption]).
  destruct (n / 10 =? 0); auto.
Qed.
Lemma show_fuel_ne f : forall n acc, acc <> [] -> show_fuel f n acc <> [].
Proof. induction f; intros n acc H; cbn [show_fuel]; [assumption|]. destruct (_ =? 0); [discriminate|]. now apply IHf. Qed.
Lemma show_fuel_len f : forall n k acc, n < 10 ^ k -> 1 <= k -> blen (show_fuel f n acc) <= k + blen acc.
Proof.
  induction f as [|f IH]; intros n k acc Hn Hk; cbn [show_fuel]; [lia|].
  destruct (N.eqb_spec (n / 10) 0) as [Z|Z]; [rewrite blen_cons; lia|].
  assert (1 < k).
  { destruct (N.eq_dec k 1) as [->|]; [|lia]. change (10 ^ 1) with 10 in Hn. lia. }
  assert (E : 10 ^ k = 10 * 10 ^ (k - 1)) by (rewrite <- N.pow_succ_r'; f_equal; lia).
  specialize (IH (n / 10) (k - 1) (48 + n mod 10 :: acc)).
  rewrite blen_cons in IH. assert (n / 10 < 10 ^ (k - 1)) by lia. lia.
Qed.
Lemma show_fuel_enough n : n < 10 ^ N.of_nat (S (N.to_nat (N.size n))).
Proof.
  rewrite Nat2N.inj_succ, N2Nat.id.
  assert (H : n < 2 ^ N.size n) by apply N.size_gt.
  assert (2 ^ N.size n <= 10 ^ N.size n) by (apply N.pow_le_mono_l; lia).
  rewrite N.pow_succ_r'. lia.
Qed.
Lemma show_digits n : Forall digit (show_num n).
Proof. apply show_fuel_digits. constructor. Qed.
Lemma show_ne n : show_num n <> [].
Proof. unfold show_num. cbn [show_fuel]. destruct (_ =? 0); [discriminate|]. apply show_fuel_ne. discriminate. Qed.
Lemma show_decimal n : decimal (show_num n) n.
Proof.
  pose proof (show_digits n) as D.
  exists (show_num n). split; [auto|]. split; [apply show_ne|]. split; [assumption|].
  pose proof (show_fuel_parse n _ n [] (show_fuel_enough n)) as P. fold (show_num n) in P.
  rewrite N.leb_refl in P. cbn [parse_digits] in P.
  apply parse_digits_spec in P; [|lia]. unfold digits_value. tauto.
Qed.
Lemma parse_show max n : n <= max -> parse_num max (show_num n) = Some n.
Proof. intros H. apply parse_num_spec. split; [apply show_decimal|assumption]. Qed.
Lemma parse_show_big max n : max < n -> parse_num max (show_num n) = None.
Proof.
  intros H. destruct (parse_num max (show_num n)) as [m|] eqn:E; [|reflexivity].
  apply parse_num_spec in E. destruct E as [D L].
  pose proof (decimal_unique _ _ _ D (show_decimal n)). lia.
Qed.
Lemma digits_good l : Forall digit l -> good_string l.
Proof. intros F. apply ascii_utf8. eapply Forall_impl; [|exact F]. unfold digit. intros. lia. Qed.
Lemma show_good n : good_string (show_num n).
Proof. apply digits_good, show_digits. Qed.
Lemma show_len n k : n < 10 ^ k -> 1 <= k -> blen (show_num n) <= k.
Proof. intros. pose proof (show_fuel_len (S (N.to_nat (N.size n))) n k [] H H0). rewrite blen_nil in H1. unfold show_num. lia. Qed.

(** ** Option maps *)
Definition ext_eqb (a b : ext) : bool :=
  match a, b with
  | BlockSize, BlockSize | Timeout, Timeout | TransferSize, TransferSize | EncLevel, EncLevel
  | WindowSize, WindowSize | SessionPublicKey, SessionPublicKey | AuthPublicKey, AuthPublicKey
  | Signature, Signature => true
  | _, _ => false
  end.
Lemma ext_get_put m e v e' : ext_get (ext_put m e v) e' = if ext_eqb e e' then v else ext_get m e'.
Proof. destruct m, e, e'; reflexivity. Qed.
Lemma ext_ext m m' : (forall e, ext_get m e = ext_get m' e) -> m = m'.
Proof.
  intros H. destruct m, m'.
  pose proof (H BlockSize). pose proof (H Timeout). pose proof (H TransferSize). pose proof (H EncLevel).
  pose proof (H WindowSize). pose proof (H SessionPublicKey). pose proof (H AuthPublicKey). pose proof (H Signature).
  cbn in *. congruence.
Qed.
Lemma ext_len_0 m : ext_len m = 0 <-> m = exts_empty.
Proof.
  split; [|intros ->; reflexivity]. destruct m as [a b c d e f g h]. unfold ext_len, ext_list. cbn.
  destruct a, b, c, d, e, f, g, h; cbn; try lia. reflexivity.
Qed.
Lemma unasked_nil new used : unasked new used = [] <->
  forall e, ext_get new e <> None -> ext_get used e <> None.
Proof.
  unfold unasked. split.
  - intros H e He. destruct (ext_get new e) eqn:E1; [|congruence].
    destruct (ext_get used e) eqn:E2; [congruence|].
    assert (I : In e (filter (fun e => match ext_get new e, ext_get used e with Some _, None => true | _, _ => false end) all_exts)).
    { apply filter_In. rewrite E1, E2. split; [destruct e; cbn; auto 10|reflexivity]. }
    rewrite H in I. destruct I.
  - intros H. destruct (filter _ all_exts) as [|e l] eqn:F; [reflexivity|].
    assert (I : In e (e :: l)) by now left. rewrite <- F in I. apply filter_In in I. destruct I as [_ I].
    specialize (H e). destruct (ext_get new e); [|discriminate]. destruct (ext_get used e); [discriminate|].
    exfalso. apply H; congruence.
Qed.

(** ** Server *)
Definition n_block (cfg : scfg) (ce : exts) : option N :=
  match ext_get ce BlockSize with
  | None => None
  | Some s => let b := parse_or0 U16_MAX s in
              if within_range 512 (sc_max_bs cfg) b then Some b
              else if sc_max_bs cfg <? b then Some (sc_max_bs cfg) else None
  end.
Definition n_window (maxw : N) (ce : exts) : option N :=
  match ext_get ce WindowSize with
  | None => None
  | Some s => let b := parse_or0 U16_MAX s in
              if within_range 1 maxw b then Some b
              else if maxw <? b then Some maxw else None
  end.
Definition n_timeout (cfg : scfg) (ce : exts) : option N :=
  match ext_get ce Timeout with
  | None => None
  | Some s => let b := parse_or0 U8_MAX s in
              if within_range 1 (sc_timeout cfg / 1000) b then Some b else None
  end.
Definition n_tsize (ce : exts) : option N :=
  match ext_get ce TransferSize with None => None | Some s => parse_num U64_MAX s end.
Definition dflt (v : option N) (d : N) : N := match v with Some n => n | None => d end.

Lemma srv_chain cfg maxw ce o0 :
  srv_tsize ce (srv_timeout cfg ce (srv_window maxw ce (srv_block cfg ce (o0, exts_empty)))) =
  (mkOpts (dflt (n_block cfg ce) (op_bs o0))
          (dflt (option_map (fun t => t * 1000) (n_timeout cfg ce)) (op_retry o0))
          (match n_tsize ce with Some n => Some n | None => op_size o0 end)
          (op_enc o0) (dflt (n_window maxw ce) (op_window o0)),
   mkExts (option_map show_num (n_block cfg ce)) (option_map show_num (n_timeout cfg ce))
          (option_map show_num (n_tsize ce)) None (option_map show_num (n_window maxw ce)) None None None).
Proof.
  unfold srv_block, n_block, srv_window, n_window, srv_timeout, n_timeout, srv_tsize, n_tsize.
  change EXTENSION_BLOCK_SIZE_MIN with 512. change EXTENSION_WINDOW_SIZE_MIN with 1.
  change EXTENSION_TIMEOUT_SIZE_MIN with 1.
  destruct o0 as [b0 r0 s0 e0 w0].
  destruct (ext_get ce BlockSize) as [s1|]; cbv zeta; [destruct (within_range 512 _ _); [|destruct (_ <? _)]|];
  (destruct (ext_get ce WindowSize) as [s2|]; cbv zeta; [destruct (within_range 1 maxw _); [|destruct (_ <? _)]|]);
  (destruct (ext_get ce Timeout) as [s3|]; cbv zeta; [destruct (within_range 1 _ _)|]);
  (destruct (ext_get ce TransferSize) as [s4|]; cbv zeta; [destruct (parse_num _ s4)|]); reflexivity.
Qed.

(** The client's signature, when an authentication key is present. *)
Lemma check_signature_ok c es session auth : check_signature c es session auth = Ok tt <->
  forall vk, auth = Some vk -> c_vk_ok c vk = true /\
    exists t sg, ext_get es Signature = Some t /\ decode_signature t = Some sg /\ c_verify c vk session sg = true.
Proof.
  unfold check_signature, opt_decode, bind. destruct auth as [vk|]; [|split; [intros _ ? [=]|reflexivity]].
  split.
  - intros H vk' [= <-]. destruct (ext_get es Signature) as [t|]; [|discriminate].
    destruct (decode_signature t) as [sg|] eqn:D; [|discriminate].
    destruct (c_vk_ok c vk); [|discriminate]. destruct (c_verify c vk session sg) eqn:V; [|discriminate].
    split; [reflexivity|]. exists t, sg. auto.
  - intros H. destruct (H vk eq_refl) as (O & t & sg & -> & -> & V). now rewrite O, V.
Qed.
Lemma check_signature_cases c es session auth : check_signature c es session auth = Ok tt \/
  exists e, check_signature c es session auth = Err e.
Proof.
  unfold check_signature, opt_decode, bind. destruct auth; [|auto].
  destruct (ext_get es Signature); [|eauto]. destruct (decode_signature b0); [|eauto].
  destruct (c_vk_ok c b); [|eauto]. destruct (c_verify _ _ _ _); eauto.
Qed.

(** How the requested level is understood. *)
Definition asked_level (ce : exts) : option enc_level :=
  match ext_get ce EncLevel with Some s => level_parse s | None => None end.
Definition session_of (ce : exts) : option bytes :=
  match ext_get ce SessionPublicKey with Some s => decode_public_key s | None => None end.
Definition auth_of (c : crypto) (ce : exts) : option bytes :=
  match ext_get ce AuthPublicKey with Some s => decode_verifying_key (c_vk_ok c) s | None => None end.

(** The outcomes without and with a session. *)
Definition plain_ok (cfg : scfg) (ce : exts) (o0 : options) : Prop :=
  sc_auth cfg = None /\ (ext_get ce EncLevel = None \/ asked_level ce = Some LNone).
Definition granted (l : enc_level) : enc_level :=
  match l with LOptData => LData | LOptProtocol => LProtocol | l => l end.
Definition session_ok (c : crypto) (cfg : scfg) (ce : exts) (o0 : options) (l : enc_level) (session : bytes) : Prop :=
  asked_level ce = Some l /\ l <> LNone /\ (l = LFull -> op_enc o0 = LFull) /\
  session_of ce = Some session /\
  (ext_get ce AuthPublicKey = None \/ auth_of c ce <> None) /\
  check_signature c ce session (auth_of c ce) = Ok tt /\
  (forall ks, sc_auth cfg = Some ks -> exists vk, auth_of c ce = Some vk /\ In vk ks).

Definition opts_with (cfg : scfg) (maxw : N) (ce : exts) (o0 : options) (l : enc_level) : options :=
  mkOpts (dflt (n_block cfg ce) (op_bs o0))
         (dflt (option_map (fun t => t * 1000) (n_timeout cfg ce)) (op_retry o0))
         (match n_tsize ce with Some n => Some n | None => op_size o0 end)
         l (dflt (n_window maxw ce) (op_window o0)).
Definition used_with (c : crypto) (cfg : scfg) (maxw : N) (ce : exts) (sess : option (enc_level * bytes)) : exts :=
  mkExts (option_map show_num (n_block cfg ce)) (option_map show_num (n_timeout cfg ce))
         (option_map show_num (n_tsize ce))
         (option_map (fun x => level_show (fst x)) sess)
         (option_map show_num (n_window maxw ce))
         (option_map (fun x => encode_key (c_pub c (snd x))) sess)
         (match sess, sc_key cfg, auth_of c ce with
          | Some _, Some sk, Some _ => Some (encode_key (c_vk c sk)) | _, _, _ => None end)
         (match sess, sc_key cfg, auth_of c ce with
          | Some (_, eph), Some sk, Some _ => Some (encode_key (c_sign c sk (c_pub c eph))) | _, _, _ => None end).

Lemma in_keys_In k l : in_keys k l = true <-> In k l.
Proof.
  unfold in_keys. rewrite existsb_exists. split.
  - intros (x & I & E). apply beq_eq in E. now subst.
  - intros I. exists k. split; [assumption|apply beq_refl].
Qed.

Lemma server_parse_inv c cfg maxw eph ce o0 used o keys :
  server_parse c cfg maxw eph ce o0 = Ok (used, o, keys) <->
  (sc_full cfg = true -> op_enc o0 = LFull) /\
  ((plain_ok cfg ce o0 /\ keys = None /\ o = opts_with cfg maxw ce o0 (op_enc o0) /\
    used = used_with c cfg maxw ce None) \/
   (exists l session, session_ok c cfg ce o0 l session /\ keys = Some (mkSK eph session) /\
    o = opts_with cfg maxw ce o0 (granted l) /\
    used = used_with c cfg maxw ce (Some (granted l, eph)))).
Proof.
  unfold server_parse. rewrite srv_chain. cbv zeta.
  cbn [op_enc]. unfold plain_ok, session_ok, asked_level, opts_with, used_with.
  set (lv := ext_get ce EncLevel).
  assert (FL : (sc_full cfg && negb (level_eqb (op_enc o0) LFull) = true /\ ~ (sc_full cfg = true -> op_enc o0 = LFull))
    \/ (sc_full cfg && negb (level_eqb (op_enc o0) LFull) = false /\ (sc_full cfg = true -> op_enc o0 = LFull))).
  { destruct (sc_full cfg), (op_enc o0); cbn; intuition congruence. }
  destruct lv as [s|]; unfold opt_decode, bind.
  2: { destruct FL as [[-> F]|[-> F]]; [split; [discriminate|tauto]|].
    destruct (sc_auth cfg) as [ks|].
    - split; [discriminate|]. intros (_ & [((? & _) & _)|(l & se & (? & _) & _)]); discriminate.
    - split.
      + intros [= <- <- <-]. split; [assumption|]. left. repeat split; auto.
      + intros (_ & [(_ & -> & -> & ->)|(l & se & (? & _) & _)]); [reflexivity|discriminate]. }
  destruct (level_parse s) as [l|]; [|split; [discriminate|]].
  2: { intros (_ & [((_ & [?|?]) & _)|(l & se & (? & _) & _)]); discriminate. }
  destruct FL as [[-> F]|[-> F]]; [split; [discriminate|tauto]|].
  assert (PL : l = LNone -> (match sc_auth cfg with
      | None => Ok (used_with c cfg maxw ce None, opts_with cfg maxw ce o0 (op_enc o0), None)
      | Some _ => Err (EServerRequired LData) end : res ext_err (exts * options * option session_keys)) = Ok (used, o, keys) <->
    (sc_full cfg = true -> op_enc o0 = LFull) /\
    ((sc_auth cfg = None /\ (Some s = None \/ Some l = Some LNone)) /\ keys = None /\
      o = opts_with cfg maxw ce o0 (op_enc o0) /\ used = used_with c cfg maxw ce None \/
     (exists l0 session, (Some l = Some l0 /\ l0 <> LNone /\ (l0 = LFull -> op_enc o0 = LFull) /\
       session_of ce = Some session /\ (ext_get ce AuthPublicKey = None \/ auth_of c ce <> None) /\
       check_signature c ce session (auth_of c ce) = Ok tt /\
       (forall ks, sc_auth cfg = Some ks -> exists vk, auth_of c ce = Some vk /\ In vk ks)) /\
       keys = Some (mkSK eph session) /\ o = opts_with cfg maxw ce o0 (granted l0) /\
       used = used_with c cfg maxw ce (Some (granted l0, eph))))).
  { intros ->. destruct (sc_auth cfg).
    - split; [discriminate|]. intros (_ & [((? & _) & _)|(l1 & se & (? & ? & _) & _)]); congruence.
    - split.
      + intros [= <- <- <-]. split; [assumption|]. left. auto.
      + intros (_ & [(_ & -> & -> & ->)|(l1 & se & (? & ? & _) & _)]); [reflexivity|congruence]. }
  set (base := mkExts (option_map show_num (n_block cfg ce)) (option_map show_num (n_timeout cfg ce))
         (option_map show_num (n_tsize ce)) (Some (level_show (granted l)))
         (option_map show_num (n_window maxw ce)) (Some (encode_key (c_pub c eph)))).
  set (ua := fun auth : option bytes => match sc_key cfg, auth with
    | Some sk, Some _ => base (Some (encode_key (c_vk c sk))) (Some (encode_key (c_sign c sk (c_pub c eph))))
    | _, _ => base None None end).
  assert (UA : ua (auth_of c ce) = used_with c cfg maxw ce (Some (granted l, eph)))
    by (unfold ua, base, used_with; destruct (sc_key cfg), (auth_of c ce); reflexivity).
  assert (AC : forall g, g = granted l -> l <> LNone -> (l = LFull -> op_enc o0 = LFull) ->
    match (match ext_get ce SessionPublicKey with
           | Some v => match decode_public_key v with Some a => Ok (Some a) | None => Err EEncryption end
           | None => Ok None end : res ext_err (option bytes)) with
    | Ok None => Err EInvalidPublicKey
    | Ok (Some session) =>
        match (match ext_get ce AuthPublicKey with
           | Some v => match decode_verifying_key (c_vk_ok c) v with Some a => Ok (Some a) | None => Err EEncryption end
           | None => Ok None end : res ext_err (option bytes)) with
        | Ok auth =>
            match check_signature c ce session auth with
            | Ok _ =>
                match (match sc_auth cfg with
                       | None => Ok tt
                       | Some ks => match auth with None => Err EInvalidPublicKey
                                    | Some k => if in_keys k ks then Ok tt else Err ENotAuthorized end
                       end : res ext_err unit) with
                | Ok _ => Ok (ua auth, opts_with cfg maxw ce o0 g, Some (mkSK eph session))
                | Err e => Err e | Panic => Panic end
            | Err e => Err e | Panic => Panic end
        | Err e => Err e | Panic => Panic end
    | Err e => Err e | Panic => Panic end = Ok (used, o, keys) <->
    (sc_full cfg = true -> op_enc o0 = LFull) /\
    ((sc_auth cfg = None /\ (Some s = None \/ Some l = Some LNone)) /\ keys = None /\
      o = opts_with cfg maxw ce o0 (op_enc o0) /\ used = used_with c cfg maxw ce None \/
     (exists l0 session, (Some l = Some l0 /\ l0 <> LNone /\ (l0 = LFull -> op_enc o0 = LFull) /\
       session_of ce = Some session /\ (ext_get ce AuthPublicKey = None \/ auth_of c ce <> None) /\
       check_signature c ce session (auth_of c ce) = Ok tt /\
       (forall ks, sc_auth cfg = Some ks -> exists vk, auth_of c ce = Some vk /\ In vk ks)) /\
       keys = Some (mkSK eph session) /\ o = opts_with cfg maxw ce o0 (granted l0) /\
       used = used_with c cfg maxw ce (Some (granted l0, eph))))).
  { intros g -> NL FLL. unfold session_of.
    assert (X : forall P : Prop, ((sc_auth cfg = None /\ (Some s = None \/ Some l = Some LNone)) /\ P) -> False)
      by (intros P ((_ & [?|?]) & _); congruence).
    destruct (ext_get ce SessionPublicKey) as [v|].
    2: { split; [discriminate|]. intros (_ & [H|(l0 & se & (_ & _ & _ & ? & _) & _)]); [destruct (X _ H)|discriminate]. }
    destruct (decode_public_key v) as [session|].
    2: { split; [discriminate|]. intros (_ & [H|(l0 & se & (_ & _ & _ & ? & _) & _)]); [destruct (X _ H)|discriminate]. }
    assert (Y : forall auth,
      match check_signature c ce session auth with
            | Ok _ =>
                match (match sc_auth cfg with
                       | None => Ok tt
                       | Some ks => match auth with None => Err EInvalidPublicKey
                                    | Some k => if in_keys k ks then Ok tt else Err ENotAuthorized end
                       end : res ext_err unit) with
                | Ok _ => Ok (ua auth, opts_with cfg maxw ce o0 (granted l), Some (mkSK eph session))
                | Err e => Err e | Panic => Panic end
            | Err e => Err e | Panic => Panic end = Ok (used, o, keys) <->
      (check_signature c ce session auth = Ok tt /\
       (forall ks, sc_auth cfg = Some ks -> exists vk, auth = Some vk /\ In vk ks)) /\
       keys = Some (mkSK eph session) /\ o = opts_with cfg maxw ce o0 (granted l) /\
       used = ua auth).
    { intros auth. destruct (check_signature_cases c ce session auth) as [->|[e ->]].
      2: { split; [discriminate|]. intros ((? & _) & _). discriminate. }
      destruct (sc_auth cfg) as [ks|].
      - destruct auth as [k|].
        + destruct (in_keys k ks) eqn:I.
          * apply in_keys_In in I. split.
            -- intros [= <- <- <-]. split; [|auto]. split; [reflexivity|]. intros ? [= <-]. eauto.
            -- intros (_ & -> & -> & ->). reflexivity.
          * split; [discriminate|]. intros ((_ & H) & _). destruct (H _ eq_refl) as (vk & [= <-] & J).
            apply in_keys_In in J. congruence.
        + split; [discriminate|]. intros ((_ & H) & _). destruct (H _ eq_refl) as (vk & ? & J). discriminate.
      - split.
        + intros [= <- <- <-]. split; [|auto]. split; [reflexivity|]. discriminate.
        + intros (_ & -> & -> & ->). reflexivity. }
    assert (Z : forall A : Prop, ((ext_get ce AuthPublicKey = None \/ auth_of c ce <> None) /\ (A <->
        (check_signature c ce session (auth_of c ce) = Ok tt /\
       (forall ks, sc_auth cfg = Some ks -> exists vk, auth_of c ce = Some vk /\ In vk ks)) /\
       keys = Some (mkSK eph session) /\ o = opts_with cfg maxw ce o0 (granted l) /\
       used = used_with c cfg maxw ce (Some (granted l, eph)))) ->
      (A <-> (sc_full cfg = true -> op_enc o0 = LFull) /\
    ((sc_auth cfg = None /\ (Some s = None \/ Some l = Some LNone)) /\ keys = None /\
      o = opts_with cfg maxw ce o0 (op_enc o0) /\ used = used_with c cfg maxw ce None \/
     (exists l0 session0, (Some l = Some l0 /\ l0 <> LNone /\ (l0 = LFull -> op_enc o0 = LFull) /\
       Some session = Some session0 /\ (ext_get ce AuthPublicKey = None \/ auth_of c ce <> None) /\
       check_signature c ce session0 (auth_of c ce) = Ok tt /\
       (forall ks, sc_auth cfg = Some ks -> exists vk, auth_of c ce = Some vk /\ In vk ks)) /\
       keys = Some (mkSK eph session0) /\ o = opts_with cfg maxw ce o0 (granted l0) /\
       used = used_with c cfg maxw ce (Some (granted l0, eph)))))).
    { intros A [HA ->]. split.
      - intros ((C1 & C2) & C3). split; [assumption|]. right. exists l, session. tauto.
      - intros (_ & [H|(l0 & se & ([= <-] & _ & _ & [= <-] & ? & ? & ?) & ?)]); [destruct (X _ H)|tauto]. }
    clear PL. rewrite <- UA in Z. clearbody ua. unfold auth_of in *. revert Z. destruct (ext_get ce AuthPublicKey) as [va|]; intros Z.
    - revert Z. destruct (decode_verifying_key (c_vk_ok c) va) as [vk|]; intros Z.
      + apply Z. split; [right; discriminate|]. exact (Y (Some vk)).
      + split; [discriminate|].
        intros (_ & [H|(l0 & se & (_ & _ & _ & _ & [?|?] & _) & _)]); [destruct (X _ H)|congruence|congruence].
    - apply Z. split; [auto|]. exact (Y None). }
  destruct l.
  - exact (AC LData eq_refl ltac:(discriminate) ltac:(discriminate)).
  - exact (AC LProtocol eq_refl ltac:(discriminate) ltac:(discriminate)).
  - destruct (op_enc o0) eqn:E0; cbn [level_eqb negb];
      try (split; [discriminate|]; intros (_ & [((_ & [?|?]) & _)|(l0 & se & ([= <-] & _ & H & _) & _)]);
           [discriminate|discriminate|specialize (H eq_refl); discriminate]).
    exact (AC LFull eq_refl ltac:(discriminate) ltac:(auto)).
  - exact (AC LData eq_refl ltac:(discriminate) ltac:(discriminate)).
  - exact (AC LProtocol eq_refl ltac:(discriminate) ltac:(discriminate)).
  - exact (PL eq_refl).
Qed.

(** ** Client *)
Lemma parse_or0_asks max s lo n : 1 <= lo -> lo <= parse_or0 max s -> n = parse_or0 max s -> decimal s n /\ n <= max.
Proof.
  intros Hl H ->. unfold parse_or0 in *. destruct (parse_num max s) as [m|] eqn:E; [|lia].
  now apply parse_num_spec in E.
Qed.
Lemma asks_parse ce e max n : asks ce e max n <-> exists s, ext_get ce e = Some s /\ parse_num max s = Some n.
Proof.
  unfold asks. split; intros (s & G & P); exists s; (split; [assumption|]); now apply parse_num_spec in P || apply parse_num_spec.
Qed.
Lemma asks_unique ce e max max' n m : asks ce e max n -> asks ce e max' m -> n = m.
Proof. intros (s & G & D & _) (s' & G' & D' & _). rewrite G in G'. injection G' as <-. eapply decimal_unique; eauto. Qed.

Lemma cl_block_ok se o o2 : cl_block se o = Ok o2 ->
  o2 = set_bs o (op_bs o2) /\
  ((ext_get se BlockSize = None /\ op_bs o2 = 512) \/
   (asks se BlockSize U16_MAX (op_bs o2) /\ 512 <= op_bs o2 <= op_bs o)).
Proof.
  unfold cl_block. destruct (ext_get se BlockSize) as [s|] eqn:E.
  - destruct (within_range _ _ _) eqn:W; [|discriminate]. intros [= <-]. split; [now destruct o|].
    right. unfold within_range in W. change EXTENSION_BLOCK_SIZE_MIN with 512 in W. cbn [set_bs op_bs].
    split; [|lia]. exists s. split; [assumption|]. apply (parse_or0_asks _ _ 512); lia.
  - intros [= <-]. split; [now destruct o|]. left. auto.
Qed.
Lemma cl_window_ok se o o2 : cl_window se o = Ok o2 ->
  o2 = set_window o (op_window o2) /\
  ((ext_get se WindowSize = None /\ op_window o2 = 1) \/
   (asks se WindowSize U16_MAX (op_window o2) /\ 1 <= op_window o2 <= op_window o)).
Proof.
  unfold cl_window. destruct (ext_get se WindowSize) as [s|] eqn:E.
  - destruct (within_range _ _ _) eqn:W; [|discriminate]. intros [= <-]. split; [now destruct o|].
    right. unfold within_range in W. change EXTENSION_WINDOW_SIZE_MIN with 1 in W. cbn [set_window op_window].
    split; [|lia]. exists s. split; [assumption|]. apply (parse_or0_asks _ _ 1); lia.
  - intros [= <-]. split; [now destruct o|]. left. auto.
Qed.
Lemma cl_timeout_ok se o o2 : cl_timeout se o = Ok o2 ->
  o2 = set_retry o (op_retry o2) /\
  ((ext_get se Timeout = None /\ op_retry o2 = 80) \/
   (exists t, asks se Timeout U8_MAX t /\ 1 <= t <= 255 /\ op_retry o2 = t * 1000)).
Proof.
  unfold cl_timeout. destruct (ext_get se Timeout) as [s|] eqn:E.
  - destruct (within_range _ _ _) eqn:W; [|discriminate]. intros [= <-]. split; [now destruct o|].
    right. unfold within_range in W. change EXTENSION_TIMEOUT_SIZE_MIN with 1 in W.
    change EXTENSION_TIMEOUT_SIZE_MAX with 255 in W. cbn [set_retry op_retry].
    exists (parse_or0 U8_MAX s). split; [|split; [lia|reflexivity]].
    exists s. split; [assumption|]. apply (parse_or0_asks _ _ 1); lia.
  - intros [= <-]. split; [now destruct o|]. left. auto.
Qed.
Lemma cl_tsize_ok se o o2 : cl_tsize se o = Ok o2 ->
  o2 = set_size o (op_size o2) /\
  match op_size o, ext_get se TransferSize with
  | _, None => op_size o2 = op_size o
  | (None | Some 0), Some s => op_size o2 = Some (parse_or0 U64_MAX s)
  | Some n, Some s => op_size o2 = Some n /\ decimal s n
  end.
Proof.
  unfold cl_tsize. destruct (ext_get se TransferSize) as [s|] eqn:E.
  2: { intros [= <-]. split; [now destruct o|]. destruct (op_size o) as [[|]|]; reflexivity. }
  destruct (op_size o) as [[|n]|] eqn:EO; try (intros [= <-]; split; [now destruct o|reflexivity]).
  destruct (N.eqb_spec (N.pos n) (parse_or0 U64_MAX s)) as [H|]; [|discriminate]. intros [= <-].
  rewrite EO. split; [destruct o; cbn in *; now rewrite EO|]. split; [reflexivity|].
  destruct (parse_or0_asks U64_MAX s 1 (N.pos n)); auto; lia.
Qed.
Lemma cl_enc_ok c se o o2 kp : cl_enc c se o = Ok (o2, kp) ->
  o2 = set_enc o (op_enc o2) /\
  ((op_enc o = LNone /\ op_enc o2 = LNone /\ kp = None) \/
   ((op_enc o = LOptData \/ op_enc o = LOptProtocol) /\ op_enc o2 = LNone /\ kp = None /\
    (ext_get se EncLevel = None \/ asked_level se = Some LNone)) \/
   (exists s ts session, op_enc o <> LNone /\ ext_get se EncLevel = Some s /\ level_parse s = Some (op_enc o2) /\
      ((op_enc o = LData \/ op_enc o = LProtocol) -> op_enc o2 = LData \/ op_enc o2 = LProtocol) /\
      ext_get se SessionPublicKey = Some ts /\ decode_public_key ts = Some session /\
      kp = Some (mkKP (auth_of c se) session) /\
      (ext_get se AuthPublicKey <> None -> auth_of c se <> None) /\
      check_signature c se session (auth_of c se) = Ok tt)).
Proof.
  unfold cl_enc. destruct (level_eqb (op_enc o) LNone) eqn:EN.
  { intros [= <- <-]. split; [now destruct o|]. left. destruct (op_enc o); try discriminate. auto. }
  unfold opt_decode. destruct (ext_get se EncLevel) as [s|] eqn:EL; cbn [bind].
  - destruct (level_parse s) as [l|] eqn:LP; [|discriminate]. cbn [bind].
    assert (K : (match op_enc o with LData | LProtocol => true | _ => false end
         && negb (match Some l with Some (LData | LProtocol) => true | _ => false end) = true) \/
       ((op_enc o = LData \/ op_enc o = LProtocol) -> l = LData \/ l = LProtocol)).
    { destruct (op_enc o), l; cbn; intuition congruence. }
    assert (R : (if match op_enc o with LData | LProtocol => true | _ => false end
         && negb (match Some l with Some (LData | LProtocol) => true | _ => false end)
      then Err (EClientRequired (op_enc o))
      else match Some l with
        | None => Err (EInvalidExtension EncLevel)
        | Some l =>
            bind (match ext_get se SessionPublicKey with
             | Some v => match decode_public_key v with Some a => Ok (Some a) | None => Err EEncryption end
             | None => Ok None end) (fun session =>
            match session with
            | None => Err (EInvalidExtension SessionPublicKey)
            | Some session =>
                bind (match ext_get se AuthPublicKey with
             | Some v => match decode_verifying_key (c_vk_ok c) v with Some a => Ok (Some a) | None => Err EEncryption end
             | None => Ok None end) (fun auth =>
                bind (check_signature c se session auth) (fun _ =>
                Ok (set_enc o l, Some (mkKP auth session))))
            end)
        end) = Ok (o2, kp) ->
      o2 = set_enc o (op_enc o2) /\
   ((op_enc o = LNone /\ op_enc o2 = LNone /\ kp = None) \/
   ((op_enc o = LOptData \/ op_enc o = LOptProtocol) /\ op_enc o2 = LNone /\ kp = None /\
    (Some s = None \/ asked_level se = Some LNone)) \/
   (exists s0 ts session, op_enc o <> LNone /\ Some s = Some s0 /\ level_parse s0 = Some (op_enc o2) /\
      ((op_enc o = LData \/ op_enc o = LProtocol) -> op_enc o2 = LData \/ op_enc o2 = LProtocol) /\
      ext_get se SessionPublicKey = Some ts /\ decode_public_key ts = Some session /\
      kp = Some (mkKP (auth_of c se) session) /\
      (ext_get se AuthPublicKey <> None -> auth_of c se <> None) /\
      check_signature c se session (auth_of c se) = Ok tt))).
    { destruct K as [->|K]; [discriminate|]. destruct (_ && _); [discriminate|]. cbv iota.
      destruct (ext_get se SessionPublicKey) as [ts|] eqn:ES; cbn [bind]; [|discriminate].
      destruct (decode_public_key ts) as [session|] eqn:DP; cbn [bind]; [|discriminate].
      unfold auth_of. destruct (ext_get se AuthPublicKey) as [va|] eqn:EA; cbn [bind].
      - destruct (decode_verifying_key _ va) as [vk|]; cbn [bind]; [|discriminate].
        destruct (check_signature c se session (Some vk)) as [[]| |] eqn:CS; cbn [bind]; try discriminate.
        intros [= <- <-]. split; [reflexivity|]. right; right. exists s, ts, session.
        cbn [op_enc set_enc]. repeat split; auto; try discriminate. intros E. rewrite E in EN. discriminate.
      - destruct (check_signature c se session None) as [[]| |] eqn:CS; cbn [bind]; try discriminate.
        intros [= <- <-]. split; [reflexivity|]. right; right. exists s, ts, session.
        cbn [op_enc set_enc]. repeat split; auto; try discriminate. intros E. rewrite E in EN. discriminate. }
    intros H. destruct (op_enc o) eqn:EO; try exact (R H).
    + destruct (match l with LNone => true | _ => false end) eqn:LN.
      * destruct l; try discriminate. injection H as <- <-. split; [destruct o; reflexivity|].
        right; left. cbn [op_enc set_enc]. repeat split; auto; right; unfold asked_level; now rewrite EL.
      * apply R. destruct l; try discriminate; exact H.
    + destruct (match l with LNone => true | _ => false end) eqn:LN.
      * destruct l; try discriminate. injection H as <- <-. split; [destruct o; reflexivity|].
        right; left. cbn [op_enc set_enc]. repeat split; auto; right; unfold asked_level; now rewrite EL.
      * apply R. destruct l; try discriminate; exact H.
  - destruct (op_enc o); try discriminate.
    + intros [= <- <-]. split; [destruct o; reflexivity|]. right; left. cbn [op_enc set_enc]. auto.
    + intros [= <- <-]. split; [destruct o; reflexivity|]. right; left. cbn [op_enc set_enc]. auto.
Qed.

Lemma check_signature_panic c es session auth : check_signature c es session auth <> Panic.
Proof. destruct (check_signature_cases c es session auth) as [->|[e ->]]; discriminate. Qed.
Lemma server_parse_total c cfg maxw eph ce o0 : server_parse c cfg maxw eph ce o0 <> Panic.
Proof.
  unfold server_parse. rewrite srv_chain. cbv zeta. cbn [op_enc]. unfold opt_decode.
  repeat first
    [ discriminate
    | match goal with
      | |- context [check_signature c ce ?s ?a] =>
          pose proof (check_signature_panic c ce s a); destruct (check_signature c ce s a); cbn [bind]; try congruence
      | |- context [match ?x with _ => _ end] => destruct x; cbn [bind]
      | |- context [if ?x then _ else _] => destruct x; cbn [bind]
      end ].
Qed.
