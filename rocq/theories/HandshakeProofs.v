(** Lemmas about the first exchange. *)
From Verif Require Import Base BaseProofs PacketModel PacketSpec PacketProofs ReaderModel ConfigModel Base64Model Base64Proofs
  CryptoModel CryptoSpec CryptoProofs ExtModel ExtSpec ExtProofs PathModel HandshakeModel.

Lemma from_new_cases c cfg d :
  from_new_connection c cfg d = (d, None, default_options) \/
  exists sk p data, sc_key cfg = Some sk /\ parse_initial d = Some p /\
    dec_initial c (c_dh c (c_scalar c sk) (snd p)) p = Ok data /\
    from_new_connection c cfg d = (data, Some (c_dh c (c_scalar c sk) (snd p)), set_enc default_options LFull).
Proof.
  unfold from_new_connection. destruct (sc_key cfg) as [sk|]; [|auto].
  destruct (parse_initial d) as [p|]; [|auto]. cbv zeta.
  destruct (dec_initial c _ p) as [data| |] eqn:E; auto.
  right. exists sk, p, data. auto.
Qed.
Lemma from_new_fresh c cfg d buf hs o0 : from_new_connection c cfg d = (buf, hs, o0) ->
  o0 = set_enc default_options (op_enc o0) /\
  (hs = None -> buf = d /\ o0 = default_options) /\ (hs <> None -> op_enc o0 = LFull).
Proof.
  intros H. destruct (from_new_cases c cfg d) as [E|(sk & p & data & _ & _ & _ & E)]; rewrite H in E; injection E as -> -> ->;
    cbn; repeat split; congruence.
Qed.

(** The reply of an accepted request. *)
Definition answer_of (used : exts) (write : bool) : option packet :=
  if 0 <? ext_len used then Some (POack used) else if write then Some (PAck 0) else None.

Lemma accept_inv c env buflen e used keys e' reply :
  accept_connection c env buflen e used keys = SAccepted e' reply <->
  e' = mkEst (es_write e) (es_path e) (es_opts e)
         (match keys with Some k => Some (c_dh c (sk_secret k) (sk_remote k)) | None => es_key e end) (es_reader e) /\
  match answer_of used (es_write e) with
  | Some p => exists w, reply = Some w /\ send_packet c (es_opts e) (es_key e) buflen env p = Some w
  | None => reply = None
  end.
Proof.
  unfold accept_connection, answer_of.
  assert (K : match keys with
              | Some k => mkEst (es_write e) (es_path e) (es_opts e) (Some (c_dh c (sk_secret k) (sk_remote k))) (es_reader e)
              | None => e end = mkEst (es_write e) (es_path e) (es_opts e)
         (match keys with Some k => Some (c_dh c (sk_secret k) (sk_remote k)) | None => es_key e end) (es_reader e))
    by (destruct keys, e; reflexivity).
  rewrite K.
  assert (A : forall p, match send_packet c (es_opts e) (es_key e) buflen env p with
    | Some w => SAccepted (mkEst (es_write e) (es_path e) (es_opts e)
         (match keys with Some k => Some (c_dh c (sk_secret k) (sk_remote k)) | None => es_key e end) (es_reader e)) (Some w)
    | None => SRefused None end = SAccepted e' reply <->
    e' = mkEst (es_write e) (es_path e) (es_opts e)
         (match keys with Some k => Some (c_dh c (sk_secret k) (sk_remote k)) | None => es_key e end) (es_reader e) /\
    exists w, reply = Some w /\ send_packet c (es_opts e) (es_key e) buflen env p = Some w).
  { intros p. destruct (send_packet _ _ _ _ _ p) as [w|].
    - split; [intros [= <- <-]; eauto|]. intros (-> & w' & -> & [= <-]). reflexivity.
    - split; [discriminate|]. intros (_ & w' & _ & ?). discriminate. }
  destruct (0 <? ext_len used); [apply A|]. destruct (es_write e) eqn:W; [apply A|].
  split; [intros [= <- <-]; auto|]. intros (-> & ->). reflexivity.
Qed.

(** Everything that is known about an accepted request. *)
Record accepted_facts (c : crypto) (cfg : scfg) (env : henv) (av : avail) (d : bytes) (e : est) (reply : option bytes) : Prop := {
  af_ex : exists buf hs o0 r used o keys size,
    from_new_connection c cfg d = (buf, hs, o0) /\
    from_bytes buf = Ok (if es_write e then PWrite r else PRead r) /\
    server_parse c cfg (sc_max_window cfg) (h_eph env) (rq_exts r) o0 = Ok (used, o, keys) /\
    validate_request_options (sc_max_size cfg) (rq_name r) (op_size o) = Ok (es_path e) /\
    h_open env (es_path e) = Some size /\
    es_opts e = (if es_write e then o else set_size o size) /\
    es_key e = match keys with Some k => Some (c_dh c (sk_secret k) (sk_remote k)) | None => hs end /\
    (if es_write e then es_reader e = None
     else es_reader e = block_reader (es_opts e) av (sc_seek cfg) /\ es_reader e <> None) /\
    match answer_of (if es_write e then used else answer_size size used) (es_write e) with
    | Some p => exists w, reply = Some w /\ send_packet c (es_opts e) hs (blen buf) env p = Some w
    | None => reply = None
    end }.

Lemma server_new_accepted c cfg env av d e reply :
  server_new c cfg env av d = SAccepted e reply -> accepted_facts c cfg env av d e reply.
Proof.
  intros H. constructor. unfold server_new in H.
  destruct (from_new_connection c cfg d) as [[buf hs] o0] eqn:FN.
  assert (SV : forall (write : bool) r, from_bytes buf = Ok (if write then PWrite r else PRead r) ->
    match server_parse c cfg (sc_max_window cfg) (h_eph env) (rq_exts r) o0 with
    | Panic => SPanic
    | Err e => SRefused (reply_with_error c cfg o0 hs env (PError IllegalOperation (h_text env e)))
    | Ok (used, o, keys) =>
        if write then build_writer c cfg env (blen buf) hs (rq_name r) used o keys
        else build_reader c cfg env av (blen buf) hs (rq_name r) used o keys
    end = SAccepted e reply ->
    exists buf' hs' o0' r used o keys size,
    (buf, hs, o0) = (buf', hs', o0') /\
    from_bytes buf' = Ok (if es_write e then PWrite r else PRead r) /\
    server_parse c cfg (sc_max_window cfg) (h_eph env) (rq_exts r) o0' = Ok (used, o, keys) /\
    validate_request_options (sc_max_size cfg) (rq_name r) (op_size o) = Ok (es_path e) /\
    h_open env (es_path e) = Some size /\
    es_opts e = (if es_write e then o else set_size o size) /\
    es_key e = match keys with Some k => Some (c_dh c (sk_secret k) (sk_remote k)) | None => hs' end /\
    (if es_write e then es_reader e = None
     else es_reader e = block_reader (es_opts e) av (sc_seek cfg) /\ es_reader e <> None) /\
    match answer_of (if es_write e then used else answer_size size used) (es_write e) with
    | Some p => exists w, reply = Some w /\ send_packet c (es_opts e) hs' (blen buf') env p = Some w
    | None => reply = None
    end).
  { intros write r FB S.
    destruct (server_parse c cfg (sc_max_window cfg) (h_eph env) (rq_exts r) o0) as [[[used o] keys]| |] eqn:SP; try discriminate.
    destruct write.
    - unfold build_writer in S. destruct (validate_request_options _ _ _) as [path| |] eqn:V; try discriminate.
      destruct (h_open env path) as [size|] eqn:HO.
      2: { unfold open_failed in S. destruct (ensure_size _ _); discriminate. }
      destruct (h_bind env); [|discriminate]. apply accept_inv in S. destruct S as [-> S].
      cbn [es_write es_path es_opts es_key es_reader] in *.
      exists buf, hs, o0, r, used, o, keys, size. repeat split; auto.
    - unfold build_reader in S. destruct (validate_request_options _ _ _) as [path| |] eqn:V; try discriminate.
      destruct (h_open env path) as [size|] eqn:HO.
      2: { unfold open_failed in S. destruct (ensure_size _ _); discriminate. }
      cbv zeta in S. destruct (h_bind env); [|discriminate].
      destruct (block_reader _ _ _) as [rd|] eqn:BR; [|discriminate].
      apply accept_inv in S. destruct S as [-> S].
      cbn [es_write es_path es_opts es_key es_reader] in *.
      exists buf, hs, o0, r, used, o, keys, size. repeat split; auto. discriminate. }
  destruct (from_bytes buf) as [p| |] eqn:FB; try discriminate.
  destruct p as [r|r|b x|b|co m|m]; try discriminate.
  - exact (SV false r eq_refl H).
  - exact (SV true r eq_refl H).
Qed.
