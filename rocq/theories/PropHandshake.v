(** The first exchange: C20, C22-C25, C40. *)
From Verif Require Import Base BaseProofs PacketModel PacketSpec PacketProofs ReaderModel ConfigModel Base64Model Base64Proofs
  CryptoModel CryptoSpec CryptoProofs ExtModel ExtSpec ExtProofs PathModel HandshakeModel HandshakeProofs PropExt.

(** The request carried by a datagram: in clear, or as an initial packet sealed for the
    server's key. *)
Definition is_request (p : bytes) (r : request) : Prop :=
  from_bytes p = Ok (PRead r) \/ from_bytes p = Ok (PWrite r).
Definition sealed_initial (c : crypto) (cfg : scfg) (d p : bytes) (key : bytes) : Prop :=
  exists sk ct tag nonce pk padded, sc_key cfg = Some sk /\ d = ct ++ tag ++ nonce ++ pk /\
    blen tag = 16 /\ blen nonce = 24 /\ blen pk = 32 /\
    key = c_dh c (c_scalar c sk) pk /\ c_seal c key nonce padded = (ct, tag) /\
    remove_bit_padding padded = Ok p.
Definition carries (c : crypto) (cfg : scfg) (d : bytes) (r : request) : Prop :=
  is_request d r \/ exists p key, sealed_initial c cfg d p key /\ is_request p r.

Lemma app_len_inj (a b x y : bytes) : a ++ x = b ++ y -> blen x = blen y -> a = b /\ x = y.
Proof.
  intros E L. assert (LA : blen a = blen b).
  { apply (f_equal blen) in E. rewrite !blen_app in E. lia. }
  split.
  - rewrite <- (takeN_app_exact a x (blen a)), <- (takeN_app_exact b y (blen a)) by auto. now rewrite E.
  - rewrite <- (dropN_app_exact a x (blen a)), <- (dropN_app_exact b y (blen a)) by auto. now rewrite E.
Qed.
Lemma parse_initial_inv d a n pk : parse_initial d = Some (a, n, pk) ->
  d = a ++ n ++ pk /\ blen n = 24 /\ blen pk = 32 /\ 16 <= blen a.
Proof.
  unfold parse_initial. change KEY_SIZE with 32. change ENCRYPTION_NONCE_SIZE with 24. change ENCRYPTION_TAG_SIZE with 16.
  destruct (rslice 32 0 d) as [p|] eqn:E1; [|discriminate].
  destruct (rslice 24 32 d) as [m|] eqn:E2; [|discriminate]. cbv zeta.
  destruct (blen _ <? 16) eqn:L; [discriminate|]. intros [= <- <- <-].
  apply rslice_some in E1. apply rslice_some in E2. destruct E1 as [_ ->]. destruct E2 as [L2 ->].
  rewrite blen_takeN in L.
  assert (B : blen (dropN (blen d - 24 - 32) d) = 56) by (rewrite blen_dropN; lia).
  assert (E : dropN (blen d - 24 - 32) d = takeN 24 (dropN (blen d - 24 - 32) d) ++ takeN 32 (dropN (blen d - 32 - 0) d)).
  { rewrite <- (takeN_dropN 24 (dropN (blen d - 24 - 32) d)) at 1. f_equal.
    rewrite dropN_dropN. replace (blen d - 24 - 32 + 24) with (blen d - 32 - 0) by lia.
    rewrite takeN_all; [reflexivity|]. rewrite blen_dropN. lia. }
  split; [|repeat split].
  - rewrite <- E. replace (blen d - 56) with (blen d - 24 - 32) by lia. symmetry. apply takeN_dropN.
  - rewrite blen_takeN. lia.
  - rewrite blen_takeN, blen_dropN. lia.
  - rewrite blen_takeN. lia.
Qed.

Lemma sealed_intro c cfg d sk p data : crypto_ok c -> sc_key cfg = Some sk -> parse_initial d = Some p ->
  dec_initial c (c_dh c (c_scalar c sk) (snd p)) p = Ok data ->
  sealed_initial c cfg d data (c_dh c (c_scalar c sk) (snd p)).
Proof.
  intros HC HK HP HD. destruct p as [[a n] pk]. cbn [snd] in *. apply parse_initial_inv in HP.
  destruct HP as (-> & Hn & Hpk & Ha).
  unfold dec_initial in HD. apply dec_packet_ok in HD; [|assumption].
  destruct HD as (ct & tag & n' & b & EQ & Hn' & SL & RP).
  rewrite app_assoc in EQ. apply app_len_inj in EQ; [|lia]. destruct EQ as [-> <-].
  exists sk, ct, tag, n, pk, b. rewrite <- app_assoc. repeat split; auto.
  pose proof (ok_seal_len c HC (c_dh c (c_scalar c sk) pk) n b) as [_ T]. rewrite SL in T. exact T.
Qed.

Lemma accepted_carries c cfg env av d e reply : crypto_ok c -> server_new c cfg env av d = SAccepted e reply ->
  exists r hs o0 used o keys size,
    carries c cfg d r /\
    (hs = None /\ o0 = default_options \/
     exists key p, hs = Some key /\ o0 = set_enc default_options LFull /\ sealed_initial c cfg d p key /\ is_request p r) /\
    server_parse c cfg (sc_max_window cfg) (h_eph env) (rq_exts r) o0 = Ok (used, o, keys) /\
    es_opts e = (if es_write e then o else set_size o size) /\
    es_key e = match keys with Some k => Some (c_dh c (sk_secret k) (sk_remote k)) | None => hs end.
Proof.
  intros HC H. apply server_new_accepted in H. destruct H as [(buf & hs & o0 & r & used & o & keys & size & FN & FB & SP & _ & _ & EO & EK & _ & _)].
  exists r, hs, o0, used, o, keys, size.
  assert (IR : is_request buf r) by (unfold is_request; destruct (es_write e); auto).
  destruct (from_new_cases c cfg d) as [E|(sk & p & data & K & P & D & E)]; rewrite FN in E; injection E as -> -> ->.
  - split; [now left|]. split; [auto|]. auto.
  - pose proof (sealed_intro c cfg d sk p data HC K P D) as S.
    split; [right; eauto|]. split; [right; eauto 10|]. auto.
Qed.

Lemma session_authorised c cfg ce o0 l session ks : session_ok c cfg ce o0 l session -> sc_auth cfg = Some ks ->
  authorised c ks ce session.
Proof.
  intros (_ & _ & _ & SE & _ & CS & AK) HK. destruct (AK _ HK) as (vk & AV & IN).
  unfold session_of in SE. unfold auth_of in AV, CS.
  destruct (ext_get ce SessionPublicKey) as [ts|] eqn:ES; [|discriminate].
  destruct (ext_get ce AuthPublicKey) as [ta|] eqn:EA; [|discriminate].
  rewrite check_signature_ok in CS. destruct (CS vk AV) as (_ & t & sg & G & D & V).
  exists ts, ta, t, vk, sg. auto 10.
Qed.

(** ** C22 only authorised keys get a session *)
Theorem authorised_only : forall c cfg env av d e reply ks, crypto_ok c -> sc_auth cfg = Some ks ->
  server_new c cfg env av d = SAccepted e reply ->
  exists r session, carries c cfg d r /\ authorised c ks (rq_exts r) session /\
    es_key e = Some (c_dh c (h_eph env) session) /\
    (op_enc (es_opts e) = LData \/ op_enc (es_opts e) = LProtocol \/ op_enc (es_opts e) = LFull).
Proof.
  intros c cfg env av d e reply ks HC HK H. apply accepted_carries in H; [|assumption].
  destruct H as (r & hs & o0 & used & o & keys & size & CA & _ & SP & EO & EK).
  apply server_parse_inv in SP. destruct SP as [_ [((N & _) & _)|(l & session & SO & -> & -> & _)]]; [congruence|].
  exists r, session. split; [assumption|]. split; [eapply session_authorised; eauto|]. split; [exact EK|].
  rewrite EO. destruct SO as (_ & NL & _).
  destruct (es_write e); cbn [op_enc set_size opts_with]; destruct l; cbn; auto; congruence.
Qed.

(** Without authorisation nothing is opened: the outcome is a refusal that does not depend
    on the file system (nor on the socket). *)
Theorem unauthorised_no_effect : forall c cfg av d ks, crypto_ok c -> sc_auth cfg = Some ks ->
  (forall r session, carries c cfg d r -> ~ authorised c ks (rq_exts r) session) ->
  forall eph nonce txt, exists reply, forall open bind send,
    server_new c cfg (mkHenv eph nonce open bind send txt) av d = SRefused reply.
Proof.
  intros c cfg av d ks HC HK NA eph nonce txt. unfold server_new. cbn [h_eph].
  destruct (from_new_connection c cfg d) as [[buf hs] o0] eqn:FN.
  destruct (from_bytes buf) as [p| |] eqn:FB; try (exists None; reflexivity).
  assert (CA : forall r, is_request buf r -> carries c cfg d r).
  { intros r IR. destruct (from_new_cases c cfg d) as [E|(sk & p' & data & K & P & D & E)]; rewrite FN in E; injection E as -> -> ->.
    - now left.
    - right. pose proof (sealed_intro c cfg d sk p' data HC K P D). eauto. }
  assert (NO : forall r, is_request buf r ->
    match server_parse c cfg (sc_max_window cfg) eph (rq_exts r) o0 with Err _ => True | _ => False end).
  { intros r IR. destruct (server_parse c cfg (sc_max_window cfg) eph (rq_exts r) o0) as [[[used o] keys]|err|] eqn:SP; [|exact I|].
    - apply server_parse_inv in SP. destruct SP as [_ [((N & _) & _)|(l & session & SO & _)]]; [congruence|].
      exact (NA r session (CA r IR) (session_authorised _ _ _ _ _ _ _ SO HK)).
    - exact (server_parse_total _ _ _ _ _ _ SP). }
  destruct p as [r|r|b x|b|co m|m]; try (exists None; reflexivity).
  - specialize (NO r (or_introl FB)). destruct (server_parse _ _ _ _ _ _) as [x|err|]; [contradiction| |contradiction].
    exists (reply_with_error c cfg o0 hs (mkHenv eph nonce (fun _ => None) false false txt) (PError IllegalOperation (txt err))). reflexivity.
  - specialize (NO r (or_intror FB)). destruct (server_parse _ _ _ _ _ _) as [x|err|]; [contradiction| |contradiction].
    exists (reply_with_error c cfg o0 hs (mkHenv eph nonce (fun _ => None) false false txt) (PError IllegalOperation (txt err))). reflexivity.
Qed.
Print Assumptions authorised_only.
Print Assumptions unauthorised_no_effect.

(** ** C23 what "full encryption required" guarantees *)
Theorem full_requires_sealed_request : forall c cfg env av d e reply, crypto_ok c -> sc_full cfg = true ->
  server_new c cfg env av d = SAccepted e reply ->
  exists r key p, sealed_initial c cfg d p key /\ is_request p r /\
    es_key e <> None /\
    (op_enc (es_opts e) = LFull \/ op_enc (es_opts e) = LProtocol \/ op_enc (es_opts e) = LData) /\
    (* the level is lowered to the data level exactly on demand *)
    (op_enc (es_opts e) = LData <->
     exists s, ext_get (rq_exts r) EncLevel = Some s /\ (s = s2b "data" \/ s = s2b "optional-data")).
Proof.
  intros c cfg env av d e reply HC HF H. apply accepted_carries in H; [|assumption].
  destruct H as (r & hs & o0 & used & o & keys & size & CA & HS & SP & EO & EK).
  apply server_parse_inv in SP. destruct SP as [F SP]. specialize (F HF).
  destruct HS as [[_ ->]|(key & p & -> & -> & S & IR)]; [discriminate F|].
  exists r, key, p. split; [assumption|]. split; [assumption|].
  assert (EE : op_enc (es_opts e) = op_enc o) by (rewrite EO; destruct (es_write e); reflexivity).
  rewrite EE. destruct SP as [((_ & PL) & -> & -> & _)|(l & session & (AL & NL & _) & -> & -> & _)].
  - split; [congruence|]. cbn [opts_with op_enc set_enc default_options]. split; [auto|]. split; [discriminate|].
    intros (s & G & Hs). exfalso. unfold asked_level in PL. rewrite G in PL.
    destruct PL as [?|PL]; [discriminate|]. destruct Hs as [-> | ->]; discriminate PL.
  - split; [rewrite EK; discriminate|].
    unfold asked_level in AL. destruct (ext_get (rq_exts r) EncLevel) as [s|] eqn:G; [|discriminate].
    cbn [opts_with op_enc].
    split; [destruct l; cbn; auto; congruence|]. apply level_names in AL. subst s. split.
    + intros E. exists (level_show l). split; [reflexivity|]. destruct l; cbn in *; try discriminate; auto.
    + intros (s & [= <-] & Hs). destruct l; cbn in *; auto; destruct Hs; discriminate.
Qed.
Print Assumptions full_requires_sealed_request.

(** ** C20 the client's side of the negotiation *)
Theorem client_accepts_at_most_requested : forall c cfg write initial o used sp txt p q,
  query_step c cfg write initial o used sp txt p = QDone q -> q_ack q = true ->
  exists se, from_bytes p = Ok (POack se) /\
    (* only requested options *)
    (forall e, ext_get se e <> None -> ext_get used e <> None) /\
    (* block size and window: the default, or the answer, which is within the request *)
    (ext_get se BlockSize = None -> op_bs (q_opts q) = 512) /\
    (ext_get se BlockSize <> None ->
       asks se BlockSize U16_MAX (op_bs (q_opts q)) /\ 512 <= op_bs (q_opts q) <= op_bs o) /\
    (ext_get se WindowSize = None -> op_window (q_opts q) = 1) /\
    (ext_get se WindowSize <> None ->
       asks se WindowSize U16_MAX (op_window (q_opts q)) /\ 1 <= op_window (q_opts q) <= op_window o) /\
    (ext_get se Timeout = None -> op_retry (q_opts q) = 80) /\
    (ext_get se Timeout <> None ->
       exists t, asks se Timeout U8_MAX t /\ 1 <= t <= 255 /\ op_retry (q_opts q) = t * 1000) /\
    (* an upload of known size is only accepted if the server repeats the size *)
    (forall n, op_size o = Some n -> 0 < n -> op_size (q_opts q) = Some n /\
       (ext_get se TransferSize = None \/ asks se TransferSize n n)).
Proof.
  intros c cfg write initial o used sp txt p q H HA. unfold query_step in H.
  destruct (_ && _) eqn:PC; [discriminate|].
  destruct (from_bytes p) as [pk| |]; try discriminate.
  destruct pk as [r|r|b x|b|code m|se]; try discriminate.
  { destruct write; [discriminate|]. injection H as <-. discriminate HA. }
  { destruct write; [|discriminate]. injection H as <-. discriminate HA. }
  { destruct (_ && _ && _); discriminate. }
  destruct (unasked se used) as [|x xs] eqn:UA; [|discriminate].
  rewrite unasked_nil in UA.
  destruct (client_parse c se o) as [[o2 kp]| |] eqn:CP; try discriminate.
  cbv zeta in H. destruct (_ && _) eqn:EX in H; [discriminate|]. injection H as <-. clear HA EX PC.
  cbn [q_opts]. exists se. split; [reflexivity|]. split; [exact UA|].
  unfold client_parse, bind in CP.
  destruct (cl_block se o) as [o3| |] eqn:E1; try discriminate.
  destruct (cl_window se o3) as [o4| |] eqn:E2; try discriminate.
  destruct (cl_timeout se o4) as [o5| |] eqn:E3; try discriminate.
  destruct (cl_tsize se o5) as [o6| |] eqn:E4; try discriminate.
  apply cl_block_ok in E1. apply cl_window_ok in E2. apply cl_timeout_ok in E3. apply cl_tsize_ok in E4. apply cl_enc_ok in CP.
  destruct E1 as [S1 E1], E2 as [S2 E2], E3 as [S3 E3], E4 as [S4 E4], CP as [S5 _].
  assert (B : op_bs o2 = op_bs o3) by (rewrite S5, S4, S3, S2; reflexivity).
  assert (W : op_window o2 = op_window o4) by (rewrite S5, S4, S3; reflexivity).
  assert (W3 : op_window o3 = op_window o) by (rewrite S1; reflexivity).
  assert (R : op_retry o2 = op_retry o5) by (rewrite S5, S4; reflexivity).
  assert (Z : op_size o2 = op_size o6) by (rewrite S5; reflexivity).
  assert (Z5 : op_size o5 = op_size o) by (rewrite S3, S2, S1; reflexivity).
  rewrite B, W, R, Z. rewrite W3 in E2. rewrite Z5 in E4.
  assert (NA : forall e m n, ext_get se e = None -> ~ asks se e m n) by (intros e m n G (s & G' & _); congruence).
  split; [intros G; destruct E1 as [[_ E]|[A _]]; [exact E|destruct (NA _ _ _ G A)]|].
  split; [intros G; destruct E1 as [[E _]|E]; [congruence|exact E]|].
  split; [intros G; destruct E2 as [[_ E]|[A _]]; [exact E|destruct (NA _ _ _ G A)]|].
  split; [intros G; destruct E2 as [[E _]|E]; [congruence|exact E]|].
  split; [intros G; destruct E3 as [[_ E]|(t & A & _)]; [exact E|destruct (NA _ _ _ G A)]|].
  split; [intros G; destruct E3 as [[E _]|E]; [congruence|exact E]|].
  intros n HS HN. rewrite HS in E4. destruct n as [|n]; [lia|].
  destruct (ext_get se TransferSize) as [s|] eqn:G; [|auto].
  destruct E4 as [-> D]. split; [reflexivity|]. right. exists s. split; [assumption|]. split; [assumption|lia].
Qed.
(** An answer with an option that was not requested is refused with an error packet. *)
Theorem unrequested_option_refused : forall c cfg write initial o used txt p se e,
  from_bytes p = Ok (POack se) -> ext_get se e <> None -> ext_get used e = None ->
  exists names, In e names /\
  query_step c cfg write initial o used true txt p = QFail (Some (PError IllegalOperation (txt names))).
Proof.
  intros c cfg write initial o used txt p se e FB G U. unfold query_step. rewrite FB. cbn [negb andb].
  assert (I : In e (unasked se used)).
  { unfold unasked. apply filter_In. split; [destruct e; cbn; tauto|]. rewrite U. destruct (ext_get se e); congruence. }
  exists (unasked se used). split; [assumption|]. destruct (unasked se used); [destruct I|reflexivity].
Qed.
Print Assumptions client_accepts_at_most_requested.
Print Assumptions unrequested_option_refused.

(** ** C24 encryption demanded by the client *)
Lemma oack_enc c cfg write initial o used sp txt p q :
  query_step c cfg write initial o used sp txt p = QDone q -> q_ack q = true ->
  exists se, from_bytes p = Ok (POack se) /\
  ((op_enc o = LNone \/ op_enc o = LOptData \/ op_enc o = LOptProtocol) /\ op_enc (q_opts q) = LNone /\ q_keys q = None /\
    (op_enc o = LNone \/ ext_get se EncLevel = None \/ asked_level se = Some LNone) \/
   (exists session, op_enc o <> LNone /\ ext_get se EncLevel = Some (level_show (op_enc (q_opts q))) /\
      ((op_enc o = LData \/ op_enc o = LProtocol) -> op_enc (q_opts q) = LData \/ op_enc (q_opts q) = LProtocol) /\
      session_of se = Some session /\ q_keys q = Some (mkKP (auth_of c se) session) /\
      check_signature c se session (auth_of c se) = Ok tt /\
      (op_enc (q_opts q) <> LNone -> cc_key cfg <> None -> forall vk, cc_remote cfg = Some vk -> auth_of c se = Some vk))).
Proof.
  intros H HA. unfold query_step in H.
  destruct (_ && _) eqn:PC; [discriminate|].
  destruct (from_bytes p) as [pk| |]; try discriminate.
  destruct pk as [r|r|b x|b|code m|se]; try discriminate.
  { destruct write; [discriminate|]. injection H as <-. discriminate HA. }
  { destruct write; [|discriminate]. injection H as <-. discriminate HA. }
  { destruct (_ && _ && _); discriminate. }
  destruct (unasked se used) as [|x xs] eqn:UA; [|discriminate].
  destruct (client_parse c se o) as [[o2 kp]| |] eqn:CP; try discriminate.
  cbv zeta in H. destruct (_ && _) eqn:EX in H; [discriminate|]. injection H as <-. clear HA PC.
  cbn [q_opts q_keys]. exists se. split; [reflexivity|].
  unfold client_parse, bind in CP.
  destruct (cl_block se o) as [o3| |] eqn:E1; try discriminate.
  destruct (cl_window se o3) as [o4| |] eqn:E2; try discriminate.
  destruct (cl_timeout se o4) as [o5| |] eqn:E3; try discriminate.
  destruct (cl_tsize se o5) as [o6| |] eqn:E4; try discriminate.
  apply cl_block_ok in E1. apply cl_window_ok in E2. apply cl_timeout_ok in E3. apply cl_tsize_ok in E4. apply cl_enc_ok in CP.
  destruct E1 as [S1 _], E2 as [S2 _], E3 as [S3 _], E4 as [S4 _], CP as [S5 CP].
  assert (EE : op_enc o6 = op_enc o) by (rewrite S4, S3, S2, S1; reflexivity).
  rewrite EE in CP.
  destruct CP as [(A & B & ->)|[(A & B & -> & N)|(s & ts & session & A & GL & LP & DM & GS & DP & -> & AU & CS)]].
  - left. auto.
  - left. tauto.
  - right. exists session. split; [assumption|]. apply level_names in LP. subst s. split; [assumption|].
    split; [assumption|]. split; [unfold session_of; now rewrite GS|]. split; [reflexivity|]. split; [assumption|].
    intros NL NK vk HV. rewrite HV in EX. destruct (cc_key cfg) as [k|]; [|congruence].
    destruct (level_eqb (op_enc o2) LNone) eqn:EN; [destruct (op_enc o2); discriminate || congruence|].
    cbn [negb andb] in EX. destruct (auth_of c se) as [a|]; [|discriminate].
    destruct (beq a vk) eqn:BE; [|discriminate]. apply beq_eq in BE. now subst.
Qed.

(** An option ack never lowers the demand "data" or "protocol" to nothing; the transfer then
    uses a key agreed with the session key of the answer. *)
Theorem demand_survives_oack : forall c cfg write initial o used sp txt p q s keys,
  query_step c cfg write initial o used sp txt p = QDone q -> q_ack q = true ->
  (op_enc o = LData \/ op_enc o = LProtocol) -> keys <> None ->
  let s' := configure_socket c s keys (q_opts q) (q_keys q) in
  (cs_level s' = LData \/ cs_level s' = LProtocol) /\ cs_level s' = op_enc (q_opts q) /\
  exists se ts session k, from_bytes p = Ok (POack se) /\ keys = Some k /\
    ext_get se SessionPublicKey = Some ts /\ decode_public_key ts = Some session /\
    cs_key s' = Some (c_dh c (ck_secret k) session).
Proof.
  intros c cfg write initial o used sp txt p q s keys H HA HD HK.
  destruct (oack_enc _ _ _ _ _ _ _ _ _ _ H HA) as (se & FB & [([A|[A|A]] & _)|(session & NL & GL & DM & SE & KQ & _)]).
  - rewrite A in HD. destruct HD; discriminate.
  - rewrite A in HD. destruct HD; discriminate.
  - rewrite A in HD. destruct HD; discriminate.
  - specialize (DM HD). destruct keys as [k|]; [|congruence].
    unfold session_of in SE. destruct (ext_get se SessionPublicKey) as [ts|] eqn:GS; [|discriminate].
    cbv zeta. unfold configure_socket. rewrite KQ. destruct DM as [E|E]; rewrite E; cbn [cs_level cs_key].
    + split; [auto|]. split; [reflexivity|]. exists se, ts, session, k. auto 10.
    + split; [auto|]. split; [reflexivity|]. exists se, ts, session, k. auto 10.
Qed.

(** But the old protocol's answers (a plain ack or data) are accepted by a client that does
    not know the server's key, and then nothing at all is encrypted. *)
Theorem demand_lost_without_options : forall c cfg o eph hs s keys o1 write initial used sp txt p q,
  cc_remote cfg = None -> create_initial_socket c cfg o eph hs = (s, keys, o1) ->
  query_step c cfg write initial o1 used sp txt p = QDone q -> q_ack q = false ->
  let s' := configure_socket c s keys (q_opts q) (q_keys q) in
  forall nonce d, client_send c s' nonce d = Ok d /\ client_recv c s' d = Ok d.
Proof.
  intros c cfg o eph hs s keys o1 write initial used sp txt p q HR HI H HA.
  assert (SK : cs_key s = None /\ cs_level s = LNone).
  { unfold create_initial_socket in HI. rewrite HR in HI. destruct (level_eqb _ _); injection HI as <- <- <-; auto. }
  assert (KQ : q_keys q = None).
  { unfold query_step in H. destruct (_ && _); [discriminate|].
    destruct (from_bytes p) as [pk| |]; try discriminate.
    destruct pk as [r|r|b x|b|code m|se]; try discriminate.
    - destruct write; [discriminate|]. injection H as <-. reflexivity.
    - destruct write; [|discriminate]. injection H as <-. reflexivity.
    - destruct (_ && _ && _); discriminate.
    - destruct (unasked se used); [|discriminate]. destruct (client_parse c se o1) as [[o2 kp]| |]; try discriminate.
      cbv zeta in H. destruct (_ && _) in H; [discriminate|]. injection H as <-. discriminate HA. }
  destruct SK as [S1 S2]. cbv zeta. unfold configure_socket. rewrite KQ.
  assert (E : match op_enc (q_opts q), keys, @None key_pair with
     | (LProtocol | LData | LFull), Some k, Some p0 =>
               mkSock (Some (c_dh c (ck_secret k) (kp_session p0))) (op_enc (q_opts q))
                 (Some (c_pub c (ck_secret k))) (cs_bs s)
     | _, _, _ => s end = s) by (destruct (op_enc (q_opts q)), keys; reflexivity).
  rewrite E. intros nonce d. unfold client_send, client_recv. cbn [cs_level cs_key]. rewrite S1, S2. auto.
Qed.

(** At level "full" (and "protocol", which is raised to it) with a known server key every
    datagram in both directions stays sealed, whatever the answer. *)
Theorem full_stays_sealed : forall c cfg o eph hs s keys o1 write initial used sp txt p q vk,
  cc_remote cfg = Some vk -> (op_enc o = LFull \/ op_enc o = LProtocol) ->
  create_initial_socket c cfg o eph hs = (s, keys, o1) ->
  query_step c cfg write initial o1 used sp txt p = QDone q ->
  (q_ack q = true -> op_enc (q_opts q) = LFull \/ op_enc (q_opts q) = LProtocol \/ op_enc (q_opts q) = LNone) ->
  let s' := configure_socket c s keys (q_opts q) (q_keys q) in
  exists k, cs_key s' = Some k /\ (cs_level s' = LFull \/ cs_level s' = LProtocol) /\
  forall d m, client_recv c s' d = Ok m -> crypto_ok c ->
    exists ct tag n padded, d = ct ++ tag ++ n /\ c_seal c k n padded = (ct, tag) /\ remove_bit_padding padded = Ok m.
Proof.
  intros c cfg o eph hs s keys o1 write initial used sp txt p q vk HR HL HI H HA.
  unfold create_initial_socket in HI. rewrite HR in HI.
  assert (EN : level_eqb (op_enc o) LNone = false) by (destruct HL as [-> | ->]; reflexivity). rewrite EN in HI.
  injection HI as <- <- <-.
  set (o1 := match op_enc o with LProtocol => set_enc o LFull | _ => o end) in *.
  assert (E1 : op_enc o1 = LFull) by (unfold o1; destruct HL as [E|E]; rewrite E; [exact E|reflexivity]).
  assert (SL : forall k pk bs d m, client_recv c (mkSock (Some k) LFull pk bs) d = Ok m -> crypto_ok c ->
    exists ct tag n padded, d = ct ++ tag ++ n /\ c_seal c k n padded = (ct, tag) /\ remove_bit_padding padded = Ok m).
  { intros k pk bs d m HR' HC. cbn in HR'. apply dec_packet_ok in HR'; [|assumption].
    destruct HR' as (ct & tag & n & b & -> & _ & ? & ?). eauto 10. }
  assert (LV : op_enc (q_opts q) = LFull \/ op_enc (q_opts q) = LProtocol \/ op_enc (q_opts q) = LNone).
  { destruct (q_ack q) eqn:QA; [auto|]. unfold query_step in H. destruct (_ && _); [discriminate|].
    destruct (from_bytes p) as [pk| |]; try discriminate.
    destruct pk as [r|r|b x|b|code m|se]; try discriminate.
    - destruct write; [discriminate|]. injection H as <-. cbn. auto.
    - destruct write; [|discriminate]. injection H as <-. cbn. auto.
    - destruct (_ && _ && _); discriminate.
    - destruct (unasked se used); [|discriminate]. destruct (client_parse c se o1) as [[o2 kp]| |]; try discriminate.
      cbv zeta in H. destruct (_ && _) in H; [discriminate|]. injection H as <-. discriminate QA. }
  cbv zeta. unfold configure_socket. rewrite E1.
  destruct (q_keys q) as [kp|].
  - destruct LV as [E|[E|E]]; rewrite E; cbn [cs_key cs_level].
    + eexists. split; [reflexivity|]. split; [auto|]. intros d m. exact (SL _ _ _ d m).
    + eexists. split; [reflexivity|]. split; [auto|]. intros d m. exact (SL _ None 0 d m).
    + eexists. split; [reflexivity|]. split; [auto|]. intros d m. exact (SL _ _ _ d m).
  - destruct LV as [E|[E|E]]; rewrite E; cbn [cs_key cs_level];
    (eexists; split; [reflexivity|]; split; [auto|]; intros d m; exact (SL _ _ _ d m)).
Qed.
Print Assumptions demand_survives_oack.
Print Assumptions demand_lost_without_options.
Print Assumptions full_stays_sealed.

(** ** C25 falling back to the plain protocol *)
Theorem fallback_options : forall c cfg write initial o used sp txt p q,
  query_step c cfg write initial o used sp txt p = QDone q -> q_ack q = false ->
  q_opts q = mkOpts 512 (op_retry o) (op_size o) (op_enc o) (op_window o) /\ q_keys q = None /\
  (if write then (exists b, from_bytes p = Ok (PAck b)) /\ q_data q = None
   else (exists b d, from_bytes p = Ok (PData b d)) /\ q_data q = Some p).
Proof.
  intros c cfg write initial o used sp txt p q H HA. unfold query_step in H. destruct (_ && _); [discriminate|].
  destruct (from_bytes p) as [pk| |] eqn:FB; try discriminate.
  destruct pk as [r|r|b x|b|code m|se]; try discriminate.
  - destruct write; [discriminate|]. injection H as <-. cbn. eauto 10.
  - destruct write; [|discriminate]. injection H as <-. cbn. eauto 10.
  - destruct (_ && _ && _); discriminate.
  - destruct (unasked se used); [|discriminate]. destruct (client_parse c se o) as [[o2 kp]| |]; try discriminate.
    cbv zeta in H. destruct (_ && _) in H; [discriminate|]. injection H as <-. discriminate HA.
Qed.
Print Assumptions fallback_options.

(** ** C50 a known server key is checked *)
Theorem known_server_authenticated : forall c cfg write initial o used sp txt p q vk,
  query_step c cfg write initial o used sp txt p = QDone q -> q_ack q = true ->
  cc_key cfg <> None -> cc_remote cfg = Some vk -> op_enc (q_opts q) <> LNone ->
  exists se ts session tg sg, from_bytes p = Ok (POack se) /\
    ext_get se SessionPublicKey = Some ts /\ decode_public_key ts = Some session /\
    ext_get se Signature = Some tg /\ decode_signature tg = Some sg /\ c_verify c vk session sg = true /\
    exists a, q_keys q = Some (mkKP a session).
Proof.
  intros c cfg write initial o used sp txt p q vk H HA HK HR NL.
  destruct (oack_enc _ _ _ _ _ _ _ _ _ _ H HA) as (se & FB & [(_ & B & _)|(session & _ & GL & DM & SE & KQ & CS & AU)]); [congruence|].
  specialize (AU NL HK _ HR). rewrite AU in CS. rewrite check_signature_ok in CS.
  destruct (CS vk eq_refl) as (_ & tg & sg & G & D & V).
  unfold session_of in SE. destruct (ext_get se SessionPublicKey) as [ts|] eqn:GS; [|discriminate].
  exists se, ts, session, tg, sg. eauto 10.
Qed.
Print Assumptions known_server_authenticated.

(** ** Concrete cases *)
(** A server that requires full encryption and an authorised key; a client that has one. *)
Definition ex_cfg : scfg := mkScfg 1400 8 5000 1000000 (Some [c_vk toy [3]]) (Some [7]) true true false.
Definition ex_cc : ccfg := mkCcfg (Some [3]) (Some (c_vk toy [7])) true.
Definition ex_o : options := mkOpts 1000 2000 (Some 5000) LProtocol 4.
Definition ex_env : henv := mkHenv [9; 9] (repeat 1 24) (fun _ => Some None) true true (fun _ => []).
Definition ex_req := client_request toy ex_cc ex_o [1; 2] [3; 4] (repeat 5 24) true (s2b "dir/../f").

Definition ex_hs : option (sout * csock * option client_keys * options * exts * bytes) :=
  match ex_req with
  | Ok (d, s, keys, o1, ex) => Some (server_new toy ex_cfg ex_env av_all d, s, keys, o1, ex, d)
  | _ => None
  end.
Definition ex_q : option (qres * csock) :=
  match ex_hs with
  | Some (SAccepted e (Some w), s, keys, o1, ex, _) =>
      match client_recv toy s w with
      | Ok p => Some (query_step toy ex_cc true true o1 ex true (fun _ => []) p, s)
      | _ => None
      end
  | _ => None
  end.
(** C22, C23: the request is accepted although the server demands everything it can. *)
Example authorised_only_case :
  sc_auth ex_cfg = Some [c_vk toy [3]] /\ sc_full ex_cfg = true /\ crypto_ok toy /\
  match ex_hs with
  | Some (SAccepted e _, _, _, _, _, _) => es_path e = s2b "dir/f" /\ op_enc (es_opts e) = LFull /\ es_key e <> None
  | _ => False
  end.
Proof. split; [reflexivity|]. split; [reflexivity|]. split; [exact toy_ok|]. vm_compute. repeat split; discriminate. Qed.
(** C23: a client lowers the level to data although the server requires full encryption. *)
Definition ex_lowering : bytes :=
  match enc_initial toy (c_dh toy [3; 4] (c_mont toy (c_vk toy [7]))) (repeat 5 24)
    (to_bytes (PRead (mkReq (s2b "f")
      (ext_insert (ext_insert exts_empty EncLevel (s2b "data")) SessionPublicKey (encode_key (c_pub toy [1; 2]))))))
    516 (c_pub toy [3; 4]) with
  | Ok d => d
  | _ => []
  end.
Example full_lowered_case :
  match server_new toy (mkScfg 1400 8 5000 1000000 None (Some [7]) true true false) ex_env av_all ex_lowering with
  | SAccepted e (Some w) => op_enc (es_opts e) = LData /\ firstn 2 w = [0; 6] (* the answer is in clear *)
  | _ => False
  end.
Proof. vm_compute. auto. Qed.
(** C22: an unauthorised request. *)
Example unauthorised_case :
  let d := to_bytes (PRead (mkReq (s2b "f") exts_empty)) in
  let cfg := mkScfg 1400 8 5000 1000000 (Some [c_vk toy [3]]) None false true false in
  (forall r session, carries toy cfg d r -> ~ authorised toy [c_vk toy [3]] (rq_exts r) session) /\
  server_new toy cfg ex_env av_all d = SRefused None.
Proof.
  split; [|reflexivity]. intros r session [[E|E]|(p & key & (sk & ? & ? & ? & ? & ? & K & _) & _)] (ts & ? & ? & ? & ? & G & _).
  - injection E as <-. discriminate G.
  - discriminate E.
  - discriminate K.
Qed.
(** C20, C24, C50 (known server key): the client accepts the answer and ends up at full. *)
Example client_accepts_case :
  cc_key ex_cc <> None /\ cc_remote ex_cc = Some (c_vk toy [7]) /\
  match ex_q with
  | Some (QDone q, s) => q_ack q = true /\ op_bs (q_opts q) = 1000 /\ op_window (q_opts q) = 4 /\
      op_retry (q_opts q) = 2000 /\ op_enc (q_opts q) = LFull /\ q_keys q <> None
  | _ => False
  end.
Proof. split; [discriminate|]. split; [reflexivity|]. vm_compute. repeat split; discriminate. Qed.
Example unrequested_case :
  query_step toy ex_cc false true default_options exts_empty true (fun _ => s2b "no")
    (to_bytes (POack (ext_insert exts_empty BlockSize (s2b "1024")))) = QFail (Some (PError IllegalOperation (s2b "no"))).
Proof. vm_compute. reflexivity. Qed.
(** C24: level data, an answer with enclevel=data is accepted, enclevel=none or absent is not;
    but a plain ack is, and then the data goes out in clear. *)
Definition ex_data_o : options := mkOpts 512 80 None LData 4.
Definition ex_data_cc : ccfg := mkCcfg None None false.
Definition ex_ask : exts := match create_extensions toy ex_data_o (Some (mkCK [1] None)) with Ok u => u | _ => exts_empty end.
Definition ex_ans (l : string) : bytes :=
  to_bytes (POack (ext_insert (ext_insert exts_empty EncLevel (s2b l)) SessionPublicKey (encode_key (c_pub toy [9])))).
Example demand_case :
  match query_step toy ex_data_cc true true ex_data_o ex_ask true (fun _ => []) (ex_ans "data") with
  | QDone q => q_ack q = true /\ op_enc (q_opts q) = LData
  | _ => False
  end /\
  query_step toy ex_data_cc true true ex_data_o ex_ask true (fun _ => []) (ex_ans "none") = QFail None /\
  exists s keys o1 q, create_initial_socket toy ex_data_cc ex_data_o [1] [2] = (s, keys, o1) /\
    query_step toy ex_data_cc true true o1 ex_ask true (fun _ => []) [0; 4; 0; 0] = QDone q /\ q_ack q = false /\
    op_window (q_opts q) = 4 /\
    (* the upload is then cut into blocks of 472 bytes: a plain server takes the first for the last *)
    bs_enc (q_opts q) = 472.
Proof.
  split; [vm_compute; auto|]. split; [vm_compute; reflexivity|]. do 4 eexists. split; [reflexivity|].
  split; [vm_compute; reflexivity|]. vm_compute. auto.
Qed.
