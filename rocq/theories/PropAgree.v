(** C21, C40: client and server together. *)
From Verif Require Import Base BaseProofs PacketModel PacketSpec PacketProofs ReaderModel ConfigModel Base64Model Base64Proofs
  CryptoModel CryptoSpec CryptoProofs PropCrypto ExtModel ExtSpec ExtProofs PathModel HandshakeModel HandshakeProofs PropExt
  PropHandshake AgreeProofs.

(** Both ends use the same block size, window, encryption level and key. *)
Definition agree (o : options) (s : csock) (e : est) : Prop :=
  op_bs o = op_bs (es_opts e) /\ op_window o = op_window (es_opts e) /\ op_enc o = op_enc (es_opts e) /\
  cs_bs s = bs_enc (es_opts e) /\
  ((op_enc o = LNone /\ cs_key s = None /\ es_key e = None) \/
   ((op_enc o = LData \/ op_enc o = LProtocol \/ op_enc o = LFull) /\ cs_level s = op_enc o /\
    cs_key s <> None /\ cs_key s = es_key e)).

(** The request, sent in clear, is not by accident a sealed packet for the server's key. *)
Definition unambiguous (c : crypto) (cfg : scfg) (s : csock) (d : bytes) : Prop :=
  cs_key s = None \/ cs_level s <> LFull -> in_clear c cfg d.

Lemma create_max_buffer_ok n m : create_max_buffer n = Ok m -> m = N.max (n + 4) 516 /\ n <= 1425.
Proof.
  unfold create_max_buffer, DATA_PACKET_HEADER_SIZE, MIN_BUFFER_SIZE, MAX_BUFFER_SIZE.
  destruct (_ <=? _) eqn:E; [|discriminate]. intros [= <-]. lia.
Qed.
Lemma fresh_default : fresh default_options.
Proof. reflexivity. Qed.
Lemma fresh_full : fresh (set_enc default_options LFull).
Proof. reflexivity. Qed.

(** Level of an accepted request that asked for nothing / something. *)
Lemma parse_level c cfg maxw eph o keys ex o0 used so sk : crypto_ok c -> create_extensions c o keys = Ok ex ->
  server_parse c cfg maxw eph ex o0 = Ok (used, so, sk) ->
  (op_enc o = LNone /\ sk = None /\ op_enc so = op_enc o0 /\
   (forall e, ext_get used e <> None -> e = BlockSize \/ e = Timeout \/ e = TransferSize \/ e = WindowSize)) \/
  (op_enc o <> LNone /\ op_enc so = granted (op_enc o) /\ exists k, keys = Some k /\
   sk = Some (mkSK eph (c_pub c (ck_secret k))) /\
   ext_get used EncLevel = Some (level_show (op_enc so)) /\
   ext_get used SessionPublicKey = Some (encode_key (c_pub c eph)) /\
   ext_get used AuthPublicKey = (match sc_key cfg, ck_auth k with Some s, Some _ => Some (encode_key (c_vk c s)) | _, _ => None end) /\
   ext_get used Signature = (match sc_key cfg, ck_auth k with Some s, Some _ => Some (encode_key (c_sign c s (c_pub c eph))) | _, _ => None end)).
Proof.
  intros HC HE HS. apply create_ext_spec in HE. destruct HE as (_ & _ & _ & _ & L & N0 & N1).
  apply server_parse_inv in HS. destruct HS as [_ HS].
  destruct HS as [((_ & PL) & -> & -> & ->)|(l & session & (AL & NL & _ & SE & AU & CS & _) & -> & -> & ->)].
  - left. assert (EN : op_enc o = LNone).
    { unfold asked_level in PL. rewrite L in PL. destruct (level_eqb (op_enc o) LNone) eqn:E.
      - destruct (op_enc o); discriminate || reflexivity.
      - destruct PL as [?|PL]; [discriminate|]. apply level_names in PL. apply level_names_distinct in PL. assumption. }
    split; [assumption|]. split; [reflexivity|]. split; [reflexivity|].
    intros e G. destruct e; auto; cbn in G; congruence.
  - right. unfold asked_level in AL. rewrite L in AL. destruct (level_eqb (op_enc o) LNone) eqn:E; [discriminate|].
    apply level_names in AL. apply level_names_distinct in AL. rewrite AL.
    split; [assumption|]. split; [reflexivity|].
    rewrite <- AL in NL. destruct (N1 NL) as (k & -> & SK & AK & SG). exists k. split; [reflexivity|].
    assert (SS : session = c_pub c (ck_secret k)).
    { unfold session_of in SE. rewrite SK in SE. rewrite key_text_round_trip in SE by (apply (ok_pub_len c HC)). congruence. }
    split; [congruence|]. split; [reflexivity|]. split; [reflexivity|].
    assert (AV : auth_of c ex = option_map (c_vk c) (ck_auth k)).
    { unfold auth_of. rewrite AK. destruct (ck_auth k) as [a|]; [|reflexivity]. cbn [option_map].
      apply verifying_key_round_trip; [apply (ok_vk_len c HC)|apply (ok_vk_len c HC)|apply (ok_vk c HC)]. }
    unfold used_with. rewrite AV. cbn [ext_get x_apk x_sig]. destruct (ck_auth k); auto.
Qed.

(** The client sees the server's answer. *)
Lemma client_sees c cc o eph hs nonce write name d s keys o1 ex cfg env key0 o0 used so sk size e pk buflen w :
  crypto_ok c -> blen (h_nonce env) = 24 ->
  client_request c cc o eph hs nonce write name = Ok (d, s, keys, o1, ex) ->
  server_parse c cfg (sc_max_window cfg) (h_eph env) ex o0 = Ok (used, so, sk) ->
  es_opts e = (if write then so else set_size so size) ->
  (forall n, size = Some n -> n <= U64_MAX) ->
  (key0 = None /\ o0 = default_options /\ op_enc o1 = op_enc o /\
       (cs_key s = None \/ cs_level s = LData \/ cs_level s = LOptData \/ cs_level s = LOptProtocol) \/
     key0 <> None /\ key0 = cs_key s /\ cs_level s = LFull /\ op_enc o1 = LFull /\ o0 = set_enc default_options LFull) ->
  answer_of (answered write size used) write = Some pk ->
  send_packet c (es_opts e) key0 buflen env pk = Some w ->
  client_receive o w = Ok w /\ client_recv c s w = Ok (to_bytes pk) /\ from_bytes (to_bytes pk) = Ok pk.
Proof.
  intros HC Hn' HR SP EO ZS HS0 AO SD.
  pose proof (request_datagram _ _ _ _ _ _ _ _ _ _ _ _ _ HR) as (LB & EB & EWi & _ & _ & _ & CE & KS & KN & _).
  assert (F0 : fresh o0) by (destruct HS0 as [(_ & -> & _)|(_ & _ & _ & _ & ->)]; reflexivity).
  assert (SLV : op_enc so = op_enc (es_opts e)) by (rewrite EO; destruct write; reflexivity).
  assert (SBS : op_bs so = op_bs (es_opts e)) by (rewrite EO; destruct write; reflexivity).
  pose proof (parse_level _ _ _ _ _ _ _ _ _ _ _ HC CE SP) as PL.
  assert (SEAL : key0 <> None -> op_enc so = LFull).
  { intros NK. destruct HS0 as [(-> & _)|(_ & _ & _ & EF & _)]; [congruence|].
    destruct PL as [(E & _)|(_ & E & _)]; rewrite EF in E; [discriminate|exact E]. }
  assert (GP : good_packet pk /\ opcode pk <> 3 /\ pk <> POack exts_empty /\ blen (to_bytes pk) <= 294).
  { unfold answer_of in AO. destruct (0 <? ext_len (answered write size used)) eqn:EL.
    - injection AO as <-. split; [|split; [discriminate|split]].
      + cbn. unfold answered. pose proof (used_good _ _ _ _ _ _ _ _ _ HC SP). destruct write; [assumption|now apply answer_size_good].
      + intros E. injection E as E. rewrite E in EL. cbn in EL. discriminate.
      + eapply answer_len; eauto.
    - destruct write; [|discriminate]. injection AO as <-. repeat split; try discriminate; cbn; lia. }
  destruct GP as (GP & ND & NE & LP).
  split; [|split].
  - unfold client_receive. unfold create_max_buffer, DATA_PACKET_HEADER_SIZE, MIN_BUFFER_SIZE, MAX_BUFFER_SIZE.
    replace (N.max (op_bs o + 4) 516 <=? 1429) with true by lia.
    f_equal. apply takeN_all.
    apply send_packet_inv in SD. destruct HS0 as [(-> & _)|(NK & KE & _ & EF & E0)].
    + assert (W : w = to_bytes pk) by (unfold server_encrypt in SD; destruct (op_enc (es_opts e)); congruence). rewrite W. lia.
    + specialize (SEAL NK). rewrite SLV in SEAL.
      destruct key0 as [k|]; [|congruence]. unfold server_encrypt in SD. rewrite SEAL in SD.
      destruct (enc_packet_round _ _ _ _ _ _ HC Hn' SD) as (_ & LW & _).
      pose proof (server_limits _ _ _ _ _ _ _ _ _ F0 SP) as ((B1 & B2 & B3 & B4 & B5) & _).
      assert (BO : op_bs so <= N.max 512 (op_bs o)).
      { apply create_ext_spec in CE. destruct CE as (GB & _). rewrite EB in GB. destruct (N.eqb_spec (op_bs o) 512) as [E|NB].
        - rewrite B5; [lia|]. intros b (x & G & _). congruence.
        - destruct (B4 (op_bs o)) as [?|?]; [|lia|lia]. exists (show_num (op_bs o)). split; [assumption|].
          split; [apply show_decimal|unfold U16_MAX; lia]. }
      unfold bs_enc in LW. rewrite SEAL in LW. unfold ENCRYPTION_TAG_SIZE, ENCRYPTION_PADDING_SIZE, ENCRYPTION_NONCE_SIZE, DATA_PACKET_HEADER_SIZE in LW.
      lia.
  - eapply handshake_reply; eauto.
    destruct HS0 as [(-> & -> & _ & SL)|(NK & KE & LF & EF & ->)]; [left; auto|right].
    rewrite <- SLV. repeat split; eauto.
  - apply round_trip; assumption.
Qed.

(** ** C21: if both sides complete the exchange they agree *)
Theorem handshake_agreement : forall c cc o eph hs nonce write name d s keys o1 ex cfg env av e w w' p sp txt q,
  crypto_ok c -> blen nonce = 24 -> blen (h_nonce env) = 24 -> good_string name ->
  (forall n, h_open env (es_path e) = Some (Some n) -> n <= U64_MAX) ->
  client_request c cc o eph hs nonce write name = Ok (d, s, keys, o1, ex) ->
  right_key c cfg cc -> unambiguous c cfg s d ->
  server_receive cfg d = Ok d -> server_new c cfg env av d = SAccepted e (Some w) ->
  client_receive o w = Ok w' -> client_recv c s w' = Ok p ->
  query_step c cc write true o1 ex sp txt p = QDone q -> q_ack q = true ->
  agree (q_opts q) (configure_socket c s keys (q_opts q) (q_keys q)) e /\
  op_retry (q_opts q) = op_retry (es_opts e).
Proof.
  intros c cc o eph hs nonce write name d s keys o1 ex cfg env av e w w' p sp txt q
    HC Hn Hn' HG HZ HR HK IC SRV HS CR RV QS QA.
  pose proof (server_view _ _ _ _ _ _ _ _ _ _ _ _ _ _ _ _ _ _ HC Hn HG HR HK IC HS)
    as (key0 & o0 & used & so & sk & size & SP & EW & EO & HO & EK & HS0 & AN).
  pose proof (request_datagram _ _ _ _ _ _ _ _ _ _ _ _ _ HR) as (LB & EB & EWi & _ & _ & _ & CE & KS & KN & _).
  assert (F0 : fresh o0) by (destruct HS0 as [(_ & -> & _)|(_ & _ & _ & _ & ->)]; reflexivity).
  assert (SLV : op_enc so = op_enc (es_opts e)) by (rewrite EO; destruct write; reflexivity).
  assert (SBS : op_bs so = op_bs (es_opts e)) by (rewrite EO; destruct write; reflexivity).
  pose proof (parse_level _ _ _ _ _ _ _ _ _ _ _ HC CE SP) as PL.
  assert (ZS : forall n, size = Some n -> n <= U64_MAX) by (intros n ->; auto).
  assert (SEAL : key0 <> None -> op_enc so = LFull).
  { intros NK. destruct HS0 as [(-> & _)|(_ & _ & _ & EF & _)]; [congruence|].
    destruct PL as [(E & _)|(_ & E & _)]; rewrite EF in E; [discriminate|exact E]. }
  (* the packet the client sees *)
  assert (PK : exists pk, answer_of (answered write size used) write = Some pk /\ from_bytes p = Ok pk).
  { destruct (answer_of (answered write size used) write) as [pk|] eqn:AO; [|congruence].
    destruct AN as (w0 & bl & [= <-] & SD). exists pk. split; [reflexivity|].
    destruct (client_sees _ _ _ _ _ _ _ _ _ _ _ _ _ _ _ _ _ _ _ _ _ _ _ _ _ HC Hn' HR SP EO ZS HS0 AO SD) as (A & B & D).
    congruence. }
  destruct PK as (pk & AO & FB).
  pose proof (client_accepts_at_most_requested _ _ _ _ _ _ _ _ _ _ QS QA) as (se & FB' & _ & B0 & B1 & W0 & W1 & T0 & T1 & _).
  assert (PE : pk = POack se) by congruence.
  assert (SE : se = answered write size used).
  { unfold answer_of in AO. destruct (0 <? ext_len (answered write size used)); [congruence|]. destruct write; congruence. }
  clear PE AO FB. subst se.
  assert (GE : forall x, x <> TransferSize -> ext_get (answered write size used) x = ext_get used x).
  { intros x NX. unfold answered. destruct write; [reflexivity|now apply answer_size_other]. }
  rewrite !GE in * by discriminate.
  pose proof (server_announces _ _ _ _ _ _ _ _ _ F0 SP) as (_ & AB & AB0 & AW & AW0 & AT & AT0 & _ & AL & AS).
  assert (XB : op_bs (q_opts q) = op_bs so).
  { destruct (ext_get used BlockSize) as [x|] eqn:G; [|now rewrite AB0, B0].
    destruct B1 as [(x' & G' & D & _) _]; [discriminate|]. rewrite GE in G' by discriminate. rewrite G in G'. injection G' as <-.
    rewrite (AB x eq_refl) in D. exact (decimal_unique _ _ _ D (show_decimal _)). }
  assert (XW : op_window (q_opts q) = op_window so).
  { destruct (ext_get used WindowSize) as [x|] eqn:G; [|now rewrite AW0, W0].
    destruct W1 as [(x' & G' & D & _) _]; [discriminate|]. rewrite GE in G' by discriminate. rewrite G in G'. injection G' as <-.
    rewrite (AW x eq_refl) in D. exact (decimal_unique _ _ _ D (show_decimal _)). }
  assert (XT : op_retry (q_opts q) = op_retry so).
  { destruct (ext_get used Timeout) as [x|] eqn:G; [|now rewrite AT0, T0].
    destruct T1 as (t & (x' & G' & D & _) & _ & ->); [discriminate|]. rewrite GE in G' by discriminate. rewrite G in G'. injection G' as <-.
    destruct (AT x eq_refl) as [-> M]. pose proof (decimal_unique _ _ _ D (show_decimal _)) as ->.
    pose proof (N.div_mod (op_retry so) 1000). lia. }
  assert (SWI : op_window so = op_window (es_opts e)) by (rewrite EO; destruct write; reflexivity).
  assert (SRT : op_retry so = op_retry (es_opts e)) by (rewrite EO; destruct write; reflexivity).
  split; [|congruence].
  pose proof (oack_enc _ _ _ _ _ _ _ _ _ _ QS QA) as (se & FB2 & OE). rewrite FB' in FB2. injection FB2 as <-.
  assert (XE : op_enc (q_opts q) = op_enc so /\ q_keys q = None /\ op_enc o1 = LNone /\ sk = None \/
    (op_enc so = LData \/ op_enc so = LProtocol \/ op_enc so = LFull) /\ op_enc (q_opts q) = op_enc so /\
    exists k a, keys = Some k /\ q_keys q = Some (mkKP a (c_pub c (h_eph env))) /\
      sk = Some (mkSK (h_eph env) (c_pub c (ck_secret k)))).
  { destruct PL as [(E1 & E2 & E3 & E4)|(NE & E2 & k & E3 & E4 & E5 & E6 & _)].
    - left. destruct OE as [(_ & QL & QK & _)|(session & NL & _)]; [|congruence].
      split; [|auto]. rewrite QL, E3. destruct HS0 as [(_ & -> & _)|(_ & _ & _ & EF & _)]; [reflexivity|congruence].
    - right. split; [rewrite E2; destruct (op_enc o1); cbn; auto; congruence|].
      destruct OE as [(_ & QL & QK & [N|[N|N]])|(session & _ & GL & _ & SS & QK & _)].
      + congruence.
      + rewrite GE in N by discriminate. congruence.
      + unfold asked_level in N. rewrite GE, E5 in N by discriminate. apply level_names, level_names_distinct in N.
        exfalso. rewrite E2 in N. destruct (op_enc o1); cbn in N; congruence.
      + rewrite GE, E5 in GL by discriminate. injection GL as GL. apply level_names_distinct in GL. split; [auto|].
        exists k, (auth_of c (answered write size used)). split; [assumption|]. split; [|assumption].
        rewrite QK. do 2 f_equal. unfold session_of in SS. rewrite GE, E6 in SS by discriminate.
        rewrite key_text_round_trip in SS by apply (ok_pub_len c HC). congruence. }
  assert (BS : bs_enc (q_opts q) = bs_enc (es_opts e)).
  { unfold bs_enc. rewrite XB, SBS. destruct XE as [(-> & _)|(_ & -> & _)]; rewrite SLV; reflexivity. }
  unfold agree. split; [congruence|]. split; [congruence|].
  split; [destruct XE as [(-> & _)|(_ & -> & _)]; assumption|].
  split; [unfold configure_socket; exact BS|].
  destruct XE as [(X1 & X2 & X3 & X4)|(X1 & X2 & k & a & X3 & X4 & X5)].
  - left. assert (op_enc (q_opts q) = LNone).
    { destruct PL as [(E1 & E2 & E3 & E4)|(NE & _)]; [|congruence]. rewrite X1, E3.
      destruct HS0 as [(_ & -> & _)|(_ & _ & _ & EF & _)]; [reflexivity|congruence]. }
    split; [assumption|]. split.
    + unfold configure_socket. rewrite X2. destruct (op_enc (q_opts q)), keys; cbn [cs_key]; auto.
    + rewrite EK, X4. destruct HS0 as [(-> & _)|(_ & _ & _ & EF & _)]; [reflexivity|congruence].
  - right. rewrite X2. split; [assumption|]. unfold configure_socket. rewrite X2, X3, X4, EK, X5.
    cbn [sk_secret sk_remote kp_session]. rewrite (ok_dh c HC).
    destruct X1 as [-> |[-> | ->]]; cbn [cs_level cs_key]; (split; [reflexivity|]; split; [discriminate|reflexivity]).
Qed.
Print Assumptions handshake_agreement.

(** Agreement is what the two ends need to understand each other (C32): every packet one side
    manages to send is read by the other. *)
Theorem agreement_suffices : forall c o s e, agree o s e -> crypto_ok c ->
  (forall n p w, blen n = 24 ->
     server_encrypt c (es_opts e) (es_key e) (opcode p =? T_DATA) n (to_bytes p) = Ok w ->
     client_recv c s w = Ok (to_bytes p)) /\
  (forall n p w, blen n = 24 -> (forall r, p <> PRead r) -> (forall r, p <> PWrite r) ->
     client_send c s n (to_bytes p) = Ok w ->
     server_decrypt c (op_enc (es_opts e)) (es_key e) w = Ok (to_bytes p)).
Proof.
  intros c o s e (_ & _ & EE & _ & A) HC. destruct A as [(E & K1 & K2)|(E & LV & NK & KE)].
  - split.
    + intros n p w Hn HS. rewrite K2 in HS. unfold server_encrypt in HS. rewrite <- EE, E in HS. injection HS as <-.
      unfold client_recv. rewrite K1. destruct (cs_level s); reflexivity.
    + intros n p w Hn NR NW HS. unfold client_send in HS. rewrite K1 in HS.
      assert (w = to_bytes p) as -> by (destruct (cs_level s); congruence).
      unfold server_decrypt. rewrite <- EE, E. reflexivity.
  - split.
    + intros n p w Hn HS. apply (server_to_client c (es_opts e) (es_key e) n p w s); auto; congruence.
    + intros n p w Hn NR NW HS. eapply client_to_server; eauto; congruence.
Qed.
Print Assumptions agreement_suffices.

(** ** Completion *)
Lemma send_packet_total c o k buflen env p : h_send env = true -> 4 <= blen (to_bytes p) <= 294 -> 512 <= op_bs o ->
  opcode p <> 3 -> exists w, send_packet c o k buflen env p = Some w.
Proof.
  intros HS HL HB ND. unfold send_packet, DATA_PACKET_HEADER_SIZE.
  replace (blen (to_bytes p) <=? N.max buflen (4 + op_bs o)) with true by lia.
  rewrite HS. replace (opcode p =? T_DATA) with false by (unfold T_DATA; lia).
  assert (NE : to_bytes p <> []) by (intros E; rewrite E, blen_nil in HL; lia).
  assert (X : exists w, server_encrypt c o k false (h_nonce env) (to_bytes p) = Ok w).
  { unfold server_encrypt, DATA_PACKET_HEADER_SIZE.
    assert (BE : op_enc o = LFull \/ op_enc o = LProtocol -> blen (to_bytes p) <= bs_enc o + 4).
    { intros E. unfold bs_enc, ENCRYPTION_TAG_SIZE, ENCRYPTION_PADDING_SIZE, ENCRYPTION_NONCE_SIZE.
      destruct E as [-> | ->]; lia. }
    destruct (op_enc o), k; eauto; apply enc_packet_total; auto. }
  destruct X as [w ->]. eauto.
Qed.

Lemma server_accepts c cfg env av d buf key0 o0 write r used so sk path size :
  from_new_connection c cfg d = (buf, key0, o0) -> from_bytes buf = Ok (req_packet write r) ->
  server_parse c cfg (sc_max_window cfg) (h_eph env) (rq_exts r) o0 = Ok (used, so, sk) ->
  validate_request_options (sc_max_size cfg) (rq_name r) (op_size so) = Ok path ->
  h_open env path = Some size -> h_bind env = true -> h_send env = true -> av_multi av = true ->
  512 <= op_bs so -> blen (to_bytes (POack (answered write size used))) <= 294 ->
  exists e reply, server_new c cfg env av d = SAccepted e reply /\ es_write e = write /\ es_path e = path.
Proof.
  intros FN FB SP VR HO HB HS HM LB LO.
  assert (AC : forall rd o, op_bs o = op_bs so ->
    exists e reply, accept_connection c env (blen buf) (mkEst write path o key0 rd) (answered write size used) sk = SAccepted e reply
      /\ es_write e = write /\ es_path e = path).
  { intros rd o EB.
    assert (X : exists reply, match answer_of (answered write size used) write with
      | Some p => exists w, reply = Some w /\ send_packet c o key0 (blen buf) env p = Some w
      | None => reply = None end).
    { unfold answer_of. destruct (0 <? ext_len (answered write size used)) eqn:EL.
      - assert (4 <= blen (to_bytes (POack (answered write size used)))).
        { assert (NE : ext_list (answered write size used) <> []) by (intros E; unfold ext_len in EL; rewrite E in EL; discriminate).
          unfold to_bytes, body_to_bytes, oack_to_bytes. destruct (ext_list _) as [|[x v] l]; [congruence|].
          cbn [flat_map]. rewrite !blen_app. change (blen [0]) with 1. change (blen (be16 (opcode _))) with 2. lia. }
        destruct (send_packet_total c o key0 (blen buf) env (POack (answered write size used)) HS) as [w W]; [auto|lia|discriminate|].
        eauto.
      - destruct write; [|eauto].
        destruct (send_packet_total c o key0 (blen buf) env (PAck 0) HS) as [w W]; [cbv; split; discriminate|lia|discriminate|].
        eauto. }
    destruct X as [reply X].
    exists (mkEst write path o (match sk with Some k => Some (c_dh c (sk_secret k) (sk_remote k)) | None => key0 end) rd), reply.
    split; [|auto]. apply accept_inv. cbn [es_write es_path es_opts es_key es_reader]. auto. }
  unfold server_new. rewrite FN, FB. destruct write; cbn [req_packet].
  - rewrite SP. unfold build_writer. rewrite VR, HO, HB. exact (AC None so eq_refl).
  - rewrite SP. unfold build_reader. rewrite VR, HO, HB. cbv zeta.
    assert (BR : exists rd, block_reader (set_size so size) av (sc_seek cfg) = Some rd).
    { unfold block_reader. rewrite HM. destruct (_ && _); [eauto|]. destruct (_ && _); eauto. }
    destruct BR as [rd ->]. exact (AC (Some rd) (set_size so size) eq_refl).
Qed.

(** When client and server fit together. *)
Record compatible (c : crypto) (cc : ccfg) (cfg : scfg) (o : options) (write : bool) : Prop := {
  (* the client's options are sensible *)
  cp_bs : 512 <= op_bs o <= 1425;
  cp_win : 1 <= op_window o <= 65535;
  cp_size : match op_size o with
            | Some n => n <= U64_MAX /\ n <= sc_max_size cfg /\ (write = false -> n = 0)
            | None => True
            end;
  (* so are the server's limits *)
  cp_max : 512 <= sc_max_bs cfg <= 1425;
  cp_maxw : 1 <= sc_max_window cfg;
  (* encryption: full needs a known server key, an authorised key list needs a key in it *)
  cp_key : right_key c cfg cc;
  cp_full : op_enc o = LFull -> cc_remote cc <> None;
  cp_req : sc_full cfg = true -> cc_remote cc <> None /\ (op_enc o = LFull \/ op_enc o = LProtocol);
  cp_auth : forall ks, sc_auth cfg = Some ks -> op_enc o <> LNone /\ exists a, cc_key cc = Some a /\ In (c_vk c a) ks }.

Lemma check_own c sk msg ex session : crypto_ok c ->
  ext_get ex Signature = option_map (fun a => encode_key (c_sign c a msg)) sk -> session = msg ->
  check_signature c ex session (option_map (c_vk c) sk) = Ok tt.
Proof.
  intros HC HS ->. apply check_signature_ok. intros vk E. destruct sk as [a|]; [|discriminate]. injection E as <-.
  split; [apply (ok_vk c HC)|]. exists (encode_key (c_sign c a msg)), (c_sign c a msg). split; [exact HS|].
  split; [apply signature_round_trip; apply (ok_sig_len c HC)|apply (ok_sign c HC)].
Qed.

Lemma server_grants c cc cfg o write eph o1 keys ex maxw seph o0 : crypto_ok c -> compatible c cc cfg o write ->
  create_extensions c o1 keys = Ok ex ->
  (op_enc o1 <> LNone -> keys = Some (mkCK eph (cc_key cc))) ->
  (op_enc o1 = LNone <-> op_enc o = LNone) ->
  (op_enc o1 = LFull -> op_enc o0 = LFull) -> (sc_full cfg = true -> op_enc o0 = LFull) ->
  exists used so sk, server_parse c cfg maxw seph ex o0 = Ok (used, so, sk).
Proof.
  intros HC HP HE HK HN HF HR. pose proof (create_ext_spec _ _ _ _ HE) as (_ & _ & _ & _ & L & N0 & N1).
  destruct (level_eqb (op_enc o1) LNone) eqn:EN.
  - assert (E : op_enc o1 = LNone) by (destruct (op_enc o1); discriminate || reflexivity).
    eexists _, _, None. apply server_parse_inv. split; [assumption|]. left. split; [|repeat split; reflexivity].
    split; [|auto]. destruct (sc_auth cfg) as [ks|] eqn:A; [|reflexivity].
    destruct (cp_auth _ _ _ _ _ HP ks A) as [NE _]. tauto.
  - assert (E : op_enc o1 <> LNone) by (intros E; rewrite E in EN; discriminate).
    destruct (N1 E) as (k & K & GS & GA & GG). rewrite (HK E) in K. injection K as <-. cbn [ck_secret ck_auth] in *.
    assert (AV : auth_of c ex = option_map (c_vk c) (cc_key cc)).
    { unfold auth_of. rewrite GA. destruct (cc_key cc) as [a|]; [|reflexivity]. cbn [option_map].
      apply verifying_key_round_trip; [apply (ok_vk_len c HC)|apply (ok_vk_len c HC)|apply (ok_vk c HC)]. }
    eexists _, _, _. apply server_parse_inv. split; [assumption|]. right. exists (op_enc o1), (c_pub c eph).
    split; [|repeat split; reflexivity].
    split; [unfold asked_level; rewrite L; now apply level_names|]. split; [assumption|]. split; [assumption|].
    split; [unfold session_of; rewrite GS; apply key_text_round_trip; apply (ok_pub_len c HC)|].
    rewrite AV. split; [rewrite GA; destruct (cc_key cc); [right; discriminate|left; reflexivity]|].
    split; [eapply check_own; eauto|].
    intros ks A. destruct (cp_auth _ _ _ _ _ HP ks A) as (_ & a & -> & I). exists (c_vk c a). auto.
Qed.

Lemma parse_or0_show max n : n <= max -> parse_or0 max (show_num n) = n.
Proof. intros H. unfold parse_or0. now rewrite parse_show. Qed.

Lemma client_takes c cc cfg o write eph o1 keys ex seph o0 used so sk size : crypto_ok c -> compatible c cc cfg o write ->
  op_bs o1 = op_bs o -> op_window o1 = op_window o -> op_size o1 = op_size o ->
  create_extensions c o1 keys = Ok ex ->
  (op_enc o1 <> LNone -> keys = Some (mkCK eph (cc_key cc))) -> fresh o0 ->
  server_parse c cfg (sc_max_window cfg) seph ex o0 = Ok (used, so, sk) ->
  (forall n, size = Some n -> n <= U64_MAX) ->
  exists o2 kp, client_parse c (answered write size used) o1 = Ok (o2, kp) /\
   (level_eqb (op_enc o2) LNone = false -> cc_key cc <> None -> forall vk, cc_remote cc = Some vk ->
      exists s, kp = Some (mkKP (Some vk) s)) /\
   (op_size o = Some 0 -> forall x, ext_get (answered write size used) TransferSize = Some x -> op_size o2 = Some (parse_or0 U64_MAX x)).
Proof.
  intros HC HP EB EW EZ CE HK F0 SP ZS.
  destruct HP as [P1 P2 P3 P4 P5 P6 P7 P8 P9].
  pose proof (create_ext_spec _ _ _ _ CE) as (GB & GT & GZ & GW & L & N0 & N1).
  pose proof (parse_level _ _ _ _ _ _ _ _ _ _ _ HC CE SP) as PL.
  pose proof (server_announces _ _ _ _ _ _ _ _ _ F0 SP) as (_ & AB & AB0 & AW & AW0 & AT & AT0 & AZ & AL & AS).
  pose proof (server_limits _ _ _ _ _ _ _ _ _ F0 SP) as ((B1 & B2 & B3 & B4 & B5) & (W1 & W2 & W3 & W4) & (T1 & T2) & Z1).
  assert (GE : forall x, x <> TransferSize -> ext_get (answered write size used) x = ext_get used x).
  { intros x NX. unfold answered. destruct write; [reflexivity|now apply answer_size_other]. }
  set (se := answered write size used) in *.
  (* block size *)
  assert (X1 : exists o2, cl_block se o1 = Ok o2 /\ op_window o2 = op_window o1 /\ op_size o2 = op_size o1 /\ op_enc o2 = op_enc o1).
  { unfold cl_block. rewrite GE by discriminate. destruct (ext_get used BlockSize) as [x|] eqn:G; [|eauto 10].
    rewrite (AB x eq_refl). cbv zeta.
    assert (BO : 512 <= op_bs so <= op_bs o).
    { destruct (N.eqb_spec (op_bs o1) 512) as [E|NE].
      - assert (op_bs so = 512) by (apply B5; intros b (y & G' & _); rewrite GB in G'; discriminate). lia.
      - assert (A : asks ex BlockSize U16_MAX (op_bs o)).
        { exists (show_num (op_bs o1)). split; [exact GB|]. rewrite EB. split; [apply show_decimal|unfold U16_MAX; lia]. }
        rewrite (B3 _ A) by lia. lia. }
    rewrite parse_or0_show by (unfold U16_MAX; lia).
    unfold within_range, EXTENSION_BLOCK_SIZE_MIN, DEFAULT_DATA_BLOCK_SIZE.
    replace ((512 <=? op_bs so) && (op_bs so <=? op_bs o1)) with true by lia. eauto 10. }
  destruct X1 as (o2 & E1 & Q1 & Q2 & Q3).
  assert (X2 : exists o3, cl_window se o2 = Ok o3 /\ op_size o3 = op_size o1 /\ op_enc o3 = op_enc o1).
  { unfold cl_window. rewrite GE by discriminate. destruct (ext_get used WindowSize) as [x|] eqn:G; [|eauto 10].
    rewrite (AW x eq_refl). cbv zeta.
    assert (BO : 1 <= op_window so <= op_window o).
    { destruct (N.eqb_spec (op_window o1) 1) as [E|NE].
      - assert (op_window so = 1) by (apply W4; intros b (y & G' & _); rewrite GW in G'; discriminate). lia.
      - assert (A : asks ex WindowSize U16_MAX (op_window o)).
        { exists (show_num (op_window o1)). split; [exact GW|]. rewrite EW. split; [apply show_decimal|unfold U16_MAX; lia]. }
        rewrite (W3 _ A) by lia. lia. }
    rewrite parse_or0_show by (unfold U16_MAX; lia).
    unfold within_range, EXTENSION_WINDOW_SIZE_MIN. rewrite Q1, EW.
    replace ((1 <=? op_window so) && (op_window so <=? op_window o)) with true by lia.
    eexists. split; [reflexivity|]. cbn. auto. }
  destruct X2 as (o3 & E2 & Q4 & Q5).
  assert (X3 : exists o4, cl_timeout se o3 = Ok o4 /\ op_size o4 = op_size o1 /\ op_enc o4 = op_enc o1).
  { unfold cl_timeout. rewrite GE by discriminate. destruct (ext_get used Timeout) as [x|] eqn:G; [|eauto 10].
    apply server_parse_inv in SP. destruct SP as [_ SP].
    assert (U : exists t, n_timeout cfg ex = Some t /\ x = show_num t).
    { assert (U : exists sess, used = used_with c cfg (sc_max_window cfg) ex sess)
        by (destruct SP as [(_ & _ & _ & ->)|(l & s0 & _ & _ & _ & ->)]; eauto).
      destruct U as [sess ->]. cbn [used_with ext_get x_timeout] in G. destruct (n_timeout cfg ex) as [t|]; [|discriminate].
      injection G as <-. eauto. }
    destruct U as (t & NT & ->). pose proof (n_timeout_cases cfg ex) as NC. rewrite NT in NC.
    destruct NC as ((_ & _ & _ & TL) & TR). cbv zeta. unfold U8_MAX in *. rewrite parse_or0_show by lia.
    unfold within_range, EXTENSION_TIMEOUT_SIZE_MIN, EXTENSION_TIMEOUT_SIZE_MAX.
    replace ((1 <=? t) && (t <=? 255)) with true by lia. eexists. split; [reflexivity|]. cbn. auto. }
  destruct X3 as (o4 & E3 & Q6 & Q7).
  assert (X4 : exists o5, cl_tsize se o4 = Ok o5 /\ op_enc o5 = op_enc o1 /\
     (op_size o = Some 0 -> forall x, ext_get se TransferSize = Some x -> op_size o5 = Some (parse_or0 U64_MAX x))).
  { unfold cl_tsize. destruct (ext_get se TransferSize) as [x|] eqn:G; [|exists o4; split; [reflexivity|split; [exact Q7|discriminate]]].
    cbv zeta. rewrite Q6, EZ. destruct (op_size o) as [[|n]|] eqn:ZO;
      [eexists; split; [reflexivity|split; [exact Q7|intros _ y [= <-]; reflexivity]]| |eexists; split; [reflexivity|split; [exact Q7|discriminate]]].
    destruct P3 as (P3a & P3b & P3c). destruct write; [|discriminate (P3c eq_refl)].
    assert (x = show_num (N.pos n)) as ->.
    { unfold se, answered in G. apply AZ in G. destruct G as (m & S1 & ->). f_equal. apply Z1 in S1.
      assert (A : asks ex TransferSize U64_MAX (N.pos n)).
      { exists (show_num (N.pos n)). rewrite EZ in GZ. split; [exact GZ|]. split; [apply show_decimal|assumption]. }
      exact (asks_unique _ _ _ _ _ _ S1 A). }
    rewrite parse_or0_show by assumption. rewrite N.eqb_refl. exists o4. split; [reflexivity|]. split; [exact Q7|discriminate]. }
  destruct X4 as (o5 & E4 & Q8 & Q9).
  assert (X5 : exists o6 kp, cl_enc c se o5 = Ok (o6, kp) /\
     (level_eqb (op_enc o6) LNone = false -> cc_key cc <> None -> forall vk, cc_remote cc = Some vk ->
      exists s, kp = Some (mkKP (Some vk) s)) /\ op_size o6 = op_size o5).
  { unfold cl_enc. rewrite Q8. destruct PL as [(E & _)|(NE & EL & k & K1 & K2 & U1 & U2 & U3 & U4)].
    - rewrite E. cbn [level_eqb]. exists o5, None. split; [reflexivity|]. rewrite Q8, E. split; [discriminate|reflexivity].
    - assert (EQ : level_eqb (op_enc o1) LNone = false) by (destruct (op_enc o1); reflexivity || congruence).
      rewrite EQ. rewrite !GE, U1, U2, U3 by discriminate.
      assert (LP : level_parse (level_show (op_enc so)) = Some (op_enc so)) by now apply level_names.
      unfold opt_decode at 1. rewrite LP. cbn [bind].
      pose (av := match sc_key cfg, ck_auth k with Some s, Some _ => Some s | _, _ => None end).
      assert (KP : bind (opt_decode decode_public_key (Some (encode_key (c_pub c seph)))) (fun session =>
            match session with
            | None => Err (EInvalidExtension SessionPublicKey)
            | Some session =>
                bind (opt_decode (decode_verifying_key (c_vk_ok c))
                  (match sc_key cfg, ck_auth k with Some s, Some _ => Some (encode_key (c_vk c s)) | _, _ => None end)) (fun auth =>
                bind (check_signature c se session auth) (fun _ =>
                Ok (set_enc o5 (op_enc so), Some (mkKP auth session))))
            end) = Ok (set_enc o5 (op_enc so), Some (mkKP (option_map (c_vk c) av) (c_pub c seph)))).
      { unfold opt_decode. rewrite key_text_round_trip by apply (ok_pub_len c HC). cbn [bind].
        assert (CS : check_signature c se (c_pub c seph) (option_map (c_vk c) av) = Ok tt).
        { eapply check_own; eauto. rewrite GE, U4 by discriminate. unfold av. destruct (sc_key cfg), (ck_auth k); reflexivity. }
        unfold av in *. destruct (sc_key cfg) as [sk0|]; [|cbn [bind option_map] in *; now rewrite CS].
        destruct (ck_auth k); [|cbn [bind option_map] in *; now rewrite CS].
        rewrite verifying_key_round_trip; [|apply (ok_vk_len c HC)|apply (ok_vk_len c HC)|apply (ok_vk c HC)].
        cbn [bind option_map] in *. now rewrite CS. }
      exists (set_enc o5 (op_enc so)), (Some (mkKP (option_map (c_vk c) av) (c_pub c seph))).
      split.
      + rewrite EL in *. destruct (op_enc o1); cbn [granted] in *; try congruence; exact KP.
      + split; [|reflexivity]. intros _ NK vk RV. destruct (P6 _ RV) as (sk0 & S1 & ->). rewrite (HK NE) in K1. injection K1 as <-.
        unfold av. rewrite S1. cbn [ck_auth]. destruct (cc_key cc); [|congruence]. cbn. eauto. }
  destruct X5 as (o6 & kp & E5 & KA & KZ).
  exists o6, kp. split; [|split; [exact KA|intros Z x G; rewrite KZ; now apply Q9]].
  unfold client_parse, bind. now rewrite E1, E2, E3, E4.
Qed.

Lemma validate_ok maxs name so path : normalize None name = Some path ->
  (forall n, op_size so = Some n -> n <= maxs) -> validate_request_options maxs name (op_size so) = Ok path.
Proof.
  intros HN HZ. unfold validate_request_options, handle_file_size, validate_file_name. rewrite HN.
  destruct (op_size so) as [n|].
  - specialize (HZ n eq_refl). replace (maxs <? n) with false by lia. reflexivity.
  - replace (maxs <? 0) with false by lia. reflexivity.
Qed.

(** Without announced options both sides use the defaults. *)
Lemma fallback_agree c cfg (write : bool) s keys o1 ex env key0 o0 used so sk size e : crypto_ok c -> 1 <= op_window o1 <= 65535 ->
  (op_enc o1 = LNone -> cs_key s = None) ->
  create_extensions c o1 keys = Ok ex -> fresh o0 -> (op_enc o1 = LNone -> key0 = None /\ op_enc o0 = LNone) ->
  server_parse c cfg (sc_max_window cfg) (h_eph env) ex o0 = Ok (used, so, sk) ->
  es_opts e = (if write then so else set_size so size) ->
  es_key e = match sk with Some k => Some (c_dh c (sk_secret k) (sk_remote k)) | None => key0 end ->
  ext_len (answered write size used) = 0 ->
  agree (with_block_size o1 512) (configure_socket c s keys (with_block_size o1 512) None) e.
Proof.
  intros HC [L1 L2] KN CE F0 K0 SP EO EK EL. apply ext_len_0 in EL.
  assert (GE : forall x, x <> TransferSize -> ext_get used x = None).
  { intros x NX. assert (G : ext_get (answered write size used) x = None) by (rewrite EL; destruct x; reflexivity).
    unfold answered in G. destruct write; [exact G|]. now rewrite answer_size_other in G. }
  pose proof (server_announces _ _ _ _ _ _ _ _ _ F0 SP) as (_ & _ & AB0 & _ & AW0 & _).
  pose proof (parse_level _ _ _ _ _ _ _ _ _ _ _ HC CE SP) as PL.
  destruct PL as [(E & S1 & S2 & _)|(_ & _ & k & _ & _ & U1 & _)]; [|rewrite GE in U1 by discriminate; discriminate].
  destruct (K0 E) as [-> E0]. subst sk.
  assert (W1 : op_window o1 = 1).
  { pose proof (create_ext_spec _ _ _ _ CE) as (_ & _ & _ & GW & _).
    destruct (N.eqb_spec (op_window o1) 1) as [?|NE]; [assumption|].
    apply server_parse_inv in SP. destruct SP as [_ SP].
    assert (U : exists sess, used = used_with c cfg (sc_max_window cfg) ex sess)
        by (destruct SP as [(_ & _ & _ & ->)|(l & s0 & _ & _ & _ & ->)]; eauto).
    destruct U as [sess ->]. specialize (GE WindowSize). cbn [used_with ext_get x_win] in GE.
    pose proof (n_window_cases (sc_max_window cfg) ex) as NC.
    destruct (n_window (sc_max_window cfg) ex); [specialize (GE ltac:(discriminate)); discriminate|].
    assert (A : asks ex WindowSize U16_MAX (op_window o1)).
    { exists (show_num (op_window o1)). split; [exact GW|]. split; [apply show_decimal|unfold U16_MAX; lia]. }
    specialize (NC _ A). lia. }
  assert (Q : op_bs (es_opts e) = op_bs so /\ op_window (es_opts e) = op_window so /\ op_enc (es_opts e) = op_enc so)
    by (rewrite EO; destruct write; auto).
  destruct Q as (Q1 & Q2 & Q3). unfold agree. rewrite Q1, Q2, Q3, AB0, AW0 by (apply GE; discriminate).
  cbn [op_bs op_window op_enc with_block_size set_bs]. rewrite S2, E0, E, W1.
  repeat split; auto.
  - unfold configure_socket, bs_enc. cbn [op_bs op_enc with_block_size set_bs cs_bs]. rewrite E, Q3, S2, E0, Q1, AB0 by (apply GE; discriminate).
    reflexivity.
  - left. split; [reflexivity|]. split; [|exact EK].
    unfold configure_socket. cbn [op_bs op_enc with_block_size set_bs]. rewrite E. cbn [cs_key]. auto.
Qed.

(** The same if the server announces nothing: the client of an upload takes an acknowledgement for consent. *)
Theorem handshake_agreement_plain : forall c cc o eph hs nonce name d s keys o1 ex cfg env av e w w' p sp txt q,
  crypto_ok c -> blen nonce = 24 -> blen (h_nonce env) = 24 -> good_string name ->
  (forall n, h_open env (es_path e) = Some (Some n) -> n <= U64_MAX) -> 1 <= op_window o <= 65535 ->
  client_request c cc o eph hs nonce true name = Ok (d, s, keys, o1, ex) ->
  right_key c cfg cc -> unambiguous c cfg s d ->
  server_receive cfg d = Ok d -> server_new c cfg env av d = SAccepted e (Some w) ->
  client_receive o w = Ok w' -> client_recv c s w' = Ok p ->
  query_step c cc true true o1 ex sp txt p = QDone q -> q_ack q = false ->
  agree (q_opts q) (configure_socket c s keys (q_opts q) (q_keys q)) e.
Proof.
  intros c cc o eph hs nonce name d s keys o1 ex cfg env av e w w' p sp txt q HC Hn Hn' HG HZ HW HR HK IC SRV HS CR RV QS QA.
  pose proof (server_view _ _ _ _ _ _ _ _ _ _ _ _ _ _ _ _ _ _ HC Hn HG HR HK IC HS)
    as (key0 & o0 & used & so & sk & size & SP & EW & EO & HO & EK & HS0 & AN).
  pose proof (request_datagram _ _ _ _ _ _ _ _ _ _ _ _ _ HR) as (LB & EB & EWi & _ & _ & _ & CE & KS & KN & _).
  assert (F0 : fresh o0) by (destruct HS0 as [(_ & -> & _)|(_ & _ & _ & _ & ->)]; reflexivity).
  assert (ZS : forall n, size = Some n -> n <= U64_MAX) by (intros n ->; auto).
  assert (PK : exists pk, answer_of (answered true size used) true = Some pk /\ from_bytes p = Ok pk).
  { destruct (answer_of (answered true size used) true) as [pk|] eqn:AO; [|congruence].
    destruct AN as (w0 & bl & [= <-] & SD). exists pk. split; [reflexivity|].
    destruct (client_sees _ _ _ _ _ _ _ _ _ _ _ _ _ _ _ _ _ _ _ _ _ _ _ _ _ HC Hn' HR SP EO ZS HS0 AO SD) as (A & B & D).
    congruence. }
  destruct PK as (pk & AO & FB). unfold answer_of in AO.
  assert (X : ext_len (answered true size used) = 0 /\ q = mkQ None false (with_block_size o1 DEFAULT_DATA_BLOCK_SIZE) None).
  { unfold query_step in QS. destruct (negb sp && _); [discriminate|]. rewrite FB in QS.
    destruct (N.ltb_spec 0 (ext_len (answered true size used))) as [L|L]; injection AO as <-.
    - exfalso. destruct (unasked _ _); [|discriminate]. destruct (client_parse _ _ _) as [[o2 kp]| |]; try discriminate. destruct (_ && _); [discriminate|].
      injection QS as <-. discriminate.
    - split; [lia|]. injection QS as <-. reflexivity. }
  destruct X as [EL ->]. cbn [q_opts q_keys].
  eapply (fallback_agree c cfg true s keys o1 ex env key0 o0 used so sk size e); try eassumption; [rewrite EWi; exact HW|].
  intros E. destruct HS0 as [(-> & -> & _)|(_ & _ & _ & EF & _)]; [auto|congruence].
Qed.
Print Assumptions handshake_agreement_plain.

(** ** C51: a compatible client and server complete the first exchange, and then agree. *)
Theorem handshake_completes : forall c cc cfg o eph hs nonce write name d s keys o1 ex env av path size txt,
  crypto_ok c -> compatible c cc cfg o write -> blen nonce = 24 -> blen (h_nonce env) = 24 ->
  good_string name -> normalize None name = Some path ->
  h_open env path = Some size -> (forall n, size = Some n -> n <= U64_MAX) ->
  h_bind env = true -> h_send env = true -> av_multi av = true ->
  client_request c cc o eph hs nonce write name = Ok (d, s, keys, o1, ex) ->
  unambiguous c cfg s d -> server_receive cfg d = Ok d ->
  exists e reply, server_new c cfg env av d = SAccepted e reply /\ es_path e = path /\ es_write e = write /\
  match reply with
  | Some w => exists p q, client_receive o w = Ok w /\ client_recv c s w = Ok p /\
      query_step c cc write true o1 ex true txt p = QDone q /\
      agree (q_opts q) (configure_socket c s keys (q_opts q) (q_keys q)) e /\
      (* a client that asks for encryption, a block size or a window, or for the size of a file that has one, is answered *)
      (op_enc o <> LNone \/ op_bs o <> 512 \/ op_window o <> 1 \/ op_size o <> None /\ (write = false -> size <> None) -> q_ack q = true) /\
      (op_size o = Some 0 -> write = false -> forall n, size = Some n -> op_size (q_opts q) = Some n)
  | None => write = false /\ op_enc o = LNone /\ op_bs o = 512 /\ op_window o = 1 /\ (op_size o <> None -> size = None) /\ forall b x, b < 65536 -> exists q,
      query_step c cc write true o1 ex true txt (to_bytes (PData b x)) = QDone q /\ q_data q = Some (to_bytes (PData b x)) /\
      agree (q_opts q) (configure_socket c s keys (q_opts q) (q_keys q)) e
  end.
Proof.
  intros c cc cfg o eph hs nonce write name d s keys o1 ex env av path size txt
    HC HP Hn Hn' HG HNm HO ZS HB HS HM HR IC SRV.
  pose proof (request_datagram _ _ _ _ _ _ _ _ _ _ _ _ _ HR) as (LB & EB & EW & ET & EZ & EBS & CE & KS & KN & RD).
  assert (RT : from_bytes (to_bytes (req_packet write (mkReq name ex))) = Ok (req_packet write (mkReq name ex))).
  { apply round_trip; [|destruct write; discriminate].
    pose proof (ex_good _ _ _ _ HC CE). destruct write; split; assumption. }
  assert (X : exists key0 o0, from_new_connection c cfg d = (to_bytes (req_packet write (mkReq name ex)), key0, o0) /\ fresh o0 /\
    (key0 = None /\ o0 = default_options /\ op_enc o1 = op_enc o /\
       (cs_key s = None \/ cs_level s = LData \/ cs_level s = LOptData \/ cs_level s = LOptProtocol) \/
     key0 <> None /\ key0 = cs_key s /\ cs_level s = LFull /\ op_enc o1 = LFull /\ o0 = set_enc default_options LFull) /\
    (op_enc o1 = LFull -> op_enc o0 = LFull) /\ (sc_full cfg = true -> op_enc o0 = LFull) /\
    (op_enc o1 = LNone <-> op_enc o = LNone)).
  { destruct RD as [(-> & EE & SL)|(vk & RV & EF & EO & ES & EI)].
    - assert (C1 : in_clear c cfg (to_bytes (req_packet write (mkReq name ex)))).
      { apply IC. destruct SL as [?|[E|[E|E]]]; auto; right; rewrite E; discriminate. }
      exists None, default_options. split; [exact (in_clear_new _ _ _ HC C1)|]. split; [reflexivity|]. split; [left; auto|].
      assert (NF : (op_enc o = LFull \/ op_enc o = LProtocol) -> cc_remote cc <> None -> False).
      { intros EF NR. destruct (cc_remote cc) as [vk|] eqn:RV; [|congruence].
        unfold client_request in HR. destruct (create_max_buffer (op_bs o)); try discriminate.
        unfold create_initial_socket in HR. rewrite RV in HR.
        assert (EN : level_eqb (op_enc o) LNone = false) by (destruct EF as [-> | ->]; reflexivity). rewrite EN in HR. cbv zeta in HR.
        set (oo := match op_enc o with LProtocol => set_enc o LFull | _ => o end) in *.
        assert (E1 : op_enc oo = LFull) by (unfold oo; destruct EF as [E|E]; rewrite E; [exact E|reflexivity]).
        destruct (create_extensions c oo _) as [ex'| |]; try discriminate.
        destruct (client_send _ _ _ _) as [dd| |]; try discriminate. injection HR as _ <- _ _ _.
        cbn [cs_key cs_level] in SL. rewrite E1 in SL. destruct SL as [?|[?|[?|?]]]; discriminate. }
      split; [|split].
      + rewrite EE. intros E. exfalso. apply NF; [auto|]. exact (cp_full _ _ _ _ _ HP E).
      + intros E. exfalso. destruct (cp_req _ _ _ _ _ HP E). auto.
      + now rewrite EE.
    - destruct (cp_key _ _ _ _ _ HP _ RV) as (k & K1 & ->).
      exists (Some (c_dh c hs (c_mont c (c_vk c k)))), (set_enc default_options LFull).
      split; [exact (sealed_new _ _ _ _ _ _ _ _ HC Hn K1 EI)|]. split; [reflexivity|]. rewrite ES. cbn [cs_key cs_level].
      split; [right; repeat split; auto; discriminate|]. split; [auto|]. split; [auto|].
      rewrite EF. destruct EO as [-> | ->]; split; discriminate. }
  destruct X as (key0 & o0 & FN & F0 & HS0 & FL & FR & NN).
  destruct (server_grants c cc cfg o write eph o1 keys ex (sc_max_window cfg) (h_eph env) o0 HC HP CE KS NN FL FR) as (used & so & sk & SP).
  pose proof (server_limits _ _ _ _ _ _ _ _ _ F0 SP) as ((B1 & B2 & _) & _ & _ & Z1).
  assert (VR : validate_request_options (sc_max_size cfg) name (op_size so) = Ok path).
  { apply validate_ok; [assumption|]. intros n E. apply Z1 in E.
    pose proof (create_ext_spec _ _ _ _ CE) as (_ & _ & GZ & _). rewrite EZ in GZ.
    destruct E as (x & G & D & _). rewrite GZ in G. pose proof (cp_size _ _ _ _ _ HP) as CZ.
    destruct (op_size o) as [m|]; [|discriminate]. injection G as <-.
    rewrite (decimal_unique _ _ _ D (show_decimal m)). tauto. }
  assert (AL : blen (to_bytes (POack (answered write size used))) <= 294) by (eapply answer_len; eauto).
  destruct (server_accepts c cfg env av d _ key0 o0 write (mkReq name ex) used so sk path size FN RT SP VR HO HB HS HM) as (e & reply & SN & WE & PE);
    [pose proof (cp_max _ _ _ _ _ HP); lia|assumption|].
  exists e, reply. split; [assumption|]. split; [assumption|]. split; [assumption|].
  pose proof (server_new_accepted _ _ _ _ _ _ _ SN) as [(buf & hs' & o0' & r & used' & so' & sk' & size' & FN' & FB' & SP' & _ & HO' & EO & EK & _ & AN)].
  rewrite FN in FN'. injection FN' as <- <- <-. rewrite RT in FB'. rewrite WE in *. 
  assert (r = mkReq name ex) as -> by (destruct write; cbn in FB'; congruence).
  cbn [rq_exts] in SP'. rewrite SP in SP'. injection SP' as <- <- <-. rewrite PE, HO in HO'. injection HO' as <-.
  fold (answered write size used) in AN.
  assert (K0 : op_enc o1 = LNone -> key0 = None /\ op_enc o0 = LNone).
  { intros E. destruct HS0 as [(-> & -> & _)|(_ & _ & _ & EF & _)]; [auto|congruence]. }
  assert (FA : ext_len (answered write size used) = 0 ->
     agree (with_block_size o1 512) (configure_socket c s keys (with_block_size o1 512) None) e)
    by (intros EL; eapply fallback_agree; eauto; rewrite EW; exact (cp_win _ _ _ _ _ HP)).
  assert (TS : forall m, op_size o = Some m -> ext_get used TransferSize = Some (show_num m)).
  { intros m E. pose proof (create_ext_spec _ _ _ _ CE) as (_ & _ & GZ & _). rewrite EZ, E in GZ.
    pose proof (server_announces _ _ _ _ _ _ _ _ _ F0 SP) as (_ & _ & _ & _ & _ & _ & _ & AZ & _). apply AZ. exists m. split; [|reflexivity].
    apply Z1. exists (show_num m). split; [exact GZ|]. split; [apply show_decimal|]. pose proof (cp_size _ _ _ _ _ HP) as CZ. rewrite E in CZ. tauto. }
  assert (TA : op_enc o <> LNone \/ op_bs o <> 512 \/ op_window o <> 1 \/ op_size o <> None /\ (write = false -> size <> None) -> 0 < ext_len (answered write size used)).
  { intros [H1|[H1|[H1|[H1 H2]]]].
    { pose proof (parse_level _ _ _ _ _ _ _ _ _ _ _ HC CE SP) as [(E & _)|(_ & _ & k & _ & _ & G & _)]; [tauto|].
      destruct (N.eq_dec (ext_len (answered write size used)) 0) as [E|E]; [|lia]. exfalso. apply ext_len_0 in E.
      assert (G2 : ext_get (answered write size used) EncLevel = None) by (rewrite E; reflexivity).
      unfold answered in G2. destruct write; [congruence|]. unfold answer_size in G2.
      destruct (ext_get used TransferSize), size as [n|]; try congruence; [destruct (0 <? n); [|congruence]|];
        revert G2 G; unfold ext_insert, ext_remove; destruct used; cbn; congruence. }
    1,2: pose proof (create_ext_spec _ _ _ _ CE) as (GB & _ & _ & GW & _); pose proof (server_answers _ _ _ _ _ _ _ _ _ SP) as (RB & RW & _);
      destruct (N.eq_dec (ext_len (answered write size used)) 0) as [E|E]; [|lia]; exfalso; apply ext_len_0 in E;
      assert (GE : forall x, x <> TransferSize -> ext_get used x = None)
        by (intros x NX; transitivity (ext_get (answered write size used) x); [unfold answered; destruct write; [reflexivity|symmetry; now apply answer_size_other]|rewrite E; destruct x; reflexivity]).
    { apply (RB (op_bs o)); [|apply (cp_bs _ _ _ _ _ HP)|apply GE; discriminate]. rewrite EB in GB. destruct (N.eqb_spec (op_bs o) 512); [contradiction|].
      exists (show_num (op_bs o)). split; [exact GB|]. split; [apply show_decimal|pose proof (cp_bs _ _ _ _ _ HP); unfold U16_MAX; lia]. }
    { apply (RW (op_window o)); [|apply (cp_win _ _ _ _ _ HP)|apply GE; discriminate]. rewrite EW in GW. destruct (N.eqb_spec (op_window o) 1); [contradiction|].
      exists (show_num (op_window o)). split; [exact GW|]. split; [apply show_decimal|pose proof (cp_win _ _ _ _ _ HP); unfold U16_MAX; lia]. }
    destruct (op_size o) as [m|]; [|congruence]. specialize (TS m eq_refl).
    destruct (N.eq_dec (ext_len (answered write size used)) 0) as [E|E]; [|lia]. exfalso. apply ext_len_0 in E.
    assert (G : ext_get (answered write size used) TransferSize = None) by (rewrite E; reflexivity).
    unfold answered in G. destruct write; [congruence|]. unfold answer_size in G. rewrite TS in G.
    destruct size as [n|]; [|now apply H2]. destruct (0 <? n); [unfold ext_insert in G; rewrite ext_get_put in G; discriminate G|congruence]. }
  assert (TN : op_size o = Some 0 -> write = false -> forall n, size = Some n ->
    exists x, ext_get (answered write size used) TransferSize = Some x /\ parse_or0 U64_MAX x = n).
  { intros H1 -> n ->. specialize (TS 0 H1). specialize (ZS n eq_refl). cbn [answered]. unfold answer_size. rewrite TS.
    destruct (0 <? n) eqn:EN; [|exists (show_num 0); split; [exact TS|rewrite parse_or0_show by (unfold U64_MAX; lia); lia]].
    exists (show_num n). unfold ext_insert. rewrite ext_get_put. split; [reflexivity|now apply parse_or0_show]. }
  destruct (answer_of (answered write size used) write) as [pk|] eqn:AO.
  - destruct AN as (w & -> & SD).
    destruct (client_sees _ _ _ _ _ _ _ _ _ _ _ _ _ _ _ _ _ _ _ _ _ _ _ _ _ HC Hn' HR SP EO ZS HS0 AO SD) as (CR & RV & RTP).
    exists (to_bytes pk).
    assert (QS : exists q, query_step c cc write true o1 ex true txt (to_bytes pk) = QDone q /\
      (q_ack q = false -> agree (q_opts q) (configure_socket c s keys (q_opts q) (q_keys q)) e) /\
      (op_enc o <> LNone \/ op_bs o <> 512 \/ op_window o <> 1 \/ op_size o <> None /\ (write = false -> size <> None) -> q_ack q = true) /\
      (op_size o = Some 0 -> write = false -> forall n, size = Some n -> op_size (q_opts q) = Some n)).
    { unfold query_step. rewrite RTP. cbn [negb andb]. unfold answer_of in AO.
      destruct (0 <? ext_len (answered write size used)) eqn:EL.
      - injection AO as <-.
        assert (UA : unasked (answered write size used) ex = []).
        { apply unasked_nil. intros x G. pose proof (server_announces _ _ _ _ _ _ _ _ _ F0 SP) as (SB & _). apply SB.
          unfold answered in G. destruct write; [assumption|now apply answer_size_sub in G]. }
        rewrite UA.
        destruct (client_takes c cc cfg o write eph o1 keys ex (h_eph env) o0 used so sk size HC HP EB EW EZ CE KS F0 SP ZS) as (o2 & kp & CP & KA & KZ).
        rewrite CP. cbv zeta.
        match goal with |- context [if ?b then _ else _] => assert (BF : b = false) end.
        { destruct (level_eqb (op_enc o2) LNone) eqn:EN; [reflexivity|]. cbn [negb andb].
          destruct (cc_key cc) as [a|]; [|reflexivity]. destruct (cc_remote cc) as [vk|] eqn:RVK; [|reflexivity].
          destruct (KA eq_refl ltac:(discriminate) vk eq_refl) as [x ->]. now rewrite beq_refl. }
        rewrite BF. eexists. split; [reflexivity|]. split; [discriminate|]. split; [reflexivity|].
        intros H1 H2 n H3. destruct (TN H1 H2 n H3) as (x & G & <-). exact (KZ H1 x G).
      - destruct write; [|discriminate]. injection AO as <-. eexists. split; [reflexivity|]. split; [intros _; cbn [q_opts q_keys]; apply FA; lia|].
        split; [intros H1; specialize (TA H1); lia|discriminate]. }
    destruct QS as (q & QS & FQ & FA1 & FA2). exists q. split; [assumption|]. split; [assumption|]. split; [assumption|].
    split; [|auto]. destruct (q_ack q) eqn:QA; [|auto].
    eapply (handshake_agreement c cc o eph hs nonce write name d s keys o1 ex cfg env av e w w (to_bytes pk) true txt q); eauto.
    + rewrite PE, HO. intros n [= ->]. auto.
    + exact (cp_key _ _ _ _ _ HP).
  - subst reply. unfold answer_of in AO. destruct (0 <? ext_len (answered write size used)) eqn:EL; [discriminate|].
    destruct write; [discriminate|]. split; [reflexivity|].
    split; [destruct (level_eqb (op_enc o) LNone) eqn:E; [destruct (op_enc o); discriminate || reflexivity|]; exfalso;
      assert (H : 0 < ext_len (answered false size used)) by (apply TA; left; intros E'; rewrite E' in E; discriminate); apply N.ltb_lt in H; congruence|].
    split; [destruct (N.eq_dec (op_bs o) 512) as [E|E]; [exact E|]; exfalso;
      assert (H : 0 < ext_len (answered false size used)) by (apply TA; right; left; exact E); apply N.ltb_lt in H; congruence|].
    split; [destruct (N.eq_dec (op_window o) 1) as [E|E]; [exact E|]; exfalso;
      assert (H : 0 < ext_len (answered false size used)) by (apply TA; right; right; left; exact E); apply N.ltb_lt in H; congruence|].
    split; [intros H; destruct size as [n|]; [exfalso; assert (H2 : 0 < ext_len (answered false (Some n) used)) by (apply TA; right; right; right; split; [exact H|discriminate]); apply N.ltb_lt in H2; congruence|reflexivity]|].
    intros b x Hb.
    assert (RD' : from_bytes (to_bytes (PData b x)) = Ok (PData b x)) by (apply round_trip; [exact Hb|discriminate]).
    unfold query_step. rewrite RD'. cbn [negb andb]. eexists. split; [reflexivity|]. split; [reflexivity|].
    cbn [q_opts q_keys]. apply FA. lia.
Qed.
Print Assumptions handshake_completes.

(** A concrete exchange: the server requires full encryption and an authorised key. *)
Example handshake_case :
  compatible toy ex_cc ex_cfg ex_o true /\ crypto_ok toy /\
  match ex_req with
  | Ok (d, s, keys, o1, ex) =>
      unambiguous toy ex_cfg s d /\ server_receive ex_cfg d = Ok d /\
      match server_new toy ex_cfg ex_env av_all d with
      | SAccepted e (Some w) =>
          es_path e = s2b "dir/f" /\ op_enc (es_opts e) = LFull /\ op_window (es_opts e) = 4 /\
          op_bs (es_opts e) = 1000 /\ op_retry (es_opts e) = 2000 /\ blen w = 1004 /\
          match client_recv toy s w with
          | Ok p => match query_step toy ex_cc true true o1 ex true (fun _ => []) p with
                    | QDone q => q_ack q = true /\ q_opts q = es_opts e /\
                        cs_key (configure_socket toy s keys (q_opts q) (q_keys q)) = es_key e
                    | _ => False
                    end
          | _ => False
          end
      | _ => False
      end
  | _ => False
  end.
Proof.
  split; [|split; [exact toy_ok|]].
  - constructor; cbn; try lia; try discriminate.
    + repeat split; try (unfold U64_MAX; lia).
    + intros vk [= <-]. exists [7]. auto.
    + intros _. split; [discriminate|auto].
    + intros ks [= <-]. split; [discriminate|]. exists [3]. split; [reflexivity|]. left. reflexivity.
  - destruct ex_req as [[[[[d s] keys] o1] ex]| |] eqn:E; try (vm_compute in E; discriminate E).
    vm_compute in E. injection E as <- <- <- <- <-.
    split; [|vm_compute; repeat split; reflexivity].
    intros [H|H]; cbn in H; congruence.
Qed.
(** The hypotheses of the read direction without any option, and its outcome. *)
Example handshake_plain_case :
  match client_request toy (mkCcfg None None false) default_options [1] [2] (repeat 5 24) false (s2b "f") with
  | Ok (d, s, keys, o1, ex) =>
      d = s2b "" ++ [0; 1] ++ s2b "f" ++ [0] ++ s2b "octet" ++ [0] /\
      compatible toy (mkCcfg None None false) cfg_ex default_options false /\
      unambiguous toy cfg_ex s d /\
      match server_new toy cfg_ex ex_env av_all d with
      | SAccepted e None => op_bs (es_opts e) = 512 /\ es_key e = None
      | _ => False
      end
  | _ => False
  end.
Proof.
  destruct (client_request _ _ _ _ _ _ _ _) as [[[[[d s] keys] o1] ex]| |] eqn:E; try (vm_compute in E; discriminate E).
  vm_compute in E. injection E as <- <- <- <- <-.
  split; [reflexivity|]. split; [|split].
  - constructor; cbn; unfold DEFAULT_DATA_BLOCK_SIZE; try lia; try discriminate; try exact I.
  - intros _ p key (sk & ct & tag & n & pk & pd & K & _). discriminate K.
  - vm_compute. auto.
Qed.

(** ** C40 sizes of buffers *)
Theorem buffer_size : forall bs, (bs <= 1425 <-> create_max_buffer bs = Ok (N.max (bs + 4) 516)) /\
  (1425 < bs <-> create_max_buffer bs = Panic).
Proof.
  intros bs. unfold create_max_buffer, DATA_PACKET_HEADER_SIZE, MIN_BUFFER_SIZE, MAX_BUFFER_SIZE.
  destruct (_ <=? _) eqn:E; split; split; intros; try discriminate; try lia; reflexivity.
Qed.

(** Whatever is negotiated, the answer fits into the datagram, encrypted or not. *)
Theorem answer_fits : forall c cfg env ce o0 used so sk size write key0 buflen, crypto_ok c -> fresh o0 ->
  512 <= sc_max_bs cfg -> (forall n, size = Some n -> n <= U64_MAX) -> 0 < ext_len (answered write size used) ->
  server_parse c cfg (sc_max_window cfg) (h_eph env) ce o0 = Ok (used, so, sk) ->
  h_send env = true ->
  send_packet c so key0 buflen env (POack (answered write size used)) <> None.
Proof.
  intros c cfg env ce o0 used so sk size write key0 buflen HC F0 HM ZS EL SP HS.
  pose proof (server_limits _ _ _ _ _ _ _ _ _ F0 SP) as ((B1 & B2 & _) & _).
  pose proof (answer_len _ _ _ _ _ _ _ _ _ write size HC SP ZS) as AL.
  assert (4 <= blen (to_bytes (POack (answered write size used)))).
  { assert (NE : ext_list (answered write size used) <> []) by (intros E; unfold ext_len in EL; rewrite E in EL; cbn in EL; lia).
    unfold to_bytes, body_to_bytes, oack_to_bytes. destruct (ext_list _) as [|[x v] l]; [congruence|].
    cbn [flat_map]. rewrite !blen_app. change (blen [0]) with 1. change (blen (be16 (opcode _))) with 2. lia. }
  destruct (send_packet_total c so key0 buflen env (POack (answered write size used)) HS) as [w ->]; [auto|lia|discriminate|discriminate].
Qed.

(** Once both sides agree, every packet with at most a block of payload can be sent, in
    either direction, and arrives whole: the receive buffers (of the agreed block size, or of
    a larger one) do not cut it. *)
Theorem agreed_packets_fit : forall c o s e p n buf bs, agree o s e -> crypto_ok c -> blen n = 24 ->
  512 <= op_bs o <= bs -> create_max_buffer bs = Ok buf ->
  4 <= blen (to_bytes p) <= bs_enc o + 4 -> opcode p <> 1 -> opcode p <> 2 ->
  (exists w, server_encrypt c (es_opts e) (es_key e) (opcode p =? T_DATA) n (to_bytes p) = Ok w /\
     takeN buf w = w /\ client_recv c s w = Ok (to_bytes p)) /\
  (exists w, client_send c s n (to_bytes p) = Ok w /\
     takeN buf w = w /\ server_decrypt c (op_enc (es_opts e)) (es_key e) w = Ok (to_bytes p)).
Proof.
  intros c o s e p n buf bs AG HC Hn HB HM HP N1 N2. pose proof (agreement_suffices c o s e AG HC) as [S1 S2].
  apply create_max_buffer_ok in HM. destruct HM as [-> _].
  destruct AG as (A1 & A2 & A3 & A4 & A5).
  assert (BE : bs_enc o = bs_enc (es_opts e)) by (unfold bs_enc; now rewrite A1, A3).
  assert (FIT : forall w, blen w <= op_bs o + 4 -> takeN (N.max (bs + 4) 516) w = w) by (intros; apply takeN_all; lia).
  assert (NR : forall r, p <> PRead r) by (intros r ->; apply N1; reflexivity).
  assert (NW : forall r, p <> PWrite r) by (intros r ->; apply N2; reflexivity).
  assert (X : exists w1 w2, server_encrypt c (es_opts e) (es_key e) (opcode p =? T_DATA) n (to_bytes p) = Ok w1 /\
     blen w1 <= op_bs o + 4 /\ client_send c s n (to_bytes p) = Ok w2 /\ blen w2 <= op_bs o + 4).
  { destruct A5 as [(E & K1 & K2)|(E & LV & NK & KE)].
    - exists (to_bytes p), (to_bytes p). unfold server_encrypt, client_send. rewrite <- A3, E, K1.
      unfold bs_enc in HP. rewrite E in HP. destruct (cs_level s); repeat split; lia.
    - destruct (encrypted_size c (es_opts e) (es_key e) n p s HC Hn) as [(w1 & W1 & L1) (w2 & W2 & L2)];
        try congruence; try lia.
      exists w1, w2. rewrite A1. auto. }
  destruct X as (w1 & w2 & W1 & L1 & W2 & L2).
  split; [exists w1|exists w2]; eauto 10.
Qed.

(** The size of a sealed request is the client's block size plus four: a server whose buffer is
    smaller cuts it.  The request proper must be 73 bytes shorter, otherwise the client fails. *)
Theorem sealed_request_size : forall c cc o eph hs nonce write name vk, crypto_ok c -> blen nonce = 24 ->
  cc_remote cc = Some vk -> op_enc o = LFull \/ op_enc o = LProtocol -> op_bs o <= 1425 ->
  exists ex, create_extensions c (set_enc o LFull) (Some (mkCK eph (cc_key cc))) = Ok ex /\
  let size := blen (to_bytes (req_packet write (mkReq name ex))) in
  (size + 73 <= op_bs o + 4 -> exists d s keys o1,
     client_request c cc o eph hs nonce write name = Ok (d, s, keys, o1, ex) /\ blen d = op_bs o + 4 /\
     forall cfg, sc_max_bs cfg <= 1425 -> (server_receive cfg d = Ok d <-> op_bs o + 4 <= N.max (sc_max_bs cfg + 4) 516)) /\
  (op_bs o + 4 < size + 73 -> client_request c cc o eph hs nonce write name = Err tt).
Proof.
  intros c cc o eph hs nonce write name vk HC Hn RV HE HB.
  assert (CE : exists ex, create_extensions c (set_enc o LFull) (Some (mkCK eph (cc_key cc))) = Ok ex).
  { unfold create_extensions. cbn [op_enc set_enc level_eqb ck_auth]. destruct (cc_key cc); eauto. }
  destruct CE as [ex CE]. exists ex. split; [assumption|]. cbv zeta.
  assert (EN : level_eqb (op_enc o) LNone = false) by (destruct HE as [-> | ->]; reflexivity).
  assert (OO : match op_enc o with LProtocol => set_enc o LFull | _ => o end = set_enc o LFull)
    by (destruct o as [b1 b2 b3 b4 b5]; cbn [op_enc] in *; destruct HE as [-> | ->]; reflexivity).
  assert (CR : client_request c cc o eph hs nonce write name =
     match enc_initial c (c_dh c hs (c_mont c vk)) nonce (to_bytes (req_packet write (mkReq name ex))) (op_bs o + 4) (c_pub c hs) with
     | Ok d => Ok (d, mkSock (Some (c_dh c hs (c_mont c vk))) LFull (Some (c_pub c hs)) (op_bs o), Some (mkCK eph (cc_key cc)), set_enc o LFull, ex)
     | Err e => Err e | Panic => Panic end).
  { unfold client_request. destruct (buffer_size (op_bs o)) as [[BS _] _]. rewrite (BS HB).
    unfold create_initial_socket. rewrite EN, RV. cbv zeta. rewrite OO. rewrite CE.
    unfold client_send. cbn [cs_level cs_key cs_pk cs_bs op_enc set_enc op_bs].
    replace (has_type T_READ _ || has_type T_WRITE _) with true by (rewrite !type_of_packet; destruct write; reflexivity).
    change (if write then PWrite (mkReq name ex) else PRead (mkReq name ex)) with (req_packet write (mkReq name ex)).
    reflexivity. }
  rewrite CR. split.
  - intros L. destruct (enc_initial_total c (c_dh c hs (c_mont c vk)) nonce _ (op_bs o + 4) (c_pub c hs) (req_ne write (mkReq name ex)) L) as [d D].
    rewrite D. exists d. do 3 eexists. split; [reflexivity|].
    destruct (enc_initial_round _ _ _ _ _ _ _ HC Hn (proj1 (ok_pub_len c HC hs)) D) as (_ & _ & _ & LD & _). split; [assumption|].
    intros cfg HM. unfold server_receive. destruct (buffer_size (sc_max_bs cfg)) as [[BS _] _]. rewrite (BS HM). split.
    + intros [= E]. apply (f_equal blen) in E. rewrite blen_takeN in E. lia.
    + intros L2. f_equal. apply takeN_all. lia.
  - intros L. unfold enc_initial. change RESERVED with 73. destruct (op_bs o + 4 <? 73) eqn:S; [reflexivity|].
    unfold apply_bit_padding. destruct (rev (to_bytes (req_packet write (mkReq name ex)))) eqn:RB; [reflexivity|].
    replace (op_bs o + 4 - 73 <? blen (to_bytes (req_packet write (mkReq name ex)))) with true by lia. reflexivity.
Qed.
Print Assumptions buffer_size.
Print Assumptions answer_fits.
Print Assumptions agreed_packets_fit.
Print Assumptions sealed_request_size.

Example agreed_packets_fit_case : exists o s e,
  agree o s e /\ op_enc o = LProtocol /\ 512 <= op_bs o <= 1425 /\ create_max_buffer 1425 = Ok 1429 /\
  4 <= blen (to_bytes (PData 7 (repeat 3 471))) <= bs_enc o + 4.
Proof.
  exists (mkOpts 512 80 None LProtocol 1), (mkSock (Some [1; 2]) LProtocol None 471),
    (mkEst true (s2b "f") (mkOpts 512 80 None LProtocol 1) (Some [1; 2]) None).
  split; [|split; [reflexivity|split; [cbn; lia|split; [reflexivity|vm_compute; split; discriminate]]]].
  unfold agree. cbn. repeat split. right. repeat split; auto; discriminate.
Qed.
