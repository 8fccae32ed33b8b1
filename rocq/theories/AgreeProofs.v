(** Both ends of the first exchange together. *)
From Verif Require Import Base BaseProofs PacketModel PacketSpec PacketProofs ReaderModel ConfigModel Base64Model Base64Proofs
  CryptoModel CryptoSpec CryptoProofs PropCrypto ExtModel ExtSpec ExtProofs PathModel HandshakeModel HandshakeProofs PropExt
  PropHandshake.

(** ** What the client asks for *)
Lemma create_ext_spec c o keys ex : create_extensions c o keys = Ok ex ->
  ext_get ex BlockSize = (if op_bs o =? 512 then None else Some (show_num (op_bs o))) /\
  ext_get ex Timeout = (if negb (op_retry o =? 80) && (1 <=? op_retry o / 1000)
                        then Some (show_num (op_retry o / 1000)) else None) /\
  ext_get ex TransferSize = option_map show_num (op_size o) /\
  ext_get ex WindowSize = (if op_window o =? 1 then None else Some (show_num (op_window o))) /\
  ext_get ex EncLevel = (if level_eqb (op_enc o) LNone then None else Some (level_show (op_enc o))) /\
  (op_enc o = LNone -> ext_get ex SessionPublicKey = None /\ ext_get ex AuthPublicKey = None /\ ext_get ex Signature = None) /\
  (op_enc o <> LNone -> exists k, keys = Some k /\
     ext_get ex SessionPublicKey = Some (encode_key (c_pub c (ck_secret k))) /\
     ext_get ex AuthPublicKey = option_map (fun sk => encode_key (c_vk c sk)) (ck_auth k) /\
     ext_get ex Signature = option_map (fun sk => encode_key (c_sign c sk (c_pub c (ck_secret k)))) (ck_auth k)).
Proof.
  unfold create_extensions. cbv zeta. unfold DEFAULT_DATA_BLOCK_SIZE, DEFAULT_RETRY_PACKET_TIMEOUT,
    EXTENSION_TIMEOUT_SIZE_MIN, EXTENSION_WINDOW_SIZE_MIN, ext_insert.
  set (B := op_bs o =? 512). set (T := negb (op_retry o =? 80) && (1 <=? op_retry o / 1000)). set (W := op_window o =? 1).
  destruct (level_eqb (op_enc o) LNone) eqn:EN.
  - assert (op_enc o = LNone) as E by (destruct (op_enc o); discriminate || reflexivity).
    intros [= <-]. rewrite E.
    destruct B, T, W, (op_size o); rewrite ?ext_get_put; cbn [ext_eqb]; repeat split; try reflexivity; try congruence.
  - assert (op_enc o <> LNone) as E by (intros E; rewrite E in EN; discriminate).
    destruct keys as [k|]; [|discriminate]. intros H.
    assert (X : ex = match ck_auth k with None => _ | Some sk => _ end) by (destruct (ck_auth k); injection H as <-; reflexivity).
    clear H. subst ex.
    destruct B, T, W, (op_size o), (ck_auth k) eqn:A; rewrite ?ext_get_put; cbn [ext_eqb];
      (repeat split; try reflexivity; try congruence; intros _; exists k; rewrite ?A; rewrite ?ext_get_put; auto).
Qed.
Lemma level_good l : good_string (level_show l).
Proof. apply ascii_utf8. destruct l; vm_compute; repeat constructor. Qed.
Lemma key_good k : wf_bytes k -> good_string (encode_key k).
Proof. intros W. apply ascii_utf8. now apply b64_ascii. Qed.
Lemma ex_good c o keys ex : crypto_ok c -> create_extensions c o keys = Ok ex -> good_exts ex.
Proof.
  intros HC H. apply create_ext_spec in H. destruct H as (B & T & Z & W & L & N0 & N1).
  assert (K : op_enc o = LNone \/ op_enc o <> LNone) by (destruct (op_enc o); (now left) || (right; discriminate)).
  intros e v G. destruct e.
  - rewrite B in G. destruct (_ =? _) in G; [discriminate G|]. injection G as <-. apply show_good.
  - rewrite T in G. destruct (_ && _) in G; [|discriminate G]. injection G as <-. apply show_good.
  - rewrite Z in G. destruct (op_size o); [|discriminate]. injection G as <-. apply show_good.
  - rewrite L in G. destruct (level_eqb _ _) in G; [discriminate G|]. injection G as <-. apply level_good.
  - rewrite W in G. destruct (_ =? _) in G; [discriminate G|]. injection G as <-. apply show_good.
  - destruct K as [K|K]; [destruct (N0 K) as (E & _); congruence|].
    destruct (N1 K) as (k & _ & E & _). rewrite E in G. injection G as <-. apply key_good, (ok_pub_len c HC).
  - destruct K as [K|K]; [destruct (N0 K) as (_ & E & _); congruence|].
    destruct (N1 K) as (k & _ & _ & E & _). rewrite E in G. destruct (ck_auth k); [|discriminate].
    injection G as <-. apply key_good, (ok_vk_len c HC).
  - destruct K as [K|K]; [destruct (N0 K) as (_ & _ & E); congruence|].
    destruct (N1 K) as (k & _ & _ & _ & E). rewrite E in G. destruct (ck_auth k); [|discriminate].
    injection G as <-. apply key_good, (ok_sig_len c HC).
Qed.

(** ** The request datagram *)
Definition req_packet (write : bool) (r : request) : packet := if write then PWrite r else PRead r.
Lemma request_datagram c cfg o eph hs nonce write name d s keys o1 ex :
  client_request c cfg o eph hs nonce write name = Ok (d, s, keys, o1, ex) ->
  op_bs o <= 1425 /\
  op_bs o1 = op_bs o /\ op_window o1 = op_window o /\ op_retry o1 = op_retry o /\ op_size o1 = op_size o /\
  cs_bs s = op_bs o /\
  create_extensions c o1 keys = Ok ex /\
  (op_enc o1 <> LNone -> keys = Some (mkCK eph (cc_key cfg))) /\ (op_enc o1 = LNone -> cs_key s = None) /\
  ((d = to_bytes (req_packet write (mkReq name ex)) /\
      (op_enc o1 = op_enc o) /\
      (cs_key s = None \/ cs_level s = LData \/ cs_level s = LOptData \/ cs_level s = LOptProtocol)) \/
   (exists vk, cc_remote cfg = Some vk /\ op_enc o1 = LFull /\ (op_enc o = LFull \/ op_enc o = LProtocol) /\
      s = mkSock (Some (c_dh c hs (c_mont c vk))) LFull (Some (c_pub c hs)) (op_bs o) /\
      enc_initial c (c_dh c hs (c_mont c vk)) nonce (to_bytes (req_packet write (mkReq name ex)))
        (op_bs o + 4) (c_pub c hs) = Ok d)).
Proof.
  unfold client_request, create_max_buffer. intros H.
  destruct (_ <=? MAX_BUFFER_SIZE) eqn:MB; [|discriminate].
  assert (LB : op_bs o <= 1425) by (unfold DATA_PACKET_HEADER_SIZE, MAX_BUFFER_SIZE, MIN_BUFFER_SIZE in MB; lia).
  destruct (create_initial_socket c cfg o eph hs) as [[s0 k0] o0] eqn:CI.
  destruct (create_extensions c o0 k0) as [ex0| |] eqn:CE; try discriminate. cbv zeta in H.
  destruct (client_send _ _ _ _) as [d0| |] eqn:CS in H; try discriminate. injection H as -> -> -> -> ->.
  fold (req_packet write (mkReq name ex)) in CS.
  assert (T12 : has_type T_READ (to_bytes (req_packet write (mkReq name ex))) || has_type T_WRITE (to_bytes (req_packet write (mkReq name ex))) = true)
    by (rewrite !type_of_packet; destruct write; reflexivity).
  assert (T3 : has_type T_DATA (to_bytes (req_packet write (mkReq name ex))) = false)
    by (rewrite !type_of_packet; destruct write; reflexivity).
  unfold client_send in CS. unfold create_initial_socket in CI.
  split; [assumption|].
  destruct (level_eqb (op_enc o) LNone) eqn:EN.
  - injection CI as <- <- <-. cbn [cs_level cs_key] in *. injection CS as <-.
    assert (op_enc o = LNone) as E by (destruct (op_enc o); discriminate || reflexivity).
    repeat split; auto; try congruence; left; auto.
  - assert (op_enc o <> LNone) as E by (intros E; rewrite E in EN; discriminate).
    destruct (cc_remote cfg) as [vk|].
    + destruct (op_enc o) eqn:EO; try congruence; cbv zeta iota in CI; rewrite ?EO in CI;
      injection CI as <- <- <-; cbn [cs_level cs_key cs_pk cs_bs op_enc set_enc] in *; rewrite ?EO, ?T12, ?T3 in *;
      repeat split; auto; try congruence;
      try (left; injection CS as <-; split; [reflexivity|]; split; [congruence|auto]; fail).
      * right. exists vk. auto 10.
      * right. exists vk. auto 10.
    + injection CI as <- <- <-. cbn [cs_level cs_key] in *. injection CS as <-.
      repeat split; auto; try congruence; left; auto.
Qed.

Lemma req_ne write r : to_bytes (req_packet write r) <> [].
Proof. destruct write; discriminate. Qed.

(** How the server sees the datagram. *)
Definition in_clear (c : crypto) (cfg : scfg) (d : bytes) : Prop := forall p key, ~ sealed_initial c cfg d p key.
Lemma in_clear_new c cfg d : crypto_ok c -> in_clear c cfg d -> from_new_connection c cfg d = (d, None, default_options).
Proof.
  intros HC H. destruct (from_new_cases c cfg d) as [E|(sk & p & data & K & P & D & _)]; [exact E|].
  destruct (H _ _ (sealed_intro c cfg d sk p data HC K P D)).
Qed.
Lemma sealed_new c cfg sk hs nonce buf n d : crypto_ok c -> blen nonce = 24 -> sc_key cfg = Some sk ->
  enc_initial c (c_dh c hs (c_mont c (c_vk c sk))) nonce buf n (c_pub c hs) = Ok d ->
  from_new_connection c cfg d =
  (buf, Some (c_dh c hs (c_mont c (c_vk c sk))), set_enc default_options LFull).
Proof.
  intros HC Hn HK H.
  assert (DH : c_dh c (c_scalar c sk) (c_pub c hs) = c_dh c hs (c_mont c (c_vk c sk)))
    by (rewrite (ok_mont c HC); apply (ok_dh c HC)).
  destruct (enc_initial_round _ _ _ _ _ _ _ HC Hn (proj1 (ok_pub_len c HC hs)) H) as (i & P & D & _).
  unfold from_new_connection. rewrite HK, P. cbv zeta. cbn [snd]. rewrite DH, D. reflexivity.
Qed.

(** ** The server's answer *)
Lemma used_good c cfg maxw eph ce o0 used o keys : crypto_ok c ->
  server_parse c cfg maxw eph ce o0 = Ok (used, o, keys) -> good_exts used.
Proof.
  intros HC H. apply server_parse_inv in H. destruct H as [_ H].
  assert (U : exists sess, used = used_with c cfg maxw ce sess)
    by (destruct H as [(_ & _ & _ & ->)|(l & se & _ & _ & _ & ->)]; eauto).
  destruct U as [sess ->]. unfold used_with. intros e v G.
  destruct e; cbn [ext_get x_blk x_timeout x_tsize x_enc x_win x_spk x_apk x_sig] in G.
  - destruct (n_block cfg ce); [|discriminate]. injection G as <-. apply show_good.
  - destruct (n_timeout cfg ce); [|discriminate]. injection G as <-. apply show_good.
  - destruct (n_tsize ce); [|discriminate]. injection G as <-. apply show_good.
  - destruct sess; [|discriminate]. injection G as <-. apply level_good.
  - destruct (n_window maxw ce); [|discriminate]. injection G as <-. apply show_good.
  - destruct sess; [|discriminate]. injection G as <-. apply key_good, (ok_pub_len c HC).
  - destruct sess; [|discriminate]. destruct (sc_key cfg); [|discriminate]. destruct (auth_of c ce); [|discriminate].
    injection G as <-. apply key_good, (ok_vk_len c HC).
  - destruct sess as [[? ?]|]; [|discriminate]. destruct (sc_key cfg); [|discriminate]. destruct (auth_of c ce); [|discriminate].
    injection G as <-. apply key_good, (ok_sig_len c HC).
Qed.
Lemma answer_size_other size used e : e <> TransferSize -> ext_get (answer_size size used) e = ext_get used e.
Proof.
  intros NE. unfold answer_size, ext_insert, ext_remove.
  assert (E : ext_eqb TransferSize e = false) by (destruct e; congruence || reflexivity).
  destruct (ext_get used TransferSize); [|reflexivity]. destruct size as [s|].
  - destruct (0 <? s); [|reflexivity]. now rewrite ext_get_put, E.
  - now rewrite ext_get_put, E.
Qed.
Lemma answer_size_sub size used e : ext_get (answer_size size used) e <> None -> ext_get used e <> None.
Proof.
  intros H. unfold answer_size, ext_insert, ext_remove in H.
  destruct (ext_get used TransferSize) eqn:E; [|exact H]. destruct size as [s|].
  - destruct (0 <? s); [|exact H]. rewrite ext_get_put in H. destruct e; cbn [ext_eqb] in H; congruence.
  - rewrite ext_get_put in H. destruct e; cbn [ext_eqb] in H; congruence.
Qed.
Lemma answer_size_good size used : good_exts used -> good_exts (answer_size size used).
Proof.
  intros H e v G. unfold answer_size, ext_insert, ext_remove in G.
  destruct (ext_get used TransferSize) eqn:E; [|exact (H e v G)]. destruct size as [s|].
  - destruct (0 <? s); [|exact (H e v G)]. rewrite ext_get_put in G. destruct (ext_eqb TransferSize e).
    + injection G as <-. apply show_good.
    + exact (H e v G).
  - rewrite ext_get_put in G. destruct (ext_eqb TransferSize e); [discriminate|exact (H e v G)].
Qed.
Definition answered (write : bool) (size : option N) (used : exts) : exts :=
  if write then used else answer_size size used.

(** The client's secret material matches the server's. *)
Definition right_key (c : crypto) (cfg : scfg) (cc : ccfg) : Prop :=
  forall vk, cc_remote cc = Some vk -> exists sk, sc_key cfg = Some sk /\ vk = c_vk c sk.

Lemma server_view c cc o eph hs nonce write name d s keys o1 ex cfg env av e reply :
  crypto_ok c -> blen nonce = 24 -> good_string name ->
  client_request c cc o eph hs nonce write name = Ok (d, s, keys, o1, ex) ->
  right_key c cfg cc -> (cs_key s = None \/ cs_level s <> LFull -> in_clear c cfg d) ->
  server_new c cfg env av d = SAccepted e reply ->
  exists key0 o0 used so sk size,
    server_parse c cfg (sc_max_window cfg) (h_eph env) ex o0 = Ok (used, so, sk) /\
    es_write e = write /\ es_opts e = (if write then so else set_size so size) /\ h_open env (es_path e) = Some size /\
    es_key e = match sk with Some k => Some (c_dh c (sk_secret k) (sk_remote k)) | None => key0 end /\
    (key0 = None /\ o0 = default_options /\ op_enc o1 = op_enc o /\
       (cs_key s = None \/ cs_level s = LData \/ cs_level s = LOptData \/ cs_level s = LOptProtocol) \/
     key0 <> None /\ key0 = cs_key s /\ cs_level s = LFull /\ op_enc o1 = LFull /\ o0 = set_enc default_options LFull) /\
    match answer_of (answered write size used) write with
    | Some p => exists w buflen, reply = Some w /\ send_packet c (es_opts e) key0 buflen env p = Some w
    | None => reply = None
    end.
Proof.
  intros HC Hn HG HR HK IC HS.
  apply server_new_accepted in HS. destruct HS as [(buf & key0 & o0 & r & used & so & sk & size & FN & FB & SP & _ & HO & EO & EK & _ & AN)].
  pose proof (request_datagram _ _ _ _ _ _ _ _ _ _ _ _ _ HR) as (LB & _ & _ & _ & _ & _ & CE & KS & KN & RD).
  assert (RT : from_bytes (to_bytes (req_packet write (mkReq name ex))) = Ok (req_packet write (mkReq name ex))).
  { apply round_trip; [|destruct write; discriminate].
    pose proof (ex_good _ _ _ _ HC CE). destruct write; split; assumption. }
  assert (X : buf = to_bytes (req_packet write (mkReq name ex)) /\
    (key0 = None /\ o0 = default_options /\ op_enc o1 = op_enc o /\
       (cs_key s = None \/ cs_level s = LData \/ cs_level s = LOptData \/ cs_level s = LOptProtocol) \/
     key0 <> None /\ key0 = cs_key s /\ cs_level s = LFull /\ op_enc o1 = LFull /\ o0 = set_enc default_options LFull)).
  { destruct RD as [(-> & EE & SL)|(vk & RV & EF & _ & ES & EI)].
    - assert (C1 : in_clear c cfg (to_bytes (req_packet write (mkReq name ex)))).
      { apply IC. destruct SL as [?|[E|[E|E]]]; auto; right; rewrite E; discriminate. }
      rewrite (in_clear_new _ _ _ HC C1) in FN. injection FN as <- <- <-. auto 10.
    - destruct (HK _ RV) as (k & K1 & ->).
      rewrite (sealed_new _ _ _ _ _ _ _ _ HC Hn K1 EI) in FN. injection FN as <- <- <-. rewrite ES. cbn [cs_key cs_level].
      split; [reflexivity|]. right. repeat split; auto. discriminate. }
  destruct X as [-> X]. rewrite RT in FB.
  assert (Y : es_write e = write /\ r = mkReq name ex).
  { destruct write, (es_write e); cbn in FB; try discriminate; injection FB as <-; auto. }
  destruct Y as [EW ->]. rewrite EW in *. cbn [rq_exts] in SP.
  exists key0, o0, used, so, sk, size. repeat split; auto.
  unfold answered. destruct (answer_of _ _); [|assumption]. destruct AN as (w & ? & ?). eauto.
Qed.

Lemma send_packet_inv c o k buflen env p w : send_packet c o k buflen env p = Some w ->
  server_encrypt c o k (opcode p =? T_DATA) (h_nonce env) (to_bytes p) = Ok w.
Proof.
  unfold send_packet. destruct (_ <=? _); [|discriminate]. destruct (server_encrypt _ _ _ _ _ _); try discriminate.
  destruct (h_send env); congruence.
Qed.

(** The client reads what the server sends during the handshake. *)
Lemma handshake_reply c o1 s so key0 buflen env p w : crypto_ok c -> blen (h_nonce env) = 24 ->
  opcode p <> 3 ->
  (key0 = None /\ (cs_key s = None \/ cs_level s = LData \/ cs_level s = LOptData \/ cs_level s = LOptProtocol) \/
   key0 <> None /\ key0 = cs_key s /\ cs_level s = LFull /\ op_enc o1 = LFull /\ op_enc so = LFull) ->
  send_packet c so key0 buflen env p = Some w ->
  client_recv c s w = Ok (to_bytes p).
Proof.
  intros HC Hn ND H HS. apply send_packet_inv in HS. destruct H as [(-> & SL)|(_ & KS & SF & _ & EF)].
  - assert (E : w = to_bytes p) by (unfold server_encrypt in HS; destruct (op_enc so); congruence). subst w.
    unfold client_recv. destruct SL as [->|[->|[->| ->]]]; try reflexivity.
    + destruct (cs_level s); reflexivity.
    + rewrite type_of_packet. replace (opcode p =? T_DATA) with false by (unfold T_DATA; lia). now destruct (cs_key s).
  - apply (server_to_client c so key0 (h_nonce env) p w s HC Hn); congruence.
Qed.

(** ** Sizes *)
Definition vlen (v : option bytes) (n : N) : Prop := forall s, v = Some s -> blen s <= n.
Lemma oack_len m : (forall e, vlen (ext_get m e) match e with
    | BlockSize => 5 | Timeout => 3 | TransferSize => 20 | EncLevel => 17 | WindowSize => 5
    | SessionPublicKey => 44 | AuthPublicKey => 44 | Signature => 88 end) ->
  blen (to_bytes (POack m)) <= 294.
Proof.
  intros H.
  pose proof (H BlockSize) as H1. pose proof (H Timeout) as H2. pose proof (H TransferSize) as H3.
  pose proof (H EncLevel) as H4. pose proof (H WindowSize) as H5. pose proof (H SessionPublicKey) as H6.
  pose proof (H AuthPublicKey) as H7. pose proof (H Signature) as H8. clear H.
  unfold to_bytes, body_to_bytes, oack_to_bytes, ext_list. rewrite blen_app.
  change (blen (be16 (opcode (POack m)))) with 2.
  destruct m as [x1 x2 x3 x4 x5 x6 x7 x8].
  cbn [ext_get x_blk x_timeout x_tsize x_enc x_win x_spk x_apk x_sig flat_map all_exts] in *.
  assert (P : forall e v n, vlen v n ->
     blen (flat_map (fun '(e, v) => ext_name e ++ [0] ++ v ++ [0]) (match v with Some v => [(e, v)] | None => [] end))
     <= blen (ext_name e) + 2 + n).
  { intros e v n HV. destruct v as [v|]; cbn [flat_map].
    - rewrite app_nil_r, !blen_app. change (blen [0]) with 1. specialize (HV v eq_refl). lia.
    - rewrite blen_nil. lia. }
  rewrite !flat_map_app, !blen_app.
  apply (P BlockSize) in H1. apply (P Timeout) in H2. apply (P TransferSize) in H3. apply (P EncLevel) in H4.
  apply (P WindowSize) in H5. apply (P SessionPublicKey) in H6. apply (P AuthPublicKey) in H7. apply (P Signature) in H8.
  change (blen (ext_name BlockSize)) with 7 in *. change (blen (ext_name Timeout)) with 7 in *.
  change (blen (ext_name TransferSize)) with 5 in *. change (blen (ext_name EncLevel)) with 8 in *.
  change (blen (ext_name WindowSize)) with 10 in *. change (blen (ext_name SessionPublicKey)) with 5 in *.
  change (blen (ext_name AuthPublicKey)) with 5 in *. change (blen (ext_name Signature)) with 3 in *.
  change (blen (flat_map _ [])) with 0 in *.
  apply N.le_trans with (2 + (14 + (12 + (27 + (27 + (17 + (51 + (51 + (93 + 0))))))))); [|lia].
  repeat apply N.add_le_mono; first [exact H1|exact H2|exact H3|exact H4|exact H5|exact H6|exact H7|exact H8|lia].
Qed.
Lemma level_len l : blen (level_show l) <= 17.
Proof. destruct l; cbv; discriminate. Qed.
Lemma key_len k n : blen k = n -> blen (encode_key k) = (n + 2) / 3 * 4.
Proof. intros <-. apply b64_len. Qed.
Lemma n_block_le cfg ce b : n_block cfg ce = Some b -> b <= U16_MAX.
Proof.
  intros H. pose proof (n_block_cases cfg ce) as B. rewrite H in B. destruct B as (a & (_ & _ & _ & ?) & _ & ->). lia.
Qed.
Lemma n_window_le maxw ce b : n_window maxw ce = Some b -> b <= U16_MAX.
Proof.
  intros H. pose proof (n_window_cases maxw ce) as B. rewrite H in B. destruct B as (a & (_ & _ & _ & ?) & _ & ->). lia.
Qed.
Lemma n_timeout_le cfg ce b : n_timeout cfg ce = Some b -> b <= U8_MAX.
Proof. intros H. pose proof (n_timeout_cases cfg ce) as B. rewrite H in B. destruct B as ((_ & _ & _ & ?) & _). lia. Qed.
Lemma n_tsize_le ce b : n_tsize ce = Some b -> b <= U64_MAX.
Proof. intros H. pose proof (n_tsize_cases ce) as B. rewrite H in B. destruct B as (_ & _ & _ & ?). lia. Qed.

(** An answer takes at most 294 bytes (file sizes are 64-bit numbers). *)
Lemma answer_len c cfg maxw eph ce o0 used o keys write size : crypto_ok c ->
  server_parse c cfg maxw eph ce o0 = Ok (used, o, keys) ->
  (forall n, size = Some n -> n <= U64_MAX) ->
  blen (to_bytes (POack (answered write size used))) <= 294.
Proof.
  intros HC H HZ. apply server_parse_inv in H. destruct H as [_ H].
  assert (U : exists sess, used = used_with c cfg maxw ce sess)
    by (destruct H as [(_ & _ & _ & ->)|(l & se & _ & _ & _ & ->)]; eauto).
  destruct U as [sess ->]. clear H.
  assert (Z20 : forall n, n <= U64_MAX -> blen (show_num n) <= 20).
  { intros n Hn. apply show_len; [|lia]. change (10 ^ 20) with 100000000000000000000. unfold U64_MAX in Hn. lia. }
  assert (S5 : forall n, n <= U16_MAX -> blen (show_num n) <= 5).
  { intros n Hn. apply show_len; [|lia]. change (10 ^ 5) with 100000. unfold U16_MAX in Hn. lia. }
  assert (S3 : forall n, n <= U8_MAX -> blen (show_num n) <= 3).
  { intros n Hn. apply show_len; [|lia]. change (10 ^ 3) with 1000. unfold U8_MAX in Hn. lia. }
  apply oack_len. intros e s G.
  assert (GE : e <> TransferSize -> ext_get (used_with c cfg maxw ce sess) e = Some s).
  { intros NE. unfold answered in G. destruct write; [exact G|]. now rewrite answer_size_other in G. }
  destruct e; try specialize (GE ltac:(discriminate));
    cbn [used_with ext_get x_blk x_timeout x_tsize x_enc x_win x_spk x_apk x_sig] in GE.
  - destruct (n_block cfg ce) eqn:E; [|discriminate]. injection GE as <-. apply S5. eapply n_block_le; eauto.
  - destruct (n_timeout cfg ce) eqn:E; [|discriminate]. injection GE as <-. apply S3. eapply n_timeout_le; eauto.
  - clear GE. assert (G' : ext_get (used_with c cfg maxw ce sess) TransferSize = Some s \/ exists n, size = Some n /\ s = show_num n).
    { unfold answered in G. destruct write; [auto|]. unfold answer_size, ext_insert, ext_remove in G.
      destruct (ext_get (used_with c cfg maxw ce sess) TransferSize) eqn:E; [|left; congruence].
      destruct size as [n|].
      - destruct (0 <? n); [|left; congruence]. rewrite ext_get_put in G. cbn [ext_eqb] in G. injection G as <-. eauto.
      - rewrite ext_get_put in G. discriminate. }
    destruct G' as [G'|(n & E & ->)]; [|apply Z20; auto].
    cbn [used_with ext_get x_tsize] in G'. destruct (n_tsize ce) eqn:E; [|discriminate]. injection G' as <-.
    apply Z20. eapply n_tsize_le; eauto.
  - destruct sess; [|discriminate]. injection GE as <-. apply level_len.
  - destruct (n_window maxw ce) eqn:E; [|discriminate]. injection GE as <-. apply S5. eapply n_window_le; eauto.
  - destruct sess; [|discriminate]. injection GE as <-. rewrite (key_len _ 32) by apply (ok_pub_len c HC). cbv. discriminate.
  - destruct sess; [|discriminate]. destruct (sc_key cfg); [|discriminate]. destruct (auth_of c ce); [|discriminate].
    injection GE as <-. rewrite (key_len _ 32) by apply (ok_vk_len c HC). cbv. discriminate.
  - destruct sess as [[? ?]|]; [|discriminate]. destruct (sc_key cfg); [|discriminate]. destruct (auth_of c ce); [|discriminate].
    injection GE as <-. rewrite (key_len _ 64) by apply (ok_sig_len c HC). cbv. discriminate.
Qed.
