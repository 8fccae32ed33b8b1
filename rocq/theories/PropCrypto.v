(** Padding (C31), packet encryption (C32), hostile datagrams (C33), key texts (C49). *)
From Verif Require Import Base BaseProofs PacketModel PacketSpec PacketProofs ConfigModel Base64Model
  Base64Proofs CryptoModel CryptoSpec CryptoProofs.

(** C31.  Padding to [e] succeeds exactly for non-empty packets of at most [e] bytes, always
    gives [e + 1] bytes starting with the packet, and removing it gives the packet back. *)
Theorem padding_reversible : forall buf e,
  (exists b, apply_bit_padding buf e = Ok b /\ blen b = e + 1 /\ (exists r, b = buf ++ r) /\
             remove_bit_padding b = Ok buf) <->
  buf <> [] /\ blen buf <= e.
Proof.
  intros buf e. split.
  - intros (b & H & _). destruct (pad_len _ _ _ H) as (_ & L & NE). auto.
  - intros [NE L]. destruct (apply_pad_ok buf e NE L) as (x & n & HX & HN & _ & E & _).
    exists (buf ++ repeat x n). split; [exact E|]. split; [now destruct (pad_len _ _ _ E)|].
    split; [eauto|]. eapply pad_round; eauto.
Qed.
Theorem padding_refused : forall buf e, (buf = [] \/ e < blen buf) <->
  exists x, apply_bit_padding buf e = Err x.
Proof.
  intros buf e. unfold apply_bit_padding. split.
  - intros [->|L]; [eexists; reflexivity|].
    destruct (rev buf); [eexists; reflexivity|].
    replace (e <? blen buf) with true by lia. eexists; reflexivity.
  - intros [x H]. destruct (rev buf) eqn:E.
    + left. rewrite <- (rev_involutive buf), E. reflexivity.
    + destruct (e <? blen buf) eqn:L; [right; lia|discriminate].
Qed.
Print Assumptions padding_reversible.
Print Assumptions padding_refused.
Example ex_padding : apply_bit_padding [1; 2; 255] 5 = Ok [1; 2; 255; 0; 0; 0] /\
  apply_bit_padding [1; 2; 0] 3 = Ok [1; 2; 0; 255] /\
  remove_bit_padding [0; 0; 0] = Ok [] /\ remove_bit_padding [3] = Err MissingPaddingByte.
Proof. repeat split; reflexivity. Qed.

(** C32.  Packet types survive. *)
Lemma type_of_packet : forall n p, has_type n (to_bytes p) = (opcode p =? n).
Proof. intros n p. destruct p; reflexivity. Qed.
Lemma type_take4 : forall n a b, takeN 4 a = takeN 4 b -> 4 <= blen a -> 4 <= blen b ->
  has_type n a = has_type n b.
Proof.
  intros n a b H La Lb.
  destruct a as [|a1 [|a2 [|a3 [|a4 a]]]]; try (unfold blen in La; cbn in La; lia).
  destruct b as [|b1 [|b2 [|b3 [|b4 b]]]]; try (unfold blen in Lb; cbn in Lb; lia).
  injection H as -> -> -> ->. reflexivity.
Qed.

(** Server to client: with equal options and keys, every packet the server manages to
    encrypt is received by the client unchanged; at level data the header stays readable. *)
Theorem server_to_client : forall c o k n p w s, crypto_ok c -> blen n = 24 ->
  cs_key s = k -> cs_level s = op_enc o ->
  server_encrypt c o k (opcode p =? T_DATA) n (to_bytes p) = Ok w ->
  client_recv c s w = Ok (to_bytes p) /\
  (op_enc o = LData -> takeN 4 w = takeN 4 (to_bytes p)).
Proof.
  intros c o k n p w s HC Hn Hk Hl HE. unfold server_encrypt, client_recv in *. rewrite Hk, Hl.
  destruct (op_enc o); try (injection HE as <-; split; [reflexivity|discriminate]).
  - destruct k as [k|]; [|injection HE as <-; auto].
    destruct (opcode p =? T_DATA) eqn:T.
    + pose proof (encrypt_len _ _ _ _ _ _ HC Hn HE) as (L & HT & L4).
      change DATA_PACKET_HEADER_SIZE with 4 in *.
      rewrite (type_take4 _ w (to_bytes p)) by (auto; lia). rewrite type_of_packet, T.
      split; [|auto]. exact (crypt_round _ _ _ _ _ _ HC Hn HE).
    + injection HE as <-. rewrite type_of_packet, T. auto.
  - destruct k as [k|]; [|injection HE as <-; split; [reflexivity|discriminate]].
    split; [|discriminate]. now destruct (enc_packet_round _ _ _ _ _ _ HC Hn HE).
  - destruct k as [k|]; [|injection HE as <-; split; [reflexivity|discriminate]].
    split; [|discriminate]. now destruct (enc_packet_round _ _ _ _ _ _ HC Hn HE).
Qed.
Print Assumptions server_to_client.

(** Client to server, after the handshake (no request packets). *)
Theorem client_to_server : forall c l k n p w s, crypto_ok c -> blen n = 24 ->
  cs_key s = k -> cs_level s = l ->
  (forall r, p <> PRead r) -> (forall r, p <> PWrite r) ->
  client_send c s n (to_bytes p) = Ok w ->
  server_decrypt c l k w = Ok (to_bytes p) /\
  (l = LData -> takeN 4 w = takeN 4 (to_bytes p)).
Proof.
  intros c l k n p w s HC Hn Hk Hl NR NW HE. unfold client_send, server_decrypt in *. rewrite Hk, Hl in HE.
  assert (T12 : has_type T_READ (to_bytes p) || has_type T_WRITE (to_bytes p) = false).
  { rewrite !type_of_packet. destruct p; try reflexivity; exfalso; [eapply NR|eapply NW]; reflexivity. }
  rewrite T12 in HE.
  destruct l; try (injection HE as <-; split; [reflexivity|discriminate]).
  - destruct k as [k|]; [|injection HE as <-; auto].
    rewrite type_of_packet in HE. destruct (opcode p =? T_DATA) eqn:T.
    + pose proof (encrypt_len _ _ _ _ _ _ HC Hn HE) as (L & HT & L4).
      change DATA_PACKET_HEADER_SIZE with 4 in *.
      rewrite (type_take4 _ w (to_bytes p)) by (auto; lia). rewrite type_of_packet, T.
      split; [|auto]. exact (crypt_round _ _ _ _ _ _ HC Hn HE).
    + injection HE as <-. rewrite type_of_packet, T. auto.
  - destruct k as [k|]; [|injection HE as <-; split; [reflexivity|discriminate]].
    split; [|discriminate]. now destruct (enc_packet_round _ _ _ _ _ _ HC Hn HE).
  - destruct k as [k|]; [|injection HE as <-; split; [reflexivity|discriminate]].
    split; [|discriminate]. now destruct (enc_packet_round _ _ _ _ _ _ HC Hn HE).
Qed.
Print Assumptions client_to_server.

(** Sizes: every packet of at most (usable block size + 4) bytes can be encrypted, by both
    sides, and the datagram has at most (block size + 4) bytes. *)
Definition datagram_fits (o : options) (w : res unit bytes) : Prop :=
  exists d, w = Ok d /\ blen d <= op_bs o + 4.
Theorem encrypted_size : forall c o k n p s, crypto_ok c -> blen n = 24 -> 41 <= op_bs o ->
  blen (to_bytes p) <= bs_enc o + 4 ->
  opcode p <> 1 -> opcode p <> 2 ->
  cs_level s = op_enc o -> cs_bs s = bs_enc o ->
  (4 <= blen (to_bytes p)) ->
  datagram_fits o (server_encrypt c o k (opcode p =? T_DATA) n (to_bytes p)) /\
  datagram_fits o (client_send c s n (to_bytes p)).
Proof.
  intros c o k n p s HC Hn HB HP N1 N2 Hl Hb H4.
  assert (NE : to_bytes p <> []) by (intros E; rewrite E in H4; cbn in H4; unfold blen in H4; cbn in H4; lia).
  unfold datagram_fits, server_encrypt, client_send, bs_enc in *. rewrite Hl.
  assert (T12 : has_type T_READ (to_bytes p) || has_type T_WRITE (to_bytes p) = false).
  { rewrite !type_of_packet. unfold T_READ, T_WRITE. lia. }
  change ENCRYPTION_TAG_SIZE with 16 in *. change ENCRYPTION_NONCE_SIZE with 24 in *.
  change ENCRYPTION_PADDING_SIZE with 1 in *. change DATA_PACKET_HEADER_SIZE with 4 in *.
  destruct (op_enc o); split; try (eexists; split; [reflexivity|lia]).
  - destruct k as [k|]; [|eexists; split; [reflexivity|lia]].
    destruct (opcode p =? T_DATA); [|eexists; split; [reflexivity|lia]].
    unfold enc_data. change DATA_PACKET_HEADER_SIZE with 4.
    destruct (encrypt c k n (to_bytes p) 4) as [d| |] eqn:E; try (rewrite encrypt_ok in E by assumption; discriminate).
    exists d. split; [reflexivity|]. apply encrypt_len in E; [|assumption..]. lia.
  - destruct (cs_key s) as [k'|]; [|eexists; split; [reflexivity|lia]].
    rewrite type_of_packet.
    destruct (opcode p =? T_DATA); [|eexists; split; [reflexivity|lia]].
    unfold enc_data. change DATA_PACKET_HEADER_SIZE with 4.
    destruct (encrypt c k' n (to_bytes p) 4) as [d| |] eqn:E; try (rewrite encrypt_ok in E by assumption; discriminate).
    exists d. split; [reflexivity|]. apply encrypt_len in E; [|assumption..]. lia.
  - destruct k as [k|]; [|eexists; split; [reflexivity|lia]].
    destruct (enc_packet_total c k n (to_bytes p) _ NE HP) as [d E]. exists d. split; [exact E|].
    apply enc_packet_round in E; [|assumption..]. lia.
  - destruct (cs_key s) as [k'|]; [|eexists; split; [reflexivity|lia]].
    rewrite T12, Hb. destruct (enc_packet_total c k' n (to_bytes p) _ NE HP) as [d E].
    exists d. split; [exact E|]. apply enc_packet_round in E; [|assumption..]. lia.
  - destruct k as [k|]; [|eexists; split; [reflexivity|lia]].
    destruct (enc_packet_total c k n (to_bytes p) _ NE HP) as [d E]. exists d. split; [exact E|].
    apply enc_packet_round in E; [|assumption..]. lia.
  - destruct (cs_key s) as [k'|]; [|eexists; split; [reflexivity|lia]].
    rewrite T12, Hb. destruct (enc_packet_total c k' n (to_bytes p) _ NE HP) as [d E].
    exists d. split; [exact E|]. apply enc_packet_round in E; [|assumption..]. lia.
Qed.
Print Assumptions encrypted_size.

(** At levels protocol and full all packets up to the usable size give datagrams of the same
    length: the length of the packet does not show. *)
Theorem length_hidden : forall c o k n p w, crypto_ok c -> blen n = 24 -> 41 <= op_bs o ->
  op_enc o = LProtocol \/ op_enc o = LFull ->
  server_encrypt c o (Some k) (opcode p =? T_DATA) n (to_bytes p) = Ok w ->
  blen w = op_bs o + 4.
Proof.
  intros c o k n p w HC Hn HB HL HE. unfold server_encrypt, bs_enc in HE.
  change ENCRYPTION_TAG_SIZE with 16 in *. change ENCRYPTION_NONCE_SIZE with 24 in *.
  change ENCRYPTION_PADDING_SIZE with 1 in *. change DATA_PACKET_HEADER_SIZE with 4 in *.
  destruct HL as [HL|HL]; rewrite HL in HE; apply enc_packet_round in HE; auto; lia.
Qed.
Print Assumptions length_hidden.

(** A full data block just fits. *)
Definition nonce0 : bytes := repeat 7 24.
Definition opts_ex (l : enc_level) : options := mkOpts 512 80 None l 1.
Definition full_packet (l : enc_level) : packet := PData 1 (repeat 9 (N.to_nat (bs_enc (opts_ex l)))).
Example ex_encrypted_full_block : forall l, In l [LData; LProtocol; LFull; LNone] ->
  let p := full_packet l in
  match server_encrypt toy (opts_ex l) (Some [1;2;3]) true nonce0 (to_bytes p) with
  | Ok w => blen w = 516 /\ client_recv toy (mkSock (Some [1;2;3]) l None 0) w = Ok (to_bytes p)
            /\ server_decrypt toy l (Some [1;2;4]) w <> Ok (to_bytes p) \/ l = LNone
  | _ => False
  end.
Proof.
  cbn [In]. intros l [<-|[<-|[<-|[<-|[]]]]]; vm_compute.
  - left. split; [reflexivity|]. split; [reflexivity|discriminate].
  - left. split; [reflexivity|]. split; [reflexivity|discriminate].
  - left. split; [reflexivity|]. split; [reflexivity|discriminate].
  - right. reflexivity.
Qed.

(** C33.  Decryption of an arbitrary datagram panics exactly at level data, for data packets
    of 40 to 43 bytes. *)
Definition data_opcode (buf : bytes) : Prop := exists r, buf = 0 :: 3 :: r.
Lemma has_type_data : forall buf, wf_bytes buf -> (has_type T_DATA buf = true <-> data_opcode buf).
Proof.
  intros buf W. unfold has_type, try_from, data_opcode, T_DATA.
  destruct buf as [|a [|b r]]; try (split; [discriminate|intros [x H]; discriminate]).
  inversion_clear W as [|? ? Ha W']. inversion_clear W' as [|? ? Hb _]. unfold un16.
  split.
  - intros H. exists r. assert (a = 0 /\ b = 3) as [-> ->] by lia. reflexivity.
  - intros [x [= -> ->]]. reflexivity.
Qed.
Theorem server_decrypt_panics_iff : forall c l k buf, wf_bytes buf ->
  server_decrypt c l k buf = Panic <->
  l = LData /\ k <> None /\ data_opcode buf /\ 40 <= blen buf <= 43.
Proof.
  intros c l k buf W. unfold server_decrypt. rewrite <- (has_type_data buf W).
  destruct l, k as [k|]; try (split; [try discriminate|intros (? & ? & ?); congruence]);
    try (intros H; exfalso; eapply dec_packet_no_panic; exact H).
  destruct (has_type T_DATA buf).
  - unfold dec_data. change DATA_PACKET_HEADER_SIZE with 4.
    pose proof (decrypt_cases c k buf 4) as D. destruct (decrypt c k buf 4).
    + split; [discriminate|]. lia.
    + split; [discriminate|]. lia.
    + split; [|reflexivity]. intros _. repeat split; try discriminate; lia.
  - split; [discriminate|]. intros (_ & _ & H & _). discriminate.
Qed.
Theorem client_recv_panics_iff : forall c s buf, wf_bytes buf ->
  client_recv c s buf = Panic <->
  cs_level s = LData /\ cs_key s <> None /\ data_opcode buf /\ 40 <= blen buf <= 43.
Proof. intros c s buf W. exact (server_decrypt_panics_iff c (cs_level s) (cs_key s) buf W). Qed.
Print Assumptions server_decrypt_panics_iff.
Print Assumptions client_recv_panics_iff.
Example ex_data_panic : server_decrypt toy LData (Some []) ([0; 3; 0; 1] ++ repeat 0 36) = Panic.
Proof. reflexivity. Qed.

(** C33.  What is accepted under encryption was sealed under the connection's key: the whole
    datagram at levels protocol and full, the part after the header at level data. *)
Theorem accepted_is_sealed : forall c l k buf m, crypto_ok c ->
  server_decrypt c l (Some k) buf = Ok m ->
  match l with
  | LProtocol | LFull => exists b n ct tag, c_seal c k n b = (ct, tag) /\ buf = ct ++ tag ++ n /\
                            remove_bit_padding b = Ok m
  | LData => (has_type T_DATA buf = false /\ m = buf) \/
             exists h b n ct tag, blen h = 4 /\ c_seal c k n b = (ct, tag) /\
               buf = h ++ ct ++ tag ++ n /\ m = h ++ b
  | _ => m = buf
  end.
Proof.
  intros c l k buf m HC. unfold server_decrypt.
  destruct l; try (intros [= <-]; reflexivity).
  - destruct (has_type T_DATA buf); [|intros [= <-]; auto].
    unfold dec_data. change DATA_PACKET_HEADER_SIZE with 4.
    pose proof (decrypt_cases c k buf 4) as D. destruct (decrypt c k buf 4); try discriminate.
    intros [= <-]. right. destruct D as (_ & h & ct & tag & n & t & -> & Hh & Ht & Hn & HO & ->).
    exists h, t, n, ct, tag. rewrite (ok_auth c HC _ _ _ _ _ HO). auto.
  - intros H. destruct (dec_packet_ok _ _ _ _ HC H) as (ct & tag & n & b & ? & ? & ? & ?). eauto 8.
  - intros H. destruct (dec_packet_ok _ _ _ _ HC H) as (ct & tag & n & b & ? & ? & ? & ?). eauto 8.
Qed.
Print Assumptions accepted_is_sealed.

(** C49.  Key texts: what is written is read back; every accepted text is the base64 of at
    most 87 bytes and denotes the first 32 (64) of them, zero-extended. *)
Theorem key_text_round_trip : forall k, wf_bytes k -> blen k = 32 -> decode_public_key (encode_key k) = Some k.
Proof. intros. apply decode_fixed_enc; auto. unfold KEY_SIZE. lia. Qed.
Theorem verifying_key_round_trip : forall ok k, wf_bytes k -> blen k = 32 -> ok k = true ->
  decode_verifying_key ok (encode_key k) = Some k.
Proof.
  intros ok k W L H. unfold decode_verifying_key, encode_key.
  rewrite decode_slice_enc by (auto; lia). change KEY_SIZE with 32.
  rewrite takeN_app_exact by auto. now rewrite H.
Qed.
Theorem signature_round_trip : forall k, wf_bytes k -> blen k = 64 -> decode_signature (encode_key k) = Some k.
Proof.
  intros k W L. unfold decode_signature, encode_key. rewrite decode_slice_enc by (auto; lia).
  change SIGNATURE_LENGTH with 64. now rewrite takeN_app_exact by auto.
Qed.
Theorem public_key_text_accepted_iff : forall s k,
  decode_public_key s = Some k <->
  exists l, s = b64_encode l /\ wf_bytes l /\ blen l <= 87 /\ nth 32 l 0 = 0 /\
    k = takeN 32 (l ++ repeat 0 32).
Proof.
  intros s k. unfold decode_public_key, decode_fixed. change KEY_SIZE with 32.
  assert (T : forall l, blen l <= 87 ->
    takeN 32 (l ++ repeat 0 (N.to_nat (88 - blen l))) = takeN 32 (l ++ repeat 0 32)).
  { intros l H. destruct (N.le_gt_cases 32 (blen l)).
    - rewrite !takeN_app. replace (32 - blen l) with 0 by lia. now rewrite !takeN_0.
    - rewrite !takeN_pad by lia. reflexivity. }
  split.
  - destruct (decode_slice s) as [r|] eqn:E; [|discriminate].
    apply decode_slice_inv in E. destruct E as (l & -> & W & L & ->).
    rewrite nth_pad. destruct (N.eqb_spec (nth (N.to_nat 32) l 0) 0) as [Z|Z]; [|discriminate].
    intros [= <-]. exists l. rewrite T by assumption. auto.
  - intros (l & -> & W & L & Z & ->). rewrite decode_slice_enc by assumption.
    rewrite nth_pad. change (N.to_nat 32) with 32%nat. rewrite Z. cbn [N.eqb].
    now rewrite T.
Qed.
Theorem verifying_key_text_accepted_iff : forall ok s k,
  decode_verifying_key ok s = Some k <->
  exists l, s = b64_encode l /\ wf_bytes l /\ blen l <= 87 /\
    k = takeN 32 (l ++ repeat 0 32) /\ ok k = true.
Proof.
  intros ok s k. unfold decode_verifying_key. change KEY_SIZE with 32.
  assert (T : forall l, blen l <= 87 ->
    takeN 32 (l ++ repeat 0 (N.to_nat (88 - blen l))) = takeN 32 (l ++ repeat 0 32)).
  { intros l H. destruct (N.le_gt_cases 32 (blen l)).
    - rewrite !takeN_app. replace (32 - blen l) with 0 by lia. now rewrite !takeN_0.
    - rewrite !takeN_pad by lia. reflexivity. }
  split.
  - destruct (decode_slice s) as [r|] eqn:E; [|discriminate].
    apply decode_slice_inv in E. destruct E as (l & -> & W & L & ->). cbv zeta.
    rewrite T by assumption. destruct (ok _) eqn:O; [|discriminate]. intros [= <-]. eauto 8.
  - intros (l & -> & W & L & -> & O). rewrite decode_slice_enc by assumption. cbv zeta.
    rewrite T by assumption. now rewrite O.
Qed.
Print Assumptions key_text_round_trip.
Print Assumptions verifying_key_round_trip.
Print Assumptions signature_round_trip.
Print Assumptions public_key_text_accepted_iff.
Print Assumptions verifying_key_text_accepted_iff.

(** So an empty text is accepted as the all-zero key, and 33 byte keys ending in zero. *)
Example ex_short_keys : decode_public_key [] = Some (repeat 0 32) /\
  decode_public_key (s2b "AQI=") = Some ([1; 2] ++ repeat 0 30) /\
  decode_public_key (s2b "AQI") = None /\ decode_public_key (s2b "AQJ=") = None.
Proof. vm_compute. repeat split; reflexivity. Qed.
