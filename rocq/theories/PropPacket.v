(** Property theorems about the wire format (C01-C04, C45). *)
From Verif Require Import Base BaseProofs PacketModel PacketSpec PacketProofs.

(** C01: encode then decode is the identity on every transportable packet, the only
    exception being an option ack without options (whose encoding is rejected). *)
Theorem packet_round_trip :
  (forall p, good_packet p -> p <> POack exts_empty -> from_bytes (to_bytes p) = Ok p) /\
  from_bytes (to_bytes (POack exts_empty)) = Err EInvalid.
Proof. split; [exact round_trip | reflexivity]. Qed.
Print Assumptions packet_round_trip.

Example packet_round_trip_case :
  good_packet (PRead (mkReq (s2b "dir/file.txt")
    (ext_insert (ext_insert exts_empty WindowSize (s2b "4")) BlockSize (s2b "1024")))) /\
  to_bytes (PData 65535 [0; 255]) = [0; 3; 255; 255; 0; 255].
Proof.
  split; [|reflexivity]. split; [split; [reflexivity|cbn; intuition discriminate]|].
  intros e v H. destruct e; cbn in H; try discriminate; injection H as <-;
    split; try reflexivity; cbn; intuition discriminate.
Qed.

(** C02: decoding is total (never panics), yields only transportable packets, and
    what it yields re-encodes to something that decodes to the same packet. *)
Theorem decode_total_and_well_formed : forall l,
  from_bytes l <> Panic /\
  (wf_bytes l -> forall p, from_bytes l = Ok p ->
     good_packet p /\ (p <> POack exts_empty -> from_bytes (to_bytes p) = Ok p)).
Proof.
  intros l. split; [apply from_bytes_no_panic|]. intros W p H.
  pose proof (decode_good l p W H) as G. split; [exact G|]. intros Hn. exact (round_trip p G Hn).
Qed.
Print Assumptions decode_total_and_well_formed.

Example decode_case :
  wf_bytes [0; 5; 0; 2; 72; 105; 0; 9] /\
  from_bytes [0; 5; 0; 2; 72; 105; 0; 9] = Ok (PError AccessViolation (s2b "Hi")).
Proof. split; [repeat constructor|reflexivity]. Qed.

(** C03: encoding into a buffer succeeds iff the encoding fits; then the buffer starts
    with the encoding, the rest of it is unchanged and the length is returned. *)
Theorem to_buffer_exact : forall p buf,
  (blen (to_bytes p) <= blen buf ->
   exists rest, to_buffer p buf = Some (to_bytes p ++ rest, blen (to_bytes p)) /\
     exists old, buf = old ++ rest /\ blen old = blen (to_bytes p)) /\
  (blen buf < blen (to_bytes p) -> to_buffer p buf = None).
Proof.
  intros p buf. rewrite (to_buffer_spec p buf). split; intros H.
  - destruct (N.leb_spec (blen (to_bytes p)) (blen buf)) as [H1|H1]; [|lia].
    eexists. split; [reflexivity|]. exists (takeN (blen (to_bytes p)) buf).
    split; [symmetry; apply takeN_dropN|]. rewrite blen_takeN. lia.
  - destruct (N.leb_spec (blen (to_bytes p)) (blen buf)) as [H1|H1]; [lia|reflexivity].
Qed.
Print Assumptions to_buffer_exact.

Example to_buffer_case :
  to_buffer (PError DiskFull (s2b "x")) [9; 9; 9; 9; 9; 9; 9] = Some ([0; 5; 0; 3; 120; 0; 9], 6) /\
  to_buffer (PError DiskFull (s2b "x")) [9; 9; 9; 9; 9] = None.
Proof. split; reflexivity. Qed.

(** C03: a data packet is built in place: the block is read into the buffer behind the
    header's place, the header is put before it and the buffer is cut: what remains is the
    encoding of the data packet. *)
Theorem data_header_in_place : forall block head data tail, blen head = 4 ->
  exists buf, prepend_data_header block (head ++ data ++ tail) = Some (buf, 4) /\ blen buf = blen (head ++ data ++ tail) /\
    takeN (4 + blen data) buf = to_bytes (PData block data).
Proof.
  intros block head data tail H. unfold prepend_data_header. rewrite write_all_spec by lia. cbn zeta.
  change (blen (concat [be16 3; be16 block])) with 4.
  assert (E : (0 + 4 <=? blen (head ++ data ++ tail)) = true) by (rewrite blen_app; lia). rewrite E.
  eexists. split; [reflexivity|]. rewrite takeN_0. cbn [app]. split.
  - rewrite !blen_app, blen_dropN, !blen_app. change (blen (concat [be16 3; be16 block])) with 4. lia.
  - replace (dropN (0 + 4) (head ++ data ++ tail)) with (data ++ tail) by (rewrite dropN_app_exact by lia; reflexivity).
    rewrite app_assoc. rewrite takeN_app_exact; [reflexivity|]. rewrite blen_app. reflexivity.
Qed.
Print Assumptions data_header_in_place.
Example data_header_case :
  prepend_data_header 258 [9; 9; 9; 9; 7; 8; 9] = Some ([0; 3; 1; 2; 7; 8; 9], 4) /\
  prepend_data_header 258 [9; 9; 9] = None.
Proof. split; reflexivity. Qed.

(** C04: the option area is accepted exactly when it reads as a list of terminated UTF-8
    pairs (all of it, or up to the pair that completes the eight options), and the
    result maps each option to the value of its last pair. *)
Theorem option_parsing : forall l m,
  from_bytes ([0; 6] ++ l) = Ok (POack m) <->
  exists ps, reads_options l ps /\ (forall e, last_value e ps (ext_get m e)).
Proof.
  intros l m. rewrite <- oack_from_bytes_spec. unfold from_bytes. cbn [app try_from].
  change (un16 0 6) with 6. cbn iota. change (dropN 2 (0 :: 6 :: l)) with l.
  unfold pmap. destruct (oack_from_bytes l); split; congruence.
Qed.
Print Assumptions option_parsing.

Example option_parsing_case :
  from_bytes ([0; 6] ++ s2b "blksize" ++ [0] ++ s2b "8" ++ [0] ++ s2b "foo" ++ [0; 0] ++
              s2b "BLKSIZE" ++ [0] ++ s2b "9" ++ [0])
  = Ok (POack (ext_insert exts_empty BlockSize (s2b "9"))) /\
  from_bytes ([0; 6] ++ s2b "Blksize" ++ [0] ++ s2b "8" ++ [0]) = Ok (POack exts_empty) /\
  from_bytes ([0; 6] ++ s2b "blksize" ++ [0] ++ s2b "8") = Err EInvalid.
Proof. repeat split. Qed.

(** C45: the bytes are the RFC 1350/2347 layout, and every RFC-conforming encoding of a
    packet (options in any order, names in lower or upper case) is decoded to it. *)
Theorem rfc_wire_format :
  (forall p, good_packet p -> wire p (to_bytes p)) /\
  (forall p l, wire p l -> good_packet p -> p <> POack exts_empty -> from_bytes l = Ok p).
Proof. split; [exact to_bytes_wire | exact wire_decode]. Qed.
Print Assumptions rfc_wire_format.
