(** Encryption of packets: src/encryption.rs (padding, Encryptor), src/encrypted_packet.rs,
    the encrypting parts of src/client/encryption_socket.rs and src/server/connection.rs.

    The primitives (X25519, Ed25519, XChaCha20-Poly1305) are not modelled: they are the
    fields of [crypto], an explicit argument of everything below.  Randomness (nonces,
    ephemeral secrets) is an explicit argument as well. *)
From Verif Require Import Base PacketModel ConfigModel Base64Model.

(** The primitives. *)
Record crypto := mkCrypto {
  (* x25519: public key of a secret, shared secret (EphemeralSecret / StaticSecret) *)
  c_pub : bytes -> bytes;
  c_dh : bytes -> bytes -> bytes;
  (* ed25519: verifying key of a signing key, VerifyingKey::from_bytes accepts, sign, verify *)
  c_vk : bytes -> bytes;
  c_vk_ok : bytes -> bool;
  c_sign : bytes -> bytes -> bytes;
  c_verify : bytes -> bytes -> bytes -> bool;
  (* SigningKey::to_scalar_bytes, VerifyingKey::to_montgomery *)
  c_scalar : bytes -> bytes;
  c_mont : bytes -> bytes;
  (* XChaCha20Poly1305 encrypt_in_place_detached: ciphertext and tag; decrypt *)
  c_seal : bytes -> bytes -> bytes -> bytes * bytes;
  c_open : bytes -> bytes -> bytes -> bytes -> option bytes }.

(** src/encryption.rs 400-422 apply_bit_padding.  [last_byte.trailing_ones() > 0] is oddness. *)
Inductive pad_err : Set := EmptyBuffer | InvalidSizeProvided | MissingPaddingByte.
(** src/encryption.rs 402-421. *)
Definition apply_bit_padding (buf : bytes) (expected : N) : res pad_err bytes :=
  match rev buf with
  | [] => Err EmptyBuffer
  | last :: _ =>
      if expected <? blen buf then Err InvalidSizeProvided
      else
        let byte := if N.odd last then 0 else 255 in
        Ok (buf ++ repeat byte (N.to_nat (expected - blen buf + ENCRYPTION_PADDING_SIZE)))
  end.

(** src/encryption.rs 424-443 remove_bit_padding. *)
Fixpoint strip (byte : N) (l : bytes) : bytes :=
  match l with
  | b :: l' => if b =? byte then strip byte l' else l
  | [] => []
  end.
(** src/encryption.rs 423-443. *)
Definition remove_bit_padding (buf : bytes) : res pad_err bytes :=
  match rev buf with
  | [] => Err EmptyBuffer
  | last :: _ =>
      if last =? 255 then Ok (rev (strip 255 (rev buf)))
      else if last =? 0 then Ok (rev (strip 0 (rev buf)))
      else Err MissingPaddingByte
  end.

(** src/encryption.rs 272-286 Encryptor::encrypt: [split_at_mut] panics past the end. *)
Definition encrypt (c : crypto) (key nonce buf : bytes) (from : N) : res unit bytes :=
  if blen buf <? from then Panic
  else
    let '(ct, tag) := c_seal c key nonce (dropN from buf) in
    Ok (takeN from buf ++ ct ++ tag ++ nonce).

(** src/buffer.rs 53-63 rslice_to_array::<N>(to_position). *)
Definition rslice (n to : N) (buf : bytes) : option bytes :=
  if blen buf <? n + to then None
  else Some (takeN n (dropN (blen buf - n - to) buf)).

(** src/encryption.rs 288-310 Encryptor::decrypt. *)
Definition decrypt (c : crypto) (key buf : bytes) (from : N) : res unit bytes :=
  match rslice ENCRYPTION_NONCE_SIZE 0 buf with
  | None => Err tt
  | Some nonce =>
      match rslice ENCRYPTION_TAG_SIZE ENCRYPTION_NONCE_SIZE buf with
      | None => Err tt
      | Some tag =>
          let b := takeN (blen buf - ENCRYPTION_NONCE_SIZE - ENCRYPTION_TAG_SIZE) buf in
          if blen b <? from then Panic
          else match c_open c key nonce (dropN from b) tag with
               | Some m => Ok (takeN from b ++ m)
               | None => Err tt
               end
      end
  end.

(** Errors of the packet layer are only logged, so they carry no information here.
    The operator ? in src/encrypted_packet.rs 86-180. *)
Definition bindr {E A B} (r : res E A) (f : A -> res unit B) : res unit B :=
  match r with Ok a => f a | Err _ => Err tt | Panic => Panic end.

(** src/encrypted_packet.rs 146-176 EncryptedPacket::encrypt / decrypt. *)
Definition enc_packet (c : crypto) (key nonce buf : bytes) (expected : N) : res unit bytes :=
  bindr (apply_bit_padding buf expected) (fun b => encrypt c key nonce b 0).
(** src/encrypted_packet.rs 168-180. *)
Definition dec_packet (c : crypto) (key buf : bytes) : res unit bytes :=
  bindr (decrypt c key buf 0) (fun b => bindr (remove_bit_padding b) Ok).

(** src/encrypted_packet.rs 126-143 EncryptedDataPacket::encrypt / decrypt. *)
Definition enc_data (c : crypto) (key nonce buf : bytes) : res unit bytes :=
  encrypt c key nonce buf DATA_PACKET_HEADER_SIZE.
(** src/encrypted_packet.rs 142-150. *)
Definition dec_data (c : crypto) (key buf : bytes) : res unit bytes :=
  decrypt c key buf DATA_PACKET_HEADER_SIZE.

(** src/encrypted_packet.rs 84-101 InitialPacket::encrypt. *)
Definition RESERVED : N :=
  ENCRYPTION_PADDING_SIZE + ENCRYPTION_TAG_SIZE + KEY_SIZE + ENCRYPTION_NONCE_SIZE.
(** src/encrypted_packet.rs 86-105. *)
Definition enc_initial (c : crypto) (key nonce buf : bytes) (expected : N) (pk : bytes) : res unit bytes :=
  if expected <? RESERVED then Err tt
  else bindr (apply_bit_padding buf (expected - RESERVED))
         (fun b => bindr (encrypt c key nonce b 0) (fun b => Ok (b ++ pk))).

(** src/encrypted_packet.rs 63-82 InitialPacket::from_bytes: cipher text with tag, nonce, key. *)
Definition parse_initial (buf : bytes) : option (bytes * bytes * bytes) :=
  match rslice KEY_SIZE 0 buf with
  | None => None
  | Some pk =>
      match rslice ENCRYPTION_NONCE_SIZE KEY_SIZE buf with
      | None => None
      | Some nonce =>
          let ct := takeN (blen buf - (KEY_SIZE + ENCRYPTION_NONCE_SIZE)) buf in
          if blen ct <? ENCRYPTION_TAG_SIZE then None else Some (ct, nonce, pk)
      end
  end.
(** src/encrypted_packet.rs 103-118 InitialPacket::decrypt. *)
Definition dec_initial (c : crypto) (key : bytes) (p : bytes * bytes * bytes) : res unit bytes :=
  let '(ct, nonce, _) := p in dec_packet c key (ct ++ nonce).

(** src/packet.rs 146-163 PacketType::from_bytes, compared with one type. *)
Definition has_type (n : N) (buf : bytes) : bool :=
  match try_from buf with Ok m => m =? n | _ => false end.
(** src/packet.rs 137-144. *)
Definition T_READ : N := 1.
(** src/packet.rs 137-144. *)
Definition T_WRITE : N := 2.
(** src/packet.rs 137-144. *)
Definition T_DATA : N := 3.

(** src/client/encryption_socket.rs 24-57 EncryptionBoundSocket. *)
Record csock := mkSock { cs_key : option bytes; cs_level : enc_level; cs_pk : option bytes; cs_bs : N }.

(** src/client/encryption_socket.rs 60-91 recv_from: what becomes of a received datagram. *)
Definition client_recv (c : crypto) (s : csock) (buf : bytes) : res unit bytes :=
  match cs_level s, cs_key s with
  | (LProtocol | LFull), Some k => dec_packet c k buf
  | LData, Some k => if has_type T_DATA buf then dec_data c k buf else Ok buf
  | _, _ => Ok buf
  end.

(** src/client/encryption_socket.rs 93-135 send_to: the datagram sent for a packet.  The u16
    addition does not overflow: create_max_buffer bounds the block size by 1425 first. *)
Definition client_send (c : crypto) (s : csock) (nonce buf : bytes) : res unit bytes :=
  match cs_level s, cs_key s with
  | (LProtocol | LFull), Some k =>
      if has_type T_READ buf || has_type T_WRITE buf then
        match cs_pk s with
        | Some pk => enc_initial c k nonce buf (cs_bs s + DATA_PACKET_HEADER_SIZE) pk
        | None => Panic
        end
      else enc_packet c k nonce buf (cs_bs s + DATA_PACKET_HEADER_SIZE)
  | LData, Some k => if has_type T_DATA buf then enc_data c k nonce buf else Ok buf
  | _, _ => Ok buf
  end.

(** src/server/connection.rs 70-104 decrypt_packet ([Err] is false). *)
Definition server_decrypt (c : crypto) (l : enc_level) (key : option bytes) (buf : bytes) : res unit bytes :=
  match l, key with
  | (LProtocol | LFull), Some k => dec_packet c k buf
  | LData, Some k => if has_type T_DATA buf then dec_data c k buf else Ok buf
  | _, _ => Ok buf
  end.

(** src/server/connection.rs 129-158 send_bytes ([Err] is false); [is_data]: the packet name. *)
Definition server_encrypt (c : crypto) (o : options) (key : option bytes) (is_data : bool)
    (nonce buf : bytes) : res unit bytes :=
  match op_enc o, key with
  | (LProtocol | LFull), Some k => enc_packet c k nonce buf (bs_enc o + DATA_PACKET_HEADER_SIZE)
  | LData, Some k => if is_data then enc_data c k nonce buf else Ok buf
  | _, _ => Ok buf
  end.
