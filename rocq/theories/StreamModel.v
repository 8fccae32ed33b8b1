(** Client side file encryption: the encrypting reader and the decrypting writer that wrap
    the local file (src/readers/encrypted_stream_reader.rs, src/writers/encrypted_stream_writer.rs,
    src/encryption.rs 41-51 and 195-270). *)
From Verif Require Import Base PacketModel ReaderModel ConfigModel CryptoModel.

(** src/encryption.rs 47-51 and src/config.rs 18: constants. *)
Definition STREAM_NONCE_SIZE : N := 19.
(** src/encryption.rs 50. *)
Definition STREAM_BLOCK_SIZE : N := 2.
(** src/encryption.rs 51. *)
Definition MIN_STREAM_CAPACITY : N := STREAM_BLOCK_SIZE + STREAM_NONCE_SIZE + ENCRYPTION_TAG_SIZE.
(** src/config.rs 13. *)
Definition MAX_DATA_BLOCK_SIZE : N := 1425.

(** The STREAM construction of the aead crate (EncryptorBE32 / DecryptorBE32, used at
    src/encryption.rs 195-270): the nonce of a segment is the 19-byte prefix, a big-endian
    32-bit counter and a byte that marks the last segment.  The counter value 2^32-1 is refused
    for a segment that is not the last.  A sealed segment is the ciphertext followed by its tag.
    The primitive itself is the argument [c]. *)
Definition COUNTER_MAX : N := 4294967295.
(** u32::to_be_bytes in the stream construction StreamBE32 of the crate aead, used in src/encryption.rs 195-265. *)
Definition be32 (n : N) : bytes := [n / 16777216; n / 65536 mod 256; n / 256 mod 256; n mod 256].
(** StreamBE32 of the crate aead, used in src/encryption.rs 195-265. *)
Definition segment_nonce (iv : bytes) (pos : N) (last : bool) : bytes :=
  iv ++ be32 pos ++ [if last then 1 else 0].
(** src/encryption.rs 209-229. *)
Definition seal_segment (c : crypto) (key iv : bytes) (pos : N) (last : bool) (m : bytes) : bytes :=
  let '(ct, tag) := c_seal c key (segment_nonce iv pos last) m in ct ++ tag.
(** src/encryption.rs 245-265. *)
Definition open_segment (c : crypto) (key iv : bytes) (pos : N) (last : bool) (d : bytes) : option bytes :=
  if blen d <? ENCRYPTION_TAG_SIZE then None
  else c_open c key (segment_nonce iv pos last)
         (takeN (blen d - ENCRYPTION_TAG_SIZE) d) (dropN (blen d - ENCRYPTION_TAG_SIZE) d).

(** Error kinds that the two wrappers report.
    src/readers/encrypted_stream_reader.rs 40-97, src/writers/encrypted_stream_writer.rs 40-110. *)
Inductive ioerr : Set := IoUnsupported | IoInvalid | IoFile.

(** src/encryption.rs 195-230: StreamEncryptor.  [None] is the state after the last segment;
    [Some pos] is the next counter.  A segment as long as [block_size] is not the last. *)
Definition stream_encrypt (c : crypto) (key iv : bytes) (enc : option N) (data : bytes) (block_size : N)
  : option N * res ioerr bytes :=
  match enc with
  | None => (None, Err IoUnsupported)
  | Some pos =>
      if block_size =? blen data then
        if pos =? COUNTER_MAX then (Some pos, Err IoInvalid)
        else (Some (pos + 1), Ok (seal_segment c key iv pos false data))
      else (None, Ok (seal_segment c key iv pos true data))
  end.

(** src/encryption.rs 232-270: StreamDecryptor. *)
Definition stream_decrypt (c : crypto) (key iv : bytes) (dec : option N) (data : bytes) (block_size : N)
  : option N * res ioerr bytes :=
  match dec with
  | None => (None, Err IoUnsupported)
  | Some pos =>
      if block_size =? blen data then
        if pos =? COUNTER_MAX then (Some pos, Err IoInvalid)
        else match open_segment c key iv pos false data with
             | Some m => (Some (pos + 1), Ok m)
             | None => (Some pos, Err IoInvalid)
             end
      else (None, match open_segment c key iv pos true data with
                  | Some m => Ok m
                  | None => Err IoInvalid
                  end)
  end.

(** src/readers/encrypted_stream_reader.rs 22-38: StreamReader and its constructor.  [sr_pos] is
    the position in the wrapped file.  The scratch buffer is not modelled: it is created by the
    first call and resized by every call. *)
Record sreadr := mkSR { sr_key : bytes; sr_iv : bytes; sr_enc : option N; sr_nonce : option bytes; sr_pos : N }.
(** std-binary/src/encryption_io.rs 38-56 (create_encryption_reader): the nonce given to the
    encryptor and the one written to the stream are the same. *)
Definition sr_new (key nonce : bytes) : sreadr := mkSR key nonce (Some 0) (Some nonce) 0.

(** src/readers/encrypted_stream_reader.rs 39-88: read into a buffer of [len] bytes.  The result
    is the part of the buffer that was filled.  [io]: the wrapped file reports an error;
    [short]: it returns at most that many bytes. *)
Definition sr_read (c : crypto) (file : bytes) (s : sreadr) (len : N) (io : bool) (short : option N)
  : sreadr * res ioerr bytes :=
  if (MIN_STREAM_CAPACITY <=? len) && (len <=? MAX_DATA_BLOCK_SIZE) then
    let header := match sr_nonce s with Some n => be16 len ++ n | None => [] end in
    let from := blen header in
    let block_size := len - ENCRYPTION_TAG_SIZE - from in
    if io then (s, Err IoFile)
    else
      let want := match short with Some n => N.min n block_size | None => block_size end in
      let data := file_read file (sr_pos s) want in
      let pos := sr_pos s + blen data in
      let '(enc, r) := stream_encrypt c (sr_key s) (sr_iv s) (sr_enc s) data block_size in
      match r with
      | Ok sealed =>
          if from + blen sealed <=? len
          then (mkSR (sr_key s) (sr_iv s) enc None pos, Ok (header ++ sealed))
          else (mkSR (sr_key s) (sr_iv s) enc (sr_nonce s) pos, Err IoInvalid)
      | Err e => (mkSR (sr_key s) (sr_iv s) enc (sr_nonce s) pos, Err e)
      | Panic => (s, Panic)
      end
  else (s, Err IoUnsupported).

(** src/readers/encrypted_stream_reader.rs 90-95: seeking is refused. *)
Definition sr_seek (s : sreadr) (pos : N) : sreadr * res ioerr N := (s, Err IoUnsupported).

(** src/writers/encrypted_stream_writer.rs 19-37: StreamWriter and its constructor.  [sw_key] is
    [Some] until the first block was written; [sw_dec] is the decryptor with its key and nonce. *)
Record swritr := mkSW {
  sw_key : option bytes; sw_dec : option (bytes * bytes * option N); sw_bs : option N; sw_out : bytes }.
(** src/writers/encrypted_stream_writer.rs 28-36. *)
Definition sw_new (key : bytes) : swritr := mkSW (Some key) None None [].

(** src/writers/encrypted_stream_writer.rs 41-63: the header of the first block. *)
Definition sw_header (s : swritr) (data : bytes) : res ioerr (swritr * N) :=
  match sw_key s with
  | None => Ok (s, 0)
  | Some key =>
      match slice_to_array STREAM_BLOCK_SIZE 0 data with
      | None => Err IoInvalid
      | Some b2 =>
          let bs := un16 (nth 0 b2 0) (nth 1 b2 0) in
          if (MIN_STREAM_CAPACITY <=? bs) && (bs <=? MAX_DATA_BLOCK_SIZE) then
            match slice_to_array STREAM_NONCE_SIZE STREAM_BLOCK_SIZE data with
            | None => Err IoInvalid
            | Some nonce =>
                Ok (mkSW (sw_key s) (Some (key, nonce, Some 0)) (Some bs) (sw_out s),
                    STREAM_NONCE_SIZE + STREAM_BLOCK_SIZE)
            end
          else Err IoInvalid
      end
  end.

(** src/writers/encrypted_stream_writer.rs 40-101: write one block.  [io]: the wrapped file
    reports an error; [short]: it takes at most that many bytes.  The subtraction in [block_size]
    can not underflow: the header's block size is at least 37. *)
Definition sw_write (c : crypto) (s : swritr) (data : bytes) (io : bool) (short : option N)
  : swritr * res ioerr N :=
  match sw_header s data with
  | Err e => (s, Err e)
  | Panic => (s, Panic)
  | Ok (s1, from) =>
      match sw_bs s1, sw_dec s1 with
      | Some bs, Some (key, iv, dec) =>
          let d := dropN from data in
          if bs <? blen d then (s1, Err IoInvalid)
          else
            let '(dec', r) := stream_decrypt c key iv dec d (bs - from) in
            let s2 := mkSW (sw_key s1) (Some (key, iv, dec')) (sw_bs s1) (sw_out s1) in
            match r with
            | Err e => (s2, Err e)
            | Panic => (s2, Panic)
            | Ok m =>
                if io then (s2, Err IoFile)
                else
                  let taken := match short with Some n => takeN n m | None => m end in
                  (mkSW None (Some (key, iv, dec')) (sw_bs s1) (sw_out s1 ++ taken),
                   Ok (blen taken + from + ENCRYPTION_TAG_SIZE))
            end
      | _, _ => (s1, Err IoUnsupported)
      end
  end.
