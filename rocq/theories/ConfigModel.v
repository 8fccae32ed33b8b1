(** Connection options and constants: src/config.rs, src/encryption.rs 156-164. *)
From Verif Require Import Base.

(** src/encryption.rs 156-164 EncryptionLevel. *)
Inductive enc_level : Set := LData | LProtocol | LFull | LOptData | LOptProtocol | LNone.

(** src/config.rs 67-74 ConnectionOptions; the retry timeout is a number of milliseconds. *)
Record options := mkOpts {
  op_bs : N; op_retry : N; op_size : option N; op_enc : enc_level; op_window : N }.

(** src/config.rs 9-65 constants. *)
Definition DEFAULT_DATA_BLOCK_SIZE : N := 512.
(** src/config.rs 11. *)
Definition DATA_PACKET_HEADER_SIZE : N := 4.
(** src/config.rs 20. *)
Definition ENCRYPTION_TAG_SIZE : N := 16.
(** src/config.rs 25. *)
Definition ENCRYPTION_PADDING_SIZE : N := 1.
(** src/config.rs 30. *)
Definition ENCRYPTION_NONCE_SIZE : N := 24.
(** src/config.rs 59, in milliseconds. *)
Definition DEFAULT_RETRY_PACKET_TIMEOUT : N := 80.

(** src/config.rs 76-86 ConnectionOptions::default. *)
Definition default_options : options :=
  mkOpts DEFAULT_DATA_BLOCK_SIZE DEFAULT_RETRY_PACKET_TIMEOUT None LNone 1.

(** src/config.rs 99-114 block_size_with_encryption.  u16 subtraction: block sizes below
    the overhead (41) would panic; every block size in use is at least 512. *)
Definition bs_enc (o : options) : N :=
  match op_enc o with
  | LData => op_bs o - ENCRYPTION_TAG_SIZE - ENCRYPTION_NONCE_SIZE
  | LFull | LProtocol =>
      op_bs o - ENCRYPTION_TAG_SIZE - ENCRYPTION_PADDING_SIZE - ENCRYPTION_NONCE_SIZE
  | LOptData | LOptProtocol | LNone => op_bs o
  end.
