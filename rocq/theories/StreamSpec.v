(** What the client side file encryption should do, stated without its helper functions. *)
From Verif Require Import Base ReaderModel ReaderSpec ConfigModel CryptoModel StreamModel BlockLemmas.

(** The blocks of a file, in order; the last one is shorter than [len] (perhaps empty). *)
Definition blocks_of (file : bytes) (len : N) : list bytes :=
  map (block_of file len) (seqN 1 (N.to_nat (nblocks file len))).

(** Reading with a buffer of [len] bytes until a short block comes out gives exactly these
    blocks.  Reads of the wrapped file may fail any number of times in between. *)
Inductive reads (c : crypto) (file : bytes) (len : N) : sreadr -> list bytes -> Prop :=
| reads_failed s s' l : sr_read c file s len true None = (s', Err IoFile) -> reads c file len s' l ->
    reads c file len s l
| reads_more s s' b l : sr_read c file s len false None = (s', Ok b) -> blen b = len ->
    reads c file len s' l -> reads c file len s (b :: l)
| reads_last s s' b : sr_read c file s len false None = (s', Ok b) -> blen b < len ->
    reads c file len s [b].

(** Writing blocks in order, every one being taken whole. *)
Inductive writes (c : crypto) : swritr -> list bytes -> swritr -> Prop :=
| writes_nil s : writes c s [] s
| writes_cons s s' s'' b l : sw_write c s b false None = (s', Ok (blen b)) -> writes c s' l s'' ->
    writes c s (b :: l) s''.

(** The STREAM construction with a 32-bit big-endian counter (STREAM-BE32): the nonce of a segment is
    the 19-byte prefix, the number of the segment, and a byte that tells the last one. *)
Definition stream_nonce (iv : bytes) (i : N) (last : bool) : bytes :=
  iv ++ [i / 2 ^ 24 mod 256; i / 2 ^ 16 mod 256; i / 2 ^ 8 mod 256; i mod 256] ++ [if last then 1 else 0].
(** The texts of the segments from number [i] on, with their nonces. *)
Fixpoint segments (iv : bytes) (i : N) (texts : list bytes) : list (bytes * bytes) :=
  match texts with
  | [] => []
  | [m] => [(stream_nonce iv i true, m)]
  | m :: rest => (stream_nonce iv i false, m) :: segments iv (i + 1) rest
  end.
(** A sealed segment: ciphertext and tag. *)
Definition sealed (c : crypto) (key : bytes) (seg : bytes * bytes) : bytes :=
  let '(ct, tag) := c_seal c key (fst seg) (snd seg) in ct ++ tag.
