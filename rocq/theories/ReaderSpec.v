(** What a block reader is supposed to do, independently of how the three readers do it. *)
From Verif Require Import Base MapperModel ReaderModel.

(** A file cut into blocks of [bs] bytes, numbered from 1; the last one is the only
    short one (empty if the size is a multiple of [bs]). *)
Definition nblocks (file : bytes) (bs : N) : N := blen file / bs + 1.
Definition block_of (file : bytes) (bs k : N) : bytes := takeN bs (dropN ((k - 1) * bs) file).
(** Size of the first [k] blocks. *)
Definition prefix_size (file : bytes) (bs k : N) : N := N.min (k * bs) (blen file).

(** The sliding window: blocks 1..[conf] are acknowledged, 1..[hi] have been read from the
    file, [cur] is the block sent last. *)
Record win := mkWin { conf : N; hi : N; cur : N }.

(** Kinds of readers: stop-and-wait (only the exact acknowledgement counts, window 1),
    buffering (re-sends from memory) and seeking (re-reads the file, so a re-send can fail). *)
Inductive kind := KSingle | KMulti | KSeek.
Definition window_of (k : kind) (w : N) : N := match k with KSingle => 1 | _ => w end.

Definition emit (file : bytes) (bs k : N) (again : bool) : option blockout :=
  Some (mkBlk (k mod 65536) k (block_of file bs k) again).

(** Next block to send: nothing when all is acknowledged; on retry restart at the oldest
    unacknowledged block; otherwise continue after [cur]; a block that was never sent is
    sent only while the window [w] has room. [io]: the file fails if it has to be read. *)
Definition spec_next (k : kind) (file : bytes) (bs w : N) (s : win) (retry io : bool) : win * nextres :=
  let fail := match k with KSeek => io | _ => false end in
  if conf s =? nblocks file bs then (s, Ok None)
  else if retry && (conf s <? hi s) then
    if fail then (s, Err RFile)
    else (mkWin (conf s) (hi s) (conf s + 1), Ok (emit file bs (conf s + 1) true))
  else if cur s <? hi s then
    if fail then (s, Err RFile)
    else (mkWin (conf s) (hi s) (cur s + 1), Ok (emit file bs (cur s + 1) true))
  else if (hi s =? nblocks file bs) || (window_of k w <=? hi s - conf s) then (s, Ok None)
  else if io then (s, Err RFile)
  else (mkWin (conf s) (hi s + 1) (hi s + 1), Ok (emit file bs (hi s + 1) false)).

(** Acknowledgement of block index [i]: everything up to [i] that was sent is confirmed
    (stop-and-wait: only if [i] is the block sent); the number of bytes newly confirmed is returned. *)
Definition spec_free (k : kind) (file : bytes) (bs : N) (s : win) (i : N) : win * N :=
  let i' := N.min i (hi s) in
  if match k with KSingle => (i =? hi s) && (conf s <? hi s) | _ => conf s <? i' end then
    (mkWin i' (hi s) i', prefix_size file bs i' - prefix_size file bs (conf s))
  else (s, 0).

Definition spec_finished (file : bytes) (bs : N) (s : win) : bool := conf s =? nblocks file bs.

(** Histories of calls and what is observed. *)
Inductive rop := Next (retry io : bool) | Ack (block : N).
Inductive rout :=
| ONext (r : nextres) (finished : bool)
| OAck (n : option N) (finished : bool).

(** Running the real readers: the caller's buffer has [cap] bytes. *)
Fixpoint run_reader (file : bytes) (cap : N) (r : reader) (l : list rop) : list rout :=
  match l with
  | [] => []
  | Next retry io :: l' =>
      let '(r', o) := reader_next file r cap retry io in
      ONext o (reader_finished r') :: run_reader file cap r' l'
  | Ack b :: l' =>
      let '(r', n) := reader_free r b in
      OAck n (reader_finished r') :: run_reader file cap r' l'
  end.
(** Running the specification; block numbers are resolved by the block mapper (C05). *)
Fixpoint run_spec (k : kind) (file : bytes) (bs w : N) (m : mapper) (s : win) (l : list rop) : list rout :=
  match l with
  | [] => []
  | Next retry io :: l' =>
      let '(s', o) := spec_next k file bs w s retry io in
      ONext o (spec_finished file bs s') :: run_spec k file bs w m s' l'
  | Ack b :: l' =>
      let '(i, m') := map_index m b in
      let '(s', n) := spec_free k file bs s i in
      OAck (Some n) (spec_finished file bs s') :: run_spec k file bs w m' s' l'
  end.

Definition new_reader (k : kind) (bs w : N) : reader :=
  match k with
  | KSingle => RS (single_new bs)
  | KMulti => RM (multi_new bs w)
  | KSeek => RK (seek_new bs w)
  end.

(** Observations on a history of results. *)
Definition not_ack (o : rout) : Prop := match o with OAck _ _ => False | ONext _ _ => True end.
(** After the reader has reported to be finished, no acknowledgement is handed to it. *)
Fixpoint no_ack_after_finish (l : list rout) : Prop :=
  match l with
  | [] => True
  | o :: l' => (match o with ONext _ f => f | OAck _ f => f end = true -> Forall not_ack l')
               /\ no_ack_after_finish l'
  end.
(** A returned block is the block of the file with that index, under the right number. *)
Definition good_block (file : bytes) (bs : N) (b : blockout) : Prop :=
  1 <= o_index b /\ o_index b <= nblocks file bs /\
  o_data b = block_of file bs (o_index b) /\ o_block b = o_index b mod 65536.
Definition good_out (file : bytes) (bs : N) (o : rout) : Prop :=
  match o with ONext (Ok (Some b)) _ => good_block file bs b | _ => True end.
(** Total of the sizes returned by acknowledgements. *)
Fixpoint acked_bytes (l : list rout) : N :=
  match l with
  | [] => 0
  | OAck (Some c) _ :: l' => c + acked_bytes l'
  | _ :: l' => acked_bytes l'
  end.
(** Number of blocks returned that were not marked as re-sent. *)
Definition is_fresh (o : nextres) : bool :=
  match o with Ok (Some b) => negb (o_retry b) | _ => false end.
Fixpoint fresh_blocks (l : list rout) : N :=
  match l with
  | [] => 0
  | ONext o _ :: l' => (if is_fresh o then 1 else 0) + fresh_blocks l'
  | OAck _ _ :: l' => fresh_blocks l'
  end.
(** The finished flag after the last call ([d] if there was none). *)
Fixpoint last_finished (l : list rout) (d : bool) : bool :=
  match l with
  | [] => d
  | ONext _ f :: l' => last_finished l' f
  | OAck _ f :: l' => last_finished l' f
  end.
(** State of the buffering reader after a history of calls. *)
Fixpoint multi_state (file : bytes) (cap : N) (r : mreader) (l : list rop) : mreader :=
  match l with
  | [] => r
  | Next retry io :: l' => multi_state file cap (fst (multi_next file r cap retry io)) l'
  | Ack b :: l' => multi_state file cap (fst (multi_free r b)) l'
  end.
