(** The delayed reader of directory synchronisation: std-binary/src/blocking_reader.rs, together
    with the program that writes the file and the thread that sets the flag (std-binary/src/sync.rs
    54-101).  A call of read is two steps, since the file and the flag can change in between. *)
From Verif Require Import Base.

(** [b_content]: the file as written so far; [b_fin]: the shared flag; [b_pos]: the position of the
    file handle; [b_temp]: temp_buf (blocking_reader.rs 25-30); [b_pend]: a read call that has read
    the file and not yet looked at the flag, with the size of the caller's buffer and what it
    contains. *)
Record bstate := mkBs { b_content : bytes; b_fin : bool; b_pos : nat; b_temp : bytes; b_pend : option (nat * bytes) }.
(** blocking_reader.rs 16-23, 32-40: the file is opened at its beginning, whatever has been written. *)
Definition b_open (content : bytes) (fin : bool) : bstate := mkBs content fin 0 [] None.

(** Results of calls: data (possibly none), would block, another error; and seeks.
    std-binary/src/blocking_reader.rs 42-91. *)
Inductive bout := RData (d : bytes) | RBlock | RError | RSeek (p : nat).

(** Events: the writer appends; the flag is set; read is called with a buffer of [len] bytes and the
    operating system gives [k] bytes ([None]: an error, e.g. an interrupted call); the call looks at
    the flag and returns; seek is called.  std-binary/src/blocking_reader.rs 42-91, std-binary/src/sync.rs 54-101. *)
Inductive bev := BAppend (x : bytes) | BFinish | BRead (len : nat) (k : option nat) | BCheck | BSeek (p : nat).

(** How many bytes the operating system may give: no more than there are and than asked for, and
    nothing only at the end or when nothing is asked for.
    No code of its own: read(2) under std-binary/src/blocking_reader.rs 44-84. *)
Definition os_ok (s : bstate) (want k : nat) : Prop :=
  (k <= want /\ k <= length (b_content s) - b_pos s /\
   (k = 0 -> want = 0 \/ length (b_content s) <= b_pos s))%nat.

(** blocking_reader.rs 44-59: the first part of read.  The buffer gets the bytes kept from the
    previous call, then what the file gives. *)
Definition read_begin (s : bstate) (len : nat) (k : option nat) : bstate * list bout :=
  if (len <? length (b_temp s))%nat
  then (mkBs (b_content s) (b_fin s) (b_pos s) [] None, [RError])
  else match k with
  | None => (mkBs (b_content s) (b_fin s) (b_pos s) [] None, [RError])
  | Some k =>
      (mkBs (b_content s) (b_fin s) (b_pos s + k) []
         (Some (len, b_temp s ++ firstn k (skipn (b_pos s) (b_content s)))), [])
  end.
(** blocking_reader.rs 60-81: the second part. *)
Definition read_end (s : bstate) : bstate * list bout :=
  match b_pend s with
  | None => (s, [])
  | Some (len, d) =>
      let keep t := mkBs (b_content s) (b_fin s) (b_pos s) t None in
      match d with
      | [] => (keep [], [if b_fin s then RData [] else RBlock])
      | _ => if (len =? length d)%nat then (keep [], [RData d])
             else if b_fin s then (keep [], [RData d]) else (keep d, [RBlock])
      end
  end.
(** blocking_reader.rs 85-90: seek from the start. *)
Definition b_seek (s : bstate) (p : nat) : bstate * list bout :=
  (mkBs (b_content s) (b_fin s) p [] None, [RSeek p]).

(** Possible events.  The reader is used by one thread, so calls do not overlap; the program that
    writes the file has closed it before the flag is set (sync.rs 85-101) and does not open it
    again. *)
Inductive bstep : bstate -> bev -> bstate -> list bout -> Prop :=
| S_append s x : b_fin s = false ->
    bstep s (BAppend x) (mkBs (b_content s ++ x) (b_fin s) (b_pos s) (b_temp s) (b_pend s)) []
| S_finish s : bstep s BFinish (mkBs (b_content s) true (b_pos s) (b_temp s) (b_pend s)) []
| S_read s len k s' o : b_pend s = None ->
    (forall n, k = Some n -> os_ok s (len - length (b_temp s)) n) ->
    read_begin s len k = (s', o) -> bstep s (BRead len k) s' o
| S_check s s' o : b_pend s <> None -> read_end s = (s', o) -> bstep s BCheck s' o
| S_seek s p s' o : b_pend s = None -> b_seek s p = (s', o) -> bstep s (BSeek p) s' o.
(** std-binary/src/blocking_reader.rs 42-91, in sequence. *)
Inductive bsteps : bstate -> list bev -> bstate -> list bout -> Prop :=
| SS_nil s : bsteps s [] s []
| SS_cons s e s1 o1 l s2 o2 : bstep s e s1 o1 -> bsteps s1 l s2 o2 -> bsteps s (e :: l) s2 (o1 ++ o2).
