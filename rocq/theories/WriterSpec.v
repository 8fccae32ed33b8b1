(** What the block writer is supposed to do. *)
From Verif Require Import Base MapperModel ReaderModel.

(** A data packet as the device sees it: block number, payload, does the device fail,
    how much of the payload does the device take (None: all). *)
Record wop := mkWop { wo_block : N; wo_data : bytes; wo_io : bool; wo_short : option N }.
Fixpoint run_writer (w : writer) (l : list wop) : writer * list (res werr (N * N)) :=
  match l with
  | [] => (w, [])
  | o :: l' =>
      let '(w1, r) := write_block w (wo_block o) (wo_data o) (wo_io o) (wo_short o) in
      let '(w2, rs) := run_writer w1 l' in (w2, r :: rs)
  end.
(** Payloads of the accepted packets, in order of arrival. *)
Fixpoint accepted (l : list wop) (rs : list (res werr (N * N))) : list bytes :=
  match l, rs with
  | o :: l', Ok _ :: rs' => wo_data o :: accepted l' rs'
  | _ :: l', _ :: rs' => accepted l' rs'
  | _, _ => []
  end.
(** In-order reception: blocks 1..k have been received, index i arrives. *)
Definition in_order (k i : N) : N := if i =? k + 1 then i else k.
(** The reply to index [i] when 1..k have been received. *)
Definition reply (k i : N) (d : bytes) : res werr (N * N) :=
  if i =? k + 1 then Ok (blen d, i)
  else if i <=? k then Err (AlreadyWritten (k mod 65536) k)
  else Err (ExpectedBlock (k mod 65536) k).
Fixpoint replies (k : N) (payload : N -> bytes) (l : list N) : list (res werr (N * N)) :=
  match l with
  | [] => []
  | i :: l' => reply k i (payload i) :: replies (in_order k i) payload l'
  end.
Definition full_op (payload : N -> bytes) (i : N) : wop := mkWop (i mod 65536) (payload i) false None.
(** Concatenation of the payloads 1..k. *)
Definition payloads (payload : N -> bytes) (k : N) : bytes :=
  concat (map (fun i => payload (N.of_nat i)) (seq 1 (N.to_nat k))).
(** Result of the receptions [l]. *)
Definition received (l : list N) (k : N) : N := fold_left in_order l k.
