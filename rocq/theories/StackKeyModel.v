(** Key files in the builds without the standard library: src/std_compat.rs 57-86 (Lines),
    std-binary/src/std_compat.rs 88-102 (read_line), with the containers of src/key_management.rs 7-10.
    [cap]: None for the build with an allocator (strings grow), Some 140 for the one without
    (DefaultString, src/lib.rs 40, src/config.rs MAX_DEFAULT_STRING_SIZE). *)
From Verif Require Import Base Base64Model PathModel KeyFileModel.

(** src/config.rs 56. *)
Definition MAX_DEFAULT_STRING_SIZE : N := 140.
(** src/key_management.rs 10, src/config.rs 44. *)
Definition MAX_KEYS : nat := 128.

(** std::io::BufRead::read_line: one line after the other, each with its newline; the last one may
    have none.  Called in std-binary/src/std_compat.rs 97-103. *)
Fixpoint raw_from (acc : bytes) (f : bytes) : list bytes :=
  match f with
  | [] => match acc with [] => [] | _ => [rev acc] end
  | b :: f' => if b =? NL then rev (b :: acc) :: raw_from [] f' else raw_from (b :: acc) f'
  end.
(** std-binary/src/std_compat.rs 95-101: a line (with its newline) longer than the string is an error
    (InvalidData); src/key_management.rs 16-18, 34-36 skip lines with errors. *)
Definition fits_string (cap : option N) (raw : bytes) : bool :=
  match cap with None => true | Some n => blen raw <=? n end.
(** src/std_compat.rs 67-75: the newline is dropped, and one carriage return before it. *)
Definition chomp (raw : bytes) : bytes :=
  match rev raw with
  | b :: r => if b =? NL then strip_cr (rev r) else raw
  | [] => raw
  end.
(** src/std_compat.rs 57-80. *)
Definition compat_lines (cap : option N) (f : bytes) : list bytes :=
  map chomp (filter (fits_string cap) (raw_from [] f)).

(** src/key_management.rs 13-26 with the heapless vector of the build without allocator: what does not
    fit is dropped (the result of push is ignored); every key is decoded first. *)
Definition compat_authorized_keys (cap : option N) (room : option nat) (ok : bytes -> bool) (f : bytes) : option (list bytes) :=
  match decode_all ok (filter relevant (compat_lines cap f)) with
  | Some ks => Some (match room with None => ks | Some n => firstn n ks end)
  | None => None
  end.
(** src/key_management.rs 28-48. *)
Definition compat_known_hosts (cap : option N) (ok : bytes -> bool) (f endpoint : bytes) : res unit (option bytes) :=
  lookup_lines ok endpoint (filter relevant (compat_lines cap f)).

(** The build without an allocator.  src/key_management.rs 10, 13-26. *)
Definition stack_authorized_keys := compat_authorized_keys (Some MAX_DEFAULT_STRING_SIZE) (Some MAX_KEYS).
(** src/key_management.rs 28-47, src/lib.rs 36. *)
Definition stack_known_hosts := compat_known_hosts (Some MAX_DEFAULT_STRING_SIZE).
(** std-binary/src/encryption_io.rs 82-109, as KeyFileModel.handle_hosts_file. *)
Definition stack_hosts_file (ok : bytes -> bool) (f : bytes) (remote : option bytes) (endpoint : bytes) : bytes :=
  match remote with
  | None => f
  | Some k =>
      match stack_known_hosts ok f endpoint with
      | Ok (Some _) => f
      | _ => append_to_known_hosts f endpoint k
      end
  end.
