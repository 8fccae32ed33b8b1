(** Key files: src/key_management.rs, and their use by the client program
    (std-binary/src/config.rs 24-35, std-binary/src/encryption_io.rs 82-109). *)
From Verif Require Import Base Base64Model PathModel.

(** BufRead::lines of the standard library, used at src/key_management.rs 15 and 33: cut at
    newlines, which are dropped together with one carriage return before them; nothing after
    the last newline is no line. *)
Definition NL : N := 10.
(** std::io::BufRead::lines, used in src/key_management.rs 15, 32. *)
Definition CR : N := 13.
(** std::io::BufRead::lines, used in src/key_management.rs 15, 32. *)
Definition strip_cr (l : bytes) : bytes :=
  match rev l with
  | b :: r => if b =? CR then rev r else l
  | [] => l
  end.
(** std::io::BufRead::lines, used in src/key_management.rs 15, 32. *)
Fixpoint lines_from (acc : bytes) (f : bytes) : list bytes :=
  match f with
  | [] => match acc with [] => [] | _ => [rev acc] end
  | b :: f' => if b =? NL then strip_cr (rev acc) :: lines_from [] f' else lines_from (b :: acc) f'
  end.
(** std::io::BufRead::lines, used in src/key_management.rs 15, 32. *)
Definition lines (f : bytes) : list bytes := lines_from [] f.

(** A line that is not UTF-8 is skipped (src/key_management.rs 16-18, 34-36), and so are comments
    and blank lines (19-21, 37-39). *)
Definition HASH : N := 35.
(** src/key_management.rs 39, 54-58: what separates a host from its key. *)
Definition SPACE : N := 32.
(** src/key_management.rs 15-21, 32-38: lines that cannot be read, comments and empty lines are passed over. *)
Definition relevant (line : bytes) : bool :=
  utf8 line &&
  negb (match line with b :: _ => b =? HASH | [] => false end || match trim line with [] => true | _ => false end).

(** src/key_management.rs 13-26: read_authorized_keys.  [ok] tells which 32 bytes are a valid
    verifying key; [None]: an error is returned. *)
Fixpoint decode_all (ok : bytes -> bool) (l : list bytes) : option (list bytes) :=
  match l with
  | [] => Some []
  | x :: l' =>
      match decode_verifying_key ok x with
      | None => None
      | Some k => match decode_all ok l' with Some ks => Some (k :: ks) | None => None end
      end
  end.
(** src/key_management.rs 13-26. *)
Definition read_authorized_keys (ok : bytes -> bool) (f : bytes) : option (list bytes) :=
  decode_all ok (filter relevant (lines f)).

(** str::split_once(' ') used at src/key_management.rs 40. *)
Fixpoint split_once (l : bytes) : option (bytes * bytes) :=
  match l with
  | [] => None
  | b :: l' =>
      if b =? SPACE then Some ([], l')
      else match split_once l' with Some (p, r) => Some (b :: p, r) | None => None end
  end.

(** src/key_management.rs 28-48: get_from_known_hosts.  [Err tt]: the text of the key is invalid. *)
Fixpoint lookup_lines (ok : bytes -> bool) (endpoint : bytes) (l : list bytes) : res unit (option bytes) :=
  match l with
  | [] => Ok None
  | x :: l' =>
      match split_once x with
      | Some (e, t) =>
          if beq e endpoint
          then match decode_verifying_key ok t with Some k => Ok (Some k) | None => Err tt end
          else lookup_lines ok endpoint l'
      | None => lookup_lines ok endpoint l'
      end
  end.
(** src/key_management.rs 28-47. *)
Definition get_from_known_hosts (ok : bytes -> bool) (f endpoint : bytes) : res unit (option bytes) :=
  lookup_lines ok endpoint (filter relevant (lines f)).

(** src/key_management.rs 50-61: append_to_known_hosts. *)
Definition append_to_known_hosts (f endpoint key : bytes) : bytes :=
  f ++ [NL] ++ endpoint ++ [SPACE] ++ encode_key key ++ [NL].

(** std-binary/src/encryption_io.rs 82-109: handle_hosts_file, called after a successful transfer
    with the key that the server authenticated with.  The file exists and can be opened. *)
Definition handle_hosts_file (ok : bytes -> bool) (f : bytes) (remote : option bytes) (endpoint : bytes) : bytes :=
  match remote with
  | None => f
  | Some k =>
      match get_from_known_hosts ok f endpoint with
      | Ok (Some _) => f
      | _ => append_to_known_hosts f endpoint k
      end
  end.

(** std-binary/src/config.rs 24-35: the server key the client starts with.  [Err tt]: it does not start. *)
Definition remote_key (ok : bytes -> bool) (given : option bytes) (known : option bytes) (endpoint : bytes)
  : res unit (option bytes) :=
  match given, known with
  | Some t, _ => match decode_verifying_key ok t with Some k => Ok (Some k) | None => Err tt end
  | None, Some f => get_from_known_hosts ok f endpoint
  | None, None => Ok None
  end.
