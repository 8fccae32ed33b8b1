(** Requested file names: src/server/validation.rs, ensure_size of src/lib.rs and
    validate_path of std-binary/src/io.rs.  Unix paths (separator '/').
    Strings are valid UTF-8 byte strings. *)
From Verif Require Import Base PacketModel.

(** The separator and the dot.  src/server/validation.rs 79-97. *)
Definition SLASH : N := 47.
(** src/server/validation.rs 79-97. *)
Definition DOT : N := 46.

(** char::is_whitespace (Unicode White_Space) on the UTF-8 encoding: characters encoded in
    one, two and three bytes. *)
Definition ws1 (a : N) : bool := inr 9 13 a || (a =? 32).
(** char::is_whitespace for two-byte characters; str::trim in src/server/validation.rs 79-97. *)
Definition ws2 (a b : N) : bool := (a =? 194) && ((b =? 133) || (b =? 160)).
(** char::is_whitespace for three-byte characters; str::trim in src/server/validation.rs 79-97. *)
Definition ws3 (a b c : N) : bool :=
  ((a =? 225) && (b =? 154) && (c =? 128))
  || ((a =? 226) && (b =? 128)
      && (inr 128 138 c || (c =? 168) || (c =? 169) || (c =? 175)))
  || ((a =? 226) && (b =? 129) && (c =? 159))
  || ((a =? 227) && (b =? 128) && (c =? 128)).

(** str::trim_start.  Part of str::trim, src/server/validation.rs 79-97. *)
Fixpoint trim_start (l : bytes) : bytes :=
  match l with
  | [] => []
  | a :: l1 =>
      if ws1 a then trim_start l1
      else match l1 with
           | [] => l
           | b :: l2 =>
               if ws2 a b then trim_start l2
               else match l2 with
                    | [] => l
                    | c :: l3 => if ws3 a b c then trim_start l3 else l
                    end
           end
  end.

(** str::trim_end on the reversed byte string.  Part of str::trim, src/server/validation.rs 79-97. *)
Fixpoint trim_rev (l : bytes) : bytes :=
  match l with
  | [] => []
  | c :: l1 =>
      if ws1 c then trim_rev l1
      else match l1 with
           | [] => l
           | b :: l2 =>
               if ws2 b c then trim_rev l2
               else match l2 with
                    | [] => l
                    | a :: l3 => if ws3 a b c then trim_rev l3 else l
                    end
           end
  end.

(** str::trim.  In src/server/validation.rs 79-97. *)
Definition trim (l : bytes) : bytes := rev (trim_rev (rev (trim_start l))).

(** str::trim_start_matches('/').  In src/server/validation.rs 79-97. *)
Fixpoint skip_slashes (l : bytes) : bytes :=
  match l with
  | a :: l' => if a =? SLASH then skip_slashes l' else l
  | [] => []
  end.

(** str::split('/'): always at least one piece.  In src/server/validation.rs 79-97. *)
Fixpoint split_slash (l : bytes) : list bytes :=
  match l with
  | [] => [[]]
  | a :: l' =>
      if a =? SLASH then [] :: split_slash l'
      else match split_slash l' with
           | c :: cs => (a :: c) :: cs
           | [] => [[a]]
           end
  end.

(** validation.rs 85: [!matches!(c.trim(), "." | ".." | "/" | "")]. *)
Definition keep_component (c : bytes) : bool :=
  let t := trim c in
  negb (beq t [DOT] || beq t [DOT; DOT] || beq t [SLASH] || beq t []).

(** String::push_str / push: [cap = None] is alloc::string::String, [Some n] is
    heapless::String<n>, where a push that does not fit returns an error, which
    validation.rs 80 ([allow(unused_must_use)]) ignores. *)
Definition push_str (cap : option N) (f c : bytes) : bytes :=
  match cap with
  | None => f ++ c
  | Some n => if blen f + blen c <=? n then f ++ c else f
  end.

(** String::pop: removes the last character (of one to four bytes).  In src/server/validation.rs 79-97. *)
Fixpoint pop_rev (l : bytes) : bytes :=
  match l with
  | [] => []
  | b :: l' => if cont b then pop_rev l' else l'
  end.
(** In src/server/validation.rs 79-97. *)
Definition pop_char (l : bytes) : bytes := rev (pop_rev (rev l)).

(** validation.rs 79-97 normalize_remote_name. *)
Definition normalize (cap : option N) (name : bytes) : option bytes :=
  let r := fold_left (fun f c => push_str cap (push_str cap f c) [SLASH])
             (filter keep_component (split_slash (skip_slashes name))) [] in
  let r := pop_char r in
  match r with [] => None | _ => Some r end.

(** src/config.rs MAX_FILE_PATH_SIZE: capacity of FilePath without alloc.  Line 57; src/lib.rs 41. *)
Definition MAX_FILE_PATH_SIZE : N := 150.

(** str::split_at panics unless the index is a character boundary (str::is_char_boundary:
    0, the length, or the position of a non-continuation byte). *)
Definition char_boundary (s : bytes) (i : N) : bool :=
  if i =? 0 then true
  else match nth_error s (N.to_nat i) with
       | Some b => negb (cont b)
       | None => i =? blen s
       end.

(** src/lib.rs 55-61 ensure_size. *)
Definition ensure_size (s : bytes) (max : N) : res unit bytes :=
  if max <? blen s
  then if char_boundary s max then Ok (takeN max s) else Panic
  else Ok s.

(** validation.rs 61-77 validate_file_name: the error is the error packet for the client.
    Alloc build, so format_str never fails. *)
Definition validate_file_name (name : bytes) : res packet bytes :=
  match normalize None name with
  | Some p => Ok p
  | None =>
      match ensure_size name 100 with
      | Ok s => Err (PError AccessViolation (s2b "Invalid file name received " ++ s))
      | _ => Panic
      end
  end.

(** validation.rs 45-59 handle_file_size. *)
Definition handle_file_size (received max : N) : res packet unit :=
  if max <? received
  then Err (PError DiskFull (s2b "Invalid file size received " ++ show_num received))
  else Ok tt.

(** validation.rs 21-43 validate_request_options: on failure the error packet that is sent,
    in clear, to the client ([error_to_authorized_only] is not consulted here). *)
Definition validate_request_options (max_size : N) (name : bytes) (size : option N)
  : res packet bytes :=
  match handle_file_size (match size with Some s => s | None => 0 end) max_size with
  | Err e => Err e
  | Panic => Panic
  | Ok _ => validate_file_name name
  end.

(** std::path::Path::components (Unix) without the root: empty pieces disappear, "."
    survives only as the very first piece.  Used in std-binary/src/io.rs 220-257. *)
Inductive component : Set := CurDir | ParentDir | Normal (s : bytes).
(** std::path::Components, used in std-binary/src/io.rs 220-257. *)
Definition piece (c : bytes) : list component :=
  if beq c [] then [] else if beq c [DOT] then []
  else if beq c [DOT; DOT] then [ParentDir] else [Normal c].
(** std::path::Path::components, used in std-binary/src/io.rs 220-257. *)
Definition components (p : bytes) : list component :=
  match split_slash p with
  | c :: cs => (if beq c [DOT] then [CurDir] else piece c) ++ flat_map piece cs
  | [] => []
  end.

(** Path::is_absolute / has_root.  Used in std-binary/src/io.rs 56-131, 220-257. *)
Definition has_root (p : bytes) : bool :=
  match p with a :: _ => a =? SLASH | [] => false end.

(** std-binary/src/io.rs 220-234 validate_path: true is Ok. *)
Definition validate_path (p : bytes) (max_depth : N) : bool :=
  N.of_nat (length (components p)) - 1 <=? max_depth.
