(** The files a server opens: std-binary/src/io.rs 55-131, 195-218 on top of a file system with
    directories, symbolic and hard links.  The file system itself is the environment, modelled
    after POSIX; see the comments.  Paths are those of std::path on Unix. *)
From Verif Require Import Base PacketModel PathModel.

(** ** Paths (std::path::Path).  [p_dot]: a relative path beginning with "./" (or ".").  Empty
    pieces and further "." pieces vanish, ".." stays a piece. *)
(** Used by std-binary/src/io.rs 56-131, 200-218. *)
Record path := mkP { p_root : bool; p_dot : bool; p_parts : list bytes }.
(** std::path::Components, used by std-binary/src/io.rs 56-131. *)
Definition plain_piece (c : bytes) : bool := negb (beq c [] || beq c [DOT]).
(** Path::new in std-binary/src/io.rs 56-131. *)
Definition parse_path (s : bytes) : path :=
  let pieces := split_slash s in
  mkP (has_root s) (match pieces with c :: _ => beq c [DOT] | [] => false end) (filter plain_piece pieces).
(** The path without components; std-binary/src/io.rs 91-131. *)
Definition p_empty (p : path) : bool :=
  negb (p_root p) && negb (p_dot p) && match p_parts p with [] => true | _ => false end.
(** Path::components as a list: root and leading dot are written as the texts "/" and ".",
    which no other component is.  Used by std-binary/src/io.rs 56-131. *)
Definition comps (p : path) : list bytes :=
  (if p_root p then [[SLASH]] else []) ++ (if p_dot p then [[DOT]] else []) ++ p_parts p.
(** Path::join: an absolute path replaces the first one.  Called in std-binary/src/io.rs 56-131. *)
Definition join (d r : path) : path :=
  if p_root r then r else if p_empty d then r else mkP (p_root d) (p_dot d) (p_parts d ++ p_parts r).
(** Path::parent.  Called in std-binary/src/io.rs 91-131. *)
Definition parent (p : path) : option path :=
  match p_parts p with
  | [] => if p_dot p then Some (mkP (p_root p) false []) else None
  | _ => Some (mkP (p_root p) (p_dot p) (removelast (p_parts p)))
  end.
(** Path::starts_with and Path::ends_with compare components.  Called in std-binary/src/io.rs 56-131. *)
Fixpoint prefix_of (a b : list bytes) : bool :=
  match a, b with
  | [], _ => true
  | x :: a', y :: b' => beq x y && prefix_of a' b'
  | _ :: _, [] => false
  end.
(** Called in std-binary/src/io.rs 56-131. *)
Definition starts_with (p d : path) : bool := prefix_of (comps d) (comps p).
(** Called in std-binary/src/io.rs 56-89. *)
Definition ends_with (p d : path) : bool := prefix_of (rev (comps d)) (rev (comps p)).

(** ** The file system.  Places are lists of names from the root directory, which is the place
    []; a file is known by a number, so that several names may denote the same file. *)
(** No code of its own: the operating system under std-binary/src/io.rs 33-131. *)
Definition place := list bytes.
(** No code of its own: the operating system under std-binary/src/io.rs 33-131. *)
Inductive node := NFile (id : N) | NDir | NLink (target : bytes).
(** No code of its own: the operating system under std-binary/src/io.rs 33-131. *)
Record fs := mkFs {
  f_tree : place -> option node;      (* what is at a place other than the root *)
  f_data : N -> bytes;                (* contents of files *)
  f_next : N;                         (* number for the next new file *)
  f_cwd : place;                      (* working directory *)
  f_perm : place -> bool;             (* what may be opened, and where something may be created *)
  f_names : place -> list bytes }.    (* read_dir: the names in a directory, in the order of the system *)
Definition at_ (f : fs) (p : place) : option node := match p with [] => Some NDir | _ => f_tree f p end.
(** The system follows at most 40 symbolic links. *)
Definition MAX_LINKS : nat := 40.

(** path_resolution(7).  A name after something that is not a directory is an error. *)
Fixpoint walk (links : nat) (f : fs) : place -> list bytes -> option place :=
  fix go (cur : place) (todo : list bytes) : option place :=
    match todo with
    | [] => Some cur
    | c :: rest =>
        if beq c [DOT; DOT] then go (removelast cur) rest
        else match at_ f (cur ++ [c]) with
             | Some NDir => go (cur ++ [c]) rest
             | Some (NFile _) => match rest with [] => Some (cur ++ [c]) | _ => None end
             | Some (NLink t) =>
                 match links with
                 | O => None
                 | S k => let q := parse_path t in
                          if p_empty q then None
                          else walk k f (if p_root q then [] else cur) (p_parts q ++ rest)
                 end
             | None => None
             end
    end.
(** No code of its own: relative paths start in the working directory (path_resolution(7)), std-binary/src/io.rs 33-131. *)
Definition start_of (f : fs) (p : path) : place := if p_root p then [] else f_cwd f.
(** std::fs::canonicalize = realpath(3) *)
Definition realpath (f : fs) (p : path) : option place :=
  if p_empty p then None else walk MAX_LINKS f (start_of f p) (p_parts p).
(** The absolute path that fs::canonicalize returns; std-binary/src/io.rs 56-131. *)
Definition place_path (p : place) : path := mkP true false p.
(** Path::is_dir follows links.  Called in std-binary/src/io.rs 56-89. *)
Definition is_dir (f : fs) (p : path) : bool :=
  match realpath f p with Some q => match at_ f q with Some NDir => true | _ => false end | None => false end.

(** Helper: equality of places (the operating system under std-binary/src/io.rs 33-131). *)
Definition place_eqb (a b : place) : bool := prefix_of a b && prefix_of b a.
(** A new entry; the number of new files is taken from f_next.
    No code of its own: the operating system under std-binary/src/io.rs 91-131. *)
Definition add_node (f : fs) (p : place) (x : node) : fs :=
  mkFs (fun q => if place_eqb q p then Some x else f_tree f q) (f_data f) (f_next f) (f_cwd f) (f_perm f)
    (fun q => if place_eqb q (removelast p) then f_names f q ++ [last p []] else f_names f q).
(** No code of its own: the operating system under std-binary/src/io.rs 91-131. *)
Definition set_data (f : fs) (id : N) (d : bytes) : fs :=
  mkFs (f_tree f) (fun i => if i =? id then d else f_data f i) (f_next f) (f_cwd f) (f_perm f) (f_names f).
(** No code of its own: the operating system under std-binary/src/io.rs 91-131. *)
Definition new_file (f : fs) (p : place) : fs :=
  let f1 := add_node f p (NFile (f_next f)) in
  set_data (mkFs (f_tree f1) (f_data f1) (f_next f + 1) (f_cwd f1) (f_perm f1) (f_names f1)) (f_next f) [].

(** mkdir(2): the last name is not followed.  Some true: made; Some false: it fails with an error
    other than ENOENT (something is there, or no permission); None: a directory on the way is
    missing.  (That way may also be blocked by a file or a loop; the caller then fails as well.) *)
Definition mkdir (f : fs) (p : path) : fs * option bool :=
  if p_empty p then (f, None) else
  match p_parts p with
  | [] => (f, Some false)
  | parts =>
      match walk MAX_LINKS f (start_of f p) (removelast parts) with
      | None => (f, None)
      | Some d =>
          let c := last parts [] in
          if beq c [DOT; DOT] then (f, Some false)
          else match at_ f d with
               | Some NDir =>
                   match at_ f (d ++ [c]) with
                   | Some _ => (f, Some false)
                   | None => if f_perm f (d ++ [c]) then (add_node f (d ++ [c]) NDir, Some true) else (f, Some false)
                   end
               | _ => (f, None)
               end
      end
  end.
(** std::fs::create_dir_all (DirBuilder::create_dir_all); [k]: number of pieces of the path.
    Called in std-binary/src/io.rs 91-131. *)
Fixpoint create_dir_all (k : nat) (f : fs) (p : path) : fs * bool :=
  if p_empty p then (f, true) else
  match mkdir f p with
  | (f1, Some true) => (f1, true)
  | (f1, Some false) => (f1, is_dir f1 p)
  | (f1, None) =>
      match k, parent p with
      | S k', Some q =>
          let '(f2, ok) := create_dir_all k' f1 q in
          if ok then
            match mkdir f2 p with
            | (f3, Some true) => (f3, true)
            | (f3, _) => (f3, is_dir f3 p)
            end
          else (f2, false)
      | _, _ => (f1, false)
      end
  end.

(** open(2) with O_WRONLY|O_CREAT, and O_EXCL ([excl]): a link in the last place is followed (and
    what it names is created), unless O_EXCL is given.  The place and the file opened. *)
Fixpoint open_create (links : nat) (excl : bool) (f : fs) : place -> list bytes -> fs * option (place * N) :=
  fix go (cur : place) (todo : list bytes) : fs * option (place * N) :=
    match todo with
    | [] => (f, None)
    | c :: rest =>
        if beq c [DOT; DOT] then go (removelast cur) rest
        else match at_ f (cur ++ [c]) with
             | Some NDir => go (cur ++ [c]) rest
             | Some (NFile id) =>
                 match rest with
                 | [] => (f, if excl then None else if f_perm f (cur ++ [c]) then Some (cur ++ [c], id) else None)
                 | _ => (f, None)
                 end
             | Some (NLink t) =>
                 match links with
                 | O => (f, None)
                 | S k =>
                     if excl && match rest with [] => true | _ => false end then (f, None) else
                     let q := parse_path t in
                     if p_empty q then (f, None)
                     else open_create k excl f (if p_root q then [] else cur) (p_parts q ++ rest)
                 end
             | None =>
                 match rest with
                 | [] => if f_perm f (cur ++ [c]) then (new_file f (cur ++ [c]), Some (cur ++ [c], f_next f)) else (f, None)
                 | _ => (f, None)
                 end
             end
    end.
(** open(2) as called by File::create and OpenOptions in std-binary/src/io.rs 33-43, 91-131; no file has the empty path. *)
Definition open_path (excl : bool) (f : fs) (p : path) : fs * option (place * N) :=
  if p_empty p then (f, None) else open_create MAX_LINKS excl f (start_of f p) (p_parts p).

(** ** The server's side.  Configuration: directory, allow_overwrite, directory_list,
    max_directory_depth (src/server/config.rs). *)
(** Lines 9-26. *)
Record fcfg := mkFcfg { fc_dir : bytes; fc_overwrite : bool; fc_list : option bytes; fc_depth : N }.

(** io.rs 195-218 list_directory: one line for each name, with the path from the server's
    directory; directories (not links to them) are marked.  Names are UTF-8 here
    (to_string_lossy would replace other bytes). *)
Definition rel_text (d p : place) : bytes :=
  match skipn (List.length d) p with [] => [] | c :: cs => c ++ concat (map (cons SLASH) cs) end.
(** std-binary/src/io.rs 203-214. *)
Definition list_line (f : fs) (d p : place) (n : bytes) : bytes :=
  rel_text d (p ++ [n]) ++ (match at_ f (p ++ [n]) with Some NDir => [SLASH] | _ => [] end) ++ [10].
(** std-binary/src/io.rs 200-218. *)
Definition list_directory (f : fs) (d p : place) : option bytes :=
  match at_ f p with
  | Some NDir => if f_perm f p then Some (concat (map (list_line f d p) (f_names f p))) else None
  | _ => None
  end.

(** What a download is read from: a file, an opened directory (every read fails), a listing.
    std-binary/src/io.rs 56-89, 181-194. *)
Inductive source := SFile (id : N) | SDir | SList (text : bytes).

(** io.rs 44-53 create_reader on a canonical path: File::open follows the path again. *)
Definition open_read (f : fs) (p : place) : option source :=
  if forallb utf8 p then
    match realpath f (place_path p) with
    | Some q => if f_perm f q then match at_ f q with Some (NFile id) => Some (SFile id) | Some NDir => Some SDir | _ => None end else None
    | None => None
    end
  else None.

(** io.rs 55-87 create_server_reader *)
Definition create_server_reader (f : fs) (g : fcfg) (name : bytes) : option source :=
  if validate_path name (fc_depth g) then
    let dir := parse_path (fc_dir g) in
    let p := join dir (parse_path name) in
    let list := match fc_list g with Some l => ends_with p (parse_path l) | None => false end in
    let real_path := if list then match parent p with Some q => Some (realpath f q) | None => None end else Some (realpath f p) in
    match real_path with
    | None => None
    | Some rp =>
        match realpath f dir, rp with
        | Some d, Some q =>
            if prefix_of d q then if list then option_map SList (list_directory f d q) else open_read f q else None
        | _, _ => None
        end
    end
  else None.

(** io.rs 89-131 create_server_writer: the file system afterwards, and the file opened for
    writing, from its beginning. *)
Definition create_server_writer (f : fs) (g : fcfg) (name : bytes) : fs * option N :=
  if validate_path name (fc_depth g) then
    let dir := parse_path (fc_dir g) in
    let p := join dir (parse_path name) in
    if starts_with p dir then
      let '(f1, ok) :=
        match parent p with
        | Some q => if is_dir f q then (f, true) else create_dir_all (List.length (p_parts q)) f q
        | None => (f, true)
        end in
      if ok then
        match open_path (negb (fc_overwrite g)) f1 p with
        | (f2, Some (_, id)) =>
            match realpath f2 dir, realpath f2 p with
            | Some d, Some q =>
                if prefix_of d q then
                  if fc_overwrite g then
                    match open_path false f2 (place_path q) with
                    | (f3, Some (_, id')) => (set_data f3 id' [], Some id')
                    | (f3, None) => (f3, None)
                    end
                  else (f2, Some id)
                else (f2, None)
            | _, _ => (f2, None)
            end
        | (f2, None) => (f2, None)
        end
      else (f1, None)
    else (f, None)
  else (f, None).
