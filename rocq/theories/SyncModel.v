(** Directory synchronisation (std-binary/src/sync.rs): the loop over the events of the watcher, the
    uploads it starts and the flags it shares with their readers.  The watcher (crate notify), the
    threads and the uploads themselves are not part of this model: an upload is an entry in a list
    (what it does then is start_send, CliModel.client_begin, and the delayed reader, BlockingModel). *)
From Verif Require Import Base PathModel.

(** notify::EventKind as far as sync.rs 54, 85-88 and 104-108 distinguish it: Create(File),
    Access(Close(Write)) and all others; and an error of the watcher.  An event carries paths. *)
Inductive skind := KCreateFile | KCloseWrite | KOther.
(** notify::Result<notify::Event>, std-binary/src/sync.rs 52-58. *)
Inductive sevent := SError | SEvent (kind : skind) (paths : list bytes).

(** Text between slashes that is not a component (std::path: empty or a dot).
    Used in std-binary/src/sync.rs 135-152. *)
Definition idle (p : bytes) : bool := beq p [] || beq p [DOT].
(** Part of Path::strip_prefix, std-binary/src/sync.rs 135-152. *)
Fixpoint drop_idle (l : list bytes) : list bytes :=
  match l with
  | p :: l' => if idle p then drop_idle l' else l
  | [] => []
  end.
(** std::path::Path::strip_prefix for absolute paths: the components of the prefix are taken off one
    by one; what is left is the text without leading and trailing text that is not a component.
    Called in std-binary/src/sync.rs 135-152. *)
Fixpoint take_off (base rest : list bytes) : option (list bytes) :=
  match base with
  | [] => Some rest
  | b :: base' =>
      match drop_idle rest with
      | p :: rest' => if beq p b then take_off base' rest' else None
      | [] => None
      end
  end.
(** Part of Path::strip_prefix (Components::as_path), std-binary/src/sync.rs 135-152. *)
Fixpoint joined (l : list bytes) : bytes :=
  match l with
  | [] => []
  | [c] => c
  | c :: l' => c ++ SLASH :: joined l'
  end.
(** Path::strip_prefix, std-binary/src/sync.rs 135-152. *)
Definition strip_prefix (p dir : bytes) : option bytes :=
  match p, dir with
  | a :: p', b :: d' =>
      if (a =? SLASH) && (b =? SLASH) then
        match take_off (filter (fun c => negb (idle c)) (split_slash d')) (split_slash p') with
        | Some rest => Some (joined (rev (drop_idle (rev (drop_idle rest)))))
        | None => None
        end
      else None
  | _, _ => None
  end.

(** sync.rs 128-148 get_paths: local and remote name.  [lossy] is to_string_lossy, which leaves valid
    text as it is. *)
Definition get_paths (lossy : bytes -> bytes) (dir : bytes) (paths : list bytes) : option (bytes * bytes) :=
  match paths with
  | [] => None
  | p :: _ => match strip_prefix p dir with Some r => Some (lossy p, lossy r) | None => None end
  end.

(** The uploads started so far in order, with their flag (None: no delayed reader); the flags; and
    paths_pending (sync.rs 49): which flag belongs to a local name. *)
Record upload := mkUp { up_local : bytes; up_remote : bytes; up_flag : option nat }.
(** std-binary/src/sync.rs 33-52: the uploads started, their flags, the map of uploads that are not finished. *)
Record sync := mkSync { sy_uploads : list upload; sy_flags : list bool; sy_pending : list (bytes * nat) }.
(** std-binary/src/sync.rs 33-52. *)
Definition sync_new : sync := mkSync [] [] [].

(** HashMap::insert and HashMap::remove.  In std-binary/src/sync.rs 52-133. *)
Fixpoint pending_remove (m : list (bytes * nat)) (k : bytes) : list (bytes * nat) :=
  match m with
  | [] => []
  | (k', v) :: m' => if beq k' k then pending_remove m' k else (k', v) :: pending_remove m' k
  end.
(** In std-binary/src/sync.rs 52-133. *)
Definition pending_insert (m : list (bytes * nat)) (k : bytes) (v : nat) : list (bytes * nat) :=
  (k, v) :: pending_remove m k.
(** HashMap::get in std-binary/src/sync.rs 52-133. *)
Fixpoint pending_get (m : list (bytes * nat)) (k : bytes) : option nat :=
  match m with
  | [] => None
  | (k', v) :: m' => if beq k' k then Some v else pending_get m' k
  end.
(** f.store(true) (sync.rs 96). *)
Fixpoint raise_flag (l : list bool) (n : nat) : list bool :=
  match l, n with
  | [], _ => []
  | _ :: l', O => true :: l'
  | b :: l', S n' => b :: raise_flag l' n'
  end.

(** sync.rs 51-123: one event.  [on_create] is start_on_create. *)
Definition sync_step (lossy : bytes -> bytes) (dir : bytes) (on_create : bool) (st : sync) (e : sevent) : sync :=
  match e, on_create with
  | SEvent KCreateFile ps, true =>
      match get_paths lossy dir ps with
      | None => st
      | Some (l, r) =>
          let n := length (sy_flags st) in
          mkSync (sy_uploads st ++ [mkUp l r (Some n)]) (sy_flags st ++ [false]) (pending_insert (sy_pending st) l n)
      end
  | SEvent KCloseWrite ps, true =>
      match get_paths lossy dir ps with
      | None => st
      | Some (l, _) =>
          match pending_get (sy_pending st) l with
          | Some n => mkSync (sy_uploads st) (raise_flag (sy_flags st) n) (pending_remove (sy_pending st) l)
          | None => st
          end
      end
  | SEvent KCloseWrite ps, false =>
      match get_paths lossy dir ps with
      | None => st
      | Some (l, r) => mkSync (sy_uploads st ++ [mkUp l r None]) (sy_flags st) (sy_pending st)
      end
  | _, _ => st
  end.
(** std-binary/src/sync.rs 52-133. *)
Definition sync_run (lossy : bytes -> bytes) (dir : bytes) (on_create : bool) (evs : list sevent) : sync :=
  fold_left (sync_step lossy dir on_create) evs sync_new.
