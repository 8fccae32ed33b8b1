(** Vocabulary for statements about the files of a server. *)
From Verif Require Import Base PathModel PathSpec FsModel.

(** A real directory: every name on the way, and the last one, is a directory (no link). *)
Inductive dirs (f : fs) : place -> Prop :=
| d_root : dirs f []
| d_snoc (p : place) (c : bytes) : dirs f p -> c <> [DOT; DOT] -> at_ f (p ++ [c]) = Some NDir -> dirs f (p ++ [c]).
(** The working directory is one, and files have numbers that are not given to new files. *)
Definition consistent (f : fs) : Prop :=
  dirs f (f_cwd f) /\ forall p id, at_ f p = Some (NFile id) -> id < f_next f.
(** [p] is [d] or inside the directory [d]. *)
Definition below (d p : place) : Prop := exists r, p = d ++ r.
(** No symbolic links in [d] and its sub-directories. *)
Definition no_links (f : fs) (d : place) : Prop := forall r t, at_ f (d ++ r) <> Some (NLink t).
(** Nothing is removed or replaced, only directories and new, empty files are added; the contents
    of the files there were, except those in [changed], stay. *)
Definition only_adds (f f' : fs) (changed : N -> Prop) : Prop :=
  (forall p x, at_ f p = Some x -> at_ f' p = Some x) /\
  (forall p x, at_ f p = None -> at_ f' p = Some x ->
     x = NDir \/ exists id, x = NFile id /\ f_next f <= id /\ f_data f' id = []) /\
  (forall id, id < f_next f -> ~ changed id -> f_data f' id = f_data f id).
(** A place whose directory is a real one: the name leads there without links. *)
Definition real_place (f : fs) (p : place) : Prop := dirs f (removelast p).
(** [t] lists the directory at [q], [r] being its way from the server's directory: a line for each
    name, with a "/" behind the directories. *)
Definition lists (f : fs) (r q : place) (t : bytes) : Prop :=
  t = concat (map (fun n => PathSpec.path (r ++ [n]) ++
        (match at_ f (q ++ [n]) with Some NDir => s2b "/" | _ => [] end) ++ [10]) (f_names f q)).
(** [name] is the clean path with the components [cs]. *)
Definition clean_path (name : bytes) (cs : list bytes) : Prop := components_of name cs /\ forall c, In c cs -> ~ dotty c.
(** The entry named [l] in every directory is its listing. *)
Definition list_name (l : bytes) : Prop := clean_path l [l].
