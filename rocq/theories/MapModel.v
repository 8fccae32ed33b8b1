(** The fixed-capacity map: src/map.rs, over any type of keys with an equality test. *)
From Verif Require Import Base.

Section M.
Context {K V : Type} (eqb : K -> K -> bool) (cap : nat).

(** src/map.rs 4-8: the entries, in an ArrayVec of capacity [cap]. *)
Definition map_t := list (K * V).
(** src/map.rs 67-71: new. *)
Definition map_new : map_t := [].
(** src/map.rs 73-79: len and is_empty. *)
Definition map_len (m : map_t) : nat := length m.
(** src/map.rs 76-78. *)
Definition map_is_empty (m : map_t) : bool := match m with [] => true | _ => false end.
(** src/map.rs 139-144: get (127-136 get_mut finds the same entry; 175-188 indexing panics if
    there is none). *)
Fixpoint map_get (m : map_t) (k : K) : option V :=
  match m with
  | [] => None
  | (k', v) :: m' => if eqb k' k then Some v else map_get m' k
  end.
(** src/map.rs 115-124: contains_key. *)
Definition map_contains (m : map_t) (k : K) : bool :=
  match find (fun '(k', _) => eqb k' k) m with Some _ => true | None => false end.
(** get_mut followed by an assignment.  src/map.rs 118-126. *)
Fixpoint map_set (m : map_t) (k : K) (v : V) : map_t :=
  match m with
  | [] => []
  | (k', v') :: m' => if eqb k' k then (k', v) :: m' else (k', v') :: map_set m' k v
  end.
(** src/map.rs 147-153: remove takes out the first entry with the key, keeping the order. *)
Fixpoint map_remove (m : map_t) (k : K) : map_t * option V :=
  match m with
  | [] => ([], None)
  | (k', v) :: m' =>
      if eqb k' k then (m', Some v)
      else let '(m1, r) := map_remove m' k in ((k', v) :: m1, r)
  end.
(** ArrayVec::try_push: refused when full.  Called in src/map.rs 58-62, 96-105. *)
Definition try_push (m : map_t) (k : K) (v : V) : option map_t :=
  if (length m <? cap)%nat then Some (m ++ [(k, v)]) else None.
(** src/map.rs 102-112: insert; [inr] gives the value back. *)
Definition map_insert (m : map_t) (k : K) (v : V) : map_t * (option V + V) :=
  let '(m1, old) := map_remove m k in
  match try_push m1 k v with
  | Some m2 => (m2, Datatypes.inl old)
  | None => (m1, Datatypes.inr v)
  end.
(** src/map.rs 156-161: retain. *)
Definition map_retain (p : K -> V -> bool) (m : map_t) : map_t := filter (fun '(k, v) => p k v) m.
(** src/map.rs 81-99 entry, 34-49 OccupiedEntry, 59-65 VacantEntry: [None] is a vacant entry. *)
Definition map_entry (m : map_t) (k : K) : option V :=
  if existsb (fun '(k', _) => eqb k' k) m then map_get m k else None.
(** src/map.rs 58-62. *)
Definition entry_insert (m : map_t) (k : K) (v : V) : map_t * (unit + V) :=
  match try_push m k v with Some m' => (m', Datatypes.inl tt) | None => (m, Datatypes.inr v) end.
(** src/map.rs 47-49. *)
Definition entry_remove (m : map_t) (k : K) : map_t := filter (fun '(k', _) => negb (eqb k' k)) m.
End M.
