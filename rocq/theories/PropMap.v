(** C37: the fixed-capacity map is a finite map. *)
From Verif Require Import Base MapModel.

Section Spec.
Context {K V : Type} (eqb : K -> K -> bool) (cap : nat).

(** Calls and their results. *)
Inductive mop := MInsert (k : K) (v : V) | MRemove (k : K) | MGet (k : K) | MContains (k : K) | MLen
| MEntry (k : K) (v : V)     (* entry: assign if occupied, insert if vacant *)
| MEntryRemove (k : K).      (* entry: remove if occupied *)
Inductive mout := OInsert (r : option V + V) | OValue (v : option V) | OBool (b : bool) | OLen (n : nat)
| OEntry (r : unit + V) | ONothing.

(** The implementation. *)
Definition impl (m : map_t) (o : mop) : @map_t K V * mout :=
  match o with
  | MInsert k v => let '(m', r) := map_insert eqb cap m k v in (m', OInsert r)
  | MRemove k => let '(m', r) := map_remove eqb m k in (m', OValue r)
  | MGet k => (m, OValue (map_get eqb m k))
  | MContains k => (m, OBool (map_contains eqb m k))
  | MLen => (m, OLen (map_len m))
  | MEntry k v =>
      match map_entry eqb m k with
      | Some _ => (map_set eqb m k v, ONothing)
      | None => let '(m', r) := entry_insert cap m k v in (m', OEntry r)
      end
  | MEntryRemove k =>
      match map_entry eqb m k with
      | Some _ => (entry_remove eqb m k, ONothing)
      | None => (m, ONothing)
      end
  end.

(** The specification: a partial function and the number of keys where it is defined. *)
Definition upd (f : K -> option V) (k : K) (v : option V) : K -> option V :=
  fun x => if eqb k x then v else f x.
Definition spec (s : (K -> option V) * nat) (o : mop) : ((K -> option V) * nat) * mout :=
  let '(f, n) := s in
  match o with
  | MInsert k v =>
      match f k with
      | Some old => ((upd f k (Some v), n), OInsert (Datatypes.inl (Some old)))
      | None => if (n <? cap)%nat then ((upd f k (Some v), S n), OInsert (Datatypes.inl None))
                else ((f, n), OInsert (Datatypes.inr v))
      end
  | MRemove k =>
      match f k with
      | Some old => ((upd f k None, Nat.pred n), OValue (Some old))
      | None => ((f, n), OValue None)
      end
  | MGet k => ((f, n), OValue (f k))
  | MContains k => ((f, n), OBool (match f k with Some _ => true | None => false end))
  | MLen => ((f, n), OLen n)
  | MEntry k v =>
      match f k with
      | Some _ => ((upd f k (Some v), n), ONothing)
      | None => if (n <? cap)%nat then ((upd f k (Some v), S n), OEntry (Datatypes.inl tt))
                else ((f, n), OEntry (Datatypes.inr v))
      end
  | MEntryRemove k =>
      match f k with
      | Some _ => ((upd f k None, Nat.pred n), ONothing)
      | None => ((f, n), ONothing)
      end
  end.
Fixpoint run {S} (step : S -> mop -> S * mout) (s : S) (l : list mop) : S * list mout :=
  match l with
  | [] => (s, [])
  | o :: l' => let '(s1, r) := step s o in let '(s2, rs) := run step s1 l' in (s2, r :: rs)
  end.

Hypothesis Heq : forall a b, eqb a b = true <-> a = b.

Lemma eqb_refl k : eqb k k = true. Proof. now apply Heq. Qed.
Lemma eqb_neq a b : a <> b -> eqb a b = false.
Proof. intros H. destruct (eqb a b) eqn:E; [|reflexivity]. apply Heq in E. congruence. Qed.
Lemma eqb_false a b : eqb a b = false -> a <> b.
Proof. intros H ->. rewrite eqb_refl in H. discriminate. Qed.

Lemma get_in (m : list (K * V)) k : map_get eqb m k <> None <-> In k (map fst m).
Proof.
  induction m as [|[k' v] m IH]; cbn; [tauto|]. destruct (eqb k' k) eqn:E.
  - apply Heq in E. split; [auto|discriminate].
  - apply eqb_false in E. rewrite IH. tauto.
Qed.
Lemma get_none (m : list (K * V)) k : map_get eqb m k = None <-> ~ In k (map fst m).
Proof. rewrite <- get_in. destruct (map_get eqb m k); split; intros; try congruence. destruct H. discriminate. Qed.
Lemma remove_absent (m : list (K * V)) k : map_get eqb m k = None -> map_remove eqb m k = (m, None).
Proof.
  induction m as [|[k' v] m IH]; cbn; [reflexivity|]. destruct (eqb k' k); [discriminate|]. intros H. now rewrite IH.
Qed.
Lemma remove_present (m : list (K * V)) k v : NoDup (map fst m) -> map_get eqb m k = Some v ->
  exists m', map_remove eqb m k = (m', Some v) /\ S (length m') = length m /\ NoDup (map fst m') /\
    (forall x, In x (map fst m') <-> In x (map fst m) /\ x <> k) /\
    (forall x, map_get eqb m' x = if eqb k x then None else map_get eqb m x).
Proof.
  induction m as [|[k' v'] m IH]; cbn [map_get map_remove]; [discriminate|].
  intros ND H. cbn in ND. inversion ND as [|? ? N1 N2]; subst. destruct (eqb k' k) eqn:E.
  - injection H as ->. apply Heq in E. subst k'. exists m. split; [reflexivity|]. split; [reflexivity|]. split; [assumption|]. split.
    + intros x. cbn. split; [intros I; split; [auto|intros ->; contradiction]|]. intros [[->|I] NE]; [congruence|assumption].
    + intros x. destruct (eqb k x) eqn:X; [|reflexivity]. apply Heq in X. subst x. now apply get_none.
  - destruct (IH N2 H) as (m' & R & L & ND' & I & G). rewrite R. exists ((k', v') :: m').
    apply eqb_false in E. split; [reflexivity|]. split; [cbn; now rewrite <- L|]. split; [|split].
    + cbn. constructor; [|assumption]. rewrite I. tauto.
    + intros x. cbn. rewrite I. split; [intros [->|[]]; auto|]. tauto.
    + intros x. cbn [map_get]. rewrite G. destruct (eqb k' x) eqn:X; [|reflexivity].
      apply Heq in X. subst x. rewrite eqb_neq by congruence. reflexivity.
Qed.
Lemma get_app (m : list (K * V)) k v x : ~ In k (map fst m) ->
  map_get eqb (m ++ [(k, v)]) x = if eqb k x then Some v else map_get eqb m x.
Proof.
  induction m as [|[k' v'] m IH]; cbn [app map_get map fst]; intros N; [reflexivity|].
  rewrite IH by (intros I; apply N; now right). destruct (eqb k' x) eqn:E; [|reflexivity].
  apply Heq in E. subst x. rewrite eqb_neq; [reflexivity|]. intros ->. apply N. now left.
Qed.
Lemma set_spec (m : list (K * V)) k v old : map_get eqb m k = Some old ->
  map fst (map_set eqb m k v) = map fst m /\
  forall x, map_get eqb (map_set eqb m k v) x = if eqb k x then Some v else map_get eqb m x.
Proof.
  induction m as [|[k' v'] m IH]; cbn [map_get map_set]; [discriminate|]. destruct (eqb k' k) eqn:E; intros H.
  - apply Heq in E. subst k'. split; [reflexivity|]. intros x. cbn. now destruct (eqb k x).
  - destruct (IH H) as [A B]. split; [cbn; now rewrite A|]. intros x. cbn [map_get]. rewrite B.
    destruct (eqb k' x) eqn:X; [|reflexivity]. apply Heq in X. subst x.
    apply eqb_false in E. rewrite eqb_neq by congruence. reflexivity.
Qed.
Lemma entry_get (m : list (K * V)) k : map_entry eqb m k = map_get eqb m k.
Proof.
  unfold map_entry. induction m as [|[k' v] m IH]; cbn; [reflexivity|]. destruct (eqb k' k) eqn:E; [reflexivity|].
  cbn. exact IH.
Qed.
Lemma contains_get (m : list (K * V)) k : map_contains eqb m k = match map_get eqb m k with Some _ => true | None => false end.
Proof.
  unfold map_contains. induction m as [|[k' v] m IH]; cbn; [reflexivity|]. destruct (eqb k' k); [reflexivity|exact IH].
Qed.
Lemma entry_remove_eq (m : list (K * V)) k v : NoDup (map fst m) -> map_get eqb m k = Some v ->
  entry_remove eqb m k = fst (map_remove eqb m k).
Proof.
  induction m as [|[k' v'] m IH]; cbn [map_get]; [discriminate|]. intros ND H. cbn in ND. inversion ND as [|? ? N1 N2]; subst.
  cbn. destruct (eqb k' k) eqn:E; cbn.
  - apply Heq in E. subst k'. clear IH H ND N2. induction m as [|[a b] m IH]; [reflexivity|]. cbn in *.
    rewrite eqb_neq by (intros ->; tauto). cbn. rewrite IH by tauto. reflexivity.
  - unfold entry_remove in IH. rewrite (IH N2 H). now destruct (map_remove eqb m k).
Qed.

Lemma nodup_snoc (l : list K) x : NoDup l -> ~ In x l -> NoDup (l ++ [x]).
Proof.
  intros H N. apply NoDup_rev in H. rewrite <- (rev_involutive (l ++ [x])). apply NoDup_rev.
  rewrite rev_app_distr. cbn. constructor; [|assumption]. now rewrite <- in_rev.
Qed.

(** The relation between a map and the function it stands for. *)
Definition stands (m : @map_t K V) (s : (K -> option V) * nat) : Prop :=
  NoDup (map fst m) /\ (forall k, map_get eqb m k = fst s k) /\ length m = snd s /\ (length m <= cap)%nat.

Lemma stands_step m s o : stands m s ->
  let '(m', r) := impl m o in let '(s', r') := spec s o in stands m' s' /\ r = r'.
Proof.
  destruct s as [f n]. intros (ND & G & L & C). cbn [fst snd] in *. subst n.
  assert (PUSH : forall k v, map_get eqb m k = None -> (length m <? cap)%nat = true ->
    stands (m ++ [(k, v)]) (upd f k (Some v), S (length m))).
  { intros k v H X. apply Nat.ltb_lt in X. repeat split; cbn [fst snd].
    - rewrite map_app. apply nodup_snoc; [assumption|]. now apply get_none.
    - intros x. rewrite get_app by now apply get_none. unfold upd. now rewrite G.
    - rewrite app_length. cbn. lia.
    - rewrite app_length. cbn. lia. }
  assert (SAME : stands m (f, length m)) by (repeat split; assumption).
  destruct o as [k v|k|k|k| |k v|k]; cbn [impl spec].
  - unfold map_insert. rewrite <- G. destruct (map_get eqb m k) as [old|] eqn:E.
    + destruct (remove_present m k old ND E) as (m' & R & LL & ND' & I & G'). rewrite R. unfold try_push.
      destruct (length m' <? cap)%nat eqn:X; [|apply Nat.ltb_ge in X; lia].
      split; [|reflexivity]. repeat split; cbn [fst snd].
      * rewrite map_app. apply nodup_snoc; [assumption|]. rewrite I. tauto.
      * intros x. rewrite get_app by (rewrite I; tauto). rewrite G'. unfold upd. rewrite G. now destruct (eqb k x).
      * rewrite app_length. cbn. lia.
      * rewrite app_length. cbn. lia.
    + rewrite remove_absent by assumption. unfold try_push. destruct (length m <? cap)%nat eqn:X; auto.
  - rewrite <- G. destruct (map_get eqb m k) as [old|] eqn:E.
    + destruct (remove_present m k old ND E) as (m' & R & LL & ND' & I & G'). rewrite R. split; [|reflexivity].
      repeat split; cbn [fst snd]; [assumption| |lia|lia]. intros x. rewrite G'. unfold upd. now rewrite G.
    + rewrite remove_absent by assumption. auto.
  - rewrite G. auto.
  - rewrite contains_get, G. auto.
  - auto.
  - rewrite entry_get. rewrite <- G. destruct (map_get eqb m k) as [old|] eqn:E.
    + destruct (set_spec m k v old E) as [A B]. assert (LL : length (map_set eqb m k v) = length m).
      { rewrite <- (map_length fst), A. apply map_length. }
      split; [|reflexivity]. repeat split; cbn [fst snd]; [now rewrite A| |assumption|lia].
      intros x. rewrite B. unfold upd. now rewrite G.
    + unfold entry_insert, try_push. destruct (length m <? cap)%nat eqn:X; auto.
  - rewrite entry_get. rewrite <- G. destruct (map_get eqb m k) as [old|] eqn:E; [|auto].
    rewrite (entry_remove_eq m k old ND E).
    destruct (remove_present m k old ND E) as (m' & R & LL & ND' & I & G'). rewrite R. cbn [fst]. split; [|reflexivity].
    repeat split; cbn [fst snd]; [assumption| |lia|lia]. intros x. rewrite G'. unfold upd. now rewrite G.
Qed.

(** Every history of calls gives the results of the finite map with at most [cap] keys. *)
Theorem map_behaves_as_map : forall l,
  snd (run impl map_new l) = snd (run spec (fun _ => None, 0%nat) l) /\
  stands (fst (run impl map_new l)) (fst (run spec (fun _ => None, 0%nat) l)).
Proof.
  intros l. assert (S0 : stands map_new (fun _ => None, 0%nat)).
  { repeat split; cbn; [constructor|lia]. }
  revert S0. generalize (map_new (K := K) (V := V)). generalize ((fun _ : K => @None V), 0%nat).
  induction l as [|o l IH]; intros s m H; cbn [run]; [auto|].
  pose proof (stands_step m s o H) as ST. destruct (impl m o) as [m1 r]. destruct (spec s o) as [s1 r']. destruct ST as [ST ->].
  destruct (IH _ _ ST) as [A B]. destruct (run impl m1 l) as [m2 rs]. destruct (run spec s1 l) as [s2 rs'].
  cbn [fst snd] in *. subst. auto.
Qed.

(** In particular the keys are distinct, there are never more than [cap], and [len] counts the
    keys that are found. *)
Theorem map_keys : forall l, let m := fst (run impl map_new l) in
  NoDup (map fst m) /\ map_len m = length (map fst m) /\ (map_len m <= cap)%nat /\
  forall k, In k (map fst m) <-> map_get eqb m k <> None.
Proof.
  intros l. destruct (map_behaves_as_map l) as [_ (A & B & C & D)]. cbv zeta. unfold map_len. rewrite map_length.
  repeat split; auto; apply get_in.
Qed.

(** Retaining keeps exactly the entries that satisfy the predicate, in their order. *)
Theorem retain_spec : forall l p, let m := fst (run impl map_new l) in
  NoDup (map fst (map_retain p m)) /\
  forall k, map_get eqb (map_retain p m) k =
    match map_get eqb m k with Some v => if p k v then Some v else None | None => None end.
Proof.
  intros l p. destruct (map_behaves_as_map l) as [_ (A & _)]. cbv zeta. revert A.
  generalize (fst (run impl map_new l)) as m. unfold map_retain.
  assert (SUB : forall (m : list (K * V)) x, In x (map fst (filter (fun '(k, v) => p k v) m)) -> In x (map fst m)).
  { intros m x I. apply in_map_iff in I. destruct I as ([a b] & <- & I). apply filter_In in I.
    apply in_map_iff. exists (a, b). tauto. }
  induction m as [|[k v] m IH]; intros ND; cbn in ND |- *; [split; [constructor|reflexivity]|].
  inversion ND as [|? ? N1 N2]; subst. destruct (IH N2) as [I1 I2]. split.
  - destruct (p k v); [|assumption]. cbn. constructor; [|assumption]. intros I. apply N1, SUB, I.
  - intros x. destruct (eqb k x) eqn:E.
    + apply Heq in E. subst x. destruct (p k v) eqn:P; cbn; [now rewrite eqb_refl|].
      rewrite I2. apply get_none in N1. now rewrite N1.
    + destruct (p k v); cbn; rewrite ?E; apply I2.
Qed.
End Spec.
Print Assumptions map_behaves_as_map.
Print Assumptions map_keys.
Print Assumptions retain_spec.

(** Two places, three keys: the third is refused until a place is free; replacing is possible in
    a full map. *)
Example map_case : snd (run (impl N.eqb 2) map_new
   [MInsert 1 10; MInsert 2 20; MInsert 3 30; MInsert 1 11; MGet 1; MGet 3; MLen; MRemove 2; MEntry 3 33; MEntry 1 12;
    MGet 1; MEntry 4 40; MEntryRemove 3; MContains 3; MLen]) =
  [OInsert (Datatypes.inl None); OInsert (Datatypes.inl None); OInsert (Datatypes.inr 30);
   OInsert (Datatypes.inl (Some 10)); OValue (Some 11); OValue None; OLen 2; OValue (Some 20);
   OEntry (Datatypes.inl tt); ONothing; OValue (Some 12); OEntry (Datatypes.inr 40); ONothing; OBool false; OLen 1].
Proof. vm_compute. reflexivity. Qed.
Example map_eq_case : forall a b, N.eqb a b = true <-> a = b.
Proof. exact N.eqb_eq. Qed.
