From Verif Require Import Base BaseProofs PacketModel PathModel PathSpec PathProofs PropPath FsModel FsSpec.

#[global] Opaque MAX_LINKS.
(** Shorthand: the two dots. *)
Notation DD := ([DOT; DOT] : bytes).

Lemma prefix_of_iff a b : prefix_of a b = true <-> exists c, b = a ++ c.
Proof.
  revert b. induction a as [|x a IH]; intros b; cbn [prefix_of].
  - split; [exists b; reflexivity|reflexivity].
  - destruct b as [|y b].
    + split; [discriminate|]. intros [c H]. discriminate.
    + rewrite Bool.andb_true_iff, beq_eq, IH. split.
      * intros [-> [c ->]]. exists c. reflexivity.
      * intros [c H]. cbn in H. injection H as -> ->. split; [reflexivity|]. exists c. reflexivity.
Qed.
Lemma place_eqb_iff a b : place_eqb a b = true <-> a = b.
Proof.
  unfold place_eqb. rewrite Bool.andb_true_iff, !prefix_of_iff. split.
  - intros [[c ->] [d H]]. rewrite <- app_assoc in H. symmetry in H. rewrite <- (app_nil_r a) in H at 2.
    apply app_inv_head in H. apply app_eq_nil in H as [-> _]. rewrite app_nil_r. reflexivity.
  - intros ->. split; exists []; rewrite app_nil_r; reflexivity.
Qed.
Lemma place_eqb_refl a : place_eqb a a = true.
Proof. apply place_eqb_iff; reflexivity. Qed.
Lemma snoc_inv {A} (l : list A) x r c : l ++ [x] = r ++ [c] -> l = r /\ x = c.
Proof. apply app_inj_tail. Qed.

(** Real places. *)
Definition canon (f : fs) (q : place) : Prop :=
  dirs f q \/ exists (p : place) (c : bytes) id, q = p ++ [c] /\ dirs f p /\ c <> DD /\ at_ f q = Some (NFile id).

Lemma dirs_at f p : dirs f p -> at_ f p = Some NDir.
Proof. destruct 1; [reflexivity|assumption]. Qed.
Lemma dirs_up f p : dirs f p -> dirs f (removelast p).
Proof. destruct 1; [constructor|]. rewrite removelast_last. assumption. Qed.

Lemma walk_unfold k f cur todo : walk k f cur todo =
  match todo with
    | [] => Some cur
    | c :: rest =>
        if beq c DD then walk k f (removelast cur) rest
        else match at_ f (cur ++ [c]) with
             | Some NDir => walk k f (cur ++ [c]) rest
             | Some (NFile _) => match rest with [] => Some (cur ++ [c]) | _ => None end
             | Some (NLink t) =>
                 match k with
                 | O => None
                 | S k => let q := parse_path t in
                          if p_empty q then None
                          else walk k f (if p_root q then [] else cur) (p_parts q ++ rest)
                 end
             | None => None
             end
    end.
Proof. destruct k, todo; reflexivity. Qed.
Lemma open_unfold k excl f cur todo : open_create k excl f cur todo =
    match todo with
    | [] => (f, None)
    | c :: rest =>
        if beq c DD then open_create k excl f (removelast cur) rest
        else match at_ f (cur ++ [c]) with
             | Some NDir => open_create k excl f (cur ++ [c]) rest
             | Some (NFile id) =>
                 match rest with
                 | [] => (f, if excl then None else if f_perm f (cur ++ [c]) then Some (cur ++ [c], id) else None)
                 | _ => (f, None)
                 end
             | Some (NLink t) =>
                 match k with
                 | O => (f, None)
                 | S k =>
                     if excl && match rest with [] => true | _ => false end then (f, None) else
                     let q := parse_path t in
                     if p_empty q then (f, None)
                     else open_create k excl f (if p_root q then [] else cur) (p_parts q ++ rest)
                 end
             | None =>
                 match rest with
                 | [] => if f_perm f (cur ++ [c]) then (new_file f (cur ++ [c]), Some (cur ++ [c], f_next f)) else (f, None)
                 | _ => (f, None)
                 end
             end
    end.
Proof. destruct k, todo; reflexivity. Qed.

(** Induction over a walk. *)
Lemma walk_ind (P : nat -> place -> list bytes -> Prop) :
  (forall k cur todo,
    (forall rest, (List.length rest < List.length todo)%nat -> forall c, P k c rest) ->
    (forall k', (k' < k)%nat -> forall c r, P k' c r) -> P k cur todo) ->
  forall k cur todo, P k cur todo.
Proof.
  intros H k. induction k as [k IHk] using lt_wf_ind. intros cur todo. revert cur.
  induction todo as [todo IHt] using (well_founded_induction (Wf_nat.well_founded_ltof _ (@List.length bytes))).
  intros cur. apply H; [|assumption]. intros rest HL c. apply IHt. exact HL.
Qed.

Lemma walk_canon f : forall k cur todo q, dirs f cur -> walk k f cur todo = Some q -> canon f q.
Proof.
  apply (walk_ind (fun k cur todo => forall q, dirs f cur -> walk k f cur todo = Some q -> canon f q)).
  intros k cur todo IH1 IH2 q HD E. rewrite walk_unfold in E. destruct todo as [|c rest]; [injection E as <-; left; assumption|].
  destruct (beq c DD) eqn:ED; [eapply (IH1 rest); [cbn; lia|apply dirs_up; exact HD|exact E]|]. apply beq_neq in ED.
  destruct (at_ f (cur ++ [c])) as [[id| |t]|] eqn:EA; [| | |discriminate].
  - destruct rest; [|discriminate]. injection E as <-. right. exists cur, c, id. auto.
  - eapply (IH1 rest); [cbn; lia| |exact E]. constructor; assumption.
  - destruct k as [|k]; [discriminate|]. cbn zeta in E. destruct (p_empty _); [discriminate|].
    eapply (IH2 k); [lia| |exact E]. destruct (p_root _); [constructor|exact HD].
Qed.
Lemma walk_dirs f p k r : dirs f p -> walk k f [] (p ++ r) = walk k f p r.
Proof.
  intros H. revert r. induction H as [|p c H IH NC EA]; intros r; [reflexivity|].
  rewrite <- app_assoc, IH. cbn [app]. rewrite walk_unfold. apply beq_neq in NC. rewrite NC, EA. reflexivity.
Qed.
Lemma walk_self f k q : canon f q -> walk k f [] q = Some q.
Proof.
  intros [H|(p & c & id & -> & H & NC & EA)].
  - rewrite <- (app_nil_r q) at 1. rewrite walk_dirs by assumption. rewrite walk_unfold. reflexivity.
  - rewrite walk_dirs by assumption. rewrite walk_unfold. apply beq_neq in NC. rewrite NC, EA. reflexivity.
Qed.
Lemma start_dirs f p : dirs f (f_cwd f) -> dirs f (start_of f p).
Proof. unfold start_of. destruct (p_root p); [constructor|auto]. Qed.
Lemma realpath_canon f p q : dirs f (f_cwd f) -> realpath f p = Some q -> canon f q.
Proof.
  unfold realpath. intros H. destruct (p_empty p); [discriminate|]. apply walk_canon. apply start_dirs. exact H.
Qed.
Lemma realpath_self f q : canon f q -> realpath f (place_path q) = Some q.
Proof. intros H. unfold realpath, place_path, start_of, p_empty. cbn [p_root negb andb p_parts]. apply walk_self. exact H. Qed.
Lemma canon_at f q : canon f q -> at_ f q = Some NDir \/ exists id, at_ f q = Some (NFile id).
Proof. intros [H|(p & c & id & -> & H & NC & EA)]; [left; apply dirs_at; exact H|right; eauto]. Qed.

(** ** Growing file systems *)
Definition ids_ok (f : fs) : Prop := forall p id, at_ f p = Some (NFile id) -> id < f_next f.
Record grows (f f' : fs) : Prop := mkGrows {
  g_keep : forall p x, at_ f p = Some x -> at_ f' p = Some x;
  g_new : forall p x, at_ f p = None -> at_ f' p = Some x ->
     x = NDir \/ exists id, x = NFile id /\ f_next f <= id /\ id < f_next f' /\ f_data f' id = [];
  g_data : forall id, id < f_next f -> f_data f' id = f_data f id;
  g_next : f_next f <= f_next f';
  g_cwd : f_cwd f' = f_cwd f;
  g_perm : f_perm f' = f_perm f }.
Lemma grows_refl f : grows f f.
Proof. constructor; auto; try lia. intros p x H1 H2. congruence. Qed.
Lemma grows_trans f1 f2 f3 : grows f1 f2 -> grows f2 f3 -> grows f1 f3.
Proof.
  intros [K1 N1 D1 X1 C1 P1] [K2 N2 D2 X2 C2 P2]. constructor.
  - auto.
  - intros p x H1 H3. destruct (at_ f2 p) as [y|] eqn:H2.
    + pose proof (K2 _ _ H2) as H. rewrite H3 in H. injection H as ->. destruct (N1 _ _ H1 H2) as [->|(id & -> & A & B & C)]; [auto|].
      right. exists id. split; [reflexivity|]. split; [assumption|]. split; [lia|]. rewrite D2 by assumption. exact C.
    + destruct (N2 _ _ H2 H3) as [->|(id & -> & A & B & C)]; [auto|]. right. exists id. split; [reflexivity|]. split; [lia|]. auto.
  - intros id H. rewrite D2, D1; auto. lia.
  - lia.
  - congruence.
  - congruence.
Qed.
Lemma grows_ids f f' : grows f f' -> ids_ok f -> ids_ok f'.
Proof.
  intros G H p id E. destruct (at_ f p) as [x|] eqn:E0.
  - pose proof (g_keep _ _ G _ _ E0) as K. rewrite E in K. injection K as <-. apply H in E0. pose proof (g_next _ _ G). lia.
  - destruct (g_new _ _ G _ _ E0 E) as [D|(i & D & _ & L & _)]; [discriminate|]. injection D as <-. exact L.
Qed.
Lemma grows_dirs f f' p : grows f f' -> dirs f p -> dirs f' p.
Proof. intros G. induction 1; constructor; auto. apply (g_keep _ _ G). assumption. Qed.

Lemma at_add f p c x q : at_ (add_node f (p ++ [c]) x) q = if place_eqb q (p ++ [c]) then Some x else at_ f q.
Proof.
  destruct q as [|a q]; cbn [at_ add_node f_tree]; [|reflexivity].
  destruct (place_eqb [] (p ++ [c])) eqn:E; [|reflexivity]. apply place_eqb_iff in E. destruct p; discriminate.
Qed.
Lemma add_dir_grows f p c : at_ f (p ++ [c]) = None -> grows f (add_node f (p ++ [c]) NDir).
Proof.
  intros H. constructor; try reflexivity; try (cbn; lia).
  - intros q x E. rewrite at_add. destruct (place_eqb q (p ++ [c])) eqn:EQ; [|exact E]. apply place_eqb_iff in EQ. congruence.
  - intros q x E1 E2. rewrite at_add in E2. destruct (place_eqb q (p ++ [c])); [left; congruence|congruence].
Qed.
Lemma at_new f p c q : at_ (new_file f (p ++ [c])) q = if place_eqb q (p ++ [c]) then Some (NFile (f_next f)) else at_ f q.
Proof. rewrite <- at_add. destruct q; reflexivity. Qed.
Lemma data_new f p i : f_data (new_file f p) i = if i =? f_next f then [] else f_data f i.
Proof. reflexivity. Qed.
Lemma new_file_grows f p c : at_ f (p ++ [c]) = None -> grows f (new_file f (p ++ [c])).
Proof.
  intros H. constructor; try reflexivity.
  - intros q x E. rewrite at_new. destruct (place_eqb q (p ++ [c])) eqn:EQ; [|exact E]. apply place_eqb_iff in EQ. congruence.
  - intros q x E1 E2. rewrite at_new in E2. destruct (place_eqb q (p ++ [c])); [|congruence].
    injection E2 as <-. right. exists (f_next f). split; [reflexivity|]. split; [lia|]. split; [cbn; lia|]. rewrite data_new, N.eqb_refl. reflexivity.
  - intros id L. rewrite data_new. destruct (N.eqb_spec id (f_next f)); [lia|reflexivity].
  - cbn. lia.
Qed.

Lemma mkdir_grows f p f' r : mkdir f p = (f', r) -> grows f f'.
Proof.
  unfold mkdir. destruct (p_empty p); [intros [= <- _]; apply grows_refl|].
  destruct (p_parts p) as [|c0 ps]; [intros [= <- _]; apply grows_refl|].
  destruct (walk _ _ _ _) as [d|]; [|intros [= <- _]; apply grows_refl]. cbn zeta.
  destruct (beq _ DD); [intros [= <- _]; apply grows_refl|].
  destruct (at_ f d) as [[?| |?]|]; try (intros [= <- _]; apply grows_refl).
  destruct (at_ f (d ++ _)) eqn:EA; [intros [= <- _]; apply grows_refl|].
  destruct (f_perm f _); intros [= <- _]; [apply add_dir_grows; exact EA|apply grows_refl].
Qed.
Lemma create_dir_all_grows k : forall f p f' ok, create_dir_all k f p = (f', ok) -> grows f f'.
Proof.
  induction k as [|k IH]; intros f p f' ok; cbn [create_dir_all].
  - destruct (p_empty p); [intros [= <- _]; apply grows_refl|].
    destruct (mkdir f p) as [f1 [[]|]] eqn:E1; intros [= <- _]; eapply mkdir_grows; exact E1.
  - destruct (p_empty p); [intros [= <- _]; apply grows_refl|].
    destruct (mkdir f p) as [f1 [[]|]] eqn:E1; try (intros [= <- _]; eapply mkdir_grows; exact E1).
    apply mkdir_grows in E1. destruct (parent p) as [q|]; [|intros [= <- _]; exact E1].
    destruct (create_dir_all k f1 q) as [f2 ok2] eqn:E2. apply IH in E2.
    assert (G : grows f f2) by (eapply grows_trans; eassumption).
    destruct ok2; [|intros [= <- _]; exact G].
    destruct (mkdir f2 p) as [f3 r3] eqn:E3. apply mkdir_grows in E3.
    assert (G3 : grows f f3) by (eapply grows_trans; eassumption).
    destruct r3 as [[]|]; intros [= <- _]; exact G3.
Qed.
(** Opening with creation: nothing, or one new file. *)
Lemma open_cases excl f : forall k cur todo f' r, open_create k excl f cur todo = (f', r) ->
  match r with
  | None => f' = f
  | Some (p, id) =>
      (f' = f /\ excl = false /\ at_ f p = Some (NFile id)) \/
      (f' = new_file f p /\ id = f_next f /\ at_ f p = None /\ exists d c, p = d ++ [c])
  end.
Proof.
  apply (walk_ind (fun k cur todo => forall f' r, open_create k excl f cur todo = (f', r) ->
    match r with
    | None => f' = f
    | Some (p, id) =>
      (f' = f /\ excl = false /\ at_ f p = Some (NFile id)) \/
      (f' = new_file f p /\ id = f_next f /\ at_ f p = None /\ exists d c, p = d ++ [c])
    end)).
  intros k cur todo IH1 IH2 f' r E. rewrite open_unfold in E. destruct todo as [|c rest]; [injection E as <- <-; reflexivity|].
  destruct (beq c DD); [eapply (IH1 rest); [cbn; lia|exact E]|].
  destruct (at_ f (cur ++ [c])) as [[id| |t]|] eqn:EA.
  - destruct rest; [|injection E as <- <-; reflexivity]. injection E as <- <-. destruct excl; [reflexivity|].
    destruct (f_perm f _); [|reflexivity]. auto.
  - eapply (IH1 rest); [cbn; lia|exact E].
  - destruct k as [|k]; [injection E as <- <-; reflexivity|]. destruct (excl && _)%bool; [injection E as <- <-; reflexivity|].
    cbn zeta in E. destruct (p_empty _); [injection E as <- <-; reflexivity|]. eapply (IH2 k); [lia|exact E].
  - destruct rest; [|injection E as <- <-; reflexivity]. destruct (f_perm f _); injection E as <- <-; [|reflexivity].
    right. split; [reflexivity|]. split; [reflexivity|]. split; [exact EA|]. eauto.
Qed.
Lemma open_grows k excl f cur todo f' r : open_create k excl f cur todo = (f', r) -> grows f f'.
Proof.
  intros E. apply open_cases in E. destruct r as [[p id]|]; [|subst; apply grows_refl].
  destruct E as [(-> & _)|(-> & _ & EA & d & c & ->)]; [apply grows_refl|apply new_file_grows; exact EA].
Qed.
Lemma open_path_grows excl f p f' r : open_path excl f p = (f', r) -> grows f f'.
Proof. unfold open_path. destruct (p_empty p); [intros [= <- _]; apply grows_refl|apply open_grows]. Qed.
(** Afterwards the path leads to the file that was opened. *)
Lemma open_then_walk excl f : forall k cur todo f' p id, open_create k excl f cur todo = (f', Some (p, id)) ->
  walk k f' cur todo = Some p /\ at_ f' p = Some (NFile id).
Proof.
  apply (walk_ind (fun k cur todo => forall f' p id, open_create k excl f cur todo = (f', Some (p, id)) ->
    walk k f' cur todo = Some p /\ at_ f' p = Some (NFile id))).
  intros k cur todo IH1 IH2 f' p id E. pose proof (open_grows _ _ _ _ _ _ _ E) as G.
  rewrite open_unfold in E. rewrite walk_unfold. destruct todo as [|c rest]; [discriminate|].
  destruct (beq c DD); [apply (IH1 rest); [cbn; lia|exact E]|].
  destruct (at_ f (cur ++ [c])) as [x|] eqn:EA.
  - rewrite (g_keep _ _ G _ _ EA). destruct x as [i| |t].
    + destruct rest; [|discriminate]. injection E as <- E. destruct excl; [discriminate|].
      destruct (f_perm f _); [|discriminate]. injection E as <- <-. auto.
    + apply (IH1 rest); [cbn; lia|exact E].
    + destruct k as [|k]; [discriminate|]. destruct (excl && _)%bool; [discriminate|]. cbn zeta in *.
      destruct (p_empty _); [discriminate|]. apply (IH2 k); [lia|exact E].
  - destruct rest; [|discriminate]. destruct (f_perm f _); [|discriminate]. injection E as <- <- <-.
    rewrite at_new, place_eqb_refl. auto.
Qed.
Lemma open_self k f q id : canon f q -> at_ f q = Some (NFile id) ->
  open_create k false f [] q = (f, if f_perm f q then Some (q, id) else None).
Proof.
  intros [H|(p & c & i & -> & H & NC & EA)] EF; [apply dirs_at in H; congruence|]. rewrite EA in EF. injection EF as ->.
  assert (W : forall r, open_create k false f [] (p ++ r) = open_create k false f p r).
  { clear NC EA. induction H as [|p c' H IH NC EA]; intros r; [reflexivity|].
    rewrite <- app_assoc, IH. cbn [app]. rewrite open_unfold. apply beq_neq in NC. rewrite NC, EA. reflexivity. }
  rewrite W, open_unfold. apply beq_neq in NC. rewrite NC, EA. reflexivity.
Qed.

(** ** Walking in two parts *)
Lemma walk_app f : forall k cur a d b, walk k f cur a = Some d -> at_ f d = Some NDir ->
  exists k', walk k f cur (a ++ b) = walk k' f d b.
Proof.
  apply (walk_ind (fun k cur a => forall d b, walk k f cur a = Some d -> at_ f d = Some NDir -> exists k', walk k f cur (a ++ b) = walk k' f d b)).
  intros k cur a IH1 IH2 d b E ED. rewrite walk_unfold in E. destruct a as [|c rest]; [injection E as <-; exists k; reflexivity|].
  cbn [app]. destruct (beq c DD) eqn:EC.
  { destruct (IH1 rest ltac:(cbn; lia) _ _ b E ED) as [k' H]. exists k'. rewrite walk_unfold, EC. exact H. }
  destruct (at_ f (cur ++ [c])) as [[i| |t]|] eqn:EA; [| | |discriminate].
  - destruct rest; [|discriminate]. injection E as <-. congruence.
  - destruct (IH1 rest ltac:(cbn; lia) _ _ b E ED) as [k' H]. exists k'. rewrite walk_unfold, EC, EA. exact H.
  - destruct k as [|k]; [discriminate|]. cbn zeta in E. destruct (p_empty (parse_path t)) eqn:EE; [discriminate|].
    destruct (IH2 k ltac:(lia) _ _ _ b E ED) as [k' H]. exists k'. rewrite walk_unfold, EC, EA. cbn zeta. rewrite EE, <- app_assoc in *. exact H.
Qed.
Lemma open_app excl f : forall k cur a d b, b <> [] -> walk k f cur a = Some d -> at_ f d = Some NDir ->
  exists k', open_create k excl f cur (a ++ b) = open_create k' excl f d b.
Proof.
  intros k cur a d b NB. revert k cur a d.
  apply (walk_ind (fun k cur a => forall d, walk k f cur a = Some d -> at_ f d = Some NDir -> exists k', open_create k excl f cur (a ++ b) = open_create k' excl f d b)).
  intros k cur a IH1 IH2 d E ED. rewrite walk_unfold in E. destruct a as [|c rest]; [injection E as <-; exists k; reflexivity|].
  cbn [app]. destruct (beq c DD) eqn:EC.
  { destruct (IH1 rest ltac:(cbn; lia) _ _ E ED) as [k' H]. exists k'. rewrite open_unfold, EC. exact H. }
  destruct (at_ f (cur ++ [c])) as [[i| |t]|] eqn:EA; [| | |discriminate].
  - destruct rest; [|discriminate]. injection E as <-. congruence.
  - destruct (IH1 rest ltac:(cbn; lia) _ _ E ED) as [k' H]. exists k'. rewrite open_unfold, EC, EA. exact H.
  - destruct k as [|k]; [discriminate|]. cbn zeta in E. destruct (p_empty (parse_path t)) eqn:EE; [discriminate|].
    destruct (IH2 k ltac:(lia) _ _ _ E ED) as [k' H]. exists k'. rewrite open_unfold, EC, EA. cbn zeta.
    assert (NR : match rest ++ b with [] => true | _ => false end = false) by (destruct rest; [destruct b; [congruence|reflexivity]|reflexivity]).
    rewrite NR, Bool.andb_false_r, EE, <- app_assoc in *. exact H.
Qed.
Lemma walk_prefix f : forall k cur a c b q, dirs f cur -> walk k f cur (a ++ c :: b) = Some q ->
  exists d, walk k f cur a = Some d /\ dirs f d.
Proof.
  intros k cur a c b. revert k cur a.
  apply (walk_ind (fun k cur a => forall q, dirs f cur -> walk k f cur (a ++ c :: b) = Some q -> exists d, walk k f cur a = Some d /\ dirs f d)).
  intros k cur a IH1 IH2 q HD E. destruct a as [|c' rest]; [exists cur; rewrite walk_unfold; auto|].
  cbn [app] in E. rewrite walk_unfold in E. rewrite walk_unfold. destruct (beq c' DD) eqn:EC.
  { eapply (IH1 rest); [cbn; lia|apply dirs_up; exact HD|exact E]. }
  apply beq_neq in EC. destruct (at_ f (cur ++ [c'])) as [[i| |t]|] eqn:EA; [| | |discriminate].
  - destruct rest; discriminate.
  - eapply (IH1 rest); [cbn; lia| |exact E]. constructor; assumption.
  - destruct k as [|k]; [discriminate|]. cbn zeta in *. destruct (p_empty (parse_path t)) eqn:EE; [discriminate|].
    rewrite app_assoc in E. eapply (IH2 k); [lia| |exact E]. destruct (p_root _); [constructor|exact HD].
Qed.
Lemma walk_grows f f' : grows f f' -> forall k cur todo q, walk k f cur todo = Some q -> walk k f' cur todo = Some q.
Proof.
  intros G. apply (walk_ind (fun k cur todo => forall q, walk k f cur todo = Some q -> walk k f' cur todo = Some q)).
  intros k cur todo IH1 IH2 q E. rewrite walk_unfold in *. destruct todo as [|c rest]; [exact E|].
  destruct (beq c DD); [apply (IH1 rest); [cbn; lia|exact E]|].
  destruct (at_ f (cur ++ [c])) as [x|] eqn:EA; [|discriminate]. rewrite (g_keep _ _ G _ _ EA).
  destruct x as [i| |t]; [exact E|apply (IH1 rest); [cbn; lia|exact E]|].
  destruct k as [|k]; [discriminate|]. cbn zeta in *. destruct (p_empty _); [discriminate|]. apply (IH2 k); [lia|exact E].
Qed.
Lemma realpath_grows f f' p q : grows f f' -> realpath f p = Some q -> realpath f' p = Some q.
Proof.
  intros G. unfold realpath, start_of. rewrite (g_cwd _ _ G). destruct (p_empty p); [discriminate|]. apply walk_grows. exact G.
Qed.

(** ** Without links below a directory nothing leads out of it. *)
Lemma walk_below f d k : no_links f d -> forall (todo : list bytes) (r : place) q, ~ In DD todo -> walk k f (d ++ r) todo = Some q -> below d q.
Proof.
  intros NL. induction todo as [|c rest IH]; intros r q ND E; rewrite walk_unfold in E; [injection E as <-; exists r; reflexivity|].
  assert (EC : beq c DD = false) by (apply beq_neq; intros ->; apply ND; left; reflexivity). rewrite EC in E.
  assert (ND' : ~ In DD rest) by (intros H; apply ND; right; exact H).
  destruct (at_ f ((d ++ r) ++ [c])) as [[i| |t]|] eqn:EA; [| | |discriminate].
  - destruct rest; [|discriminate]. injection E as <-. exists (r ++ [c]). rewrite app_assoc. reflexivity.
  - rewrite <- app_assoc in E. eapply IH; eassumption.
  - rewrite <- app_assoc in EA. destruct (NL _ _ EA).
Qed.
Lemma open_below excl f d k : no_links f d -> forall (todo : list bytes) (r : place) f' p id, ~ In DD todo ->
  open_create k excl f (d ++ r) todo = (f', Some (p, id)) -> below d p.
Proof.
  intros NL. induction todo as [|c rest IH]; intros r f' p id ND E; rewrite open_unfold in E; [discriminate|].
  assert (EC : beq c DD = false) by (apply beq_neq; intros ->; apply ND; left; reflexivity). rewrite EC in E.
  assert (ND' : ~ In DD rest) by (intros H; apply ND; right; exact H).
  assert (B : below d ((d ++ r) ++ [c])) by (exists (r ++ [c]); rewrite app_assoc; reflexivity).
  destruct (at_ f ((d ++ r) ++ [c])) as [[i| |t]|] eqn:EA.
  - destruct rest; [|discriminate]. injection E as <- E. destruct excl; [discriminate|]. destruct (f_perm f _); [|discriminate]. injection E as <- <-. exact B.
  - rewrite <- app_assoc in E. eapply IH; eassumption.
  - rewrite <- app_assoc in EA. destruct (NL _ _ EA).
  - destruct rest; [|discriminate]. destruct (f_perm f _); [|discriminate]. injection E as <- <- <-. exact B.
Qed.
Lemma grows_no_links f f' d : grows f f' -> no_links f d -> no_links f' d.
Proof.
  intros G NL r t E. destruct (at_ f (d ++ r)) as [x|] eqn:E0.
  - pose proof (g_keep _ _ G _ _ E0) as K. rewrite E in K. injection K as <-. exact (NL _ _ E0).
  - destruct (g_new _ _ G _ _ E0 E) as [D|(i & D & _)]; discriminate.
Qed.
(** Additions are below [d]. *)
Definition adds_below (d : place) (f f' : fs) : Prop := forall p x, at_ f p = None -> at_ f' p = Some x -> below d p.
Lemma adds_refl d f : adds_below d f f.
Proof. intros p x H1 H2. congruence. Qed.
Lemma adds_trans d f1 f2 f3 : grows f2 f3 -> adds_below d f1 f2 -> adds_below d f2 f3 -> adds_below d f1 f3.
Proof.
  intros G A1 A2 p x H1 H3. destruct (at_ f2 p) as [y|] eqn:H2; [exact (A1 _ _ H1 H2)|exact (A2 _ _ H2 H3)].
Qed.
(** The path [p] is a directory [d] of the file system extended by [ks]. *)
Definition extends (f : fs) (d : place) (p : path) (ks : list bytes) : Prop :=
  p_empty p = false /\ exists pd : list bytes, p_parts p = pd ++ ks /\ walk MAX_LINKS f (start_of f p) pd = Some d.
Lemma extends_grows f f' d p ks : grows f f' -> extends f d p ks -> extends f' d p ks.
Proof.
  intros G (E & pd & EP & EW). split; [exact E|]. exists pd. split; [exact EP|].
  unfold start_of in *. rewrite (g_cwd _ _ G). eapply walk_grows; eassumption.
Qed.
Lemma mkdir_below f d p (ks : list bytes) f' r : dirs f (f_cwd f) -> dirs f d -> no_links f d -> ~ In DD ks -> extends f d p ks ->
  mkdir f p = (f', r) -> adds_below d f f' /\ (ks = [] -> f' = f /\ r = Some false).
Proof.
  intros CW HD NL ND (E & pd & EP & EW) M. unfold mkdir in M. rewrite E, EP in M.
  destruct ks as [|k0 ks0].
  - rewrite app_nil_r in *. assert (G : f' = f /\ r = Some false); [|destruct G as [-> ->]; split; [apply adds_refl|auto]].
    destruct pd as [|x pd0] eqn:EPD; [injection M as <- <-; auto|]. rewrite <- EPD in *.
    assert (NE : pd <> []) by (subst; discriminate).
    pose proof EW as EW0. rewrite (app_removelast_last ([] : bytes) NE) in EW0.
    destruct (walk_prefix f MAX_LINKS _ _ _ _ _ (start_dirs _ p CW) EW0) as (d0 & W0 & D0).
    rewrite W0 in M. cbn zeta in M.
    destruct (beq (last pd []) DD) eqn:EC; [injection M as <- <-; auto|].
    rewrite (dirs_at _ _ D0) in M. destruct (at_ f (d0 ++ _)) eqn:EA; [injection M as <- <-; auto|].
    exfalso. destruct (walk_app _ _ _ _ _ [last pd []] W0 (dirs_at _ _ D0)) as [k' W1]. rewrite W1 in EW0.
    rewrite walk_unfold, EC, EA in EW0. discriminate.
  - split; [|discriminate]. destruct (pd ++ k0 :: ks0) as [|y l] eqn:EL; [destruct pd; discriminate|]. rewrite <- EL in M.
    assert (RL : removelast (pd ++ k0 :: ks0) = pd ++ removelast (k0 :: ks0)) by (apply removelast_app; discriminate).
    assert (LL : last (pd ++ k0 :: ks0) [] = last (k0 :: ks0) []).
    { rewrite (app_removelast_last ([] : bytes) (l := k0 :: ks0)) at 1 by discriminate. rewrite app_assoc, last_last. reflexivity. }
    rewrite RL, LL in M.
    destruct (walk_app _ _ _ _ _ (removelast (k0 :: ks0)) EW (dirs_at _ _ HD)) as [k' W1]. rewrite W1 in M.
    destruct (walk k' f d _) as [d1|] eqn:W2; [|injection M as <- <-; apply adds_refl].
    assert (B1 : below d d1).
    { eapply (walk_below f d k' NL (removelast (k0 :: ks0)) [] d1); [|rewrite app_nil_r; exact W2].
      intros H. apply ND. rewrite (app_removelast_last ([] : bytes) (l := k0 :: ks0)) by discriminate. apply in_or_app. auto. }
    cbn zeta in M. destruct (beq _ DD); [injection M as <- <-; apply adds_refl|].
    destruct (at_ f d1) as [[?| |?]|]; try (injection M as <- <-; apply adds_refl).
    destruct (at_ f (d1 ++ _)) eqn:EA; [injection M as <- <-; apply adds_refl|].
    destruct (f_perm f _); injection M as <- <-; [|apply adds_refl].
    intros q x H1 H2. rewrite at_add in H2. destruct (place_eqb q _) eqn:EQ; [|congruence].
    apply place_eqb_iff in EQ. subst q. destruct B1 as [r1 ->]. eexists (r1 ++ _). rewrite app_assoc. reflexivity.
Qed.
Lemma create_below : forall k f d p (ks : list bytes) f' ok, dirs f (f_cwd f) -> dirs f d -> no_links f d -> ~ In DD ks -> extends f d p ks ->
  create_dir_all k f p = (f', ok) -> adds_below d f f'.
Proof.
  induction k as [|k IH]; intros f d p ks f' ok CW HD NL ND EX; cbn [create_dir_all]; rewrite (proj1 EX).
  - destruct (mkdir f p) as [f1 r1] eqn:E1. destruct (mkdir_below _ _ _ _ _ _ CW HD NL ND EX E1) as [A _].
    destruct r1 as [[]|]; intros [= <- _]; exact A.
  - destruct (mkdir f p) as [f1 r1] eqn:E1. destruct (mkdir_below _ _ _ _ _ _ CW HD NL ND EX E1) as [A B].
    destruct r1 as [[]|]; try (intros [= <- _]; exact A).
    pose proof (mkdir_grows _ _ _ _ E1) as G1.
    destruct (parent p) as [q|] eqn:EQ; [|intros [= <- _]; exact A].
    destruct (create_dir_all k f1 q) as [f2 ok2] eqn:E2.
    assert (KS : ks <> []) by (intros ->; destruct (B eq_refl); discriminate).
    assert (EXQ : p_empty q = false -> extends f1 d q (removelast ks)).
    { intros NEQ. split; [exact NEQ|]. destruct EX as (NE & pd & EP & EW). exists pd. unfold parent in EQ. rewrite EP in EQ.
      destruct (pd ++ ks) as [|y l] eqn:EL; [apply app_eq_nil in EL as [_ EL]; congruence|]. rewrite <- EL in EQ. injection EQ as <-. cbn [p_parts].
      split; [apply removelast_app; exact KS|]. unfold start_of in *. cbn [p_root]. rewrite (g_cwd _ _ G1). eapply walk_grows; eassumption. }
    assert (A2 : adds_below d f1 f2).
    { destruct (p_empty q) eqn:EQE.
      - destruct k; cbn [create_dir_all] in E2; rewrite EQE in E2; injection E2 as <- _; apply adds_refl.
      - eapply (IH f1 d q (removelast ks)); [| | | |apply EXQ; reflexivity|exact E2].
        + rewrite (g_cwd _ _ G1). eapply grows_dirs; eassumption.
        + eapply grows_dirs; eassumption.
        + eapply grows_no_links; eassumption.
        + intros H. apply ND. rewrite (app_removelast_last ([] : bytes) KS). apply in_or_app. auto. }
    pose proof (create_dir_all_grows _ _ _ _ _ E2) as G2.
    assert (A12 : adds_below d f f2) by (eapply adds_trans; eassumption).
    destruct ok2; [|intros [= <- _]; exact A12].
    destruct (mkdir f2 p) as [f3 r3] eqn:E3. pose proof (mkdir_grows _ _ _ _ E3) as G3.
    assert (G12 : grows f f2) by (eapply grows_trans; eassumption).
    assert (A3 : adds_below d f2 f3).
    { eapply (mkdir_below f2 d p ks); [| | |exact ND|eapply extends_grows; eassumption|exact E3].
      - rewrite (g_cwd _ _ G12). eapply grows_dirs; eassumption.
      - eapply grows_dirs; eassumption.
      - eapply grows_no_links; eassumption. }
    assert (A13 : adds_below d f f3) by (eapply adds_trans; eassumption).
    destruct r3 as [[]|]; intros [= <- _]; exact A13.
Qed.
(** ** Same tree *)
Lemma walk_ext f f' : (forall p, at_ f' p = at_ f p) -> forall k cur todo, walk k f' cur todo = walk k f cur todo.
Proof.
  intros H. apply (walk_ind (fun k cur todo => walk k f' cur todo = walk k f cur todo)).
  intros k cur todo IH1 IH2. rewrite (walk_unfold k f), (walk_unfold k f'). destruct todo as [|c rest]; [reflexivity|].
  rewrite H, !IH1 by (cbn; lia). destruct (beq c DD); [reflexivity|]. destruct (at_ f (cur ++ [c])) as [[i| |t]|]; try reflexivity.
  destruct k as [|k]; [reflexivity|]. cbn zeta. rewrite IH2 by lia. reflexivity.
Qed.
Lemma dirs_ext f f' p : (forall p, at_ f' p = at_ f p) -> dirs f p -> dirs f' p.
Proof. intros H. induction 1; constructor; auto. rewrite H. assumption. Qed.
Lemma at_set f id x p : at_ (set_data f id x) p = at_ f p.
Proof. destruct p; reflexivity. Qed.
Lemma dirs_app f (a b : place) : dirs f (a ++ b) -> dirs f a.
Proof.
  induction b as [|x b IH] using rev_ind; intros H; [rewrite app_nil_r in H; exact H|].
  apply IH. rewrite app_assoc in H. inversion H as [E|p c HD NC EA E]; [destruct a, b; discriminate|].
  apply snoc_inv in E as [-> _]. exact HD.
Qed.
Lemma canon_real f q : canon f q -> real_place f q.
Proof.
  intros [H|(p & c & id & -> & H & _)]; unfold real_place; [apply dirs_up; exact H|rewrite removelast_last; exact H].
Qed.
(** Walking along real directories. *)
Lemma walk_along f k (r : place) : forall cur : place, ~ In DD r -> dirs f (cur ++ r) -> walk k f cur r = Some (cur ++ r).
Proof.
  induction r as [|c r IH]; intros cur ND H; rewrite walk_unfold; [rewrite app_nil_r; reflexivity|].
  assert (EC : beq c DD = false) by (apply beq_neq; intros ->; apply ND; left; reflexivity). rewrite EC.
  assert (E : cur ++ c :: r = (cur ++ [c]) ++ r) by (rewrite <- app_assoc; reflexivity). rewrite E in *.
  pose proof (dirs_app _ _ _ H) as HC. rewrite (dirs_at _ _ HC). apply IH; [intros K; apply ND; right; exact K|exact H].
Qed.
Lemma walk_file f k (r : place) (c : bytes) id (cur : place) : ~ In DD (r ++ [c]) -> dirs f (cur ++ r) -> at_ f (cur ++ r ++ [c]) = Some (NFile id) ->
  walk k f cur (r ++ [c]) = Some (cur ++ r ++ [c]).
Proof.
  revert cur. induction r as [|c' r IH]; intros cur ND H E; rewrite walk_unfold.
  - cbn [app] in *. assert (EC : beq c DD = false) by (apply beq_neq; intros ->; apply ND; left; reflexivity).
    rewrite EC, E. reflexivity.
  - cbn [app]. assert (EC : beq c' DD = false) by (apply beq_neq; intros ->; apply ND; left; reflexivity). rewrite EC.
    assert (EE : forall x, cur ++ c' :: x = (cur ++ [c']) ++ x) by (intros; rewrite <- app_assoc; reflexivity). cbn [app] in E. rewrite (EE r) in H. rewrite (EE (r ++ [c])) in E |- *.
    pose proof (dirs_app _ _ _ H) as HC. rewrite (dirs_at _ _ HC). apply IH; [intros K; apply ND; right; exact K|exact H|exact E].
Qed.
Lemma open_along excl f k (r : place) (c : bytes) : forall cur : place, ~ In DD (r ++ [c]) -> dirs f (cur ++ r) ->
  open_create k excl f cur (r ++ [c]) = open_create k excl f (cur ++ r) [c].
Proof.
  induction r as [|c' r IH]; intros cur ND H.
  - cbn [app]. rewrite app_nil_r. reflexivity.
  - cbn [app]. rewrite open_unfold. assert (EC : beq c' DD = false) by (apply beq_neq; intros ->; apply ND; left; reflexivity). rewrite EC.
    assert (EE : forall x, cur ++ c' :: x = (cur ++ [c']) ++ x) by (intros; rewrite <- app_assoc; reflexivity). rewrite (EE r) in H |- *.
    pose proof (dirs_app _ _ _ H) as HC. rewrite (dirs_at _ _ HC). apply IH; [intros K; apply ND; right; exact K|exact H].
Qed.
(** Without links nothing but the names themselves is on the way. *)
Lemma walk_exact f d k : no_links f d -> forall (todo : list bytes) (r : place) q, ~ In DD todo ->
  walk k f (d ++ r) todo = Some q -> q = d ++ r ++ todo.
Proof.
  intros NL. induction todo as [|c rest IH]; intros r q ND E; rewrite walk_unfold in E; [injection E as <-; rewrite app_nil_r; reflexivity|].
  assert (EC : beq c DD = false) by (apply beq_neq; intros ->; apply ND; left; reflexivity). rewrite EC in E.
  assert (ND' : ~ In DD rest) by (intros H; apply ND; right; exact H).
  destruct (at_ f ((d ++ r) ++ [c])) as [[i| |t]|] eqn:EA; [| | |discriminate].
  - destruct rest; [|discriminate]. injection E as <-. rewrite <- app_assoc. reflexivity.
  - rewrite <- app_assoc in E. apply IH in E; [|assumption]. rewrite E, <- !app_assoc. reflexivity.
  - rewrite <- app_assoc in EA. destruct (NL _ _ EA).
Qed.

(** ** Clean names *)
Lemma clean_pieces name (cs : list bytes) : clean_path name cs ->
  parse_path name = mkP false false cs /\ ~ In DD cs /\ cs <> [] /\ (forall c, In c cs -> plain_piece c = true).
Proof.
  intros [HC HD]. pose proof (components_unique _ _ HC) as U. destruct HC as (NE & EN & NS).
  assert (PL : forall c, In c cs -> plain_piece c = true).
  { intros c I. unfold plain_piece. apply HD in I. destruct (beq c []) eqn:E1.
    - apply beq_eq in E1. subst c. destruct (I dotty_nil).
    - destruct (beq c [DOT]) eqn:E2; [|reflexivity]. apply beq_eq in E2. subst c. destruct I. exists [], [DOT], []. 
      split; [reflexivity|]. split; [apply blank_nil|]. split; [apply blank_nil|]. auto. }
  assert (ND : ~ In DD cs).
  { intros I. apply (HD _ I). exists [], DD, []. split; [reflexivity|]. split; [apply blank_nil|]. split; [apply blank_nil|]. auto. }
  split; [|auto]. unfold parse_path. cbn zeta. rewrite <- U.
  assert (FL : filter plain_piece cs = cs).
  { clear - PL. induction cs as [|c cs IH]; [reflexivity|]. cbn [filter]. rewrite PL by (left; reflexivity). f_equal. apply IH.
    intros x I. apply PL. right. exact I. }
  destruct cs as [|c cs']; [congruence|]. pose proof (PL c (or_introl eq_refl)) as P0. f_equal; [| |exact FL].
  - rewrite EN. cbn [PathSpec.path]. destruct c as [|a c]; [discriminate|]. cbn [app has_root]. apply N.eqb_neq.
    intros ->. apply (NS _ (or_introl eq_refl)). left. reflexivity.
  - unfold plain_piece in P0. destruct (beq c [DOT]); [|reflexivity]. rewrite Bool.orb_true_r in P0. discriminate.
Qed.
Lemma clean_depth name cs : clean_path name cs -> forall d, validate_path name d = true <-> separators name <= d.
Proof. intros H d. apply (depth_limit name). apply normalize_clean. exists cs. exact H. Qed.
