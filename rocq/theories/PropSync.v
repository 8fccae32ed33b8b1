(** C65 directory synchronisation: which files are sent, under which names, and when a file that was
    just created counts as complete. *)
From Verif Require Import Base BaseProofs PacketModel PathModel PathSpec PathProofs PropPath PropKeyFile SyncModel.

(** A name in a directory: not empty, no dots alone, no slash.  The text of an absolute path made of
    names is what canonicalize and the watcher produce. *)
Definition name_ok (c : bytes) : Prop := c <> [] /\ c <> s2b "." /\ c <> s2b ".." /\ ~ In 47 c.
Definition absolute (cs : list bytes) : bytes := s2b "/" ++ path cs.

Lemma beq_spec a b : reflect (a = b) (beq a b).
Proof. destruct (beq a b) eqn:E; constructor; [now apply beq_eq|now apply beq_neq]. Qed.
Lemma idle_name c : name_ok c -> idle c = false.
Proof.
  intros (A & B & _). unfold idle. destruct (beq_spec c []) as [E|_]; [contradiction|].
  destruct (beq_spec c [DOT]) as [E|_]; [contradiction|reflexivity].
Qed.
Lemma idle_nil : idle [] = true. Proof. reflexivity. Qed.
Lemma joined_path l : joined l = path l.
Proof.
  induction l as [|c l IH]; [reflexivity|]. destruct l as [|d l]; [cbn; now rewrite app_nil_r|].
  rewrite path_cons by discriminate. rewrite <- IH. reflexivity.
Qed.
Lemma split_names cs : Forall name_ok cs -> cs <> [] -> split_slash (path cs) = cs.
Proof. intros H NE. apply split_path; [exact NE|]. rewrite Forall_forall in H. intros c I. now apply H. Qed.
Lemma filter_names cs : Forall name_ok cs -> filter (fun c => negb (idle c)) (split_slash (path cs)) = cs.
Proof.
  intros H. destruct cs as [|c cs]; [reflexivity|]. rewrite split_names by (auto; discriminate).
  induction H as [|d l D H IH]; [reflexivity|]. cbn [filter]. rewrite idle_name by exact D. cbn [negb]. now rewrite IH.
Qed.
Lemma take_off_names : forall ds ps, Forall name_ok ds -> Forall name_ok ps ->
  forall r, take_off ds ps = Some r <-> ps = ds ++ r.
Proof.
  induction ds as [|d ds IH]; intros ps HD HP r; cbn [take_off app].
  - split; [intros [= <-]; reflexivity|now intros ->].
  - inversion_clear HD as [|? ? D1 D2]. destruct ps as [|p ps]; [split; discriminate|].
    inversion_clear HP as [|? ? P1 P2]. cbn [drop_idle]. rewrite (idle_name p P1).
    destruct (beq_spec p d) as [->|NE].
    + rewrite IH by assumption. split; [intros ->; reflexivity|intros [= ->]; reflexivity].
    + split; [discriminate|]. intros E. injection E as E1 E2. contradiction.
Qed.
Lemma drop_idle_names l : Forall name_ok l -> drop_idle l = l.
Proof. intros [|c cs H _]; [reflexivity|]. cbn [drop_idle]. now rewrite idle_name. Qed.

Lemma strip_names ds ps : Forall name_ok ds -> Forall name_ok ps -> forall r,
  strip_prefix (absolute ps) (absolute ds) = Some r <-> exists rs, ps = ds ++ rs /\ r = path rs.
Proof.
  intros HD HP r. unfold strip_prefix, absolute. cbn [s2b app].
  change (s2b "/" ++ path ps) with (47 :: path ps). change (s2b "/" ++ path ds) with (47 :: path ds). cbv match.
  change ((47 =? SLASH) && (47 =? SLASH)) with true. cbv match. rewrite filter_names by exact HD.
  destruct ps as [|p ps].
  - cbn [path split_slash]. destruct ds as [|d ds].
    + cbn [take_off drop_idle idle beq orb rev]. split.
      * intros [= <-]. exists []. auto.
      * intros (rs & E & ->). symmetry in E. apply app_eq_nil in E as [_ ->]. reflexivity.
    + cbn [take_off drop_idle idle beq orb]. split; [discriminate|]. intros (rs & E & _). discriminate.
  - rewrite split_names by (auto; discriminate). split.
    + destruct (take_off ds (p :: ps)) as [rest|] eqn:T; [|discriminate]. intros [= <-].
      apply take_off_names in T; [|assumption|assumption]. exists rest. split; [exact T|].
      assert (HR : Forall name_ok rest) by (rewrite T in HP; now apply Forall_app in HP).
      rewrite (drop_idle_names rest) by exact HR. rewrite drop_idle_names by (now apply Forall_rev). rewrite rev_involutive. apply joined_path.
    + intros (rs & E & ->). assert (HR : Forall name_ok rs) by (rewrite E in HP; now apply Forall_app in HP).
      rewrite (proj2 (take_off_names ds (p :: ps) HD HP rs) E). rewrite (drop_idle_names rs) by exact HR.
      rewrite drop_idle_names by (now apply Forall_rev). rewrite rev_involutive. now rewrite joined_path.
Qed.

(** [lossy] leaves valid text alone. *)
Definition lossy_ok (lossy : bytes -> bytes) : Prop := forall s, utf8 s = true -> lossy s = s.

(** The event is of the kind [k], about the file at [ps]. *)
Definition about (k : skind) (ps : list bytes) (e : sevent) : Prop :=
  Forall name_ok ps /\ exists more, e = SEvent k (absolute ps :: more).
(** All events of a watcher: every path in them is absolute and made of names that are valid text. *)
Definition reported (e : sevent) : Prop :=
  forall k p more, e = SEvent k (p :: more) -> exists ps, p = absolute ps /\ Forall name_ok ps /\ Forall (fun c => utf8 c = true) ps.

(** The files of which events of the kind [k] tell, in order: their local name and their name below
    the directory. *)
Inductive announced (k : skind) (ds : list bytes) : list sevent -> list (bytes * bytes) -> Prop :=
| an_nil : announced k ds [] []
| an_file rs e evs l : about k (ds ++ rs) e -> announced k ds evs l ->
    announced k ds (e :: evs) ((absolute (ds ++ rs), path rs) :: l)
| an_other e evs l : (forall rs, ~ about k (ds ++ rs) e) -> announced k ds evs l -> announced k ds (e :: evs) l.

Lemma path_nil_iff ps : Forall name_ok ps -> path ps = [] -> ps = [].
Proof.
  intros H E. destruct ps as [|c cs]; [reflexivity|]. exfalso. inversion_clear H as [|? ? C _]. destruct C as (C & _).
  cbn [path] in E. apply app_eq_nil in E as [E _]. contradiction.
Qed.
Lemma path_inj a b : Forall name_ok a -> Forall name_ok b -> path a = path b -> a = b.
Proof.
  intros HA HB E. destruct a as [|x a].
  - symmetry. apply path_nil_iff; [exact HB|]. now rewrite <- E.
  - destruct b as [|y b]; [now apply path_nil_iff in E|].
    rewrite <- (split_names (x :: a)), <- (split_names (y :: b)) by (auto; discriminate). now rewrite E.
Qed.
Lemma absolute_inj a b : Forall name_ok a -> Forall name_ok b -> absolute a = absolute b -> a = b.
Proof. intros HA HB E. apply path_inj; auto. unfold absolute in E. now apply app_inv_head in E. Qed.
Lemma utf8_path cs : Forall (fun c => utf8 c = true) cs -> utf8 (path cs) = true.
Proof.
  induction 1 as [|c cs C H IH]; [reflexivity|]. destruct cs as [|d cs].
  - cbn. now rewrite app_nil_r.
  - rewrite path_cons by discriminate. rewrite utf8_app by exact C. exact IH.
Qed.

Section Run.
Variable lossy : bytes -> bytes.
Hypothesis HL : lossy_ok lossy.
Variable ds : list bytes.
Hypothesis HD : Forall name_ok ds.

Lemma paths_about k e : reported e ->
  match e with
  | SEvent k' paths => match get_paths lossy (absolute ds) paths with
      | Some (l, r) => exists rs, about k' (ds ++ rs) e /\ l = absolute (ds ++ rs) /\ r = path rs
      | None => forall rs, ~ about k (ds ++ rs) e
      end
  | SError => forall rs, ~ about k (ds ++ rs) e
  end.
Proof.
  intros R. destruct e as [|k' paths]; [intros rs (_ & more & E); discriminate|].
  destruct paths as [|p more]; [intros rs (_ & more & E); discriminate|]. cbn [get_paths].
  destruct (R k' p more eq_refl) as (ps & -> & NO & UT).
  destruct (strip_prefix (absolute ps) (absolute ds)) as [r|] eqn:S.
  - apply (strip_names ds ps HD NO) in S. destruct S as (rs & -> & ->). exists rs.
    apply Forall_app in UT as UT'. destruct UT' as [_ UR]. split; [|split].
    + split; [exact NO|]. now exists more.
    + apply HL. change (utf8 (path (ds ++ rs)) = true). now apply utf8_path.
    + apply HL. now apply utf8_path.
  - intros rs (NO' & more' & E). injection E as -> E _.
    apply path_inj in E; [|assumption|assumption]. subst ps.
    assert (C : strip_prefix (absolute (ds ++ rs)) (absolute ds) = Some (path rs)) by (apply strip_names; eauto). congruence.
Qed.
Lemma about_other k k' ps e paths : e = SEvent k' paths -> k <> k' -> ~ about k ps e.
Proof. intros -> NE (_ & more & E). injection E as E _. congruence. Qed.
Lemma about_same k ps qs e : about k ps e -> about k qs e -> ps = qs.
Proof. intros (A & m & ->) (B & m' & E). injection E as E _. now apply path_inj. Qed.

Definition names (st : sync) : list (bytes * bytes) := map (fun u => (up_local u, up_remote u)) (sy_uploads st).

Lemma step_uploads (oc : bool) (st : sync) (e : sevent) : reported e ->
  let k := if oc then KCreateFile else KCloseWrite in
  (exists rs, about k (ds ++ rs) e /\ names (sync_step lossy (absolute ds) oc st e) = names st ++ [(absolute (ds ++ rs), path rs)]) \/
  ((forall rs, ~ about k (ds ++ rs) e) /\ sy_uploads (sync_step lossy (absolute ds) oc st e) = sy_uploads st).
Proof.
  intros R k. pose proof (paths_about k e R) as P. destruct e as [|k' paths]; [right; split; [exact P|reflexivity]|].
  unfold sync_step.
  assert (NO : forall k0, k' = k0 -> k <> k0 -> forall rs, ~ about k (ds ++ rs) (SEvent k' paths)).
  { intros k0 -> NE rs. eapply about_other; eauto. }
  destruct (get_paths lossy (absolute ds) paths) as [[l r]|] eqn:G.
  - destruct P as (rs & A & -> & ->).
    destruct k' eqn:K, oc; unfold k in *; cbv match.
    + left. exists rs. split; [exact A|]. unfold names. cbn [sy_uploads]. now rewrite map_app.
    + right. split; [apply (NO KCreateFile); congruence|reflexivity].
    + right. split; [apply (NO KCloseWrite); congruence|]. now destruct (pending_get _ _).
    + left. exists rs. split; [exact A|]. unfold names. cbn [sy_uploads]. now rewrite map_app.
    + right. split; [apply (NO KOther); congruence|reflexivity].
    + right. split; [apply (NO KOther); congruence|reflexivity].
  - right. split; [exact P|]. destruct k', oc; reflexivity.
Qed.

Lemma run_uploads (oc : bool) (evs : list sevent) : Forall reported evs -> forall st, exists l,
  announced (if oc then KCreateFile else KCloseWrite) ds evs l /\
  names (fold_left (sync_step lossy (absolute ds) oc) evs st) = names st ++ l.
Proof.
  induction 1 as [|e evs R F IH]; intros st.
  - exists []. split; [constructor|]. now rewrite app_nil_r.
  - cbn [fold_left]. destruct (IH (sync_step lossy (absolute ds) oc st e)) as (l & A & E). rewrite E.
    destruct (step_uploads oc st e R) as [(rs & AB & U)|(NA & U)].
    + exists ((absolute (ds ++ rs), path rs) :: l). split; [now constructor|]. rewrite U, <- app_assoc. reflexivity.
    + exists l. split; [now constructor|]. unfold names in *. now rewrite U.
Qed.

(** Flags. *)
Lemma raise_length l n : length (raise_flag l n) = length l.
Proof. revert n. induction l as [|b l IH]; intros [|n]; cbn; auto. Qed.
Lemma raise_nth l n m : nth m (raise_flag l n) false = if (m =? n)%nat && (n <? length l)%nat then true else nth m l false.
Proof.
  revert n m. induction l as [|b l IH]; intros n m; cbn [raise_flag length].
  - destruct ((m =? n)%nat); reflexivity.
  - destruct n as [|n], m as [|m]; cbn [nth raise_flag]; try reflexivity. rewrite IH.
    change (S m =? S n)%nat with (m =? n)%nat. change (S n <? S (length l))%nat with (n <? length l)%nat. reflexivity.
Qed.
Lemma get_remove m k k' : pending_get (pending_remove m k) k' = if beq k k' then None else pending_get m k'.
Proof.
  induction m as [|[a v] m IH]; cbn [pending_remove pending_get]; [now destruct (beq k k')|].
  destruct (beq_spec a k) as [->|NE].
  - rewrite IH. destruct (beq_spec k k') as [->|N2]; [reflexivity|reflexivity].
  - cbn [pending_get]. rewrite IH. destruct (beq_spec a k') as [->|N2]; [|reflexivity].
    destruct (beq_spec k k') as [->|N3]; [contradiction|reflexivity].
Qed.
Lemma get_insert m k v k' : pending_get (pending_insert m k v) k' = if beq k k' then Some v else pending_get m k'.
Proof. unfold pending_insert. cbn [pending_get]. rewrite get_remove. now destruct (beq k k'). Qed.

(** Every flag belongs to the upload of the same number and is awaited under at most that name. *)
Definition sinv (st : sync) : Prop :=
  length (sy_flags st) = length (sy_uploads st) /\
  (forall n u, nth_error (sy_uploads st) n = Some u -> up_flag u = Some n) /\
  (forall k n, pending_get (sy_pending st) k = Some n ->
     (exists u, nth_error (sy_uploads st) n = Some u /\ up_local u = k) /\ nth n (sy_flags st) false = false).
Lemma sinv_step st e : sinv st -> sinv (sync_step lossy (absolute ds) true st e).
Proof.
  intros (L & F & P). unfold sync_step. destruct e as [|[| |] paths]; try (split; [|split]; assumption).
  - destruct (get_paths _ _ _) as [[l r]|]; [|split; [|split]; assumption]. unfold sinv. cbn [sy_uploads sy_flags sy_pending].
    split; [rewrite !app_length; cbn [length]; lia|]. split.
    + intros n u E. destruct (Nat.ltb_spec n (length (sy_uploads st))) as [Q|Q].
      * rewrite nth_error_app1 in E by exact Q. now apply F.
      * rewrite nth_error_app2 in E by exact Q. destruct (n - length (sy_uploads st))%nat as [|[|d]] eqn:D; try discriminate.
        injection E as <-. cbn [up_flag]. f_equal. lia.
    + intros k n. rewrite get_insert. destruct (beq_spec l k) as [->|NE].
      * intros [= <-]. split.
        { eexists. split; [rewrite nth_error_app2 by lia; rewrite L, Nat.sub_diag; reflexivity|reflexivity]. }
        rewrite app_nth2, Nat.sub_diag by lia. reflexivity.
      * intros G. destruct (P k n G) as ((u & NU & UL) & FL).
        assert (n < length (sy_uploads st))%nat by (apply nth_error_Some; congruence). split.
        { exists u. rewrite nth_error_app1 by assumption. auto. }
        rewrite app_nth1 by lia. exact FL.
  - destruct (get_paths _ _ _) as [[l r]|]; [|split; [|split]; assumption].
    destruct (pending_get (sy_pending st) l) as [n0|] eqn:G; [|split; [|split]; assumption].
    unfold sinv. cbn [sy_uploads sy_flags sy_pending]. split; [rewrite raise_length; exact L|]. split; [exact F|].
    intros k n. rewrite get_remove. destruct (beq_spec l k) as [->|NE]; [discriminate|]. intros GK.
    destruct (P k n GK) as ((u & NU & UL) & FL). split; [eauto|]. rewrite raise_nth.
    destruct (P l n0 G) as ((u0 & NU0 & UL0) & _).
    destruct (Nat.eqb_spec n n0) as [->|NN]; [|exact FL]. exfalso. congruence.
Qed.
Lemma sinv_run evs : forall st, sinv st -> sinv (fold_left (sync_step lossy (absolute ds) true) evs st).
Proof. induction evs as [|e evs IH]; intros st H; [exact H|]. cbn [fold_left]. apply IH. now apply sinv_step. Qed.
Lemma sinv_new : sinv sync_new.
Proof. split; [reflexivity|]. split; [intros [|n] u E; discriminate|intros k n E; discriminate]. Qed.

(** The uploads known stay what they are. *)
Lemma step_keeps st e n u : nth_error (sy_uploads st) n = Some u ->
  nth_error (sy_uploads (sync_step lossy (absolute ds) true st e)) n = Some u.
Proof.
  intros H. assert (n < length (sy_uploads st))%nat by (apply nth_error_Some; congruence).
  unfold sync_step. destruct e as [|[| |] paths]; try exact H; destruct (get_paths _ _ _) as [[l r]|]; try exact H.
  - cbn [sy_uploads]. now rewrite nth_error_app1.
  - destruct (pending_get _ _); exact H.
Qed.
Lemma run_keeps evs : forall st n u, nth_error (sy_uploads st) n = Some u ->
  nth_error (sy_uploads (fold_left (sync_step lossy (absolute ds) true) evs st)) n = Some u.
Proof. induction evs as [|e evs IH]; intros st n u H; [exact H|]. cbn [fold_left]. apply IH. now apply step_keeps. Qed.

(** A flag nobody awaits keeps its value. *)
Lemma run_detached evs : forall st n b, sinv st -> (n < length (sy_flags st))%nat -> nth n (sy_flags st) false = b ->
  (forall k, pending_get (sy_pending st) k <> Some n) ->
  nth n (sy_flags (fold_left (sync_step lossy (absolute ds) true) evs st)) false = b.
Proof.
  induction evs as [|e evs IH]; intros st n b I LN FB DT; [exact FB|]. cbn [fold_left].
  assert (G : (n < length (sy_flags (sync_step lossy (absolute ds) true st e)))%nat /\
    nth n (sy_flags (sync_step lossy (absolute ds) true st e)) false = b /\
    (forall k, pending_get (sy_pending (sync_step lossy (absolute ds) true st e)) k <> Some n)).
  { unfold sync_step. destruct e as [|[| |] paths]; try (split; [|split]; assumption);
      destruct (get_paths _ _ _) as [[l r]|]; try (split; [|split]; assumption).
    - cbn [sy_flags sy_pending]. rewrite app_length, app_nth1 by exact LN. split; [lia|]. split; [exact FB|].
      intros k. rewrite get_insert. destruct (beq l k); [intros [= E]; lia|apply DT].
    - destruct (pending_get (sy_pending st) l) as [n0|] eqn:G; [|split; [|split]; assumption]. cbn [sy_flags sy_pending].
      rewrite raise_length, raise_nth. split; [exact LN|]. split.
      + destruct (Nat.eqb_spec n n0) as [->|NN]; [now destruct (DT l)|exact FB].
      + intros k. rewrite get_remove. destruct (beq l k); [discriminate|apply DT]. }
  destruct G as (G1 & G2 & G3). apply IH; auto. now apply sinv_step.
Qed.

Definition closed_next (ps : list bytes) (evs : list sevent) : Prop :=
  exists a1 e a2, evs = a1 ++ e :: a2 /\ about KCloseWrite ps e /\ forall x, In x a1 -> ~ about KCreateFile ps x.
Lemma closed_cons ps e evs : ~ about KCloseWrite ps e -> ~ about KCreateFile ps e -> (closed_next ps (e :: evs) <-> closed_next ps evs).
Proof.
  intros N1 N2. split.
  - intros (a1 & x & a2 & E & A & N). destruct a1 as [|y a1]; injection E as -> ->; [contradiction|].
    exists a1, x, a2. split; [reflexivity|]. split; [exact A|]. intros z I. apply N. now right.
  - intros (a1 & x & a2 & -> & A & N). exists (e :: a1), x, a2. split; [reflexivity|]. split; [exact A|].
    intros z [<-|I]; [exact N2|now apply N].
Qed.

Lemma run_pending rs evs : Forall reported evs -> Forall name_ok (ds ++ rs) -> forall st n, sinv st ->
  pending_get (sy_pending st) (absolute (ds ++ rs)) = Some n ->
  nth n (sy_flags (fold_left (sync_step lossy (absolute ds) true) evs st)) false = true <-> closed_next (ds ++ rs) evs.
Proof.
  intros R NO. induction R as [|e evs R F IH]; intros st n I PN.
  - cbn [fold_left]. destruct I as (_ & _ & P). destruct (P _ _ PN) as [_ FL]. rewrite FL. split; [discriminate|].
    intros (a1 & x & a2 & E & _). destruct a1; discriminate.
  - cbn [fold_left]. pose proof I as I0. destruct I as (L & UF & P). destruct (P _ _ PN) as ((u & NU & UL) & FL).
    assert (LN : (n < length (sy_flags st))%nat) by (rewrite L; apply nth_error_Some; congruence).
    pose proof (sinv_step st e I0) as I1. pose proof (paths_about KCreateFile e R) as PC. pose proof (paths_about KCloseWrite e R) as PW.
    destruct e as [|k' paths].
    { rewrite closed_cons by auto. now apply IH. }
    remember (sync_step lossy (absolute ds) true st (SEvent k' paths)) as s1 eqn:ES. destruct k'; unfold sync_step in ES.
    + (* created *)
      assert (NW : ~ about KCloseWrite (ds ++ rs) (SEvent KCreateFile paths)) by (eapply about_other; [reflexivity|discriminate]).
      destruct (get_paths _ _ _) as [[l r]|] eqn:G in ES, PC, PW; cbv match in PC, PW, ES.
      * subst s1. destruct PC as (rs' & A & EL & ER). destruct (beq_spec l (absolute (ds ++ rs))) as [E|NE].
        { (* the same name: the flag is forgotten *)
          assert (ERS : ds ++ rs' = ds ++ rs) by (apply absolute_inj; [apply A|exact NO|congruence]).
          rewrite ERS in A. split.
          - intros FT. exfalso. rewrite (run_detached evs _ n false I1) in FT; [discriminate| | |].
            + cbn [sy_flags]. rewrite app_length. lia.
            + cbn [sy_flags]. rewrite app_nth1 by exact LN. exact FL.
            + cbn [sy_pending]. intros k. rewrite get_insert. destruct (beq_spec l k) as [EK|NK]; [intros [= Q]; lia|].
              intros GK. destruct (P _ _ GK) as ((u' & NU' & UL') & _). congruence.
          - intros (a1 & x & a2 & EX & AX & NX). exfalso. destruct a1 as [|y a1].
            + injection EX as <- _. contradiction.
            + injection EX as <- _. apply (NX _ (or_introl eq_refl)). exact A. }
        rewrite closed_cons; [apply IH; [exact I1|] |exact NW|].
        { cbn [sy_pending]. rewrite get_insert. destruct (beq_spec l (absolute (ds ++ rs))); [contradiction|exact PN]. }
        intros A2. apply NE. rewrite EL. f_equal. eapply about_same; eauto.
      * subst s1. rewrite closed_cons; [now apply IH|exact NW|apply PC].
    + (* closed *)
      assert (NC : ~ about KCreateFile (ds ++ rs) (SEvent KCloseWrite paths)) by (eapply about_other; [reflexivity|discriminate]).
      destruct (get_paths _ _ _) as [[l r]|] eqn:G in ES, PC, PW; cbv match in PC, PW, ES.
      * destruct PW as (rs' & A & EL & ER). destruct (beq_spec l (absolute (ds ++ rs))) as [E|NE].
        { rewrite E in ES. rewrite PN in ES. subst s1. assert (ERS : ds ++ rs' = ds ++ rs) by (apply absolute_inj; [apply A|exact NO|congruence]).
          split.
          - intros _. exists [], (SEvent KCloseWrite paths), evs. split; [reflexivity|]. split; [now rewrite <- ERS|intros x []].
          - intros _. apply (run_detached evs _ n true I1).
            + cbn [sy_flags]. now rewrite raise_length.
            + cbn [sy_flags]. rewrite raise_nth, Nat.eqb_refl. now rewrite (proj2 (Nat.ltb_lt _ _)).
            + cbn [sy_pending]. intros k. rewrite get_remove. destruct (beq_spec (absolute (ds ++ rs)) k) as [EK|NK]; [discriminate|].
              intros GK. destruct (P _ _ GK) as ((u' & NU' & UL') & _). congruence. }
        rewrite closed_cons; [| |exact NC].
        { destruct (pending_get (sy_pending st) l) as [n0|] eqn:GL; subst s1; [|now apply IH]. apply IH; [exact I1|].
          cbn [sy_pending]. rewrite get_remove. destruct (beq_spec l (absolute (ds ++ rs))); [contradiction|exact PN]. }
        intros A2. apply NE. rewrite EL. f_equal. eapply about_same; eauto.
      * subst s1. rewrite closed_cons; [now apply IH|apply PW|exact NC].
    + subst s1. rewrite closed_cons; [now apply IH| |]; (eapply about_other; [reflexivity|discriminate]).
Qed.
End Run.

(** ** C65 *)

(** Without "start on create": exactly the files closed after writing are sent, once per closing and
    in this order, each under its name below the directory. *)
Theorem on_close_uploads : forall lossy ds evs, lossy_ok lossy -> Forall name_ok ds -> Forall reported evs ->
  let st := sync_run lossy (absolute ds) false evs in
  announced KCloseWrite ds evs (map (fun u => (up_local u, up_remote u)) (sy_uploads st)).
Proof.
  intros lossy ds evs HL HD R. destruct (run_uploads lossy HL ds HD false evs R sync_new) as (l & A & E).
  cbn [names sync_new sy_uploads map app] in E. unfold names in E. unfold sync_run. cbv zeta. now rewrite E.
Qed.
(** With it: exactly the files created.  A file that existed and was only changed is never sent. *)
Theorem on_create_uploads : forall lossy ds evs, lossy_ok lossy -> Forall name_ok ds -> Forall reported evs ->
  let st := sync_run lossy (absolute ds) true evs in
  announced KCreateFile ds evs (map (fun u => (up_local u, up_remote u)) (sy_uploads st)).
Proof.
  intros lossy ds evs HL HD R. destruct (run_uploads lossy HL ds HD true evs R sync_new) as (l & A & E).
  cbn [names sync_new sy_uploads map app] in E. unfold names in E. unfold sync_run. cbv zeta. now rewrite E.
Qed.
(** The reader of a file just created regards it as complete once it was closed, and never if it is
    created again before. *)
Theorem complete_when_closed : forall lossy ds before e rs after, lossy_ok lossy -> Forall name_ok ds ->
  Forall reported (before ++ e :: after) -> about KCreateFile (ds ++ rs) e ->
  let st := sync_run lossy (absolute ds) true (before ++ e :: after) in
  let i := length (sy_uploads (sync_run lossy (absolute ds) true before)) in
  exists flag, nth_error (sy_uploads st) i = Some (mkUp (absolute (ds ++ rs)) (path rs) (Some flag)) /\
    (nth flag (sy_flags st) false = true <->
     exists a1 c a2, after = a1 ++ c :: a2 /\ about KCloseWrite (ds ++ rs) c /\
       forall x, In x a1 -> ~ about KCreateFile (ds ++ rs) x).
Proof.
  intros lossy ds before e rs after HL HD R AB st i. apply Forall_app in R. destruct R as [R1 R2].
  inversion_clear R2 as [|? ? RE RA].
  unfold st, sync_run. rewrite fold_left_app. cbn [fold_left]. set (s0 := fold_left _ before sync_new).
  assert (I0 : sinv s0) by (apply sinv_run, sinv_new). pose proof (sinv_step lossy ds s0 e I0) as I1.
  set (s1 := sync_step lossy (absolute ds) true s0 e) in *.
  assert (G : exists flag, nth_error (sy_uploads s1) i = Some (mkUp (absolute (ds ++ rs)) (path rs) (Some flag)) /\
    pending_get (sy_pending s1) (absolute (ds ++ rs)) = Some flag).
  { pose proof (paths_about lossy HL ds HD KCreateFile e RE) as P. pose proof AB as (NO & more & E). subst e.
    unfold s1, sync_step. destruct (get_paths _ _ _) as [[l r]|]; [|now destruct (P rs)].
    destruct P as (rs' & A & -> & ->). assert (ER : ds ++ rs' = ds ++ rs) by (eapply about_same; eauto).
    assert (rs' = rs) by (now apply app_inv_head in ER). subst rs'.
    eexists. cbn [sy_uploads sy_pending]. split.
    - unfold i, sync_run. fold s0. rewrite nth_error_app2, Nat.sub_diag by lia. reflexivity.
    - rewrite get_insert. now rewrite beq_refl. }
  destruct G as (flag & NU & PG). exists flag. split.
  - now apply run_keeps.
  - apply (run_pending lossy HL ds HD rs after RA (proj1 AB) s1 flag I1 PG).
Qed.
(** No two files are sent under the same name. *)
Theorem remote_names_differ : forall a b, Forall name_ok a -> Forall name_ok b -> path a = path b -> a = b.
Proof. apply path_inj. Qed.
(** The server keeps the name, unless a component of it is white space and dots. *)
Theorem synced_name_kept : forall rs, Forall name_ok rs -> rs <> [] -> (forall c, In c rs -> ~ dotty c) ->
  validate_file_name (path rs) = Ok (path rs).
Proof.
  intros rs NO NE ND. unfold validate_file_name. rewrite normalize_clean; [reflexivity|].
  exists rs. split; [split; [exact NE|]; split; [reflexivity|]|exact ND].
  rewrite Forall_forall in NO. intros c I. now apply NO.
Qed.
Print Assumptions on_close_uploads.
Print Assumptions on_create_uploads.
Print Assumptions complete_when_closed.
Print Assumptions remote_names_differ.
Print Assumptions synced_name_kept.

(** A directory with a neighbour of a similar name; a file is created, changed and closed, one is
    created twice before it is closed, one only closed. *)
Definition sx (k : skind) (p : bytes) : sevent := SEvent k [p].
Definition sx_events : list sevent :=
  [sx KCreateFile (s2b "/data/a/x.txt"); sx KOther (s2b "/data/a/x.txt"); sx KCreateFile (s2b "/data/y"); sx KCloseWrite (s2b "/data/a/x.txt");
   sx KCreateFile (s2b "/data/y"); sx KCloseWrite (s2b "/data/y"); sx KCloseWrite (s2b "/data/z"); sx KCreateFile (s2b "/database/q"); SError].
Example sync_case :
  sync_run (fun s => s) (absolute [s2b "data"]) true sx_events =
    mkSync [mkUp (s2b "/data/a/x.txt") (s2b "a/x.txt") (Some 0%nat); mkUp (s2b "/data/y") (s2b "y") (Some 1%nat); mkUp (s2b "/data/y") (s2b "y") (Some 2%nat)]
      [true; false; true] [] /\
  map up_remote (sy_uploads (sync_run (fun s => s) (absolute [s2b "data"]) false sx_events)) = [s2b "a/x.txt"; s2b "y"; s2b "z"] /\
  lossy_ok (fun s => s) /\ Forall reported sx_events /\ about KCreateFile ([s2b "data"] ++ [s2b "a"; s2b "x.txt"]) (sx KCreateFile (s2b "/data/a/x.txt")).
Proof.
  split; [vm_compute; reflexivity|]. split; [vm_compute; reflexivity|]. split; [intros s _; reflexivity|].
  assert (NK : forall c, In c [s2b "data"; s2b "a"; s2b "x.txt"; s2b "y"; s2b "z"; s2b "database"; s2b "q"] -> name_ok c /\ utf8 c = true).
  { intros c H. cbn [In] in H. repeat (destruct H as [<-|H]; [vm_compute; split; [|reflexivity]; do 3 (split; [discriminate|]); intros Q; repeat (destruct Q as [Q|Q]; [discriminate Q|]); exact Q|]). destruct H. }
  assert (RP : forall k ps, (forall c, In c ps -> In c [s2b "data"; s2b "a"; s2b "x.txt"; s2b "y"; s2b "z"; s2b "database"; s2b "q"]) -> reported (SEvent k [absolute ps])).
  { intros k ps H k' p more E. injection E as <- <- <-. exists ps. split; [reflexivity|]. split; apply Forall_forall; intros c I; apply NK, H, I. }
  split.
  - unfold sx_events, sx.
    change (s2b "/data/a/x.txt") with (absolute [s2b "data"; s2b "a"; s2b "x.txt"]). change (s2b "/data/y") with (absolute [s2b "data"; s2b "y"]).
    change (s2b "/data/z") with (absolute [s2b "data"; s2b "z"]). change (s2b "/database/q") with (absolute [s2b "database"; s2b "q"]).
    do 8 (apply Forall_cons; [apply RP; cbn [In]; intuition auto|]). apply Forall_cons; [intros k p more E; discriminate|constructor].
  - split; [apply Forall_forall; intros c I; apply NK; cbn [In app] in *; intuition auto|]. exists []. reflexivity.
Qed.
