(** Proofs about file names. *)
From Verif Require Import Base BaseProofs PathModel PathSpec.

(** ** Trimming *)

Ltac bdestr := repeat match goal with
  | H : context[?a =? ?b] |- _ => destruct (N.eqb_spec a b)
  | |- context[?a =? ?b] => destruct (N.eqb_spec a b)
  end.

Lemma ws1_in a : ws1 a = true -> In [a] space_chars.
Proof.
  unfold ws1, inr. intros H.
  assert (a = 9 \/ a = 10 \/ a = 11 \/ a = 12 \/ a = 13 \/ a = 32) as D by lia.
  unfold space_chars. cbn. intuition subst; auto 30.
Qed.
Lemma ws2_in a b : ws2 a b = true -> In [a; b] space_chars.
Proof.
  unfold ws2. intros H. assert (a = 194 /\ (b = 133 \/ b = 160)) as D by lia.
  unfold space_chars. cbn. intuition subst; auto 30.
Qed.
Lemma ws3_in a b c : ws3 a b c = true -> In [a; b; c] space_chars.
Proof.
  unfold ws3, inr. intros H.
  assert ((a = 225 /\ b = 154 /\ c = 128) \/ (a = 226 /\ b = 129 /\ c = 159) \/
          (a = 227 /\ b = 128 /\ c = 128) \/
          (a = 226 /\ b = 128 /\ (c = 128 \/ c = 129 \/ c = 130 \/ c = 131 \/ c = 132 \/ c = 133
             \/ c = 134 \/ c = 135 \/ c = 136 \/ c = 137 \/ c = 138 \/ c = 168 \/ c = 169 \/ c = 175))) as D by lia.
  unfold space_chars. cbn. intuition subst; auto 40.
Qed.

Lemma space_char_shape s : In s space_chars ->
  (exists a, s = [a] /\ ws1 a = true) \/
  (exists a b, s = [a; b] /\ ws1 a = false /\ ws1 b = false /\ ws2 a b = true) \/
  (exists a b c, s = [a; b; c] /\ ws1 a = false /\ ws1 c = false /\ ws2 a b = false /\ ws2 b c = false /\
     ws3 a b c = true).
Proof.
  unfold space_chars. cbn. intros H.
  repeat (destruct H as [<-|H];
    [ first [ left; eexists; split; [reflexivity|reflexivity]
            | right; left; do 2 eexists; split; [reflexivity|repeat split; reflexivity]
            | right; right; do 3 eexists; split; [reflexivity|repeat split; reflexivity] ] |]).
  destruct H.
Qed.

Lemma blank_nil : blank [].
Proof. exists []. split; [intros c []|reflexivity]. Qed.
Lemma blank_cons s l : In s space_chars -> blank l -> blank (s ++ l).
Proof.
  intros H [cs [H1 ->]]. exists (s :: cs). split; [|reflexivity].
  intros c [<-|K]; auto.
Qed.
Lemma blank_snoc s l : In s space_chars -> blank l -> blank (l ++ s).
Proof.
  intros H [cs [H1 ->]]. exists (cs ++ [s]). split.
  - intros c K. apply in_app_or in K. destruct K as [K|[<-|[]]]; auto.
  - rewrite concat_app. cbn. now rewrite app_nil_r.
Qed.

Lemma trim_start_eq l :
  trim_start l = l \/ exists s l', In s space_chars /\ l = s ++ l' /\ trim_start l = trim_start l'.
Proof.
  destruct l as [|a l1]; [left; reflexivity|]. cbn [trim_start].
  destruct (ws1 a) eqn:E1; [right; exists [a], l1; repeat split; auto using ws1_in|].
  destruct l1 as [|b l2]; [left; reflexivity|].
  destruct (ws2 a b) eqn:E2; [right; exists [a;b], l2; repeat split; auto using ws2_in|].
  destruct l2 as [|c l3]; [left; reflexivity|].
  destruct (ws3 a b c) eqn:E3; [right; exists [a;b;c], l3; repeat split; auto using ws3_in|].
  left; reflexivity.
Qed.
Lemma trim_rev_eq l :
  trim_rev l = l \/ exists s l', In s space_chars /\ l = rev s ++ l' /\ trim_rev l = trim_rev l'.
Proof.
  destruct l as [|c l1]; [left; reflexivity|]. cbn [trim_rev].
  destruct (ws1 c) eqn:E1; [right; exists [c], l1; repeat split; auto using ws1_in|].
  destruct l1 as [|b l2]; [left; reflexivity|].
  destruct (ws2 b c) eqn:E2; [right; exists [b;c], l2; repeat split; auto using ws2_in|].
  destruct l2 as [|a l3]; [left; reflexivity|].
  destruct (ws3 a b c) eqn:E3; [right; exists [a;b;c], l3; repeat split; auto using ws3_in|].
  left; reflexivity.
Qed.
Lemma space_len s : In s space_chars -> (length s > 0)%nat.
Proof. intros H. apply space_char_shape in H. decompose [ex or and] H; subst; cbn; lia. Qed.

Lemma trim_start_split l : exists p, l = p ++ trim_start l /\ blank p.
Proof.
  remember (length l) as n. revert l Heqn.
  induction n as [n IH] using lt_wf_ind. intros l ->.
  destruct (trim_start_eq l) as [E|(s & l' & H & E & E')].
  - exists []. rewrite E. split; [reflexivity|apply blank_nil].
  - pose proof (space_len _ H). destruct (IH (length l')) with (l := l') as (p & Hp & B).
    + rewrite E, app_length. lia.
    + reflexivity.
    + exists (s ++ p). rewrite E'. split; [|now apply blank_cons].
      rewrite <- app_assoc, <- Hp. exact E.
Qed.
Lemma trim_rev_split l : exists p, rev l = rev (trim_rev l) ++ p /\ blank p.
Proof.
  remember (length l) as n. revert l Heqn.
  induction n as [n IH] using lt_wf_ind. intros l ->.
  destruct (trim_rev_eq l) as [E|(s & l' & H & E & E')].
  - exists []. rewrite E, app_nil_r. split; [reflexivity|apply blank_nil].
  - pose proof (space_len _ H). destruct (IH (length l')) with (l := l') as (p & Hp & B).
    + rewrite E, app_length, rev_length. lia.
    + reflexivity.
    + exists (p ++ s). rewrite E'. split; [|now apply blank_snoc].
      rewrite app_assoc, <- Hp, E, rev_app_distr, rev_involutive. reflexivity.
Qed.

Lemma trim_start_blank p l : blank p -> trim_start (p ++ l) = trim_start l.
Proof.
  intros [cs [H ->]]. induction cs as [|s cs IH]; [reflexivity|].
  cbn [concat]. rewrite <- app_assoc.
  assert (E : forall x, trim_start (s ++ x) = trim_start x).
  { intros x. specialize (H s (or_introl eq_refl)). apply space_char_shape in H.
    decompose [ex or and] H; subst; cbn [app trim_start];
      repeat match goal with E : _ = _ :> bool |- _ => rewrite E end; reflexivity. }
  rewrite E. apply IH. intros c K. apply H. right; exact K.
Qed.
Lemma trim_rev_blank p l : blank p -> trim_rev (rev p ++ l) = trim_rev l.
Proof.
  intros [cs [H ->]]. revert l. induction cs as [|s cs IH]; intros l; [reflexivity|].
  cbn [concat]. rewrite rev_app_distr, <- app_assoc, IH by (intros c K; apply H; right; exact K).
  specialize (H s (or_introl eq_refl)). apply space_char_shape in H.
  decompose [ex or and] H; subst; cbn [rev app trim_rev];
      repeat match goal with E : _ = _ :> bool |- _ => rewrite E end; reflexivity.
Qed.

Lemma trim_core p t q : blank p -> blank q -> (t = [] \/ t = [DOT] \/ t = [DOT; DOT]) ->
  trim (p ++ t ++ q) = t.
Proof.
  intros Hp Hq Ht. unfold trim. rewrite (trim_start_blank p) by assumption.
  destruct Ht as [->|[->| ->]]; cbn [app].
  - rewrite <- (app_nil_r q), trim_start_blank by assumption. reflexivity.
  - assert (E : trim_start (DOT :: q) = DOT :: q).
    { destruct q as [|x [|y q]]; reflexivity. }
    rewrite E. cbn [rev]. rewrite trim_rev_blank by assumption. reflexivity.
  - assert (E : trim_start (DOT :: DOT :: q) = DOT :: DOT :: q).
    { destruct q as [|x [|y q]]; reflexivity. }
    rewrite E. cbn [rev]. rewrite <- app_assoc, trim_rev_blank by assumption. reflexivity.
Qed.

Lemma trim_dotty c t : trim c = t -> (t = [] \/ t = [DOT] \/ t = [DOT; DOT]) -> dotty c.
Proof.
  intros E Ht. unfold trim in E.
  destruct (trim_start_split c) as (p & Hp & Bp).
  destruct (trim_rev_split (rev (trim_start c))) as (q & Hq & Bq).
  rewrite rev_involutive, E in Hq.
  exists p, t, q. rewrite <- Hq. auto.
Qed.

Lemma in_app3 (A : Type) (x : A) a b c : In x b -> In x (a ++ b ++ c).
Proof. intros H. apply in_or_app. right. apply in_or_app. now left. Qed.

Lemma keep_iff c : ~ In SLASH c -> (keep_component c = true <-> ~ dotty c).
Proof.
  intros HS. unfold keep_component. split.
  - intros H (p & t & q & -> & Bp & Bq & Ht).
    rewrite (trim_core p t q) in H by auto.
    destruct Ht as [->|[->| ->]]; discriminate H.
  - intros H. apply negb_true_iff. rewrite !orb_false_iff. rewrite !beq_neq.
    repeat split; intros E; try (apply H; eapply trim_dotty; [exact E|auto]; fail).
    apply HS.
    destruct (trim_start_split c) as (p & Hp & _).
    destruct (trim_rev_split (rev (trim_start c))) as (q & Hq & _).
    unfold trim in E. rewrite rev_involutive, E in Hq. rewrite Hp, Hq.
    apply in_app3. now left.
Qed.
Lemma keep_false_iff c : ~ In SLASH c -> (keep_component c = false <-> dotty c).
Proof.
  intros HS. pose proof (keep_iff c HS) as K. destruct (keep_component c) eqn:E; split; intros H.
  - discriminate H.
  - destruct K as [K _]. exfalso. now apply K.
  - assert (trim c = [] \/ trim c = [DOT] \/ trim c = [DOT;DOT] \/ trim c = [SLASH]) as D.
    { unfold keep_component in E. apply negb_false_iff in E. rewrite !orb_true_iff, !beq_eq in E. tauto. }
    destruct D as [D|[D|[D|D]]]; try (eapply trim_dotty; [exact D|auto]; fail).
    exfalso. apply HS.
    destruct (trim_start_split c) as (p & Hp & _).
    destruct (trim_rev_split (rev (trim_start c))) as (q & Hq & _).
    unfold trim in D. rewrite rev_involutive, D in Hq. rewrite Hp, Hq.
    apply in_app3. now left.
  - reflexivity.
Qed.

Lemma dotty_nil : dotty [].
Proof. exists [], [], []. repeat split; auto using blank_nil. Qed.

(** ** Splitting and joining *)

Lemma split_slash_ne l : split_slash l <> [].
Proof.
  destruct l as [|a l]; cbn; [discriminate|]. destruct (a =? SLASH); [discriminate|].
  destruct (split_slash l); discriminate.
Qed.

Lemma split_slash_noslash l c : In c (split_slash l) -> ~ In SLASH c.
Proof.
  revert c. induction l as [|a l IH]; intros c; cbn [split_slash].
  - intros [<-|[]] [].
  - destruct (N.eqb_spec a SLASH) as [E|E].
    + intros [<-|H]; [intros []|auto].
    + destruct (split_slash l) as [|c0 cs] eqn:ES.
      * intros [<-|[]] [H|[]]. congruence.
      * intros [<-|H].
        -- intros [H|H]; [congruence|]. eapply IH; [left; reflexivity|exact H].
        -- apply IH. right; exact H.
Qed.

Lemma path_cons c cs : cs <> [] -> path (c :: cs) = c ++ [SLASH] ++ path cs.
Proof. destruct cs as [|d cs]; [congruence|]. intros _. reflexivity. Qed.

Lemma path_split l : path (split_slash l) = l.
Proof.
  induction l as [|a l IH]; [reflexivity|]. cbn [split_slash].
  destruct (N.eqb_spec a SLASH) as [->|E].
  - rewrite path_cons by apply split_slash_ne. rewrite IH. reflexivity.
  - pose proof (split_slash_ne l). destruct (split_slash l) as [|c cs]; [congruence|].
    change (path ((a :: c) :: cs)) with (a :: path (c :: cs)). now rewrite IH.
Qed.

Lemma split_components l : components_of l (split_slash l).
Proof.
  split; [apply split_slash_ne|]. split; [now rewrite path_split|].
  apply split_slash_noslash.
Qed.

Lemma split_app_slash c l : ~ In SLASH c -> split_slash (c ++ SLASH :: l) = c :: split_slash l.
Proof.
  induction c as [|a c IH]; intros H.
  - reflexivity.
  - cbn [app split_slash]. destruct (N.eqb_spec a SLASH) as [E|E]; [exfalso; apply H; now left|].
    rewrite IH; [reflexivity|]. intros K. apply H. now right.
Qed.
Lemma split_noslash c : ~ In SLASH c -> split_slash c = [c].
Proof.
  induction c as [|a c IH]; intros H; [reflexivity|].
  cbn [split_slash]. destruct (N.eqb_spec a SLASH) as [E|E]; [exfalso; apply H; now left|].
  rewrite IH; [reflexivity|]. intros K. apply H. now right.
Qed.

Lemma split_path cs : cs <> [] -> (forall c, In c cs -> ~ In SLASH c) -> split_slash (path cs) = cs.
Proof.
  induction cs as [|c cs IH]; intros H1 H2; [congruence|].
  destruct cs as [|d cs].
  - cbn. rewrite app_nil_r. apply split_noslash. apply H2. now left.
  - rewrite path_cons by discriminate. cbn [app].
    rewrite split_app_slash by (apply H2; now left).
    rewrite IH; [reflexivity|discriminate|]. intros x Hx. apply H2. now right.
Qed.

Lemma components_unique name cs : components_of name cs -> cs = split_slash name.
Proof. intros (H1 & -> & H3). symmetry. now apply split_path. Qed.

Lemma keeps_filter cs : (forall c, In c cs -> ~ In SLASH c) ->
  keeps (fun c => ~ dotty c) cs (filter keep_component cs).
Proof.
  induction cs as [|c cs IH]; intros H; [constructor|]. cbn [filter].
  pose proof (H c (or_introl eq_refl)) as Hc.
  destruct (keep_component c) eqn:E.
  - apply K_keep; [now apply keep_iff|]. apply IH. intros; apply H; now right.
  - apply K_drop.
    + intros K. apply K. now apply keep_false_iff.
    + apply IH. intros; apply H; now right.
Qed.

Lemma keeps_unique P cs a b : keeps P cs a -> keeps P cs b -> a = b.
Proof.
  intros H. revert b. induction H; intros k K; inversion K; subst; try contradiction; auto.
  f_equal; auto.
Qed.

(** Leading separators only produce empty components. *)
Lemma filter_skip l :
  filter keep_component (split_slash (skip_slashes l)) = filter keep_component (split_slash l).
Proof.
  induction l as [|a l IH]; [reflexivity|]. cbn [skip_slashes].
  destruct (N.eqb_spec a SLASH) as [->|E]; [|reflexivity].
  rewrite IH. reflexivity.
Qed.

(** ** Rebuilding *)

Definition with_slash (c : bytes) : bytes := c ++ [SLASH].
Lemma blen_ws c : blen (with_slash c) = blen c + 1.
Proof. unfold with_slash. now rewrite blen_app. Qed.
Lemma fold_none ks acc :
  fold_left (fun f c => push_str None (push_str None f c) [SLASH]) ks acc = acc ++ concat (map with_slash ks).
Proof.
  revert acc. induction ks as [|k ks IH]; intros acc; cbn [fold_left map concat].
  - now rewrite app_nil_r.
  - rewrite IH. unfold push_str, with_slash. now rewrite !app_assoc.
Qed.
Lemma with_slash_path ks : ks <> [] -> concat (map with_slash ks) = path ks ++ [SLASH].
Proof.
  induction ks as [|k ks IH]; intros H; [congruence|].
  destruct ks as [|k2 ks]; [cbn; unfold with_slash; now rewrite !app_nil_r|].
  cbn [map concat] in *. rewrite IH by discriminate. rewrite (path_cons k) by discriminate.
  unfold with_slash. now rewrite <- !app_assoc.
Qed.
Lemma pop_slash l : pop_char (l ++ [SLASH]) = l.
Proof. unfold pop_char. rewrite rev_app_distr. cbn. apply rev_involutive. Qed.

Lemma keep_ne c : keep_component c = true -> c <> [].
Proof. intros H ->. discriminate H. Qed.

Lemma path_ne ks : ks <> [] -> (forall c, In c ks -> c <> []) -> path ks <> [].
Proof.
  destruct ks as [|k ks]; [congruence|]. intros _ H E. cbn in E.
  apply app_eq_nil in E. apply (H k); [now left|tauto].
Qed.

Lemma normalize_eq name :
  normalize None name =
  match filter keep_component (split_slash name) with
  | [] => None
  | ks => Some (path ks)
  end.
Proof.
  unfold normalize. rewrite filter_skip.
  remember (filter keep_component (split_slash name)) as ks eqn:Eks.
  rewrite fold_none. cbn [app].
  destruct ks as [|k ks']; [reflexivity|].
  rewrite with_slash_path by discriminate. rewrite pop_slash.
  assert (N : path (k :: ks') <> []).
  { apply path_ne; [discriminate|]. intros c Hc. rewrite Eks in Hc.
    apply filter_In in Hc. now apply keep_ne. }
  destruct (path (k :: ks')); [congruence|reflexivity].
Qed.

Lemma filter_noslash name c : In c (filter keep_component (split_slash name)) ->
  ~ In SLASH c /\ ~ dotty c.
Proof.
  intros H. apply filter_In in H. destruct H as [H1 H2].
  pose proof (split_slash_noslash _ _ H1) as S. split; [exact S|]. now apply keep_iff.
Qed.

(** ** Bounded strings *)

Lemma fold_some n ks acc : blen acc + blen (concat (map with_slash ks)) <= n ->
  fold_left (fun f c => push_str (Some n) (push_str (Some n) f c) [SLASH]) ks acc
  = acc ++ concat (map with_slash ks).
Proof.
  revert acc. induction ks as [|k ks IH]; intros acc H; cbn [fold_left map concat] in *.
  - now rewrite app_nil_r.
  - unfold with_slash in H at 1. rewrite !blen_app in H. change (blen [SLASH]) with 1 in H.
    assert (E : push_str (Some n) (push_str (Some n) acc k) [SLASH] = acc ++ with_slash k).
    { unfold push_str at 2. rewrite (proj2 (N.leb_le _ _)) by lia.
      unfold push_str. rewrite blen_app. change (blen [SLASH]) with 1.
      rewrite (proj2 (N.leb_le _ _)) by lia. unfold with_slash. now rewrite app_assoc. }
    rewrite E, IH.
    + now rewrite app_assoc.
    + rewrite blen_app, blen_ws. lia.
Qed.

Lemma blen_with_slash_filter P cs : 
  blen (concat (map with_slash (filter P cs))) <= blen (concat (map with_slash cs)).
Proof.
  induction cs as [|c cs IH]; cbn [filter map concat]; [lia|].
  destruct (P c); cbn [map concat]; rewrite ?blen_app; lia.
Qed.

Lemma blen_split name : blen (concat (map with_slash (split_slash name))) = blen name + 1.
Proof. rewrite with_slash_path by apply split_slash_ne. rewrite path_split, blen_app. reflexivity. Qed.

Lemma normalize_bounded n name : blen name < n -> normalize (Some n) name = normalize None name.
Proof.
  intros H. unfold normalize. rewrite fold_some, fold_none; [reflexivity|].
  rewrite filter_skip. pose proof (blen_with_slash_filter keep_component (split_slash name)) as B.
  rewrite blen_split in B. rewrite blen_nil. lia.
Qed.

Lemma filter_all cs : (forall c, In c cs -> keep_component c = true) -> filter keep_component cs = cs.
Proof.
  induction cs as [|c cs IH]; intros H; [reflexivity|]. cbn. rewrite H by now left.
  f_equal. apply IH. intros; apply H; now right.
Qed.

Lemma clean_filter name : clean name -> filter keep_component (split_slash name) = split_slash name.
Proof.
  intros (cs & HC & HD). rewrite <- (components_unique _ _ HC). apply filter_all.
  intros c Hc. apply keep_iff; [apply HC; exact Hc|]. now apply HD.
Qed.

Lemma fold_some_full n ks acc : ks <> [] -> blen acc + blen (concat (map with_slash ks)) = n + 1 ->
  fold_left (fun f c => push_str (Some n) (push_str (Some n) f c) [SLASH]) ks acc
  = acc ++ path ks.
Proof.
  intros HN. revert acc. induction ks as [|k ks IH]; intros acc H; [congruence|].
  destruct ks as [|k2 ks].
  - cbn [fold_left map concat path] in *. rewrite !app_nil_r in *. rewrite blen_ws in H.
    unfold push_str at 2. rewrite (proj2 (N.leb_le _ _)) by lia.
    unfold push_str. rewrite blen_app. change (blen [SLASH]) with 1.
    rewrite (proj2 (N.leb_gt _ _)) by lia. reflexivity.
  - remember (k2 :: ks) as ks2. cbn [fold_left map concat] in *.
    assert (HB : blen (concat (map with_slash ks2)) >= 1).
    { subst ks2. cbn [map concat]. rewrite blen_app, blen_ws. lia. }
    rewrite path_cons by (subst; discriminate).
    rewrite blen_app, blen_ws in H.
    assert (E : push_str (Some n) (push_str (Some n) acc k) [SLASH] = acc ++ with_slash k).
    { unfold push_str at 2. rewrite (proj2 (N.leb_le _ _)) by lia.
      unfold push_str. rewrite blen_app. change (blen [SLASH]) with 1.
      rewrite (proj2 (N.leb_le _ _)) by lia. unfold with_slash. now rewrite app_assoc. }
    rewrite E, IH.
    + unfold with_slash. now rewrite <- !app_assoc.
    + subst; discriminate.
    + rewrite blen_app, blen_ws. lia.
Qed.

Lemma normalize_full n name : clean name -> blen name = n ->
  normalize (Some n) name = match pop_char name with [] => None | r => Some r end.
Proof.
  intros HC HL. unfold normalize. rewrite filter_skip, clean_filter by assumption.
  rewrite fold_some_full.
  - rewrite path_split. cbn [app]. destruct (pop_char name); reflexivity.
  - apply split_slash_ne.
  - rewrite blen_split, blen_nil. lia.
Qed.

(** If anything is dropped there is room for the last separator. *)
Lemma blen_filter_drop cs c : In c cs -> keep_component c = false ->
  blen (concat (map with_slash (filter keep_component cs))) + 1 <= blen (concat (map with_slash cs)).
Proof.
  induction cs as [|d cs IH]; intros HI HK; [destruct HI|].
  destruct HI as [->|H]; cbn [filter map concat].
  - rewrite HK, blen_app. pose proof (blen_with_slash_filter keep_component cs).
    rewrite blen_ws. lia.
  - specialize (IH H HK). destruct (keep_component d); cbn [map concat]; rewrite ?blen_app; lia.
Qed.

Lemma clean_dec name : clean name \/ exists c, In c (split_slash name) /\ keep_component c = false.
Proof.
  destruct (forallb keep_component (split_slash name)) eqn:E.
  - left. exists (split_slash name). split; [apply split_components|].
    intros c Hc. rewrite forallb_forall in E. apply keep_iff; [|auto].
    eapply split_slash_noslash; eauto.
  - right. assert (K : existsb (fun c => negb (keep_component c)) (split_slash name) = true).
    { clear -E. induction (split_slash name) as [|c cs IH]; [discriminate|]. cbn in *.
      destruct (keep_component c); cbn in *; auto. }
    apply existsb_exists in K. destruct K as (c & H1 & H2). exists c. split; [exact H1|].
    now apply negb_true_iff.
Qed.

Lemma normalize_bounded_dirty n name : blen name <= n -> ~ clean name ->
  normalize (Some n) name = normalize None name.
Proof.
  intros H HD. destruct (clean_dec name) as [C|(c & H1 & H2)]; [contradiction|].
  unfold normalize. rewrite fold_some, fold_none; [reflexivity|].
  rewrite filter_skip. pose proof (blen_filter_drop _ _ H1 H2) as B.
  rewrite blen_split in B. rewrite blen_nil. lia.
Qed.

(** ** Components *)

Lemma piece_plain c : ~ dotty c -> piece c = [Normal c].
Proof.
  intros H. unfold piece.
  destruct (beq c []) eqn:E1.
  { apply beq_eq in E1. subst. exfalso; apply H, dotty_nil. }
  destruct (beq c [DOT]) eqn:E2.
  { apply beq_eq in E2. subst. exfalso; apply H. exists [], [DOT], []. repeat split; auto using blank_nil. }
  destruct (beq c [DOT; DOT]) eqn:E3; [|reflexivity].
  apply beq_eq in E3. subst. exfalso; apply H. exists [], [DOT; DOT], []. repeat split; auto using blank_nil.
Qed.

Lemma pieces_plain cs : (forall c, In c cs -> ~ dotty c) -> flat_map piece cs = map Normal cs.
Proof.
  induction cs as [|c cs IH]; intros H; [reflexivity|]. cbn [flat_map map].
  rewrite piece_plain by (apply H; now left). rewrite IH by (intros; apply H; now right). reflexivity.
Qed.

Lemma components_clean cs : cs <> [] -> (forall c, In c cs -> ~ In SLASH c /\ ~ dotty c) ->
  components (path cs) = map Normal cs.
Proof.
  intros HN H. unfold components. rewrite split_path by (auto; intros; now apply H).
  destruct cs as [|c cs]; [congruence|].
  destruct (beq c [DOT]) eqn:E.
  - apply beq_eq in E. subst. exfalso. apply (proj2 (H [DOT] (or_introl eq_refl))).
    exists [], [DOT], []. repeat split; auto using blank_nil.
  - rewrite piece_plain by (apply H; now left).
    rewrite pieces_plain by (intros; apply H; now right). reflexivity.
Qed.

Lemma count_noslash c : ~ In SLASH c -> count_occ N.eq_dec c 47 = 0%nat.
Proof. intros H. now apply count_occ_not_In. Qed.

Lemma separators_path cs : cs <> [] -> (forall c, In c cs -> ~ In SLASH c) ->
  separators (path cs) = N.of_nat (length cs) - 1.
Proof.
  induction cs as [|c cs IH]; intros HN H; [congruence|].
  destruct cs as [|d cs].
  - cbn [path]. cbn. rewrite app_nil_r. unfold separators. rewrite count_noslash by (apply H; now left).
    reflexivity.
  - rewrite path_cons by discriminate. unfold separators in *.
    rewrite !count_occ_app, count_noslash by (apply H; now left).
    change (count_occ N.eq_dec [SLASH] 47) with 1%nat.
    specialize (IH ltac:(discriminate) ltac:(intros; apply H; now right)).
    cbn [length] in *. lia.
Qed.

(** ** Cutting UTF-8 strings *)

Lemma cont_range b : cont b = true <-> 128 <= b <= 191.
Proof. unfold cont, inr. lia. Qed.

Lemma utf8_take s n : utf8 s = true -> (n < length s)%nat ->
  utf8 (firstn n s) = negb (cont (nth n s 0)).
Proof.
  remember (length s) as k. revert s n Heqk. induction k as [k IH] using lt_wf_ind.
  intros s n -> HU HL.
  destruct s as [|a l1]; [cbn in HL; lia|].
  destruct n as [|n].
  { cbn [firstn nth]. cbn [utf8] in HU. cbn [utf8].
    unfold cont, inr in *. destruct (a <=? 127) eqn:E1; [lia|].
    destruct ((194 <=? a) && (a <=? 223)) eqn:E2; [lia|].
    destruct ((224 <=? a) && (a <=? 239)) eqn:E3; [lia|].
    destruct ((240 <=? a) && (a <=? 244)) eqn:E4; [lia|]. discriminate. }
  cbn [utf8] in HU. cbn [firstn nth utf8].
  destruct (a <=? 127) eqn:E1.
  { apply (IH (length l1)); cbn in *; auto; lia. }
  destruct (inr 194 223 a) eqn:E2.
  { destruct l1 as [|b l2]; [discriminate|]. apply andb_true_iff in HU. destruct HU as [HB HU].
    destruct n as [|n]; [cbn; now rewrite HB|]. cbn [firstn nth]. rewrite HB. cbn [andb].
    apply (IH (length l2)); cbn in *; auto; lia. }
  destruct (inr 224 239 a) eqn:E3.
  { destruct l1 as [|b [|c l3]]; try discriminate.
    apply andb_true_iff in HU. destruct HU as [HU1 HU].
    apply andb_true_iff in HU1. destruct HU1 as [HB HC].
    assert (cont b = true).
    { unfold cont, inr in *. destruct (a =? 224); destruct (a =? 237); lia. }
    destruct n as [|[|n]]; cbn [firstn nth].
    - now rewrite H.
    - now rewrite HC.
    - rewrite HB, HC. cbn [andb]. apply (IH (length l3)); cbn in *; auto; lia. }
  destruct (inr 240 244 a) eqn:E4; [|discriminate].
  destruct l1 as [|b [|c [|d l4]]]; try discriminate.
  apply andb_true_iff in HU. destruct HU as [HU1 HU].
  apply andb_true_iff in HU1. destruct HU1 as [HU1 HD].
  apply andb_true_iff in HU1. destruct HU1 as [HB HC].
  assert (cont b = true).
  { unfold cont, inr in *. destruct (a =? 240); destruct (a =? 244); lia. }
  destruct n as [|[|[|n]]]; cbn [firstn nth].
  - now rewrite H.
  - now rewrite HC.
  - now rewrite HD.
  - rewrite HB, HC, HD. cbn [andb]. apply (IH (length l4)); cbn in *; auto; lia.
Qed.

Lemma ensure_size_cases s max : utf8 s = true ->
  ensure_size s max =
  if blen s <=? max then Ok s
  else if utf8 (takeN max s) then Ok (takeN max s) else Panic.
Proof.
  intros HU. unfold ensure_size. rewrite N.ltb_antisym.
  destruct (N.leb_spec (blen s) max) as [L|L]; cbn [negb]; [reflexivity|].
  unfold char_boundary. destruct (N.eqb_spec max 0) as [->|NZ]; [reflexivity|].
  unfold blen in L. assert (LL : (N.to_nat max < length s)%nat) by lia.
  pose proof (utf8_take s (N.to_nat max) HU LL) as T.
  rewrite (nth_error_nth' s 0 LL). unfold takeN. rewrite T. reflexivity.
Qed.
