(** C57: the files a server reads and writes. *)
From Verif Require Import Base BaseProofs PacketModel PathModel PathSpec PathProofs PropPath FsModel FsSpec FsProofs.

(** ** Downloads *)

(** What is served is a file (or a listing) inside the served directory, whatever name was asked for and
    whatever links there are. *)
Theorem served_inside : forall f g name s, consistent f -> create_server_reader f g name = Some s ->
  exists d q r, realpath f (parse_path (fc_dir g)) = Some d /\ q = d ++ r /\ real_place f q /\
    match s with
    | SFile id => at_ f q = Some (NFile id)
    | SDir => at_ f q = Some NDir
    | SList t => at_ f q = Some NDir /\ fc_list g <> None /\ lists f r q t
    end.
Proof.
  intros f g name s [CW _] H. unfold create_server_reader in H. destruct (validate_path _ _); [|discriminate]. cbn zeta in H.
  set (dir := parse_path (fc_dir g)) in *. set (p := join dir (parse_path name)) in *.
  destruct (match fc_list g with Some l => ends_with p (parse_path l) | None => false end) eqn:EL.
  - destruct (parent p) as [pp|]; [|discriminate]. destruct (realpath f dir) as [d|] eqn:RD; [|discriminate].
    destruct (realpath f pp) as [q|] eqn:RQ; [|discriminate]. destruct (prefix_of d q) eqn:PF; [|discriminate].
    apply prefix_of_iff in PF as [r ->]. unfold list_directory in H. destruct (at_ f (d ++ r)) as [[?| |?]|] eqn:EA; try discriminate.
    destruct (f_perm f _); [|discriminate]. cbn in H. injection H as <-. exists d, (d ++ r), r.
    split; [reflexivity|]. split; [reflexivity|]. split; [eapply canon_real, realpath_canon; eassumption|]. split; [assumption|].
    split; [destruct (fc_list g); congruence|]. unfold lists. f_equal. apply map_ext. intros n. unfold list_line, rel_text.
    rewrite <- app_assoc, skipn_app, skipn_all, Nat.sub_diag. cbn [app skipn]. reflexivity.
  - destruct (realpath f dir) as [d|] eqn:RD; [|discriminate]. destruct (realpath f p) as [q|] eqn:RQ; [|discriminate].
    destruct (prefix_of d q) eqn:PF; [|discriminate]. apply prefix_of_iff in PF as [r ->].
    pose proof (realpath_canon _ _ _ CW RQ) as CQ. unfold open_read in H. destruct (forallb utf8 _); [|discriminate].
    rewrite (realpath_self _ _ CQ) in H. destruct (f_perm f _); [|discriminate].
    exists d, (d ++ r), r. split; [reflexivity|]. split; [reflexivity|]. split; [apply canon_real; exact CQ|].
    destruct (at_ f (d ++ r)) as [[id| |?]|] eqn:EA; try discriminate; injection H as <-; reflexivity.
Qed.

(** Every file that may be read can be had by its name (in a tree of directories, with names in UTF-8,
    not deeper than allowed), and the listing of every directory. *)
Lemma dir_walk f (d r : place) dir : realpath f dir = Some d -> dirs f (d ++ r) -> ~ In DD r ->
  walk MAX_LINKS f (start_of f dir) (p_parts dir ++ r) = Some (d ++ r).
Proof.
  intros RD HD ND. unfold realpath in RD. destruct (p_empty dir); [discriminate|].
  destruct (walk_app _ _ _ _ _ r RD (dirs_at _ _ (dirs_app _ _ _ HD))) as [k' W]. rewrite W. apply walk_along; assumption.
Qed.
Lemma file_walk f (d r : place) (c : bytes) id dir : realpath f dir = Some d -> dirs f (d ++ r) -> at_ f (d ++ r ++ [c]) = Some (NFile id) ->
  ~ In DD (r ++ [c]) -> walk MAX_LINKS f (start_of f dir) (p_parts dir ++ r ++ [c]) = Some (d ++ r ++ [c]).
Proof.
  intros RD HD EA ND. unfold realpath in RD. destruct (p_empty dir); [discriminate|].
  destruct (walk_app _ _ _ _ _ (r ++ [c]) RD (dirs_at _ _ (dirs_app _ _ _ HD))) as [k' W]. rewrite W. eapply walk_file; eassumption.
Qed.
Lemma join_clean f d dir name cs : realpath f dir = Some d -> clean_path name cs ->
  join dir (parse_path name) = mkP (p_root dir) (p_dot dir) (p_parts dir ++ cs).
Proof.
  intros RD HC. destruct (clean_pieces _ _ HC) as (-> & _ & _). unfold join, realpath in *. cbn [p_root p_parts].
  destruct (p_empty dir); [discriminate|]. reflexivity.
Qed.
Lemma comps_last dir (cs : list bytes) c : exists l, rev (comps (mkP (p_root dir) (p_dot dir) (p_parts dir ++ cs ++ [c]))) = c :: l.
Proof.
  unfold comps. cbn [p_root p_dot p_parts]. eexists. rewrite !app_assoc, rev_app_distr. cbn [rev app]. reflexivity.
Qed.
Lemma not_empty (f : fs) d dir (cs : list bytes) : realpath f dir = Some d -> p_empty (mkP (p_root dir) (p_dot dir) (p_parts dir ++ cs)) = false.
Proof.
  unfold realpath, p_empty. cbn [p_root p_dot p_parts]. destruct (p_root dir); [reflexivity|]. destruct (p_dot dir); [reflexivity|].
  cbn [negb andb]. destruct (p_parts dir); [discriminate|reflexivity].
Qed.
Lemma ends_list dir (cs : list bytes) c l : list_name l ->
  ends_with (mkP (p_root dir) (p_dot dir) (p_parts dir ++ cs ++ [c])) (parse_path l) = beq l c.
Proof.
  intros HL. destruct (clean_pieces _ _ HL) as (-> & _). unfold ends_with. destruct (comps_last dir cs c) as [x ->].
  cbn [comps p_root p_dot p_parts app rev prefix_of]. apply Bool.andb_true_r.
Qed.

Theorem file_served : forall f g name (cs : list bytes) (c : bytes) d id, consistent f ->
  clean_path name (cs ++ [c]) -> separators name <= fc_depth g ->
  realpath f (parse_path (fc_dir g)) = Some d ->
  dirs f (d ++ cs) -> at_ f (d ++ cs ++ [c]) = Some (NFile id) ->
  f_perm f (d ++ cs ++ [c]) = true -> (forall x, In x (d ++ cs ++ [c]) -> utf8 x = true) ->
  (forall l, fc_list g = Some l -> list_name l /\ c <> l) ->
  create_server_reader f g name = Some (SFile id).
Proof.
  intros f g name cs c d id [CW _] HC HS RD HD EA HP HU HL. unfold create_server_reader.
  apply (clean_depth _ _ HC) in HS. rewrite HS. cbn zeta. rewrite (join_clean _ _ _ _ _ RD HC).
  destruct (clean_pieces _ _ HC) as (_ & ND & _ & _).
  assert (E0 : match fc_list g with Some l => ends_with (mkP (p_root (parse_path (fc_dir g))) (p_dot (parse_path (fc_dir g)))
    (p_parts (parse_path (fc_dir g)) ++ cs ++ [c])) (parse_path l) | None => false end = false).
  { destruct (fc_list g) as [l|]; [|reflexivity]. destruct (HL l eq_refl) as [L1 L2]. rewrite ends_list by assumption.
    apply beq_neq. congruence. }
  rewrite E0, RD. assert (RQ : realpath f (mkP (p_root (parse_path (fc_dir g))) (p_dot (parse_path (fc_dir g)))
    (p_parts (parse_path (fc_dir g)) ++ cs ++ [c])) = Some (d ++ cs ++ [c])).
  { unfold realpath at 1. rewrite (not_empty f d) by exact RD. apply (file_walk f d cs c id (parse_path (fc_dir g))); assumption. }
  rewrite RQ. assert (PF : prefix_of d (d ++ cs ++ [c]) = true) by (apply prefix_of_iff; eauto). rewrite PF.
  unfold open_read. assert (U : forallb utf8 (d ++ cs ++ [c]) = true) by (apply forallb_forall; exact HU). rewrite U.
  rewrite realpath_self; [rewrite HP, EA; reflexivity|]. right. exists (d ++ cs), c, id. split; [rewrite app_assoc; reflexivity|].
  split; [exact HD|]. split; [|exact EA]. intros ->. apply ND. apply in_or_app. right. left. reflexivity.
Qed.
Theorem listing_served : forall f g name (cs : list bytes) l d, consistent f ->
  clean_path name (cs ++ [l]) -> separators name <= fc_depth g ->
  realpath f (parse_path (fc_dir g)) = Some d -> fc_list g = Some l -> list_name l ->
  dirs f (d ++ cs) -> f_perm f (d ++ cs) = true ->
  exists t, create_server_reader f g name = Some (SList t) /\ lists f cs (d ++ cs) t.
Proof.
  intros f g name cs l d HF HC HS RD EL HL HD HP.
  assert (G : exists t, create_server_reader f g name = Some (SList t) /\ list_directory f d (d ++ cs) = Some t).
  { unfold create_server_reader. apply (clean_depth _ _ HC) in HS. rewrite HS. cbn zeta. rewrite (join_clean _ _ _ _ _ RD HC).
    destruct (clean_pieces _ _ HC) as (_ & ND & _ & _). rewrite EL, ends_list, beq_refl, RD by assumption. unfold parent. cbn [p_parts].
    rewrite app_assoc, removelast_last. destruct ((p_parts (parse_path (fc_dir g)) ++ cs) ++ [l]) as [|x y] eqn:EX; [destruct (p_parts (parse_path (fc_dir g)) ++ cs); discriminate|].
    cbn [p_root p_dot]. clear x y EX. unfold realpath at 1. rewrite (not_empty f d) by exact RD. cbn [p_parts]. unfold start_of. cbn [p_root].
    assert (NDC : ~ In DD cs) by (intros I; apply ND; apply in_or_app; auto).
    pose proof (dir_walk f d cs (parse_path (fc_dir g)) RD HD NDC) as W. unfold start_of in W. rewrite W.
    assert (PF : prefix_of d (d ++ cs) = true) by (apply prefix_of_iff; eauto). rewrite PF.
      unfold list_directory. rewrite (dirs_at _ _ HD), HP. eexists. split; reflexivity. }
  destruct G as (t & G & L). exists t. split; [exact G|]. unfold list_directory in L. rewrite (dirs_at _ _ HD), HP in L. injection L as <-.
  unfold lists. f_equal. apply map_ext. intros n. unfold list_line, rel_text.
  rewrite <- app_assoc, skipn_app, skipn_all, Nat.sub_diag. cbn [app skipn]. reflexivity.
Qed.

(** ** Uploads *)
Lemma writer_cases f g name f' r : dirs f (f_cwd f) -> create_server_writer f g name = (f', r) ->
  exists f2, grows f f2 /\
  ((f' = f2 /\ r = None) \/
   exists d q id, r = Some id /\ realpath f2 (parse_path (fc_dir g)) = Some d /\
     realpath f2 (join (parse_path (fc_dir g)) (parse_path name)) = Some q /\ below d q /\ canon f2 q /\ at_ f2 q = Some (NFile id) /\
     if fc_overwrite g then f' = set_data f2 id []
     else f' = f2 /\ exists f1, grows f f1 /\ f2 = new_file f1 q /\ id = f_next f1 /\ at_ f1 q = None).
Proof.
  intros CW H. unfold create_server_writer in H. destruct (validate_path _ _); [|injection H as <- <-; exists f; split; [apply grows_refl|auto]].
  cbn zeta in H. set (dir := parse_path (fc_dir g)) in *. set (p := join dir (parse_path name)) in *.
  destruct (starts_with p dir); [|injection H as <- <-; exists f; split; [apply grows_refl|auto]].
  assert (G : exists f1 ok, grows f f1 /\ (match parent p with
        | Some q => if is_dir f q then (f, true) else create_dir_all (List.length (p_parts q)) f q
        | None => (f, true)
        end) = (f1, ok)).
  { destruct (parent p) as [q|]; [|exists f, true; split; [apply grows_refl|reflexivity]].
    destruct (is_dir f q); [exists f, true; split; [apply grows_refl|reflexivity]|].
    destruct (create_dir_all _ f q) as [f1 ok] eqn:E. exists f1, ok. split; [eapply create_dir_all_grows; exact E|reflexivity]. }
  destruct G as (f1 & ok & G1 & E1). rewrite E1 in H. destruct ok; [|injection H as <- <-; exists f1; auto].
  destruct (open_path _ f1 p) as [f2 o] eqn:EO. pose proof (open_path_grows _ _ _ _ _ EO) as G2.
  assert (G : grows f f2) by (eapply grows_trans; eassumption). exists f2. split; [exact G|].
  destruct o as [[p0 id]|]; [|injection H as <- <-; auto].
  destruct (realpath f2 dir) as [d|] eqn:RD; [|injection H as <- <-; auto].
  destruct (realpath f2 p) as [q|] eqn:RQ; [|injection H as <- <-; auto].
  destruct (prefix_of d q) eqn:PF; [|injection H as <- <-; auto]. apply prefix_of_iff in PF.
  assert (CW2 : dirs f2 (f_cwd f2)) by (rewrite (g_cwd _ _ G); eapply grows_dirs; eassumption).
  pose proof (realpath_canon _ _ _ CW2 RQ) as CQ.
  unfold open_path in EO. unfold realpath in RQ. destruct (p_empty p) eqn:EP; [discriminate|].
  pose proof (open_then_walk _ _ _ _ _ _ _ _ EO) as [W EA]. unfold start_of in W. rewrite <- (g_cwd _ _ G2) in W.
  unfold start_of in RQ. rewrite RQ in W. injection W as ->. apply open_cases in EO.
  destruct (fc_overwrite g) eqn:OV.
  - unfold open_path in H. cbn [place_path p_empty p_root negb andb start_of p_parts] in H. rewrite (open_self _ _ _ _ CQ EA) in H.
    destruct (f_perm f2 p0); [|injection H as <- <-; auto]. injection H as <- <-. right. exists d, p0, id.
    split; [reflexivity|]. split; [reflexivity|]. split; [reflexivity|]. auto.
  - injection H as <- <-. right. exists d, p0, id. split; [reflexivity|]. split; [reflexivity|].
    split; [reflexivity|]. split; [exact PF|]. split; [exact CQ|]. split; [exact EA|]. split; [reflexivity|].
    destruct EO as [(_ & D & _)|(-> & -> & EN & _)]; [discriminate|]. exists f1. auto.
Qed.

(** The file an upload is stored in is inside the served directory, is empty, and unless overwriting is
    allowed did not exist before. *)
Theorem upload_target : forall f g name f' id, consistent f -> create_server_writer f g name = (f', Some id) ->
  exists d q, realpath f' (parse_path (fc_dir g)) = Some d /\ below d q /\ real_place f' q /\
    at_ f' q = Some (NFile id) /\ f_data f' id = [] /\
    (fc_overwrite g = false -> at_ f q = None /\ forall p, at_ f p <> Some (NFile id)).
Proof.
  intros f g name f' id [CW HI] H. destruct (writer_cases _ _ _ _ _ CW H) as (f2 & G & [[_ D]|(d & q & i & [= <-] & RD & RQ & B & CQ & EA & HF)]); [discriminate|].
  exists d, q. destruct (fc_overwrite g).
  - subst f'. split; [|split; [exact B|]].
    + unfold realpath, start_of in *. cbn [f_cwd set_data]. destruct (p_empty _); [discriminate|]. rewrite <- RD. apply walk_ext. intros; apply at_set.
    + split; [eapply dirs_ext; [intros; apply at_set|apply canon_real; exact CQ]|]. rewrite at_set. split; [exact EA|].
      split; [cbn; rewrite N.eqb_refl; reflexivity|discriminate].
  - destruct HF as (-> & f1 & G1 & -> & -> & EN). split; [exact RD|]. split; [exact B|]. split; [apply canon_real; exact CQ|]. split; [exact EA|].
    split; [rewrite data_new, N.eqb_refl; reflexivity|]. intros _. split.
    + destruct (at_ f q) eqn:E; [|reflexivity]. apply (g_keep _ _ G1) in E. congruence.
    + intros p E. apply HI in E. pose proof (g_next _ _ G1). lia.
Qed.
(** No upload request, accepted or not, removes, renames or changes anything but the contents of the file
    it is accepted for, and that only when overwriting is allowed. *)
Theorem upload_harmless : forall f g name f' r, consistent f -> create_server_writer f g name = (f', r) ->
  consistent f' /\ only_adds f f' (fun id => fc_overwrite g = true /\ r = Some id).
Proof.
  intros f g name f' r [CW HI] H. destruct (writer_cases _ _ _ _ _ CW H) as (f2 & G & C).
  assert (C2 : consistent f2).
  { split; [rewrite (g_cwd _ _ G); eapply grows_dirs; eassumption|apply (grows_ids _ _ G HI)]. }
  assert (A : forall P, only_adds f f2 P).
  { intros P. split; [apply (g_keep _ _ G)|]. split.
    - intros p x E1 E2. destruct (g_new _ _ G _ _ E1 E2) as [->|(id & -> & L & _ & D)]; [auto|]. right. exists id. auto.
    - intros id L _. apply (g_data _ _ G). exact L. }
  destruct C as [[-> ->]|(d & q & id & -> & RD & RQ & B & CQ & EA & HF)]; [auto|].
  destruct (fc_overwrite g); [|destruct HF as (-> & _); auto]. subst f'. split.
  - destruct C2 as [D2 I2]. split; [cbn [f_cwd set_data]; eapply dirs_ext; [intros; apply at_set|exact D2]|].
    intros p i E. rewrite at_set in E. cbn [f_next set_data]. eapply I2. exact E.
  - destruct (A (fun _ => False)) as (A1 & A2 & A3). split; [intros p x E; rewrite at_set; auto|]. split.
    + intros p x E1 E2. rewrite at_set in E2. destruct (A2 _ _ E1 E2) as [->|(i & -> & L & D)]; [auto|]. right. exists i.
      split; [reflexivity|]. split; [exact L|]. cbn [f_data set_data]. destruct (i =? id); [reflexivity|exact D].
    + intros i L NC. cbn [f_data set_data]. destruct (N.eqb_spec i id) as [->|]; [destruct NC; auto|]. apply A3; [exact L|tauto].
Qed.

(** A request with a clean name (which the server makes of every name, C05) into a directory without
    symbolic links leaves everything outside alone, accepted or not; the file has the requested name. *)
Lemma walk_in_dir f d dir (r : place) : realpath f dir = Some d -> dirs f d ->
  exists k, walk MAX_LINKS f (start_of f dir) (p_parts dir ++ r) = walk k f d r.
Proof.
  intros RD HD. unfold realpath in RD. destruct (p_empty dir); [discriminate|]. apply walk_app; [exact RD|apply dirs_at; exact HD].
Qed.
Lemma open_in_dir excl f d dir (r : place) : realpath f dir = Some d -> dirs f d -> r <> [] ->
  exists k, open_create MAX_LINKS excl f (start_of f dir) (p_parts dir ++ r) = open_create k excl f d r.
Proof.
  intros RD HD NR. unfold realpath in RD. destruct (p_empty dir); [discriminate|]. apply open_app; [exact NR|exact RD|apply dirs_at; exact HD].
Qed.
Lemma starts_clean dir (cs : list bytes) : starts_with (mkP (p_root dir) (p_dot dir) (p_parts dir ++ cs)) dir = true.
Proof. unfold starts_with. apply prefix_of_iff. exists cs. unfold comps. cbn [p_root p_dot p_parts]. rewrite <- !app_assoc. reflexivity. Qed.
Lemma parent_clean dir (cs : list bytes) : cs <> [] ->
  parent (mkP (p_root dir) (p_dot dir) (p_parts dir ++ cs)) = Some (mkP (p_root dir) (p_dot dir) (p_parts dir ++ removelast cs)).
Proof.
  intros NE. unfold parent. cbn [p_parts p_root p_dot]. rewrite removelast_app by exact NE.
  destruct (p_parts dir ++ cs) eqn:E; [|reflexivity]. apply app_eq_nil in E as [_ ->]. congruence.
Qed.
Theorem upload_stays_inside : forall f g name (cs : list bytes) d f' r, consistent f -> clean_path name cs ->
  realpath f (parse_path (fc_dir g)) = Some d -> at_ f d = Some NDir -> no_links f d ->
  create_server_writer f g name = (f', r) ->
  (forall p x, at_ f p = None -> at_ f' p = Some x -> below d p) /\
  (forall id, r = Some id -> at_ f' (d ++ cs) = Some (NFile id)).
Proof.
  intros f g name cs d f' r [CW HI] HC RD AD NL H.
  assert (HD : dirs f d) by (destruct (realpath_canon _ _ _ CW RD) as [|(p & c & id & -> & _ & _ & D)]; [assumption|congruence]).
  pose proof (writer_cases _ _ _ _ _ CW H) as WC.
  unfold create_server_writer in H. destruct (clean_pieces _ _ HC) as (_ & ND & NE & _).
  destruct (validate_path _ _); [|injection H as <- <-; split; [intros; congruence|discriminate]]. cbn zeta in H.
  rewrite (join_clean _ _ _ _ _ RD HC) in *. set (dir := parse_path (fc_dir g)) in *. rewrite starts_clean, parent_clean in H by exact NE.
  set (pp := mkP (p_root dir) (p_dot dir) (p_parts dir ++ removelast cs)) in *.
  destruct (if is_dir f pp then (f, true) else create_dir_all (List.length (p_parts pp)) f pp) as [f1 ok] eqn:E1.
  assert (S1 : grows f f1 /\ adds_below d f f1).
  { destruct (is_dir f pp); [injection E1 as <- <-; split; [apply grows_refl|apply adds_refl]|].
    split; [eapply create_dir_all_grows; exact E1|]. eapply (create_below _ f d pp (removelast cs)); [exact CW|exact HD|exact NL| | |exact E1].
    - intros I. apply ND. rewrite (app_removelast_last ([] : bytes) NE). apply in_or_app. auto.
    - split; [apply (not_empty f d); exact RD|]. exists (p_parts dir). split; [reflexivity|]. unfold start_of. cbn [p_root].
      unfold realpath in RD. destruct (p_empty dir); [discriminate|exact RD]. }
  destruct S1 as [G1 A1]. destruct ok; [|injection H as <- <-; split; [exact A1|discriminate]].
  pose proof (realpath_grows _ _ _ _ G1 RD) as RD1. pose proof (grows_dirs _ _ _ G1 HD) as HD1. pose proof (grows_no_links _ _ _ G1 NL) as NL1.
  set (p := mkP (p_root dir) (p_dot dir) (p_parts dir ++ cs)) in *.
  destruct (open_path (negb (fc_overwrite g)) f1 p) as [f2 o] eqn:EO. pose proof (open_path_grows _ _ _ _ _ EO) as G2.
  assert (A2 : adds_below d f1 f2).
  { unfold open_path in EO. assert (EP : p_empty p = false) by (apply (not_empty f d); exact RD). rewrite EP in EO. cbn [p_parts p] in EO.
    destruct (open_in_dir (negb (fc_overwrite g)) f1 d dir cs RD1 HD1 NE) as [k W]. unfold start_of in *. cbn [p_root p] in EO. rewrite W in EO.
    pose proof (open_cases _ _ _ _ _ _ _ EO) as OC. destruct o as [[p0 id]|]; [|subst f2; apply adds_refl].
    destruct OC as [(-> & _)|(-> & _ & _ & d1 & c1 & ->)]; [apply adds_refl|].
    pose proof (open_below (negb (fc_overwrite g)) f1 d k NL1 cs []) as OB. rewrite app_nil_r in OB. specialize (OB _ _ _ ND EO).
    intros q x N1 N2. rewrite at_new in N2. destruct (place_eqb q (d1 ++ [c1])) eqn:EQ; [|congruence]. apply place_eqb_iff in EQ. subst q. exact OB. }
  assert (A : adds_below d f f2) by (eapply adds_trans; eassumption). assert (G : grows f f2) by (eapply grows_trans; eassumption).
  assert (SD : forall i, adds_below d f (set_data f2 i [])) by (intros i q x N1 N2; rewrite at_set in N2; eapply A; eassumption).
  split.
  - destruct o as [[p0 id]|]; [|injection H as <- <-; exact A].
    destruct (realpath f2 dir) as [d2|]; [|injection H as <- <-; exact A]. destruct (realpath f2 p) as [q|] eqn:RQ; [|injection H as <- <-; exact A].
    destruct (prefix_of d2 q); [|injection H as <- <-; exact A]. destruct (fc_overwrite g); [|injection H as <- <-; exact A].
    assert (CW2 : dirs f2 (f_cwd f2)) by (rewrite (g_cwd _ _ G); eapply grows_dirs; eassumption).
    pose proof (realpath_canon _ _ _ CW2 RQ) as CQ.
    unfold realpath in RQ. unfold open_path in EO. destruct (p_empty p); [discriminate|].
    pose proof (open_then_walk _ _ _ _ _ _ _ _ EO) as [W EA]. unfold start_of in *. rewrite <- (g_cwd _ _ G2) in W. rewrite RQ in W. injection W as ->.
    unfold open_path in H. cbn [place_path p_empty p_root negb andb start_of p_parts] in H. rewrite (open_self _ _ _ _ CQ EA) in H.
    destruct (f_perm f2 p0); injection H as <- <-; [apply SD|exact A].
  - intros id ->. destruct WC as (f3 & G3 & [[_ D]|(d3 & q & i & [= <-] & RD3 & RQ & _ & _ & EA & HF)]); [discriminate|].
    assert (Q : q = d ++ cs).
    { pose proof (realpath_grows _ _ _ _ G3 RD) as RD3'. pose proof (grows_dirs _ _ _ G3 HD) as HD3. pose proof (grows_no_links _ _ _ G3 NL) as NL3.
      unfold realpath in RQ. destruct (p_empty p); [discriminate|]. cbn [p_parts p] in RQ.
      destruct (walk_in_dir f3 d dir cs RD3' HD3) as [k W]. unfold start_of in *. cbn [p_root p] in RQ. rewrite W in RQ.
      pose proof (walk_exact f3 d k NL3 cs [] q ND) as X. rewrite app_nil_r in X. apply X. exact RQ. }
    subst q. destruct (fc_overwrite g); [subst f'; rewrite at_set; exact EA|destruct HF as (-> & _); exact EA].
Qed.

(** ** Uploads succeed: new files (in directories that are there or are made), and replaced ones. *)
Lemma mkdir_there f p d : dirs f (f_cwd f) -> p_empty p = false -> walk MAX_LINKS f (start_of f p) (p_parts p) = Some d ->
  mkdir f p = (f, Some false).
Proof.
  intros CW E EW. unfold mkdir. rewrite E. destruct (p_parts p) as [|x pd0] eqn:EPD; [reflexivity|].
  rewrite <- EPD in *. assert (NE : p_parts p <> []) by congruence. 
  pose proof EW as EW0. rewrite (app_removelast_last ([] : bytes) NE) in EW0.
  destruct (walk_prefix f MAX_LINKS _ _ _ _ _ (start_dirs _ p CW) EW0) as (d0 & W0 & D0).
  rewrite W0. cbn zeta. destruct (beq (last (p_parts p) []) DD) eqn:EC; [reflexivity|].
  rewrite (dirs_at _ _ D0). destruct (at_ f (d0 ++ _)) eqn:EA; [reflexivity|].
  exfalso. destruct (walk_app _ _ _ _ _ [last (p_parts p) []] W0 (dirs_at _ _ D0)) as [k' W1]. rewrite W1 in EW0.
  rewrite walk_unfold, EC, EA in EW0. discriminate.
Qed.
Definition under (dir : FsModel.path) (r : place) : FsModel.path := mkP (p_root dir) (p_dot dir) (p_parts dir ++ r).
Lemma ne_under (f : fs) d dir (r : place) : realpath f dir = Some d -> p_empty (under dir r) = false.
Proof. apply not_empty. Qed.
Lemma start_under f dir r : start_of f (under dir r) = start_of f dir.
Proof. reflexivity. Qed.
Lemma mkdir_new f d dir (r : place) (c : bytes) : realpath f dir = Some d -> dirs f (d ++ r) -> ~ In DD (r ++ [c]) ->
  at_ f (d ++ r ++ [c]) = None -> f_perm f (d ++ r ++ [c]) = true ->
  mkdir f (under dir (r ++ [c])) = (add_node f (d ++ r ++ [c]) NDir, Some true).
Proof.
  intros RD HD ND EA HP. unfold mkdir. rewrite (ne_under f d dir (r ++ [c]) RD). cbn [p_parts under].
  rewrite app_assoc. destruct ((p_parts dir ++ r) ++ [c]) as [|x l] eqn:EL; [destruct (p_parts dir ++ r); discriminate|]. rewrite <- EL.
  rewrite removelast_last, last_last, start_under, (dir_walk f d r dir RD HD).
  - cbn zeta. assert (EC : beq c DD = false) by (apply beq_neq; intros ->; apply ND; apply in_or_app; right; left; reflexivity).
    rewrite EC, (dirs_at _ _ HD), <- app_assoc, EA, HP. reflexivity.
  - intros I. apply ND. apply in_or_app. auto.
Qed.
Lemma is_dir_under f d dir (r : place) : realpath f dir = Some d -> dirs f (d ++ r) -> ~ In DD r -> is_dir f (under dir r) = true.
Proof.
  intros RD HD ND. unfold is_dir, realpath. rewrite (ne_under f d dir r RD). cbn [p_parts under]. rewrite start_under, (dir_walk f d r dir RD HD ND), (dirs_at _ _ HD). reflexivity.
Qed.
Lemma add_dir_dirs f p (c : bytes) : dirs f p -> c <> DD -> at_ f (p ++ [c]) = None -> dirs (add_node f (p ++ [c]) NDir) (p ++ [c]).
Proof.
  intros HD NC EA. constructor; [eapply grows_dirs; [apply add_dir_grows; exact EA|exact HD]|exact NC|].
  rewrite at_add, place_eqb_refl. reflexivity.
Qed.
Lemma mkdir_missing f d dir (a b : place) (c : bytes) : dirs f (f_cwd f) -> realpath f dir = Some d -> dirs f (d ++ a) -> ~ In DD (a ++ b) ->
  b <> [] -> (forall x y, b = x ++ y -> x <> [] -> at_ f (d ++ a ++ x) = None) -> mkdir f (under dir ((a ++ b) ++ [c])) = (f, None).
Proof.
  intros CW RD HD ND NB HN. unfold mkdir. rewrite (ne_under f d dir _ RD). cbn [p_parts under].
  rewrite app_assoc. destruct ((p_parts dir ++ a ++ b) ++ [c]) as [|x l] eqn:EL; [destruct (p_parts dir ++ a ++ b); discriminate|]. rewrite <- EL.
  rewrite removelast_last, start_under. assert (HD0 : dirs f d) by (eapply dirs_app; exact HD).
  destruct (walk_in_dir f d dir (a ++ b) RD HD0) as [k W]. rewrite W.
  assert (NA : ~ In DD a) by (intros I; apply ND; apply in_or_app; auto).
  destruct (walk_app f k d a (d ++ a) b (walk_along f k a d NA HD) (dirs_at _ _ HD)) as [k' W']. rewrite W'.
  destruct b as [|b0 b1]; [congruence|]. rewrite walk_unfold.
  assert (EC : beq b0 DD = false) by (apply beq_neq; intros ->; apply ND; apply in_or_app; right; left; reflexivity).
  assert (EN : at_ f ((d ++ a) ++ [b0]) = None) by (rewrite <- app_assoc; apply (HN [b0] b1); [reflexivity|discriminate]).
  rewrite EC, EN. reflexivity.
Qed.
Lemma make_dirs f d dir (a : place) : dirs f (f_cwd f) -> realpath f dir = Some d -> dirs f (d ++ a) ->
  forall (b : place) k, ~ In DD (a ++ b) -> (List.length b <= k)%nat ->
  (forall x y, b = x ++ y -> x <> [] -> at_ f (d ++ a ++ x) = None /\ f_perm f (d ++ a ++ x) = true) ->
  exists f', create_dir_all k f (under dir (a ++ b)) = (f', true) /\ grows f f' /\ dirs f' (d ++ a ++ b) /\
    forall p, (forall x y, b = x ++ y -> p <> d ++ a ++ x) -> at_ f' p = at_ f p.
Proof.
  intros CW RD HD. induction b as [|c b IH] using rev_ind; intros k ND HK HN.
  - rewrite app_nil_r in *. exists f. split; [|split; [apply grows_refl|auto]].
    assert (M : mkdir f (under dir a) = (f, Some false)).
    { eapply mkdir_there; [exact CW|apply (ne_under f d); exact RD|]. cbn [p_parts under]. rewrite start_under. apply (dir_walk f d a dir RD HD ND). }
    destruct k; cbn [create_dir_all]; rewrite (ne_under f d dir a RD), M, (is_dir_under f d dir a RD HD ND); reflexivity.
  - rewrite app_length in HK. cbn [List.length] in HK. destruct k as [|k]; [lia|].
    assert (NDb : ~ In DD (a ++ b)) by (intros I; apply ND; rewrite app_assoc; apply in_or_app; auto).
    assert (NC : c <> DD) by (intros ->; apply ND; rewrite app_assoc; apply in_or_app; right; left; reflexivity).
    assert (ND' : ~ In DD ((a ++ b) ++ [c])) by (rewrite <- app_assoc; exact ND).
    assert (HN' : forall x y, b = x ++ y -> x <> [] -> at_ f (d ++ a ++ x) = None /\ f_perm f (d ++ a ++ x) = true).
    { intros x y -> NX. apply (HN x (y ++ [c])); [rewrite app_assoc; reflexivity|exact NX]. }
    destruct (HN (b ++ [c]) [] ltac:(rewrite app_nil_r; reflexivity) ltac:(destruct b; discriminate)) as [EA HP].
    assert (FIN : forall f2, grows f f2 -> dirs f2 (d ++ a ++ b) -> (forall p, (forall x y, b = x ++ y -> p <> d ++ a ++ x) -> at_ f2 p = at_ f p) ->
      mkdir f2 (under dir (a ++ b ++ [c])) = (add_node f2 ((d ++ a ++ b) ++ [c]) NDir, Some true) /\
      grows f (add_node f2 ((d ++ a ++ b) ++ [c]) NDir) /\ dirs (add_node f2 ((d ++ a ++ b) ++ [c]) NDir) ((d ++ a ++ b) ++ [c]) /\
      forall p, (forall x y, b ++ [c] = x ++ y -> p <> d ++ a ++ x) -> at_ (add_node f2 ((d ++ a ++ b) ++ [c]) NDir) p = at_ f p).
    { intros f2 G HD2 FR.
      assert (EA2 : at_ f2 ((d ++ a ++ b) ++ [c]) = None).
      { rewrite FR; [rewrite <- !app_assoc; exact EA|]. intros x y -> E. rewrite <- !app_assoc in E. apply app_inv_head in E. apply app_inv_head in E.
        rewrite <- (app_nil_r x) in E at 2. apply app_inv_head in E. destruct y; discriminate. }
      assert (EQ : (d ++ a ++ b) ++ [c] = d ++ (a ++ b) ++ [c]) by (rewrite <- !app_assoc; reflexivity).
      split; [|split; [|split]].
      - rewrite app_assoc, EQ. apply mkdir_new; [apply (realpath_grows _ _ _ _ G RD)|exact HD2|exact ND'|rewrite <- EQ; exact EA2|].
        rewrite (g_perm _ _ G), <- !app_assoc. exact HP.
      - eapply grows_trans; [exact G|apply add_dir_grows; exact EA2].
      - apply add_dir_dirs; assumption.
      - intros p NP. rewrite at_add. destruct (place_eqb p _) eqn:EP.
        + apply place_eqb_iff in EP. destruct (NP (b ++ [c]) [] ltac:(rewrite app_nil_r; reflexivity)). rewrite EP, <- !app_assoc. reflexivity.
        + apply FR. intros x y -> . apply (NP x (y ++ [c])). rewrite app_assoc. reflexivity. }
    cbn [create_dir_all]. rewrite (ne_under f d dir _ RD). destruct b as [|b0 b1] eqn:EB.
    + rewrite app_nil_r in FIN. destruct (FIN f (grows_refl f) HD ltac:(auto)) as (M & G & HD' & FR). rewrite M. cbn [app].
      eexists. split; [reflexivity|]. split; [exact G|]. split; [rewrite app_assoc; exact HD'|exact FR].
    + rewrite <- EB in *. assert (NB : b <> []) by (rewrite EB; discriminate). clear b0 b1 EB.
      destruct (IH k NDb ltac:(lia) HN') as (f2 & C2 & G2 & HD2 & FR2).
      assert (MM : mkdir f (under dir (a ++ b ++ [c])) = (f, None)).
      { rewrite app_assoc. eapply mkdir_missing; try eassumption. intros x y E NX. apply (HN' x y E NX). }
      destruct (FIN f2 G2 HD2 FR2) as (M & G & HD' & FR). rewrite MM.
      assert (PE : parent (under dir (a ++ b ++ [c])) = Some (under dir (a ++ b))).
      { unfold under at 1. rewrite parent_clean by (destruct a, b; discriminate). rewrite app_assoc, removelast_last. reflexivity. }
      rewrite PE, C2, M. eexists. split; [reflexivity|]. split; [exact G|]. split; [|exact FR]. rewrite !app_assoc. rewrite !app_assoc in HD'. exact HD'.
Qed.
Lemma starts_under dir r : starts_with (under dir r) dir = true.
Proof. apply starts_clean. Qed.
Lemma upload_rest f f1 g name (cs : list bytes) (c : bytes) d : consistent f -> grows f f1 ->
  clean_path name (cs ++ [c]) -> separators name <= fc_depth g ->
  realpath f (parse_path (fc_dir g)) = Some d ->
  (if is_dir f (under (parse_path (fc_dir g)) cs) then (f, true)
   else create_dir_all (List.length (p_parts (parse_path (fc_dir g)) ++ cs)) f (under (parse_path (fc_dir g)) cs)) = (f1, true) ->
  dirs f1 (d ++ cs) ->
  create_server_writer f g name =
  match at_ f1 (d ++ cs ++ [c]) with
  | None => if f_perm f (d ++ cs ++ [c]) then
              (if fc_overwrite g then set_data (new_file f1 (d ++ cs ++ [c])) (f_next f1) [] else new_file f1 (d ++ cs ++ [c]), Some (f_next f1))
            else (f1, None)
  | Some (NFile id) => if fc_overwrite g && f_perm f (d ++ cs ++ [c]) then (set_data f1 id [], Some id) else (f1, None)
  | Some NDir => (f1, None)
  | Some (NLink _) => create_server_writer f g name
  end.
Proof.
  intros [CW HI] G HC HS RD E1 HD1. destruct (clean_pieces _ _ HC) as (_ & ND & _ & _).
  apply (clean_depth _ _ HC) in HS. unfold create_server_writer. rewrite HS. cbn zeta. rewrite (join_clean _ _ _ _ _ RD HC).
  set (dir := parse_path (fc_dir g)) in *. fold (under dir (cs ++ [c])).
  assert (PE : parent (under dir (cs ++ [c])) = Some (under dir cs)).
  { unfold under at 1. rewrite parent_clean by (destruct cs; discriminate). rewrite removelast_last. reflexivity. }
  rewrite starts_under, PE. cbn [p_parts under] in E1 |- *. fold (under dir cs) (under dir (cs ++ [c])) in *. rewrite E1.
  assert (NC : beq c DD = false) by (apply beq_neq; intros ->; apply ND; apply in_or_app; right; left; reflexivity).
  assert (RD1 : realpath f1 dir = Some d) by (eapply realpath_grows; eassumption).
  assert (HD0 : dirs f1 d) by (eapply dirs_app; exact HD1).
  assert (OP : exists k, open_path (negb (fc_overwrite g)) f1 (under dir (cs ++ [c])) = open_create k (negb (fc_overwrite g)) f1 (d ++ cs) [c]).
  { unfold open_path. rewrite (ne_under f1 d dir _ RD1), start_under. cbn [p_parts under].
    destruct (open_in_dir (negb (fc_overwrite g)) f1 d dir (cs ++ [c]) RD1 HD0 ltac:(destruct cs; discriminate)) as [k W]. exists k. rewrite W.
    apply open_along; assumption. }
  destruct OP as [k OP]. rewrite OP, open_unfold, NC, <- app_assoc.
  assert (RP : forall f2 id, grows f1 f2 -> at_ f2 (d ++ cs ++ [c]) = Some (NFile id) ->
    canon f2 (d ++ cs ++ [c]) /\ realpath f2 dir = Some d /\ realpath f2 (under dir (cs ++ [c])) = Some (d ++ cs ++ [c])).
  { intros f2 id G2 EA. assert (RD2 : realpath f2 dir = Some d) by (eapply realpath_grows; eassumption).
    assert (HD2 : dirs f2 (d ++ cs)) by (eapply grows_dirs; eassumption). split; [|split; [exact RD2|]].
    - right. exists (d ++ cs), c, id. split; [rewrite app_assoc; reflexivity|]. split; [exact HD2|]. split; [apply beq_neq; exact NC|exact EA].
    - unfold realpath. rewrite (ne_under f2 d dir _ RD2), start_under. cbn [p_parts under]. eapply file_walk; eassumption. }
  assert (PF : prefix_of d (d ++ cs ++ [c]) = true) by (apply prefix_of_iff; eauto).
  destruct (at_ f1 (d ++ cs ++ [c])) as [[id| |t]|] eqn:EA.
  - rewrite (g_perm _ _ G). destruct (fc_overwrite g); cbn [negb andb]; [|reflexivity].
    destruct (f_perm f (d ++ cs ++ [c])) eqn:HP; [|reflexivity].
    destruct (RP f1 id (grows_refl f1) EA) as (CN & R1 & R2). rewrite R1, R2, PF.
    unfold open_path. cbn [place_path p_empty p_root negb andb start_of p_parts]. rewrite (open_self _ _ _ _ CN EA), (g_perm _ _ G), HP. reflexivity.
  - rewrite open_unfold. reflexivity.
  - reflexivity.
  - rewrite (g_perm _ _ G). destruct (f_perm f (d ++ cs ++ [c])) eqn:HP; [|reflexivity].
    assert (G2 : grows f1 (new_file f1 (d ++ cs ++ [c]))) by (rewrite app_assoc in *; apply new_file_grows; exact EA).
    assert (EA2 : at_ (new_file f1 (d ++ cs ++ [c])) (d ++ cs ++ [c]) = Some (NFile (f_next f1))) by (rewrite app_assoc, at_new, place_eqb_refl; reflexivity).
    destruct (RP _ _ G2 EA2) as (CN & R1 & R2). rewrite R1, R2, PF. destruct (fc_overwrite g); [|reflexivity].
    unfold open_path. cbn [place_path p_empty p_root negb andb start_of p_parts]. rewrite (open_self _ _ _ _ CN EA2).
    rewrite (g_perm _ _ G2), (g_perm _ _ G), HP. reflexivity.
Qed.
Theorem upload_accepted : forall f g name (a b : list bytes) (c : bytes) d, consistent f ->
  clean_path name (a ++ b ++ [c]) -> separators name <= fc_depth g ->
  realpath f (parse_path (fc_dir g)) = Some d ->
  dirs f (d ++ a) ->  (* the part of the path that exists ... *)
  (forall x y, b ++ [c] = x ++ y -> x <> [] -> at_ f (d ++ a ++ x) = None /\ f_perm f (d ++ a ++ x) = true) ->  (* ... and the rest *)
  exists f' id, create_server_writer f g name = (f', Some id) /\ at_ f' (d ++ a ++ b ++ [c]) = Some (NFile id) /\
    f_data f' id = [] /\ dirs f' (d ++ a ++ b).
Proof.
  intros f g name a b c d HF HC HS RD HD HN. pose proof HF as [CW HI]. destruct (clean_pieces _ _ HC) as (_ & ND & _ & _).
  set (dir := parse_path (fc_dir g)) in *.
  assert (NDb : ~ In DD (a ++ b)) by (intros I; apply ND; rewrite app_assoc; apply in_or_app; auto).
  assert (S : exists f1, grows f f1 /\ (if is_dir f (under dir (a ++ b)) then (f, true)
   else create_dir_all (List.length (p_parts dir ++ a ++ b)) f (under dir (a ++ b))) = (f1, true) /\ dirs f1 (d ++ a ++ b) /\
     at_ f1 (d ++ (a ++ b) ++ [c]) = None).
  { destruct (make_dirs f d dir a CW RD HD b (List.length (p_parts dir ++ a ++ b)) NDb ltac:(rewrite !app_length; lia)) as (f1 & C1 & G1 & D1 & FR).
    { intros x y -> NX. apply (HN x (y ++ [c])); [rewrite app_assoc; reflexivity|exact NX]. }
    assert (EA : at_ f (d ++ (a ++ b) ++ [c]) = None).
    { rewrite <- app_assoc. apply (HN (b ++ [c]) []); [rewrite app_nil_r; reflexivity|destruct b; discriminate]. }
    destruct (is_dir f (under dir (a ++ b))) eqn:ID.
    - exists f. split; [apply grows_refl|]. split; [reflexivity|]. split; [|exact EA].
      unfold is_dir, realpath in ID. rewrite (ne_under f d dir _ RD), start_under in ID. cbn [p_parts under] in ID.
      destruct b as [|b0 b1]; [rewrite app_nil_r; exact HD|]. exfalso.
      assert (HD0 : dirs f d) by (eapply dirs_app; exact HD).
      destruct (walk_in_dir f d dir (a ++ b0 :: b1) RD HD0) as [k W]. rewrite W in ID.
      assert (NA : ~ In DD a) by (intros I; apply ND; apply in_or_app; auto).
      destruct (walk_app f k d a (d ++ a) (b0 :: b1) (walk_along f k a d NA HD) (dirs_at _ _ HD)) as [k' W']. rewrite W', walk_unfold in ID.
      assert (EC : beq b0 DD = false) by (apply beq_neq; intros ->; apply ND; apply in_or_app; right; left; reflexivity).
      assert (EN : at_ f ((d ++ a) ++ [b0]) = None) by (rewrite <- app_assoc; apply (HN [b0] (b1 ++ [c])); [reflexivity|discriminate]).
      rewrite EC, EN in ID. discriminate.
    - exists f1. split; [exact G1|]. split; [exact C1|]. split; [exact D1|]. rewrite FR; [exact EA|].
      intros x y -> E. rewrite <- !app_assoc in E. apply app_inv_head in E. apply app_inv_head in E.
      rewrite <- (app_nil_r x) in E at 2. apply app_inv_head in E. destruct y; discriminate. }
  destruct S as (f1 & G1 & E1 & D1 & EA).
  rewrite app_assoc in HC. pose proof (upload_rest f f1 g name (a ++ b) c d HF G1 HC HS RD E1 D1) as U. rewrite EA in U.
  destruct (HN (b ++ [c]) [] ltac:(rewrite app_nil_r; reflexivity) ltac:(destruct b; discriminate)) as [_ HP].
  rewrite <- app_assoc, HP in U. rewrite U. eexists _, _. split; [reflexivity|].
  assert (EQ : d ++ a ++ b ++ [c] = (d ++ a ++ b) ++ [c]) by (rewrite <- !app_assoc; reflexivity). rewrite EQ.
  assert (NW : at_ f1 ((d ++ a ++ b) ++ [c]) = None) by (rewrite <- EA, <- !app_assoc; reflexivity).
  pose proof (grows_dirs _ _ _ (new_file_grows f1 (d ++ a ++ b) c NW) D1) as DN.
  destruct (fc_overwrite g).
  - rewrite at_set, at_new, place_eqb_refl. split; [reflexivity|]. split; [cbn; rewrite N.eqb_refl; reflexivity|].
    eapply dirs_ext; [intros; apply at_set|exact DN].
  - rewrite at_new, place_eqb_refl. split; [reflexivity|]. split; [rewrite data_new, N.eqb_refl; reflexivity|exact DN].
Qed.
(** A file that is there is emptied and used if overwriting is allowed, and refused (and kept) otherwise. *)
Theorem upload_existing : forall f g name (cs : list bytes) (c : bytes) d id, consistent f ->
  clean_path name (cs ++ [c]) -> separators name <= fc_depth g ->
  realpath f (parse_path (fc_dir g)) = Some d ->
  dirs f (d ++ cs) -> at_ f (d ++ cs ++ [c]) = Some (NFile id) ->
  create_server_writer f g name = if fc_overwrite g && f_perm f (d ++ cs ++ [c]) then (set_data f id [], Some id) else (f, None).
Proof.
  intros f g name cs c d id HF HC HS RD HD EA. destruct (clean_pieces _ _ HC) as (_ & ND & _ & _).
  assert (NDc : ~ In DD cs) by (intros I; apply ND; apply in_or_app; auto).
  rewrite (upload_rest f f g name cs c d HF (grows_refl f) HC HS RD); [rewrite EA; reflexivity| |exact HD].
  rewrite (is_dir_under f d _ cs RD HD NDc). reflexivity.
Qed.

(** ** Cases *)
(** /srv (served) with a.txt, sub/b.txt, out -> /etc and up -> sub; /etc/passwd outside. *)
Definition ex_tree : list (place * node) :=
  [([s2b "srv"], NDir); ([s2b "srv"; s2b "a.txt"], NFile 0); ([s2b "srv"; s2b "sub"], NDir); ([s2b "srv"; s2b "sub"; s2b "b.txt"], NFile 1);
   ([s2b "srv"; s2b "out"], NLink (s2b "/etc")); ([s2b "srv"; s2b "up"], NLink (s2b "sub")); ([s2b "etc"], NDir); ([s2b "etc"; s2b "passwd"], NFile 2)].
Definition ex_look (t : list (place * node)) (p : place) : option node :=
  match find (fun x => place_eqb (fst x) p) t with Some (_, n) => Some n | None => None end.
Definition ex_children (t : list (place * node)) (p : place) : list bytes :=
  map (fun x => last (fst x) []) (filter (fun x => place_eqb (removelast (fst x)) p) t).
Definition ex_fs_of (t : list (place * node)) : fs := mkFs (ex_look t) (fun i => [i]) 3 [] (fun _ => true) (ex_children t).
Definition ex_fs : fs := ex_fs_of ex_tree.
Definition ex_g (ow : bool) : fcfg := mkFcfg (s2b "/srv") ow (Some (s2b "list.txt")) 3.

Lemma ex_consistent : consistent ex_fs.
Proof.
  split; [constructor|]. intros p id. destruct p as [|a p]; [discriminate|]. unfold at_, ex_fs, ex_fs_of, ex_look. cbn [f_tree f_next].
  destruct (find _ ex_tree) as [[q n]|] eqn:F; [|discriminate]. intros [= ->]. apply find_some in F as [F _].
  unfold ex_tree in F. cbn [In] in F. repeat (destruct F as [F|F]; [first [discriminate F | injection F as <- <-; reflexivity]|]). destruct F.
Qed.
Example served_case :
  create_server_reader ex_fs (ex_g false) (s2b "sub/b.txt") = Some (SFile 1) /\
  create_server_reader ex_fs (ex_g false) (s2b "up/b.txt") = Some (SFile 1) /\
  create_server_reader ex_fs (ex_g false) (s2b "out/passwd") = None /\
  create_server_reader ex_fs (ex_g false) (s2b "../etc/passwd") = None /\
  create_server_reader ex_fs (ex_g false) (s2b "/etc/passwd") = None /\
  create_server_reader ex_fs (ex_g false) (s2b "sub/list.txt") = Some (SList (s2b "sub/b.txt" ++ [10])) /\
  create_server_reader ex_fs (ex_g false) (s2b "list.txt") =
    Some (SList (s2b "a.txt" ++ [10] ++ s2b "sub/" ++ [10] ++ s2b "out" ++ [10] ++ s2b "up" ++ [10])).
Proof. do 6 (split; [vm_compute; reflexivity|]). vm_compute. reflexivity. Qed.
Lemma clean_check name : normalize None name = Some name -> exists cs, clean_path name cs.
Proof. intros H. destruct (name_confined _ _ H) as (_ & ks & _ & _ & HC & HD & _). exists ks. split; assumption. Qed.
Example upload_case :
  exists f' id, create_server_writer ex_fs (ex_g false) (s2b "new/dir/c.txt") = (f', Some id) /\
    at_ f' [s2b "srv"; s2b "new"; s2b "dir"; s2b "c.txt"] = Some (NFile id) /\ at_ f' [s2b "srv"; s2b "new"] = Some NDir.
Proof. eexists _, _. split; [vm_compute; reflexivity|]. split; vm_compute; reflexivity. Qed.
Example overwrite_case :
  snd (create_server_writer ex_fs (ex_g false) (s2b "a.txt")) = None /\
  snd (create_server_writer ex_fs (ex_g true) (s2b "a.txt")) = Some 0 /\
  f_data (fst (create_server_writer ex_fs (ex_g true) (s2b "a.txt"))) 0 = [].
Proof. do 2 (split; [vm_compute; reflexivity|]). vm_compute. reflexivity. Qed.
(** With a link to the outside in the directory, a refused upload leaves an empty file and a directory
    outside; so [no_links] cannot be dropped in [upload_stays_inside]. *)
Example link_outside :
  let '(f', r) := create_server_writer ex_fs (ex_g false) (s2b "out/x/evil") in
  r = None /\ at_ ex_fs [s2b "etc"; s2b "x"] = None /\ at_ f' [s2b "etc"; s2b "x"] = Some NDir /\
  exists id, at_ f' [s2b "etc"; s2b "x"; s2b "evil"] = Some (NFile id).
Proof. vm_compute. do 3 (split; [reflexivity|]). eexists; reflexivity. Qed.
(** An existing file outside is left alone (it is opened, not emptied). *)
Example link_outside_kept :
  let '(f', r) := create_server_writer ex_fs (ex_g true) (s2b "out/passwd") in r = None /\ f_data f' 2 = [2].
Proof. vm_compute. auto. Qed.
(** An empty directory name: downloads are refused, and so are uploads, but these leave their files in
    the working directory. *)
Example empty_directory :
  let g := mkFcfg [] false None 3 in
  create_server_reader ex_fs g (s2b "srv/a.txt") = None /\
  let '(f', r) := create_server_writer ex_fs g (s2b "x") in r = None /\ exists id, at_ f' [s2b "x"] = Some (NFile id).
Proof. vm_compute. split; [reflexivity|]. split; [reflexivity|]. eexists; reflexivity. Qed.
(** An empty name for listings turns every download into a listing. *)
Example empty_list_name :
  create_server_reader ex_fs (mkFcfg (s2b "/srv") false (Some []) 3) (s2b "sub/b.txt") = Some (SList (s2b "sub/b.txt" ++ [10])) /\
  create_server_reader ex_fs (mkFcfg (s2b "/srv") false (Some []) 3) (s2b "a.txt") <> Some (SFile 0).
Proof. vm_compute. split; [reflexivity|discriminate]. Qed.
(** The hypotheses of the theorems are met here. *)
Lemma clean_split name : normalize None name = Some name -> clean_path name (split_slash name).
Proof. intros H. destruct (clean_check _ H) as [cs HC]. pose proof HC as [HC1 _]. rewrite (components_unique _ _ HC1) in HC. exact HC. Qed.
Definition ex_fs2 : fs := ex_fs_of (firstn 4 ex_tree ++ skipn 6 ex_tree).
Lemma ex_consistent2 : consistent ex_fs2.
Proof.
  split; [constructor|]. intros p id. destruct p as [|a p]; [discriminate|]. unfold at_, ex_fs2, ex_fs_of, ex_look. cbn [f_tree f_next].
  destruct (find _ _) as [[q n]|] eqn:F; [|discriminate]. intros [= ->]. apply find_some in F as [F _].
  unfold ex_tree in F. cbn [In firstn skipn app] in F. repeat (destruct F as [F|F]; [first [discriminate F | injection F as <- <-; reflexivity]|]). destruct F.
Qed.
Lemma ex_no_links2 : no_links ex_fs2 [s2b "srv"].
Proof.
  intros r t. unfold at_, ex_fs2, ex_fs_of, ex_look. cbn [f_tree app].
  destruct (find _ _) as [[q n]|] eqn:F; [|discriminate]. intros [= ->]. apply find_some in F as [F _].
  unfold ex_tree in F. cbn [In firstn skipn app] in F. repeat (destruct F as [F|F]; [discriminate F|]). destruct F.
Qed.
Lemma ex_dirs f (p : place) : (forall n, at_ f (firstn n p) = Some NDir) -> ~ In DD p -> dirs f p.
Proof.
  intros H. induction p as [|c p IH] using rev_ind; intros ND; [constructor|]. constructor.
  - apply IH; [|intros I; apply ND; apply in_or_app; auto]. intros n. specialize (H (min n (List.length p))).
    rewrite firstn_app in H. replace (min n (List.length p) - List.length p)%nat with 0%nat in H by lia. cbn [firstn] in H. rewrite app_nil_r in H.
    rewrite <- (firstn_all p) at 1. rewrite firstn_firstn. exact H.
  - intros ->. apply ND, in_or_app. right. left. reflexivity.
  - specialize (H (List.length (p ++ [c]))). rewrite firstn_all in H. exact H.
Qed.
Example file_served_case : create_server_reader ex_fs2 (ex_g false) (s2b "sub/b.txt") = Some (SFile 1).
Proof.
  apply (file_served ex_fs2 (ex_g false) (s2b "sub/b.txt") [s2b "sub"] (s2b "b.txt") [s2b "srv"] 1 ex_consistent2).
  - apply (clean_split (s2b "sub/b.txt")). vm_compute. reflexivity.
  - vm_compute. discriminate.
  - vm_compute. reflexivity.
  - apply ex_dirs; [|cbn; intros [H|[H|[]]]; discriminate]. intros [|[|[|n]]]; vm_compute; reflexivity.
  - vm_compute. reflexivity.
  - reflexivity.
  - cbn [app In]. intros x [<-|[<-|[<-|[]]]]; vm_compute; reflexivity.
  - intros l [= <-]. split; [|discriminate]. apply (clean_split (s2b "list.txt")). vm_compute. reflexivity.
Qed.
Example listing_case : exists t, create_server_reader ex_fs2 (ex_g false) (s2b "sub/list.txt") = Some (SList t) /\ lists ex_fs2 [s2b "sub"] [s2b "srv"; s2b "sub"] t.
Proof.
  apply (listing_served ex_fs2 (ex_g false) (s2b "sub/list.txt") [s2b "sub"] (s2b "list.txt") [s2b "srv"] ex_consistent2).
  - apply (clean_split (s2b "sub/list.txt")). vm_compute. reflexivity.
  - vm_compute. discriminate.
  - vm_compute. reflexivity.
  - reflexivity.
  - apply (clean_split (s2b "list.txt")). vm_compute. reflexivity.
  - apply ex_dirs; [|cbn; intros [H|[H|[]]]; discriminate]. intros [|[|[|n]]]; vm_compute; reflexivity.
  - reflexivity.
Qed.
Example upload_accepted_case : exists f' id, create_server_writer ex_fs2 (ex_g false) (s2b "sub/new/c") = (f', Some id) /\
  at_ f' [s2b "srv"; s2b "sub"; s2b "new"; s2b "c"] = Some (NFile id) /\ f_data f' id = [] /\ dirs f' [s2b "srv"; s2b "sub"; s2b "new"] /\
  forall p x, at_ ex_fs2 p = None -> at_ f' p = Some x -> below [s2b "srv"] p.
Proof.
  assert (C : clean_path (s2b "sub/new/c") [s2b "sub"; s2b "new"; s2b "c"]) by (apply (clean_split (s2b "sub/new/c")); vm_compute; reflexivity).
  assert (R : realpath ex_fs2 (parse_path (fc_dir (ex_g false))) = Some [s2b "srv"]) by (vm_compute; reflexivity).
  destruct (upload_accepted ex_fs2 (ex_g false) (s2b "sub/new/c") [s2b "sub"] [s2b "new"] (s2b "c") [s2b "srv"] ex_consistent2) as (f' & id & U & A & D & DD').
  - exact C.
  - vm_compute. discriminate.
  - exact R.
  - apply ex_dirs; [|cbn; intros [H|[H|[]]]; discriminate]. intros [|[|[|n]]]; vm_compute; reflexivity.
  - intros [|x0 [|x1 [|x2 x]]] y E NX; cbn [app] in E; [congruence| | |discriminate].
    + injection E as <- _. split; vm_compute; reflexivity.
    + injection E as <- <- _. split; vm_compute; reflexivity.
  - exists f', id. split; [exact U|]. split; [exact A|]. split; [exact D|]. split; [exact DD'|].
    eapply (upload_stays_inside ex_fs2 (ex_g false) (s2b "sub/new/c") _ [s2b "srv"] f' (Some id) ex_consistent2 C R); [vm_compute; reflexivity|apply ex_no_links2|exact U].
Qed.
Print Assumptions served_inside.
Print Assumptions file_served.
Print Assumptions listing_served.
Print Assumptions upload_target.
Print Assumptions upload_harmless.
Print Assumptions upload_stays_inside.
Print Assumptions upload_accepted.
Print Assumptions upload_existing.
