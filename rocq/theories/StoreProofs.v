(** Proofs for C70. *)
From Verif Require Import Base BaseProofs PacketModel MapperModel ReaderModel ReaderSpec ConfigModel CryptoModel CryptoSpec ExtModel PathModel ConnModel
  ClientModel SystemModel ConnSpec HandshakeModel HandshakeProofs ServerModel ServerSpec ServerProofs PropServer WorldModel WorldB PropWorld FsModel FsSpec FsProofs PropFs FsServerModel
  DiskModel DiskSpec DiskProofs DiskB DiskC PropDisk StoreSpec.

(** ** Where names lead *)
Lemma leads_grows f f' fg name id : grows f f' -> leads f fg name = Some id -> leads f' fg name = Some id.
Proof.
  intros G. unfold leads. destruct (realpath f _) as [q|] eqn:E; [|discriminate]. rewrite (realpath_grows _ _ _ _ G E).
  destruct (at_ f q) as [x|] eqn:A; [|discriminate]. rewrite (g_keep _ _ G _ _ A). auto.
Qed.
Lemma leads_set f i x fg name : leads (set_data f i x) fg name = leads f fg name.
Proof.
  unfold leads, realpath, start_of. cbn [f_cwd set_data]. destruct (p_empty _); [reflexivity|].
  rewrite (walk_ext f (set_data f i x)) by (intros; apply at_set). destruct (walk _ _ _ _); [rewrite at_set|]; reflexivity.
Qed.
Lemma leads_written f o e e' fg name : leads (written f o e e') fg name = leads f fg name.
Proof.
  unfold written. destruct o as [[|id]|]; try reflexivity. destruct e as [[cn ky []]|]; try reflexivity.
  destruct e' as [[cn' ky' []]|]; [reflexivity|apply leads_set|reflexivity].
Qed.
Lemma writer_grows f fg name f' r : create_server_writer f fg name = (f', r) ->
  exists f2, grows f f2 /\ (f' = f2 \/ exists id, f' = set_data f2 id []).
Proof.
  intros H. unfold create_server_writer in H. destruct (validate_path _ _); [|injection H as <- <-; exists f; split; [apply grows_refl|auto]].
  cbn zeta in H. set (dir := parse_path (fc_dir fg)) in *. set (p := join dir (parse_path name)) in *.
  destruct (starts_with p dir); [|injection H as <- <-; exists f; split; [apply grows_refl|auto]].
  assert (G : exists f1 ok, grows f f1 /\ (match parent p with
        | Some q => if is_dir f q then (f, true) else create_dir_all (List.length (p_parts q)) f q
        | None => (f, true)
        end) = (f1, ok)).
  { destruct (parent p) as [q|]; [|exists f, true; split; [apply grows_refl|reflexivity]].
    destruct (is_dir f q); [exists f, true; split; [apply grows_refl|reflexivity]|].
    destruct (create_dir_all _ f q) as [f1 ok] eqn:E. exists f1, ok. split; [eapply create_dir_all_grows; exact E|reflexivity]. }
  destruct G as (f1 & ok & G1 & E1). rewrite E1 in H. destruct ok; [|injection H as <- <-; exists f1; auto].
  destruct (open_path _ f1 p) as [f2 o] eqn:EO. pose proof (open_path_grows _ _ _ _ _ EO) as G2.
  assert (G : grows f f2) by (eapply grows_trans; eassumption).
  assert (D : forall r', (f2, r') = (f', r) -> exists f2, grows f f2 /\ (f' = f2 \/ exists id, f' = set_data f2 id [])).
  { intros r' X. injection X as <- _. exists f2. auto. }
  destruct o as [[p0 id]|]; [|eapply D; exact H].
  destruct (realpath f2 dir) as [d|]; [|eapply D; exact H].
  destruct (realpath f2 p) as [q|]; [|eapply D; exact H].
  destruct (prefix_of d q); [|eapply D; exact H].
  destruct (fc_overwrite fg); [|eapply D; exact H].
  destruct (open_path false f2 (place_path q)) as [f3 o] eqn:EO3. pose proof (open_path_grows _ _ _ _ _ EO3) as G3.
  exists f3. split; [eapply grows_trans; eassumption|]. destruct o as [[p3 id3]|]; injection H as <- _; eauto.
Qed.
Lemma leads_writer f fg name f' r fg' name' id : create_server_writer f fg name = (f', r) ->
  leads f fg' name' = Some id -> leads f' fg' name' = Some id.
Proof.
  intros H L. destruct (writer_grows _ _ _ _ _ H) as (f2 & G & [->|[i ->]]); [|rewrite leads_set]; eapply leads_grows; eassumption.
Qed.
(** A name under which a file was opened for an upload leads to it. *)
Lemma writer_leads f fg name f' id : dirs f (f_cwd f) -> create_server_writer f fg name = (f', Some id) -> leads f' fg name = Some id.
Proof.
  intros CW H. destruct (writer_cases _ _ _ _ _ CW H) as (f2 & G & [[_ X]|(d & q & i & X & RD & RQ & B & CQ & EA & HF)]); [discriminate|].
  injection X as <-. assert (L : leads f2 fg name = Some id) by (unfold leads; rewrite RQ, EA; reflexivity).
  destruct (fc_overwrite fg); [subst f'; rewrite leads_set; exact L|]. destruct HF as (-> & _). exact L.
Qed.
(** A download of a name reads the file it leads to. *)
Lemma reader_leads f fg name id src : dirs f (f_cwd f) -> leads f fg name = Some id -> listing fg name = false ->
  create_server_reader f fg name = Some src -> src = SFile id.
Proof.
  intros CW L NL H. unfold create_server_reader in H. destruct (validate_path _ _); [|discriminate]. cbn zeta in H. unfold listing in NL. rewrite NL in H.
  unfold leads in L. destruct (realpath f (join _ _)) as [q|] eqn:RQ; [|discriminate]. destruct (realpath f (parse_path (fc_dir fg))) as [d|]; [|discriminate].
  destruct (prefix_of d q); [|discriminate]. unfold open_read in H. destruct (forallb utf8 q); [|discriminate].
  rewrite (realpath_self f q) in H by (eapply realpath_canon; eassumption). destruct (f_perm f q); [|discriminate].
  destruct (at_ f q) as [[i| |t]|]; try discriminate. injection L as <-. injection H as <-. reflexivity.
Qed.

Section G.
Context {S : Type} (c : crypto) (g : srvcfg) (fg : fcfg) (ds : N) (sv : server S) (Inv : S -> Prop) (cut : entry -> bytes -> bytes).
Hypothesis G : good c g sv Inv cut.
Notation dkstep := (dkstep sv c g fg ds).
Notation dkany := (dkany sv c g fg ds).
Notation undisturbed := (undisturbed sv c g fg ds).
Notation tended := (tended sv c g fg ds).
Notation stores := (stores sv c g fg ds).
Notation DInv := (DInv sv Inv).

Lemma leads_step st t st' o fg' name id : dkstep st t st' o -> leads (dk_fs st) fg' name = Some id -> leads (dk_fs st') fg' name = Some id.
Proof.
  intros P L. destruct P as [st t s' o P K|st b d i f' q r s' o K E M]; cbn [dk_fs] in *.
  - destruct t; [exact L|rewrite leads_written; exact L|exact L].
  - unfold open_request in E. destruct (file_request _ _ _ _) as [[[] path]|]; [|injection E as <- _ _; exact L..].
    destruct (create_server_writer (dk_fs st) fg path) as [f2 r2] eqn:EW. injection E as <- _ _. eapply leads_writer; eassumption.
Qed.
Lemma consistent_step st t st' o : dkstep st t st' o -> consistent (dk_fs st) -> consistent (dk_fs st').
Proof.
  assert (SET : forall f id x, consistent f -> consistent (set_data f id x)).
  { intros f id x [D I]. split; [cbn [f_cwd set_data]; eapply dirs_ext; [intros; apply at_set|exact D]|].
    intros p i E. rewrite at_set in E. cbn [f_next set_data]. eapply I. exact E. }
  intros P C. destruct P as [st t s' o P K|st b d i f' q r s' o K E M]; cbn [dk_fs] in *.
  - destruct t as [|b d v|]; [exact C| |exact C]. unfold written. destruct (dk_open st b) as [[|id]|]; try exact C. destruct (dview sv st b) as [[cn ky []]|]; try exact C.
    destruct (sv_view sv s' b) as [[cn' ky' []]|]; try exact C. apply SET. exact C.
  - unfold open_request in E. destruct (file_request _ _ _ _) as [[[] path]|]; [|injection E as <- _ _; exact C..].
    destruct (create_server_writer (dk_fs st) fg path) as [f2 r2] eqn:EW. injection E as <- _ _. apply (upload_harmless _ _ _ _ _ C EW).
Qed.
Lemma und_spare id name st t st' o : undisturbed id name st t st' o -> spare sv c g fg ds id st t st' o.
Proof. intros [st0 t0 st1 o0 P|st0 f' FN EF EL]; [apply spare_own; exact P|apply spare_other; assumption]. Qed.
Lemma und_leads id name st t st' o : undisturbed id name st t st' o -> leads (dk_fs st) fg name = Some id -> leads (dk_fs st') fg name = Some id.
Proof. intros [st0 t0 st1 o0 P|st0 f' FN EF EL] L; [eapply leads_step; eassumption|cbn [dk_fs]; congruence]. Qed.

(** Nobody stores into [id]. *)
Hypothesis O : fc_overwrite fg = false.
Definition closed (id : N) (st : disk S) : Prop :=
  DInv st /\ apart st /\ id < f_next (dk_fs st) /\ forall b, dk_open st b <> Some (Writes id).
Lemma closed_step id name st t st' o : closed id st -> leads (dk_fs st) fg name = Some id -> undisturbed id name st t st' o ->
  closed id st' /\ leads (dk_fs st') fg name = Some id /\ tended id name st t st' o.
Proof.
  intros (D & A & L & N) LD U. pose proof (und_spare _ _ _ _ _ _ U) as SP. pose proof (spare_any c g fg ds sv _ _ _ _ _ SP) as PA.
  assert (LD' : leads (dk_fs st') fg name = Some id) by (eapply und_leads; eassumption).
  assert (M : forall a, mine sv Inv a id st) by (intros a; split; [exact D|]; split; [exact A|]; split; [exact L|]; intros b H; destruct (N b H)).
  split; [|split; [exact LD'|]].
  - destruct (mine_step c g fg ds sv Inv cut G O 0 id _ _ _ _ (M 0) SP) as [(D' & A' & L' & _) _]. split; [exact D'|]. split; [exact A'|]. split; [exact L'|].
    intros b H. destruct (open_step c g fg ds sv O _ _ _ _ _ _ PA H) as [X|[X _]]; [exact (N b X)|lia].
  - split; [exact PA|]. split; [|congruence].
    set (a := match t with TookClient b _ _ => b + 1 | _ => 0 end).
    destruct (mine_step c g fg ds sv Inv cut G O a id _ _ _ _ (M a) SP) as [_ (_ & HN & _)]. apply HN.
    unfold a. destruct t; cbn [hears]; try reflexivity. apply N.eqb_neq. lia.
Qed.
Lemma dw_closed id name (b : addr) k n W0 W : closed id (dw_srv W0) -> leads (dk_fs (dw_srv W0)) fg name = Some id ->
  dwreach (undisturbed id name) (dview sv) c b k n W0 W -> dwreach (tended id name) (dview sv) c b k n W0 W.
Proof.
  intros M0 L0 R. assert (X : dwreach (tended id name) (dview sv) c b k n W0 W /\ closed id (dw_srv W) /\ leads (dk_fs (dw_srv W)) fg name = Some id); [|apply X].
  induction R as [|W W' R (IH & M & L) ST]; [split; [constructor|auto]|].
  destruct ST; cbn [dw_srv] in *; try (match goal with H : StoreSpec.undisturbed _ _ _ _ _ _ _ _ _ _ _ |- _ => destruct (closed_step _ _ _ _ _ _ M L H) as (M' & L' & U) end);
    (split; [|auto]); (eapply dwr_step; [exact IH|]).
  - eapply dw_server; eassumption.
  - eapply dw_server_receives; eassumption.
  - eapply dw_server_later; eassumption.
  - eapply dw_client; eassumption.
Qed.
Lemma later_closed (init : S -> Prop) id name st0 st : (forall s, init s -> Inv s /\ forall a, sv_view sv s a = None) -> closed id st0 -> leads (dk_fs st0) fg name = Some id ->
  later init (undisturbed id name) st0 st ->
  closed id st /\ leads (dk_fs st) fg name = Some id /\ later init (tended id name) st0 st.
Proof.
  intros HI M0 L0 R. induction R as [|st t st' o R (M & L & IH) U|st s R (M & L & IH) I].
  - split; [exact M0|]. split; [exact L0|constructor].
  - destruct (closed_step _ _ _ _ _ _ M L U) as (M' & L' & T). split; [exact M'|]. split; [exact L'|]. eapply later_step; eassumption.
  - split; [|split; [exact L|apply later_restart; assumption]]. destruct (HI s I) as [H1 H2]. destruct M as (_ & _ & L' & _).
    split; [split; [exact H1|intros a; cbn [dk_srv dk_open]; rewrite H2; reflexivity]|]. split; [split; intros *; discriminate|]. split; [exact L'|]. intros b; discriminate.
Qed.
Lemma uw_closed a id name k file n W0 W : mine sv Inv a id (uw_srv W0) -> leads (dk_fs (uw_srv W0)) fg name = Some id -> uw_over W0 = false ->
  uwreach (undisturbed id name) (dview sv) c a k file n W0 W ->
  uwreach (stores a id name) (dview sv) c a k file n W0 W /\ mine sv Inv a id (uw_srv W) /\ (uw_over W = true -> closed id (uw_srv W)).
Proof.
  intros M0 L0 O0 R.
  assert (X : uwreach (stores a id name) (dview sv) c a k file n W0 W /\ mine sv Inv a id (uw_srv W) /\ leads (dk_fs (uw_srv W)) fg name = Some id /\ (uw_over W = true -> closed id (uw_srv W)));
    [|destruct X as (X1 & X2 & X3 & X4); auto].
  assert (GONE : forall st, mine sv Inv a id st -> ended (dview sv st a) = true -> closed id st).
  { intros st (D & A & L & M) E. split; [exact D|]. split; [exact A|]. split; [exact L|]. intros b H. pose proof (M b H) as ->.
    unfold ended in E. destruct (dview sv st a) eqn:V; [discriminate|]. apply (dview_none c g sv Inv cut G) in V.
    pose proof (proj2 D a) as K. rewrite V in K. cbn [kind_ok] in K. rewrite K in H. discriminate. }
  induction R as [|W W' R (IH & M & L & C) ST]; [split; [constructor|]; split; [exact M0|]; split; [exact L0|congruence]|].
  assert (STEP : forall st t st' o, undisturbed id name st t st' o -> mine sv Inv a id st -> leads (dk_fs st) fg name = Some id ->
    mine sv Inv a id st' /\ leads (dk_fs st') fg name = Some id /\ stores a id name st t st' o).
  { intros st t st' o U M1 L1. destruct (mine_step c g fg ds sv Inv cut G O a id _ _ _ _ M1 (und_spare _ _ _ _ _ _ U)) as [M2 AL].
    pose proof (und_leads _ _ _ _ _ _ U L1) as L2. split; [exact M2|]. split; [exact L2|]. split; [exact AL|congruence]. }
  destruct ST; cbn [uw_srv uw_over] in *; try (match goal with H : StoreSpec.undisturbed _ _ _ _ _ _ _ _ _ _ _ |- _ => destruct (STEP _ _ _ _ H M L) as (M' & L' & U) end);
    (split; [eapply uwr_step; [exact IH|]|split; [assumption|split; [assumption|]]]).
  - eapply uw_server; eassumption.
  - apply GONE. exact M'.
  - eapply uw_server_receives; eassumption.
  - apply GONE. exact M'.
  - eapply uw_server_later; eassumption.
  - intros _. match goal with H : StoreSpec.undisturbed _ _ _ _ _ _ _ _ _ _ _ |- _ => apply (closed_step _ _ _ _ _ _ (C eq_refl) L H) end.
  - eapply uw_client_sends; eassumption.
  - exact C.
  - eapply uw_client_receives; eassumption.
  - exact C.
Qed.
End G.
