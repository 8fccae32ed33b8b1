(** C83: directory listings reach the client. *)
From Verif Require Import Base BaseProofs PacketModel PacketSpec MapperModel ReaderModel ReaderSpec BlockLemmas ConfigModel CryptoModel CryptoSpec CryptoProofs ExtModel PropExt PathModel PathSpec PropPath ConnModel
  ConnSpec ClientModel HandshakeModel HandshakeProofs ClientWaitModel PropHandshake AgreeProofs PropAgree SystemModel ServerModel ServerSpec ServerProofs PropServer WorldModel WorldB WorldC PropWorld
  FsModel FsSpec FsProofs PropFs FsServerModel DiskModel DiskSpec DiskProofs DiskB PropDisk StoreSpec StoreProofs RunModel RunSpec RunProofs RunB PropRun SealSpec SmoothModel SmoothSpec SmoothC PropSmooth WholeSpec PropWhole
  ArriveModel ArriveSpec ArriveProofs PropArrive FetchSpec.
From Verif Require CliModel PropCli.

(** ** Lemmas: a turn of a client that gets a listing; other programs and clients may do anything to the files *)
Record steady {S} (sv : server S) (own : N -> option bytes -> S -> bool -> S -> outs -> Prop) (step : disk S -> took -> disk S -> outs -> Prop)
    (ready : S -> bool) (Inv : S -> Prop) (c : crypto) (sg : srvcfg) (a : addr) (cut : entry -> bytes -> bytes) : Prop := {
  sd_own : regular own (sv_view sv) ready Inv c sg a cut;
  sd_keep : forall t rx s got s' o, Inv s -> own t rx s got s' o -> Inv s' /\ forall e, sv_view sv s a = Some e -> evolves got e (sv_view sv s' a);
  sd_load : forall fl s, (Inv s -> Inv (sv_load sv fl s)) /\ ready (sv_load sv fl s) = ready s;
  sd_view : forall fl s, sv_view sv (sv_load sv fl s) a = option_map (set_file (fl a)) (sv_view sv s a);
  sd_step : forall st t st' o e, Inv (dk_srv st) -> sv_view sv (dk_srv st) a = Some e -> step st t st' o -> sv_view sv (dk_srv st') a <> None ->
    Inv (dk_srv st') /\ ready (dk_srv st') = ready (dk_srv st) /\ dk_open st' a = dk_open st a }.

Section D.
Context {S : Type} (sv : server S) (own : N -> option bytes -> S -> bool -> S -> outs -> Prop) (step : disk S -> took -> disk S -> outs -> Prop).
Variables (ready : S -> bool) (Inv : S -> Prop) (c : crypto) (sg : srvcfg) (a : addr) (cut : entry -> bytes -> bytes) (txt : bytes).
Hypothesis SD : steady sv own step ready Inv c sg a cut.
Notation view := (sv_view sv).
Notation turn := (disk_turn sv own step a).

Definition LI (st : disk S) : Prop :=
  Inv (dk_srv st) /\ forall e, view (dk_srv st) a = Some e -> dk_open st a = Some (Reads (SList txt)) /\ exists r, en_work e = WRead txt r.
Lemma LI_view st : LI st -> dview sv st a = view (dk_srv st) a.
Proof.
  intros [_ H]. unfold dview, loaded. rewrite (sd_view _ _ _ _ _ _ _ _ _ SD). destruct (view (dk_srv st) a) as [e|]; [|reflexivity]. cbn [option_map].
  destruct (H e eq_refl) as (HO & r & EW). f_equal. rewrite HO. cbn [content]. apply (set_file_same _ _ r). exact EW.
Qed.
Lemma LI_meantime st st1 o1 e : meantime sv step a st st1 o1 -> LI st -> dview sv st a = Some e ->
  LI st1 /\ dview sv st1 a = Some e /\ sent_to a o1 = [] /\ ready (dk_srv st1) = ready (dk_srv st).
Proof.
  induction 1 as [st|st t st1 o1 st2 o2 ST HE SO VW MT IH]; intros D V; [auto 10|].
  pose proof D as [DI1 DI2]. rewrite (LI_view _ D) in VW, V. rewrite V in VW.
  destruct (sd_step _ _ _ _ _ _ _ _ _ SD _ _ _ _ _ DI1 V ST ltac:(congruence)) as (X1 & X2 & X3).
  assert (D1 : LI st1) by (split; [exact X1|]; intros e' V'; rewrite X3; apply DI2; congruence).
  destruct (IH D1) as (Y1 & Y2 & Y3 & Y4); [rewrite (LI_view _ D1); exact VW|].
  split; [exact Y1|]. split; [exact Y2|]. split; [rewrite sent_to_app, SO, Y3; reflexivity|congruence].
Qed.
Lemma LI_turn t rx st got st' o e : LI st -> dview sv st a = Some e -> turn t rx st got st' o -> LI st'.
Proof.
  intros D V (st1 & o1 & s' & o2 & MT & OW & -> & ->). destruct (LI_meantime _ _ _ _ MT D V) as (D1 & V1 & SO & RD).
  destruct (sd_keep _ _ _ _ _ _ _ _ _ SD _ _ _ _ _ _ (proj1 (sd_load _ _ _ _ _ _ _ _ _ SD _ _) (proj1 D1)) OW) as [I' EV]. specialize (EV e V1).
  pose proof V1 as VS. rewrite (LI_view _ D1) in VS. destruct (proj2 D1 e VS) as (OD & r & EW).
  split; [exact I'|]. cbn [dk_srv dk_open]. intros e' V'. rewrite V' in EV. cbn [evolves] in EV. unfold still_open. rewrite V'. split; [exact OD|].
  rewrite EW in EV. destruct (en_work e') as [F' r'|]; [|contradiction]. subst F'. eauto.
Qed.
Lemma listing_regular : regular turn (dview sv) (fun st => ready (dk_srv st)) LI c sg a cut.
Proof.
  pose proof (sd_own _ _ _ _ _ _ _ _ _ SD) as R. split.
  - intros t rx st got st' o e D V E1 E2 E3 T. pose proof (LI_turn _ _ _ _ _ _ _ D V T) as D'. split; [exact D'|]. rewrite (LI_view _ D').
    destruct T as (st1 & o1 & s' & o2 & MT & OW & -> & ->). destruct (LI_meantime _ _ _ _ MT D V) as (D1 & V1 & SO & RD).
    destruct (rg_run _ _ _ _ _ _ _ _ R _ _ _ _ _ _ e (proj1 (sd_load _ _ _ _ _ _ _ _ _ SD _ _) (proj1 D1)) V1 E1 E2 E3 OW) as (_ & X).
    unfold loaded in X. rewrite (proj2 (sd_load _ _ _ _ _ _ _ _ _ SD _ _)), RD in X. rewrite sent_to_app, SO. exact X.
  - intros t st got st' o e path w D V E1 E2 T. pose proof (LI_turn _ _ _ _ _ _ _ D V T) as D'. split; [exact D'|]. rewrite (LI_view _ D').
    destruct T as (st1 & o1 & s' & o2 & MT & OW & -> & ->). destruct (LI_meantime _ _ _ _ MT D V) as (D1 & V1 & SO & RD).
    destruct (rg_end _ _ _ _ _ _ _ _ R _ _ _ _ _ e _ _ (proj1 (sd_load _ _ _ _ _ _ _ _ _ SD _ _) (proj1 D1)) V1 E1 E2 OW) as (_ & X). rewrite sent_to_app, SO. exact X.
  - intros t rx st e D V E1 E2 HH.
    destruct (rg_able _ _ _ _ _ _ _ _ R t rx _ e (proj1 (sd_load _ _ _ _ _ _ _ _ _ SD _ _) (proj1 D)) V E1 E2 HH) as (got & s' & o & OW).
    do 3 eexists. exists st, [], s', o. split; [constructor|]. split; [exact OW|]. split; reflexivity.
  - intros t st e path w D V E1 E2.
    destruct (rg_able_end _ _ _ _ _ _ _ _ R t _ e _ _ (proj1 (sd_load _ _ _ _ _ _ _ _ _ SD _ _) (proj1 D)) V E1 E2) as (got & s' & o & OW).
    do 3 eexists. exists st, [], s', o. split; [constructor|]. split; [exact OW|]. split; reflexivity.
Qed.
End D.

Lemma single_steady c sg a : 1 <= g_max_conn sg -> steady (single_server c sg) (single_turn c sg a) programs sready (sole a) c sg a (scut sg).
Proof.
  intros M. split.
  - exact (single_regular c sg a).
  - intros t rx s got s' o SO T. exact (single_keeps c sg a t rx s got s' o M SO T).
  - intros fl s. split; [|reflexivity]. intros SO. apply sole_addrs in SO. apply sole_addrs. cbn [single_server sv_load s_clients]. rewrite addrs_load. exact SO.
  - intros fl s. exact (gd_view _ _ _ _ _ (single_good c sg) fl s a).
  - intros st t st' o e SO V (f' & FN & -> & -> & ->) _. cbn [dk_srv dk_open]. auto.
Qed.
Lemma multi_steady c sg fg ds a : steady (multi_server c sg) (thread_own c sg a) (dkany (multi_server c sg) c sg fg ds) (fun _ => true) HandlesOk c sg a thread_cut.
Proof.
  pose proof (multi_good c sg) as G. split.
  - exact (thread_regular c sg a).
  - intros t rx s got s' o HO T. exact (thread_keeps c sg a t rx s got s' o HO T).
  - intros fl s. split; [|reflexivity]. apply (gd_load _ _ _ _ _ G).
  - intros fl s. exact (gd_view _ _ _ _ _ G fl s a).
  - intros st t st' o e HO V P NN. pose proof (gd_load _ _ _ _ _ G (fun b => content (dk_fs st) (dk_open st b)) _ HO) as HL.
    destruct P as [st t st' o P|st f' FN]; [|cbn [dk_srv dk_open]; auto].
    pose proof (gd_keep _ _ _ _ _ G _ _ _ _ HL (step_phase c sg fg ds _ _ _ G _ _ _ _ P)) as I'. split; [exact I'|]. split; [reflexivity|].
    destruct P as [st t s' o P L|st b d i f' q r s' o L E M]; cbn [dk_srv dk_open dk_fs] in *; unfold still_open.
    + destruct (sv_view _ s' a); [reflexivity|contradiction].
    + destruct (sv_view _ s' a); [|contradiction]. destruct (N.eqb_spec a b) as [->|]; [|reflexivity].
      exfalso. apply (gd_looked _ _ _ _ _ G _ _ HO) in L. congruence.
Qed.

Section G.
Context {S : Type} (sv : server S) (own : N -> option bytes -> S -> bool -> S -> outs -> Prop) (step : disk S -> took -> disk S -> outs -> Prop).
Variables (ready : S -> bool) (Inv GInv : S -> Prop) (cut : entry -> bytes -> bytes).
Variables (c : crypto) (h : CliModel.host) (sa : CliModel.server_args) (ss : CliModel.server_start) (h' : CliModel.host) (bound : bool) (ca : CliModel.client_args)
  (given : bytes) (other : option bytes) (seek : bool) (cs : CliModel.client_start) (eph hs iv : bytes) (txt : list ext -> bytes).
Variables (f0 : fs) (wc : wcfg) (keys : option client_keys) (ex : exts) (d path : bytes) (ds : N) (a : addr) (st0 : disk S) (i : input) (F : bytes).
Notation g := (mkRun c cs eph hs iv txt).
Notation sg := (server_of ss).
Notation fg := (CliModel.ss_files ss).
Hypothesis SD : steady sv own step ready Inv c sg a cut.
Hypothesis GD : good c sg sv GInv cut.
Hypothesis LK : sv_looked sv (dk_srv st0) a = true.
Hypothesis TK : recv_cut sg d = d -> forall q data x w, server_new c (g_cfg sg) (i_henv (with_files i q data)) (i_av i) d = SAccepted x (Some w) ->
  exists s1 o, sv_main sv (loaded sv st0) a d (with_files i q data) s1 o /\ sent_to a o = [OWire w] /\ sv_view sv s1 a = Some (new_entry x (e_now (i_env i)) (fun _ => data)) /\ Inv s1.
Hypothesis HC : crypto_ok c.
Hypothesis SA : CliModel.server_args_ok sa = true.
Hypothesis SS : CliModel.server_config (c_vk_ok c) h sa = Some ss.
Hypothesis CA : CliModel.client_args_ok ca = true.
Hypothesis KF : keys_fit c sa ss ca cs.
Hypothesis AB : able i.
Hypothesis NM : normalize None (CliModel.cl_remote cs) = Some path.

Lemma listing_disk p0 : CliModel.ca_file_key ca = None -> CliModel.client_begin (c_vk_ok c) h' bound false ca given other seek = Some cs ->
  receive_waiting g f0 wc keys ex p0 -> rp_ph p0 <> RFailed -> asks_with g (CliModel.ss_cfg ss) wc false ex d ->
  create_server_reader (dk_fs st0) fg path = Some (SList F) ->
  blen F <= U64_MAX -> (exists f1 lid, create_writer f0 (CliModel.cl_local cs) = (f1, Some lid)) -> blen F <= CliModel.ca_max_size ca ->
  exists st1 e w k, takes sv c sg fg ds i false st0 a d path st1 (Reads (SList F)) e w /\ agrees g wc keys false ex w k /\ 512 <= op_bs (k_opts k) /\
    forall peer early,
      answers_from g wc false ex (fun y => ignored c (c_opts (en_conn e)) (en_key e) (cut e y)) peer -> repeats g wc false ex peer early ->
      goes_well (disk_turn sv own step a) (dview sv) (receive_act g wc keys peer) (receive_patient wc) receive_busy c sg a peer
        (fun W => received g F (sm_prog W)) (4 * nblocks F (bs_enc (k_opts k)) + 6 + 2 * N.of_nat (length early)) (e_now (i_env i)) (mkSm st1 [] p0 [w] early).
Proof.
  intros FKA CB RW NF AW CR HU CW HM. destruct AB as (I1 & I2 & I3 & I4).
  pose proof (fits c h sa ss h' bound false ca given other seek cs SA SS CA CB KF None ltac:(discriminate)) as CP. cbv iota in CP.
  assert (B : 512 <= sc_max_bs (g_cfg sg) /\ 1 <= sc_max_window (g_cfg sg) <= 1000 /\ 1 <= g_max_conn sg /\ g_max_size sg = CliModel.sa_max_size sa) by (eapply server_bounds; eassumption). destruct B as (B1 & B2 & B3 & B4).
  destruct (PropCli.client_arguments _ _ _ _ _ _ _ _ _ CA CB) as (_ & _ & _ & _ & OS & _ & MX & _ & _ & _ & _ & FK & _). rewrite FKA in FK. cbn [PropCli.private_of] in FK.
  assert (RA : run_ask g false (ru_opts g) = Some (wc, keys, ex)) by exact (proj1 RW).
  set (i' := with_files i (Some (Some (blen F))) F).
  destruct (granted g (CliModel.ss_cfg ss) false (ru_opts g) wc keys ex d (i_henv i') (i_av i') path (Some (blen F)) HC CP) as (x & w & k & SN & EP & EW & AG & KM & KW & KB & KZ);
    [right; change (ru_opts g) with (CliModel.cl_opts cs); rewrite OS; discriminate|exact RA|exact AW|exact NM|reflexivity|discriminate|intros n [= <-]; exact HU|exact I1|exact I2|exact I3|exact I4|].
  pose proof AW as (RQ & GS & UN & SR).
  assert (RC : recv_cut sg d = d) by exact (proj2 (receive_size _ _ SR)).
  destruct (TK RC _ _ x w SN) as (s1 & o & E & SO & V1 & IV).
  destruct (accept_opts _ _ _ _ _ _ _ SN B1 (proj1 B2)) as ((O1 & O2) & O3 & O4). rewrite EW in O4. destruct O4 as (kd & O4 & _).
  pose proof (accept_window _ _ _ _ _ _ _ SN) as WX. set (e := new_entry x (e_now (i_env i)) (fun _ => F)) in *.
  assert (EWK : exists r, en_work e = WRead F r) by (unfold e, new_entry; cbn [en_work]; rewrite O4; eauto). destruct EWK as [r EWK].
  assert (FR : file_request c (CliModel.ss_cfg ss) (h_eph (i_henv i)) d = Some (false, path)).
  { rewrite (accepted_request _ _ _ _ _ _ _ SN : file_request c _ (h_eph (i_henv i)) d = _), EW, EP. reflexivity. }
  set (st1 := mkDk s1 (dk_fs st0) (still_open sv s1 (fun b => if b =? a then Some (Reads (SList F)) else dk_open st0 b))).
  assert (D1 : LI sv Inv a F st1).
  { split; [exact IV|]. cbn [dk_srv dk_open dk_fs st1]. intros e1 X. rewrite V1 in X. injection X as <-. unfold still_open. rewrite V1, N.eqb_refl. split; [reflexivity|eauto]. }
  assert (VD : dview sv st1 a = Some e) by (rewrite (LI_view _ _ _ _ _ _ _ _ _ _ SD _ D1); exact V1).
  exists st1, e, w, k. split.
  { exists (dk_fs st0), (Some (Some (blen F))), s1, o. split; [exact LK|]. rewrite RC. split; [exact FR|].
    split; [unfold open_request; change (g_cfg sg) with (CliModel.ss_cfg ss); rewrite FR, CR; reflexivity|]. split; [exact E|]. split; [exact SO|]. split; [exact V1|reflexivity]. }
  split; [exact AG|].
  assert (US : understood g wc (g_cfg sg) d) by (split; [exact GS|split; [exact (proj1 KF)|split; [exact UN|exact SR]]]).
  split; [rewrite KB; exact O1|].
  intros peer early AF RS. destruct (gd_cut _ _ _ _ _ GD x O2) as (L & HL & HCUT).
  rewrite <- RC in SN.
  assert (OP : opens g F (bs_enc (k_opts k)) F) by (unfold opens; change (CliModel.cl_file_key (ru_start g)) with (CliModel.cl_file_key cs); rewrite FK; reflexivity).
  apply (receive_generic (disk_turn sv own step a) (dview sv) (fun st => ready (dk_srv st)) (LI sv Inv a F) g sg a cut (listing_regular sv own step ready Inv c sg a cut F SD)
    (i_henv i') (i_av i') d w x (e_now (i_env i)) (fun _ => F) st1 L k wc keys ex peer e HC B1 (proj1 B2) SN eq_refl D1 VD HL HCUT I3) with (f0 := f0) (r := r) (D := F); try assumption.
  - intros p n [= <-]. exact HU.
  - rewrite KM. change (CliModel.cl_max_size (ru_start g)) with (CliModel.cl_max_size cs). rewrite MX. exact HM.
  - rewrite (KZ OS eq_refl _ eq_refl). rewrite KM. change (CliModel.cl_max_size (ru_start g)) with (CliModel.cl_max_size cs). rewrite MX. exact HM.
  - right. rewrite KW. change (sc_max_window (g_cfg sg)) with (sc_max_window (CliModel.ss_cfg ss)) in B2. lia.
Qed.
End G.

(** The server's files come from its command line. *)
Lemma files_of ok h sa ss : CliModel.server_args_ok sa = true -> CliModel.server_config ok h sa = Some ss ->
  fc_dir (CliModel.ss_files ss) = CliModel.sa_dir sa /\ fc_list (CliModel.ss_files ss) = CliModel.sa_list sa /\ fc_depth (CliModel.ss_files ss) = CliModel.sa_depth sa.
Proof.
  intros SA SS. pose proof (PropCli.server_arguments _ _ _ _ SA SS) as H. assert (E : CliModel.ss_files ss = mkFcfg (CliModel.sa_dir sa) (CliModel.sa_overwrite sa) (CliModel.sa_list sa) (CliModel.sa_depth sa)) by tauto.
  rewrite E. auto.
Qed.

(** ** The listing *)
(** The programs have been started with fitting command lines, the server's with a name [l] for listings; `receive` was given the path of
    the entry [l] of a directory below the served one, has asked, and is waiting; the request reaches the multi threaded server.  Then
    it is granted, and (if no datagram is lost and both programs get to run in time, and whatever else happens, to the files too)
    the command ends with the listing of that directory, as it was when the request was taken, in the local file. *)
Theorem listing_fetched_multi : forall c h sa ss h' bound ca given other seek cs eph hs iv txt f0 wc keys ex p0 d path ds a st0 i l parts place t,
  let g := mkRun c cs eph hs iv txt in let sg := server_of ss in let fg := CliModel.ss_files ss in
  crypto_ok c ->
  (* the programs *)
  CliModel.server_args_ok sa = true -> CliModel.server_config (c_vk_ok c) h sa = Some ss -> CliModel.sa_list sa = Some l -> list_name l ->
  CliModel.client_args_ok ca = true -> CliModel.client_begin (c_vk_ok c) h' bound false ca given other seek = Some cs ->
  keys_fit c sa ss ca cs -> CliModel.ca_file_key ca = None ->
  (* the request *)
  receive_waiting g f0 wc keys ex p0 -> rp_ph p0 <> RFailed -> asks_with g (CliModel.ss_cfg ss) wc false ex d ->
  normalize None (CliModel.cl_remote cs) = Some path -> clean_path path (parts ++ [l]) -> separators path <= CliModel.sa_depth sa ->
  (* the server and its disk *)
  dkreach (multi_server c sg) c sg fg ds (fun m => m = m_init) st0 -> multi_free sg (dk_srv st0) a d i -> able i ->
  consistent (dk_fs st0) -> realpath (dk_fs st0) (parse_path (CliModel.sa_dir sa)) = Some place ->
  dirs (dk_fs st0) (place ++ parts) -> f_perm (dk_fs st0) (place ++ parts) = true -> lists (dk_fs st0) parts (place ++ parts) t -> blen t <= U64_MAX ->
  (* the client's machine *)
  (exists f1 lid, create_writer f0 (CliModel.cl_local cs) = (f1, Some lid)) -> blen t <= CliModel.ca_max_size ca ->
  exists st1 e w k, takes (multi_server c sg) c sg fg ds i false st0 a d path st1 (Reads (SList t)) e w /\ agrees g wc keys false ex w k /\ 512 <= op_bs (k_opts k) /\
    forall peer early,
      answers_from g wc false ex (fun y => ignored c (c_opts (en_conn e)) (en_key e) (thread_cut e y)) peer -> repeats g wc false ex peer early ->
      goes_well (disk_turn (multi_server c sg) (thread_own c sg a) (dkany (multi_server c sg) c sg fg ds) a) (dview (multi_server c sg)) (receive_act g wc keys peer) (receive_patient wc) receive_busy c sg a peer
        (fun W => received g t (sm_prog W)) (4 * nblocks t (bs_enc (k_opts k)) + 6 + 2 * N.of_nat (length early)) (e_now (i_env i)) (mkSm st1 [] p0 [w] early).
Proof.
  intros c h sa ss h' bound ca given other seek cs eph hs iv txt f0 wc keys ex p0 d path ds a st0 i l parts place t g sg fg HC SA SS SL LN CA CB KF FKA RW NF AW NM CP SP RD [V0 NFR] AB CO RP DR PM LT HU CW HM.
  assert (MC : 1 <= g_max_conn sg) by (unfold sg; eapply server_bounds; eassumption).
  destruct (files_of _ _ _ _ SA SS) as (E1 & E2 & E3).
  assert (CR : create_server_reader (dk_fs st0) fg path = Some (SList t)).
  { destruct (listing_served (dk_fs st0) fg path parts l place CO CP) as (t' & CR & LT'); try assumption; unfold fg; rewrite ?E1, ?E2, ?E3; try assumption.
    change (create_server_reader (dk_fs st0) fg path = Some (SList t)). rewrite CR. do 2 f_equal. unfold lists in *. congruence. }
  pose proof (multi_reach_ok c sg fg ds st0 RD) as HO.
  eapply (listing_disk (multi_server c sg) (thread_own c sg a) (dkany (multi_server c sg) c sg fg ds) (fun _ => true) HandlesOk HandlesOk thread_cut); try eassumption.
  - apply multi_steady.
  - apply multi_good.
  - apply multi_looks; assumption.
  - intros RC. apply multi_takes_disk; assumption.
Qed.
(** With the single threaded server, while it has no other clients. *)
Theorem listing_fetched_single : forall c h sa ss h' bound ca given other seek cs eph hs iv txt f0 wc keys ex p0 d path ds a st0 i l parts place t,
  let g := mkRun c cs eph hs iv txt in let sg := server_of ss in let fg := CliModel.ss_files ss in
  crypto_ok c ->
  (* the programs *)
  CliModel.server_args_ok sa = true -> CliModel.server_config (c_vk_ok c) h sa = Some ss -> CliModel.sa_list sa = Some l -> list_name l ->
  CliModel.client_args_ok ca = true -> CliModel.client_begin (c_vk_ok c) h' bound false ca given other seek = Some cs ->
  keys_fit c sa ss ca cs -> CliModel.ca_file_key ca = None ->
  (* the request *)
  receive_waiting g f0 wc keys ex p0 -> rp_ph p0 <> RFailed -> asks_with g (CliModel.ss_cfg ss) wc false ex d ->
  normalize None (CliModel.cl_remote cs) = Some path -> clean_path path (parts ++ [l]) -> separators path <= CliModel.sa_depth sa ->
  (* the server and its disk *)
  single_free (dk_srv st0) a d i -> able i ->
  consistent (dk_fs st0) -> realpath (dk_fs st0) (parse_path (CliModel.sa_dir sa)) = Some place ->
  dirs (dk_fs st0) (place ++ parts) -> f_perm (dk_fs st0) (place ++ parts) = true -> lists (dk_fs st0) parts (place ++ parts) t -> blen t <= U64_MAX ->
  (* the client's machine *)
  (exists f1 lid, create_writer f0 (CliModel.cl_local cs) = (f1, Some lid)) -> blen t <= CliModel.ca_max_size ca ->
  exists st1 e w k, takes (single_server c sg) c sg fg ds i false st0 a d path st1 (Reads (SList t)) e w /\ agrees g wc keys false ex w k /\ 512 <= op_bs (k_opts k) /\
    forall peer early,
      answers_from g wc false ex (fun y => ignored c (c_opts (en_conn e)) (en_key e) (recv_cut sg y)) peer -> repeats g wc false ex peer early ->
      goes_well (disk_turn (single_server c sg) (single_turn c sg a) programs a) (dview (single_server c sg)) (receive_act g wc keys peer) (receive_patient wc) receive_busy c sg a peer
        (fun W => received g t (sm_prog W)) (4 * nblocks t (bs_enc (k_opts k)) + 6 + 2 * N.of_nat (length early)) (e_now (i_env i)) (mkSm st1 [] p0 [w] early).
Proof.
  intros c h sa ss h' bound ca given other seek cs eph hs iv txt f0 wc keys ex p0 d path ds a st0 i l parts place t g sg fg HC SA SS SL LN CA CB KF FKA RW NF AW NM CP SP [SC TK] AB CO RP DR PM LT HU CW HM.
  assert (MC : 1 <= g_max_conn sg) by (unfold sg; eapply server_bounds; eassumption).
  destruct (files_of _ _ _ _ SA SS) as (E1 & E2 & E3).
  assert (CR : create_server_reader (dk_fs st0) fg path = Some (SList t)).
  { destruct (listing_served (dk_fs st0) fg path parts l place CO CP) as (t' & CR & LT'); try assumption; unfold fg; rewrite ?E1, ?E2, ?E3; try assumption.
    change (create_server_reader (dk_fs st0) fg path = Some (SList t)). rewrite CR. do 2 f_equal. unfold lists in *. congruence. }
  eapply (listing_disk (single_server c sg) (single_turn c sg a) programs sready (sole a) (TableOk sg) (scut sg)); try eassumption.
  - apply single_steady. exact MC.
  - apply single_good.
  - apply single_looks; assumption.
  - intros RC. apply single_takes_disk; assumption.
Qed.

(** ** The files it names *)
Lemma listed_line f r q t n id : lists f r q t -> In n (f_names f q) -> at_ f (q ++ [n]) = Some (NFile id) ->
  exists before after, t = before ++ (PathSpec.path (r ++ [n]) ++ [10]) ++ after.
Proof.
  intros -> IN EA. apply in_split in IN as (l1 & l2 & ->). rewrite map_app, concat_app. cbn [map concat]. rewrite EA. cbn [app]. eauto.
Qed.
(** A file in the listed directory has its line there, and whoever fetches the path on that line gets that file. *)
Theorem listed_file_fetched_multi : forall c h sa ss ds (st : disk mstate) l parts place t n id,
  let sg := server_of ss in let fg := CliModel.ss_files ss in
  crypto_ok c ->
  CliModel.server_args_ok sa = true -> CliModel.server_config (c_vk_ok c) h sa = Some ss -> CliModel.sa_list sa = Some l -> list_name l ->
  dkreach (multi_server c sg) c sg fg ds (fun m => m = m_init) st -> consistent (dk_fs st) -> realpath (dk_fs st) (parse_path (CliModel.sa_dir sa)) = Some place ->
  dirs (dk_fs st) (place ++ parts) -> lists (dk_fs st) parts (place ++ parts) t ->
  (* the file [n] of the directory *)
  In n (f_names (dk_fs st) (place ++ parts)) -> at_ (dk_fs st) (place ++ parts ++ [n]) = Some (NFile id) ->
  f_perm (dk_fs st) (place ++ parts ++ [n]) = true -> (forall x, In x (place ++ parts ++ [n]) -> utf8 x = true) ->
  clean_path (PathSpec.path (parts ++ [n])) (parts ++ [n]) -> separators (PathSpec.path (parts ++ [n])) <= CliModel.sa_depth sa -> n <> l ->
  blen (f_data (dk_fs st) id) <= U64_MAX ->
  (exists before after, t = before ++ (PathSpec.path (parts ++ [n]) ++ [10]) ++ after) /\
  create_server_reader (dk_fs st) fg (PathSpec.path (parts ++ [n])) = Some (SFile id) /\
  fetches (multi_server c sg) (thread_own c sg) (sparing id (dkany (multi_server c sg) c sg fg ds)) (multi_free sg) thread_cut c sa ss ds id (PathSpec.path (parts ++ [n])) (f_data (dk_fs st) id) st.
Proof.
  intros c h sa ss ds st l parts place t n id sg fg HC SA SS SL LN RD CO RP DR LT IN EA PM U8 CP SP NL HU.
  destruct (files_of _ _ _ _ SA SS) as (E1 & E2 & E3).
  assert (CR : create_server_reader (dk_fs st) fg (PathSpec.path (parts ++ [n])) = Some (SFile id)).
  { apply (file_served (dk_fs st) fg _ parts n place id CO CP); try assumption; unfold fg; rewrite ?E1, ?E2, ?E3; try assumption.
    intros l' L. rewrite SL in L. injection L as <-. auto. }
  split; [eapply listed_line; [exact LT|exact IN|rewrite <- app_assoc; exact EA]|]. split; [exact CR|].
  intros h2 bound2 ca2 given2 other2 seek2 cs2 eph2 hs2 iv2 txt2 f02 wc2 keys2 ex2 p02 d2 a2 i2 g2 sg2 fg2 CA2 CB2 KF2 FKA2 RW2 NF2 AW2 NM2 [V2 NFR2] AB2 CR2 CW2 HM2.
  assert (MC : 1 <= g_max_conn sg) by (unfold sg; eapply server_bounds; eassumption).
  pose proof (multi_reach_ok c sg fg ds st RD) as HO.
  eapply (receive_disk (multi_server c sg) (thread_own c sg a2) (sparing id (dkany (multi_server c sg) c sg fg ds)) (fun _ => true) HandlesOk HandlesOk thread_cut); try eassumption.
  - apply (multi_tame c sg fg ds). intros s t' s' o H. exact H.
  - apply multi_good.
  - apply multi_looks; assumption.
  - intros RC. apply multi_takes_disk; assumption.
Qed.

Theorem listed_file_fetched_single : forall c h sa ss ds (st : disk sstate) l parts place t n id,
  let sg := server_of ss in let fg := CliModel.ss_files ss in
  crypto_ok c ->
  CliModel.server_args_ok sa = true -> CliModel.server_config (c_vk_ok c) h sa = Some ss -> CliModel.sa_list sa = Some l -> list_name l ->
  consistent (dk_fs st) -> realpath (dk_fs st) (parse_path (CliModel.sa_dir sa)) = Some place ->
  dirs (dk_fs st) (place ++ parts) -> lists (dk_fs st) parts (place ++ parts) t ->
  (* the file [n] of the directory *)
  In n (f_names (dk_fs st) (place ++ parts)) -> at_ (dk_fs st) (place ++ parts ++ [n]) = Some (NFile id) ->
  f_perm (dk_fs st) (place ++ parts ++ [n]) = true -> (forall x, In x (place ++ parts ++ [n]) -> utf8 x = true) ->
  clean_path (PathSpec.path (parts ++ [n])) (parts ++ [n]) -> separators (PathSpec.path (parts ++ [n])) <= CliModel.sa_depth sa -> n <> l ->
  blen (f_data (dk_fs st) id) <= U64_MAX ->
  (exists before after, t = before ++ (PathSpec.path (parts ++ [n]) ++ [10]) ++ after) /\
  create_server_reader (dk_fs st) fg (PathSpec.path (parts ++ [n])) = Some (SFile id) /\
  fetches (single_server c sg) (single_turn c sg) (sparing id programs) single_free (fun _ y => recv_cut sg y) c sa ss ds id (PathSpec.path (parts ++ [n])) (f_data (dk_fs st) id) st.
Proof.
  intros c h sa ss ds st l parts place t n id sg fg HC SA SS SL LN CO RP DR LT IN EA PM U8 CP SP NL HU.
  destruct (files_of _ _ _ _ SA SS) as (E1 & E2 & E3).
  assert (CR : create_server_reader (dk_fs st) fg (PathSpec.path (parts ++ [n])) = Some (SFile id)).
  { apply (file_served (dk_fs st) fg _ parts n place id CO CP); try assumption; unfold fg; rewrite ?E1, ?E2, ?E3; try assumption.
    intros l' L. rewrite SL in L. injection L as <-. auto. }
  split; [eapply listed_line; [exact LT|exact IN|rewrite <- app_assoc; exact EA]|]. split; [exact CR|].
  intros h2 bound2 ca2 given2 other2 seek2 cs2 eph2 hs2 iv2 txt2 f02 wc2 keys2 ex2 p02 d2 a2 i2 g2 sg2 fg2 CA2 CB2 KF2 FKA2 RW2 NF2 AW2 NM2 [SC2 TK2] AB2 CR2 CW2 HM2.
  assert (MC : 1 <= g_max_conn sg) by (unfold sg; eapply server_bounds; eassumption).
  eapply (receive_disk (single_server c sg) (single_turn c sg a2) (sparing id programs) sready (sole a2) (TableOk sg) (scut sg)); try eassumption.
  - apply single_tame; [exact MC|]. intros s t' s' o H. exact H.
  - apply single_good.
  - apply single_looks; assumption.
  - intros RC. apply single_takes_disk; assumption.
Qed.
Print Assumptions listing_fetched_multi.
Print Assumptions listing_fetched_single.
Print Assumptions listed_file_fetched_multi.
Print Assumptions listed_file_fetched_single.
