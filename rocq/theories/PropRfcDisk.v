(** C86: clients of RFC 1350 fetch files from the server's disk and store files on it. *)
From Verif Require Import Base BaseProofs PacketModel PacketSpec MapperModel ReaderModel ReaderSpec BlockLemmas ConfigModel CryptoModel CryptoSpec CryptoProofs ExtModel PropExt PathModel ConnModel
  ConnSpec ClientModel HandshakeModel HandshakeProofs ClientWaitModel PropHandshake AgreeProofs PropAgree SystemModel ServerModel ServerSpec ServerProofs PropServer WorldModel WorldB WorldC PropWorld
  FsModel FsSpec FsProofs FsServerModel DiskModel DiskSpec DiskProofs DiskB PropDisk StoreSpec StoreProofs RunModel RunSpec SmoothModel SmoothSpec SmoothC PropSmooth WholeSpec PropWhole
  ArriveModel ArriveSpec ArriveProofs PropArrive RfcSpec RfcProofs PropRfc RfcSmoothSpec RfcSmooth PropRfcSmooth RfcDiskSpec.
From Verif Require CliModel PropCli.

Lemma plain_valid max name path : normalize None name = Some path -> validate_request_options max name None = Ok path.
Proof.
  intros H. unfold validate_request_options, handle_file_size. destruct (N.ltb_spec max 0); [lia|]. unfold validate_file_name. rewrite H. reflexivity.
Qed.
Lemma plain_file_request c cfg eph wr name path : crypto_ok c -> good_string name -> AgreeProofs.in_clear c cfg (rfc_request wr name) ->
  sc_full cfg = false -> sc_auth cfg = None -> normalize None name = Some path ->
  file_request c cfg eph (rfc_request wr name) = Some (wr, path).
Proof.
  intros HC HN HI HF HA NM. unfold file_request. rewrite (in_clear_new c cfg _ HC HI), (rfc_request_parse wr name HN).
  destruct wr; cbn match; cbn [rq_exts rq_name]; rewrite (plain_parse c cfg eph HF HA); cbn [op_size default_options]; rewrite (plain_valid _ _ _ NM); reflexivity.
Qed.
Lemma open_server c h sa ss : CliModel.server_config (c_vk_ok c) h sa = Some ss -> open_to_all sa ->
  sc_full (g_cfg (server_of ss)) = false /\ sc_auth (g_cfg (server_of ss)) = None.
Proof.
  intros H [A F]. unfold CliModel.server_config in H. destruct (CliModel.first_addr h _); [|discriminate].
  destruct (CliModel.opt_private h _); [|discriminate]. unfold CliModel.opt_keys in H. rewrite A in H. injection H as <-.
  cbn. split; [|reflexivity]. destruct (CliModel.sa_full sa) as [[]|]; congruence.
Qed.
Lemma plain_bounds c h sa ss : CliModel.server_args_ok sa = true -> CliModel.server_config (c_vk_ok c) h sa = Some ss -> let sg := server_of ss in
  512 <= sc_max_bs (g_cfg sg) /\ 1 <= sc_max_window (g_cfg sg) <= 1000 /\ 1 <= g_max_conn sg /\ g_max_size sg = CliModel.sa_max_size sa.
Proof.
  intros SA SS sg. destruct (PropCli.server_arguments _ _ _ _ SA SS) as ((B1 & B2) & (W1 & W2) & (M1 & M2) & MS & _). unfold sg.
  change (g_max_size (server_of ss)) with (sc_max_size (CliModel.ss_cfg ss)). cbn [server_of g_cfg g_max_conn]. rewrite B2, W2, M2, MS. repeat split; lia.
Qed.

Section G.
Context {S : Type} (sv : server S) (own : N -> option bytes -> S -> bool -> S -> outs -> Prop) (step : disk S -> took -> disk S -> outs -> Prop).
Variables (ready : S -> bool) (Inv GInv : S -> Prop) (cut : entry -> bytes -> bytes).
Variables (c : crypto) (sg : srvcfg) (fg : fcfg) (name path : bytes) (ds id : N) (a : addr) (st0 : disk S) (i : input) (wr : bool) (peer : CliModel.addr).
Notation d := (rfc_request wr name).
Hypothesis TM : tame sv own step ready Inv c sg a cut id.
Hypothesis GD : good c sg sv GInv cut.
Hypothesis LK : sv_looked sv (dk_srv st0) a = true.
Hypothesis TK : recv_cut sg d = d -> forall q data x reply, server_new c (g_cfg sg) (i_henv (with_files i q data)) (i_av i) d = SAccepted x reply ->
  exists s1 o, sv_main sv (loaded sv st0) a d (with_files i q data) s1 o /\ sent_to a o = match reply with Some w => [OWire w] | None => [] end /\
    sv_view sv s1 a = Some (new_entry x (e_now (i_env i)) (fun _ => data)) /\ Inv s1.
Hypothesis HC : crypto_ok c.
Hypothesis HB : 512 <= sc_max_bs (g_cfg sg).
Hypothesis HW : 1 <= sc_max_window (g_cfg sg).
Hypothesis HF : sc_full (g_cfg sg) = false.
Hypothesis HA : sc_auth (g_cfg sg) = None.
Hypothesis HN : good_string name.
Hypothesis HL : blen name <= 500.
Hypothesis HI : AgreeProofs.in_clear c (g_cfg sg) d.
Hypothesis AB : able i.
Hypothesis AV : i_av i = av_all.
Hypothesis NM : normalize None name = Some path.

Lemma fetch_disk : wr = false -> create_server_reader (dk_fs st0) fg path = Some (SFile id) ->
  let F := f_data (dk_fs st0) id in
  exists st1, plain_takes sv c sg fg ds i false st0 a d path st1 (Reads (SFile id)) /\
    goes_well (disk_turn sv own step a) (dview sv) (getter_act peer) no_timer getting c sg a peer
      (fetched F) (4 * (blen F / 512 + 1) + 1) (e_now (i_env i)) (mkSm st1 [] (mkG 0 [] false) [] []).
Proof.
  intros WR CR F. destruct AB as (I1 & I2 & _).
  assert (RC : recv_cut sg d = d) by (apply whole_request, request_length; exact HL).
  destruct (plain_request_taken c (g_cfg sg) (i_henv (with_files i (Some (Some (blen F))) F)) wr name path (Some (blen F)) HC HN HI HF HA (plain_valid _ _ _ NM) eq_refl I1 I2)
    as (x & SN & EW & EP & _). rewrite <- AV in SN. change (i_av i) with (i_av (with_files i (Some (Some (blen F))) F)) in SN.
  destruct (TK RC _ _ x _ SN) as (s1 & o & E & SO & V1 & IV).
  destruct (accept_opts _ _ _ _ _ _ _ SN HB HW) as ((O1 & O2) & O3 & O4). rewrite EW, WR in O4. destruct O4 as (kd & O4 & _).
  set (e := new_entry x (e_now (i_env i)) (fun _ => F)) in *.
  assert (EWK : exists r, en_work e = WRead F r) by (unfold e, new_entry; cbn [en_work]; rewrite O4; eauto). destruct EWK as [r EWK].
  assert (FR : file_request c (g_cfg sg) (h_eph (i_henv i)) d = Some (false, path)).
  { pose proof (plain_file_request c (g_cfg sg) (h_eph (i_henv i)) wr name path HC HN HI HF HA NM) as X. rewrite WR in X at 2. exact X. }
  set (st1 := mkDk s1 (dk_fs st0) (still_open sv s1 (fun b => if b =? a then Some (Reads (SFile id)) else dk_open st0 b))).
  assert (D1 : DI sv Inv a id st1).
  { split; [exact IV|]. cbn [dk_srv dk_open dk_fs st1]. intros e1 X. rewrite V1 in X. injection X as <-. rewrite EWK. unfold still_open. rewrite V1, N.eqb_refl. split; reflexivity. }
  assert (VD : dview sv st1 a = Some e) by (rewrite (DI_view _ _ _ _ _ _ _ _ _ _ TM _ D1); exact V1).
  exists st1. split.
  { exists (dk_fs st0), (Some (Some (blen F))), s1, o, e. split; [exact LK|]. rewrite RC. split; [exact FR|].
    split; [unfold open_request; rewrite FR, CR; reflexivity|]. split; [exact E|]. split; [rewrite SO, WR; reflexivity|]. split; [exact V1|reflexivity]. }
  destruct (gd_cut _ _ _ _ _ GD x O2) as (L & HL' & HCUT).
  exact (fetch_generic (disk_turn sv own step a) (dview sv) (fun st => ready (dk_srv st)) (DI sv Inv a id) c sg a cut (disk_regular sv own step ready Inv c sg a cut id TM)
    _ _ name x _ (e_now (i_env i)) (fun _ => F) st1 wr L peer e HC HB HW HN HI SN eq_refl D1 VD HL' HCUT F r EWK).
Qed.

Lemma store_disk F f' : wr = true -> blen F <= g_max_size sg -> consistent (dk_fs st0) -> create_server_writer (dk_fs st0) fg path = (f', Some id) ->
  (forall st t st' o, step st t st' o -> leads (dk_fs st') fg path = leads (dk_fs st) fg path) ->
  exists st1, plain_takes sv c sg fg ds i true st0 a d path st1 (Writes id) /\
    goes_well (disk_turn sv own step a) (dview sv) (putter_act F peer) no_timer (putting F) c sg a peer
      (stored_on fg path F) (4 * (blen F / 512 + 1) + 1) (e_now (i_env i)) (mkSm st1 [] 0 [rfc_ack 0] []).
Proof.
  intros WR HM CO CR LS. destruct AB as (I1 & I2 & _).
  destruct (writer_new_file _ _ _ _ _ CR) as [DE _]. pose proof (writer_leads _ _ _ _ _ (proj1 CO) CR) as LD.
  assert (RC : recv_cut sg d = d) by (apply whole_request, request_length; exact HL).
  destruct (plain_request_taken c (g_cfg sg) (i_henv (with_files i (Some None) [])) wr name path None HC HN HI HF HA (plain_valid _ _ _ NM) eq_refl I1 I2)
    as (x & SN & EW & EP & _). rewrite <- AV in SN. change (i_av i) with (i_av (with_files i (Some None) [])) in SN.
  destruct (TK RC _ _ x _ SN) as (s1 & o & E & SO & V1 & IV).
  destruct (accept_opts _ _ _ _ _ _ _ SN HB HW) as ((O1 & O2) & O3 & O4). rewrite EW, WR in O4.
  set (e := new_entry x (e_now (i_env i)) (fun _ => [])) in *.
  assert (EWK : en_work e = WWrite (es_path x) writer_new) by (unfold e, new_entry; cbn [en_work]; rewrite O4; reflexivity).
  assert (FR : file_request c (g_cfg sg) (h_eph (i_henv i)) d = Some (true, path)).
  { pose proof (plain_file_request c (g_cfg sg) (h_eph (i_henv i)) wr name path HC HN HI HF HA NM) as X. rewrite WR in X at 2. exact X. }
  set (st1 := mkDk s1 f' (still_open sv s1 (fun b => if b =? a then Some (Writes id) else dk_open st0 b))).
  assert (D1 : DI sv Inv a id st1).
  { split; [exact IV|]. cbn [dk_srv dk_open dk_fs st1]. intros e1 X. rewrite V1 in X. injection X as <-. rewrite EWK. unfold still_open. rewrite V1, N.eqb_refl. split; [reflexivity|exact DE]. }
  assert (VD : dview sv st1 a = Some e) by (rewrite (DI_view _ _ _ _ _ _ _ _ _ _ TM _ D1); exact V1).
  exists st1. split.
  { exists f', (Some None), s1, o, e. split; [exact LK|]. rewrite RC. split; [exact FR|].
    split; [unfold open_request; rewrite FR, CR; reflexivity|]. split; [cbn [content]; rewrite DE; exact E|]. split; [rewrite SO, WR; reflexivity|]. split; [exact V1|reflexivity]. }
  destruct (gd_cut _ _ _ _ _ GD x O2) as (L & HL' & HCUT).
  apply (goes_well_weaken _ _ _ _ _ _ _ _ _ (stored F)).
  { intros ck kk b W T [E1 E2].
    destruct (run_kept sv own step ready Inv c sg a cut id TM _ _ _ _ _ _ _ _ _ T D1) as [_ KD]; [exact DE|].
    assert (LL : leads (dk_fs (sm_srv W)) fg path = Some id) by (rewrite (run_leads sv own step c sg a _ _ _ _ _ _ _ _ _ fg path LS T); exact LD).
    split; [exact E1|]. exists id. split; [exact LL|]. rewrite KD. exact E2. }
  exact (store_generic (disk_turn sv own step a) (dview sv) (fun st => ready (dk_srv st)) (DI sv Inv a id) c sg a cut (disk_regular sv own step ready Inv c sg a cut id TM)
    _ _ name x _ (e_now (i_env i)) (fun _ => []) st1 wr L peer e HC HB HW HN HI SN eq_refl D1 VD HL' HCUT F (es_path x) writer_new EWK HM).
Qed.
End G.

(** The servers take the request. *)
Lemma plain_single c sg (st0 : disk sstate) i a d : s_clients (dk_srv st0) = [] -> taken (dk_srv st0) i = TookMain a d -> 1 <= g_max_conn sg -> recv_cut sg d = d ->
  forall q data x reply, server_new c (g_cfg sg) (i_henv (with_files i q data)) (i_av i) d = SAccepted x reply ->
  exists s1 o, sv_main (single_server c sg) (loaded (single_server c sg) st0) a d (with_files i q data) s1 o /\ sent_to a o = match reply with Some w => [OWire w] | None => [] end /\
    sview s1 a = Some (new_entry x (e_now (i_env i)) (fun _ => data)) /\ sole a s1.
Proof.
  intros SC TK MC RC q data x reply SN. set (s := loaded (single_server c sg) st0).
  assert (SC' : s_clients s = []) by (unfold s, loaded; cbn [single_server sv_load s_clients]; rewrite SC; reflexivity).
  assert (TK' : taken s (with_files i q data) = TookMain a d).
  { unfold taken in *. rewrite SC'. rewrite SC in TK. exact TK. }
  assert (X : exists s1 o, step_recv c sg s (with_files i q data) = Some (s1, o) /\ sent_to a o = match reply with Some w => [OWire w] | None => [] end /\
    sview s1 a = Some (new_entry x (e_now (i_env i)) (fun _ => data))).
  { pose proof TK' as T. unfold taken, step_recv, sview in *. rewrite SC' in *. destruct (scan _ _ _ _) as [[[b y]|] cursor]; cbn [fst] in T; [discriminate|].
    destruct (i_main (with_files i q data)) as [b y| |]; try discriminate. injection T as -> ->. cbn [has_entry find_entry]. unfold new_client. cbn [s_clients set_recv]. rewrite SC', RC.
    change (i_av (with_files i q data)) with (i_av i). rewrite SN.
    destruct (N.leb_spec (g_max_conn sg) (N.of_nat (length (@nil (addr * entry))))) as [L|L]; [cbn [length] in L; lia|]. eexists _, _. split; [reflexivity|].
    split; [pose proof (sent_to_wire a a reply) as X; rewrite N.eqb_refl in X; exact X|]. cbn [s_clients]. cbn [insert_entry find_entry]. rewrite N.eqb_refl. reflexivity. }
  destruct X as (s1 & o & E & SO & V). exists s1, o.
  split; [split; [exact TK'|exact E]|]. split; [exact SO|]. split; [exact V|]. eapply accept_sole; eassumption.
Qed.
Lemma plain_multi c sg (st0 : disk mstate) i a d : HandlesOk (dk_srv st0) -> mview (dk_srv st0) a = None ->
  N.of_nat (length (filter (fun y => th_live (snd y)) (m_handles (dk_srv st0)))) < g_max_conn sg -> recv_cut sg d = d ->
  forall q data x reply, server_new c (g_cfg sg) (i_henv (with_files i q data)) (i_av i) d = SAccepted x reply ->
  exists m1 o, sv_main (multi_server c sg) (loaded (multi_server c sg) st0) a d (with_files i q data) m1 o /\ sent_to a o = match reply with Some w => [OWire w] | None => [] end /\
    mview m1 a = Some (new_entry x (e_now (i_env i)) (fun _ => data)) /\ HandlesOk m1.
Proof.
  intros HO V0 MC RC q data x reply SN. set (m := loaded (multi_server c sg) st0).
  assert (HO' : HandlesOk m) by (apply (gd_load _ _ _ _ _ (multi_good c sg)); exact HO).
  assert (V0' : mview m a = None).
  { unfold m, loaded. etransitivity; [exact (gd_view _ _ _ _ _ (multi_good c sg) (fun b => content (dk_fs st0) (dk_open st0 b)) (dk_srv st0) a)|]. cbn [multi_server sv_view]. rewrite V0. reflexivity. }
  assert (MC' : N.of_nat (length (filter (fun y => th_live (snd y)) (m_handles m))) < g_max_conn sg).
  { unfold m, loaded. cbn [multi_server sv_load m_handles]. rewrite live_load. exact MC. }
  assert (X : exists m1 o, main_turn c sg m (MData a d) (with_files i q data) = Some (m1, o) /\ sent_to a o = match reply with Some w => [OWire w] | None => [] end /\
    mview m1 a = Some (new_entry x (e_now (i_env i)) (fun _ => data))).
  { unfold main_turn, mview in *. pose proof (sorted_nodup _ HO') as ND. set (l := filter _ (m_handles m)) in *.
    assert (LV : live_entry l a = None) by (unfold l; rewrite live_filter; assumption).
    assert (LL : Forall (fun y => th_live (snd y) = true) l) by (apply Forall_forall; intros y Y; unfold l in Y; apply filter_In in Y; tauto).
    assert (FH : find_handle l a = None).
    { unfold live_entry in LV. clear -LV LL. induction LL as [|[b t] l Ht LL IH]; [reflexivity|]. cbn [find_handle] in *. destruct (a =? b); [|exact (IH LV)].
      cbn [snd] in Ht. destruct t as [lv e]. cbn in Ht. rewrite Ht in LV. discriminate. }
    rewrite FH, RC. change (i_av (with_files i q data)) with (i_av i). rewrite SN. destruct (N.leb_spec (g_max_conn sg) (N.of_nat (length l))) as [L|L]; [lia|]. eexists _, _. split; [reflexivity|].
    split; [pose proof (sent_to_wire a a reply) as X; rewrite N.eqb_refl in X; exact X|]. cbn [m_handles]. unfold live_entry. rewrite find_insert_handle, N.eqb_refl by exact FH. reflexivity. }
  destruct X as (m1 & o & E & SO & V).
  exists m1, o. split; [exact E|]. split; [exact SO|]. split; [exact V|].
  eapply mphase_ok; [exact HO'|]. exact (mp_main c sg m (MData a d) (with_files i q data) m1 o E).
Qed.

(** A client of RFC 1350 asks a server that is open to all for a file below its directory: the request is taken, and while
    nothing goes wrong the client ends with the file as it is on the disk, after at most 4 rounds per block and 1. *)
Theorem plain_fetch_arrives_single : forall c h sa ss name path ds id a st0 i peer,
  let sg := server_of ss in let fg := CliModel.ss_files ss in
  crypto_ok c -> CliModel.server_args_ok sa = true -> CliModel.server_config (c_vk_ok c) h sa = Some ss -> open_to_all sa ->
  good_string name -> blen name <= 500 -> AgreeProofs.in_clear c (g_cfg sg) (rfc_request false name) ->
  s_clients (dk_srv st0) = [] -> taken (dk_srv st0) i = TookMain a (rfc_request false name) -> able i -> i_av i = av_all ->
  normalize None name = Some path -> create_server_reader (dk_fs st0) fg path = Some (SFile id) ->
  let F := f_data (dk_fs st0) id in
  exists st1, plain_takes (single_server c sg) c sg fg ds i false st0 a (rfc_request false name) path st1 (Reads (SFile id)) /\
    goes_well (disk_turn (single_server c sg) (single_turn c sg a) (sparing id programs) a) (dview (single_server c sg)) (getter_act peer) no_timer getting c sg a peer
      (fetched F) (4 * (blen F / 512 + 1) + 1) (e_now (i_env i)) (mkSm st1 [] (mkG 0 [] false) [] []).
Proof.
  intros c h sa ss name path ds id a st0 i peer sg fg HC SA SS OA HN HL HI SC TK AB AV NM CR F.
  assert (B : 512 <= sc_max_bs (g_cfg sg) /\ 1 <= sc_max_window (g_cfg sg) <= 1000 /\ 1 <= g_max_conn sg /\ g_max_size sg = CliModel.sa_max_size sa) by (eapply plain_bounds; eassumption).
  destruct B as (B1 & B2 & B3 & B4). destruct (open_server _ _ _ _ SS OA) as [HF HA].
  eapply (fetch_disk (single_server c sg) (single_turn c sg a) (sparing id programs) sready (sole a) (TableOk sg) (scut sg) c sg fg name path ds id a st0 i false peer); try assumption.
  - apply single_tame; [exact B3|]. intros st t st' o H. exact H.
  - apply single_good.
  - apply single_looks; assumption.
  - intros RC. apply plain_single; assumption.
  - exact (proj1 B2).
  - reflexivity.
Qed.
Theorem plain_fetch_arrives_multi : forall c h sa ss name path ds id a st0 i peer,
  let sg := server_of ss in let fg := CliModel.ss_files ss in
  crypto_ok c -> CliModel.server_args_ok sa = true -> CliModel.server_config (c_vk_ok c) h sa = Some ss -> open_to_all sa ->
  good_string name -> blen name <= 500 -> AgreeProofs.in_clear c (g_cfg sg) (rfc_request false name) ->
  dkreach (multi_server c sg) c sg fg ds (fun m => m = m_init) st0 -> mview (dk_srv st0) a = None ->
  N.of_nat (length (filter (fun y => th_live (snd y)) (m_handles (dk_srv st0)))) < g_max_conn sg -> able i -> i_av i = av_all ->
  normalize None name = Some path -> create_server_reader (dk_fs st0) fg path = Some (SFile id) ->
  let F := f_data (dk_fs st0) id in
  exists st1, plain_takes (multi_server c sg) c sg fg ds i false st0 a (rfc_request false name) path st1 (Reads (SFile id)) /\
    goes_well (disk_turn (multi_server c sg) (thread_own c sg a) (sparing id (dkany (multi_server c sg) c sg fg ds)) a) (dview (multi_server c sg)) (getter_act peer) no_timer getting c sg a peer
      (fetched F) (4 * (blen F / 512 + 1) + 1) (e_now (i_env i)) (mkSm st1 [] (mkG 0 [] false) [] []).
Proof.
  intros c h sa ss name path ds id a st0 i peer sg fg HC SA SS OA HN HL HI RD V0 NF0 AB AV NM CR F.
  assert (B : 512 <= sc_max_bs (g_cfg sg) /\ 1 <= sc_max_window (g_cfg sg) <= 1000 /\ 1 <= g_max_conn sg /\ g_max_size sg = CliModel.sa_max_size sa) by (eapply plain_bounds; eassumption).
  destruct B as (B1 & B2 & B3 & B4). destruct (open_server _ _ _ _ SS OA) as [HF HA].
  pose proof (multi_reach_ok c sg fg ds st0 RD) as HO.
  eapply (fetch_disk (multi_server c sg) (thread_own c sg a) (sparing id (dkany (multi_server c sg) c sg fg ds)) (fun _ => true) HandlesOk HandlesOk thread_cut c sg fg name path ds id a st0 i false peer); try assumption.
  - apply (multi_tame c sg fg ds). intros st t st' o H. exact H.
  - apply multi_good.
  - apply multi_looks; assumption.
  - intros RC. apply plain_multi; assumption.
  - exact (proj1 B2).
  - reflexivity.
Qed.
(** It asks to store the file [F] under a name that can be created: the request is taken and answered with the acknowledgement of
    block 0, and while nothing goes wrong the file is in the end where the name leads on the server's disk. *)
Theorem plain_store_arrives_single : forall c h sa ss name path ds F f' id a st0 i peer,
  let sg := server_of ss in let fg := CliModel.ss_files ss in
  crypto_ok c -> CliModel.server_args_ok sa = true -> CliModel.server_config (c_vk_ok c) h sa = Some ss -> open_to_all sa ->
  good_string name -> blen name <= 500 -> AgreeProofs.in_clear c (g_cfg sg) (rfc_request true name) -> blen F <= CliModel.sa_max_size sa ->
  s_clients (dk_srv st0) = [] -> taken (dk_srv st0) i = TookMain a (rfc_request true name) -> able i -> i_av i = av_all ->
  normalize None name = Some path -> consistent (dk_fs st0) -> create_server_writer (dk_fs st0) fg path = (f', Some id) ->
  exists st1, plain_takes (single_server c sg) c sg fg ds i true st0 a (rfc_request true name) path st1 (Writes id) /\
    goes_well (disk_turn (single_server c sg) (single_turn c sg a) (minding fg id path programs) a) (dview (single_server c sg)) (putter_act F peer) no_timer (putting F) c sg a peer
      (stored_on fg path F) (4 * (blen F / 512 + 1) + 1) (e_now (i_env i)) (mkSm st1 [] 0 [rfc_ack 0] []).
Proof.
  intros c h sa ss name path ds F f' id a st0 i peer sg fg HC SA SS OA HN HL HI HM SC TK AB AV NM CO CR.
  assert (B : 512 <= sc_max_bs (g_cfg sg) /\ 1 <= sc_max_window (g_cfg sg) <= 1000 /\ 1 <= g_max_conn sg /\ g_max_size sg = CliModel.sa_max_size sa) by (eapply plain_bounds; eassumption).
  destruct B as (B1 & B2 & B3 & B4). destruct (open_server _ _ _ _ SS OA) as [HF HA]. rewrite <- B4 in HM.
  eapply (store_disk (single_server c sg) (single_turn c sg a) (minding fg id path programs) sready (sole a) (TableOk sg) (scut sg) c sg fg name path ds id a st0 i true peer) with (f' := f'); try assumption.
  - apply single_tame; [exact B3|]. intros st t st' o H. split; [exact (proj1 H)|exact (proj1 (proj2 H))].
  - apply single_good.
  - apply single_looks; assumption.
  - intros RC. apply plain_single; assumption.
  - exact (proj1 B2).
  - reflexivity.
  - intros st t st' o H. exact (proj2 (proj2 H)).
Qed.
Theorem plain_store_arrives_multi : forall c h sa ss name path ds F f' id a st0 i peer,
  let sg := server_of ss in let fg := CliModel.ss_files ss in
  crypto_ok c -> CliModel.server_args_ok sa = true -> CliModel.server_config (c_vk_ok c) h sa = Some ss -> open_to_all sa ->
  good_string name -> blen name <= 500 -> AgreeProofs.in_clear c (g_cfg sg) (rfc_request true name) -> blen F <= CliModel.sa_max_size sa ->
  dkreach (multi_server c sg) c sg fg ds (fun m => m = m_init) st0 -> mview (dk_srv st0) a = None ->
  N.of_nat (length (filter (fun y => th_live (snd y)) (m_handles (dk_srv st0)))) < g_max_conn sg -> able i -> i_av i = av_all ->
  normalize None name = Some path -> consistent (dk_fs st0) -> create_server_writer (dk_fs st0) fg path = (f', Some id) ->
  exists st1, plain_takes (multi_server c sg) c sg fg ds i true st0 a (rfc_request true name) path st1 (Writes id) /\
    goes_well (disk_turn (multi_server c sg) (thread_own c sg a) (minding fg id path (dkany (multi_server c sg) c sg fg ds)) a) (dview (multi_server c sg)) (putter_act F peer) no_timer (putting F) c sg a peer
      (stored_on fg path F) (4 * (blen F / 512 + 1) + 1) (e_now (i_env i)) (mkSm st1 [] 0 [rfc_ack 0] []).
Proof.
  intros c h sa ss name path ds F f' id a st0 i peer sg fg HC SA SS OA HN HL HI HM RD V0 NF0 AB AV NM CO CR.
  assert (B : 512 <= sc_max_bs (g_cfg sg) /\ 1 <= sc_max_window (g_cfg sg) <= 1000 /\ 1 <= g_max_conn sg /\ g_max_size sg = CliModel.sa_max_size sa) by (eapply plain_bounds; eassumption).
  destruct B as (B1 & B2 & B3 & B4). destruct (open_server _ _ _ _ SS OA) as [HF HA]. rewrite <- B4 in HM.
  pose proof (multi_reach_ok c sg fg ds st0 RD) as HO.
  eapply (store_disk (multi_server c sg) (thread_own c sg a) (minding fg id path (dkany (multi_server c sg) c sg fg ds)) (fun _ => true) HandlesOk HandlesOk thread_cut c sg fg name path ds id a st0 i true peer) with (f' := f'); try assumption.
  - apply (multi_tame c sg fg ds). intros st t st' o H. split; [exact (proj1 H)|exact (proj1 (proj2 H))].
  - apply multi_good.
  - apply multi_looks; assumption.
  - intros RC. apply plain_multi; assumption.
  - exact (proj1 B2).
  - reflexivity.
  - intros st t st' o H. exact (proj2 (proj2 H)).
Qed.
Print Assumptions plain_fetch_arrives_single.
Print Assumptions plain_fetch_arrives_multi.
Print Assumptions plain_store_arrives_single.
Print Assumptions plain_store_arrives_multi.
