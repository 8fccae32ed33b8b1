(** C81 on command lines: a file is sent with `--encryption-key server.key`, the server is started again, and another user
    who has the key fetches it with `--encryption-key` and has the file back. *)
From Verif Require Import Base BaseProofs PacketModel PacketSpec MapperModel ReaderModel ReaderSpec BlockLemmas ConfigModel CryptoModel CryptoSpec CryptoProofs ExtModel PathModel ConnModel
  ConnSpec ClientModel HandshakeModel ClientWaitModel PropHandshake AgreeProofs PropAgree StreamModel StreamSpec SystemModel ServerModel ServerSpec PropServer WorldModel PropWorld WorldCases
  FsModel FsSpec PropFs FsServerModel DiskModel DiskSpec DiskCases StoreSpec RunModel RunSpec RunCases PropRun SealSpec SmoothModel SmoothSpec PropSmooth WholeSpec PropWhole WholeCases ArriveModel ArriveSpec PropArrive ArriveCases
  FetchSpec PropFetch FetchCases SealedSpec PropSealed.
From Verif Require CliModel PropCli.

Definition se_ca : CliModel.client_args := CliModel.mkCA (s2b "server:69") None 15000 1425 8 80 10485760 (s2b "optional-protocol") None None None false (Some (s2b "server.key")).
Definition se_iv : bytes := repeat 9 19.
(** ** send /a --remote-path new/g *)
Definition se_cs : CliModel.client_start := Eval vm_compute in got (CliModel.client_begin (c_vk_ok toy) PropCli.ex_host true true se_ca (s2b "/a") (Some (s2b "new/g")) false).
Lemma se_cs_ok : CliModel.client_begin (c_vk_ok toy) PropCli.ex_host true true se_ca (s2b "/a") (Some (s2b "new/g")) false = Some se_cs.
Proof. vm_compute. reflexivity. Qed.
Definition se_key : bytes := got (CliModel.cl_file_key se_cs).
Lemma se_key_ok : CliModel.cl_file_key se_cs = Some se_key.
Proof. reflexivity. Qed.
Definition se_g : run_cfg := mkRun toy se_cs [1; 2] [3; 4] se_iv (fun _ => []).
Definition se_ask := run_ask se_g true (ru_opts se_g).
Definition se_wc : wcfg := fst (fst (got se_ask)).
Definition se_keys : option client_keys := snd (fst (got se_ask)).
Definition se_ex : exts := snd (got se_ask).
Lemma se_ask_ok : run_ask se_g true (ru_opts se_g) = Some (se_wc, se_keys, se_ex).
Proof. reflexivity. Qed.
Definition se_d : bytes := asking se_g true se_ex.
Lemma se_only d : request_of se_g se_wc true se_ex d -> d = se_d.
Proof. intros (n & _ & E). change (client_send (ru_c se_g) (wc_sock se_wc) n (asking se_g true se_ex)) with (@Ok unit bytes se_d) in E. congruence. Qed.
Definition se_p0 : uphase := send_run se_g se_wc se_keys ws_f (UAsk (SFile 0) (wait_init se_wc se_ex 0)) [mkSin false IoOk (Some true) RvBlock 10].
Definition se_step := main_turn toy (server_of wh_ss) m_init (MData 60 se_d) (with_files (wh_i 60 se_d) (Some None) []).
Definition wire_of (o : outs) : bytes := match sent_to 60 o ++ sent_to 61 o with [OWire w] => w | _ => [] end.
(** The block size the client agrees to. *)
Definition bs_of (g : run_cfg) (wc : wcfg) (write : bool) (ex : exts) (w : bytes) (sp : bool) : option N :=
  match client_recv (ru_c g) (wc_sock wc) (takeN (wc_buf wc) w) with
  | Ok p => match query_step (ru_c g) (wc_cfg wc) write true (wc_opts wc) ex sp (ru_txt g) p with QDone q => Some (bs_enc (q_opts q)) | _ => None end
  | _ => None
  end.
Definition only_bs (g : run_cfg) (wc : wcfg) (write : bool) (ex : exts) (w : bytes) (bs : N) : bool :=
  let ok o := match o with Some b => b =? bs | None => true end in ok (bs_of g wc write ex w true) && ok (bs_of g wc write ex w false).
Lemma only_bs_agrees g wc keys write ex w k bs : only_bs g wc write ex w bs = true -> agrees g wc keys write ex w k -> bs_enc (k_opts k) = bs.
Proof.
  intros H (p & q & sp & R & Q & _ & ->). unfold only_bs in H. apply andb_prop in H as [H1 H2]. cbn [agreed k_opts].
  assert (B : bs_of g wc write ex w sp = Some (bs_enc (q_opts q))) by (unfold bs_of; rewrite R, Q; reflexivity).
  destruct sp; [rewrite B in H1; apply N.eqb_eq; exact H1|rewrite B in H2; apply N.eqb_eq; exact H2].
Qed.
Lemma se_seen : (is_some se_step, ignored_b (mview (wc_mst se_step) 60) (thread_cut_of (mview (wc_mst se_step) 60) se_d), only_bs se_g se_wc true se_ex (wire_of (wc_mout se_step)) 1384) = (true, true, true).
Proof. vm_compute. reflexivity. Qed.
Lemma se_asks : asks_with se_g (CliModel.ss_cfg wh_ss) se_wc true se_ex se_d.
Proof.
  split; [exists (repeat 1 24); split; reflexivity|]. split; [vm_compute; repeat split; try lia; repeat constructor; lia|].
  split; [|vm_compute; reflexivity].
  exact (proj2 (keyless_programs_fit toy PropCli.ex_host wh_sa wh_ss PropCli.ex_host true true se_ca (s2b "/a") (Some (s2b "new/g")) false se_cs eq_refl wh_ss_ok eq_refl se_cs_ok
    eq_refl eq_refl ltac:(discriminate) eq_refl eq_refl ltac:(discriminate)) (wc_sock se_wc) se_d).
Qed.
Lemma se_waiting : send_waiting se_g ws_f 0 (SFile 0) se_wc se_keys se_ex se_p0.
Proof.
  exists 0, [mkSin false IoOk (Some true) RvBlock 10]. split; [repeat constructor|]. split; [|reflexivity].
  unfold send_start. change (create_reader ws_f (CliModel.cl_local (ru_start se_g))) with (Some (SFile 0)).
  cbn beta iota. change (CliModel.cl_file_key (ru_start se_g)) with (Some se_key). cbn beta iota. change (send_opts se_g None) with (ru_opts se_g). rewrite se_ask_ok. reflexivity.
Qed.
(** What is stored on the server: three blocks of 1384 bytes, of which 16 are the tag, and 21 bytes of parameters in front. *)
Definition se_stored : bytes := Eval vm_compute in read_as se_g wh_file 1384.
Lemma se_stored_eq : se_stored = read_as se_g wh_file 1384.
Proof. vm_compute. reflexivity. Qed.
(** ** receive new/g --local-path /b *)
Definition sf_cs : CliModel.client_start := Eval vm_compute in got (CliModel.client_begin (c_vk_ok toy) PropCli.ex_host true false se_ca (s2b "new/g") (Some (s2b "/b")) false).
Lemma sf_cs_ok : CliModel.client_begin (c_vk_ok toy) PropCli.ex_host true false se_ca (s2b "new/g") (Some (s2b "/b")) false = Some sf_cs.
Proof. vm_compute. reflexivity. Qed.
Definition sf_g : run_cfg := mkRun toy sf_cs [1; 2] [3; 4] (repeat 5 19) (fun _ => []).
Definition sf_ask := run_ask sf_g false (ru_opts sf_g).
Definition sf_wc : wcfg := fst (fst (got sf_ask)).
Definition sf_keys : option client_keys := snd (fst (got sf_ask)).
Definition sf_ex : exts := snd (got sf_ask).
Lemma sf_ask_ok : run_ask sf_g false (ru_opts sf_g) = Some (sf_wc, sf_keys, sf_ex).
Proof. reflexivity. Qed.
Definition sf_d : bytes := asking sf_g false sf_ex.
Lemma sf_only d : request_of sf_g sf_wc false sf_ex d -> d = sf_d.
Proof. intros (n & _ & E). change (client_send (ru_c sf_g) (wc_sock sf_wc) n (asking sf_g false sf_ex)) with (@Ok unit bytes sf_d) in E. congruence. Qed.
Definition sf_p0 : rprog := receive_run sf_g sf_wc sf_keys (mkRP rn_b (RAsk (wait_init sf_wc sf_ex 0))) [mkRin RvBlock 5 false None true []].
Lemma sf_fit : keys_fit toy wh_sa wh_ss se_ca sf_cs.
Proof.
  exact (proj1 (keyless_programs_fit toy PropCli.ex_host wh_sa wh_ss PropCli.ex_host true false se_ca (s2b "new/g") (Some (s2b "/b")) false sf_cs eq_refl wh_ss_ok eq_refl sf_cs_ok
    eq_refl eq_refl ltac:(discriminate) eq_refl eq_refl ltac:(discriminate))).
Qed.
Lemma sf_asks : asks_with sf_g (CliModel.ss_cfg wh_ss) sf_wc false sf_ex sf_d.
Proof.
  split; [exists (repeat 1 24); split; reflexivity|]. split; [vm_compute; repeat split; try lia; repeat constructor; lia|].
  split; [|vm_compute; reflexivity].
  exact (proj2 (keyless_programs_fit toy PropCli.ex_host wh_sa wh_ss PropCli.ex_host true false se_ca (s2b "new/g") (Some (s2b "/b")) false sf_cs eq_refl wh_ss_ok eq_refl sf_cs_ok
    eq_refl eq_refl ltac:(discriminate) eq_refl eq_refl ltac:(discriminate)) (wc_sock sf_wc) sf_d).
Qed.
Definition sf_step := main_turn toy (server_of wh_ss) m_init (MData 61 sf_d) (with_files (wh_i 61 sf_d) (Some (Some (blen se_stored))) se_stored).
Lemma sf_seen : (is_some sf_step, ignored_b (mview (wc_mst sf_step) 61) (thread_cut_of (mview (wc_mst sf_step) 61) sf_d), only_bs sf_g sf_wc false sf_ex (wire_of (wc_mout sf_step)) 1384) = (true, true, true).
Proof. vm_compute. reflexivity. Qed.
(** The disk: somebody has tidied up meanwhile, but left the file. *)
Definition sf_fs (n : N) : fs := mkFs (ex_look fe_tree) (fun _ => se_stored) (n + 1) [] (fun _ => true) (ex_children fe_tree).
Lemma sf_reader n : create_server_reader (sf_fs n) (CliModel.ss_files wh_ss) (s2b "new/g") = Some (SFile 0).
Proof. vm_compute. reflexivity. Qed.
Lemma sf_leads n : leads (sf_fs n) (CliModel.ss_files wh_ss) (s2b "new/g") = Some 0.
Proof. vm_compute. reflexivity. Qed.
Lemma sf_consistent n : consistent (sf_fs n).
Proof.
  split; [constructor|]. intros p i H. cbn [sf_fs f_next]. unfold at_, sf_fs, ex_look, fe_tree in H. cbn [f_tree find fst] in H.
  destruct p as [|x p]; [discriminate|]. repeat match type of H with context [if ?b then _ else _] => destruct b end; try discriminate H. cbn in H. injection H as <-. lia.
Qed.
(** The answer the server sent. *)
Lemma wire_of_60 o w : sent_to 60 o = [OWire w] -> sent_to 61 o = [] -> wire_of o = w.
Proof. intros H1 H2. unfold wire_of. rewrite H1, H2. reflexivity. Qed.
Lemma wire_of_61 o w : sent_to 61 o = [OWire w] -> sent_to 60 o = [] -> wire_of o = w.
Proof. intros H1 H2. unfold wire_of. rewrite H1, H2. reflexivity. Qed.
Lemma quiet_other : (sent_to 61 (wc_mout se_step), sent_to 60 (wc_mout sf_step)) = ([], []).
Proof. vm_compute. reflexivity. Qed.

Example sealed_then_restored_applies : exists st1 w k st2 st3 w' k',
  (* send ends well, and what is on the server's disk is sealed *)
  bs_enc (k_opts k) = 1384 /\
  goes_well (disk_turn (multi_server toy ar_sg) (thread_own toy ar_sg 60) (minding ar_fg 0 (s2b "new/g") (dkany (multi_server toy ar_sg) toy ar_sg ar_fg 0)) 60) (dview (multi_server toy ar_sg))
    (send_act se_g se_wc se_keys (CliModel.cl_endpoint se_cs) ws_f) (send_patient se_wc) send_busy toy ar_sg 60
    (CliModel.cl_endpoint se_cs) (arrived ar_fg (s2b "new/g") se_stored) (4 * nblocks se_stored 1384 + 6 + 2 * 1) 20 (mkSm st1 [] se_p0 [w] [se_d]) /\
  (* later the other user asks *)
  dk_srv st2 = m_init /\ leads (dk_fs st2) ar_fg (s2b "new/g") = Some 0 /\ f_data (dk_fs st2) 0 = se_stored /\ bs_enc (k_opts k') = 1384 /\
  goes_well (disk_turn (multi_server toy ar_sg) (thread_own toy ar_sg 61) (sparing 0 (dkany (multi_server toy ar_sg) toy ar_sg ar_fg 0)) 61) (dview (multi_server toy ar_sg))
    (receive_act sf_g sf_wc sf_keys (CliModel.cl_endpoint sf_cs)) (receive_patient sf_wc) receive_busy toy ar_sg 61
    (CliModel.cl_endpoint sf_cs) (fun W => unsealed sf_g se_stored wh_file (sm_prog W)) (4 * nblocks se_stored 1384 + 6 + 2 * 1) 20 (mkSm st3 [] sf_p0 [w'] [sf_d]).
Proof.
  pose proof ws_writer as HW. pose proof (f_equal fst quiet_other) as QO1. pose proof (f_equal snd quiet_other) as QO2. cbn [fst snd] in QO1, QO2.
  destruct (create_server_writer ws_fs (CliModel.ss_files wh_ss) (s2b "new/g")) as [f' [id|]] eqn:W; [|discriminate]. apply (f_equal (fun o => match o with Some b => b | None => false end)) in HW.
  cbn [snd option_map] in HW. apply N.eqb_eq in HW as ->.
  destruct (sealed_then_restored_multi toy PropCli.ex_host wh_sa wh_ss PropCli.ex_host true se_ca (s2b "/a") (Some (s2b "new/g")) false se_cs [1; 2] [3; 4] se_iv (fun _ => []) ws_f 0 0 se_wc se_keys se_ex se_p0
    se_d (s2b "new/g") 0 f' 0 60 ar_m0 (wh_i 60 se_d) se_key) as (st1 & e & w & k & stored & TA & AG & BS & SF & LS & GW).
  - exact toy_ok.
  - reflexivity.
  - exact wh_ss_ok.
  - reflexivity.
  - exact se_cs_ok.
  - exact (proj1 (keyless_programs_fit toy PropCli.ex_host wh_sa wh_ss PropCli.ex_host true true se_ca (s2b "/a") (Some (s2b "new/g")) false se_cs eq_refl wh_ss_ok eq_refl se_cs_ok
      eq_refl eq_refl ltac:(discriminate) eq_refl eq_refl ltac:(discriminate))).
  - exact se_key_ok.
  - reflexivity.
  - exact se_waiting.
  - intros H. apply (f_equal (fun p => match p with UFailed => true | _ => false end)) in H. vm_compute in H. discriminate.
  - exact se_asks.
  - vm_compute. discriminate.
  - apply dkreach_init. reflexivity.
  - split; [reflexivity|vm_compute; reflexivity].
  - apply wh_able.
  - reflexivity.
  - exact ws_consistent.
  - exact W.
  - reflexivity.
  - destruct TA as (f1 & q & s1 & o & LK & FR & OR & E & SO & V & _).
    unfold open_request in OR. rewrite FR in OR. change (dk_fs ar_m0) with ws_fs in OR. rewrite W in OR. cbn [option_map] in OR.
    assert (EQ : q = Some None /\ f1 = f') by (apply pair3_inv in OR as (X & Y & _); split; congruence). destruct EQ as [-> ->].
    destruct (DiskProofs.writer_new_file _ _ _ _ _ W) as [DE _]. cbn [content] in E. rewrite DE in E. change (loaded (multi_server toy (server_of wh_ss)) ar_m0) with m_init in E. cbn [multi_server sv_main] in E.
    pose proof se_seen as H. apply pair3_inv in H as (H1 & H2 & H3).
    assert (ES : wc_mst se_step = s1) by (unfold se_step, wc_mst; rewrite E; reflexivity). rewrite ES in H2.
    assert (EO : wc_mout se_step = o) by (unfold se_step, wc_mout; rewrite E; reflexivity). rewrite EO in H3, QO1.
    rewrite (wire_of_60 o w SO QO1) in H3. pose proof (only_bs_agrees _ _ _ _ _ _ _ _ H3 AG) as BE. rewrite BE in *. clear BS H3.
    assert (RS : se_stored = stored).
    { rewrite se_stored_eq. apply (read_as_stored se_g se_key); [exact se_key_ok|exact toy_ok|reflexivity|cbv; split; discriminate|vm_compute; discriminate|exact SF]. }
    clear SF LS. subst stored.
    specialize (GW ltac:(vm_compute; discriminate) ltac:(vm_compute; discriminate) (CliModel.cl_endpoint se_cs) [se_d]). change (server_of wh_ss) with ar_sg in *. change (CliModel.ss_files wh_ss) with ar_fg in *.
    assert (A1 : answers_from se_g se_wc true se_ex (fun y : bytes => ignored toy (c_opts (en_conn e)) (en_key e) (thread_cut e y)) (CliModel.cl_endpoint se_cs)).
    { split; [|left; reflexivity]. split; [reflexivity|]. intros _ d R. apply se_only in R as ->. rewrite (V : mview s1 60 = Some e) in H2. exact (ignored_check (Some e) e _ H2 eq_refl). }
    assert (A2 : repeats se_g se_wc true se_ex (CliModel.cl_endpoint se_cs) [se_d]) by (split; [constructor; [exact (proj1 se_asks)|constructor]|discriminate]).
    specialize (GW A1 A2). pose proof GW as [_ (kk & bb & W1 & _ & [(AR1 & x & LX & FX) (LX0 & FE)])].
    set (n := f_next (dk_fs (sm_srv W1))). set (st2 := mkDk m_init (sf_fs n) (fun _ => None) : disk mstate).
    assert (LT : later (fun m => m = m_init) (tended (multi_server toy ar_sg) toy ar_sg ar_fg 0 0 (s2b "new/g")) (sm_srv W1) st2).
    { rewrite LX0 in LX. injection LX as <-.
      apply (later_restart _ _ _ (mkDk (dk_srv (sm_srv W1)) (sf_fs n) (dk_open (sm_srv W1))) m_init); [|reflexivity].
      eapply later_step; [constructor|]. split; [apply dk_other; cbn [sf_fs f_next]; fold n; lia|]. cbn [dk_fs]. split; [rewrite FX; reflexivity|].
      rewrite LX0. exact (sf_leads n). }
    destruct (FE st2 LT (sf_consistent n)) as [RE _]. clear FE.
    assert (AL : exists f1 lid, create_writer rn_b (CliModel.cl_local sf_cs) = (f1, Some lid)).
    { change (CliModel.cl_local sf_cs) with (s2b "/b"). pose proof wr_writer as H. destruct (create_writer rn_b (s2b "/b")) as [f1 [lid|]]; [eauto|discriminate]. }
    destruct (RE PropCli.ex_host true se_ca (s2b "new/g") (Some (s2b "/b")) false sf_cs [1; 2] [3; 4] (repeat 5 19) (fun _ => []) rn_b sf_wc sf_keys sf_ex sf_p0 sf_d 61 (wh_i 61 sf_d))
      as (st3 & e' & w' & k' & TA' & AG' & BS' & GW').
    + reflexivity.
    + exact sf_cs_ok.
    + exact sf_fit.
    + reflexivity.
    + split; [exact sf_ask_ok|]. exists 0, [mkRin RvBlock 5 false None true []]. split; [repeat constructor|reflexivity].
    + vm_compute. discriminate.
    + exact sf_asks.
    + reflexivity.
    + split; [reflexivity|vm_compute; reflexivity].
    + apply wh_able.
    + change (dk_fs st2) with (sf_fs n). rewrite (sf_reader n : create_server_reader (sf_fs n) (CliModel.ss_files wh_ss) (s2b "new/g") = Some (SFile 0)). discriminate.
    + exact AL.
    + vm_compute. discriminate.
    + destruct TA' as (f2 & q' & s2 & o' & LK' & FR' & OR' & E' & SO' & V' & _).
      unfold open_request in OR'. rewrite FR' in OR'. change (dk_fs st2) with (sf_fs n) in OR'. rewrite (sf_reader n : create_server_reader (sf_fs n) (CliModel.ss_files wh_ss) (s2b "new/g") = Some (SFile 0)) in OR'.
      cbn [option_map source_size] in OR'. assert (EQ' : q' = Some (Some (blen se_stored)) /\ f2 = sf_fs n).
      { apply pair3_inv in OR' as (X & Y & _). split; [rewrite <- Y; reflexivity|rewrite <- X; reflexivity]. }
      destruct EQ' as [-> ->]. change (content (sf_fs n) (Some (Reads (SFile 0)))) with se_stored in E'. change (loaded (multi_server toy ar_sg) st2) with m_init in E'. cbn [multi_server sv_main] in E'.
      pose proof sf_seen as H'. apply pair3_inv in H' as (H1' & H2' & H3').
      assert (ES' : wc_mst sf_step = s2) by (unfold sf_step, wc_mst; change (server_of wh_ss) with ar_sg; rewrite E'; reflexivity). rewrite ES' in H2'.
      assert (EO' : wc_mout sf_step = o') by (unfold sf_step, wc_mout; change (server_of wh_ss) with ar_sg; rewrite E'; reflexivity). rewrite EO' in H3', QO2.
      rewrite (wire_of_61 o' w' SO' QO2) in H3'. pose proof (only_bs_agrees _ _ _ _ _ _ _ _ H3' AG') as BE'.
      exists st1, w, k, st2, st3, w', k'. split; [exact BE|]. split; [eapply goes_well_weaken; [|exact GW]; intros ck k1 b1 W2 _ [X _]; exact X|].
      split; [reflexivity|]. split; [exact (sf_leads n)|]. split; [reflexivity|]. split; [exact BE'|].
      apply (GW' BE' (CliModel.cl_endpoint sf_cs) [sf_d]).
      * split; [|left; reflexivity]. split; [reflexivity|]. intros _ d R. apply sf_only in R as ->. rewrite (V' : mview s2 61 = Some e') in H2'. exact (ignored_check (Some e') e' _ H2' eq_refl).
      * split; [constructor; [exact (proj1 sf_asks)|constructor]|discriminate].
Qed.
