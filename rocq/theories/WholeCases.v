(** C78: cases.  Both programs with the default arguments (apart from the endpoint): the server answers from the port it
    was asked on, the connection is encrypted (level optional-protocol), and a repeated request reaches it. *)
From Verif Require Import Base BaseProofs PacketModel PacketSpec MapperModel ReaderModel ReaderSpec BlockLemmas ConfigModel CryptoModel CryptoSpec CryptoProofs ExtModel PathModel ConnModel
  ConnSpec ClientModel HandshakeModel ClientWaitModel PropHandshake AgreeProofs PropAgree SystemModel ServerModel ServerSpec PropServer WorldModel PropWorld WorldCases
  FsModel FsSpec PropFs FsServerModel DiskModel DiskCases RunModel RunSpec RunCases SmoothModel SmoothSpec PropSmooth WholeSpec PropWhole.
From Verif Require CliModel PropCli.

Definition got {A} (o : option A) : match o with Some _ => A | None => unit end := match o with Some a => a | None => tt end.
Definition wh_sa : CliModel.server_args := CliModel.mkSA (s2b "0.0.0.0:69") (s2b "/srv") false 5000 1000 15000 104857600 1425 None None None None false None 10 None.
Definition wh_ca : CliModel.client_args := CliModel.mkCA (s2b "server:69") None 15000 1425 8 80 10485760 (s2b "optional-protocol") None None None false None.
Definition wh_ss : CliModel.server_start := Eval vm_compute in got (CliModel.server_config (c_vk_ok toy) PropCli.ex_host wh_sa).
Lemma wh_ss_ok : CliModel.server_config (c_vk_ok toy) PropCli.ex_host wh_sa = Some wh_ss.
Proof. vm_compute. reflexivity. Qed.

(** The path, the file on the server or on the client's machine (three blocks). *)
Definition wh_file : bytes := repeat 7 3000.
Definition wh_i (a : ServerModel.addr) (d : bytes) : input := dc_ask 20 a d.

(** ** receive d/f to /b *)
Definition wr_cs : CliModel.client_start := Eval vm_compute in got (CliModel.client_begin (c_vk_ok toy) PropCli.ex_host true false wh_ca (s2b "d/f") (Some (s2b "/b")) false).
Lemma wr_cs_ok : CliModel.client_begin (c_vk_ok toy) PropCli.ex_host true false wh_ca (s2b "d/f") (Some (s2b "/b")) false = Some wr_cs.
Proof. vm_compute. reflexivity. Qed.
Definition wr_g : run_cfg := mkRun toy wr_cs [1; 2] [3; 4] [] (fun _ => []).
Definition wr_ask := run_ask wr_g false (ru_opts wr_g).
Definition wr_wc : wcfg := fst (fst (got wr_ask)).
Definition wr_keys : option client_keys := snd (fst (got wr_ask)).
Definition wr_ex : exts := snd (got wr_ask).
Lemma wr_ask_ok : run_ask wr_g false (ru_opts wr_g) = Some (wr_wc, wr_keys, wr_ex).
Proof. reflexivity. Qed.
Definition wr_d : bytes := asking wr_g false wr_ex.
Lemma wr_only d : request_of wr_g wr_wc false wr_ex d -> d = wr_d.
Proof. intros (n & _ & E). change (client_send (ru_c wr_g) (wc_sock wr_wc) n (asking wr_g false wr_ex)) with (@Ok unit bytes wr_d) in E. congruence. Qed.
Definition wr_p0 : rprog := receive_run wr_g wr_wc wr_keys (mkRP rn_b (RAsk (wait_init wr_wc wr_ex 0))) [mkRin RvBlock 5 false None true []].
Definition wr_tree := [([s2b "srv"], NDir); ([s2b "srv"; s2b "d"], NDir); ([s2b "srv"; s2b "d"; s2b "f"], NFile 0)].
Definition wr_fs : fs := mkFs (ex_look wr_tree) (fun _ => wh_file) 1 [] (fun _ => true) (ex_children wr_tree).
Definition wr_step := step_recv toy (server_of wh_ss) (s_init 0) (with_files (wh_i 60 wr_d) (Some (Some (blen wh_file))) wh_file).
Definition ignored_b (o : option entry) (d : bytes) : bool :=
  match o with
  | Some e => match server_decrypt toy (op_enc (c_opts (en_conn e))) (en_key e) d with
              | Ok p => match from_bytes p with Ok (PData _ _) | Ok (PAck _) | Ok (PError _ _) => false | _ => true end
              | Err _ => true
              | Panic => false
              end
  | None => false
  end.
Lemma ignored_check o e d : ignored_b o d = true -> o = Some e -> ignored toy (c_opts (en_conn e)) (en_key e) d.
Proof.
  unfold ignored_b, ignored. intros H ->. destruct (server_decrypt _ _ _ _) as [p| |]; [|exact Logic.I|discriminate]. destruct (from_bytes p) as [[]| |]; try exact Logic.I; discriminate.
Qed.
Lemma wr_seen : (is_some wr_step, ignored_b (sview (wc_st wr_step) 60) (recv_cut (server_of wh_ss) wr_d),
    match sview (wc_st wr_step) 60 with Some e => Some (op_enc (c_opts (en_conn e)), is_some (en_key e)) | None => None end) = (true, true, Some (LProtocol, true)).
Proof. vm_compute. reflexivity. Qed.
Lemma wr_reader : create_server_reader wr_fs (CliModel.ss_files wh_ss) (s2b "d/f") = Some (SFile 0).
Proof. vm_compute. reflexivity. Qed.
Lemma wr_writer : option_map (fun _ => tt) (snd (create_writer rn_b (s2b "/b"))) = Some tt.
Proof. vm_compute. reflexivity. Qed.
Lemma wh_able a d : able (wh_i a d).
Proof. repeat split. Qed.
Lemma wr_asks : asks_with wr_g (CliModel.ss_cfg wh_ss) wr_wc false wr_ex wr_d.
Proof.
  split; [exists (repeat 1 24); split; reflexivity|]. split; [vm_compute; repeat split; try lia; repeat constructor; lia|].
  split; [|vm_compute; reflexivity].
  exact (proj2 (keyless_programs_fit toy PropCli.ex_host wh_sa wh_ss PropCli.ex_host true false wh_ca (s2b "d/f") (Some (s2b "/b")) false wr_cs eq_refl wh_ss_ok eq_refl wr_cs_ok
    eq_refl eq_refl ltac:(discriminate) eq_refl eq_refl ltac:(discriminate)) (wc_sock wr_wc) wr_d).
Qed.
Example receive_command_applies : exists s1 w k,
  goes_well (single_turn toy (server_of wh_ss) 60) sview (receive_act wr_g wr_wc wr_keys (CliModel.cl_endpoint wr_cs)) (receive_patient wr_wc) receive_busy toy (server_of wh_ss) 60
    (CliModel.cl_endpoint wr_cs) (fun W => received wr_g wh_file (sm_prog W)) (4 * nblocks wh_file (bs_enc (k_opts k)) + 6 + 2 * 1) 20 (mkSm s1 [] wr_p0 [w] [wr_d]).
Proof.
  assert (AL : exists f1 lid, create_writer rn_b (CliModel.cl_local wr_cs) = (f1, Some lid)).
  { change (CliModel.cl_local wr_cs) with (s2b "/b"). pose proof wr_writer as H. destruct (create_writer rn_b (s2b "/b")) as [f1 [lid|]]; [eauto|discriminate]. }
  destruct (receive_command_single toy PropCli.ex_host wh_sa wh_ss PropCli.ex_host true wh_ca (s2b "d/f") (Some (s2b "/b")) false wr_cs [1; 2] [3; 4] [] (fun _ => []) rn_b wr_wc wr_keys wr_ex wr_p0
    wr_d (s2b "d/f") wr_fs 0 0 60 (s_init 0) (wh_i 60 wr_d)) as (s1 & o & w & e & k & OR & E & SO & V & AG & BS & GW).
  - exact toy_ok.
  - reflexivity.
  - exact wh_ss_ok.
  - reflexivity.
  - exact wr_cs_ok.
  - exact (proj1 (keyless_programs_fit toy PropCli.ex_host wh_sa wh_ss PropCli.ex_host true false wh_ca (s2b "d/f") (Some (s2b "/b")) false wr_cs eq_refl wh_ss_ok eq_refl wr_cs_ok
      eq_refl eq_refl ltac:(discriminate) eq_refl eq_refl ltac:(discriminate))).
  - reflexivity.
  - split; [exact wr_ask_ok|]. exists 0, [mkRin RvBlock 5 false None true []]. split; [repeat constructor|reflexivity].
  - vm_compute. discriminate.
  - exact wr_asks.
  - reflexivity.
  - reflexivity.
  - apply wh_able.
  - reflexivity.
  - exact wr_reader.
  - vm_compute. discriminate.
  - exact AL.
  - vm_compute. discriminate.
  - exists s1, w, k. pose proof wr_seen as H. apply pair3_inv in H as (H1 & H2 & _).
    assert (ES : wc_st wr_step = s1).
    { unfold wr_step. change (f_data wr_fs 0) with wh_file in E. etransitivity; [|reflexivity]. unfold wc_st. rewrite E. reflexivity. }
    rewrite ES in H2. apply (GW (CliModel.cl_endpoint wr_cs) [wr_d]).
    + split; [|left; reflexivity]. split; [reflexivity|]. intros _ d R. apply wr_only in R as ->. apply (ignored_check _ e _ H2 V).
    + split; [constructor; [exact (proj1 wr_asks)|constructor]|discriminate].
Qed.

(** ** send /a to new/g, with the multi threaded server that has had no client yet; the directory new is created *)
Definition ws_cs : CliModel.client_start := Eval vm_compute in got (CliModel.client_begin (c_vk_ok toy) PropCli.ex_host true true wh_ca (s2b "/a") (Some (s2b "new/g")) false).
Lemma ws_cs_ok : CliModel.client_begin (c_vk_ok toy) PropCli.ex_host true true wh_ca (s2b "/a") (Some (s2b "new/g")) false = Some ws_cs.
Proof. vm_compute. reflexivity. Qed.
Definition ws_g : run_cfg := mkRun toy ws_cs [1; 2] [3; 4] [] (fun _ => []).
Definition ws_f : fs := let t := [([s2b "a"], NFile 0)] in mkFs (ex_look t) (fun _ => wh_file) 1 [] (fun _ => true) (ex_children t).
Definition ws_ask := run_ask ws_g true (send_opts ws_g (Some (blen wh_file))).
Definition ws_wc : wcfg := fst (fst (got ws_ask)).
Definition ws_keys : option client_keys := snd (fst (got ws_ask)).
Definition ws_ex : exts := snd (got ws_ask).
Lemma ws_ask_ok : run_ask ws_g true (send_opts ws_g (Some (blen wh_file))) = Some (ws_wc, ws_keys, ws_ex).
Proof. reflexivity. Qed.
Definition ws_d : bytes := asking ws_g true ws_ex.
Lemma ws_only d : request_of ws_g ws_wc true ws_ex d -> d = ws_d.
Proof. intros (n & _ & E). change (client_send (ru_c ws_g) (wc_sock ws_wc) n (asking ws_g true ws_ex)) with (@Ok unit bytes ws_d) in E. congruence. Qed.
Definition ws_p0 : uphase := send_run ws_g ws_wc ws_keys ws_f (UAsk (SFile 0) (wait_init ws_wc ws_ex 0)) [mkSin false IoOk (Some true) RvBlock 10].
Definition ws_tree := [([s2b "srv"], NDir)].
Definition ws_fs : fs := mkFs (ex_look ws_tree) (fun _ => []) 0 [] (fun _ => true) (ex_children ws_tree).
Definition ws_step := main_turn toy (server_of wh_ss) m_init (MData 60 ws_d) (with_files (wh_i 60 ws_d) (Some None) []).
Definition thread_cut_of (o : option entry) (d : bytes) : bytes := match o with Some e => thread_cut e d | None => d end.
Lemma ws_seen : (is_some ws_step, ignored_b (mview (wc_mst ws_step) 60) (thread_cut_of (mview (wc_mst ws_step) 60) ws_d),
    match mview (wc_mst ws_step) 60 with Some e => Some (op_enc (c_opts (en_conn e)), is_some (en_key e)) | None => None end) = (true, true, Some (LProtocol, true)).
Proof. vm_compute. reflexivity. Qed.
Lemma ws_writer : option_map (fun id => id =? 0) (snd (create_server_writer ws_fs (CliModel.ss_files wh_ss) (s2b "new/g"))) = Some true.
Proof. vm_compute. reflexivity. Qed.
Lemma ws_asks : asks_with ws_g (CliModel.ss_cfg wh_ss) ws_wc true ws_ex ws_d.
Proof.
  split; [exists (repeat 1 24); split; reflexivity|]. split; [vm_compute; repeat split; try lia; repeat constructor; lia|].
  split; [|vm_compute; reflexivity].
  exact (proj2 (keyless_programs_fit toy PropCli.ex_host wh_sa wh_ss PropCli.ex_host true true wh_ca (s2b "/a") (Some (s2b "new/g")) false ws_cs eq_refl wh_ss_ok eq_refl ws_cs_ok
    eq_refl eq_refl ltac:(discriminate) eq_refl eq_refl ltac:(discriminate)) (wc_sock ws_wc) ws_d).
Qed.
Lemma ws_waiting : send_waiting ws_g ws_f 0 (SFile 0) ws_wc ws_keys ws_ex ws_p0.
Proof.
  exists 0, [mkSin false IoOk (Some true) RvBlock 10]. split; [repeat constructor|]. split; [|reflexivity].
  unfold send_start. change (create_reader ws_f (CliModel.cl_local (ru_start ws_g))) with (Some (SFile 0)).
  cbn beta iota. change (CliModel.cl_file_key (ru_start ws_g)) with (@None bytes). cbn beta iota. change (source_size ws_f 0 (SFile 0)) with (blen wh_file). rewrite ws_ask_ok. reflexivity.
Qed.
Example send_command_applies : exists m1 w k,
  goes_well (multi_turn toy (server_of wh_ss) 60) mview (send_act ws_g ws_wc ws_keys (CliModel.cl_endpoint ws_cs) ws_f) (send_patient ws_wc) send_busy toy (server_of wh_ss) 60
    (CliModel.cl_endpoint ws_cs) (delivered wh_file) (4 * nblocks wh_file (bs_enc (k_opts k)) + 6 + 2 * 1) 20 (mkSm m1 [] ws_p0 [w] [ws_d]).
Proof.
  pose proof ws_writer as HW.
  destruct (create_server_writer ws_fs (CliModel.ss_files wh_ss) (s2b "new/g")) as [f' [id|]] eqn:W; [|discriminate]. apply (f_equal (fun o => match o with Some b => b | None => false end)) in HW.
  cbn [snd option_map] in HW. apply N.eqb_eq in HW as ->.
  destruct (send_command_multi toy PropCli.ex_host wh_sa wh_ss PropCli.ex_host true wh_ca (s2b "/a") (Some (s2b "new/g")) false ws_cs [1; 2] [3; 4] [] (fun _ => []) ws_f 0 0 (SFile 0) ws_wc ws_keys ws_ex ws_p0
    ws_d (s2b "new/g") ws_fs 0 f' 0 60 m_init (wh_i 60 ws_d)) as (m1 & o & w & e & k & OR & E & SO & V & AG & BS & GW).
  - exact toy_ok.
  - reflexivity.
  - exact wh_ss_ok.
  - reflexivity.
  - exact ws_cs_ok.
  - exact (proj1 (keyless_programs_fit toy PropCli.ex_host wh_sa wh_ss PropCli.ex_host true true wh_ca (s2b "/a") (Some (s2b "new/g")) false ws_cs eq_refl wh_ss_ok eq_refl ws_cs_ok
      eq_refl eq_refl ltac:(discriminate) eq_refl eq_refl ltac:(discriminate))).
  - reflexivity.
  - exact ws_waiting.
  - intros H. apply (f_equal (fun p => match p with UFailed => true | _ => false end)) in H. vm_compute in H. discriminate.
  - exact ws_asks.
  - reflexivity.
  - vm_compute. discriminate.
  - vm_compute. discriminate.
  - constructor.
  - reflexivity.
  - vm_compute. reflexivity.
  - apply wh_able.
  - reflexivity.
  - exact W.
  - exists m1, w, k. pose proof ws_seen as H. apply pair3_inv in H as (H1 & H2 & _).
    assert (ES : wc_mst ws_step = m1).
    { unfold ws_step. etransitivity; [|reflexivity]. unfold wc_mst. rewrite E. reflexivity. }
    rewrite ES in H2. apply (GW (CliModel.cl_endpoint ws_cs) [ws_d]).
    + split; [|left; reflexivity]. split; [reflexivity|]. intros _ d R. apply ws_only in R as ->. rewrite V in H2. exact (ignored_check (Some e) e _ H2 eq_refl).
    + split; [constructor; [exact (proj1 ws_asks)|constructor]|discriminate].
Qed.

(** ** The same with an empty file, and a request without any option: the answer is a plain acknowledgement. *)
Definition we_ca : CliModel.client_args := CliModel.mkCA (s2b "server:69") None 15000 512 1 80 10485760 (s2b "none") None None None false None.
Definition we_file : bytes := [].
Definition we_cs : CliModel.client_start := Eval vm_compute in got (CliModel.client_begin (c_vk_ok toy) PropCli.ex_host true true we_ca (s2b "/a") (Some (s2b "new/g")) false).
Lemma we_cs_ok : CliModel.client_begin (c_vk_ok toy) PropCli.ex_host true true we_ca (s2b "/a") (Some (s2b "new/g")) false = Some we_cs.
Proof. vm_compute. reflexivity. Qed.
Definition we_g : run_cfg := mkRun toy we_cs [1; 2] [3; 4] [] (fun _ => []).
Definition we_f : fs := let t := [([s2b "a"], NFile 0)] in mkFs (ex_look t) (fun _ => we_file) 1 [] (fun _ => true) (ex_children t).
Definition we_ask := run_ask we_g true (send_opts we_g (Some (blen we_file))).
Definition we_wc : wcfg := fst (fst (got we_ask)).
Definition we_keys : option client_keys := snd (fst (got we_ask)).
Definition we_ex : exts := snd (got we_ask).
Lemma we_ask_ok : run_ask we_g true (send_opts we_g (Some (blen we_file))) = Some (we_wc, we_keys, we_ex).
Proof. reflexivity. Qed.
Definition we_d : bytes := asking we_g true we_ex.
Lemma we_only d : request_of we_g we_wc true we_ex d -> d = we_d.
Proof. intros (n & _ & E). change (client_send (ru_c we_g) (wc_sock we_wc) n (asking we_g true we_ex)) with (@Ok unit bytes we_d) in E. congruence. Qed.
Definition we_p0 : uphase := send_run we_g we_wc we_keys we_f (UAsk (SFile 0) (wait_init we_wc we_ex 0)) [mkSin false IoOk (Some true) RvBlock 10].
Definition we_tree := [([s2b "srv"], NDir)].
Definition we_fs : fs := mkFs (ex_look we_tree) (fun _ => []) 0 [] (fun _ => true) (ex_children we_tree).
Definition we_step := main_turn toy (server_of wh_ss) m_init (MData 60 we_d) (with_files (wh_i 60 we_d) (Some None) []).
Lemma we_seen : (is_some we_step, ignored_b (mview (wc_mst we_step) 60) (thread_cut_of (mview (wc_mst we_step) 60) we_d),
    match mview (wc_mst we_step) 60 with Some e => Some (op_enc (c_opts (en_conn e)), is_some (en_key e)) | None => None end) = (true, true, Some (LNone, false)).
Proof. vm_compute. reflexivity. Qed.
Lemma we_plain : (exts_empty = we_ex) /\ (sent_to 60 (match we_step with Some (_, o) => o | None => [] end) = [OWire (to_bytes (PAck 0))]).
Proof. split; vm_compute; reflexivity. Qed.
Lemma we_writer : option_map (fun id => id =? 0) (snd (create_server_writer we_fs (CliModel.ss_files wh_ss) (s2b "new/g"))) = Some true.
Proof. vm_compute. reflexivity. Qed.
Lemma we_asks : asks_with we_g (CliModel.ss_cfg wh_ss) we_wc true we_ex we_d.
Proof.
  split; [exists (repeat 1 24); split; reflexivity|]. split; [vm_compute; repeat split; try lia; repeat constructor; lia|].
  split; [|vm_compute; reflexivity].
  exact (proj2 (keyless_programs_fit toy PropCli.ex_host wh_sa wh_ss PropCli.ex_host true true we_ca (s2b "/a") (Some (s2b "new/g")) false we_cs eq_refl wh_ss_ok eq_refl we_cs_ok
    eq_refl eq_refl ltac:(discriminate) eq_refl eq_refl ltac:(discriminate)) (wc_sock we_wc) we_d).
Qed.
Lemma we_waiting : send_waiting we_g we_f 0 (SFile 0) we_wc we_keys we_ex we_p0.
Proof.
  exists 0, [mkSin false IoOk (Some true) RvBlock 10]. split; [repeat constructor|]. split; [|reflexivity].
  unfold send_start. change (create_reader we_f (CliModel.cl_local (ru_start we_g))) with (Some (SFile 0)).
  cbn beta iota. change (CliModel.cl_file_key (ru_start we_g)) with (@None bytes). cbn beta iota. change (source_size we_f 0 (SFile 0)) with (blen we_file). rewrite we_ask_ok. reflexivity.
Qed.
Example send_empty_plain_applies : exists m1 w k, w = to_bytes (PAck 0) /\ nblocks we_file (bs_enc (k_opts k)) = 1 /\
  goes_well (multi_turn toy (server_of wh_ss) 60) mview (send_act we_g we_wc we_keys (CliModel.cl_endpoint we_cs) we_f) (send_patient we_wc) send_busy toy (server_of wh_ss) 60
    (CliModel.cl_endpoint we_cs) (delivered we_file) (4 * nblocks we_file (bs_enc (k_opts k)) + 6 + 2 * 1) 20 (mkSm m1 [] we_p0 [w] [we_d]).
Proof.
  pose proof we_writer as HW.
  destruct (create_server_writer we_fs (CliModel.ss_files wh_ss) (s2b "new/g")) as [f' [id|]] eqn:W; [|discriminate]. apply (f_equal (fun o => match o with Some b => b | None => false end)) in HW.
  cbn [snd option_map] in HW. apply N.eqb_eq in HW as ->.
  destruct (send_command_multi toy PropCli.ex_host wh_sa wh_ss PropCli.ex_host true we_ca (s2b "/a") (Some (s2b "new/g")) false we_cs [1; 2] [3; 4] [] (fun _ => []) we_f 0 0 (SFile 0) we_wc we_keys we_ex we_p0
    we_d (s2b "new/g") we_fs 0 f' 0 60 m_init (wh_i 60 we_d)) as (m1 & o & w & e & k & OR & E & SO & V & AG & BS & GW).
  - exact toy_ok.
  - reflexivity.
  - exact wh_ss_ok.
  - reflexivity.
  - exact we_cs_ok.
  - exact (proj1 (keyless_programs_fit toy PropCli.ex_host wh_sa wh_ss PropCli.ex_host true true we_ca (s2b "/a") (Some (s2b "new/g")) false we_cs eq_refl wh_ss_ok eq_refl we_cs_ok
      eq_refl eq_refl ltac:(discriminate) eq_refl eq_refl ltac:(discriminate))).
  - reflexivity.
  - exact we_waiting.
  - intros H. apply (f_equal (fun p => match p with UFailed => true | _ => false end)) in H. vm_compute in H. discriminate.
  - exact we_asks.
  - reflexivity.
  - vm_compute. discriminate.
  - vm_compute. discriminate.
  - constructor.
  - reflexivity.
  - vm_compute. reflexivity.
  - apply wh_able.
  - reflexivity.
  - exact W.
  - exists m1, w, k. pose proof we_seen as H. apply pair3_inv in H as (H1 & H2 & _).
    assert (ES : wc_mst we_step = m1).
    { unfold we_step. etransitivity; [|reflexivity]. unfold wc_mst. rewrite E. reflexivity. }
    split; [pose proof (proj2 we_plain) as X; assert (EO : match we_step with Some (_, o') => o' | None => [] end = o) by (unfold we_step; etransitivity; [|reflexivity]; rewrite E; reflexivity);
      rewrite EO, SO in X; injection X as ->; reflexivity|].
    split; [unfold nblocks; change (blen we_file) with 0; destruct (bs_enc (k_opts k)); reflexivity|].
    rewrite ES in H2. apply (GW (CliModel.cl_endpoint we_cs) [we_d]).
    + split; [|left; reflexivity]. split; [reflexivity|]. intros _ d R. apply we_only in R as ->. rewrite V in H2. exact (ignored_check (Some e) e _ H2 eq_refl).
    + split; [constructor; [exact (proj1 we_asks)|constructor]|discriminate].
Qed.
