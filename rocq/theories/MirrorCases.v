(** C82 on command lines: `sync server:69 /d`; the file /d/new/g is written and closed while other things happen in the directory. *)
From Verif Require Import Base BaseProofs PacketModel PacketSpec MapperModel ReaderModel ReaderSpec BlockLemmas ConfigModel CryptoModel CryptoSpec CryptoProofs ExtModel PathModel PathSpec ConnModel
  ConnSpec ClientModel HandshakeModel ClientWaitModel PropHandshake AgreeProofs PropAgree SystemModel ServerModel ServerSpec PropServer WorldModel PropWorld WorldCases
  FsModel FsSpec PropFs FsServerModel DiskModel DiskSpec DiskCases StoreSpec RunModel RunSpec RunCases SmoothModel SmoothSpec PropSmooth WholeSpec PropWhole WholeCases ArriveModel ArriveSpec PropArrive ArriveCases
  FetchSpec PropFetch SyncModel PropSync MirrorModel PropMirror.
From Verif Require CliModel PropCli.

Definition mi_dir : list bytes := [s2b "d"].
Definition mi_rs : list bytes := [s2b "new"; s2b "g"].
Definition mi_ev (k : skind) (ps : list bytes) : sevent := SEvent k [absolute ps].
Definition mi_before : list sevent := [mi_ev KCreateFile [s2b "d"; s2b "x"]; mi_ev KCloseWrite [s2b "d"; s2b "x"]; mi_ev KCreateFile (mi_dir ++ mi_rs)].
Definition mi_after : list sevent := [mi_ev KCloseWrite [s2b "data"; s2b "x"]; mi_ev KOther (mi_dir ++ mi_rs); SError].
Definition mi_u : upload := mkUp (s2b "/d/new/g") (s2b "new/g") None.
Definition mi_evs : list sevent := mi_before ++ mi_ev KCloseWrite (mi_dir ++ mi_rs) :: mi_after.
Lemma mi_upload : nth_error (sy_uploads (sync_run (fun s => s) (absolute mi_dir) false mi_evs)) (length (sy_uploads (sync_run (fun s => s) (absolute mi_dir) false mi_before))) = Some mi_u.
Proof. vm_compute. reflexivity. Qed.
Lemma mi_names c : In c [s2b "d"; s2b "new"; s2b "g"; s2b "x"; s2b "data"] -> name_ok c /\ utf8 c = true.
Proof. intros H. cbn [In] in H. repeat (destruct H as [<-|H]; [vm_compute; split; [|reflexivity]; do 3 (split; [discriminate|]); intros Q; repeat (destruct Q as [Q|Q]; [discriminate Q|]); exact Q|]). destruct H. Qed.
Lemma mi_reported : Forall reported mi_evs.
Proof.
  assert (RP : forall k ps, (forall c, In c ps -> In c [s2b "d"; s2b "new"; s2b "g"; s2b "x"; s2b "data"]) -> reported (mi_ev k ps)).
  { intros k ps H k' p more E. injection E as <- <- <-. exists ps. split; [reflexivity|]. split; apply Forall_forall; intros c I; apply mi_names, H, I. }
  unfold mi_evs, mi_before, mi_after, mi_dir, mi_rs. cbn [app].
  do 6 (apply Forall_cons; [apply RP; cbn [In]; intuition auto|]). apply Forall_cons; [intros k p more E; discriminate|constructor].
Qed.
Lemma mi_about : about KCloseWrite (mi_dir ++ mi_rs) (mi_ev KCloseWrite (mi_dir ++ mi_rs)).
Proof. split; [apply Forall_forall; intros c I; apply mi_names; cbn [In app mi_dir mi_rs] in *; intuition auto|]. exists []. reflexivity. Qed.
Lemma mi_plain x : In x mi_rs -> ~ dotty x.
Proof.
  intros I. apply PathProofs.keep_iff; cbn [In mi_rs] in I; destruct I as [<-|[<-|[]]]; try (vm_compute; reflexivity); vm_compute; intros Q; repeat (destruct Q as [Q|Q]; [discriminate Q|]); exact Q.
Qed.
(** The upload. *)
Definition mi_cs : CliModel.client_start := Eval vm_compute in got (sync_begin (c_vk_ok toy) PropCli.ex_host true wh_ca mi_u).
Lemma mi_cs_ok : sync_begin (c_vk_ok toy) PropCli.ex_host true wh_ca mi_u = Some mi_cs.
Proof. vm_compute. reflexivity. Qed.
Definition mi_g : run_cfg := mkRun toy mi_cs [1; 2] [3; 4] [] (fun _ => []).
Definition mi_f : fs := let t := [([s2b "d"], NDir); ([s2b "d"; s2b "new"], NDir); ([s2b "d"; s2b "new"; s2b "g"], NFile 0)] in mkFs (ex_look t) (fun _ => wh_file) 1 [] (fun _ => true) (ex_children t).
Definition mi_ask := run_ask mi_g true (send_opts mi_g (Some (blen wh_file))).
Definition mi_wc : wcfg := fst (fst (got mi_ask)).
Definition mi_keys : option client_keys := snd (fst (got mi_ask)).
Definition mi_ex : exts := snd (got mi_ask).
Lemma mi_ask_ok : run_ask mi_g true (send_opts mi_g (Some (blen wh_file))) = Some (mi_wc, mi_keys, mi_ex).
Proof. reflexivity. Qed.
Definition mi_d : bytes := asking mi_g true mi_ex.
Lemma mi_d_eq : mi_d = ws_d.
Proof. vm_compute. reflexivity. Qed.
Lemma mi_only d : request_of mi_g mi_wc true mi_ex d -> d = mi_d.
Proof. intros (n & _ & E). change (client_send (ru_c mi_g) (wc_sock mi_wc) n (asking mi_g true mi_ex)) with (@Ok unit bytes mi_d) in E. congruence. Qed.
Definition mi_p0 : uphase := send_run mi_g mi_wc mi_keys mi_f (UAsk (SFile 0) (wait_init mi_wc mi_ex 0)) [mkSin false IoOk (Some true) RvBlock 10].
Lemma mi_fit : keys_fit toy wh_sa wh_ss wh_ca mi_cs.
Proof.
  exact (proj1 (keyless_programs_fit toy PropCli.ex_host wh_sa wh_ss PropCli.ex_host true true wh_ca (up_local mi_u) (Some (up_remote mi_u)) false mi_cs eq_refl wh_ss_ok eq_refl mi_cs_ok
    eq_refl eq_refl ltac:(discriminate) eq_refl eq_refl ltac:(discriminate))).
Qed.
Lemma mi_asks : asks_with mi_g (CliModel.ss_cfg wh_ss) mi_wc true mi_ex mi_d.
Proof.
  split; [exists (repeat 1 24); split; reflexivity|]. split; [vm_compute; repeat split; try lia; repeat constructor; lia|].
  split; [|vm_compute; reflexivity].
  exact (proj2 (keyless_programs_fit toy PropCli.ex_host wh_sa wh_ss PropCli.ex_host true true wh_ca (up_local mi_u) (Some (up_remote mi_u)) false mi_cs eq_refl wh_ss_ok eq_refl mi_cs_ok
    eq_refl eq_refl ltac:(discriminate) eq_refl eq_refl ltac:(discriminate)) (wc_sock mi_wc) mi_d).
Qed.
Lemma mi_waiting : send_waiting mi_g mi_f 0 (SFile 0) mi_wc mi_keys mi_ex mi_p0.
Proof.
  exists 0, [mkSin false IoOk (Some true) RvBlock 10]. split; [repeat constructor|]. split; [|reflexivity].
  unfold send_start. change (create_reader mi_f (CliModel.cl_local (ru_start mi_g))) with (Some (SFile 0)).
  cbn beta iota. change (CliModel.cl_file_key (ru_start mi_g)) with (@None bytes). cbn beta iota. change (source_size mi_f 0 (SFile 0)) with (blen wh_file). rewrite mi_ask_ok. reflexivity.
Qed.
Example synced_file_applies : exists st1 w k,
  goes_well (disk_turn (multi_server toy ar_sg) (thread_own toy ar_sg 60) (minding ar_fg 0 (s2b "new/g") (dkany (multi_server toy ar_sg) toy ar_sg ar_fg 0)) 60) (dview (multi_server toy ar_sg))
    (send_act mi_g mi_wc mi_keys (CliModel.cl_endpoint mi_cs) mi_f) (send_patient mi_wc) send_busy toy ar_sg 60
    (CliModel.cl_endpoint mi_cs) (arrived ar_fg (s2b "new/g") wh_file) (4 * nblocks wh_file (bs_enc (k_opts k)) + 6 + 2 * 1) 20 (mkSm st1 [] mi_p0 [w] [mi_d]).
Proof.
  pose proof ws_writer as HW.
  destruct (create_server_writer ws_fs (CliModel.ss_files wh_ss) (s2b "new/g")) as [f' [id|]] eqn:W; [|discriminate]. apply (f_equal (fun o => match o with Some b => b | None => false end)) in HW.
  cbn [snd option_map] in HW. apply N.eqb_eq in HW as ->.
  destruct (synced_file_multi toy PropCli.ex_host wh_sa wh_ss PropCli.ex_host true wh_ca (fun s => s) mi_dir mi_before (mi_ev KCloseWrite (mi_dir ++ mi_rs)) mi_rs mi_after mi_u mi_cs
    [1; 2] [3; 4] [] (fun _ => []) mi_f 0 0 mi_wc mi_keys mi_ex mi_p0 mi_d 0 f' 0 60 ar_m0 (wh_i 60 mi_d)) as (st1 & e & w & k & TA & AG & BS & GW).
  - exact toy_ok.
  - intros s _. reflexivity.
  - apply Forall_forall. intros c I. apply mi_names. cbn [In mi_dir] in *. intuition auto.
  - exact mi_reported.
  - exact mi_about.
  - discriminate.
  - exact mi_plain.
  - exact mi_upload.
  - reflexivity.
  - exact wh_ss_ok.
  - reflexivity.
  - exact mi_cs_ok.
  - exact mi_fit.
  - reflexivity.
  - exact mi_waiting.
  - intros H. apply (f_equal (fun p => match p with UFailed => true | _ => false end)) in H. vm_compute in H. discriminate.
  - exact mi_asks.
  - vm_compute. reflexivity.
  - vm_compute. discriminate.
  - vm_compute. discriminate.
  - apply dkreach_init. reflexivity.
  - split; [reflexivity|vm_compute; reflexivity].
  - apply wh_able.
  - exact ws_consistent.
  - exact W.
  - reflexivity.
  - exists st1, w, k. change (PathSpec.path mi_rs) with (s2b "new/g") in *. destruct TA as (f1 & q & s1 & o & LK & FR & OR & E & SO & V & _).
    unfold open_request in OR. rewrite FR in OR. change (dk_fs ar_m0) with ws_fs in OR. rewrite W in OR. cbn [option_map] in OR.
    assert (EQ : q = Some None /\ f1 = f') by (apply pair3_inv in OR as (X & Y & _); split; congruence). destruct EQ as [-> ->].
    destruct (DiskProofs.writer_new_file _ _ _ _ _ W) as [DE _]. cbn [content] in E. rewrite DE in E. change (loaded (multi_server toy (server_of wh_ss)) ar_m0) with m_init in E. cbn [multi_server sv_main] in E.
    rewrite mi_d_eq in E. pose proof ws_seen as H. apply pair3_inv in H as (H1 & H2 & _).
    assert (ES : wc_mst ws_step = s1) by (unfold ws_step, wc_mst; rewrite E; reflexivity).
    rewrite ES in H2. rewrite <- mi_d_eq in H2. eapply goes_well_weaken; [|apply (GW (CliModel.cl_endpoint mi_cs) [mi_d])].
    + intros ck k1 b1 W2 _ [X _]. exact X.
    + split; [|left; reflexivity]. split; [reflexivity|]. intros _ d R. apply mi_only in R as ->. rewrite (V : mview s1 60 = Some e) in H2. exact (ignored_check (Some e) e _ H2 eq_refl).
    + split; [constructor; [exact (proj1 mi_asks)|constructor]|discriminate].
Qed.
