(** C79: cases.  The programs of WholeCases with the disk of the server's machine. *)
From Verif Require Import Base BaseProofs PacketModel PacketSpec MapperModel ReaderModel ReaderSpec BlockLemmas ConfigModel CryptoModel CryptoSpec CryptoProofs ExtModel PathModel ConnModel
  ConnSpec ClientModel HandshakeModel ClientWaitModel PropHandshake AgreeProofs PropAgree SystemModel ServerModel ServerSpec PropServer WorldModel PropWorld WorldCases
  FsModel FsSpec PropFs FsServerModel DiskModel DiskSpec DiskCases StoreSpec RunModel RunSpec RunCases SmoothModel SmoothSpec PropSmooth WholeSpec PropWhole WholeCases ArriveModel ArriveSpec PropArrive.
From Verif Require CliModel PropCli.

Definition ar_sg : srvcfg := server_of wh_ss.
Definition ar_fg : fcfg := CliModel.ss_files wh_ss.
(** ** receive d/f to /b *)
Definition ar_st0 : disk sstate := mkDk (s_init 0) wr_fs (fun _ => None).
Example receive_arrives_applies : exists st1 w k,
  goes_well (disk_turn (single_server toy ar_sg) (single_turn toy ar_sg 60) (sparing 0 programs) 60) (dview (single_server toy ar_sg))
    (receive_act wr_g wr_wc wr_keys (CliModel.cl_endpoint wr_cs)) (receive_patient wr_wc) receive_busy toy ar_sg 60
    (CliModel.cl_endpoint wr_cs) (fun W => received wr_g wh_file (sm_prog W)) (4 * nblocks wh_file (bs_enc (k_opts k)) + 6 + 2 * 1) 20 (mkSm st1 [] wr_p0 [w] [wr_d]).
Proof.
  assert (AL : exists f1 lid, create_writer rn_b (CliModel.cl_local wr_cs) = (f1, Some lid)).
  { change (CliModel.cl_local wr_cs) with (s2b "/b"). pose proof wr_writer as H. destruct (create_writer rn_b (s2b "/b")) as [f1 [lid|]]; [eauto|discriminate]. }
  destruct (receive_arrives_single toy PropCli.ex_host wh_sa wh_ss PropCli.ex_host true wh_ca (s2b "d/f") (Some (s2b "/b")) false wr_cs [1; 2] [3; 4] [] (fun _ => []) rn_b wr_wc wr_keys wr_ex wr_p0
    wr_d (s2b "d/f") 0 0 60 ar_st0 (wh_i 60 wr_d)) as (st1 & e & w & k & TA & AG & BS & GW).
  - exact toy_ok.
  - reflexivity.
  - exact wh_ss_ok.
  - reflexivity.
  - exact wr_cs_ok.
  - exact (proj1 (keyless_programs_fit toy PropCli.ex_host wh_sa wh_ss PropCli.ex_host true false wh_ca (s2b "d/f") (Some (s2b "/b")) false wr_cs eq_refl wh_ss_ok eq_refl wr_cs_ok
      eq_refl eq_refl ltac:(discriminate) eq_refl eq_refl ltac:(discriminate))).
  - reflexivity.
  - split; [exact wr_ask_ok|]. exists 0, [mkRin RvBlock 5 false None true []]. split; [repeat constructor|reflexivity].
  - vm_compute. discriminate.
  - exact wr_asks.
  - reflexivity.
  - reflexivity.
  - apply wh_able.
  - reflexivity.
  - exact wr_reader.
  - vm_compute. discriminate.
  - exact AL.
  - vm_compute. discriminate.
  - exists st1, w, k. destruct TA as (f' & q & s1 & o & LK & FR & OR & (TK & E) & SO & V & _).
    unfold open_request in OR. rewrite FR in OR. change (create_server_reader (dk_fs ar_st0)) with (create_server_reader wr_fs) in OR. rewrite wr_reader in OR.
    cbn [option_map source_size] in OR. assert (EQ : q = Some (Some (blen wh_file)) /\ f' = wr_fs).
    { apply pair3_inv in OR as (X & Y & _). split; [rewrite <- Y; reflexivity|rewrite <- X; reflexivity]. }
    destruct EQ as [-> ->]. change (content wr_fs (Some (Reads (SFile 0)))) with wh_file in E. change (loaded (single_server toy (server_of wh_ss)) ar_st0) with (s_init 0) in E.
    pose proof wr_seen as H. apply pair3_inv in H as (H1 & H2 & _).
    assert (ES : wc_st wr_step = s1) by (unfold wr_step, wc_st; rewrite E; reflexivity).
    rewrite ES in H2. apply (GW (CliModel.cl_endpoint wr_cs) [wr_d]).
    + split; [|left; reflexivity]. split; [reflexivity|]. intros _ d R. apply wr_only in R as ->. apply (ignored_check _ e _ H2 V).
    + split; [constructor; [exact (proj1 wr_asks)|constructor]|discriminate].
Qed.
(** ** send /a to new/g *)
Definition ar_m0 : disk mstate := mkDk m_init ws_fs (fun _ => None).
Lemma ws_consistent : consistent ws_fs.
Proof.
  split; [constructor|]. intros p i H. exfalso. unfold at_, ws_fs, ex_look, ws_tree in H. cbn [f_tree find fst] in H.
  destruct p as [|x p]; [discriminate|]. destruct (place_eqb _ _) in H; discriminate.
Qed.
Example send_arrives_applies : exists st1 w k,
  goes_well (disk_turn (multi_server toy ar_sg) (thread_own toy ar_sg 60) (minding ar_fg 0 (s2b "new/g") (dkany (multi_server toy ar_sg) toy ar_sg ar_fg 0)) 60) (dview (multi_server toy ar_sg))
    (send_act ws_g ws_wc ws_keys (CliModel.cl_endpoint ws_cs) ws_f) (send_patient ws_wc) send_busy toy ar_sg 60
    (CliModel.cl_endpoint ws_cs) (arrived ar_fg (s2b "new/g") wh_file) (4 * nblocks wh_file (bs_enc (k_opts k)) + 6 + 2 * 1) 20 (mkSm st1 [] ws_p0 [w] [ws_d]).
Proof.
  pose proof ws_writer as HW.
  destruct (create_server_writer ws_fs (CliModel.ss_files wh_ss) (s2b "new/g")) as [f' [id|]] eqn:W; [|discriminate]. apply (f_equal (fun o => match o with Some b => b | None => false end)) in HW.
  cbn [snd option_map] in HW. apply N.eqb_eq in HW as ->.
  destruct (send_arrives_multi toy PropCli.ex_host wh_sa wh_ss PropCli.ex_host true wh_ca (s2b "/a") (Some (s2b "new/g")) false ws_cs [1; 2] [3; 4] [] (fun _ => []) ws_f 0 0 ws_wc ws_keys ws_ex ws_p0
    ws_d (s2b "new/g") 0 f' 0 60 ar_m0 (wh_i 60 ws_d)) as (st1 & e & w & k & TA & AG & BS & GW).
  - exact toy_ok.
  - reflexivity.
  - exact wh_ss_ok.
  - reflexivity.
  - exact ws_cs_ok.
  - exact (proj1 (keyless_programs_fit toy PropCli.ex_host wh_sa wh_ss PropCli.ex_host true true wh_ca (s2b "/a") (Some (s2b "new/g")) false ws_cs eq_refl wh_ss_ok eq_refl ws_cs_ok
      eq_refl eq_refl ltac:(discriminate) eq_refl eq_refl ltac:(discriminate))).
  - reflexivity.
  - exact ws_waiting.
  - intros H. apply (f_equal (fun p => match p with UFailed => true | _ => false end)) in H. vm_compute in H. discriminate.
  - exact ws_asks.
  - vm_compute. discriminate.
  - vm_compute. discriminate.
  - apply dkreach_init. reflexivity.
  - reflexivity.
  - vm_compute. reflexivity.
  - apply wh_able.
  - reflexivity.
  - exact ws_consistent.
  - exact W.
  - exists st1, w, k. destruct TA as (f1 & q & s1 & o & LK & FR & OR & E & SO & V & _).
    unfold open_request in OR. rewrite FR in OR. change (dk_fs ar_m0) with ws_fs in OR. rewrite W in OR. cbn [option_map] in OR.
    assert (EQ : q = Some None /\ f1 = f') by (apply pair3_inv in OR as (X & Y & _); split; congruence). destruct EQ as [-> ->].
    destruct (DiskProofs.writer_new_file _ _ _ _ _ W) as [DE _]. cbn [content] in E. rewrite DE in E. change (loaded (multi_server toy (server_of wh_ss)) ar_m0) with m_init in E. cbn [multi_server sv_main] in E.
    pose proof ws_seen as H. apply pair3_inv in H as (H1 & H2 & _).
    assert (ES : wc_mst ws_step = s1) by (unfold ws_step, wc_mst; rewrite E; reflexivity).
    rewrite ES in H2. apply (GW (CliModel.cl_endpoint ws_cs) [ws_d]).
    + split; [|left; reflexivity]. split; [reflexivity|]. intros _ d R. apply ws_only in R as ->. rewrite (V : mview s1 60 = Some e) in H2. exact (ignored_check (Some e) e _ H2 eq_refl).
    + split; [constructor; [exact (proj1 ws_asks)|constructor]|discriminate].
Qed.
(** What may happen meanwhile is not nothing: another program creates the file /srv/x. *)
Example meanwhile : exists st1, meantime (multi_server toy ar_sg) (minding ar_fg 0 (s2b "new/g") (dkany (multi_server toy ar_sg) toy ar_sg ar_fg 0)) 60 ar_m0 st1 [] /\
  at_ (dk_fs ar_m0) [s2b "srv"; s2b "x"] = None /\ at_ (dk_fs st1) [s2b "srv"; s2b "x"] = Some (NFile 1).
Proof.
  set (f' := mkFs (ex_look (ws_tree ++ [([s2b "srv"; s2b "x"], NFile 1)])) (fun _ => []) 2 [] (fun _ => true) (ex_children ws_tree)).
  exists (mkDk m_init f' (fun _ => None)). split; [|split; vm_compute; reflexivity]. change (@nil (addr * out)) with (@nil (addr * out) ++ []).
  eapply (mt_step _ _ _ ar_m0 TookNothing (mkDk m_init f' (fun _ => None))); [|reflexivity|reflexivity|reflexivity|constructor]. split; [apply (dk_other _ _ _ _ _ ar_m0 f'); vm_compute; discriminate|]. split; [reflexivity|vm_compute; reflexivity].
Qed.
