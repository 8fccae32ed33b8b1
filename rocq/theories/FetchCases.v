(** C80 on the command lines of WholeCases: a file is sent, the server is started again, the file is fetched by another user. *)
From Verif Require Import Base BaseProofs PacketModel PacketSpec MapperModel ReaderModel ReaderSpec BlockLemmas ConfigModel CryptoModel CryptoSpec CryptoProofs ExtModel PathModel ConnModel
  ConnSpec ClientModel HandshakeModel ClientWaitModel PropHandshake AgreeProofs PropAgree SystemModel ServerModel ServerSpec PropServer WorldModel PropWorld WorldCases
  FsModel FsSpec PropFs FsServerModel DiskModel DiskSpec DiskCases StoreSpec RunModel RunSpec RunCases SmoothModel SmoothSpec PropSmooth WholeSpec PropWhole WholeCases ArriveModel ArriveSpec PropArrive ArriveCases
  FetchSpec PropFetch.
From Verif Require CliModel PropCli.

(** `receive server:69 new/g --local-path /b` *)
Definition fe_cs : CliModel.client_start := Eval vm_compute in got (CliModel.client_begin (c_vk_ok toy) PropCli.ex_host true false wh_ca (s2b "new/g") (Some (s2b "/b")) false).
Lemma fe_cs_ok : CliModel.client_begin (c_vk_ok toy) PropCli.ex_host true false wh_ca (s2b "new/g") (Some (s2b "/b")) false = Some fe_cs.
Proof. vm_compute. reflexivity. Qed.
Definition fe_g : run_cfg := mkRun toy fe_cs [1; 2] [3; 4] [] (fun _ => []).
Definition fe_ask := run_ask fe_g false (ru_opts fe_g).
Definition fe_wc : wcfg := fst (fst (got fe_ask)).
Definition fe_keys : option client_keys := snd (fst (got fe_ask)).
Definition fe_ex : exts := snd (got fe_ask).
Lemma fe_ask_ok : run_ask fe_g false (ru_opts fe_g) = Some (fe_wc, fe_keys, fe_ex).
Proof. reflexivity. Qed.
Definition fe_d : bytes := asking fe_g false fe_ex.
Lemma fe_only d : request_of fe_g fe_wc false fe_ex d -> d = fe_d.
Proof. intros (n & _ & E). change (client_send (ru_c fe_g) (wc_sock fe_wc) n (asking fe_g false fe_ex)) with (@Ok unit bytes fe_d) in E. congruence. Qed.
Definition fe_p0 : rprog := receive_run fe_g fe_wc fe_keys (mkRP rn_b (RAsk (wait_init fe_wc fe_ex 0))) [mkRin RvBlock 5 false None true []].
Lemma fe_fit : keys_fit toy wh_sa wh_ss wh_ca fe_cs.
Proof.
  exact (proj1 (keyless_programs_fit toy PropCli.ex_host wh_sa wh_ss PropCli.ex_host true false wh_ca (s2b "new/g") (Some (s2b "/b")) false fe_cs eq_refl wh_ss_ok eq_refl fe_cs_ok
    eq_refl eq_refl ltac:(discriminate) eq_refl eq_refl ltac:(discriminate))).
Qed.
Lemma fe_asks : asks_with fe_g (CliModel.ss_cfg wh_ss) fe_wc false fe_ex fe_d.
Proof.
  split; [exists (repeat 1 24); split; reflexivity|]. split; [vm_compute; repeat split; try lia; repeat constructor; lia|].
  split; [|vm_compute; reflexivity].
  exact (proj2 (keyless_programs_fit toy PropCli.ex_host wh_sa wh_ss PropCli.ex_host true false wh_ca (s2b "new/g") (Some (s2b "/b")) false fe_cs eq_refl wh_ss_ok eq_refl fe_cs_ok
    eq_refl eq_refl ltac:(discriminate) eq_refl eq_refl ltac:(discriminate)) (wc_sock fe_wc) fe_d).
Qed.
(** What the server does with that request when it has been started again. *)
Definition fe_step := main_turn toy (server_of wh_ss) m_init (MData 61 fe_d) (with_files (wh_i 61 fe_d) (Some (Some (blen wh_file))) wh_file).
Lemma fe_seen : (is_some fe_step, ignored_b (mview (wc_mst fe_step) 61) (thread_cut_of (mview (wc_mst fe_step) 61) fe_d), true) = (true, true, true).
Proof. vm_compute. reflexivity. Qed.
(** The disk: somebody has tidied up meanwhile, but left the file. *)
Definition fe_tree := [([s2b "srv"], NDir); ([s2b "srv"; s2b "new"], NDir); ([s2b "srv"; s2b "new"; s2b "g"], NFile 0)].
Definition fe_fs (n : N) : fs := mkFs (ex_look fe_tree) (fun _ => wh_file) (n + 1) [] (fun _ => true) (ex_children fe_tree).
Lemma fe_reader n : create_server_reader (fe_fs n) (CliModel.ss_files wh_ss) (s2b "new/g") = Some (SFile 0).
Proof. vm_compute. reflexivity. Qed.
Lemma fe_leads n : leads (fe_fs n) (CliModel.ss_files wh_ss) (s2b "new/g") = Some 0.
Proof. vm_compute. reflexivity. Qed.
Lemma fe_consistent n : consistent (fe_fs n).
Proof.
  split; [constructor|]. intros p i H. cbn [fe_fs f_next]. unfold at_, fe_fs, ex_look, fe_tree in H. cbn [f_tree find fst] in H.
  destruct p as [|x p]; [discriminate|]. repeat match type of H with context [if ?b then _ else _] => destruct b end; try discriminate H. cbn in H. injection H as <-. lia.
Qed.

Example sent_then_fetched_applies : exists st1 w k st2 st3 w' k',
  (* send ends well *)
  goes_well (disk_turn (multi_server toy ar_sg) (thread_own toy ar_sg 60) (minding ar_fg 0 (s2b "new/g") (dkany (multi_server toy ar_sg) toy ar_sg ar_fg 0)) 60) (dview (multi_server toy ar_sg))
    (send_act ws_g ws_wc ws_keys (CliModel.cl_endpoint ws_cs) ws_f) (send_patient ws_wc) send_busy toy ar_sg 60
    (CliModel.cl_endpoint ws_cs) (arrived ar_fg (s2b "new/g") wh_file) (4 * nblocks wh_file (bs_enc (k_opts k)) + 6 + 2 * 1) 20 (mkSm st1 [] ws_p0 [w] [ws_d]) /\
  (* later the other user asks *)
  dk_srv st2 = m_init /\ leads (dk_fs st2) ar_fg (s2b "new/g") = Some 0 /\
  goes_well (disk_turn (multi_server toy ar_sg) (thread_own toy ar_sg 61) (sparing 0 (dkany (multi_server toy ar_sg) toy ar_sg ar_fg 0)) 61) (dview (multi_server toy ar_sg))
    (receive_act fe_g fe_wc fe_keys (CliModel.cl_endpoint fe_cs)) (receive_patient fe_wc) receive_busy toy ar_sg 61
    (CliModel.cl_endpoint fe_cs) (fun W => received fe_g wh_file (sm_prog W)) (4 * nblocks wh_file (bs_enc (k_opts k')) + 6 + 2 * 1) 20 (mkSm st3 [] fe_p0 [w'] [fe_d]).
Proof.
  pose proof ws_writer as HW.
  destruct (create_server_writer ws_fs (CliModel.ss_files wh_ss) (s2b "new/g")) as [f' [id|]] eqn:W; [|discriminate]. apply (f_equal (fun o => match o with Some b => b | None => false end)) in HW.
  cbn [snd option_map] in HW. apply N.eqb_eq in HW as ->.
  destruct (sent_then_fetched_multi toy PropCli.ex_host wh_sa wh_ss PropCli.ex_host true wh_ca (s2b "/a") (Some (s2b "new/g")) false ws_cs [1; 2] [3; 4] [] (fun _ => []) ws_f 0 0 ws_wc ws_keys ws_ex ws_p0
    ws_d (s2b "new/g") 0 f' 0 60 ar_m0 (wh_i 60 ws_d)) as (st1 & e & w & k & TA & AG & BS & GW).
  - exact toy_ok.
  - reflexivity.
  - exact wh_ss_ok.
  - reflexivity.
  - exact ws_cs_ok.
  - exact (proj1 (keyless_programs_fit toy PropCli.ex_host wh_sa wh_ss PropCli.ex_host true true wh_ca (s2b "/a") (Some (s2b "new/g")) false ws_cs eq_refl wh_ss_ok eq_refl ws_cs_ok
      eq_refl eq_refl ltac:(discriminate) eq_refl eq_refl ltac:(discriminate))).
  - reflexivity.
  - exact ws_waiting.
  - intros H. apply (f_equal (fun p => match p with UFailed => true | _ => false end)) in H. vm_compute in H. discriminate.
  - exact ws_asks.
  - vm_compute. discriminate.
  - vm_compute. discriminate.
  - apply dkreach_init. reflexivity.
  - split; [reflexivity|vm_compute; reflexivity].
  - apply wh_able.
  - reflexivity.
  - exact ws_consistent.
  - exact W.
  - reflexivity.
  - destruct TA as (f1 & q & s1 & o & LK & FR & OR & E & SO & V & _).
    unfold open_request in OR. rewrite FR in OR. change (dk_fs ar_m0) with ws_fs in OR. rewrite W in OR. cbn [option_map] in OR.
    assert (EQ : q = Some None /\ f1 = f') by (apply pair3_inv in OR as (X & Y & _); split; congruence). destruct EQ as [-> ->].
    destruct (DiskProofs.writer_new_file _ _ _ _ _ W) as [DE _]. cbn [content] in E. rewrite DE in E. change (loaded (multi_server toy (server_of wh_ss)) ar_m0) with m_init in E. cbn [multi_server sv_main] in E.
    pose proof ws_seen as H. apply pair3_inv in H as (H1 & H2 & _).
    assert (ES : wc_mst ws_step = s1) by (unfold ws_step, wc_mst; rewrite E; reflexivity). rewrite ES in H2.
    specialize (GW (CliModel.cl_endpoint ws_cs) [ws_d]). change (server_of wh_ss) with ar_sg in *. change (CliModel.ss_files wh_ss) with ar_fg in *.
    assert (A1 : answers_from ws_g ws_wc true ws_ex (fun y : bytes => ignored toy (c_opts (en_conn e)) (en_key e) (thread_cut e y)) (CliModel.cl_endpoint ws_cs)).
    { split; [|left; reflexivity]. split; [reflexivity|]. intros _ d R. apply ws_only in R as ->. rewrite (V : mview s1 60 = Some e) in H2. exact (ignored_check (Some e) e _ H2 eq_refl). }
    assert (A2 : repeats ws_g ws_wc true ws_ex (CliModel.cl_endpoint ws_cs) [ws_d]) by (split; [constructor; [exact (proj1 ws_asks)|constructor]|discriminate]).
    specialize (GW A1 A2). pose proof GW as [_ (kk & bb & W1 & _ & [(AR1 & x & LX & FX) (LX0 & FE)])].
    set (n := f_next (dk_fs (sm_srv W1))). set (st2 := mkDk m_init (fe_fs n) (fun _ => None) : disk mstate).
    assert (LT : later (fun m => m = m_init) (tended (multi_server toy ar_sg) toy ar_sg ar_fg 0 0 (s2b "new/g")) (sm_srv W1) st2).
    { rewrite LX0 in LX. injection LX as <-.
      apply (later_restart _ _ _ (mkDk (dk_srv (sm_srv W1)) (fe_fs n) (dk_open (sm_srv W1))) m_init); [|reflexivity].
      eapply later_step; [constructor|]. split; [apply dk_other; cbn [fe_fs f_next]; fold n; lia|]. cbn [dk_fs]. split; [rewrite FX; reflexivity|].
      rewrite LX0. exact (fe_leads n). }
    specialize (FE st2 LT (fe_consistent n)).
    assert (AL : exists f1 lid, create_writer rn_b (CliModel.cl_local fe_cs) = (f1, Some lid)).
    { change (CliModel.cl_local fe_cs) with (s2b "/b"). pose proof wr_writer as H. destruct (create_writer rn_b (s2b "/b")) as [f1 [lid|]]; [eauto|discriminate]. }
    destruct (FE PropCli.ex_host true wh_ca (s2b "new/g") (Some (s2b "/b")) false fe_cs [1; 2] [3; 4] [] (fun _ => []) rn_b fe_wc fe_keys fe_ex fe_p0 fe_d 61 (wh_i 61 fe_d))
      as (st3 & e' & w' & k' & TA' & AG' & BS' & GW').
    + reflexivity.
    + exact fe_cs_ok.
    + exact fe_fit.
    + reflexivity.
    + split; [exact fe_ask_ok|]. exists 0, [mkRin RvBlock 5 false None true []]. split; [repeat constructor|reflexivity].
    + vm_compute. discriminate.
    + exact fe_asks.
    + reflexivity.
    + split; [reflexivity|vm_compute; reflexivity].
    + apply wh_able.
    + change (dk_fs st2) with (fe_fs n). rewrite (fe_reader n : create_server_reader (fe_fs n) (CliModel.ss_files wh_ss) (s2b "new/g") = Some (SFile 0)). discriminate.
    + exact AL.
    + vm_compute. discriminate.
    + exists st1, w, k, st2, st3, w', k'. split; [eapply goes_well_weaken; [|exact GW]; intros ck k1 b1 W2 _ [X _]; exact X|].
      split; [reflexivity|]. split; [exact (fe_leads n)|].
      destruct TA' as (f2 & q' & s2 & o' & LK' & FR' & OR' & E' & SO' & V' & _).
      unfold open_request in OR'. rewrite FR' in OR'. change (dk_fs st2) with (fe_fs n) in OR'. rewrite (fe_reader n : create_server_reader (fe_fs n) (CliModel.ss_files wh_ss) (s2b "new/g") = Some (SFile 0)) in OR'.
      cbn [option_map source_size] in OR'. assert (EQ' : q' = Some (Some (blen wh_file)) /\ f2 = fe_fs n).
      { apply pair3_inv in OR' as (X & Y & _). split; [rewrite <- Y; reflexivity|rewrite <- X; reflexivity]. }
      destruct EQ' as [-> ->]. change (content (fe_fs n) (Some (Reads (SFile 0)))) with wh_file in E'. change (loaded (multi_server toy ar_sg) st2) with m_init in E'. cbn [multi_server sv_main] in E'.
      pose proof fe_seen as H'. apply pair3_inv in H' as (H1' & H2' & _).
      assert (ES' : wc_mst fe_step = s2) by (unfold fe_step, wc_mst; change (server_of wh_ss) with ar_sg; rewrite E'; reflexivity). rewrite ES' in H2'.
      apply (GW' (CliModel.cl_endpoint fe_cs) [fe_d]).
      * split; [|left; reflexivity]. split; [reflexivity|]. intros _ d R. apply fe_only in R as ->. rewrite (V' : mview s2 61 = Some e') in H2'. exact (ignored_check (Some e') e' _ H2' eq_refl).
      * split; [constructor; [exact (proj1 fe_asks)|constructor]|discriminate].
Qed.
