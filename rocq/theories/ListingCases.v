(** C83 on the command lines of WholeCases, the server with `--directory-list dir`: `receive server:69 d/dir --local-path /b`. *)
From Verif Require Import Base BaseProofs PacketModel PacketSpec MapperModel ReaderModel ReaderSpec BlockLemmas ConfigModel CryptoModel CryptoSpec CryptoProofs ExtModel PathModel PathSpec PathProofs ConnModel
  ConnSpec ClientModel HandshakeModel ClientWaitModel PropHandshake AgreeProofs PropAgree SystemModel ServerModel ServerSpec PropServer WorldModel PropWorld WorldCases
  FsModel FsSpec PropFs FsServerModel DiskModel DiskSpec DiskCases StoreSpec RunModel RunSpec RunCases SmoothModel SmoothSpec PropSmooth WholeSpec PropWhole WholeCases ArriveModel ArriveSpec PropArrive ArriveCases
  FetchSpec PropListing.
From Verif Require CliModel PropCli.

Definition li_sa : CliModel.server_args := CliModel.mkSA (s2b "0.0.0.0:69") (s2b "/srv") false 5000 1000 15000 104857600 1425 None None None None false (Some (s2b "dir")) 10 None.
Definition li_ss : CliModel.server_start := Eval vm_compute in got (CliModel.server_config (c_vk_ok toy) PropCli.ex_host li_sa).
Lemma li_ss_ok : CliModel.server_config (c_vk_ok toy) PropCli.ex_host li_sa = Some li_ss.
Proof. vm_compute. reflexivity. Qed.
Definition li_cs : CliModel.client_start := Eval vm_compute in got (CliModel.client_begin (c_vk_ok toy) PropCli.ex_host true false wh_ca (s2b "d/dir") (Some (s2b "/b")) false).
Lemma li_cs_ok : CliModel.client_begin (c_vk_ok toy) PropCli.ex_host true false wh_ca (s2b "d/dir") (Some (s2b "/b")) false = Some li_cs.
Proof. vm_compute. reflexivity. Qed.
Definition li_g : run_cfg := mkRun toy li_cs [1; 2] [3; 4] [] (fun _ => []).
Definition li_ask := run_ask li_g false (ru_opts li_g).
Definition li_wc : wcfg := fst (fst (got li_ask)).
Definition li_keys : option client_keys := snd (fst (got li_ask)).
Definition li_ex : exts := snd (got li_ask).
Lemma li_ask_ok : run_ask li_g false (ru_opts li_g) = Some (li_wc, li_keys, li_ex).
Proof. reflexivity. Qed.
Definition li_d : bytes := asking li_g false li_ex.
Lemma li_only d : request_of li_g li_wc false li_ex d -> d = li_d.
Proof. intros (n & _ & E). change (client_send (ru_c li_g) (wc_sock li_wc) n (asking li_g false li_ex)) with (@Ok unit bytes li_d) in E. congruence. Qed.
Definition li_p0 : rprog := receive_run li_g li_wc li_keys (mkRP rn_b (RAsk (wait_init li_wc li_ex 0))) [mkRin RvBlock 5 false None true []].
Lemma li_fit : keys_fit toy li_sa li_ss wh_ca li_cs.
Proof.
  exact (proj1 (keyless_programs_fit toy PropCli.ex_host li_sa li_ss PropCli.ex_host true false wh_ca (s2b "d/dir") (Some (s2b "/b")) false li_cs eq_refl li_ss_ok eq_refl li_cs_ok
    eq_refl eq_refl ltac:(discriminate) eq_refl eq_refl ltac:(discriminate))).
Qed.
Lemma li_asks : asks_with li_g (CliModel.ss_cfg li_ss) li_wc false li_ex li_d.
Proof.
  split; [exists (repeat 1 24); split; reflexivity|]. split; [vm_compute; repeat split; try lia; repeat constructor; lia|].
  split; [|vm_compute; reflexivity].
  exact (proj2 (keyless_programs_fit toy PropCli.ex_host li_sa li_ss PropCli.ex_host true false wh_ca (s2b "d/dir") (Some (s2b "/b")) false li_cs eq_refl li_ss_ok eq_refl li_cs_ok
    eq_refl eq_refl ltac:(discriminate) eq_refl eq_refl ltac:(discriminate)) (wc_sock li_wc) li_d).
Qed.
(** The server's disk, and the listing of /srv/d: a file and a directory. *)
Definition li_tree := [([s2b "srv"], NDir); ([s2b "srv"; s2b "d"], NDir); ([s2b "srv"; s2b "d"; s2b "f"], NFile 0); ([s2b "srv"; s2b "d"; s2b "sub"], NDir)].
Definition li_fs : fs := mkFs (ex_look li_tree) (fun _ => wh_file) 1 [] (fun _ => true) (ex_children li_tree).
Definition li_text : bytes := s2b "d/f" ++ [10] ++ s2b "d/sub/" ++ [10].
Definition li_m0 : disk mstate := mkDk m_init li_fs (fun _ => None).
Definition li_sg : srvcfg := server_of li_ss.
Definition li_fg : fcfg := CliModel.ss_files li_ss.
Lemma li_consistent : consistent li_fs.
Proof.
  split; [constructor|]. intros p i H. cbn [li_fs f_next]. unfold at_, li_fs, ex_look, li_tree in H. cbn [f_tree find fst] in H.
  destruct p as [|x p]; [discriminate|]. repeat match type of H with context [if ?b then _ else _] => destruct b end; try discriminate H. cbn in H. injection H as <-. lia.
Qed.
Lemma li_plain x : In x [s2b "d"; s2b "dir"; s2b "f"] -> ~ dotty x /\ ~ In 47 x.
Proof.
  intros I. assert (Z : ~ In 47 x) by (cbn [In] in I; destruct I as [<-|[<-|[<-|[]]]]; vm_compute; intros Q; repeat (destruct Q as [Q|Q]; [discriminate Q|]); exact Q).
  split; [|exact Z]. apply keep_iff; [exact Z|]. cbn [In] in I. destruct I as [<-|[<-|[<-|[]]]]; vm_compute; reflexivity.
Qed.
Lemma li_dirs : dirs li_fs [s2b "srv"; s2b "d"].
Proof.
  change [s2b "srv"; s2b "d"] with ([s2b "srv"] ++ [s2b "d"]). constructor; [|discriminate|reflexivity]. change [s2b "srv"] with (([] : place) ++ [s2b "srv"]). constructor; [constructor|discriminate|reflexivity].
Qed.
Lemma li_lists : lists li_fs [s2b "d"] [s2b "srv"; s2b "d"] li_text.
Proof. vm_compute. reflexivity. Qed.
Definition li_step := main_turn toy li_sg m_init (MData 60 li_d) (with_files (wh_i 60 li_d) (Some (Some (blen li_text))) li_text).
Lemma li_seen : (is_some li_step, ignored_b (mview (wc_mst li_step) 60) (thread_cut_of (mview (wc_mst li_step) 60) li_d), true) = (true, true, true).
Proof. vm_compute. reflexivity. Qed.

Example listing_fetched_applies : exists st1 w k,
  goes_well (disk_turn (multi_server toy li_sg) (thread_own toy li_sg 60) (dkany (multi_server toy li_sg) toy li_sg li_fg 0) 60) (dview (multi_server toy li_sg))
    (receive_act li_g li_wc li_keys (CliModel.cl_endpoint li_cs)) (receive_patient li_wc) receive_busy toy li_sg 60
    (CliModel.cl_endpoint li_cs) (fun W => received li_g li_text (sm_prog W)) (4 * nblocks li_text (bs_enc (k_opts k)) + 6 + 2 * 1) 20 (mkSm st1 [] li_p0 [w] [li_d]).
Proof.
  assert (AL : exists f1 lid, create_writer rn_b (CliModel.cl_local li_cs) = (f1, Some lid)).
  { change (CliModel.cl_local li_cs) with (s2b "/b"). pose proof wr_writer as H. destruct (create_writer rn_b (s2b "/b")) as [f1 [lid|]]; [eauto|discriminate]. }
  assert (LP : list_name (s2b "dir")).
  { split; [split; [discriminate|]; split; [reflexivity|]|]; intros x [<-|[]]; apply li_plain; cbn; auto. }
  destruct (listing_fetched_multi toy PropCli.ex_host li_sa li_ss PropCli.ex_host true wh_ca (s2b "d/dir") (Some (s2b "/b")) false li_cs [1; 2] [3; 4] [] (fun _ => []) rn_b li_wc li_keys li_ex li_p0
    li_d (s2b "d/dir") 0 60 li_m0 (wh_i 60 li_d) (s2b "dir") [s2b "d"] [s2b "srv"] li_text) as (st1 & e & w & k & TA & AG & BS & GW).
  - exact toy_ok.
  - reflexivity.
  - exact li_ss_ok.
  - reflexivity.
  - exact LP.
  - reflexivity.
  - exact li_cs_ok.
  - exact li_fit.
  - reflexivity.
  - split; [exact li_ask_ok|]. exists 0, [mkRin RvBlock 5 false None true []]. split; [repeat constructor|reflexivity].
  - vm_compute. discriminate.
  - exact li_asks.
  - reflexivity.
  - split; [split; [discriminate|]; split; [reflexivity|]|]; intros x [<-|[<-|[]]]; apply li_plain; cbn; auto.
  - vm_compute. discriminate.
  - apply dkreach_init. reflexivity.
  - split; [reflexivity|vm_compute; reflexivity].
  - apply wh_able.
  - exact li_consistent.
  - vm_compute. reflexivity.
  - exact li_dirs.
  - reflexivity.
  - exact li_lists.
  - vm_compute. discriminate.
  - exact AL.
  - vm_compute. discriminate.
  - exists st1, w, k. destruct TA as (f' & q & s1 & o & LK & FR & OR & E & SO & V & _).
    unfold open_request in OR. rewrite FR in OR. change (dk_fs li_m0) with li_fs in OR.
    assert (RD : create_server_reader li_fs (CliModel.ss_files li_ss) (s2b "d/dir") = Some (SList li_text)) by (vm_compute; reflexivity).
    rewrite RD in OR. cbn [option_map source_size] in OR. assert (EQ : q = Some (Some (blen li_text)) /\ f' = li_fs) by (apply pair3_inv in OR as (X & Y & _); split; congruence).
    destruct EQ as [-> ->]. cbn [content] in E. change (loaded (multi_server toy (server_of li_ss)) li_m0) with m_init in E. cbn [multi_server sv_main] in E.
    pose proof li_seen as H. apply pair3_inv in H as (H1 & H2 & _).
    assert (ES : wc_mst li_step = s1) by (unfold li_step, li_sg, wc_mst; rewrite E; reflexivity).
    rewrite ES in H2. apply (GW (CliModel.cl_endpoint li_cs) [li_d]).
    + split; [|left; reflexivity]. split; [reflexivity|]. intros _ d R. apply li_only in R as ->. rewrite (V : mview s1 60 = Some e) in H2. exact (ignored_check (Some e) e _ H2 eq_refl).
    + split; [constructor; [exact (proj1 li_asks)|constructor]|discriminate].
Qed.
(** The file on the first line. *)
Example listed_file_fetched_applies : (exists before after, li_text = before ++ (PathSpec.path [s2b "d"; s2b "f"] ++ [10]) ++ after) /\
  fetches (multi_server toy li_sg) (thread_own toy li_sg) (sparing 0 (dkany (multi_server toy li_sg) toy li_sg li_fg 0)) (multi_free li_sg) thread_cut toy li_sa li_ss 0 0 (s2b "d/f") wh_file li_m0.
Proof.
  assert (LP : list_name (s2b "dir")).
  { split; [split; [discriminate|]; split; [reflexivity|]|]; intros x [<-|[]]; apply li_plain; cbn; auto. }
  destruct (listed_file_fetched_multi toy PropCli.ex_host li_sa li_ss 0 li_m0 (s2b "dir") [s2b "d"] [s2b "srv"] li_text (s2b "f") 0) as (H1 & _ & H2).
  - exact toy_ok.
  - reflexivity.
  - exact li_ss_ok.
  - reflexivity.
  - exact LP.
  - apply dkreach_init. reflexivity.
  - exact li_consistent.
  - vm_compute. reflexivity.
  - exact li_dirs.
  - exact li_lists.
  - left. reflexivity.
  - reflexivity.
  - reflexivity.
  - intros x [<-|[<-|[<-|[]]]]; vm_compute; reflexivity.
  - split; [split; [discriminate|]; split; [reflexivity|]|]; intros x [<-|[<-|[]]]; apply li_plain; cbn; auto.
  - vm_compute. discriminate.
  - intros H. apply (f_equal blen) in H. vm_compute in H. discriminate.
  - vm_compute. discriminate.
  - split; [exact H1|exact H2].
Qed.
