(** C80: what is stored with `send` can be fetched with `receive`: from the command lines of the server and of two users to their disks. *)
From Verif Require Import Base BaseProofs PacketModel PacketSpec MapperModel ReaderModel ReaderSpec BlockLemmas ConfigModel CryptoModel CryptoSpec CryptoProofs ExtModel PropExt PathModel ConnModel
  ConnSpec ClientModel HandshakeModel HandshakeProofs ClientWaitModel PropHandshake AgreeProofs PropAgree SystemModel ServerModel ServerSpec ServerProofs PropServer WorldModel WorldB WorldC PropWorld
  FsModel FsSpec FsProofs FsServerModel DiskModel DiskSpec DiskProofs DiskB PropDisk StoreSpec StoreProofs RunModel RunSpec RunProofs RunB PropRun SmoothModel SmoothSpec SmoothC PropSmooth WholeSpec PropWhole
  ArriveModel ArriveSpec ArriveProofs PropArrive FetchSpec.
From Verif Require CliModel PropCli.

Lemma multi_step_ok c sg fg ds st t st' o : HandlesOk (dk_srv st) -> dkany (multi_server c sg) c sg fg ds st t st' o -> HandlesOk (dk_srv st').
Proof.
  intros HO P. destruct P as [st t st' o P|st f' FN]; [|exact HO]. pose proof (multi_good c sg) as G.
  exact (gd_keep _ _ _ _ _ G _ _ _ _ (gd_load _ _ _ _ _ G _ _ HO) (step_phase c sg fg ds _ _ _ G _ _ _ _ P)).
Qed.
Lemma multi_later_ok c sg fg ds id name st st' : later (fun m => m = m_init) (tended (multi_server c sg) c sg fg ds id name) st st' -> HandlesOk (dk_srv st) -> HandlesOk (dk_srv st').
Proof.
  intros L HO. induction L as [|s x s' y L IH P|s x L IH I]; [exact HO| |].
  - destruct P as [P _]. eapply multi_step_ok; eassumption.
  - cbn [dk_srv]. subst x. apply (mpreach_ok c sg). constructor.
Qed.
Lemma still_there (f : fs) fg name id : dirs f (f_cwd f) -> leads f fg name = Some id -> listing fg name = false -> create_server_reader f fg name <> None ->
  create_server_reader f fg name = Some (SFile id).
Proof.
  intros C L NL H. destruct (create_server_reader f fg name) as [src|] eqn:E; [|contradiction]. f_equal. eapply reader_leads; eassumption.
Qed.

(** The programs have been started with fitting command lines, `send` has asked and is waiting, the request reaches the multi threaded server.
    Then `send` ends well (C79), and from then on - whatever else the server and other programs do, unless they change this file or move it
    away, and even if the server is stopped and started again - whoever fetches that path gets the contents of the file that was sent. *)
Theorem sent_then_fetched_multi : forall c h sa ss h' bound ca given other seek cs eph hs iv txt f0 dz lid wc keys ex p0 d path ds f' id a st0 i,
  let g := mkRun c cs eph hs iv txt in let sg := server_of ss in let fg := CliModel.ss_files ss in
  crypto_ok c ->
  (* the programs *)
  CliModel.server_args_ok sa = true -> CliModel.server_config (c_vk_ok c) h sa = Some ss ->
  CliModel.client_args_ok ca = true -> CliModel.client_begin (c_vk_ok c) h' bound true ca given other seek = Some cs ->
  keys_fit c sa ss ca cs -> CliModel.ca_file_key ca = None ->
  (* the request *)
  send_waiting g f0 dz (SFile lid) wc keys ex p0 -> p0 <> UFailed -> asks_with g (CliModel.ss_cfg ss) wc true ex d ->
  (* the local file *)
  let F := f_data f0 lid in blen F <= U64_MAX -> blen F <= CliModel.sa_max_size sa ->
  (* the server and its disk *)
  dkreach (multi_server c sg) c sg fg ds (fun m => m = m_init) st0 -> multi_free sg (dk_srv st0) a d i -> able i ->
  normalize None (CliModel.cl_remote cs) = Some path -> consistent (dk_fs st0) -> create_server_writer (dk_fs st0) fg path = (f', Some id) ->
  listing fg path = false ->
  exists st1 e w k, takes (multi_server c sg) c sg fg ds i true st0 a d path st1 (Writes id) e w /\ agrees g wc keys true ex w k /\ 512 <= op_bs (k_opts k) /\
    forall peer early,
      answers_from g wc true ex (fun y => ignored c (c_opts (en_conn e)) (en_key e) (thread_cut e y)) peer -> repeats g wc true ex peer early ->
      goes_well (disk_turn (multi_server c sg) (thread_own c sg a) (minding fg id path (dkany (multi_server c sg) c sg fg ds)) a) (dview (multi_server c sg)) (send_act g wc keys peer f0) (send_patient wc) send_busy c sg a peer
        (fun W => arrived fg path F W /\ leads (dk_fs (sm_srv W)) fg path = Some id /\
           forall st2, later (fun m => m = m_init) (tended (multi_server c sg) c sg fg ds id path) (sm_srv W) st2 -> consistent (dk_fs st2) ->
           fetches (multi_server c sg) (thread_own c sg) (sparing id (dkany (multi_server c sg) c sg fg ds)) (multi_free sg) thread_cut c sa ss ds id path F st2)
        (4 * nblocks F (bs_enc (k_opts k)) + 6 + 2 * N.of_nat (length early)) (e_now (i_env i)) (mkSm st1 [] p0 [w] early).
Proof.
  intros c h sa ss h' bound ca given other seek cs eph hs iv txt f0 dz lid wc keys ex p0 d path ds f' id a st0 i g sg fg HC SA SS CA CB KF FKA SW NF AW F HU HM RD [V0 NF0] AB NM CO CR NL.
  assert (MC : 1 <= g_max_conn sg) by (unfold sg; eapply server_bounds; eassumption).
  pose proof (multi_reach_ok c sg fg ds st0 RD) as HO.
  edestruct (send_disk_more (multi_server c sg) (thread_own c sg a) (minding fg id path (dkany (multi_server c sg) c sg fg ds)) (fun _ => true) HandlesOk HandlesOk thread_cut) as (st1 & e & w & k & TK1 & AG & BS & GW); try eassumption.
  - apply (multi_tame c sg fg ds). intros st t st' o H. split; [exact (proj1 H)|exact (proj1 (proj2 H))].
  - apply multi_good.
  - apply multi_looks; assumption.
  - intros RC. apply multi_takes_disk; assumption.
  - intros st t st' o H. exact (proj2 (proj2 H)).
  - exists st1, e, w, k. split; [exact TK1|]. split; [exact AG|]. split; [exact BS|]. intros peer early AF RS. specialize (GW peer early AF RS).
    eapply goes_well_weaken; [|exact GW]. intros ck kk b W _ (AR & LD & FD & IN). split; [exact AR|]. split; [exact LD|].
    intros st2 LT CO2. destruct (later_kept _ _ _ _ _ _ _ _ _ _ _ LT LD FD) as [LD2 FD2]. pose proof (multi_later_ok _ _ _ _ _ _ _ _ LT IN) as HO2.
    intros h2 bound2 ca2 given2 other2 seek2 cs2 eph2 hs2 iv2 txt2 f02 wc2 keys2 ex2 p02 d2 a2 i2 g2 sg2 fg2 CA2 CB2 KF2 FKA2 RW2 NF2 AW2 NM2 [V2 NFR2] AB2 CR2 CW2 HM2.
    pose proof (still_there _ _ _ _ (proj1 CO2) LD2 NL CR2) as CRX. unfold F in *. rewrite <- FD2 in *.
    eapply (receive_disk (multi_server c sg) (thread_own c sg a2) (sparing id (dkany (multi_server c sg) c sg fg ds)) (fun _ => true) HandlesOk HandlesOk thread_cut); try eassumption.
    + apply (multi_tame c sg fg ds). intros st t st' o H. exact H.
    + apply multi_good.
    + apply multi_looks; assumption.
    + intros RC. apply multi_takes_disk; assumption.
Qed.
(** The single threaded server, which serves them one after the other (and nobody else meanwhile). *)
Theorem sent_then_fetched_single : forall c h sa ss h' bound ca given other seek cs eph hs iv txt f0 dz lid wc keys ex p0 d path ds f' id a st0 i,
  let g := mkRun c cs eph hs iv txt in let sg := server_of ss in let fg := CliModel.ss_files ss in
  crypto_ok c ->
  (* the programs *)
  CliModel.server_args_ok sa = true -> CliModel.server_config (c_vk_ok c) h sa = Some ss ->
  CliModel.client_args_ok ca = true -> CliModel.client_begin (c_vk_ok c) h' bound true ca given other seek = Some cs ->
  keys_fit c sa ss ca cs -> CliModel.ca_file_key ca = None ->
  (* the request *)
  send_waiting g f0 dz (SFile lid) wc keys ex p0 -> p0 <> UFailed -> asks_with g (CliModel.ss_cfg ss) wc true ex d ->
  (* the local file *)
  let F := f_data f0 lid in blen F <= U64_MAX -> blen F <= CliModel.sa_max_size sa ->
  (* the server and its disk *)
  single_free (dk_srv st0) a d i -> able i ->
  normalize None (CliModel.cl_remote cs) = Some path -> consistent (dk_fs st0) -> create_server_writer (dk_fs st0) fg path = (f', Some id) ->
  listing fg path = false ->
  exists st1 e w k, takes (single_server c sg) c sg fg ds i true st0 a d path st1 (Writes id) e w /\ agrees g wc keys true ex w k /\ 512 <= op_bs (k_opts k) /\
    forall peer early,
      answers_from g wc true ex (fun y => ignored c (c_opts (en_conn e)) (en_key e) (recv_cut sg y)) peer -> repeats g wc true ex peer early ->
      goes_well (disk_turn (single_server c sg) (single_turn c sg a) (minding fg id path programs) a) (dview (single_server c sg)) (send_act g wc keys peer f0) (send_patient wc) send_busy c sg a peer
        (fun W => arrived fg path F W /\ leads (dk_fs (sm_srv W)) fg path = Some id /\
           forall st2, later (fun s => exists now, s = s_init now) (tended (single_server c sg) c sg fg ds id path) (sm_srv W) st2 -> consistent (dk_fs st2) ->
           fetches (single_server c sg) (single_turn c sg) (sparing id programs) single_free (fun _ y => recv_cut sg y) c sa ss ds id path F st2)
        (4 * nblocks F (bs_enc (k_opts k)) + 6 + 2 * N.of_nat (length early)) (e_now (i_env i)) (mkSm st1 [] p0 [w] early).
Proof.
  intros c h sa ss h' bound ca given other seek cs eph hs iv txt f0 dz lid wc keys ex p0 d path ds f' id a st0 i g sg fg HC SA SS CA CB KF FKA SW NF AW F HU HM [SC TK] AB NM CO CR NL.
  assert (MC : 1 <= g_max_conn sg) by (unfold sg; eapply server_bounds; eassumption).
  edestruct (send_disk_more (single_server c sg) (single_turn c sg a) (minding fg id path programs) sready (sole a) (TableOk sg) (scut sg)) as (st1 & e & w & k & TK1 & AG & BS & GW); try eassumption.
  - apply single_tame; [exact MC|]. intros st t st' o H. split; [exact (proj1 H)|exact (proj1 (proj2 H))].
  - apply single_good.
  - apply single_looks; assumption.
  - intros RC. apply single_takes_disk; assumption.
  - intros st t st' o H. exact (proj2 (proj2 H)).
  - exists st1, e, w, k. split; [exact TK1|]. split; [exact AG|]. split; [exact BS|]. intros peer early AF RS. specialize (GW peer early AF RS).
    eapply goes_well_weaken; [|exact GW]. intros ck kk b W _ (AR & LD & FD & IN). split; [exact AR|]. split; [exact LD|].
    intros st2 LT CO2. destruct (later_kept _ _ _ _ _ _ _ _ _ _ _ LT LD FD) as [LD2 FD2].
    intros h2 bound2 ca2 given2 other2 seek2 cs2 eph2 hs2 iv2 txt2 f02 wc2 keys2 ex2 p02 d2 a2 i2 g2 sg2 fg2 CA2 CB2 KF2 FKA2 RW2 NF2 AW2 NM2 [SC2 TK2] AB2 CR2 CW2 HM2.
    pose proof (still_there _ _ _ _ (proj1 CO2) LD2 NL CR2) as CRX. unfold F in *. rewrite <- FD2 in *.
    eapply (receive_disk (single_server c sg) (single_turn c sg a2) (sparing id programs) sready (sole a2) (TableOk sg) (scut sg)); try eassumption.
    + apply single_tame; [exact MC|]. intros st t st' o H. exact H.
    + apply single_good.
    + apply single_looks; assumption.
    + intros RC. apply single_takes_disk; assumption.
Qed.

Print Assumptions sent_then_fetched_multi.
Print Assumptions sent_then_fetched_single.
