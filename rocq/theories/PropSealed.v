(** C81: files sent with a file encryption key: from the command lines to the disks, and back. *)
From Verif Require Import Base BaseProofs PacketModel PacketSpec MapperModel ReaderModel ReaderSpec BlockLemmas ConfigModel CryptoModel CryptoSpec CryptoProofs ExtModel PropExt PathModel ConnModel
  ConnSpec ClientModel HandshakeModel HandshakeProofs ClientWaitModel PropHandshake AgreeProofs PropAgree StreamModel StreamSpec PropStream SystemModel ServerModel ServerSpec ServerProofs PropServer WorldModel WorldB WorldC PropWorld
  FsModel FsSpec FsProofs FsServerModel DiskModel DiskSpec DiskProofs DiskB PropDisk StoreSpec StoreProofs RunModel RunSpec RunProofs RunB PropRun SealSpec SmoothModel SmoothSpec SmoothC PropSmooth WholeSpec PropWhole
  ArriveModel ArriveSpec ArriveProofs PropArrive FetchSpec PropFetch SealedSpec.
From Verif Require CliModel PropCli.

Lemma bs_range o : 512 <= op_bs o <= 1425 -> 471 <= bs_enc o <= 1425.
Proof. intros [H1 H2]. unfold bs_enc, ENCRYPTION_TAG_SIZE, ENCRYPTION_NONCE_SIZE, ENCRYPTION_PADDING_SIZE. destruct (op_enc o); lia. Qed.
Lemma counter_fits F bs : 471 <= bs -> blen F + 21 <= 455 * 4294967295 -> (blen F + 21) / (bs - 16) <= 4294967295.
Proof. intros HB HF. apply N.div_le_upper_bound; [lia|]. eapply N.le_trans; [exact HF|]. apply N.mul_le_mono_r. lia. Qed.
Lemma sealed_opens g key iv F bs stored : crypto_ok (ru_c g) -> CliModel.cl_file_key (ru_start g) = Some key -> blen iv = 19 -> 37 <= bs <= 1425 ->
  (blen F + 21) / (bs - 16) <= 4294967295 -> sealed_file (ru_c g) key iv F bs stored -> opens g stored bs F.
Proof.
  intros HC FK HN HB HF SF. unfold opens. rewrite FK.
  destruct (file_encryption_transparent (ru_c g) key iv F bs HC HN HB HF) as (st' & R & (u & U & UO) & _).
  rewrite (reads_same _ _ _ _ _ R _ SF) in U. eauto.
Qed.

(** ** receive *)
(** The multi threaded server, while it serves others, and they and other programs do anything but change the file. *)
Theorem sealed_restored_multi : forall c h sa ss ds id path key iv F bs stored st,
  let sg := server_of ss in let fg := CliModel.ss_files ss in
  crypto_ok c -> CliModel.server_args_ok sa = true -> CliModel.server_config (c_vk_ok c) h sa = Some ss ->
  dkreach (multi_server c sg) c sg fg ds (fun m => m = m_init) st \/ HandlesOk (dk_srv st) ->
  (create_server_reader (dk_fs st) fg path <> None -> create_server_reader (dk_fs st) fg path = Some (SFile id)) -> f_data (dk_fs st) id = stored -> blen stored <= U64_MAX ->
  blen iv = 19 -> blen F + 21 <= 455 * 4294967295 -> sealed_file c key iv F bs stored ->
  restores (multi_server c sg) (thread_own c sg) (sparing id (dkany (multi_server c sg) c sg fg ds)) (multi_free sg) thread_cut c sa ss ds id path key bs stored F st.
Proof.
  intros c h sa ss ds id path key iv F bs stored st sg fg HC SA SS HO CR FD HU HN HF SF.
  assert (HO2 : HandlesOk (dk_srv st)) by (destruct HO as [R|HO]; [exact (multi_reach_ok c sg fg ds st R)|exact HO]). clear HO.
  intros h2 bound2 ca2 given2 other2 seek2 cs2 eph2 hs2 iv2 txt2 f02 wc2 keys2 ex2 p02 d2 a2 i2 g2 sg2 fg2 CA2 CB2 KF2 FK2 RW2 NF2 AW2 NM2 [V2 NFR2] AB2 CR2 CW2 HM2.
  specialize (CR CR2). subst stored.
  edestruct (receive_disk_as (multi_server c sg) (thread_own c sg a2) (sparing id (dkany (multi_server c sg) c sg fg ds)) (fun _ => true) HandlesOk HandlesOk thread_cut) as (st1 & e & w & k & TK1 & AG & BS & GW); try eassumption.
  - apply (multi_tame c sg fg ds). intros s t s' o H. exact H.
  - apply multi_good.
  - apply multi_looks; assumption.
  - intros RC. apply multi_takes_disk; assumption.
  - exists st1, e, w, k. split; [exact TK1|]. split; [exact AG|]. split; [exact (proj1 BS)|]. intros EB. pose proof (bs_range _ BS) as BR. rewrite EB in GW, BR.
    apply (GW F). apply (sealed_opens g2 key iv); [exact HC|exact FK2|exact HN|lia|apply counter_fits; [lia|exact HF]|exact SF].
Qed.
(** The idle single threaded server. *)
Theorem sealed_restored_single : forall c h sa ss ds id path key iv F bs stored st,
  let sg := server_of ss in let fg := CliModel.ss_files ss in
  crypto_ok c -> CliModel.server_args_ok sa = true -> CliModel.server_config (c_vk_ok c) h sa = Some ss ->
  (create_server_reader (dk_fs st) fg path <> None -> create_server_reader (dk_fs st) fg path = Some (SFile id)) -> f_data (dk_fs st) id = stored -> blen stored <= U64_MAX ->
  blen iv = 19 -> blen F + 21 <= 455 * 4294967295 -> sealed_file c key iv F bs stored ->
  restores (single_server c sg) (single_turn c sg) (sparing id programs) single_free (fun _ y => recv_cut sg y) c sa ss ds id path key bs stored F st.
Proof.
  intros c h sa ss ds id path key iv F bs stored st sg fg HC SA SS CR FD HU HN HF SF.
  intros h2 bound2 ca2 given2 other2 seek2 cs2 eph2 hs2 iv2 txt2 f02 wc2 keys2 ex2 p02 d2 a2 i2 g2 sg2 fg2 CA2 CB2 KF2 FK2 RW2 NF2 AW2 NM2 [SC2 TK2] AB2 CR2 CW2 HM2.
  specialize (CR CR2). subst stored. assert (MC : 1 <= g_max_conn sg) by (unfold sg; eapply server_bounds; eassumption).
  edestruct (receive_disk_as (single_server c sg) (single_turn c sg a2) (sparing id programs) sready (sole a2) (TableOk sg) (scut sg)) as (st1 & e & w & k & TK1 & AG & BS & GW); try eassumption.
  - apply single_tame; [exact MC|]. intros s t s' o H. exact H.
  - apply single_good.
  - apply single_looks; assumption.
  - intros RC. apply single_takes_disk; assumption.
  - exists st1, e, w, k. split; [exact TK1|]. split; [exact AG|]. split; [exact (proj1 BS)|]. intros EB. pose proof (bs_range _ BS) as BR. rewrite EB in GW, BR.
    apply (GW F). apply (sealed_opens g2 key iv); [exact HC|exact FK2|exact HN|lia|apply counter_fits; [lia|exact HF]|exact SF].
Qed.

(** ** send *)
(** The programs have been started with fitting command lines, `send` (with a file key) has asked and is waiting, the request reaches the multi threaded
    server.  Then `send` ends well: the server's disk holds, under that path, the sealed file - not the file itself; and from then on, whatever else the server and
    other programs do, unless they change this file or move it away, whoever fetches that path with the same key (and the same block size) gets the file that was
    sent, whoever fetches it without a key gets the sealed one. *)
Theorem sealed_then_restored_multi : forall c h sa ss h' bound ca given other seek cs eph hs iv txt f0 dz lid wc keys ex p0 d path ds f' id a st0 i key,
  let g := mkRun c cs eph hs iv txt in let sg := server_of ss in let fg := CliModel.ss_files ss in
  crypto_ok c ->
  (* the programs *)
  CliModel.server_args_ok sa = true -> CliModel.server_config (c_vk_ok c) h sa = Some ss ->
  CliModel.client_args_ok ca = true -> CliModel.client_begin (c_vk_ok c) h' bound true ca given other seek = Some cs ->
  keys_fit c sa ss ca cs -> CliModel.cl_file_key cs = Some key -> blen iv = 19 ->
  (* the request *)
  send_waiting g f0 dz (SFile lid) wc keys ex p0 -> p0 <> UFailed -> asks_with g (CliModel.ss_cfg ss) wc true ex d ->
  (* the local file *)
  let F := f_data f0 lid in blen F + 21 <= 455 * 4294967295 ->
  (* the server and its disk *)
  dkreach (multi_server c sg) c sg fg ds (fun m => m = m_init) st0 -> multi_free sg (dk_srv st0) a d i -> able i ->
  normalize None (CliModel.cl_remote cs) = Some path -> consistent (dk_fs st0) -> create_server_writer (dk_fs st0) fg path = (f', Some id) ->
  listing fg path = false ->
  exists st1 e w k stored, let bs := bs_enc (k_opts k) in
    takes (multi_server c sg) c sg fg ds i true st0 a d path st1 (Writes id) e w /\ agrees g wc keys true ex w k /\ 512 <= op_bs (k_opts k) /\
    sealed_file c key iv F bs stored /\ blen stored = 21 + blen F + 16 * nblocks stored bs /\
    (blen stored <= U64_MAX -> blen stored <= CliModel.sa_max_size sa -> forall peer early,
      answers_from g wc true ex (fun y => ignored c (c_opts (en_conn e)) (en_key e) (thread_cut e y)) peer -> repeats g wc true ex peer early ->
      goes_well (disk_turn (multi_server c sg) (thread_own c sg a) (minding fg id path (dkany (multi_server c sg) c sg fg ds)) a) (dview (multi_server c sg)) (send_act g wc keys peer f0) (send_patient wc) send_busy c sg a peer
        (fun W => arrived fg path stored W /\ leads (dk_fs (sm_srv W)) fg path = Some id /\
           forall st2, later (fun m => m = m_init) (tended (multi_server c sg) c sg fg ds id path) (sm_srv W) st2 -> consistent (dk_fs st2) ->
             restores (multi_server c sg) (thread_own c sg) (sparing id (dkany (multi_server c sg) c sg fg ds)) (multi_free sg) thread_cut c sa ss ds id path key bs stored F st2 /\
             fetches (multi_server c sg) (thread_own c sg) (sparing id (dkany (multi_server c sg) c sg fg ds)) (multi_free sg) thread_cut c sa ss ds id path stored st2)
        (4 * nblocks stored bs + 6 + 2 * N.of_nat (length early)) (e_now (i_env i)) (mkSm st1 [] p0 [w] early)).
Proof.
  intros c h sa ss h' bound ca given other seek cs eph hs iv txt f0 dz lid wc keys ex p0 d path ds f' id a st0 i key g sg fg HC SA SS CA CB KF FK HN SW NF AW F HF RD [V0 NF0] AB NM CO CR NL.
  assert (MC : 1 <= g_max_conn sg) by (unfold sg; eapply server_bounds; eassumption).
  pose proof (multi_reach_ok c sg fg ds st0 RD) as HO.
  edestruct (send_disk_as (multi_server c sg) (thread_own c sg a) (minding fg id path (dkany (multi_server c sg) c sg fg ds)) (fun _ => true) HandlesOk HandlesOk thread_cut) as (st1 & e & w & k & TK1 & AG & BS & GW); try eassumption.
  - apply (multi_tame c sg fg ds). intros st t st' o H. split; [exact (proj1 H)|exact (proj1 (proj2 H))].
  - apply multi_good.
  - apply multi_looks; assumption.
  - intros RC. apply multi_takes_disk; assumption.
  - intros FKA. exfalso. destruct (PropCli.client_arguments _ _ _ _ _ _ _ _ _ CA CB) as (_ & _ & _ & _ & _ & _ & _ & _ & _ & _ & _ & FK' & _). rewrite FKA in FK'. cbn [PropCli.private_of] in FK'. congruence.
  - intros st t st' o H. exact (proj2 (proj2 H)).
  - set (bs := bs_enc (k_opts k)) in *. pose proof (bs_range _ BS) as BR. fold bs in BR. pose proof (counter_fits F bs (proj1 BR) HF) as HF'.
    destruct (file_encryption_transparent c key iv F bs HC HN ltac:(lia) HF') as (stored & SF & _ & LS & _).
    exists st1, e, w, k, stored. cbn zeta. split; [exact TK1|]. split; [exact AG|]. split; [exact (proj1 BS)|]. split; [exact SF|]. split; [exact LS|].
    intros HU HM peer early AF RS.
    assert (RF : read_as g F bs = stored) by (apply (read_as_stored g key); [exact FK|exact HC|exact HN|lia|exact HF'|exact SF]).
    cbn zeta in GW. fold F in GW. change (mkRun c cs eph hs iv txt) with g in GW. rewrite RF in GW. specialize (GW HM peer early AF RS).
    eapply goes_well_weaken; [|exact GW]. intros ck kk b W _ (AR & LD & FD & IN). split; [exact AR|]. split; [exact LD|].
    intros st2 LT CO2. destruct (later_kept _ _ _ _ _ _ _ _ _ _ _ LT LD FD) as [LD2 FD2]. pose proof (multi_later_ok _ _ _ _ _ _ _ _ LT IN) as HO2.
    split.
    + eapply sealed_restored_multi; try eassumption; [right; exact HO2|]. intros CR2. exact (still_there _ _ _ _ (proj1 CO2) LD2 NL CR2).
    + intros h2 bound2 ca2 given2 other2 seek2 cs2 eph2 hs2 iv2 txt2 f02 wc2 keys2 ex2 p02 d2 a2 i2 g2 sg2 fg2 CA2 CB2 KF2 FKA2 RW2 NF2 AW2 NM2 [V2 NFR2] AB2 CR2 CW2 HM2.
      pose proof (still_there _ _ _ _ (proj1 CO2) LD2 NL CR2) as CRX. rewrite <- FD2 in *.
      eapply (receive_disk (multi_server c sg) (thread_own c sg a2) (sparing id (dkany (multi_server c sg) c sg fg ds)) (fun _ => true) HandlesOk HandlesOk thread_cut); try eassumption.
      * apply (multi_tame c sg fg ds). intros st t st' o H. exact H.
      * apply multi_good.
      * apply multi_looks; assumption.
      * intros RC. apply multi_takes_disk; assumption.
Qed.
(** The single threaded server, which serves them one after the other (and nobody else meanwhile). *)
Theorem sealed_then_restored_single : forall c h sa ss h' bound ca given other seek cs eph hs iv txt f0 dz lid wc keys ex p0 d path ds f' id a st0 i key,
  let g := mkRun c cs eph hs iv txt in let sg := server_of ss in let fg := CliModel.ss_files ss in
  crypto_ok c ->
  (* the programs *)
  CliModel.server_args_ok sa = true -> CliModel.server_config (c_vk_ok c) h sa = Some ss ->
  CliModel.client_args_ok ca = true -> CliModel.client_begin (c_vk_ok c) h' bound true ca given other seek = Some cs ->
  keys_fit c sa ss ca cs -> CliModel.cl_file_key cs = Some key -> blen iv = 19 ->
  (* the request *)
  send_waiting g f0 dz (SFile lid) wc keys ex p0 -> p0 <> UFailed -> asks_with g (CliModel.ss_cfg ss) wc true ex d ->
  (* the local file *)
  let F := f_data f0 lid in blen F + 21 <= 455 * 4294967295 ->
  (* the server and its disk *)
  single_free (dk_srv st0) a d i -> able i ->
  normalize None (CliModel.cl_remote cs) = Some path -> consistent (dk_fs st0) -> create_server_writer (dk_fs st0) fg path = (f', Some id) ->
  listing fg path = false ->
  exists st1 e w k stored, let bs := bs_enc (k_opts k) in
    takes (single_server c sg) c sg fg ds i true st0 a d path st1 (Writes id) e w /\ agrees g wc keys true ex w k /\ 512 <= op_bs (k_opts k) /\
    sealed_file c key iv F bs stored /\ blen stored = 21 + blen F + 16 * nblocks stored bs /\
    (blen stored <= U64_MAX -> blen stored <= CliModel.sa_max_size sa -> forall peer early,
      answers_from g wc true ex (fun y => ignored c (c_opts (en_conn e)) (en_key e) (recv_cut sg y)) peer -> repeats g wc true ex peer early ->
      goes_well (disk_turn (single_server c sg) (single_turn c sg a) (minding fg id path programs) a) (dview (single_server c sg)) (send_act g wc keys peer f0) (send_patient wc) send_busy c sg a peer
        (fun W => arrived fg path stored W /\ leads (dk_fs (sm_srv W)) fg path = Some id /\
           forall st2, later (fun s => exists now, s = s_init now) (tended (single_server c sg) c sg fg ds id path) (sm_srv W) st2 -> consistent (dk_fs st2) ->
             restores (single_server c sg) (single_turn c sg) (sparing id programs) single_free (fun _ y => recv_cut sg y) c sa ss ds id path key bs stored F st2 /\
             fetches (single_server c sg) (single_turn c sg) (sparing id programs) single_free (fun _ y => recv_cut sg y) c sa ss ds id path stored st2)
        (4 * nblocks stored bs + 6 + 2 * N.of_nat (length early)) (e_now (i_env i)) (mkSm st1 [] p0 [w] early)).
Proof.
  intros c h sa ss h' bound ca given other seek cs eph hs iv txt f0 dz lid wc keys ex p0 d path ds f' id a st0 i key g sg fg HC SA SS CA CB KF FK HN SW NF AW F HF [SC TK] AB NM CO CR NL.
  assert (MC : 1 <= g_max_conn sg) by (unfold sg; eapply server_bounds; eassumption).
  edestruct (send_disk_as (single_server c sg) (single_turn c sg a) (minding fg id path programs) sready (sole a) (TableOk sg) (scut sg)) as (st1 & e & w & k & TK1 & AG & BS & GW); try eassumption.
  - apply single_tame; [exact MC|]. intros st t st' o H. split; [exact (proj1 H)|exact (proj1 (proj2 H))].
  - apply single_good.
  - apply single_looks; assumption.
  - intros RC. apply single_takes_disk; assumption.
  - intros FKA. exfalso. destruct (PropCli.client_arguments _ _ _ _ _ _ _ _ _ CA CB) as (_ & _ & _ & _ & _ & _ & _ & _ & _ & _ & _ & FK' & _). rewrite FKA in FK'. cbn [PropCli.private_of] in FK'. congruence.
  - intros st t st' o H. exact (proj2 (proj2 H)).
  - set (bs := bs_enc (k_opts k)) in *. pose proof (bs_range _ BS) as BR. fold bs in BR. pose proof (counter_fits F bs (proj1 BR) HF) as HF'.
    destruct (file_encryption_transparent c key iv F bs HC HN ltac:(lia) HF') as (stored & SF & _ & LS & _).
    exists st1, e, w, k, stored. cbn zeta. split; [exact TK1|]. split; [exact AG|]. split; [exact (proj1 BS)|]. split; [exact SF|]. split; [exact LS|].
    intros HU HM peer early AF RS.
    assert (RF : read_as g F bs = stored) by (apply (read_as_stored g key); [exact FK|exact HC|exact HN|lia|exact HF'|exact SF]).
    cbn zeta in GW. fold F in GW. change (mkRun c cs eph hs iv txt) with g in GW. rewrite RF in GW. specialize (GW HM peer early AF RS).
    eapply goes_well_weaken; [|exact GW]. intros ck kk b W _ (AR & LD & FD & IN). split; [exact AR|]. split; [exact LD|].
    intros st2 LT CO2. destruct (later_kept _ _ _ _ _ _ _ _ _ _ _ LT LD FD) as [LD2 FD2].
    split.
    + eapply sealed_restored_single; try eassumption. intros CR2. exact (still_there _ _ _ _ (proj1 CO2) LD2 NL CR2).
    + intros h2 bound2 ca2 given2 other2 seek2 cs2 eph2 hs2 iv2 txt2 f02 wc2 keys2 ex2 p02 d2 a2 i2 g2 sg2 fg2 CA2 CB2 KF2 FKA2 RW2 NF2 AW2 NM2 [SC2 TK2] AB2 CR2 CW2 HM2.
      pose proof (still_there _ _ _ _ (proj1 CO2) LD2 NL CR2) as CRX. rewrite <- FD2 in *.
      eapply (receive_disk (single_server c sg) (single_turn c sg a2) (sparing id programs) sready (sole a2) (TableOk sg) (scut sg)); try eassumption.
      * apply single_tame; [exact MC|]. intros st t st' o H. exact H.
      * apply single_good.
      * apply single_looks; assumption.
      * intros RC. apply single_takes_disk; assumption.
Qed.

Print Assumptions sealed_restored_multi.
Print Assumptions sealed_restored_single.
Print Assumptions sealed_then_restored_multi.
Print Assumptions sealed_then_restored_single.
