(** C82: a file that is written and closed in a synchronised directory arrives on the server under its name below the
    directory, and can be fetched from there. *)
From Verif Require Import Base BaseProofs PacketModel PacketSpec MapperModel ReaderModel ReaderSpec BlockLemmas ConfigModel CryptoModel CryptoSpec CryptoProofs ExtModel PropExt PathModel PathSpec PropPath ConnModel
  ConnSpec ClientModel HandshakeModel HandshakeProofs ClientWaitModel PropHandshake AgreeProofs PropAgree SystemModel ServerModel ServerSpec ServerProofs PropServer WorldModel WorldB WorldC PropWorld
  FsModel FsSpec FsProofs FsServerModel DiskModel DiskSpec DiskProofs DiskB PropDisk StoreSpec StoreProofs RunModel RunSpec RunProofs RunB PropRun SmoothModel SmoothSpec SmoothC PropSmooth WholeSpec PropWhole
  ArriveModel ArriveSpec ArriveProofs PropArrive FetchSpec PropFetch SyncModel PropSync MirrorModel.
From Verif Require CliModel PropCli.

Section Run.
Variable lossy : bytes -> bytes.
Hypothesis HL : lossy_ok lossy.
Variable ds : list bytes.
Hypothesis HD : Forall name_ok ds.
Lemma close_keeps st e n u : nth_error (sy_uploads st) n = Some u ->
  nth_error (sy_uploads (sync_step lossy (absolute ds) false st e)) n = Some u.
Proof.
  intros H. assert (n < length (sy_uploads st))%nat by (apply nth_error_Some; congruence).
  unfold sync_step. destruct e as [|[| |] paths]; try exact H; destruct (get_paths _ _ _) as [[l r]|]; try exact H.
  cbn [sy_uploads]. now rewrite nth_error_app1.
Qed.
Lemma close_run_keeps evs : forall st n u, nth_error (sy_uploads st) n = Some u ->
  nth_error (sy_uploads (fold_left (sync_step lossy (absolute ds) false) evs st)) n = Some u.
Proof. induction evs as [|e evs IH]; intros st n u H; [exact H|]. cbn [fold_left]. apply IH. now apply close_keeps. Qed.
End Run.

(** Every file that was closed after writing has its own upload, with its local name and its name below the directory. *)
Theorem closed_file_uploaded : forall lossy ds before e rs after, lossy_ok lossy -> Forall name_ok ds ->
  Forall reported (before ++ e :: after) -> about KCloseWrite (ds ++ rs) e ->
  nth_error (sy_uploads (sync_run lossy (absolute ds) false (before ++ e :: after))) (length (sy_uploads (sync_run lossy (absolute ds) false before)))
    = Some (mkUp (absolute (ds ++ rs)) (PathSpec.path rs) None).
Proof.
  intros lossy ds before e rs after HL HD R AB. apply Forall_app in R. destruct R as [R1 R2].
  inversion_clear R2 as [|? ? RE RA].
  unfold sync_run. rewrite fold_left_app. cbn [fold_left]. set (s0 := fold_left _ before sync_new).
  apply close_run_keeps.
  pose proof (paths_about lossy HL ds HD KCloseWrite e RE) as P. pose proof AB as (NO & more & E). subst e.
  unfold sync_step. destruct (get_paths _ _ _) as [[l r]|]; [|now destruct (P rs)].
  destruct P as (rs' & A & -> & ->). assert (ER : ds ++ rs' = ds ++ rs) by (eapply about_same; eauto).
  assert (rs' = rs) by (now apply app_inv_head in ER). subst rs'.
  cbn [sy_uploads]. rewrite nth_error_app2, Nat.sub_diag by lia. reflexivity.
Qed.

Lemma begin_remote ok h bound ca u cs : sync_begin ok h bound ca u = Some cs -> CliModel.cl_remote cs = up_remote u /\ CliModel.cl_local cs = up_local u.
Proof.
  unfold sync_begin, CliModel.client_begin. destruct (CliModel.listen_addr h ca); [|discriminate]. destruct bound; [|discriminate]. cbn [negb].
  destruct (level_parse _); [|discriminate]. destruct (CliModel.client_config ok h ca) as [[[[x1 x2] x3] x4]|]; [|discriminate]. intros X. injection X as <-. split; reflexivity.
Qed.

Lemma synced_normal rs : Forall name_ok rs -> rs <> [] -> (forall x, In x rs -> ~ dotty x) -> normalize None (PathSpec.path rs) = Some (PathSpec.path rs).
Proof.
  intros NO NE ND. apply normalize_clean. exists rs. split; [split; [exact NE|]; split; [reflexivity|]|exact ND].
  rewrite Forall_forall in NO. intros c I. now apply NO.
Qed.

(** With the multi threaded server, which may serve other clients at the same time. *)
Theorem synced_file_multi : forall c h sa ss h' bound ca lossy dir before ev rs after u cs eph hs iv txt f0 dz lid wc keys ex p0 d ds f' id a st0 i,
  let g := mkRun c cs eph hs iv txt in let sg := server_of ss in let fg := CliModel.ss_files ss in let name := PathSpec.path rs in
  crypto_ok c ->
  (* the file rs of the directory was closed: its upload *)
  lossy_ok lossy -> Forall name_ok dir -> Forall reported (before ++ ev :: after) -> about KCloseWrite (dir ++ rs) ev ->
  rs <> [] -> (forall x, In x rs -> ~ dotty x) ->
  nth_error (sy_uploads (sync_run lossy (absolute dir) false (before ++ ev :: after))) (length (sy_uploads (sync_run lossy (absolute dir) false before))) = Some u ->
  (* the programs *)
  CliModel.server_args_ok sa = true -> CliModel.server_config (c_vk_ok c) h sa = Some ss ->
  CliModel.client_args_ok ca = true -> sync_begin (c_vk_ok c) h' bound ca u = Some cs ->
  keys_fit c sa ss ca cs -> CliModel.ca_file_key ca = None ->
  (* the request *)
  send_waiting g f0 dz (SFile lid) wc keys ex p0 -> p0 <> UFailed -> asks_with g (CliModel.ss_cfg ss) wc true ex d ->
  (* the local file *)
  create_reader f0 (absolute (dir ++ rs)) = Some (SFile lid) ->
  let F := f_data f0 lid in blen F <= U64_MAX -> blen F <= CliModel.sa_max_size sa ->
  (* the server and its disk *)
  dkreach (multi_server c sg) c sg fg ds (fun m => m = m_init) st0 -> multi_free sg (dk_srv st0) a d i -> able i ->
  consistent (dk_fs st0) -> create_server_writer (dk_fs st0) fg name = (f', Some id) ->
  listing fg name = false ->
  exists st1 e w k, takes (multi_server c sg) c sg fg ds i true st0 a d name st1 (Writes id) e w /\ agrees g wc keys true ex w k /\ 512 <= op_bs (k_opts k) /\
    forall peer early,
      answers_from g wc true ex (fun y => ignored c (c_opts (en_conn e)) (en_key e) (thread_cut e y)) peer -> repeats g wc true ex peer early ->
      goes_well (disk_turn (multi_server c sg) (thread_own c sg a) (minding fg id name (dkany (multi_server c sg) c sg fg ds)) a) (dview (multi_server c sg)) (send_act g wc keys peer f0) (send_patient wc) send_busy c sg a peer
        (fun W => arrived fg name F W /\ leads (dk_fs (sm_srv W)) fg name = Some id /\
           forall st2, later (fun m => m = m_init) (tended (multi_server c sg) c sg fg ds id name) (sm_srv W) st2 -> consistent (dk_fs st2) ->
           fetches (multi_server c sg) (thread_own c sg) (sparing id (dkany (multi_server c sg) c sg fg ds)) (multi_free sg) thread_cut c sa ss ds id name F st2)
        (4 * nblocks F (bs_enc (k_opts k)) + 6 + 2 * N.of_nat (length early)) (e_now (i_env i)) (mkSm st1 [] p0 [w] early).
Proof.
  intros c h sa ss h' bound ca lossy dir before ev rs after u cs eph hs iv txt f0 dz lid wc keys ex p0 d ds f' id a st0 i g sg fg name HC HL HD RP AB NE ND NU SA SS CA CB KF FKA SW NF AW LF F HU HM RD FR ABL CO CR NL.
  rewrite (closed_file_uploaded lossy dir before ev rs after HL HD RP AB) in NU. injection NU as <-.
  destruct (begin_remote _ _ _ _ _ _ CB) as [ER _]. cbn [up_remote] in ER.
  eapply sent_then_fetched_multi; try eassumption. rewrite ER.
  pose proof (proj1 (Forall_app _ _ _) (proj1 AB)) as [_ NO].
  exact (synced_normal rs NO NE ND).
Qed.
(** With the single threaded server. *)
Theorem synced_file_single : forall c h sa ss h' bound ca lossy dir before ev rs after u cs eph hs iv txt f0 dz lid wc keys ex p0 d ds f' id a st0 i,
  let g := mkRun c cs eph hs iv txt in let sg := server_of ss in let fg := CliModel.ss_files ss in let name := PathSpec.path rs in
  crypto_ok c ->
  (* the file rs of the directory was closed: its upload *)
  lossy_ok lossy -> Forall name_ok dir -> Forall reported (before ++ ev :: after) -> about KCloseWrite (dir ++ rs) ev ->
  rs <> [] -> (forall x, In x rs -> ~ dotty x) ->
  nth_error (sy_uploads (sync_run lossy (absolute dir) false (before ++ ev :: after))) (length (sy_uploads (sync_run lossy (absolute dir) false before))) = Some u ->
  (* the programs *)
  CliModel.server_args_ok sa = true -> CliModel.server_config (c_vk_ok c) h sa = Some ss ->
  CliModel.client_args_ok ca = true -> sync_begin (c_vk_ok c) h' bound ca u = Some cs ->
  keys_fit c sa ss ca cs -> CliModel.ca_file_key ca = None ->
  (* the request *)
  send_waiting g f0 dz (SFile lid) wc keys ex p0 -> p0 <> UFailed -> asks_with g (CliModel.ss_cfg ss) wc true ex d ->
  (* the local file *)
  create_reader f0 (absolute (dir ++ rs)) = Some (SFile lid) ->
  let F := f_data f0 lid in blen F <= U64_MAX -> blen F <= CliModel.sa_max_size sa ->
  (* the server and its disk *)
  single_free (dk_srv st0) a d i -> able i ->
  consistent (dk_fs st0) -> create_server_writer (dk_fs st0) fg name = (f', Some id) ->
  listing fg name = false ->
  exists st1 e w k, takes (single_server c sg) c sg fg ds i true st0 a d name st1 (Writes id) e w /\ agrees g wc keys true ex w k /\ 512 <= op_bs (k_opts k) /\
    forall peer early,
      answers_from g wc true ex (fun y => ignored c (c_opts (en_conn e)) (en_key e) (recv_cut sg y)) peer -> repeats g wc true ex peer early ->
      goes_well (disk_turn (single_server c sg) (single_turn c sg a) (minding fg id name programs) a) (dview (single_server c sg)) (send_act g wc keys peer f0) (send_patient wc) send_busy c sg a peer
        (fun W => arrived fg name F W /\ leads (dk_fs (sm_srv W)) fg name = Some id /\
           forall st2, later (fun s => exists now, s = s_init now) (tended (single_server c sg) c sg fg ds id name) (sm_srv W) st2 -> consistent (dk_fs st2) ->
           fetches (single_server c sg) (single_turn c sg) (sparing id programs) single_free (fun _ y => recv_cut sg y) c sa ss ds id name F st2)
        (4 * nblocks F (bs_enc (k_opts k)) + 6 + 2 * N.of_nat (length early)) (e_now (i_env i)) (mkSm st1 [] p0 [w] early).
Proof.
  intros c h sa ss h' bound ca lossy dir before ev rs after u cs eph hs iv txt f0 dz lid wc keys ex p0 d ds f' id a st0 i g sg fg name HC HL HD RP AB NE ND NU SA SS CA CB KF FKA SW NF AW LF F HU HM FR ABL CO CR NL.
  rewrite (closed_file_uploaded lossy dir before ev rs after HL HD RP AB) in NU. injection NU as <-.
  destruct (begin_remote _ _ _ _ _ _ CB) as [ER _]. cbn [up_remote] in ER.
  eapply sent_then_fetched_single; try eassumption. rewrite ER.
  pose proof (proj1 (Forall_app _ _ _) (proj1 AB)) as [_ NO].
  exact (synced_normal rs NO NE ND).
Qed.
Print Assumptions closed_file_uploaded.
Print Assumptions synced_file_multi.
Print Assumptions synced_file_single.
