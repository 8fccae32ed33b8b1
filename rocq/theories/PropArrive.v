(** C79: from the two command lines to the disks: the file that `receive` stores is the one on the server's disk, the file
    that `send` read is on the server's disk when it ends. *)
From Verif Require Import Base BaseProofs PacketModel PacketSpec MapperModel ReaderModel ReaderSpec BlockLemmas ConfigModel CryptoModel CryptoSpec CryptoProofs ExtModel PropExt PathModel ConnModel
  ConnSpec ClientModel HandshakeModel HandshakeProofs ClientWaitModel PropHandshake AgreeProofs PropAgree SystemModel ServerModel ServerSpec ServerProofs PropServer WorldModel WorldB WorldC PropWorld
  FsModel FsSpec FsProofs FsServerModel DiskModel DiskSpec DiskProofs DiskB PropDisk StoreSpec StoreProofs RunModel RunSpec RunProofs RunB PropRun SealSpec SmoothModel SmoothSpec SmoothC PropSmooth WholeSpec PropWhole
  ArriveModel ArriveSpec ArriveProofs.
From Verif Require CliModel PropCli.

Lemma goes_well_weaken {S P} turn view act patient busy c sg a peer (good1 good2 : smooth S P -> Prop) bound now W0 :
  (forall ck k b W, turns turn view act patient busy c sg a peer ck W0 k b W -> good1 W -> good2 W) ->
  goes_well turn view act patient busy c sg a peer good1 bound now W0 -> goes_well turn view act patient busy c sg a peer good2 bound now W0.
Proof.
  intros H [G1 (k & b & W & T & G2)]. split.
  - intros ck k1 b1 W1 T1. destruct (G1 ck k1 b1 W1 T1) as [B [C|C]]; split; auto. left. eapply H; eassumption.
  - exists k, b, W. split; [exact T|]. eapply H; eassumption.
Qed.

Section G.
Context {S : Type} (sv : server S) (own : N -> option bytes -> S -> bool -> S -> outs -> Prop) (step : disk S -> took -> disk S -> outs -> Prop).
Variables (ready : S -> bool) (Inv GInv : S -> Prop) (cut : entry -> bytes -> bytes).
Variables (c : crypto) (h : CliModel.host) (sa : CliModel.server_args) (ss : CliModel.server_start) (h' : CliModel.host) (bound : bool) (ca : CliModel.client_args)
  (given : bytes) (other : option bytes) (seek : bool) (cs : CliModel.client_start) (eph hs iv : bytes) (txt : list ext -> bytes).
Variables (f0 : fs) (wc : wcfg) (keys : option client_keys) (ex : exts) (d path : bytes) (ds id : N) (a : addr) (st0 : disk S) (i : input).
Notation g := (mkRun c cs eph hs iv txt).
Notation sg := (server_of ss).
Notation fg := (CliModel.ss_files ss).
Hypothesis TM : tame sv own step ready Inv c sg a cut id.
Hypothesis GD : good c sg sv GInv cut.
Hypothesis LK : sv_looked sv (dk_srv st0) a = true.
Hypothesis TK : recv_cut sg d = d -> forall q data x w, server_new c (g_cfg sg) (i_henv (with_files i q data)) (i_av i) d = SAccepted x (Some w) ->
  exists s1 o, sv_main sv (loaded sv st0) a d (with_files i q data) s1 o /\ sent_to a o = [OWire w] /\ sv_view sv s1 a = Some (new_entry x (e_now (i_env i)) (fun _ => data)) /\ Inv s1.
Hypothesis HC : crypto_ok c.
Hypothesis SA : CliModel.server_args_ok sa = true.
Hypothesis SS : CliModel.server_config (c_vk_ok c) h sa = Some ss.
Hypothesis CA : CliModel.client_args_ok ca = true.
Hypothesis KF : keys_fit c sa ss ca cs.
Hypothesis AB : able i.
Hypothesis NM : normalize None (CliModel.cl_remote cs) = Some path.

Lemma receive_disk_as p0 : CliModel.client_begin (c_vk_ok c) h' bound false ca given other seek = Some cs ->
  receive_waiting g f0 wc keys ex p0 -> rp_ph p0 <> RFailed -> asks_with g (CliModel.ss_cfg ss) wc false ex d ->
  create_server_reader (dk_fs st0) fg path = Some (SFile id) ->
  let F := f_data (dk_fs st0) id in
  blen F <= U64_MAX -> (exists f1 lid, create_writer f0 (CliModel.cl_local cs) = (f1, Some lid)) -> blen F <= CliModel.ca_max_size ca ->
  exists st1 e w k, takes sv c sg fg ds i false st0 a d path st1 (Reads (SFile id)) e w /\ agrees g wc keys false ex w k /\ 512 <= op_bs (k_opts k) <= 1425 /\
    forall D, opens g F (bs_enc (k_opts k)) D -> forall peer early,
      answers_from g wc false ex (fun y => ignored c (c_opts (en_conn e)) (en_key e) (cut e y)) peer -> repeats g wc false ex peer early ->
      goes_well (disk_turn sv own step a) (dview sv) (receive_act g wc keys peer) (receive_patient wc) receive_busy c sg a peer
        (fun W => unsealed g F D (sm_prog W)) (4 * nblocks F (bs_enc (k_opts k)) + 6 + 2 * N.of_nat (length early)) (e_now (i_env i)) (mkSm st1 [] p0 [w] early).
Proof.
  intros CB RW NF AW CR F HU CW HM. destruct AB as (I1 & I2 & I3 & I4).
  pose proof (fits c h sa ss h' bound false ca given other seek cs SA SS CA CB KF None ltac:(discriminate)) as CP. cbv iota in CP.
  assert (B : 512 <= sc_max_bs (g_cfg sg) /\ 1 <= sc_max_window (g_cfg sg) <= 1000 /\ 1 <= g_max_conn sg /\ g_max_size sg = CliModel.sa_max_size sa) by (eapply server_bounds; eassumption). destruct B as (B1 & B2 & B3 & B4).
  destruct (PropCli.client_arguments _ _ _ _ _ _ _ _ _ CA CB) as (_ & _ & _ & _ & OS & _ & MX & _).
  assert (RA : run_ask g false (ru_opts g) = Some (wc, keys, ex)) by exact (proj1 RW).
  set (i' := with_files i (Some (Some (blen F))) F).
  destruct (granted g (CliModel.ss_cfg ss) false (ru_opts g) wc keys ex d (i_henv i') (i_av i') path (Some (blen F)) HC CP) as (x & w & k & SN & EP & EW & AG & KM & KW & KB & KZ);
    [right; change (ru_opts g) with (CliModel.cl_opts cs); rewrite OS; discriminate|exact RA|exact AW|exact NM|reflexivity|discriminate|intros n [= <-]; exact HU|exact I1|exact I2|exact I3|exact I4|].
  pose proof AW as (RQ & GS & UN & SR).
  assert (RC : recv_cut sg d = d) by exact (proj2 (receive_size _ _ SR)).
  destruct (TK RC _ _ x w SN) as (s1 & o & E & SO & V1 & IV).
  destruct (accept_opts _ _ _ _ _ _ _ SN B1 (proj1 B2)) as ((O1 & O2) & O3 & O4). rewrite EW in O4. destruct O4 as (kd & O4 & _).
  pose proof (accept_window _ _ _ _ _ _ _ SN) as WX. set (e := new_entry x (e_now (i_env i)) (fun _ => F)) in *.
  assert (EWK : exists r, en_work e = WRead F r) by (unfold e, new_entry; cbn [en_work]; rewrite O4; eauto). destruct EWK as [r EWK].
  assert (FR : file_request c (CliModel.ss_cfg ss) (h_eph (i_henv i)) d = Some (false, path)).
  { rewrite (accepted_request _ _ _ _ _ _ _ SN : file_request c _ (h_eph (i_henv i)) d = _), EW, EP. reflexivity. }
  set (st1 := mkDk s1 (dk_fs st0) (still_open sv s1 (fun b => if b =? a then Some (Reads (SFile id)) else dk_open st0 b))).
  assert (D1 : DI sv Inv a id st1).
  { split; [exact IV|]. cbn [dk_srv dk_open dk_fs st1]. intros e1 X. rewrite V1 in X. injection X as <-. rewrite EWK. unfold still_open. rewrite V1, N.eqb_refl. split; reflexivity. }
  assert (VD : dview sv st1 a = Some e) by (rewrite (DI_view _ _ _ _ _ _ _ _ _ _ TM _ D1); exact V1).
  exists st1, e, w, k. split.
  { exists (dk_fs st0), (Some (Some (blen F))), s1, o. split; [exact LK|]. rewrite RC. split; [exact FR|].
    split; [unfold open_request; change (g_cfg sg) with (CliModel.ss_cfg ss); rewrite FR, CR; reflexivity|]. split; [exact E|]. split; [exact SO|]. split; [exact V1|reflexivity]. }
  split; [exact AG|].
  assert (US : understood g wc (g_cfg sg) d) by (split; [exact GS|split; [exact (proj1 KF)|split; [exact UN|exact SR]]]).
  split; [rewrite KB; split; [exact O1|]; eapply N.le_trans; [exact O2|]; destruct (PropCli.server_arguments _ _ _ _ SA SS) as ((Z1 & Z2) & _); change (sc_max_bs (CliModel.ss_cfg ss) <= 1425); rewrite Z2; lia|].
  intros D OP peer early AF RS. destruct (gd_cut _ _ _ _ _ GD x O2) as (L & HL & HCUT).
  rewrite <- RC in SN.
  apply (receive_generic (disk_turn sv own step a) (dview sv) (fun st => ready (dk_srv st)) (DI sv Inv a id) g sg a cut (disk_regular sv own step ready Inv c sg a cut id TM)
    (i_henv i') (i_av i') d w x (e_now (i_env i)) (fun _ => F) st1 L k wc keys ex peer e HC B1 (proj1 B2) SN eq_refl D1 VD HL HCUT I3) with (f0 := f0) (r := r) (D := D); try assumption.
  - intros p n [= <-]. exact HU.
  - rewrite KM. change (CliModel.cl_max_size (ru_start g)) with (CliModel.cl_max_size cs). rewrite MX. exact HM.
  - rewrite (KZ OS eq_refl _ eq_refl). rewrite KM. change (CliModel.cl_max_size (ru_start g)) with (CliModel.cl_max_size cs). rewrite MX. exact HM.
  - right. rewrite KW. change (sc_max_window (g_cfg sg)) with (sc_max_window (CliModel.ss_cfg ss)) in B2. lia.
Qed.
Lemma receive_disk p0 : CliModel.ca_file_key ca = None -> CliModel.client_begin (c_vk_ok c) h' bound false ca given other seek = Some cs ->
  receive_waiting g f0 wc keys ex p0 -> rp_ph p0 <> RFailed -> asks_with g (CliModel.ss_cfg ss) wc false ex d ->
  create_server_reader (dk_fs st0) fg path = Some (SFile id) ->
  let F := f_data (dk_fs st0) id in
  blen F <= U64_MAX -> (exists f1 lid, create_writer f0 (CliModel.cl_local cs) = (f1, Some lid)) -> blen F <= CliModel.ca_max_size ca ->
  exists st1 e w k, takes sv c sg fg ds i false st0 a d path st1 (Reads (SFile id)) e w /\ agrees g wc keys false ex w k /\ 512 <= op_bs (k_opts k) /\
    forall peer early,
      answers_from g wc false ex (fun y => ignored c (c_opts (en_conn e)) (en_key e) (cut e y)) peer -> repeats g wc false ex peer early ->
      goes_well (disk_turn sv own step a) (dview sv) (receive_act g wc keys peer) (receive_patient wc) receive_busy c sg a peer
        (fun W => received g F (sm_prog W)) (4 * nblocks F (bs_enc (k_opts k)) + 6 + 2 * N.of_nat (length early)) (e_now (i_env i)) (mkSm st1 [] p0 [w] early).
Proof.
  intros FKA CB RW NF AW CR F HU CW HM.
  destruct (receive_disk_as p0 CB RW NF AW CR HU CW HM) as (st1 & e & w & k & TK1 & AG & BS & GW). exists st1, e, w, k. split; [exact TK1|]. split; [exact AG|]. split; [exact (proj1 BS)|].
  destruct (PropCli.client_arguments _ _ _ _ _ _ _ _ _ CA CB) as (_ & _ & _ & _ & _ & _ & _ & _ & _ & _ & _ & FK & _). rewrite FKA in FK.
  apply (GW F). unfold opens. change (CliModel.cl_file_key (ru_start g)) with (CliModel.cl_file_key cs). cbn [PropCli.private_of] in FK. rewrite FK. reflexivity.
Qed.

Lemma send_disk_as dz lid p0 f' : CliModel.client_begin (c_vk_ok c) h' bound true ca given other seek = Some cs ->
  send_waiting g f0 dz (SFile lid) wc keys ex p0 -> p0 <> UFailed -> asks_with g (CliModel.ss_cfg ss) wc true ex d ->
  let O := f_data f0 lid in (CliModel.ca_file_key ca = None -> blen O <= U64_MAX /\ blen O <= CliModel.sa_max_size sa) ->
  consistent (dk_fs st0) -> create_server_writer (dk_fs st0) fg path = (f', Some id) ->
  (forall st t st' o, step st t st' o -> leads (dk_fs st') fg path = leads (dk_fs st) fg path) ->
  exists st1 e w k, takes sv c sg fg ds i true st0 a d path st1 (Writes id) e w /\ agrees g wc keys true ex w k /\ 512 <= op_bs (k_opts k) <= 1425 /\
    let F := read_as g O (bs_enc (k_opts k)) in blen F <= CliModel.sa_max_size sa -> forall peer early,
      answers_from g wc true ex (fun y => ignored c (c_opts (en_conn e)) (en_key e) (cut e y)) peer -> repeats g wc true ex peer early ->
      goes_well (disk_turn sv own step a) (dview sv) (send_act g wc keys peer f0) (send_patient wc) send_busy c sg a peer
        (fun W => arrived fg path F W /\ leads (dk_fs (sm_srv W)) fg path = Some id /\ f_data (dk_fs (sm_srv W)) id = F /\ Inv (dk_srv (sm_srv W))) (4 * nblocks F (bs_enc (k_opts k)) + 6 + 2 * N.of_nat (length early)) (e_now (i_env i)) (mkSm st1 [] p0 [w] early).
Proof.
  intros CB SW NF AW O HUM CO CR LS. destruct AB as (I1 & I2 & I3 & I4).
  assert (B : 512 <= sc_max_bs (g_cfg sg) /\ 1 <= sc_max_window (g_cfg sg) <= 1000 /\ 1 <= g_max_conn sg /\ g_max_size sg = CliModel.sa_max_size sa) by (eapply server_bounds; eassumption). destruct B as (B1 & B2 & B3 & B4).
  destruct (asked c h sa ss h' bound true ca given other seek cs eph hs iv txt SA SS CA CB KF f0 dz lid wc keys ex p0 eq_refl SW HUM) as (o' & CP & RA).
  destruct (writer_new_file _ _ _ _ _ CR) as [DE _]. pose proof (writer_leads _ _ _ _ _ (proj1 CO) CR) as LD.
  set (i' := with_files i (Some None) []).
  destruct (granted g (CliModel.ss_cfg ss) true o' wc keys ex d (i_henv i') (i_av i') path None HC CP) as (x & w & k & SN & EP & EW & AG & KM & KW & KB & _);
    [left; reflexivity|exact RA|exact AW|exact NM|reflexivity|discriminate|discriminate|exact I1|exact I2|exact I3|exact I4|].
  pose proof AW as (RQ & GS & UN & SR).
  assert (RC : recv_cut sg d = d) by exact (proj2 (receive_size _ _ SR)).
  destruct (TK RC _ _ x w SN) as (s1 & o & E & SO & V1 & IV).
  destruct (accept_opts _ _ _ _ _ _ _ SN B1 (proj1 B2)) as ((O1 & O2) & O3 & O4). rewrite EW in O4.
  pose proof (accept_window _ _ _ _ _ _ _ SN) as WX. set (e := new_entry x (e_now (i_env i)) (fun _ => [])) in *.
  assert (EWK : en_work e = WWrite (es_path x) writer_new) by (unfold e, new_entry; cbn [en_work]; rewrite O4; reflexivity).
  assert (FR : file_request c (CliModel.ss_cfg ss) (h_eph (i_henv i)) d = Some (true, path)).
  { rewrite (accepted_request _ _ _ _ _ _ _ SN : file_request c _ (h_eph (i_henv i)) d = _), EW, EP. reflexivity. }
  set (st1 := mkDk s1 f' (still_open sv s1 (fun b => if b =? a then Some (Writes id) else dk_open st0 b))).
  assert (D1 : DI sv Inv a id st1).
  { split; [exact IV|]. cbn [dk_srv dk_open dk_fs st1]. intros e1 X. rewrite V1 in X. injection X as <-. rewrite EWK. unfold still_open. rewrite V1, N.eqb_refl. split; [reflexivity|exact DE]. }
  assert (VD : dview sv st1 a = Some e) by (rewrite (DI_view _ _ _ _ _ _ _ _ _ _ TM _ D1); exact V1).
  exists st1, e, w, k. split.
  { exists f', (Some None), s1, o. split; [exact LK|]. rewrite RC. split; [exact FR|].
    split; [unfold open_request; change (g_cfg sg) with (CliModel.ss_cfg ss); rewrite FR, CR; reflexivity|]. split; [cbn [content]; rewrite DE; exact E|]. split; [exact SO|]. split; [exact V1|reflexivity]. }
  split; [exact AG|].
  assert (US : understood g wc (g_cfg sg) d) by (split; [exact GS|split; [exact (proj1 KF)|split; [exact UN|exact SR]]]).
  split; [rewrite KB; split; [exact O1|]; eapply N.le_trans; [exact O2|]; destruct (PropCli.server_arguments _ _ _ _ SA SS) as ((Z1 & Z2) & _); change (sc_max_bs (CliModel.ss_cfg ss) <= 1425); rewrite Z2; lia|].
  intros F HM peer early AF RS. destruct (gd_cut _ _ _ _ _ GD x O2) as (L & HL & HCUT).
  rewrite <- RC in SN.
  apply (goes_well_weaken _ _ _ _ _ _ _ _ _ (delivered F)).
  { intros ck kk b W T (total & key & E1 & E2 & E3).
    destruct (run_kept sv own step ready Inv c sg a cut id TM _ _ _ _ _ _ _ _ _ T D1) as [[DI1 _] KD]; [exact DE|].
    assert (LL : leads (dk_fs (sm_srv W)) fg path = Some id) by (rewrite (run_leads sv own step c sg a _ _ _ _ _ _ _ _ _ fg path LS T); exact LD).
    rewrite E3 in KD. split; [split; [exists total, key; auto|exists id; auto]|auto]. }
  apply (send_generic (disk_turn sv own step a) (dview sv) (fun st => ready (dk_srv st)) (DI sv Inv a id) g sg a cut (disk_regular sv own step ready Inv c sg a cut id TM)
    (i_henv i') (i_av i') d w x (e_now (i_env i)) (fun _ => []) st1 L k wc keys ex peer e HC B1 (proj1 B2) SN eq_refl D1 VD HL HCUT I3) with (f0 := f0) (ds := dz) (src := SFile lid) (path := es_path x) (wr := writer_new); try assumption.
  - intros p n [=].
  - discriminate.
  - cbn [content]. rewrite B4. exact HM.
  - right. rewrite KW. change (sc_max_window (g_cfg sg)) with (sc_max_window (CliModel.ss_cfg ss)) in B2. lia.
Qed.
Lemma send_disk_more dz lid p0 f' : CliModel.ca_file_key ca = None -> CliModel.client_begin (c_vk_ok c) h' bound true ca given other seek = Some cs ->
  send_waiting g f0 dz (SFile lid) wc keys ex p0 -> p0 <> UFailed -> asks_with g (CliModel.ss_cfg ss) wc true ex d ->
  let F := f_data f0 lid in blen F <= U64_MAX -> blen F <= CliModel.sa_max_size sa ->
  consistent (dk_fs st0) -> create_server_writer (dk_fs st0) fg path = (f', Some id) ->
  (forall st t st' o, step st t st' o -> leads (dk_fs st') fg path = leads (dk_fs st) fg path) ->
  exists st1 e w k, takes sv c sg fg ds i true st0 a d path st1 (Writes id) e w /\ agrees g wc keys true ex w k /\ 512 <= op_bs (k_opts k) /\
    forall peer early,
      answers_from g wc true ex (fun y => ignored c (c_opts (en_conn e)) (en_key e) (cut e y)) peer -> repeats g wc true ex peer early ->
      goes_well (disk_turn sv own step a) (dview sv) (send_act g wc keys peer f0) (send_patient wc) send_busy c sg a peer
        (fun W => arrived fg path F W /\ leads (dk_fs (sm_srv W)) fg path = Some id /\ f_data (dk_fs (sm_srv W)) id = F /\ Inv (dk_srv (sm_srv W))) (4 * nblocks F (bs_enc (k_opts k)) + 6 + 2 * N.of_nat (length early)) (e_now (i_env i)) (mkSm st1 [] p0 [w] early).
Proof.
  intros FKA CB SW NF AW F HU HM CO CR LS.
  destruct (send_disk_as dz lid p0 f' CB SW NF AW (fun _ => conj HU HM) CO CR LS) as (st1 & e & w & k & TK1 & AG & BS & GW). exists st1, e, w, k. split; [exact TK1|]. split; [exact AG|]. split; [exact (proj1 BS)|].
  destruct (PropCli.client_arguments _ _ _ _ _ _ _ _ _ CA CB) as (_ & _ & _ & _ & _ & _ & _ & _ & _ & _ & _ & FK & _). rewrite FKA in FK.
  assert (RF : read_as g (f_data f0 lid) (bs_enc (k_opts k)) = F) by (unfold read_as; change (CliModel.cl_file_key (ru_start g)) with (CliModel.cl_file_key cs); cbn [PropCli.private_of] in FK; rewrite FK; reflexivity).
  cbn zeta in GW. rewrite RF in GW. exact (GW HM).
Qed.
Lemma send_disk dz lid p0 f' : CliModel.ca_file_key ca = None -> CliModel.client_begin (c_vk_ok c) h' bound true ca given other seek = Some cs ->
  send_waiting g f0 dz (SFile lid) wc keys ex p0 -> p0 <> UFailed -> asks_with g (CliModel.ss_cfg ss) wc true ex d ->
  let F := f_data f0 lid in blen F <= U64_MAX -> blen F <= CliModel.sa_max_size sa ->
  consistent (dk_fs st0) -> create_server_writer (dk_fs st0) fg path = (f', Some id) ->
  (forall st t st' o, step st t st' o -> leads (dk_fs st') fg path = leads (dk_fs st) fg path) ->
  exists st1 e w k, takes sv c sg fg ds i true st0 a d path st1 (Writes id) e w /\ agrees g wc keys true ex w k /\ 512 <= op_bs (k_opts k) /\
    forall peer early,
      answers_from g wc true ex (fun y => ignored c (c_opts (en_conn e)) (en_key e) (cut e y)) peer -> repeats g wc true ex peer early ->
      goes_well (disk_turn sv own step a) (dview sv) (send_act g wc keys peer f0) (send_patient wc) send_busy c sg a peer
        (arrived fg path F) (4 * nblocks F (bs_enc (k_opts k)) + 6 + 2 * N.of_nat (length early)) (e_now (i_env i)) (mkSm st1 [] p0 [w] early).
Proof.
  intros FKA CB SW NF AW F HU HM CO CR LS.
  destruct (send_disk_more dz lid p0 f' FKA CB SW NF AW HU HM CO CR LS) as (st1 & e & w & k & TK1 & AG & BS & GW). exists st1, e, w, k.
  split; [exact TK1|]. split; [exact AG|]. split; [exact BS|]. intros peer early AF RS. specialize (GW peer early AF RS).
  eapply goes_well_weaken; [|exact GW]. intros ck kk b W _ [X _]. exact X.
Qed.
End G.

(** The servers take the request. *)
Lemma single_takes_disk c sg (st0 : disk sstate) i a d : s_clients (dk_srv st0) = [] -> taken (dk_srv st0) i = TookMain a d -> 1 <= g_max_conn sg -> recv_cut sg d = d ->
  forall q data x w, server_new c (g_cfg sg) (i_henv (with_files i q data)) (i_av i) d = SAccepted x (Some w) ->
  exists s1 o, sv_main (single_server c sg) (loaded (single_server c sg) st0) a d (with_files i q data) s1 o /\ sent_to a o = [OWire w] /\
    sview s1 a = Some (new_entry x (e_now (i_env i)) (fun _ => data)) /\ sole a s1.
Proof.
  intros SC TK MC RC q data x w SN. set (s := loaded (single_server c sg) st0).
  assert (SC' : s_clients s = []) by (unfold s, loaded; cbn [single_server sv_load s_clients]; rewrite SC; reflexivity).
  assert (TK' : taken s (with_files i q data) = TookMain a d).
  { unfold taken in *. rewrite SC'. rewrite SC in TK. exact TK. }
  destruct (single_takes c sg s (with_files i q data) a d x w SC' TK' MC RC SN) as (s1 & o & E & SO & V). exists s1, o.
  split; [split; [exact TK'|exact E]|]. split; [exact SO|]. split; [exact V|]. eapply accept_sole; eassumption.
Qed.
Lemma live_load fl hs : length (filter (fun y => th_live (snd y)) (load_handles fl hs)) = length (filter (fun y => th_live (snd y)) hs).
Proof. induction hs as [|[b [[] e]] hs IH]; cbn; [reflexivity|f_equal; exact IH|exact IH]. Qed.
Lemma multi_takes_disk c sg (st0 : disk mstate) i a d : HandlesOk (dk_srv st0) -> mview (dk_srv st0) a = None ->
  N.of_nat (length (filter (fun y => th_live (snd y)) (m_handles (dk_srv st0)))) < g_max_conn sg -> recv_cut sg d = d ->
  forall q data x w, server_new c (g_cfg sg) (i_henv (with_files i q data)) (i_av i) d = SAccepted x (Some w) ->
  exists m1 o, sv_main (multi_server c sg) (loaded (multi_server c sg) st0) a d (with_files i q data) m1 o /\ sent_to a o = [OWire w] /\
    mview m1 a = Some (new_entry x (e_now (i_env i)) (fun _ => data)) /\ HandlesOk m1.
Proof.
  intros HO V0 MC RC q data x w SN. set (m := loaded (multi_server c sg) st0).
  assert (HO' : HandlesOk m) by (apply (gd_load _ _ _ _ _ (multi_good c sg)); exact HO).
  assert (V0' : mview m a = None).
  { unfold m, loaded. etransitivity; [exact (gd_view _ _ _ _ _ (multi_good c sg) (fun b => content (dk_fs st0) (dk_open st0 b)) (dk_srv st0) a)|]. cbn [multi_server sv_view]. rewrite V0. reflexivity. }
  destruct (multi_takes c sg m (with_files i q data) a d x w HO' V0') as (m1 & o & E & SO & V); [|exact RC|exact SN|].
  { unfold m, loaded. cbn [multi_server sv_load m_handles]. rewrite live_load. exact MC. }
  exists m1, o. split; [exact E|]. split; [exact SO|]. split; [exact V|].
  eapply mphase_ok; [exact HO'|]. exact (mp_main c sg m (MData a d) (with_files i q data) m1 o E).
Qed.
Lemma multi_reach_ok c sg fg ds st : dkreach (multi_server c sg) c sg fg ds (fun m => m = m_init) st -> HandlesOk (dk_srv st).
Proof.
  intros R. destruct (reach_inv c sg fg ds _ _ (fun m => m = m_init) _ _ (multi_good c sg)) with (st := st) as [H _]; [|exact R|exact H].
  intros s ->. split; [apply (mpreach_ok c sg); constructor|reflexivity].
Qed.
Lemma single_looks c sg (st0 : disk sstate) a : s_clients (dk_srv st0) = [] -> 1 <= g_max_conn sg -> sv_looked (single_server c sg) (dk_srv st0) a = true.
Proof. intros SC M. cbn [single_server sv_looked]. rewrite SC. cbn [has_entry find_entry negb andb length]. destruct (N.leb_spec (g_max_conn sg) (N.of_nat 0)); [lia|reflexivity]. Qed.
Lemma multi_looks c sg (st0 : disk mstate) a : HandlesOk (dk_srv st0) -> mview (dk_srv st0) a = None ->
  N.of_nat (length (filter (fun y => th_live (snd y)) (m_handles (dk_srv st0)))) < g_max_conn sg -> sv_looked (multi_server c sg) (dk_srv st0) a = true.
Proof.
  intros HO V MC. cbn [multi_server sv_looked]. pose proof (sorted_nodup _ HO) as ND. set (l := filter _ (m_handles (dk_srv st0))) in *.
  assert (LV : live_entry l a = None) by (unfold l; rewrite live_filter; assumption).
  assert (LL : Forall (fun y => th_live (snd y) = true) l) by (apply Forall_forall; intros y Y; unfold l in Y; apply filter_In in Y; tauto).
  assert (FH : find_handle l a = None).
  { unfold live_entry in LV. clear -LV LL. induction LL as [|[b t] l Ht LL IH]; [reflexivity|]. cbn [find_handle] in *. destruct (a =? b); [|exact (IH LV)].
    cbn [snd] in Ht. destruct t as [lv e]. cbn in Ht. rewrite Ht in LV. discriminate. }
  cbn zeta. rewrite FH. destruct (N.leb_spec (g_max_conn sg) (N.of_nat (length l))); [lia|reflexivity].
Qed.

(** ** receive *)
(** The programs have been started with fitting command lines; the command has asked, and is still waiting; the request reaches
    the idle single threaded server, on whose disk its path is that of the file [id].  Then the request is granted, and (if no
    datagram is lost, both programs get to run in time, and no other program changes the file) the command ends with the
    contents of that file in the local one. *)
Theorem receive_arrives_single : forall c h sa ss h' bound ca given other seek cs eph hs iv txt f0 wc keys ex p0 d path ds id a st0 i,
  let g := mkRun c cs eph hs iv txt in let sg := server_of ss in let fg := CliModel.ss_files ss in
  crypto_ok c ->
  (* the programs *)
  CliModel.server_args_ok sa = true -> CliModel.server_config (c_vk_ok c) h sa = Some ss ->
  CliModel.client_args_ok ca = true -> CliModel.client_begin (c_vk_ok c) h' bound false ca given other seek = Some cs ->
  keys_fit c sa ss ca cs -> CliModel.ca_file_key ca = None ->
  (* the request *)
  receive_waiting g f0 wc keys ex p0 -> rp_ph p0 <> RFailed -> asks_with g (CliModel.ss_cfg ss) wc false ex d ->
  (* the server and its disk *)
  s_clients (dk_srv st0) = [] -> taken (dk_srv st0) i = TookMain a d -> able i ->
  normalize None (CliModel.cl_remote cs) = Some path -> create_server_reader (dk_fs st0) fg path = Some (SFile id) ->
  let F := f_data (dk_fs st0) id in
  blen F <= U64_MAX ->
  (* the client's machine *)
  (exists f1 lid, create_writer f0 (CliModel.cl_local cs) = (f1, Some lid)) -> blen F <= CliModel.ca_max_size ca ->
  exists st1 e w k, takes (single_server c sg) c sg fg ds i false st0 a d path st1 (Reads (SFile id)) e w /\ agrees g wc keys false ex w k /\ 512 <= op_bs (k_opts k) /\
    forall peer early,
      answers_from g wc false ex (fun y => ignored c (c_opts (en_conn e)) (en_key e) (recv_cut sg y)) peer -> repeats g wc false ex peer early ->
      goes_well (disk_turn (single_server c sg) (single_turn c sg a) (sparing id programs) a) (dview (single_server c sg)) (receive_act g wc keys peer) (receive_patient wc) receive_busy c sg a peer
        (fun W => received g F (sm_prog W)) (4 * nblocks F (bs_enc (k_opts k)) + 6 + 2 * N.of_nat (length early)) (e_now (i_env i)) (mkSm st1 [] p0 [w] early).
Proof.
  intros c h sa ss h' bound ca given other seek cs eph hs iv txt f0 wc keys ex p0 d path ds id a st0 i g sg fg HC SA SS CA CB KF FKA RW NF AW SC TK AB NM CR F HU CW HM.
  assert (MC : 1 <= g_max_conn sg) by (unfold sg; eapply server_bounds; eassumption).
  eapply (receive_disk (single_server c sg) (single_turn c sg a) (sparing id programs) sready (sole a) (TableOk sg) (scut sg)); try eassumption.
  - apply single_tame; [exact MC|]. intros st t st' o H. exact H.
  - apply single_good.
  - apply single_looks; assumption.
  - intros RC. apply single_takes_disk; assumption.
Qed.
(** The multi threaded server, while it serves others, and they and other programs do anything but change the file. *)
Theorem receive_arrives_multi : forall c h sa ss h' bound ca given other seek cs eph hs iv txt f0 wc keys ex p0 d path ds id a st0 i,
  let g := mkRun c cs eph hs iv txt in let sg := server_of ss in let fg := CliModel.ss_files ss in
  crypto_ok c ->
  (* the programs *)
  CliModel.server_args_ok sa = true -> CliModel.server_config (c_vk_ok c) h sa = Some ss ->
  CliModel.client_args_ok ca = true -> CliModel.client_begin (c_vk_ok c) h' bound false ca given other seek = Some cs ->
  keys_fit c sa ss ca cs -> CliModel.ca_file_key ca = None ->
  (* the request *)
  receive_waiting g f0 wc keys ex p0 -> rp_ph p0 <> RFailed -> asks_with g (CliModel.ss_cfg ss) wc false ex d ->
  (* the server and its disk *)
  dkreach (multi_server c sg) c sg fg ds (fun m => m = m_init) st0 -> mview (dk_srv st0) a = None ->
  N.of_nat (length (filter (fun y => th_live (snd y)) (m_handles (dk_srv st0)))) < g_max_conn sg -> able i ->
  normalize None (CliModel.cl_remote cs) = Some path -> create_server_reader (dk_fs st0) fg path = Some (SFile id) ->
  let F := f_data (dk_fs st0) id in
  blen F <= U64_MAX ->
  (* the client's machine *)
  (exists f1 lid, create_writer f0 (CliModel.cl_local cs) = (f1, Some lid)) -> blen F <= CliModel.ca_max_size ca ->
  exists st1 e w k, takes (multi_server c sg) c sg fg ds i false st0 a d path st1 (Reads (SFile id)) e w /\ agrees g wc keys false ex w k /\ 512 <= op_bs (k_opts k) /\
    forall peer early,
      answers_from g wc false ex (fun y => ignored c (c_opts (en_conn e)) (en_key e) (thread_cut e y)) peer -> repeats g wc false ex peer early ->
      goes_well (disk_turn (multi_server c sg) (thread_own c sg a) (sparing id (dkany (multi_server c sg) c sg fg ds)) a) (dview (multi_server c sg)) (receive_act g wc keys peer) (receive_patient wc) receive_busy c sg a peer
        (fun W => received g F (sm_prog W)) (4 * nblocks F (bs_enc (k_opts k)) + 6 + 2 * N.of_nat (length early)) (e_now (i_env i)) (mkSm st1 [] p0 [w] early).
Proof.
  intros c h sa ss h' bound ca given other seek cs eph hs iv txt f0 wc keys ex p0 d path ds id a st0 i g sg fg HC SA SS CA CB KF FKA RW NF AW RD V0 NF0 AB NM CR F HU CW HM.
  assert (MC : 1 <= g_max_conn sg) by (unfold sg; eapply server_bounds; eassumption).
  pose proof (multi_reach_ok c sg fg ds st0 RD) as HO.
  eapply (receive_disk (multi_server c sg) (thread_own c sg a) (sparing id (dkany (multi_server c sg) c sg fg ds)) (fun _ => true) HandlesOk HandlesOk thread_cut); try eassumption.
  - apply (multi_tame c sg fg ds). intros st t st' o H. exact H.
  - apply multi_good.
  - apply multi_looks; assumption.
  - intros RC. apply multi_takes_disk; assumption.
Qed.
(** ** send *)
(** Likewise: when the command ends, the path it was given leads, on the server's disk, to a file with the contents of the
    local one (if nobody else changes that file, or moves it away). *)
Theorem send_arrives_single : forall c h sa ss h' bound ca given other seek cs eph hs iv txt f0 dz lid wc keys ex p0 d path ds f' id a st0 i,
  let g := mkRun c cs eph hs iv txt in let sg := server_of ss in let fg := CliModel.ss_files ss in
  crypto_ok c ->
  (* the programs *)
  CliModel.server_args_ok sa = true -> CliModel.server_config (c_vk_ok c) h sa = Some ss ->
  CliModel.client_args_ok ca = true -> CliModel.client_begin (c_vk_ok c) h' bound true ca given other seek = Some cs ->
  keys_fit c sa ss ca cs -> CliModel.ca_file_key ca = None ->
  (* the request *)
  send_waiting g f0 dz (SFile lid) wc keys ex p0 -> p0 <> UFailed -> asks_with g (CliModel.ss_cfg ss) wc true ex d ->
  (* the local file *)
  let F := f_data f0 lid in blen F <= U64_MAX -> blen F <= CliModel.sa_max_size sa ->
  (* the server and its disk *)
  s_clients (dk_srv st0) = [] -> taken (dk_srv st0) i = TookMain a d -> able i ->
  normalize None (CliModel.cl_remote cs) = Some path -> consistent (dk_fs st0) -> create_server_writer (dk_fs st0) fg path = (f', Some id) ->
  exists st1 e w k, takes (single_server c sg) c sg fg ds i true st0 a d path st1 (Writes id) e w /\ agrees g wc keys true ex w k /\ 512 <= op_bs (k_opts k) /\
    forall peer early,
      answers_from g wc true ex (fun y => ignored c (c_opts (en_conn e)) (en_key e) (recv_cut sg y)) peer -> repeats g wc true ex peer early ->
      goes_well (disk_turn (single_server c sg) (single_turn c sg a) (minding fg id path programs) a) (dview (single_server c sg)) (send_act g wc keys peer f0) (send_patient wc) send_busy c sg a peer
        (arrived fg path F) (4 * nblocks F (bs_enc (k_opts k)) + 6 + 2 * N.of_nat (length early)) (e_now (i_env i)) (mkSm st1 [] p0 [w] early).
Proof.
  intros c h sa ss h' bound ca given other seek cs eph hs iv txt f0 dz lid wc keys ex p0 d path ds f' id a st0 i g sg fg HC SA SS CA CB KF FKA SW NF AW F HU HM SC TK AB NM CO CR.
  assert (MC : 1 <= g_max_conn sg) by (unfold sg; eapply server_bounds; eassumption).
  eapply (send_disk (single_server c sg) (single_turn c sg a) (minding fg id path programs) sready (sole a) (TableOk sg) (scut sg)); try eassumption.
  - apply single_tame; [exact MC|]. intros st t st' o H. split; [exact (proj1 H)|exact (proj1 (proj2 H))].
  - apply single_good.
  - apply single_looks; assumption.
  - intros RC. apply single_takes_disk; assumption.
  - intros st t st' o H. exact (proj2 (proj2 H)).
Qed.
Theorem send_arrives_multi : forall c h sa ss h' bound ca given other seek cs eph hs iv txt f0 dz lid wc keys ex p0 d path ds f' id a st0 i,
  let g := mkRun c cs eph hs iv txt in let sg := server_of ss in let fg := CliModel.ss_files ss in
  crypto_ok c ->
  (* the programs *)
  CliModel.server_args_ok sa = true -> CliModel.server_config (c_vk_ok c) h sa = Some ss ->
  CliModel.client_args_ok ca = true -> CliModel.client_begin (c_vk_ok c) h' bound true ca given other seek = Some cs ->
  keys_fit c sa ss ca cs -> CliModel.ca_file_key ca = None ->
  (* the request *)
  send_waiting g f0 dz (SFile lid) wc keys ex p0 -> p0 <> UFailed -> asks_with g (CliModel.ss_cfg ss) wc true ex d ->
  (* the local file *)
  let F := f_data f0 lid in blen F <= U64_MAX -> blen F <= CliModel.sa_max_size sa ->
  (* the server and its disk *)
  dkreach (multi_server c sg) c sg fg ds (fun m => m = m_init) st0 -> mview (dk_srv st0) a = None ->
  N.of_nat (length (filter (fun y => th_live (snd y)) (m_handles (dk_srv st0)))) < g_max_conn sg -> able i ->
  normalize None (CliModel.cl_remote cs) = Some path -> consistent (dk_fs st0) -> create_server_writer (dk_fs st0) fg path = (f', Some id) ->
  exists st1 e w k, takes (multi_server c sg) c sg fg ds i true st0 a d path st1 (Writes id) e w /\ agrees g wc keys true ex w k /\ 512 <= op_bs (k_opts k) /\
    forall peer early,
      answers_from g wc true ex (fun y => ignored c (c_opts (en_conn e)) (en_key e) (thread_cut e y)) peer -> repeats g wc true ex peer early ->
      goes_well (disk_turn (multi_server c sg) (thread_own c sg a) (minding fg id path (dkany (multi_server c sg) c sg fg ds)) a) (dview (multi_server c sg)) (send_act g wc keys peer f0) (send_patient wc) send_busy c sg a peer
        (arrived fg path F) (4 * nblocks F (bs_enc (k_opts k)) + 6 + 2 * N.of_nat (length early)) (e_now (i_env i)) (mkSm st1 [] p0 [w] early).
Proof.
  intros c h sa ss h' bound ca given other seek cs eph hs iv txt f0 dz lid wc keys ex p0 d path ds f' id a st0 i g sg fg HC SA SS CA CB KF FKA SW NF AW F HU HM RD V0 NF0 AB NM CO CR.
  assert (MC : 1 <= g_max_conn sg) by (unfold sg; eapply server_bounds; eassumption).
  pose proof (multi_reach_ok c sg fg ds st0 RD) as HO.
  eapply (send_disk (multi_server c sg) (thread_own c sg a) (minding fg id path (dkany (multi_server c sg) c sg fg ds)) (fun _ => true) HandlesOk HandlesOk thread_cut); try eassumption.
  - apply (multi_tame c sg fg ds). intros st t st' o H. split; [exact (proj1 H)|exact (proj1 (proj2 H))].
  - apply multi_good.
  - apply multi_looks; assumption.
  - intros RC. apply multi_takes_disk; assumption.
  - intros st t st' o H. exact (proj2 (proj2 H)).
Qed.

Print Assumptions receive_arrives_single.
Print Assumptions receive_arrives_multi.
Print Assumptions send_arrives_single.
Print Assumptions send_arrives_multi.
