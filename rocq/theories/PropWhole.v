(** C78: a server and a command that were started with fitting command lines, on machines and a network that work:
    the request is granted and the file arrives. *)
From Verif Require Import Base BaseProofs PacketModel PacketSpec MapperModel ReaderModel ReaderSpec BlockLemmas ConfigModel CryptoModel CryptoSpec CryptoProofs ExtModel PropExt PathModel ConnModel
  ConnSpec ClientModel HandshakeModel HandshakeProofs ClientWaitModel PropHandshake AgreeProofs PropAgree SystemModel ServerModel ServerSpec ServerProofs PropServer WorldModel WorldB WorldC PropWorld
  FsModel FsSpec FsServerModel DiskModel RunModel RunSpec RunProofs RunB PropRun SmoothModel SmoothSpec PropSmooth WholeSpec.
From Verif Require CliModel PropCli.

Lemma accept_window c cfg env av d x reply : server_new c cfg env av d = SAccepted x reply -> op_window (es_opts x) <= N.max 1 (sc_max_window cfg).
Proof.
  intros H. apply server_new_accepted in H as [(buf & hs & o0 & r & used & o & keys & size & FN & _ & SP & _ & _ & EO & _)].
  assert (F0 : fresh o0) by (destruct (from_new_cases c cfg d) as [E|(sk & p & data & K & P & D & E)]; rewrite FN in E; injection E as -> -> ->; reflexivity).
  pose proof (server_limits _ _ _ _ _ _ _ _ _ F0 SP) as (_ & (W1 & _) & _).
  assert (E2 : op_window (es_opts x) = op_window o) by (rewrite EO; destruct (es_write x); reflexivity). rewrite E2. exact W1.
Qed.

(** The request is granted, and the answer is acceptable. *)
Lemma granted g cfg write o wc keys ex d env av path size : let c := ru_c g in
  crypto_ok c -> compatible c (CliModel.cl_cfg (ru_start g)) cfg o write -> write = true \/ op_size o <> None ->
  run_ask g write o = Some (wc, keys, ex) -> asks_with g cfg wc write ex d ->
  normalize None (CliModel.cl_remote (ru_start g)) = Some path -> h_open env path = Some size -> (write = false -> size <> None) ->
  (forall n, size = Some n -> n <= U64_MAX) ->
  h_bind env = true -> h_send env = true -> blen (h_nonce env) = 24 -> av_multi av = true ->
  exists x w k, server_new c cfg env av d = SAccepted x (Some w) /\ es_path x = path /\ es_write x = write /\
    agrees g wc keys write ex w k /\ k_max k = CliModel.cl_max_size (ru_start g) /\
    op_window (k_opts k) = op_window (es_opts x) /\ op_bs (k_opts k) = op_bs (es_opts x) /\
    (op_size o = Some 0 -> write = false -> forall n, size = Some n -> op_size (k_opts k) = Some n).
Proof.
  intros c HC CP OS RA ((nonce & Hn & CS) & GS & UN & SR) NM HO SZ HU HB HS HN HA.
  destruct (run_ask_inv _ _ _ _ _ _ RA) as (W1 & W3 & _ & W4 & W5 & _).
  destruct (handshake_completes c (CliModel.cl_cfg (ru_start g)) cfg o (ru_eph g) (ru_hs g) nonce write (CliModel.cl_remote (ru_start g)) d (wc_sock wc) keys (wc_opts wc) ex env av path size (ru_txt g)
    HC CP Hn HN GS NM HO HU HB HS HA (run_request _ _ _ _ _ _ _ _ RA CS) UN SR) as (x & reply & EX & EP & EW & M).
  destruct reply as [w|].
  2: { destruct M as (E1 & _ & _ & _ & E3 & _). exfalso. destruct OS as [OS|OS]; [congruence|]. apply (SZ E1), E3, OS. }
  destruct M as (p & q & C1 & C2 & C3 & C4 & C5 & C6).
  exists x, w, (agreed g wc keys q). split; [exact EX|]. split; [exact EP|]. split; [exact EW|]. split.
  { exists p, q, true. unfold client_receive in C1. rewrite W5 in C1. injection C1 as C1. rewrite C1. split; [exact C2|]. rewrite W4. split; [exact C3|]. split; [|reflexivity]. destruct OS as [OS|OS]; [right; split; [exact OS|]|left; apply C5; auto 6].
    pose proof (request_datagram _ _ _ _ _ _ _ _ _ _ _ _ _ (run_request _ _ _ _ _ _ _ _ RA CS)) as (_ & _ & XW & _). rewrite XW. exact (cp_win _ _ _ _ _ CP). }
  split; [reflexivity|]. destruct C4 as (A1 & A2 & A3 & _). split; [exact A2|]. split; [exact A1|exact C6].
Qed.

Lemma accepted_request c cfg env av d x reply : server_new c cfg env av d = SAccepted x reply -> file_request c cfg (h_eph env) d = Some (es_write x, es_path x).
Proof.
  intros A. apply server_new_accepted in A. destruct A as [(buf & hs & o0 & rq & used & op & keys & size & F1 & F2 & F3 & F4 & _)].
  unfold file_request. rewrite F1, F2. destruct (es_write x); rewrite F3, F4; reflexivity.
Qed.

(** The servers take the request. *)
Lemma single_takes c sg s0 i a d x w : s_clients s0 = [] -> taken s0 i = TookMain a d -> 1 <= g_max_conn sg -> recv_cut sg d = d ->
  server_new c (g_cfg sg) (i_henv i) (i_av i) d = SAccepted x (Some w) ->
  exists s1 o, step_recv c sg s0 i = Some (s1, o) /\ sent_to a o = [OWire w] /\ sview s1 a = Some (new_entry x (e_now (i_env i)) (i_file i)).
Proof.
  unfold taken, step_recv, sview. intros SC TK MC RC SN. rewrite SC in *. destruct (scan _ _ _ _) as [[[b y]|] cursor]; cbn [fst] in TK; [discriminate|].
  destruct (i_main i) as [b y| |]; try discriminate. injection TK as -> ->. cbn [has_entry find_entry]. unfold new_client. cbn [s_clients set_recv]. rewrite SC, RC, SN.
  destruct (N.leb_spec (g_max_conn sg) (N.of_nat (length (@nil (addr * entry))))) as [L|L]; [cbn [length] in L; lia|]. eexists _, _. split; [reflexivity|].
  split; [pose proof (sent_to_wire a a (Some w)) as X; rewrite N.eqb_refl in X; exact X|]. cbn [s_clients]. cbn [insert_entry find_entry]. rewrite N.eqb_refl. reflexivity.
Qed.
Lemma multi_takes c sg m0 i a d x w : HandlesOk m0 -> mview m0 a = None ->
  N.of_nat (length (filter (fun y => th_live (snd y)) (m_handles m0))) < g_max_conn sg -> recv_cut sg d = d ->
  server_new c (g_cfg sg) (i_henv i) (i_av i) d = SAccepted x (Some w) ->
  exists m1 o, main_turn c sg m0 (MData a d) i = Some (m1, o) /\ sent_to a o = [OWire w] /\ mview m1 a = Some (new_entry x (e_now (i_env i)) (i_file i)).
Proof.
  unfold main_turn, mview. intros R0 V0 MC RC SN. pose proof (sorted_nodup _ R0) as ND. set (l := filter _ (m_handles m0)) in *.
  assert (LV : live_entry l a = None) by (unfold l; rewrite live_filter; assumption).
  assert (LL : Forall (fun y => th_live (snd y) = true) l) by (apply Forall_forall; intros y Y; unfold l in Y; apply filter_In in Y; tauto).
  assert (FH : find_handle l a = None).
  { unfold live_entry in LV. clear -LV LL. induction LL as [|[b t] l Ht LL IH]; [reflexivity|]. cbn [find_handle] in *. destruct (a =? b); [|exact (IH LV)].
    cbn [snd] in Ht. destruct t as [lv e]. cbn in Ht. rewrite Ht in LV. discriminate. }
  rewrite FH, RC, SN. destruct (N.leb_spec (g_max_conn sg) (N.of_nat (length l))) as [L|L]; [lia|]. eexists _, _. split; [reflexivity|].
  split; [pose proof (sent_to_wire a a (Some w)) as X; rewrite N.eqb_refl in X; exact X|]. cbn [m_handles]. unfold live_entry. rewrite find_insert_handle, N.eqb_refl by exact FH. reflexivity.
Qed.

Section Start.
Variables (c : crypto) (h : CliModel.host) (sa : CliModel.server_args) (ss : CliModel.server_start) (h' : CliModel.host) (bound write : bool) (ca : CliModel.client_args)
  (given : bytes) (other : option bytes) (seek : bool) (cs : CliModel.client_start) (eph hs iv : bytes) (txt : list ext -> bytes).
Notation g := (mkRun c cs eph hs iv txt).
Notation sg := (server_of ss).
Hypothesis HC : crypto_ok c.
Hypothesis SA : CliModel.server_args_ok sa = true.
Hypothesis SS : CliModel.server_config (c_vk_ok c) h sa = Some ss.
Hypothesis CA : CliModel.client_args_ok ca = true.
Hypothesis CB : CliModel.client_begin (c_vk_ok c) h' bound write ca given other seek = Some cs.
Hypothesis KF : keys_fit c sa ss ca cs.
Lemma fits size : (write = true -> match size with Some n => n <= U64_MAX /\ n <= CliModel.sa_max_size sa | None => True end) ->
  compatible c (CliModel.cl_cfg cs) (CliModel.ss_cfg ss) (if write then set_size (CliModel.cl_opts cs) size else CliModel.cl_opts cs) write.
Proof. destruct KF as (K1 & K2 & K3 & K4). intros SZ. eapply PropCli.started_programs_fit; eassumption. Qed.
Lemma server_bounds : 512 <= sc_max_bs (g_cfg sg) /\ 1 <= sc_max_window (g_cfg sg) <= 1000 /\ 1 <= g_max_conn sg /\ g_max_size sg = CliModel.sa_max_size sa.
Proof.
  destruct (PropCli.server_arguments _ _ _ _ SA SS) as ((B1 & B2) & (W1 & W2) & (M1 & M2) & MS & _). change (g_max_size sg) with (sc_max_size (CliModel.ss_cfg ss)). cbn [server_of g_cfg g_max_conn].
  rewrite B2, W2, M2, MS. repeat split; lia.
Qed.


Lemma asked f0 dz lid wc keys ex p0 : write = true ->
  send_waiting g f0 dz (SFile lid) wc keys ex p0 -> let F := f_data f0 lid in
  (CliModel.ca_file_key ca = None -> blen F <= U64_MAX /\ blen F <= CliModel.sa_max_size sa) ->
  exists o, compatible c (CliModel.cl_cfg cs) (CliModel.ss_cfg ss) o true /\ run_ask g true o = Some (wc, keys, ex).
Proof.
  intros WR SW F HUM.
  destruct (PropCli.client_arguments _ _ _ _ _ _ _ _ _ CA CB) as (_ & _ & _ & LV & OS & _ & MX & _ & _ & _ & _ & FK & _).
  assert (PLAIN : forall o, o = CliModel.cl_opts cs -> exists o', o' = o /\ compatible c (CliModel.cl_cfg cs) (CliModel.ss_cfg ss) o' true).
  { intros o ->. pose proof (fits None (fun _ => Logic.I)) as CP. rewrite WR in CP. rewrite WR in OS.
    assert (EO : set_size (CliModel.cl_opts cs) None = CliModel.cl_opts cs) by (destruct (CliModel.cl_opts cs); cbn in OS; rewrite OS; reflexivity).
    rewrite EO in CP. exists (CliModel.cl_opts cs). auto. }
  destruct SW as (now & l & _ & ST & _). unfold send_start in ST. change (CliModel.cl_file_key (ru_start g)) with (CliModel.cl_file_key cs) in ST.
  destruct (CliModel.cl_file_key cs) as [fk|] eqn:FK'.
  { destruct (create_reader f0 _) as [sr|]; [|discriminate]. cbn [send_opts] in ST. change (ru_opts g) with (CliModel.cl_opts cs) in ST.
    destruct (PLAIN _ eq_refl) as (o & -> & CP). exists (CliModel.cl_opts cs). split; [exact CP|].
    destruct (run_ask g true _) as [[[wc' keys'] ex']|]; [|discriminate]. unfold wait_init in ST. injection ST as -> -> _ ->. reflexivity. }
  destruct HUM as [HU HM]; [destruct (CliModel.ca_file_key ca); [destruct FK as (v & _ & FK); discriminate FK|reflexivity]|].
  destruct (create_reader f0 _) as [sr|]; [|discriminate].
  assert (ES : sr = SFile lid) by (destruct (run_ask g true _) as [[[? ?] ?]|]; [injection ST as _ _ ? _; assumption|discriminate]). subst sr. cbn [source_size] in ST. fold F in ST.
  assert (RA : run_ask g true (send_opts g (Some (blen F))) = Some (wc, keys, ex)).
  { destruct (run_ask g true _) as [[[wc' keys'] ex']|]; [|discriminate]. unfold wait_init in ST. injection ST as -> -> ->. reflexivity. }
  clear ST. unfold send_opts in RA. change (ru_opts g) with (CliModel.cl_opts cs) in RA.
  destruct (N.ltb_spec 0 (blen F)) as [L|L].
  - pose proof (fits (Some (blen F)) (fun _ => conj HU HM)) as CP. rewrite WR in CP.
    exists (set_size (CliModel.cl_opts cs) (Some (blen F))). split; [exact CP|]. exact RA.
  - destruct (PLAIN _ eq_refl) as (o & -> & CP). exists (CliModel.cl_opts cs). split; [exact CP|exact RA].
Qed.
End Start.

(** Programs without any keys fit together, unless one of them was told to insist on encryption; and their requests are unambiguous. *)
Theorem keyless_programs_fit : forall c h sa ss h' bound write ca given other seek cs,
  CliModel.server_args_ok sa = true -> CliModel.server_config (c_vk_ok c) h sa = Some ss ->
  CliModel.client_args_ok ca = true -> CliModel.client_begin (c_vk_ok c) h' bound write ca given other seek = Some cs ->
  CliModel.sa_key sa = None -> CliModel.sa_auth sa = None -> CliModel.sa_full sa <> Some true ->
  CliModel.ca_server_key ca = None -> CliModel.ca_known ca = None -> CliModel.ca_level ca <> s2b "full" ->
  keys_fit c sa ss ca cs /\ forall s d, unambiguous c (CliModel.ss_cfg ss) s d.
Proof.
  intros c h sa ss h' bound write ca given other seek cs SA SS CA CB SK AU FU K1 K2 LV.
  destruct (PropCli.client_arguments _ _ _ _ _ _ _ _ _ CA CB) as (_ & _ & _ & _ & _ & _ & _ & _ & _ & EX & _).
  unfold PropCli.expects in EX. rewrite K1, K2 in EX.
  destruct (PropCli.server_arguments _ _ _ _ SA SS) as (_ & _ & _ & _ & _ & _ & _ & _ & KY & _). rewrite SK in KY. split.
  - split; [intros vk E; congruence|]. split; [intros E; contradiction|]. split; [intros [E|[_ E]]; contradiction|]. intros E. contradiction.
  - intros s d _ p key (sk & ct & tag & nonce & pk & padded & K & _). congruence.
Qed.

(** ** receive *)
(** The programs have been started; the command has asked, and is still waiting; the request reaches the idle single
    threaded server, where its path is that of the file [id]; the client can store it.  Then the request is granted, and
    (if nothing is lost and both programs get to run in time, C77) the command ends with the file. *)
Theorem receive_command_single : forall c h sa ss h' bound ca given other seek cs eph hs iv txt f0 wc keys ex p0 d path f ds id a s0 i,
  let g := mkRun c cs eph hs iv txt in let sg := server_of ss in
  crypto_ok c ->
  (* the programs *)
  CliModel.server_args_ok sa = true -> CliModel.server_config (c_vk_ok c) h sa = Some ss ->
  CliModel.client_args_ok ca = true -> CliModel.client_begin (c_vk_ok c) h' bound false ca given other seek = Some cs ->
  keys_fit c sa ss ca cs -> CliModel.ca_file_key ca = None ->
  (* the request *)
  receive_waiting g f0 wc keys ex p0 -> rp_ph p0 <> RFailed -> asks_with g (CliModel.ss_cfg ss) wc false ex d ->
  (* the server, its files *)
  s_clients s0 = [] -> taken s0 i = TookMain a d -> able i ->
  normalize None (CliModel.cl_remote cs) = Some path -> create_server_reader f (CliModel.ss_files ss) path = Some (SFile id) ->
  let F := f_data f id in
  blen F <= U64_MAX ->
  (* the client's machine *)
  (exists f1 lid, create_writer f0 (CliModel.cl_local cs) = (f1, Some lid)) -> blen F <= CliModel.ca_max_size ca ->
  exists s1 o w e k,
    open_request c (CliModel.ss_cfg ss) (CliModel.ss_files ss) ds f (h_eph (i_henv i)) (recv_cut sg d) = (f, Some (Some (blen F)), Some (Reads (SFile id))) /\
    step_recv c sg s0 (with_files i (Some (Some (blen F))) F) = Some (s1, o) /\ sent_to a o = [OWire w] /\ sview s1 a = Some e /\
    agrees g wc keys false ex w k /\ 512 <= op_bs (k_opts k) /\
    forall peer early,
      answers_from g wc false ex (fun y => ignored c (c_opts (en_conn e)) (en_key e) (recv_cut sg y)) peer -> repeats g wc false ex peer early ->
      goes_well (single_turn c sg a) sview (receive_act g wc keys peer) (receive_patient wc) receive_busy c sg a peer
        (fun W => received g F (sm_prog W)) (4 * nblocks F (bs_enc (k_opts k)) + 6 + 2 * N.of_nat (length early)) (e_now (i_env i)) (mkSm s1 [] p0 [w] early).
Proof.
  intros c h sa ss h' bound ca given other seek cs eph hs iv txt f0 wc keys ex p0 d path f ds id a s0 i g sg HC SA SS CA CB KF FKA RW NF AW SC TK (I1 & I2 & I3 & I4) NM CR F HU CW HM.
  pose proof (fits c h sa ss h' bound false ca given other seek cs SA SS CA CB KF None ltac:(discriminate)) as CP. cbv iota in CP.
  assert (B : 512 <= sc_max_bs (g_cfg sg) /\ 1 <= sc_max_window (g_cfg sg) <= 1000 /\ 1 <= g_max_conn sg /\ g_max_size sg = CliModel.sa_max_size sa) by (eapply server_bounds; eassumption). destruct B as (B1 & B2 & B3 & B4).
  destruct (PropCli.client_arguments _ _ _ _ _ _ _ _ _ CA CB) as (_ & _ & _ & _ & OS & _ & MX & _ & _ & _ & _ & FK & _).
  assert (FK' : CliModel.cl_file_key cs = None) by (rewrite FKA in FK; exact FK).
  assert (RA : run_ask g false (ru_opts g) = Some (wc, keys, ex)) by exact (proj1 RW).
  set (i' := with_files i (Some (Some (blen F))) F).
  destruct (granted g (CliModel.ss_cfg ss) false (ru_opts g) wc keys ex d (i_henv i') (i_av i') path (Some (blen F)) HC CP) as (x & w & k & SN & EP & EW & AG & KM & KW & KB & KZ);
    [right; change (ru_opts g) with (CliModel.cl_opts cs); rewrite OS; discriminate|exact RA|exact AW|exact NM|reflexivity|discriminate|intros n [= <-]; exact HU|exact I1|exact I2|exact I3|exact I4|].
  pose proof AW as (RQ & GS & UN & SR).
  assert (RC : recv_cut sg d = d) by exact (proj2 (receive_size _ _ SR)).
  destruct (single_takes c sg s0 i' a d x w SC TK B3 RC SN) as (s1 & o & E & SO & V1).
  destruct (accept_opts _ _ _ _ _ _ _ SN B1 (proj1 B2)) as ((O1 & O2) & O3 & O4). rewrite EW in O4. destruct O4 as (kd & O4 & _).
  pose proof (accept_window _ _ _ _ _ _ _ SN) as WX.
  exists s1, o, w, (new_entry x (e_now (i_env i')) (i_file i')), k. split.
  { rewrite RC. unfold open_request. rewrite (accepted_request _ _ _ _ _ _ _ SN : file_request c _ (h_eph (i_henv i)) d = _), EW, EP, CR. reflexivity. }
  do 3 (split; [assumption|]). split; [exact AG|].
  assert (US : understood g wc (g_cfg sg) d) by (split; [exact GS|split; [exact (proj1 KF)|split; [exact UN|exact SR]]]).
  split; [|].
  { rewrite KB. exact O1. }
  intros peer early AF RS.
  eapply (receive_goes_well_single g sg a s0 i' s1 o d w (new_entry x (e_now (i_env i')) (i_file i')) F _ k wc keys ex f0 p0 peer early HC B1 (proj1 B2) SC TK E SO V1); try assumption.
  - unfold new_entry. cbn [en_work]. rewrite O4. reflexivity.
  - intros p n [= <-]. exact HU.
  - rewrite KM. change (CliModel.cl_max_size (ru_start g)) with (CliModel.cl_max_size cs). rewrite MX. exact HM.
  - rewrite (KZ OS eq_refl _ eq_refl). rewrite KM. change (CliModel.cl_max_size (ru_start g)) with (CliModel.cl_max_size cs). rewrite MX. exact HM.
  - right. rewrite KW. change (sc_max_window (g_cfg sg)) with (sc_max_window (CliModel.ss_cfg ss)) in B2. lia.
Qed.
(** The multi threaded server, in any state without a connection for the client and with room for one, whatever other clients do meanwhile. *)
Theorem receive_command_multi : forall c h sa ss h' bound ca given other seek cs eph hs iv txt f0 wc keys ex p0 d path f ds id a m0 i,
  let g := mkRun c cs eph hs iv txt in let sg := server_of ss in
  crypto_ok c ->
  (* the programs *)
  CliModel.server_args_ok sa = true -> CliModel.server_config (c_vk_ok c) h sa = Some ss ->
  CliModel.client_args_ok ca = true -> CliModel.client_begin (c_vk_ok c) h' bound false ca given other seek = Some cs ->
  keys_fit c sa ss ca cs -> CliModel.ca_file_key ca = None ->
  (* the request *)
  receive_waiting g f0 wc keys ex p0 -> rp_ph p0 <> RFailed -> asks_with g (CliModel.ss_cfg ss) wc false ex d ->
  (* the server, its files *)
  mpreach c sg m0 -> mview m0 a = None -> N.of_nat (length (filter (fun y => th_live (snd y)) (m_handles m0))) < g_max_conn sg -> able i ->
  normalize None (CliModel.cl_remote cs) = Some path -> create_server_reader f (CliModel.ss_files ss) path = Some (SFile id) ->
  let F := f_data f id in
  blen F <= U64_MAX ->
  (* the client's machine *)
  (exists f1 lid, create_writer f0 (CliModel.cl_local cs) = (f1, Some lid)) -> blen F <= CliModel.ca_max_size ca ->
  exists m1 o w e k,
    open_request c (CliModel.ss_cfg ss) (CliModel.ss_files ss) ds f (h_eph (i_henv i)) (recv_cut sg d) = (f, Some (Some (blen F)), Some (Reads (SFile id))) /\
    main_turn c sg m0 (MData a d) (with_files i (Some (Some (blen F))) F) = Some (m1, o) /\ sent_to a o = [OWire w] /\ mview m1 a = Some e /\
    agrees g wc keys false ex w k /\ 512 <= op_bs (k_opts k) /\
    forall peer early,
      answers_from g wc false ex (fun y => ignored c (c_opts (en_conn e)) (en_key e) (thread_cut e y)) peer -> repeats g wc false ex peer early ->
      goes_well (multi_turn c sg a) mview (receive_act g wc keys peer) (receive_patient wc) receive_busy c sg a peer
        (fun W => received g F (sm_prog W)) (4 * nblocks F (bs_enc (k_opts k)) + 6 + 2 * N.of_nat (length early)) (e_now (i_env i)) (mkSm m1 [] p0 [w] early).
Proof.
  intros c h sa ss h' bound ca given other seek cs eph hs iv txt f0 wc keys ex p0 d path f ds id a m0 i g sg HC SA SS CA CB KF FKA RW NF AW R0 V0 NFL (I1 & I2 & I3 & I4) NM CR F HU CW HM.
  pose proof (fits c h sa ss h' bound false ca given other seek cs SA SS CA CB KF None ltac:(discriminate)) as CP. cbv iota in CP.
  assert (B : 512 <= sc_max_bs (g_cfg sg) /\ 1 <= sc_max_window (g_cfg sg) <= 1000 /\ 1 <= g_max_conn sg /\ g_max_size sg = CliModel.sa_max_size sa) by (eapply server_bounds; eassumption). destruct B as (B1 & B2 & B3 & B4).
  destruct (PropCli.client_arguments _ _ _ _ _ _ _ _ _ CA CB) as (_ & _ & _ & _ & OS & _ & MX & _ & _ & _ & _ & FK & _).
  assert (FK' : CliModel.cl_file_key cs = None) by (rewrite FKA in FK; exact FK).
  assert (RA : run_ask g false (ru_opts g) = Some (wc, keys, ex)) by exact (proj1 RW).
  set (i' := with_files i (Some (Some (blen F))) F).
  destruct (granted g (CliModel.ss_cfg ss) false (ru_opts g) wc keys ex d (i_henv i') (i_av i') path (Some (blen F)) HC CP) as (x & w & k & SN & EP & EW & AG & KM & KW & KB & KZ);
    [right; change (ru_opts g) with (CliModel.cl_opts cs); rewrite OS; discriminate|exact RA|exact AW|exact NM|reflexivity|discriminate|intros n [= <-]; exact HU|exact I1|exact I2|exact I3|exact I4|].
  pose proof AW as (RQ & GS & UN & SR).
  assert (RC : recv_cut sg d = d) by exact (proj2 (receive_size _ _ SR)).
  destruct (multi_takes c sg m0 i' a d x w (mpreach_ok _ _ _ R0) V0 NFL RC SN) as (m1 & o & E & SO & V1).
  destruct (accept_opts _ _ _ _ _ _ _ SN B1 (proj1 B2)) as ((O1 & O2) & O3 & O4). rewrite EW in O4. destruct O4 as (kd & O4 & _).
  pose proof (accept_window _ _ _ _ _ _ _ SN) as WX.
  exists m1, o, w, (new_entry x (e_now (i_env i')) (i_file i')), k. split.
  { rewrite RC. unfold open_request. rewrite (accepted_request _ _ _ _ _ _ _ SN : file_request c _ (h_eph (i_henv i)) d = _), EW, EP, CR. reflexivity. }
  do 3 (split; [assumption|]). split; [exact AG|].
  assert (US : understood g wc (g_cfg sg) d) by (split; [exact GS|split; [exact (proj1 KF)|split; [exact UN|exact SR]]]).
  split; [|].
  { rewrite KB. exact O1. }
  intros peer early AF RS.
  eapply (receive_goes_well_multi g sg a m0 i' m1 o d w (new_entry x (e_now (i_env i')) (i_file i')) F _ k wc keys ex f0 p0 peer early HC B1 (proj1 B2) R0 V0 E SO V1); try assumption.
  - unfold new_entry. cbn [en_work]. rewrite O4. reflexivity.
  - intros p n [= <-]. exact HU.
  - rewrite KM. change (CliModel.cl_max_size (ru_start g)) with (CliModel.cl_max_size cs). rewrite MX. exact HM.
  - rewrite (KZ OS eq_refl _ eq_refl). rewrite KM. change (CliModel.cl_max_size (ru_start g)) with (CliModel.cl_max_size cs). rewrite MX. exact HM.
  - right. rewrite KW. change (sc_max_window (g_cfg sg)) with (sc_max_window (CliModel.ss_cfg ss)) in B2. lia.
Qed.

(** ** send *)
(** Likewise for `send` of a file that is not empty and within the server's limit, to a path at which the server can create a file. *)
Theorem send_command_single : forall c h sa ss h' bound ca given other seek cs eph hs iv txt f0 dz lid src wc keys ex p0 d path f ds f' id a s0 i,
  let g := mkRun c cs eph hs iv txt in let sg := server_of ss in
  crypto_ok c ->
  (* the programs *)
  CliModel.server_args_ok sa = true -> CliModel.server_config (c_vk_ok c) h sa = Some ss ->
  CliModel.client_args_ok ca = true -> CliModel.client_begin (c_vk_ok c) h' bound true ca given other seek = Some cs ->
  keys_fit c sa ss ca cs -> CliModel.ca_file_key ca = None ->
  (* the request *)
  send_waiting g f0 dz src wc keys ex p0 -> p0 <> UFailed -> asks_with g (CliModel.ss_cfg ss) wc true ex d ->
  (* the local file *)
  src = SFile lid -> let F := f_data f0 lid in blen F <= U64_MAX -> blen F <= CliModel.sa_max_size sa ->
  (* the server, its files *)
  s_clients s0 = [] -> taken s0 i = TookMain a d -> able i ->
  normalize None (CliModel.cl_remote cs) = Some path -> create_server_writer f (CliModel.ss_files ss) path = (f', Some id) ->
  exists s1 o w e k,
    open_request c (CliModel.ss_cfg ss) (CliModel.ss_files ss) ds f (h_eph (i_henv i)) (recv_cut sg d) = (f', Some None, Some (Writes id)) /\
    step_recv c sg s0 (with_files i (Some None) []) = Some (s1, o) /\ sent_to a o = [OWire w] /\ sview s1 a = Some e /\
    agrees g wc keys true ex w k /\ 512 <= op_bs (k_opts k) /\
    forall peer early,
      answers_from g wc true ex (fun y => ignored c (c_opts (en_conn e)) (en_key e) (recv_cut sg y)) peer -> repeats g wc true ex peer early ->
      goes_well (single_turn c sg a) sview (send_act g wc keys peer f0) (send_patient wc) send_busy c sg a peer
        (delivered F) (4 * nblocks F (bs_enc (k_opts k)) + 6 + 2 * N.of_nat (length early)) (e_now (i_env i)) (mkSm s1 [] p0 [w] early).
Proof.
  intros c h sa ss h' bound ca given other seek cs eph hs iv txt f0 dz lid src wc keys ex p0 d path f ds f' id a s0 i g sg HC SA SS CA CB KF FKA SW NF AW -> F HU HM SC TK (I1 & I2 & I3 & I4) NM CR.
  assert (B : 512 <= sc_max_bs (g_cfg sg) /\ 1 <= sc_max_window (g_cfg sg) <= 1000 /\ 1 <= g_max_conn sg /\ g_max_size sg = CliModel.sa_max_size sa) by (eapply server_bounds; eassumption). destruct B as (B1 & B2 & B3 & B4).
  assert (FK' : CliModel.cl_file_key (ru_start g) = None).
  { destruct (PropCli.client_arguments _ _ _ _ _ _ _ _ _ CA CB) as (_ & _ & _ & _ & _ & _ & _ & _ & _ & _ & _ & FK & _). rewrite FKA in FK. exact FK. }
  destruct (asked c h sa ss h' bound true ca given other seek cs eph hs iv txt SA SS CA CB KF f0 dz lid wc keys ex p0 eq_refl SW (fun _ => conj HU HM)) as (o' & CP & RA).
  set (i' := with_files i (Some None) []).
  destruct (granted g (CliModel.ss_cfg ss) true o' wc keys ex d (i_henv i') (i_av i') path None HC CP) as (x & w & k & SN & EP & EW & AG & KM & KW & KB & _);
    [left; reflexivity|exact RA|exact AW|exact NM|reflexivity|discriminate|discriminate|exact I1|exact I2|exact I3|exact I4|].
  pose proof AW as (RQ & GS & UN & SR).
  assert (RC : recv_cut sg d = d) by exact (proj2 (receive_size _ _ SR)).
  destruct (single_takes c sg s0 i' a d x w SC TK B3 RC SN) as (s1 & o & E & SO & V1).
  destruct (accept_opts _ _ _ _ _ _ _ SN B1 (proj1 B2)) as ((O1 & O2) & O3 & O4). rewrite EW in O4.
  pose proof (accept_window _ _ _ _ _ _ _ SN) as WX.
  exists s1, o, w, (new_entry x (e_now (i_env i')) (i_file i')), k. split.
  { rewrite RC. unfold open_request. rewrite (accepted_request _ _ _ _ _ _ _ SN : file_request c _ (h_eph (i_henv i)) d = _), EW, EP, CR. reflexivity. }
  do 3 (split; [assumption|]). split; [exact AG|].
  assert (US : understood g wc (g_cfg sg) d) by (split; [exact GS|split; [exact (proj1 KF)|split; [exact UN|exact SR]]]).
  split; [rewrite KB; exact O1|].
  intros peer early AF RS.
  eapply (send_goes_well_single g sg a s0 i' s1 o d w (new_entry x (e_now (i_env i')) (i_file i')) (es_path x) _ k wc keys ex f0 dz (SFile lid) p0 peer early HC B1 (proj1 B2) SC TK E SO V1); try assumption.
  - unfold new_entry. cbn [en_work]. rewrite O4. reflexivity.
  - intros p n [=].
  - discriminate.
  - change (content f0 (Some (Reads (SFile lid)))) with F. rewrite B4. exact HM.
  - right. rewrite KW. change (sc_max_window (g_cfg sg)) with (sc_max_window (CliModel.ss_cfg ss)) in B2. lia.
Qed.
Theorem send_command_multi : forall c h sa ss h' bound ca given other seek cs eph hs iv txt f0 dz lid src wc keys ex p0 d path f ds f' id a m0 i,
  let g := mkRun c cs eph hs iv txt in let sg := server_of ss in
  crypto_ok c ->
  (* the programs *)
  CliModel.server_args_ok sa = true -> CliModel.server_config (c_vk_ok c) h sa = Some ss ->
  CliModel.client_args_ok ca = true -> CliModel.client_begin (c_vk_ok c) h' bound true ca given other seek = Some cs ->
  keys_fit c sa ss ca cs -> CliModel.ca_file_key ca = None ->
  (* the request *)
  send_waiting g f0 dz src wc keys ex p0 -> p0 <> UFailed -> asks_with g (CliModel.ss_cfg ss) wc true ex d ->
  (* the local file *)
  src = SFile lid -> let F := f_data f0 lid in blen F <= U64_MAX -> blen F <= CliModel.sa_max_size sa ->
  (* the server, its files *)
  mpreach c sg m0 -> mview m0 a = None -> N.of_nat (length (filter (fun y => th_live (snd y)) (m_handles m0))) < g_max_conn sg -> able i ->
  normalize None (CliModel.cl_remote cs) = Some path -> create_server_writer f (CliModel.ss_files ss) path = (f', Some id) ->
  exists m1 o w e k,
    open_request c (CliModel.ss_cfg ss) (CliModel.ss_files ss) ds f (h_eph (i_henv i)) (recv_cut sg d) = (f', Some None, Some (Writes id)) /\
    main_turn c sg m0 (MData a d) (with_files i (Some None) []) = Some (m1, o) /\ sent_to a o = [OWire w] /\ mview m1 a = Some e /\
    agrees g wc keys true ex w k /\ 512 <= op_bs (k_opts k) /\
    forall peer early,
      answers_from g wc true ex (fun y => ignored c (c_opts (en_conn e)) (en_key e) (thread_cut e y)) peer -> repeats g wc true ex peer early ->
      goes_well (multi_turn c sg a) mview (send_act g wc keys peer f0) (send_patient wc) send_busy c sg a peer
        (delivered F) (4 * nblocks F (bs_enc (k_opts k)) + 6 + 2 * N.of_nat (length early)) (e_now (i_env i)) (mkSm m1 [] p0 [w] early).
Proof.
  intros c h sa ss h' bound ca given other seek cs eph hs iv txt f0 dz lid src wc keys ex p0 d path f ds f' id a m0 i g sg HC SA SS CA CB KF FKA SW NF AW -> F HU HM R0 V0 NFL (I1 & I2 & I3 & I4) NM CR.
  assert (B : 512 <= sc_max_bs (g_cfg sg) /\ 1 <= sc_max_window (g_cfg sg) <= 1000 /\ 1 <= g_max_conn sg /\ g_max_size sg = CliModel.sa_max_size sa) by (eapply server_bounds; eassumption). destruct B as (B1 & B2 & B3 & B4).
  assert (FK' : CliModel.cl_file_key (ru_start g) = None).
  { destruct (PropCli.client_arguments _ _ _ _ _ _ _ _ _ CA CB) as (_ & _ & _ & _ & _ & _ & _ & _ & _ & _ & _ & FK & _). rewrite FKA in FK. exact FK. }
  destruct (asked c h sa ss h' bound true ca given other seek cs eph hs iv txt SA SS CA CB KF f0 dz lid wc keys ex p0 eq_refl SW (fun _ => conj HU HM)) as (o' & CP & RA).
  set (i' := with_files i (Some None) []).
  destruct (granted g (CliModel.ss_cfg ss) true o' wc keys ex d (i_henv i') (i_av i') path None HC CP) as (x & w & k & SN & EP & EW & AG & KM & KW & KB & _);
    [left; reflexivity|exact RA|exact AW|exact NM|reflexivity|discriminate|discriminate|exact I1|exact I2|exact I3|exact I4|].
  pose proof AW as (RQ & GS & UN & SR).
  assert (RC : recv_cut sg d = d) by exact (proj2 (receive_size _ _ SR)).
  destruct (multi_takes c sg m0 i' a d x w (mpreach_ok _ _ _ R0) V0 NFL RC SN) as (m1 & o & E & SO & V1).
  destruct (accept_opts _ _ _ _ _ _ _ SN B1 (proj1 B2)) as ((O1 & O2) & O3 & O4). rewrite EW in O4.
  pose proof (accept_window _ _ _ _ _ _ _ SN) as WX.
  exists m1, o, w, (new_entry x (e_now (i_env i')) (i_file i')), k. split.
  { rewrite RC. unfold open_request. rewrite (accepted_request _ _ _ _ _ _ _ SN : file_request c _ (h_eph (i_henv i)) d = _), EW, EP, CR. reflexivity. }
  do 3 (split; [assumption|]). split; [exact AG|].
  assert (US : understood g wc (g_cfg sg) d) by (split; [exact GS|split; [exact (proj1 KF)|split; [exact UN|exact SR]]]).
  split; [rewrite KB; exact O1|].
  intros peer early AF RS.
  eapply (send_goes_well_multi g sg a m0 i' m1 o d w (new_entry x (e_now (i_env i')) (i_file i')) (es_path x) _ k wc keys ex f0 dz (SFile lid) p0 peer early HC B1 (proj1 B2) R0 V0 E SO V1); try assumption.
  - unfold new_entry. cbn [en_work]. rewrite O4. reflexivity.
  - intros p n [=].
  - discriminate.
  - change (content f0 (Some (Reads (SFile lid)))) with F. rewrite B4. exact HM.
  - right. rewrite KW. change (sc_max_window (g_cfg sg)) with (sc_max_window (CliModel.ss_cfg ss)) in B2. lia.
Qed.

Print Assumptions keyless_programs_fit.
Print Assumptions receive_command_single.
Print Assumptions receive_command_multi.
Print Assumptions send_command_single.
Print Assumptions send_command_multi.
