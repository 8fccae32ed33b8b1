(** C77: when nothing goes wrong the commands succeed. *)
From Verif Require Import Base BaseProofs PacketModel PacketSpec PacketProofs MapperModel MapperProofs ReaderModel ReaderSpec BlockLemmas ReaderProofs
  ConfigModel CryptoModel CryptoSpec CryptoProofs PropCrypto ExtModel PathModel ConnModel ConnSpec ClientModel HandshakeModel AgreeProofs PropAgree ClientWaitModel StreamModel SystemModel
  CoreProofs ServerModel ServerSpec ServerProofs PropServer WorldModel WorldB WorldProofs WorldC PropWorld FsModel FsServerModel DiskModel RunModel RunSpec RunProofs RunB
  StreamSpec PropRun SealSpec SealProofs SmoothA SmoothB SmoothModel SmoothSpec SmoothC SmoothD SmoothE PropEnd.
From Verif Require CliModel.

Section G.
Context {S : Type} (turn : N -> option bytes -> S -> bool -> S -> outs -> Prop) (view : S -> ServerModel.addr -> option entry)
  (ready : S -> bool) (Inv : S -> Prop).
Variables (g : run_cfg) (sg : srvcfg) (a : ServerModel.addr) (cut : entry -> bytes -> bytes).
Notation c := (ru_c g).
Hypothesis RG : regular turn view ready Inv c sg a cut.
Variables (env : henv) (av : avail) (d w : bytes) (x : est) (now : N) (fs0 : bytes -> bytes) (s1 : S) (L : N) (k : cside).
Variables (wc : wcfg) (keys : option client_keys) (ex : exts) (peer : CliModel.addr) (e : entry).
Hypothesis HC : crypto_ok c.
Hypothesis HB : 512 <= sc_max_bs (g_cfg sg).
Hypothesis HW : 1 <= sc_max_window (g_cfg sg).
Hypothesis HX : server_new c (g_cfg sg) env av (recv_cut sg d) = SAccepted x (Some w).
Hypothesis EE : e = new_entry x now fs0.
Hypothesis I1 : Inv s1.
Hypothesis V1 : view s1 a = Some e.
Hypothesis HL : op_bs (es_opts x) + 4 <= L /\ 516 <= L.
Hypothesis Hcut : forall e d, c_opts (en_conn e) = es_opts x -> cut e d = takeN L d.
Hypothesis HN : blen (h_nonce env) = 24.
Hypothesis HO : forall p n, h_open env p = Some (Some n) -> n <= U64_MAX.
Hypothesis US : understood g wc (g_cfg sg) d.
Notation leaves := (fun d => ignored c (es_opts x) (es_key x) (takeN L d)).
Lemma leaves_as write : answers_from g wc write ex (fun d => ignored c (c_opts (en_conn e)) (en_key e) (cut e d)) peer -> answers_from g wc write ex leaves peer.
Proof.
  intros ((P1 & P3) & P2). split; [|exact P2]. split; [exact P1|]. intros SA d' R. specialize (P3 SA d' R). cbv beta in P3.
  rewrite Hcut in P3 by (rewrite EE; reflexivity). rewrite EE in P3. exact P3.
Qed.
Lemma repeats_stray write early (stray : bytes -> Prop) : answers_from g wc write ex leaves peer -> repeats g wc write ex peer early ->
  (forall y, leaves y -> stray y) -> Forall stray early.
Proof.
  intros ((_ & P3) & _) (R1 & R2) H. destruct (same_addr (CliModel.cl_endpoint (ru_start g)) peer) eqn:SA; [specialize (P3 eq_refl)|rewrite (R2 eq_refl); constructor]. eapply Forall_impl; [|exact R1]. intros y Y. apply H, P3, Y.
Qed.
Lemma receive_generic f0 p0 F D r early :
  answers_from g wc false ex (fun d => ignored c (c_opts (en_conn e)) (en_key e) (cut e d)) peer -> repeats g wc false ex peer early ->
  receive_waiting g f0 wc keys ex p0 -> rp_ph p0 <> RFailed -> request_of g wc false ex d -> agrees g wc keys false ex w k ->
  en_work e = WRead F r ->
  (exists f1 lid, create_writer f0 (CliModel.cl_local (ru_start g)) = (f1, Some lid)) ->
  opens g F (bs_enc (k_opts k)) D ->
  blen F <= k_max k -> match op_size (k_opts k) with Some s => s <= k_max k | None => True end ->
  let n := nblocks F (bs_enc (k_opts k)) in
  n <= 55535 \/ op_window (k_opts k) <= 10000 ->
  goes_well turn view (receive_act g wc keys peer) (receive_patient wc) receive_busy c sg a peer (fun W => unsealed g F D (sm_prog W)) (4 * n + 6 + 2 * N.of_nat (length early)) now
    (mkSm s1 [] p0 [w] early).
Proof.
  intros PT RS RW NF RQ AG EW CW OP HM HZ n HNB.
  destruct RW as (RA & now0 & l & QL & EP). destruct (run_ask_inv _ _ _ _ _ _ RA) as (W1 & W3 & W2 & _). apply leaves_as in PT. assert (RQE : exists d, request_of g wc _ ex d) by (exists d; exact RQ).
  pose proof (run_negotiates _ _ _ _ _ _ _ _ _ _ _ RA RQ US AG HN HO) as NG.
  destruct (t_agree c sg k env av d w x false HC NG HX) as [HA MB].
  destruct (t_bs c sg k env av d w x false HC NG HX) as [TB TW].
  destruct (accept_opts _ _ _ _ _ _ _ HX HB HW) as (B1 & B2 & RD).
  assert (R0 : exists kd, r = new_reader kd (bs_enc (es_opts x)) (op_window (es_opts x)) /\ (kd = KSingle -> op_window (es_opts x) = 1)).
  { rewrite EE in EW. unfold new_entry in EW. cbn [en_work] in EW. destruct (es_reader x) as [r0|]; [|discriminate].
    injection EW as _ <-. destruct (es_write x); [discriminate|]. destruct RD as (kd & [= ->] & RK). eauto. }
  destruct R0 as (kd & ER & RK). unfold n in *. rewrite TB, TW in *.
  destruct (opens_steps g F (bs_enc (es_opts x)) D ltac:(pose proof (proj1 B1); unfold bs_enc, ENCRYPTION_TAG_SIZE, ENCRYPTION_NONCE_SIZE, ENCRYPTION_PADDING_SIZE; destruct (op_enc (es_opts x)); lia) OP) as (keptAt & strAt & KA & KB & KC).
  assert (HP : valid (dP c sg k x L F kd)).
  { unfold valid, dP, p_n, p_bs. cbn [p_opts p_kind p_file]. repeat split; try lia; auto. }
  assert (P0 : exists w0, p0 = mkRP f0 (RAsk w0) /\ RunProofs.waits wc ex w0).
  { pose proof (quiet_run g wc keys ex f0 l (mkRP f0 (RAsk (wait_init wc ex now0))) QL) as SA. rewrite <- EP in SA.
    destruct SA as [E1 [E2|(w0 & E2 & WT)]]; [split; [reflexivity|]; right; exists (wait_init wc ex now0); split; [reflexivity|apply wait_init_waits]|contradiction|].
    exists w0. split; [|exact WT]. destruct p0 as [q1 q2]. cbn [rp_fs rp_ph] in *. congruence. }
  destruct P0 as (w0 & -> & WT).
  assert (ST : forall ck, dstate view ready Inv g sg a x L F kd k wc ex w peer f0 keptAt strAt ck now (mkSm s1 [] (mkRP f0 (RAsk w0)) [w] early)
    (4 * nblocks F (bs_enc (es_opts x)) + (if ready s1 then 0 else 1) + 2 * N.of_nat (length early) + 5)).
  { intros ck. eapply d_init; try eassumption; [exact (proj1 B1)|eapply repeats_stray; try eassumption; intros y Y; right; exact Y|]. rewrite EE. unfold conn_ok. rewrite EE in EW. rewrite EW.
    unfold new_entry, conn_new, T. cbn [en_key en_conn c_opts c_invalid c_finished c_sent c_updated]. auto 10. }
  split.
  - intros ck kk b W HR.
    destruct (d_run turn view ready Inv g sg a cut RG x L F kd k HC HA (proj1 B1) HL Hcut HP wc keys ex w peer f0 W1 W2 W3 PT RQE AG keptAt strAt KA KB CW HM HZ ck now _ _ kk b W (ST ck) HR)
      as [BD CASE]. split; [destruct (ready s1); lia|].
    destruct CASE as [CASE|(C1 & (e1 & C2 & C3) & C4)]; [left; unfold has_file in CASE; rewrite <- KC; exact CASE|right]. split; [exact C1|]. split; [|exact C4].
    intros t CK PR. apply (C3 t CK). apply PR. exact C2.
  - rewrite <- KC. eapply d_done; try eassumption; [exact (proj1 B1)| |apply ST]. intros t. split; auto.
Qed.

Lemma send_generic f0 ds src p0 path wr early :
  answers_from g wc true ex (fun d => ignored c (c_opts (en_conn e)) (en_key e) (cut e d)) peer -> repeats g wc true ex peer early ->
  send_waiting g f0 ds src wc keys ex p0 -> p0 <> UFailed -> request_of g wc true ex d -> agrees g wc keys true ex w k ->
  en_work e = WWrite path wr -> src <> SDir ->
  let F := read_as g (content f0 (Some (Reads src))) (bs_enc (k_opts k)) in blen F <= g_max_size sg ->
  let n := nblocks F (bs_enc (k_opts k)) in
  n <= 55535 \/ op_window (k_opts k) <= 10000 ->
  goes_well turn view (send_act g wc keys peer f0) (send_patient wc) send_busy c sg a peer (delivered F) (4 * n + 6 + 2 * N.of_nat (length early)) now
    (mkSm s1 [] p0 [w] early).
Proof.
  intros PT RS SW NF RQ AG EW SR F HM n HNB.
  destruct SW as (now0 & l & QL & SS & EP). unfold send_start in SS. destruct (create_reader f0 _) as [src'|]; [|discriminate].
  destruct (run_ask _ _ _) as [[[wc' keys'] ex']|] eqn:RA; [|discriminate]. injection SS as -> -> -> ->.
  destruct (run_ask_inv _ _ _ _ _ _ RA) as (W1 & W3 & W2 & _). apply leaves_as in PT. assert (RQE : exists d, request_of g wc _ ex d) by (exists d; exact RQ).
  pose proof (run_negotiates _ _ _ _ _ _ _ _ _ _ _ RA RQ US AG HN HO) as NG.
  destruct (t_agree c sg k env av d w x true HC NG HX) as [HA MB].
  destruct (t_bs c sg k env av d w x true HC NG HX) as [TB TW].
  destruct (accept_opts _ _ _ _ _ _ _ HX HB HW) as (B1 & B2 & _).
  pose proof (file_reader_kind (k_opts k) (CliModel.cl_seek (ru_start g))) as FR. set (kd := kind_for _ _) in FR.
  assert (RK : kd = KSingle -> op_window (es_opts x) = 1).
  { subst kd. unfold kind_for. rewrite TW. destruct (N.eqb_spec (op_window (es_opts x)) 1); [auto|]. cbn [andb]. destruct (CliModel.cl_seek _); discriminate. }
  unfold n in *. rewrite TB, TW in *.
  assert (HP : valid (uP c sg k x L F kd)).
  { unfold valid, uP, p_n, p_bs. cbn [p_opts p_kind p_file]. repeat split; try lia; auto. }
  assert (P0 : exists w0, p0 = UAsk src w0 /\ RunProofs.waits wc ex w0).
  { pose proof (quiet_run_u g wc keys ex f0 src l (UAsk src (wait_init wc ex now0)) QL) as SA. rewrite <- EP in SA.
    destruct SA as [E2|E2]; [right; exists (wait_init wc ex now0); split; [reflexivity|apply wait_init_waits]|contradiction|exact E2]. }
  destruct P0 as (w0 & -> & WT).
  assert (EWR : wr = writer_new) by (eapply fresh_writer; eassumption).
  assert (ST : forall ck, ustate view ready Inv g sg a x L F kd k wc ex w peer src ck now (mkSm s1 [] (UAsk src w0) [w] early)
    (4 * nblocks F (bs_enc (es_opts x)) + (if ready s1 then 0 else 1) + 2 * N.of_nat (length early) + 5)).
  { intros ck. eapply u_init; try eassumption; [exact (proj1 B1)|eapply repeats_stray; try eassumption; intros y Y; right; exact Y|]. rewrite EE in *. unfold taking. rewrite EW, EWR.
    unfold new_entry, conn_new, T. cbn [en_key en_conn c_opts c_invalid c_finished c_sent c_updated c_transfer c_acked].
    split; [eauto|]. do 4 (split; [reflexivity|]). split; [auto|]. split; [|reflexivity]. unfold prefix_size. cbn [w_written writer_new]. lia. }
  split.
  - intros ck kk b W HR.
    destruct (u_run turn view ready Inv g sg a cut RG x L F kd k HC HA (proj1 B1) HL Hcut HP wc keys ex w peer f0 src W1 W2 W3 PT RQE AG SR eq_refl FR HM ck now _ _ kk b W (ST ck) HR)
      as [BD CASE]. split; [destruct (ready s1); lia|].
    destruct CASE as [CASE|CASE]; [left|right]; exact CASE.
  - eapply u_done; try eassumption; [exact (proj1 B1)|reflexivity| |apply ST]. intros t. split; auto.
Qed.
End G.

(** The single threaded server has no other clients; it takes the request. *)
Lemma accept_sole c g s i s1 o a d : s_clients s = [] -> taken s i = TookMain a d -> step_recv c g s i = Some (s1, o) -> sole a s1.
Proof.
  unfold taken, step_recv, sole. intros SC TK E. rewrite SC in TK, E. destruct (scan _ _ _ _) as [[[b y]|] cursor]; cbn [fst] in TK; [discriminate|].
  destruct (i_main i) as [b y| |]; try discriminate. injection TK as -> ->. cbn [has_entry find_entry] in E. unfold new_client in E. cbn [s_clients set_recv] in E. rewrite SC in E.
  destruct (_ <=? _); [injection E as <- <-; left; cbn [s_clients set_recv]; exact SC|].
  destruct (server_new _ _ _ _ _) as [|reply|x reply]; [discriminate|injection E as <- <-; left; cbn [s_clients set_recv]; exact SC|].
  injection E as <- <-. right. cbn [s_clients set_recv insert_entry]. eauto.
Qed.

(** ** receive *)
(** A client that asked the idle single threaded server for a file, and whose request was granted, gets it - for every
    order of the turns, within a number of rounds proportional to the number of blocks - if no datagram is lost, damaged,
    repeated or overtaken, both machines work, both programs get to run before a time limit passes, and the file is
    within the client's limit and its local path can be written. *)
Theorem receive_goes_well_single : forall g sg a s0 i s1 o d w e F r k wc keys ex f0 p0 peer early,
  let c := ru_c g in
  crypto_ok c -> 512 <= sc_max_bs (g_cfg sg) -> 1 <= sc_max_window (g_cfg sg) ->
  (* the command has asked with [d], the server answers [w], which is acceptable *)
  s_clients s0 = [] -> taken s0 i = TookMain a d -> step_recv c sg s0 i = Some (s1, o) ->
  sent_to a o = [OWire w] -> sview s1 a = Some e -> en_work e = WRead F r ->
  blen (h_nonce (i_henv i)) = 24 -> (forall p n, h_open (i_henv i) p = Some (Some n) -> n <= U64_MAX) ->
  receive_waiting g f0 wc keys ex p0 -> rp_ph p0 <> RFailed -> request_of g wc false ex d -> understood g wc (g_cfg sg) d ->
  agrees g wc keys false ex w k ->
  answers_from g wc false ex (fun d' => ignored c (c_opts (en_conn e)) (en_key e) (recv_cut sg d')) peer -> repeats g wc false ex peer early ->
  CliModel.cl_file_key (ru_start g) = None ->
  (* the client can store the file *)
  (exists f1 lid, create_writer f0 (CliModel.cl_local (ru_start g)) = (f1, Some lid)) ->
  blen F <= k_max k -> match op_size (k_opts k) with Some s => s <= k_max k | None => True end ->
  let n := nblocks F (bs_enc (k_opts k)) in
  n <= 55535 \/ op_window (k_opts k) <= 10000 ->
  goes_well (single_turn c sg a) sview (receive_act g wc keys peer) (receive_patient wc) receive_busy c sg a peer
    (fun W => received g F (sm_prog W)) (4 * n + 6 + 2 * N.of_nat (length early)) (e_now (i_env i)) (mkSm s1 [] p0 [w] early).
Proof.
  intros g sg a s0 i s1 o d w e F r k wc keys ex f0 p0 peer early c HC HB HW SC TK E SO V1 EW HN HO RW NF RQ US AG PT RS FK CW HM HZ n HNB.
  assert (V0 : sview s0 a = None) by (unfold sview; rewrite SC; reflexivity).
  destruct (single_accepts _ _ _ _ _ _ _ _ _ _ TK V0 E SO V1) as (x & HX & EE).
  destruct (accept_opts _ _ _ _ _ _ _ HX HB HW) as ((_ & A1) & _). destruct (scut_ok sg x A1) as [HL HCUT].
  eapply (receive_generic (single_turn c sg a) sview sready (sole a) g sg a (scut sg) (single_regular c sg a)) with (F := F) (D := F); try eassumption.
  - eapply accept_sole; eassumption.
  - unfold opens. rewrite FK. reflexivity.
Qed.
(** The multi threaded server, in any state without a connection for the client, and whatever other clients do meanwhile. *)
Theorem receive_goes_well_multi : forall g sg a m0 i m1 o d w e F r k wc keys ex f0 p0 peer early,
  let c := ru_c g in
  crypto_ok c -> 512 <= sc_max_bs (g_cfg sg) -> 1 <= sc_max_window (g_cfg sg) ->
  mpreach c sg m0 -> mview m0 a = None -> main_turn c sg m0 (MData a d) i = Some (m1, o) ->
  sent_to a o = [OWire w] -> mview m1 a = Some e -> en_work e = WRead F r ->
  blen (h_nonce (i_henv i)) = 24 -> (forall p n, h_open (i_henv i) p = Some (Some n) -> n <= U64_MAX) ->
  receive_waiting g f0 wc keys ex p0 -> rp_ph p0 <> RFailed -> request_of g wc false ex d -> understood g wc (g_cfg sg) d ->
  agrees g wc keys false ex w k ->
  answers_from g wc false ex (fun d' => ignored c (c_opts (en_conn e)) (en_key e) (thread_cut e d')) peer -> repeats g wc false ex peer early ->
  CliModel.cl_file_key (ru_start g) = None ->
  (exists f1 lid, create_writer f0 (CliModel.cl_local (ru_start g)) = (f1, Some lid)) ->
  blen F <= k_max k -> match op_size (k_opts k) with Some s => s <= k_max k | None => True end ->
  let n := nblocks F (bs_enc (k_opts k)) in
  n <= 55535 \/ op_window (k_opts k) <= 10000 ->
  goes_well (multi_turn c sg a) mview (receive_act g wc keys peer) (receive_patient wc) receive_busy c sg a peer
    (fun W => received g F (sm_prog W)) (4 * n + 6 + 2 * N.of_nat (length early)) (e_now (i_env i)) (mkSm m1 [] p0 [w] early).
Proof.
  intros g sg a m0 i m1 o d w e F r k wc keys ex f0 p0 peer early c HC HB HW R0 V0 E SO V1 EW HN HO RW NF RQ US AG PT RS FK CW HM HZ n HNB.
  destruct (multi_accepts _ _ _ _ _ _ _ _ _ _ (mpreach_ok _ _ _ R0) V0 E SO V1) as (x & HX & EE). destruct (tcut_ok x) as [HL HCUT].
  eapply (receive_generic (multi_turn c sg a) mview (fun _ => true) HandlesOk g sg a thread_cut (multi_regular c sg a)) with (F := F) (D := F); try eassumption.
  - eapply mphase_ok; [eapply mpreach_ok; exact R0|eapply mp_main; exact E].
  - unfold opens. rewrite FK. reflexivity.
Qed.

(** ** send *)
(** Likewise for `send`: the server stores the file if it is within the server's limit. *)
Theorem send_goes_well_single : forall g sg a s0 i s1 o d w e path wr k wc keys ex f0 ds src p0 peer early,
  let c := ru_c g in
  crypto_ok c -> 512 <= sc_max_bs (g_cfg sg) -> 1 <= sc_max_window (g_cfg sg) ->
  s_clients s0 = [] -> taken s0 i = TookMain a d -> step_recv c sg s0 i = Some (s1, o) ->
  sent_to a o = [OWire w] -> sview s1 a = Some e -> en_work e = WWrite path wr ->
  blen (h_nonce (i_henv i)) = 24 -> (forall p n, h_open (i_henv i) p = Some (Some n) -> n <= U64_MAX) ->
  send_waiting g f0 ds src wc keys ex p0 -> p0 <> UFailed -> request_of g wc true ex d -> understood g wc (g_cfg sg) d ->
  agrees g wc keys true ex w k ->
  answers_from g wc true ex (fun d' => ignored c (c_opts (en_conn e)) (en_key e) (recv_cut sg d')) peer -> repeats g wc true ex peer early ->
  CliModel.cl_file_key (ru_start g) = None -> src <> SDir ->
  let F := content f0 (Some (Reads src)) in blen F <= g_max_size sg ->
  let n := nblocks F (bs_enc (k_opts k)) in
  n <= 55535 \/ op_window (k_opts k) <= 10000 ->
  goes_well (single_turn c sg a) sview (send_act g wc keys peer f0) (send_patient wc) send_busy c sg a peer
    (delivered F) (4 * n + 6 + 2 * N.of_nat (length early)) (e_now (i_env i)) (mkSm s1 [] p0 [w] early).
Proof.
  intros g sg a s0 i s1 o d w e path wr k wc keys ex f0 ds src p0 peer early c HC HB HW SC TK E SO V1 EW HN HO SW NF RQ US AG PT RS FK SR F HM n HNB.
  assert (V0 : sview s0 a = None) by (unfold sview; rewrite SC; reflexivity).
  destruct (single_accepts _ _ _ _ _ _ _ _ _ _ TK V0 E SO V1) as (x & HX & EE).
  destruct (accept_opts _ _ _ _ _ _ _ HX HB HW) as ((_ & A1) & _). destruct (scut_ok sg x A1) as [HL HCUT].
  assert (EF : F = read_as g (content f0 (Some (Reads src))) (bs_enc (k_opts k))) by (unfold read_as; rewrite FK; reflexivity). unfold n in *. rewrite EF in *.
  eapply (send_generic (single_turn c sg a) sview sready (sole a) g sg a (scut sg) (single_regular c sg a)); try eassumption.
  eapply accept_sole; eassumption.
Qed.
Theorem send_goes_well_multi : forall g sg a m0 i m1 o d w e path wr k wc keys ex f0 ds src p0 peer early,
  let c := ru_c g in
  crypto_ok c -> 512 <= sc_max_bs (g_cfg sg) -> 1 <= sc_max_window (g_cfg sg) ->
  mpreach c sg m0 -> mview m0 a = None -> main_turn c sg m0 (MData a d) i = Some (m1, o) ->
  sent_to a o = [OWire w] -> mview m1 a = Some e -> en_work e = WWrite path wr ->
  blen (h_nonce (i_henv i)) = 24 -> (forall p n, h_open (i_henv i) p = Some (Some n) -> n <= U64_MAX) ->
  send_waiting g f0 ds src wc keys ex p0 -> p0 <> UFailed -> request_of g wc true ex d -> understood g wc (g_cfg sg) d ->
  agrees g wc keys true ex w k ->
  answers_from g wc true ex (fun d' => ignored c (c_opts (en_conn e)) (en_key e) (thread_cut e d')) peer -> repeats g wc true ex peer early ->
  CliModel.cl_file_key (ru_start g) = None -> src <> SDir ->
  let F := content f0 (Some (Reads src)) in blen F <= g_max_size sg ->
  let n := nblocks F (bs_enc (k_opts k)) in
  n <= 55535 \/ op_window (k_opts k) <= 10000 ->
  goes_well (multi_turn c sg a) mview (send_act g wc keys peer f0) (send_patient wc) send_busy c sg a peer
    (delivered F) (4 * n + 6 + 2 * N.of_nat (length early)) (e_now (i_env i)) (mkSm m1 [] p0 [w] early).
Proof.
  intros g sg a m0 i m1 o d w e path wr k wc keys ex f0 ds src p0 peer early c HC HB HW R0 V0 E SO V1 EW HN HO SW NF RQ US AG PT RS FK SR F HM n HNB.
  destruct (multi_accepts _ _ _ _ _ _ _ _ _ _ (mpreach_ok _ _ _ R0) V0 E SO V1) as (x & HX & EE). destruct (tcut_ok x) as [HL HCUT].
  assert (EF : F = read_as g (content f0 (Some (Reads src))) (bs_enc (k_opts k))) by (unfold read_as; rewrite FK; reflexivity). unfold n in *. rewrite EF in *.
  eapply (send_generic (multi_turn c sg a) mview (fun _ => true) HandlesOk g sg a thread_cut (multi_regular c sg a)); try eassumption.
  eapply mphase_ok; [eapply mpreach_ok; exact R0|eapply mp_main; exact E].
Qed.
