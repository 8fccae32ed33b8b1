(** C85: while nothing goes wrong, a client that knows nothing but RFC 1350 completes its transfer. *)
From Verif Require Import Base BaseProofs PacketModel PacketSpec PacketProofs MapperModel MapperProofs ReaderModel ReaderSpec BlockLemmas ReaderProofs
  WriterSpec WriterProofs ConfigModel CryptoModel CryptoSpec CryptoProofs PropCrypto ExtModel PathModel ConnModel ConnSpec ClientModel HandshakeModel AgreeProofs PropAgree ClientWaitModel StreamModel SystemModel
  CoreProofs ServerModel ServerSpec ServerProofs PropServer WorldModel WorldB WorldProofs WorldC PropWorld FsModel FsServerModel DiskModel RunModel RunSpec RunProofs
  StreamSpec SealSpec SealProofs SmoothA SmoothB SmoothModel SmoothSpec SmoothC SmoothD SmoothE PropEnd PropSmooth RfcSpec RfcProofs PropRfc RfcSmoothSpec RfcSmooth.
From Verif Require CliModel.

Section G.
Context {S : Type} (turn : N -> option bytes -> S -> bool -> S -> outs -> Prop) (view : S -> ServerModel.addr -> option entry)
  (ready : S -> bool) (Inv : S -> Prop).
Variables (c : crypto) (sg : srvcfg) (a : ServerModel.addr) (cut : entry -> bytes -> bytes).
Hypothesis RG : regular turn view ready Inv c sg a cut.
Variables (env : henv) (av : avail) (name : bytes) (x : est) (reply : option bytes) (now : N) (fs0 : bytes -> bytes) (s1 : S) (wr : bool) (L : N) (peer : CliModel.addr) (e : entry).
Hypothesis HC : crypto_ok c.
Hypothesis HB : 512 <= sc_max_bs (g_cfg sg).
Hypothesis HW : 1 <= sc_max_window (g_cfg sg).
Hypothesis HN : good_string name.
Hypothesis HS : AgreeProofs.in_clear c (g_cfg sg) (rfc_request wr name).
Hypothesis HX : server_new c (g_cfg sg) env av (rfc_request wr name) = SAccepted x reply.
Hypothesis EE : e = new_entry x now fs0.
Hypothesis I1 : Inv s1.
Hypothesis V1 : view s1 a = Some e.
Hypothesis HL : op_bs (es_opts x) + 4 <= L /\ 516 <= L.
Hypothesis Hcut : forall e d, c_opts (en_conn e) = es_opts x -> cut e d = takeN L d.
(** Only [ru_c] of this is used. *)
Notation g := (mkRun c (CliModel.mkCS (CliModel.mkAddr false [] 0) (CliModel.mkAddr false [] 0) 0 0 (mkCcfg None None false) false None [] [] default_options) [] [] [] (fun _ => [])).
Notation wc := (mkWC c (mkCcfg None None false) plain_sock false default_options 0 0 (fun _ => [])).
Notation f0 := (mkFs (fun _ => None) (fun _ => []) 0 [] (fun _ => false) (fun _ => [])).

Lemma fetch_generic F r : en_work e = WRead F r ->
  goes_well turn view (getter_act peer) no_timer getting c sg a peer (fetched F) (4 * (blen F / 512 + 1) + 1) now (mkSm s1 [] (mkG 0 [] false) [] []).
Proof.
  intros EW. destruct (plain_accepted _ _ _ _ _ _ _ _ HC HN HS HX) as (_ & _ & AG). specialize (AG F).
  destruct (x_bs F x AG) as (B1 & B2 & B3 & B4). destruct (accept_opts _ _ _ _ _ _ _ HX HB HW) as (_ & _ & RD).
  assert (R0 : exists kd, r = new_reader kd (bs_enc (es_opts x)) (op_window (es_opts x)) /\ (kd = KSingle -> op_window (es_opts x) = 1)).
  { rewrite EE in EW. unfold new_entry in EW. cbn [en_work] in EW. destruct (es_reader x) as [r0|]; [|discriminate].
    injection EW as _ <-. destruct (es_write x); [discriminate|]. destruct RD as (kd & [= ->] & RK). eauto. }
  destruct R0 as (kd & ER & RK).
  assert (HP : valid (dP c sg (rfc_side F) x L F kd)).
  { unfold valid, dP. cbn [p_opts p_kind]. rewrite B1, B2. split; [lia|]. split; [lia|]. split; [lia|]. split; [reflexivity|right; lia]. }
  destruct (opens_steps g F (bs_enc (es_opts x)) F ltac:(rewrite B4; lia)) as (keptAt & strAt & KA & KB & KC); [reflexivity|].
  assert (NE : p_n (dP c sg (rfc_side F) x L F kd) = blen F / 512 + 1).
  { unfold p_n, p_bs, dP, nblocks. cbn [p_opts p_file]. rewrite B4. reflexivity. }
  assert (ST : forall ck, gstate view ready Inv g sg a x L F kd ck now (mkSm s1 [] (mkG 0 [] false) [] []) (4 * (blen F / 512 + 1) + (if ready s1 then 0 else 1))).
  { intros ck. rewrite <- NE. refine (g_init view ready Inv g sg a cut x L F kd HL Hcut HP f0 keptAt strAt KB ck now s1 e r I1 V1 _ ER).
    rewrite EE. unfold conn_ok. rewrite EE in EW. rewrite EW.
    unfold new_entry, conn_new, T. cbn [en_key en_conn c_opts c_invalid c_finished c_sent c_updated]. auto 10. }
  split.
  - intros ck kk b W HR.
    destruct (g_run turn view ready Inv g sg a cut RG x L F kd HC AG HL Hcut HP wc peer f0 keptAt strAt KB ck now _ _ kk b W (ST ck) HR)
      as [BD CASE]. split; [destruct (ready s1); lia|exact CASE].
  - refine (g_done turn view ready Inv g sg a cut RG x L F kd HC AG HL Hcut HP wc peer f0 keptAt strAt KB (fun t => t = now) now _ _ _ (ST _)). intros t. split; auto.
Qed.

Lemma store_generic F path w : en_work e = WWrite path w -> blen F <= g_max_size sg ->
  goes_well turn view (putter_act F peer) no_timer (putting F) c sg a peer (stored F) (4 * (blen F / 512 + 1) + 1) now (mkSm s1 [] 0 [rfc_ack 0] []).
Proof.
  intros EW HM. rewrite (fresh_writer _ _ _ _ _ _ EE EW) in EW. destruct (plain_accepted _ _ _ _ _ _ _ _ HC HN HS HX) as (_ & _ & AG). specialize (AG F).
  destruct (x_bs F x AG) as (B1 & B2 & B3 & B4).
  assert (HP : valid (uP c sg (rfc_side F) x L F KSingle)).
  { unfold valid, uP. cbn [p_opts p_kind]. rewrite B1, B2. split; [lia|]. split; [lia|]. split; [lia|]. split; [reflexivity|right; lia]. }
  assert (NE : p_n (uP c sg (rfc_side F) x L F KSingle) = blen F / 512 + 1).
  { unfold p_n, p_bs, uP, nblocks. cbn [p_opts p_file]. rewrite B4. reflexivity. }
  assert (ST : forall ck, pstate view ready Inv g sg a x L F ck now (mkSm s1 [] 0 [rfc_ack 0] []) (4 * (blen F / 512 + 1) + (if ready s1 then 0 else 1))).
  { intros ck. rewrite <- NE. eapply (p_init view ready Inv g sg a) with (e := e); try eassumption.
    rewrite EE in *. unfold taking. rewrite EW.
    unfold new_entry, conn_new, T. cbn [en_key en_conn c_opts c_invalid c_finished c_sent c_updated c_transfer c_acked].
    split; [eauto|]. do 4 (split; [reflexivity|]). split; [auto|]. split; [|reflexivity]. unfold prefix_size. cbn [w_written writer_new]. lia. }
  split.
  - intros ck kk b W HR.
    destruct (p_run turn view ready Inv g sg a cut RG x L F HC AG HL Hcut HP wc peer HM ck now _ _ kk b W (ST ck) HR)
      as [BD CASE]. split; [destruct (ready s1); lia|exact CASE].
  - refine (p_done turn view ready Inv g sg a cut RG x L F HC AG HL Hcut HP wc peer HM (fun t => t = now) now _ _ _ (ST _)). intros t. split; auto.
Qed.
End G.

(** A client of RFC 1350 has asked the idle single threaded server for a file, and its request was
    granted.  It gets the file - for every order of the turns, within a number of rounds proportional
    to the number of blocks of 512 bytes - if no datagram is lost, damaged, repeated or overtaken,
    the server's machine works, and the server gets to run before one of its time limits passes. *)
Theorem plain_fetch_goes_well_single : forall c sg a s0 i s1 o name e F r peer,
  crypto_ok c -> 512 <= sc_max_bs (g_cfg sg) -> 1 <= sc_max_window (g_cfg sg) ->
  good_string name -> blen name <= 500 -> AgreeProofs.in_clear c (g_cfg sg) (rfc_request false name) ->
  s_clients s0 = [] -> taken s0 i = TookMain a (rfc_request false name) -> step_recv c sg s0 i = Some (s1, o) ->
  sview s1 a = Some e -> en_work e = WRead F r ->
  goes_well (single_turn c sg a) sview (getter_act peer) no_timer getting c sg a peer
    (fetched F) (4 * (blen F / 512 + 1) + 1) (e_now (i_env i)) (mkSm s1 [] (mkG 0 [] false) [] []).
Proof.
  intros c sg a s0 i s1 o name e F r peer HC HB HW HN HL HI SC TK E V1 EW.
  assert (V0 : sview s0 a = None) by (unfold sview; rewrite SC; reflexivity).
  destruct (single_takes _ _ _ _ _ _ _ _ _ TK V0 E V1) as (x & reply & HX & EE & SO).
  rewrite whole_request in HX by (apply request_length; exact HL).
  destruct (accept_opts _ _ _ _ _ _ _ HX HB HW) as ((_ & A1) & _). destruct (scut_ok sg x A1) as [HL' HCUT].
  refine (fetch_generic (single_turn c sg a) sview sready (sole a) c sg a (scut sg) (single_regular c sg a) _ _ name x reply _ _ s1 false _ peer e HC HB HW HN HI HX EE _ V1 HL' HCUT F r EW).
  eapply accept_sole; eassumption.
Qed.
(** The multi threaded server, in any state without a connection for the client, and whatever other clients do meanwhile. *)
Theorem plain_fetch_goes_well_multi : forall c sg a m0 i m1 o name e F r peer,
  crypto_ok c -> 512 <= sc_max_bs (g_cfg sg) -> 1 <= sc_max_window (g_cfg sg) ->
  good_string name -> blen name <= 500 -> AgreeProofs.in_clear c (g_cfg sg) (rfc_request false name) ->
  mpreach c sg m0 -> mview m0 a = None -> main_turn c sg m0 (MData a (rfc_request false name)) i = Some (m1, o) ->
  mview m1 a = Some e -> en_work e = WRead F r ->
  goes_well (multi_turn c sg a) mview (getter_act peer) no_timer getting c sg a peer
    (fetched F) (4 * (blen F / 512 + 1) + 1) (e_now (i_env i)) (mkSm m1 [] (mkG 0 [] false) [] []).
Proof.
  intros c sg a m0 i m1 o name e F r peer HC HB HW HN HL HI R0 V0 E V1 EW.
  destruct (multi_takes _ _ _ _ _ _ _ _ _ (mpreach_ok _ _ _ R0) V0 E V1) as (x & reply & HX & EE & SO).
  rewrite whole_request in HX by (apply request_length; exact HL). destruct (tcut_ok x) as [HL' HCUT].
  refine (fetch_generic (multi_turn c sg a) mview (fun _ => true) HandlesOk c sg a thread_cut (multi_regular c sg a) _ _ name x reply _ _ m1 false _ peer e HC HB HW HN HI HX EE _ V1 HL' HCUT F r EW).
  eapply mphase_ok; [eapply mpreach_ok; exact R0|eapply mp_main; exact E].
Qed.
(** A client of RFC 1350 has asked to store a file and was answered with the acknowledgement of block 0.
    Its file is stored, under the same conditions, if it is within the server's limit. *)
Theorem plain_store_goes_well_single : forall c sg a s0 i s1 o name e path w F peer,
  crypto_ok c -> 512 <= sc_max_bs (g_cfg sg) -> 1 <= sc_max_window (g_cfg sg) ->
  good_string name -> blen name <= 500 -> AgreeProofs.in_clear c (g_cfg sg) (rfc_request true name) ->
  s_clients s0 = [] -> taken s0 i = TookMain a (rfc_request true name) -> step_recv c sg s0 i = Some (s1, o) ->
  sview s1 a = Some e -> en_work e = WWrite path w -> blen F <= g_max_size sg ->
  sent_to a o = [OWire (rfc_ack 0)] /\
  goes_well (single_turn c sg a) sview (putter_act F peer) no_timer (putting F) c sg a peer
    (stored F) (4 * (blen F / 512 + 1) + 1) (e_now (i_env i)) (mkSm s1 [] 0 [rfc_ack 0] []).
Proof.
  intros c sg a s0 i s1 o name e path w F peer HC HB HW HN HL HI SC TK E V1 EW HM.
  assert (V0 : sview s0 a = None) by (unfold sview; rewrite SC; reflexivity).
  destruct (single_takes _ _ _ _ _ _ _ _ _ TK V0 E V1) as (x & reply & HX & EE & SO).
  rewrite whole_request in HX by (apply request_length; exact HL).
  destruct (plain_accepted _ _ _ _ _ _ _ _ HC HN HI HX) as (_ & RP & _). rewrite RP in SO. split; [exact SO|].
  destruct (accept_opts _ _ _ _ _ _ _ HX HB HW) as ((_ & A1) & _). destruct (scut_ok sg x A1) as [HL' HCUT].
  refine (store_generic (single_turn c sg a) sview sready (sole a) c sg a (scut sg) (single_regular c sg a) _ _ name x reply _ _ s1 true _ peer e HC HB HW HN HI HX EE _ V1 HL' HCUT F path w EW HM).
  eapply accept_sole; eassumption.
Qed.
Theorem plain_store_goes_well_multi : forall c sg a m0 i m1 o name e path w F peer,
  crypto_ok c -> 512 <= sc_max_bs (g_cfg sg) -> 1 <= sc_max_window (g_cfg sg) ->
  good_string name -> blen name <= 500 -> AgreeProofs.in_clear c (g_cfg sg) (rfc_request true name) ->
  mpreach c sg m0 -> mview m0 a = None -> main_turn c sg m0 (MData a (rfc_request true name)) i = Some (m1, o) ->
  mview m1 a = Some e -> en_work e = WWrite path w -> blen F <= g_max_size sg ->
  sent_to a o = [OWire (rfc_ack 0)] /\
  goes_well (multi_turn c sg a) mview (putter_act F peer) no_timer (putting F) c sg a peer
    (stored F) (4 * (blen F / 512 + 1) + 1) (e_now (i_env i)) (mkSm m1 [] 0 [rfc_ack 0] []).
Proof.
  intros c sg a m0 i m1 o name e path w F peer HC HB HW HN HL HI R0 V0 E V1 EW HM.
  destruct (multi_takes _ _ _ _ _ _ _ _ _ (mpreach_ok _ _ _ R0) V0 E V1) as (x & reply & HX & EE & SO).
  rewrite whole_request in HX by (apply request_length; exact HL). destruct (tcut_ok x) as [HL' HCUT].
  destruct (plain_accepted _ _ _ _ _ _ _ _ HC HN HI HX) as (_ & RP & _). rewrite RP in SO. split; [exact SO|].
  refine (store_generic (multi_turn c sg a) mview (fun _ => true) HandlesOk c sg a thread_cut (multi_regular c sg a) _ _ name x reply _ _ m1 true _ peer e HC HB HW HN HI HX EE _ V1 HL' HCUT F path w EW HM).
  eapply mphase_ok; [eapply mpreach_ok; exact R0|eapply mp_main; exact E].
Qed.
Print Assumptions plain_fetch_goes_well_single.
Print Assumptions plain_fetch_goes_well_multi.
Print Assumptions plain_store_goes_well_single.
Print Assumptions plain_store_goes_well_multi.
