(** C84: clients that know nothing but RFC 1350 are served. *)
From Verif Require Import Base BaseProofs PacketModel PacketSpec PacketProofs MapperModel MapperProofs ReaderModel ReaderSpec BlockLemmas ReaderProofs
  WriterSpec WriterProofs ConfigModel Base64Model CryptoModel CryptoSpec CryptoProofs PropCrypto ExtModel ExtSpec ExtProofs PathModel ConnModel ClientModel ConnSpec
  HandshakeModel HandshakeProofs PropExt PropHandshake AgreeProofs PropAgree SystemModel CoreProofs DownloadProofs UploadProofs
  ServerModel ServerSpec ServerProofs PropServer WorldModel WorldProofs WorldB WorldC PropWorld RfcSpec RfcProofs.

(** ** The request *)
Lemma rfc_request_parse wr name : good_string name ->
  from_bytes (rfc_request wr name) = Ok (if wr then PWrite (mkReq name exts_empty) else PRead (mkReq name exts_empty)).
Proof.
  intros HN. assert (E : rfc_request wr name = to_bytes (if wr then PWrite (mkReq name exts_empty) else PRead (mkReq name exts_empty))).
  { destruct wr; reflexivity. }
  rewrite E. apply round_trip; [|destruct wr; discriminate].
  assert (G : good_exts exts_empty) by (intros e v H; destruct e; discriminate). destruct wr; exact (conj HN G).
Qed.
Lemma plain_parse c cfg eph : sc_full cfg = false -> sc_auth cfg = None ->
  server_parse c cfg (sc_max_window cfg) eph exts_empty default_options = Ok (exts_empty, default_options, None).
Proof. intros F A. unfold server_parse. cbn. rewrite F, A. reflexivity. Qed.
Lemma plain_parse_inv c cfg eph r : server_parse c cfg (sc_max_window cfg) eph exts_empty default_options = Ok r ->
  r = (exts_empty, default_options, None).
Proof.
  unfold server_parse. cbn. destruct (sc_full cfg); [discriminate|]. cbn. destruct (sc_auth cfg); [discriminate|]. intros [= <-]. reflexivity.
Qed.

(** A server that demands neither keys nor encryption takes the request of a plain client if the
    file can be opened; a request to read is answered with the file itself, a request to write with
    the acknowledgement of block 0. *)
Theorem plain_request_taken : forall c cfg env wr name path size,
  crypto_ok c -> good_string name -> in_clear c cfg (rfc_request wr name) ->
  sc_full cfg = false -> sc_auth cfg = None ->
  validate_request_options (sc_max_size cfg) name None = Ok path -> h_open env path = Some size -> h_bind env = true -> h_send env = true ->
  exists x, server_new c cfg env av_all (rfc_request wr name) = SAccepted x (if wr then Some (rfc_ack 0) else None) /\
    es_write x = wr /\ es_path x = path /\
    op_bs (es_opts x) = 512 /\ op_window (es_opts x) = 1 /\ op_enc (es_opts x) = LNone /\ es_key x = None.
Proof.
  intros c cfg env wr name path size HC HN HI HF HA HV HO HB HS.
  unfold server_new. rewrite (in_clear_new c cfg _ HC HI), (rfc_request_parse wr name HN).
  destruct wr; cbn match; cbn [rq_exts rq_name]; rewrite (plain_parse c cfg (h_eph env) HF HA).
  - unfold build_writer. cbn [op_size default_options]. rewrite HV, HO, HB. unfold accept_connection. cbn [ext_len es_write es_opts es_key].
    change (0 <? ext_len exts_empty) with false. cbn match. unfold send_packet.
    assert (LE : (blen (to_bytes (PAck 0)) <=? N.max (blen (rfc_request true name)) (DATA_PACKET_HEADER_SIZE + op_bs default_options)) = true)
      by (apply N.leb_le; change (blen (to_bytes (PAck 0))) with 4; change (DATA_PACKET_HEADER_SIZE + op_bs default_options) with 516; lia).
    cbn [es_opts es_key]. rewrite LE. cbn [server_encrypt default_options op_enc]. rewrite HS. eexists. split; [reflexivity|]. cbn. auto 10.
  - unfold build_reader. cbn [op_size default_options]. rewrite HV, HO, HB.
    assert (AS : answer_size size exts_empty = exts_empty) by reflexivity. rewrite AS.
    unfold block_reader. cbn [set_size op_size op_window av_all av_single av_multi av_seek].
    destruct (sc_seek cfg); unfold accept_connection; change (0 <? ext_len exts_empty) with false; cbn;
      repeat match goal with |- context [match size with Some _ => _ | None => _ end] => destruct size end;
      eexists; (split; [reflexivity|]); cbn; auto 10.
Qed.

(** Whatever the server is like: if it takes the request, both sides work with blocks of 512 bytes,
    one at a time, in clear. *)
Lemma plain_accepted c cfg env av wr name x reply : crypto_ok c -> good_string name -> in_clear c cfg (rfc_request wr name) ->
  server_new c cfg env av (rfc_request wr name) = SAccepted x reply ->
  es_write x = wr /\ reply = (if wr then Some (rfc_ack 0) else None) /\
  (forall file, agree (k_opts (rfc_side file)) (k_sock (rfc_side file)) x).
Proof.
  intros HC HN HI H.
  assert (AG : forall o0 wr0 p rd size, (o0 = default_options \/ o0 = set_size default_options size) -> forall file,
    agree (k_opts (rfc_side file)) (k_sock (rfc_side file)) (mkEst wr0 p o0 None rd)).
  { intros o0 wr0 p rd size [-> | ->] file; (split; [reflexivity|]; split; [reflexivity|]; split; [reflexivity|]; split; [reflexivity|]; left; auto). }
  unfold server_new in H. rewrite (in_clear_new c cfg _ HC HI), (rfc_request_parse wr name HN) in H.
  destruct wr; cbn match in H; cbn [rq_exts rq_name] in H;
    (destruct (server_parse c cfg (sc_max_window cfg) (h_eph env) exts_empty default_options) as [r|?|] eqn:SP; [|discriminate|discriminate]);
    apply plain_parse_inv in SP; subst r.
  - unfold build_writer in H. destruct (validate_request_options _ _ _) as [p|?|]; try discriminate.
    destruct (h_open env p) as [sz|]; [|unfold open_failed in H; destruct (ensure_size _ _); discriminate].
    destruct (h_bind env); [|discriminate]. unfold accept_connection in H. change (0 <? ext_len exts_empty) with false in H. cbn match in H. cbn [es_write es_opts es_key] in H.
    unfold send_packet in H. destruct (_ <=? _); [|discriminate]. cbn [server_encrypt default_options op_enc] in H. destruct (h_send env); [|discriminate].
    injection H as <- <-. split; [reflexivity|]. split; [reflexivity|]. intros file. apply (AG _ _ _ _ None). left. reflexivity.
  - unfold build_reader in H. destruct (validate_request_options _ _ _) as [p|?|]; try discriminate.
    destruct (h_open env p) as [sz|]; [|unfold open_failed in H; destruct (ensure_size _ _); discriminate].
    assert (AS : answer_size sz exts_empty = exts_empty) by reflexivity. rewrite AS in H.
    destruct (h_bind env); [|discriminate]. destruct (block_reader _ _ _) as [rd|]; [|discriminate].
    unfold accept_connection in H. change (0 <? ext_len exts_empty) with false in H. cbn match in H. cbn [es_write es_opts es_key] in H.
    injection H as <- <-. split; [reflexivity|]. split; [reflexivity|]. intros file. apply (AG _ _ _ _ sz). right. reflexivity.
Qed.

Definition answer (reply : option bytes) : list out := match reply with Some w => [OWire w] | None => [] end.
Lemma single_takes c g s i s1 o a d e : taken s i = TookMain a d -> sview s a = None ->
  step_recv c g s i = Some (s1, o) -> sview s1 a = Some e ->
  exists x reply, server_new c (g_cfg g) (i_henv i) (i_av i) (recv_cut g d) = SAccepted x reply /\
    e = new_entry x (e_now (i_env i)) (i_file i) /\ sent_to a o = answer reply.
Proof.
  unfold taken, sview, step_recv. intros TK V0 E V1. destruct (scan _ _ _ _) as [[[b y]|] cursor]; cbn [fst] in TK; [discriminate|].
  destruct (i_main i) as [b y| |]; try discriminate. injection TK as -> ->.
  unfold has_entry in E. rewrite V0 in E. unfold new_client in E. cbn [s_clients set_recv] in E.
  destruct (_ <=? _); [injection E as <- <-; cbn [s_clients set_recv] in V1; congruence|].
  destruct (server_new _ _ _ _ _) as [|reply|x reply]; [discriminate|injection E as <- <-; cbn [s_clients set_recv] in V1; congruence|].
  injection E as <- <-. cbn [s_clients set_recv] in V1. rewrite find_insert, N.eqb_refl in V1 by exact V0. injection V1 as <-.
  rewrite sent_to_wire, N.eqb_refl. exists x, reply. split; [reflexivity|]. split; [reflexivity|]. destruct reply; reflexivity.
Qed.
Lemma multi_takes c g m i m1 o a d e : HandlesOk m -> mview m a = None ->
  main_turn c g m (MData a d) i = Some (m1, o) -> mview m1 a = Some e ->
  exists x reply, server_new c (g_cfg g) (i_henv i) (i_av i) (recv_cut g d) = SAccepted x reply /\
    e = new_entry x (e_now (i_env i)) (i_file i) /\ sent_to a o = answer reply.
Proof.
  unfold mview, main_turn. intros HO V0 E V1. pose proof (sorted_nodup _ HO) as ND. set (h := filter _ (m_handles m)) in *.
  assert (LV : live_entry h a = None) by (unfold h; rewrite live_filter; assumption).
  destruct (find_handle h a) eqn:EF; [injection E as <- <-; cbn [m_handles] in V1; congruence|].
  destruct (_ <=? _); [injection E as <- <-; cbn [m_handles] in V1; congruence|].
  destruct (server_new _ _ _ _ _) as [|reply|x reply]; [discriminate|injection E as <- <-; cbn [m_handles] in V1; congruence|].
  injection E as <- <-. cbn [m_handles] in V1. unfold live_entry in V1. rewrite find_insert_handle, N.eqb_refl in V1 by exact EF. injection V1 as <-.
  rewrite sent_to_wire, N.eqb_refl. exists x, reply. split; [reflexivity|]. split; [reflexivity|]. destruct reply; reflexivity.
Qed.
Lemma request_length wr name : blen name <= 500 -> blen (rfc_request wr name) <= 516.
Proof.
  intros H. unfold rfc_request. rewrite !blen_app. assert (E2 : forall b, blen [0; b] = 2) by reflexivity. rewrite E2.
  assert (E1 : blen [0] = 1) by reflexivity. rewrite E1. assert (E5 : blen (s2b "octet") = 5) by reflexivity. rewrite E5. lia.
Qed.
Lemma whole_request g d : blen d <= 516 -> recv_cut g d = d.
Proof. intros H. unfold recv_cut. apply takeN_all. unfold MIN_BUFFER_SIZE. lia. Qed.

(** ** The transfer *)
Section T.
Context {S : Type} (step : S -> took -> S -> outs -> Prop) (view : S -> addr -> option entry).
Variables (c : crypto) (g : srvcfg) (a : addr) (cut : entry -> bytes -> bytes) (Inv : S -> Prop).
Hypothesis HI : forall s t s' o e e', Inv s -> step s t s' o -> view s a = Some e -> view s' a = Some e' -> Inv s'.
Hypothesis HV : forall s t s' o e, Inv s -> step s t s' o -> view s a = Some e -> pev c g a cut e t (view s' a) (sent_to a o).
Variables (env : henv) (av : avail) (name : bytes) (x : est) (reply : option bytes) (now : N) (fs : bytes -> bytes) (s1 : S) (wr : bool).
Hypothesis HC : crypto_ok c.
Hypothesis HB : 512 <= sc_max_bs (g_cfg g).
Hypothesis HW : 1 <= sc_max_window (g_cfg g).
Hypothesis HN : good_string name.
Hypothesis HS : in_clear c (g_cfg g) (rfc_request wr name).
Hypothesis HX : server_new c (g_cfg g) env av (rfc_request wr name) = SAccepted x reply.
Hypothesis HI1 : Inv s1.
Hypothesis V1 : view s1 a = Some (new_entry x now fs).
Variable L : N.
Hypothesis HL : op_bs (es_opts x) + 4 <= L /\ 516 <= L.
Hypothesis Hcut : forall e d, c_opts (en_conn e) = es_opts x -> cut e d = takeN L d.

Lemma rfc_download e file r W : e = new_entry x now fs -> en_work e = WRead file r ->
  gwreach step view c a file (mkGW s1 false (mkG 0 [] false) [] [] 0 0) W ->
  got (gw_cl W) = takeN (512 * got_blocks (gw_cl W)) file /\
  (got_all (gw_cl W) = true -> got (gw_cl W) = file) /\
  (forall e', gw_over W = false -> view (gw_srv W) a = Some e' -> c_finished (en_conn e') = true -> got (gw_cl W) = file).
Proof.
  intros EE EW HR. destruct (plain_accepted _ _ _ _ _ _ _ _ HC HN HS HX) as (_ & _ & AG). specialize (AG file).
  destruct (x_bs file x AG) as (B1 & B2 & B3 & B4). destruct (accept_opts _ _ _ _ _ _ _ HX HB HW) as (_ & _ & RD).
  assert (R0 : exists kd, es_reader x = Some r /\ r = new_reader kd (bs_enc (es_opts x)) (op_window (es_opts x)) /\ (kd = KSingle -> op_window (es_opts x) = 1)).
  { rewrite EE in EW. unfold new_entry in EW. cbn [en_work] in EW. destruct (es_reader x) as [r0|]; [|discriminate].
    injection EW as _ <-. destruct (es_write x); [discriminate|]. destruct RD as (kd & [= ->] & RK). eauto. }
  destruct R0 as (kd & ER & ERR & RK).
  assert (HP : valid (dP c g (rfc_side file) x L file kd)).
  { unfold valid, dP. cbn [p_opts p_kind]. rewrite B1, B2. split; [lia|]. split; [lia|]. split; [lia|]. split; [reflexivity|right; lia]. }
  eapply (grel_safe view c g a Inv file x L kd AG HP).
  eapply (grel_reach step view c g a cut Inv file HI HV x L kd HC AG HL Hcut HP); [|exact HR].
  exists (mkDW s1 false (crecv_new 0) CRun [] [] 0 0). split.
  - exists (mkD (conn_new (es_opts x) now) (new_reader kd (bs_enc (es_opts x)) (op_window (es_opts x))) true (crecv_new 0) CRun [] [] 0 0).
    split; [apply dreach_init; exists now, 0, [], []; split; [constructor|]; split; [constructor|reflexivity]|].
    split; [intros _; exact HI1|].
    cbn [d_cl d_stat d_down d_up d_seenc d_seens d_live d_conn d_reader dw_srv dw_over dw_cl dw_stat dw_down dw_up dw_sc dw_ss].
    do 5 (split; [reflexivity|]). intros _. do 2 (split; [reflexivity|]). exists e. rewrite EE in *. split; [exact V1|].
    split; [reflexivity|]. split; [reflexivity|]. rewrite EW, ERR. reflexivity.
  - unfold gsim. cbn. do 5 (split; [reflexivity|]). split; [intros ? []|]. do 3 (split; [reflexivity|]). lia.
Qed.

Lemma rfc_upload e path w file W : e = new_entry x now fs -> en_work e = WWrite path w ->
  pwreach step view c a file (mkPW s1 false [] 0 [(rfc_ack 0, Some 0)] [] 0 0) W ->
  (exists m, pw_kept W = takeN (512 * m) file) /\
  (putter_last file < pw_cl W -> pw_kept W = file) /\
  (forall e', pw_over W = false -> view (pw_srv W) a = Some e' -> c_finished (en_conn e') = true -> pw_kept W = file).
Proof.
  intros EE EW HR. rewrite (fresh_writer _ _ _ _ _ _ EE EW) in EW. destruct (plain_accepted _ _ _ _ _ _ _ _ HC HN HS HX) as (_ & _ & AG). specialize (AG file).
  destruct (x_bs file x AG) as (B1 & B2 & B3 & B4).
  assert (HP : valid (uP c g (rfc_side file) x L file KSingle)).
  { unfold valid, uP. cbn [p_opts p_kind]. rewrite B1, B2. split; [lia|]. split; [lia|]. split; [lia|]. split; [reflexivity|right; lia]. }
  eapply (prel_safe view c g a cut Inv file x L AG HL Hcut HP).
  eapply (prel_reach step view c g a cut Inv file HI HV x L HC AG HL Hcut HP); [|exact HR].
  pose (W0 := mkUW s1 false [] (mkCS (RS (single_new 512)) 0 0) CRun [(rfc_ack 0, Some 0)] [] 0 0).
  apply (prel_start step view c g a cut Inv file HI HV x L HC AG HL Hcut HP W0 (single_new 512) 0); try reflexivity.
  exists (mkU (conn_new (es_opts x) now) writer_new true (mkCS (RS (single_new 512)) 0 0) CRun [(rfc_ack 0, Some 0)] [] 0 0).
  split.
  { apply ureach_init. exists now, 0, [(rfc_ack 0, Some 0)], []. split; [constructor; [right; split; reflexivity|constructor]|]. split; [constructor|].
    unfold p_bs. cbn [uP p_opts p_kind]. rewrite B4. reflexivity. }
  split; [intros _; exact HI1|].
  cbn [u_cl u_stat u_down u_up u_seenc u_seens u_live u_conn u_writer w_out writer_new uw_srv uw_over uw_kept uw_cl uw_stat uw_down uw_up uw_sc uw_ss W0].
  do 6 (split; [reflexivity|]). intros _. do 2 (split; [reflexivity|]). exists e, path. rewrite EE in *. split; [exact V1|].
  split; [reflexivity|]. split; [reflexivity|]. rewrite EW. reflexivity.
Qed.
End T.

(** A client of RFC 1350 asks the single threaded server for a file.  If the server takes the
    request, it answers it with the file itself, and what the client has stored is always the first blocks of
    the file; once the short block has come it is the file, and the server regards the transfer as finished only then.
    The network may lose, repeat, delay and reorder datagrams, and other clients may do what they like. *)
Theorem plain_download_single : forall c g a s0 i s1 o name e file r W,
  crypto_ok c -> 512 <= sc_max_bs (g_cfg g) -> 1 <= sc_max_window (g_cfg g) ->
  good_string name -> blen name <= 500 -> in_clear c (g_cfg g) (rfc_request false name) ->
  spreach c g s0 -> sview s0 a = None -> taken s0 i = TookMain a (rfc_request false name) -> step_recv c g s0 i = Some (s1, o) ->
  sview s1 a = Some e -> en_work e = WRead file r ->
  gwreach (sphase c g) sview c a file (mkGW s1 false (mkG 0 [] false) [] [] 0 0) W ->
  sent_to a o = [] /\
  got (gw_cl W) = takeN (512 * got_blocks (gw_cl W)) file /\
  (got_all (gw_cl W) = true -> got (gw_cl W) = file) /\
  (forall e', gw_over W = false -> sview (gw_srv W) a = Some e' -> c_finished (en_conn e') = true -> got (gw_cl W) = file).
Proof.
  intros c g a s0 i s1 o name e file r W HC HB HW HN HL HI R0 V0 TK E V1 EW HR.
  destruct (single_takes _ _ _ _ _ _ _ _ _ TK V0 E V1) as (x & reply & HX & EE & SO).
  rewrite whole_request in HX by (apply request_length; exact HL).
  destruct (plain_accepted _ _ _ _ _ _ _ _ HC HN HI HX) as (_ & RP & _). rewrite RP in SO. split; [exact SO|].
  destruct (accept_opts _ _ _ _ _ _ _ HX HB HW) as ((_ & A1) & _). destruct (scut_ok g x A1) as [HL' HCUT].
  assert (OK1 : TableOk g s1) by (eapply step_recv_ok; [eapply spreach_ok; exact R0|exact E]).
  pose proof V1 as V1'. rewrite EE in V1'.
  eapply (rfc_download (sphase c g) sview c g a (scut g) (TableOk g) (fun s t s' o _ _ I P _ _ => sphase_ok c g s t s' o I P)
    (fun s t s' o e => sphase_pev c g s t s' o a e) _ _ name x _ _ _ s1 false HC HB HW HN HI HX OK1 V1' _ HL' HCUT); eassumption.
Qed.
(** The same with the multi threaded server. *)
Theorem plain_download_multi : forall c g a m0 i m1 o name e file r W,
  crypto_ok c -> 512 <= sc_max_bs (g_cfg g) -> 1 <= sc_max_window (g_cfg g) ->
  good_string name -> blen name <= 500 -> in_clear c (g_cfg g) (rfc_request false name) ->
  mpreach c g m0 -> mview m0 a = None -> main_turn c g m0 (MData a (rfc_request false name)) i = Some (m1, o) ->
  mview m1 a = Some e -> en_work e = WRead file r ->
  gwreach (mphase c g) mview c a file (mkGW m1 false (mkG 0 [] false) [] [] 0 0) W ->
  sent_to a o = [] /\
  got (gw_cl W) = takeN (512 * got_blocks (gw_cl W)) file /\
  (got_all (gw_cl W) = true -> got (gw_cl W) = file) /\
  (forall e', gw_over W = false -> mview (gw_srv W) a = Some e' -> c_finished (en_conn e') = true -> got (gw_cl W) = file).
Proof.
  intros c g a m0 i m1 o name e file r W HC HB HW HN HL HI R0 V0 E V1 EW HR.
  destruct (multi_takes _ _ _ _ _ _ _ _ _ (mpreach_ok _ _ _ R0) V0 E V1) as (x & reply & HX & EE & SO).
  rewrite whole_request in HX by (apply request_length; exact HL).
  destruct (plain_accepted _ _ _ _ _ _ _ _ HC HN HI HX) as (_ & RP & _). rewrite RP in SO. split; [exact SO|].
  destruct (tcut_ok x) as [HL' HCUT].
  assert (OK1 : HandlesOk m1) by (eapply mphase_ok; [eapply mpreach_ok; exact R0|eapply mp_main; exact E]).
  pose proof V1 as V1'. rewrite EE in V1'.
  eapply (rfc_download (mphase c g) mview c g a thread_cut HandlesOk (fun s t s' o _ _ I P _ _ => mphase_ok c g s t s' o I P)
    (fun s t s' o e => mphase_pev c g s t s' o a e) _ _ name x _ _ _ m1 false HC HB HW HN HI HX OK1 V1' _ HL' HCUT); eassumption.
Qed.

(** A client of RFC 1350 sends a file.  If the server takes the request, it answers with the
    acknowledgement of block 0, and what it has stored is always the first blocks of the client's
    file; once the client has seen the acknowledgement of the last block the file is complete, and
    the server regards the transfer as finished only then. *)
Theorem plain_upload_single : forall c g a s0 i s1 o name e path w file W,
  crypto_ok c -> 512 <= sc_max_bs (g_cfg g) -> 1 <= sc_max_window (g_cfg g) ->
  good_string name -> blen name <= 500 -> in_clear c (g_cfg g) (rfc_request true name) ->
  spreach c g s0 -> sview s0 a = None -> taken s0 i = TookMain a (rfc_request true name) -> step_recv c g s0 i = Some (s1, o) ->
  sview s1 a = Some e -> en_work e = WWrite path w ->
  pwreach (sphase c g) sview c a file (mkPW s1 false [] 0 [(rfc_ack 0, Some 0)] [] 0 0) W ->
  sent_to a o = [OWire (rfc_ack 0)] /\
  (exists m, pw_kept W = takeN (512 * m) file) /\
  (putter_last file < pw_cl W -> pw_kept W = file) /\
  (forall e', pw_over W = false -> sview (pw_srv W) a = Some e' -> c_finished (en_conn e') = true -> pw_kept W = file).
Proof.
  intros c g a s0 i s1 o name e path w file W HC HB HW HN HL HI R0 V0 TK E V1 EW HR.
  destruct (single_takes _ _ _ _ _ _ _ _ _ TK V0 E V1) as (x & reply & HX & EE & SO).
  rewrite whole_request in HX by (apply request_length; exact HL).
  destruct (plain_accepted _ _ _ _ _ _ _ _ HC HN HI HX) as (_ & RP & _). rewrite RP in SO. split; [exact SO|].
  destruct (accept_opts _ _ _ _ _ _ _ HX HB HW) as ((_ & A1) & _). destruct (scut_ok g x A1) as [HL' HCUT].
  assert (OK1 : TableOk g s1) by (eapply step_recv_ok; [eapply spreach_ok; exact R0|exact E]).
  pose proof V1 as V1'. rewrite EE in V1'.
  eapply (rfc_upload (sphase c g) sview c g a (scut g) (TableOk g) (fun s t s' o _ _ I P _ _ => sphase_ok c g s t s' o I P)
    (fun s t s' o e => sphase_pev c g s t s' o a e) _ _ name x _ _ _ s1 true HC HB HW HN HI HX OK1 V1' _ HL' HCUT); eassumption.
Qed.
Theorem plain_upload_multi : forall c g a m0 i m1 o name e path w file W,
  crypto_ok c -> 512 <= sc_max_bs (g_cfg g) -> 1 <= sc_max_window (g_cfg g) ->
  good_string name -> blen name <= 500 -> in_clear c (g_cfg g) (rfc_request true name) ->
  mpreach c g m0 -> mview m0 a = None -> main_turn c g m0 (MData a (rfc_request true name)) i = Some (m1, o) ->
  mview m1 a = Some e -> en_work e = WWrite path w ->
  pwreach (mphase c g) mview c a file (mkPW m1 false [] 0 [(rfc_ack 0, Some 0)] [] 0 0) W ->
  sent_to a o = [OWire (rfc_ack 0)] /\
  (exists m, pw_kept W = takeN (512 * m) file) /\
  (putter_last file < pw_cl W -> pw_kept W = file) /\
  (forall e', pw_over W = false -> mview (pw_srv W) a = Some e' -> c_finished (en_conn e') = true -> pw_kept W = file).
Proof.
  intros c g a m0 i m1 o name e path w file W HC HB HW HN HL HI R0 V0 E V1 EW HR.
  destruct (multi_takes _ _ _ _ _ _ _ _ _ (mpreach_ok _ _ _ R0) V0 E V1) as (x & reply & HX & EE & SO).
  rewrite whole_request in HX by (apply request_length; exact HL).
  destruct (plain_accepted _ _ _ _ _ _ _ _ HC HN HI HX) as (_ & RP & _). rewrite RP in SO. split; [exact SO|].
  destruct (tcut_ok x) as [HL' HCUT].
  assert (OK1 : HandlesOk m1) by (eapply mphase_ok; [eapply mpreach_ok; exact R0|eapply mp_main; exact E]).
  pose proof V1 as V1'. rewrite EE in V1'.
  eapply (rfc_upload (mphase c g) mview c g a thread_cut HandlesOk (fun s t s' o _ _ I P _ _ => mphase_ok c g s t s' o I P)
    (fun s t s' o e => mphase_pev c g s t s' o a e) _ _ name x _ _ _ m1 true HC HB HW HN HI HX OK1 V1' _ HL' HCUT); eassumption.
Qed.
Print Assumptions plain_request_taken.
Print Assumptions plain_download_single.
Print Assumptions plain_download_multi.
Print Assumptions plain_upload_single.
Print Assumptions plain_upload_multi.
