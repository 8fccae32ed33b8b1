(** C55: a transfer with a server that has other clients, from the request to the last byte,
    encryption included. *)
From Verif Require Import Base BaseProofs PacketModel PacketSpec PacketProofs MapperModel MapperProofs ReaderModel ReaderSpec BlockLemmas ReaderProofs
  WriterSpec WriterProofs ConfigModel Base64Model CryptoModel CryptoSpec CryptoProofs PropCrypto ExtModel ExtSpec ExtProofs PathModel ConnModel ClientModel ConnSpec
  HandshakeModel HandshakeProofs PropExt PropHandshake AgreeProofs PropAgree SystemModel CoreProofs DownloadProofs UploadProofs
  ServerModel ServerSpec ServerProofs PropServer WorldModel WorldProofs WorldB WorldC.

(** The client's part of the handshake: it asked with the datagram [d], which reaches the server
    whole, got the datagram [w] in answer, and goes on with [k].  The client has the server's key
    if it has any; a request in clear is not by accident a sealed packet. *)
Definition negotiates (c : crypto) (cfg : scfg) (env : henv) (write : bool) (d w : bytes) (k : cside) : Prop :=
  exists cc o eph hs nonce name s keys o1 ex w' p sp txt q,
    blen nonce = 24 /\ blen (h_nonce env) = 24 /\ good_string name /\
    (forall path n, h_open env path = Some (Some n) -> n <= U64_MAX) /\
    client_request c cc o eph hs nonce write name = Ok (d, s, keys, o1, ex) /\
    right_key c cfg cc /\ unambiguous c cfg s d /\ server_receive cfg d = Ok d /\
    client_receive o w = Ok w' /\ client_recv c s w' = Ok p /\
    query_step c cc write true o1 ex sp txt p = QDone q /\ (q_ack q = true \/ write = true /\ 1 <= op_window o <= 65535) /\
    k_opts k = q_opts q /\ k_sock k = configure_socket c s keys (q_opts q) (q_keys q).

(** The reader a client uses: src/client/sender.rs 342-367. *)
Definition client_reader (o : options) (prefer_seek : bool) : reader :=
  if (op_window o =? 1) && negb prefer_seek then RS (single_new (bs_enc o))
  else if prefer_seek then RK (seek_new (bs_enc o) (op_window o))
  else RM (multi_new (bs_enc o) (op_window o)).

(** ** The phases cover the turns *)
Lemma single_phases c g s i s' o : server_step c g s i = Some (s', o) ->
  exists s1 o1 s2 o2 t o3, sphase c g s TookNothing s1 o1 /\ sphase c g s1 TookNothing s2 o2 /\ sphase c g s2 t s' o3 /\
    o = o1 ++ o2 ++ o3.
Proof.
  unfold server_step. intros E. destruct (step_clean g s i) as [s1 o1] eqn:E1. destruct (step_send s1 i) as [s2 o2] eqn:E2.
  destruct (step_recv c g s2 i) as [[s3 o3]|] eqn:E3; [|discriminate]. injection E as <- <-.
  exists s1, o1, s2, o2, (taken s2 i), o3. split; [eapply sp_clean; exact E1|]. split; [eapply sp_send; exact E2|].
  split; [apply sp_receive; exact E3|reflexivity].
Qed.
Lemma sreach_spreach c g s : sreach c g s -> spreach c g s.
Proof.
  induction 1 as [now|s i s' o R IH E]; [constructor|]. apply single_phases in E as (s1 & o1 & s2 & o2 & t & o3 & P1 & P2 & P3 & _).
  eauto using spreach_step.
Qed.
Lemma update_twice h a e e' : update_handle (update_handle h a e) a e' = update_handle h a e'.
Proof.
  induction h as [|[b x] h IH]; cbn; [reflexivity|]. destruct (a =? b) eqn:E; cbn; rewrite E; [reflexivity|]. rewrite IH. reflexivity.
Qed.
Lemma send_client_opts buflen e v e' plain ok : send_client buflen e v = (e', plain, ok) -> c_opts (en_conn e') = c_opts (en_conn e).
Proof.
  unfold send_client. destruct (en_work e); [|intros [= <- _ _]; reflexivity].
  unfold send_data_block. destruct (reader_next _ _ _ _ _) as [r1 res].
  destruct res as [[b|]|[|]|]; intros [= <- _ _]; cbn [en_conn];
    destruct (retry_due _ _), (e_sock v); reflexivity.
Qed.

(** Phases in sequence, with everything sent. *)
Inductive mphases (c : crypto) (g : srvcfg) : mstate -> mstate -> outs -> Prop :=
| mph_none m : mphases c g m m []
| mph_cons m t m1 m2 o1 o2 : mphase c g m t m1 o1 -> mphases c g m1 m2 o2 -> mphases c g m m2 (o1 ++ o2).
Lemma plains_app a l1 l2 : plains a (l1 ++ l2) = plains a l1 ++ plains a l2.
Proof. apply map_app. Qed.
Lemma multi_phases c g m m' o : mstep c g m m' o -> mphases c g m m' o.
Proof.
  intros H. destruct H as [m ev i m' o E|m a e buflen v1 v2 v3 ev t plain EF ET].
  - rewrite <- (app_nil_r o). econstructor; [eapply mp_main; exact E|constructor].
  - unfold thread_turn in ET. destruct (timeout_client _ _ _ _ _) as [drop p0] eqn:E0. destruct drop.
    { injection ET as <- <-. rewrite <- (app_nil_r (plains _ _)). econstructor; [eapply mp_end; eassumption|constructor]. }
    destruct (send_client buflen e v2) as [[e1 p1] ok] eqn:E1.
    pose proof (send_client_opts _ _ _ _ _ _ E1) as EO.
    assert (P1 := mp_send c g m a e buflen v1 v2 p0 e1 p1 ok EF E0 E1).
    assert (F1 : find_handle (update_handle (m_handles m) a (mkT true e1)) a = Some (mkT true e1))
      by (rewrite find_update_handle by congruence; rewrite N.eqb_refl; reflexivity).
    destruct ev as [d| |].
    + assert (EC : thread_cut e d = thread_cut e1 d) by (unfold thread_cut; rewrite EO; reflexivity). rewrite EC in ET.
      destruct (handle_client c (g_max_size g) e1 (thread_cut e1 d) v3) as [[e2 p2]|] eqn:E2; injection ET as <- <-.
      * rewrite plains_app, <- (update_twice _ a (mkT true e1)). econstructor; [exact P1|].
        rewrite <- (app_nil_r (plains _ p2)). econstructor; [|constructor].
        exact (mp_receive c g (mkM _ _) a e1 d v3 e2 p2 F1 E2).
      * rewrite <- (app_nil_r (plains _ _)). rewrite <- (update_twice _ a (mkT true e1)). econstructor; [exact P1|].
        change (@nil (addr * out)) with ([] ++ @nil (addr * out)). econstructor; [|constructor].
        exact (mp_panic c g (mkM _ _) a e1 d v3 F1 E2).
    + injection ET as <- <-. rewrite <- (app_nil_r (plains _ _)). econstructor; [exact P1|constructor].
    + injection ET as <- <-. rewrite <- (app_nil_r (plains _ _)), <- (update_twice _ a (mkT true e1)). econstructor; [exact P1|].
      change (@nil (addr * out)) with ([] ++ @nil (addr * out)). econstructor; [|constructor].
      exact (mp_error c g (mkM _ _) a e1 F1).
Qed.
Lemma mphases_reach c g m m' o : mpreach c g m -> mphases c g m m' o -> mpreach c g m'.
Proof. intros R H. revert R. induction H; intros R; [exact R|]. apply IHmphases. eapply mpreach_step; eassumption. Qed.
Lemma mreach_mpreach c g m : mreach c g m -> mpreach c g m.
Proof. induction 1; [constructor|]. eapply mphases_reach; [eassumption|apply multi_phases; eassumption]. Qed.

(** Every turn of either server is a sequence of phases that sends the same. *)
Theorem turns_are_phases :
  (forall c g s i s' o, server_step c g s i = Some (s', o) ->
    exists s1 o1 s2 o2 t o3, sphase c g s TookNothing s1 o1 /\ sphase c g s1 TookNothing s2 o2 /\ sphase c g s2 t s' o3 /\
      o = o1 ++ o2 ++ o3) /\
  (forall c g s, sreach c g s -> spreach c g s) /\
  (forall c g m m' o, mstep c g m m' o -> mphases c g m m' o) /\
  (forall c g m, mreach c g m -> mpreach c g m).
Proof.
  split; [exact single_phases|]. split; [exact sreach_spreach|]. split; [exact multi_phases|exact mreach_mpreach].
Qed.

(** ** Accepting *)
Lemma accept_opts c cfg env av d x reply : server_new c cfg env av d = SAccepted x reply ->
  512 <= sc_max_bs cfg -> 1 <= sc_max_window cfg ->
  512 <= op_bs (es_opts x) <= sc_max_bs cfg /\ 1 <= op_window (es_opts x) /\
  (if es_write x then es_reader x = None
   else exists kd, es_reader x = Some (new_reader kd (bs_enc (es_opts x)) (op_window (es_opts x))) /\
          (kd = KSingle -> op_window (es_opts x) = 1)).
Proof.
  intros H HB HW. apply server_new_accepted in H as [(buf & hs & o0 & r & used & o & keys & size & FN & _ & SP & _ & _ & EO & _ & RD & _)].
  assert (F0 : fresh o0) by (destruct (from_new_cases c cfg d) as [E|(sk & p & data & K & P & D & E)]; rewrite FN in E; injection E as -> -> ->; reflexivity).
  pose proof (server_limits _ _ _ _ _ _ _ _ _ F0 SP) as ((B1 & B2 & _) & (W1 & W2 & _) & _).
  assert (E1 : op_bs (es_opts x) = op_bs o) by (rewrite EO; destruct (es_write x); reflexivity).
  assert (E2 : op_window (es_opts x) = op_window o) by (rewrite EO; destruct (es_write x); reflexivity).
  rewrite E1, E2. specialize (W2 HW). split; [lia|]. split; [lia|].
  destruct (es_write x); [exact RD|]. destruct RD as [RD NN]. rewrite <- E2. unfold block_reader in RD.
  destruct (_ && _)%bool; [exists KSeek; split; [exact RD|discriminate]|].
  destruct (op_window (es_opts x) =? 1) eqn:E; cbn [andb] in RD.
  - destruct (av_single av); [exists KSingle; split; [exact RD|intros _; apply N.eqb_eq; exact E]|].
    destruct (av_multi av); [exists KMulti; split; [exact RD|discriminate]|].
    destruct (av_seek av); [exists KSeek; split; [exact RD|discriminate]|congruence].
  - destruct (av_multi av); [exists KMulti; split; [exact RD|discriminate]|].
    destruct (av_seek av); [exists KSeek; split; [exact RD|discriminate]|congruence].
Qed.
Lemma receive_size cfg d : server_receive cfg d = Ok d -> sc_max_bs cfg <= 1425 /\
  takeN (N.max (sc_max_bs cfg + DATA_PACKET_HEADER_SIZE) MIN_BUFFER_SIZE) d = d.
Proof.
  unfold server_receive, create_max_buffer, DATA_PACKET_HEADER_SIZE, MIN_BUFFER_SIZE, MAX_BUFFER_SIZE.
  destruct (N.leb_spec (N.max (sc_max_bs cfg + 4) 516) 1429) as [H|H]; [|discriminate]. intros [= E]. split; [lia|exact E].
Qed.
Lemma negotiates_agree c cfg env av write d w k x : crypto_ok c -> negotiates c cfg env write d w k ->
  server_new c cfg env av d = SAccepted x (Some w) ->
  agree (k_opts k) (k_sock k) x /\ sc_max_bs cfg <= 1425 /\
  takeN (N.max (sc_max_bs cfg + DATA_PACKET_HEADER_SIZE) MIN_BUFFER_SIZE) d = d.
Proof.
  intros HC (cc & o & eph & hs & nonce & name & s & keys & o1 & ex & w' & p & sp & txt & q & H1 & H2 & H3 & H4 & H5 & H6 & H7 & H8 & H9 & H10 & H11 & H12 & E1 & E2) HS.
  rewrite E1, E2. split; [|apply receive_size; exact H8].
  assert (HZ : forall n, h_open env (es_path x) = Some (Some n) -> n <= U64_MAX) by (intros n Hn; eapply H4; exact Hn).
  destruct (q_ack q) eqn:QA; [eapply (handshake_agreement c cc o eph hs nonce write name d s keys o1 ex cfg env av x w w' p sp txt q); assumption|].
  destruct H12 as [H12|[-> H12]]; [discriminate|].
  eapply (handshake_agreement_plain c cc o eph hs nonce name d s keys o1 ex cfg env av x w w' p sp txt q); assumption.
Qed.

(** The single threaded server takes a request. *)
Lemma single_accepts c g s i s1 o a d e w : taken s i = TookMain a d -> sview s a = None ->
  step_recv c g s i = Some (s1, o) -> sent_to a o = [OWire w] -> sview s1 a = Some e ->
  exists x, server_new c (g_cfg g) (i_henv i) (i_av i) (recv_cut g d) = SAccepted x (Some w) /\
    e = new_entry x (e_now (i_env i)) (i_file i).
Proof.
  unfold taken, sview, step_recv. intros TK V0 E SO V1. destruct (scan _ _ _ _) as [[[b y]|] cursor]; cbn [fst] in TK; [discriminate|].
  destruct (i_main i) as [b y| |]; try discriminate. injection TK as -> ->.
  unfold has_entry in E. rewrite V0 in E. unfold new_client in E. cbn [s_clients set_recv] in E.
  destruct (_ <=? _); [injection E as <- <-; cbn [s_clients set_recv] in V1; congruence|].
  destruct (server_new _ _ _ _ _) as [|reply|x reply]; [discriminate|injection E as <- <-; cbn [s_clients set_recv] in V1; congruence|].
  injection E as <- <-. cbn [s_clients set_recv] in V1. rewrite find_insert, N.eqb_refl in V1 by exact V0. injection V1 as <-.
  rewrite sent_to_wire, N.eqb_refl in SO. destruct reply as [w0|]; [|discriminate]. injection SO as ->. eauto.
Qed.
Lemma multi_accepts c g m i m1 o a d e w : HandlesOk m -> mview m a = None ->
  main_turn c g m (MData a d) i = Some (m1, o) -> sent_to a o = [OWire w] -> mview m1 a = Some e ->
  exists x, server_new c (g_cfg g) (i_henv i) (i_av i) (recv_cut g d) = SAccepted x (Some w) /\
    e = new_entry x (e_now (i_env i)) (i_file i).
Proof.
  unfold mview, main_turn. intros HO V0 E SO V1. pose proof (sorted_nodup _ HO) as ND. set (h := filter _ (m_handles m)) in *.
  assert (LV : live_entry h a = None) by (unfold h; rewrite live_filter; assumption).
  destruct (find_handle h a) eqn:EF; [injection E as <- <-; cbn in SO; discriminate|].
  destruct (_ <=? _); [injection E as <- <-; cbn in SO; discriminate|].
  destruct (server_new _ _ _ _ _) as [|reply|x reply]; [discriminate|injection E as <- <-; cbn [m_handles] in V1; congruence|].
  injection E as <- <-. cbn [m_handles] in V1. unfold live_entry in V1. rewrite find_insert_handle, N.eqb_refl in V1 by exact EF. injection V1 as <-.
  rewrite sent_to_wire, N.eqb_refl in SO. destruct reply as [w0|]; [|discriminate]. injection SO as ->. eauto.
Qed.

(** ** The transfer *)
Section T.
Context {S : Type} (step : S -> took -> S -> outs -> Prop) (view : S -> addr -> option entry).
Variables (c : crypto) (g : srvcfg) (a : addr) (k : cside) (cut : entry -> bytes -> bytes) (Inv : S -> Prop).
Hypothesis HI : forall s t s' o e e', Inv s -> step s t s' o -> view s a = Some e -> view s' a = Some e' -> Inv s'.
Hypothesis HV : forall s t s' o e, Inv s -> step s t s' o -> view s a = Some e -> pev c g a cut e t (view s' a) (sent_to a o).
Variables (env : henv) (av : avail) (d w : bytes) (x : est) (now : N) (fs : bytes -> bytes) (s1 : S) (wr : bool) (t : N).
Hypothesis HC : crypto_ok c.
Hypothesis HB : 512 <= sc_max_bs (g_cfg g).
Hypothesis HW : 1 <= sc_max_window (g_cfg g).
Hypothesis HN : negotiates c (g_cfg g) env wr d w k.
Hypothesis HX : server_new c (g_cfg g) env av (recv_cut g d) = SAccepted x (Some w).
Hypothesis HI1 : Inv s1.
Hypothesis V1 : view s1 a = Some (new_entry x now fs).
Variable L : N.
Hypothesis HL : op_bs (es_opts x) + 4 <= L /\ 516 <= L.
Hypothesis Hcut : forall e d, c_opts (en_conn e) = es_opts x -> cut e d = takeN L d.

Lemma t_whole : recv_cut g d = d.
Proof.
  destruct HN as (cc & o & eph & hs & nonce & name & s & keys & o1 & ex & w' & p & sp & txt & q & H1 & H2 & H3 & H4 & H5 & H6 & H7 & H8 & _).
  unfold recv_cut. apply receive_size in H8. apply H8.
Qed.
Lemma t_agree : agree (k_opts k) (k_sock k) x /\ sc_max_bs (g_cfg g) <= 1425.
Proof. pose proof HX as X. rewrite t_whole in X. destruct (negotiates_agree _ _ _ _ _ _ _ _ _ HC HN X) as (A1 & A2 & _). auto. Qed.
Lemma t_opts : 512 <= op_bs (es_opts x) <= 1425 /\ 1 <= op_window (es_opts x).
Proof. destruct (accept_opts _ _ _ _ _ _ _ HX HB HW) as (A1 & A2 & _). pose proof (proj2 t_agree). lia. Qed.
Lemma t_bs : bs_enc (k_opts k) = bs_enc (es_opts x) /\ op_window (k_opts k) = op_window (es_opts x).
Proof. destruct t_agree as [(E1 & E2 & E3 & _) _]. unfold bs_enc. rewrite E1, E3. auto. Qed.
Lemma t_stale (f f' : bytes -> option bytes) (P : (bytes -> option bytes) -> dgram -> Prop) l :
  (forall d, f d = f' d) -> (forall y, (forall d, f d = f' d) -> P f y -> P f' y) -> Forall (P f) l -> Forall (P f') l.
Proof. intros E H. apply Forall_impl. intros y. apply H. exact E. Qed.
Lemma stale_s_ext f f' y : (forall d, f d = f' d) -> stale_for_sender f y -> stale_for_sender f' y.
Proof. intros E. unfold stale_for_sender. rewrite E. auto. Qed.
Lemma stale_r_ext f f' y : (forall d, f d = f' d) -> stale_for_receiver f y -> stale_for_receiver f' y.
Proof. intros E. unfold stale_for_receiver. rewrite E. auto. Qed.

Lemma t_dec e y : e = new_entry x now fs -> entry_dec c e (cut e y) = srv_dec c x L y.
Proof. intros ->. apply dec_cut; [exact Hcut|reflexivity|reflexivity]. Qed.

(** The worlds in which a transfer starts satisfy the relation to SystemModel. *)
Lemma download_start e file r down up : e = new_entry x now fs -> en_work e = WRead file r ->
  (nblocks file (bs_enc (k_opts k)) <= 55535 \/ op_window (k_opts k) <= 10000) ->
  Forall (stale_for_receiver (client_dec c (k_sock k) (op_bs (k_opts k)))) down ->
  Forall (stale_for_sender (fun y => entry_dec c e (cut e y))) up ->
  exists kd st, valid (dP c g k x L file kd) /\ dinit (dP c g k x L file kd) st /\
    dsim view a Inv x file (mkDW s1 false (crecv_new t) CRun down up 0 0) st.
Proof.
  intros EE EW HNB HD HU. destruct t_bs as [TB TW]. rewrite TB, TW in *.
  destruct (accept_opts _ _ _ _ _ _ _ HX HB HW) as (_ & _ & RD).
  assert (R0 : exists kd, es_reader x = Some r /\ r = new_reader kd (bs_enc (es_opts x)) (op_window (es_opts x)) /\ (kd = KSingle -> op_window (es_opts x) = 1)).
  { rewrite EE in EW. unfold new_entry in EW. cbn [en_work] in EW. destruct (es_reader x) as [r0|]; [|discriminate].
    injection EW as _ <-. destruct (es_write x); [discriminate|]. destruct RD as (kd & [= ->] & RK). eauto. }
  destruct R0 as (kd & ER & -> & RK).
  pose proof t_opts as TO. exists kd. eexists.
  split.
  { unfold valid, dP, p_n, p_bs. cbn [p_opts p_kind p_file]. repeat split; try lia; auto. }
  split.
  { exists now, t, down, up. split; [exact HD|]. split; [|reflexivity].
    eapply Forall_impl; [|exact HU]. intros y. apply stale_s_ext. intros y'. apply t_dec. exact EE. }
  split; [intros _; exact HI1|].
  cbn [d_cl d_stat d_down d_up d_seenc d_seens d_live d_conn d_reader dw_srv dw_over dw_cl dw_stat dw_down dw_up dw_sc dw_ss].
  do 5 (split; [reflexivity|]). intros _. do 2 (split; [reflexivity|]). exists e. rewrite EE in *. split; [exact V1|].
  split; [reflexivity|]. split; [reflexivity|]. rewrite EW. reflexivity.
Qed.
Lemma upload_start e path seek file down up : e = new_entry x now fs -> en_work e = WWrite path writer_new ->
  (nblocks file (bs_enc (k_opts k)) <= 55535 \/ op_window (k_opts k) <= 10000) ->
  Forall (stale_for_sender (client_dec c (k_sock k) (op_bs (k_opts k)))) down ->
  Forall (stale_for_receiver (fun y => entry_dec c e (cut e y))) up ->
  exists kd st, valid (uP c g k x L file kd) /\ uinit (uP c g k x L file kd) st /\
    usim view a Inv x (mkUW s1 false [] (mkCS (client_reader (k_opts k) seek) 0 t) CRun down up 0 0) st.
Proof.
  intros EE EW HNB HD HU. destruct t_bs as [TB TW]. unfold client_reader. rewrite TB, TW in *.
  pose proof t_opts as TO.
  assert (R0 : exists kd, (if (op_window (es_opts x) =? 1) && negb seek then RS (single_new (bs_enc (es_opts x)))
      else if seek then RK (seek_new (bs_enc (es_opts x)) (op_window (es_opts x)))
      else RM (multi_new (bs_enc (es_opts x)) (op_window (es_opts x)))) = new_reader kd (bs_enc (es_opts x)) (op_window (es_opts x)) /\
      (kd = KSingle -> op_window (es_opts x) = 1)).
  { destruct seek.
    - rewrite Bool.andb_false_r. exists KSeek. split; [reflexivity|discriminate].
    - rewrite Bool.andb_true_r. destruct (N.eqb_spec (op_window (es_opts x)) 1) as [E|E]; [exists KSingle|exists KMulti]; split; try reflexivity; auto. discriminate. }
  destruct R0 as (kd & ER & RK). rewrite ER. exists kd. eexists.
  split.
  { unfold valid, uP, p_n, p_bs. cbn [p_opts p_kind p_file]. repeat split; try lia; auto. }
  split.
  { exists now, t, down, up. split; [exact HD|]. split; [|reflexivity].
    eapply Forall_impl; [|exact HU]. intros y. apply stale_r_ext. intros y'. apply t_dec. exact EE. }
  split; [intros _; exact HI1|].
  cbn [u_cl u_stat u_down u_up u_seenc u_seens u_live u_conn u_writer w_out writer_new uw_srv uw_over uw_kept uw_cl uw_stat uw_down uw_up uw_sc uw_ss].
  do 6 (split; [reflexivity|]). intros _. do 2 (split; [reflexivity|]). exists e, path. rewrite EE in *. split; [exact V1|].
  split; [reflexivity|]. split; [reflexivity|]. rewrite EW. reflexivity.
Qed.

Lemma download_world e file r down up W : e = new_entry x now fs -> en_work e = WRead file r ->
  (nblocks file (bs_enc (k_opts k)) <= 55535 \/ op_window (k_opts k) <= 10000) ->
  Forall (stale_for_receiver (client_dec c (k_sock k) (op_bs (k_opts k)))) down ->
  Forall (stale_for_sender (fun y => entry_dec c e (cut e y))) up ->
  dwreach step view c a k (nblocks file (bs_enc (k_opts k))) (mkDW s1 false (crecv_new t) CRun down up 0 0) W ->
  let out := w_out (cr_w (dw_cl W)) in
  out = takeN (w_written (cr_w (dw_cl W)) * bs_enc (k_opts k)) file /\
  (forall total, dw_stat W = CDone total -> out = file /\ total = blen file) /\
  (forall e', dw_over W = false -> view (dw_srv W) a = Some e' -> c_finished (en_conn e') = true -> out = file).
Proof.
  intros EE EW HNB HD HU HR. destruct (download_start e file r down up EE EW HNB HD HU) as (kd & st & HP & IN & DS).
  destruct t_bs as [TB TW]. rewrite TB in *. pose proof t_opts as TO. pose proof (proj1 t_agree) as TA.
  eapply (drel_safe view c g a k Inv x L file kd HP). eapply (drel_reach step view c g a k cut Inv HI HV x L file kd HC TA (proj1 (proj1 TO)) HL Hcut HP); [|exact HR].
  exists st. split; [apply dreach_init; exact IN|exact DS].
Qed.

Lemma upload_world e path seek file down up W : e = new_entry x now fs -> en_work e = WWrite path writer_new ->
  (nblocks file (bs_enc (k_opts k)) <= 55535 \/ op_window (k_opts k) <= 10000) ->
  Forall (stale_for_sender (client_dec c (k_sock k) (op_bs (k_opts k)))) down ->
  Forall (stale_for_receiver (fun y => entry_dec c e (cut e y))) up ->
  uwreach step view c a k file (nblocks file (bs_enc (k_opts k)))
    (mkUW s1 false [] (mkCS (client_reader (k_opts k) seek) 0 t) CRun down up 0 0) W ->
  (exists m, uw_kept W = takeN (m * bs_enc (k_opts k)) file) /\
  (forall total, uw_stat W = CDone total -> uw_kept W = file /\ total = blen file) /\
  (forall e', uw_over W = false -> view (uw_srv W) a = Some e' -> c_finished (en_conn e') = true -> uw_kept W = file).
Proof.
  intros EE EW HNB HD HU HR. destruct (upload_start e path seek file down up EE EW HNB HD HU) as (kd & st & HP & IN & DS).
  destruct t_bs as [TB TW]. rewrite TB in *. pose proof t_opts as TO. pose proof (proj1 t_agree) as TA.
  eapply (urel_safe view c g a k Inv x L file kd HP). eapply (urel_reach step view c g a k cut Inv HI HV x L file kd HC TA (proj1 (proj1 TO)) HL Hcut HP); [|exact HR].
  exists st. split; [apply ureach_init; exact IN|exact DS].
Qed.
End T.

(** ** The theorems *)
Lemma scut_ok g x : op_bs (es_opts x) <= sc_max_bs (g_cfg g) ->
  let L := N.max (sc_max_bs (g_cfg g) + DATA_PACKET_HEADER_SIZE) MIN_BUFFER_SIZE in
  (op_bs (es_opts x) + 4 <= L /\ 516 <= L) /\ forall e d, c_opts (en_conn e) = es_opts x -> scut g e d = takeN L d.
Proof. intros H. cbn zeta. unfold DATA_PACKET_HEADER_SIZE, MIN_BUFFER_SIZE. split; [lia|]. intros e d _. reflexivity. Qed.
Lemma tcut_ok x :
  let L := N.max (op_bs (es_opts x) + DATA_PACKET_HEADER_SIZE) MIN_BUFFER_SIZE in
  (op_bs (es_opts x) + 4 <= L /\ 516 <= L) /\ forall e d, c_opts (en_conn e) = es_opts x -> thread_cut e d = takeN L d.
Proof. cbn zeta. unfold DATA_PACKET_HEADER_SIZE, MIN_BUFFER_SIZE. split; [lia|]. intros e d E. unfold thread_cut. rewrite E. reflexivity. Qed.

(** A client that asked the single threaded server for a file and agreed with it on the options
    gets that file: what it has stored is always a prefix made of whole blocks (or everything), and
    it reports success only with the complete file - whatever the network does with the datagrams,
    whatever other clients do meanwhile, before and afterwards, and whatever was agreed to be
    encrypted. *)
Theorem busy_single_download : forall c g a s0 i s1 o d w e file r k t down up W,
  crypto_ok c -> 512 <= sc_max_bs (g_cfg g) -> 1 <= sc_max_window (g_cfg g) ->
  (* the server, in any state without a connection for [a], takes the request [d] and answers [w] *)
  spreach c g s0 -> sview s0 a = None -> taken s0 i = TookMain a d -> step_recv c g s0 i = Some (s1, o) ->
  sent_to a o = [OWire w] -> sview s1 a = Some e -> en_work e = WRead file r ->
  (* the client has asked with [d] and accepts [w] *)
  negotiates c (g_cfg g) (i_henv i) false d w k ->
  let n := nblocks file (bs_enc (k_opts k)) in
  n <= 55535 \/ op_window (k_opts k) <= 10000 ->
  Forall (stale_for_receiver (client_dec c (k_sock k) (op_bs (k_opts k)))) down ->
  Forall (stale_for_sender (fun y => entry_dec c e (recv_cut g y))) up ->
  dwreach (sphase c g) sview c a k n (mkDW s1 false (crecv_new t) CRun down up 0 0) W ->
  let out := w_out (cr_w (dw_cl W)) in
  out = takeN (w_written (cr_w (dw_cl W)) * bs_enc (k_opts k)) file /\
  (forall total, dw_stat W = CDone total -> out = file /\ total = blen file) /\
  (forall e', dw_over W = false -> sview (dw_srv W) a = Some e' -> c_finished (en_conn e') = true -> out = file).
Proof.
  intros c g a s0 i s1 o d w e file r k t down up W HC HB HW R0 V0 TK E SO V1 EW HN n HNB HD HU HR.
  destruct (single_accepts _ _ _ _ _ _ _ _ _ _ TK V0 E SO V1) as (x & HX & EE).
  destruct (accept_opts _ _ _ _ _ _ _ HX HB HW) as ((_ & A1) & _). destruct (scut_ok g x A1) as [HL HCUT].
  assert (OK1 : TableOk g s1) by (eapply step_recv_ok; [eapply spreach_ok; exact R0|exact E]).
  pose proof V1 as V1'. rewrite EE in V1'.
  eapply (download_world (sphase c g) sview c g a k (scut g) (TableOk g) (fun s t s' o _ _ I P _ _ => sphase_ok c g s t s' o I P)
    (fun s t s' o e => sphase_pev c g s t s' o a e) _ _ d w x _ _ s1 false t HC HB HW HN HX OK1 V1' _ HL HCUT); eassumption.
Qed.
(** The same with the multi threaded server. *)
Theorem busy_multi_download : forall c g a m0 i m1 o d w e file r k t down up W,
  crypto_ok c -> 512 <= sc_max_bs (g_cfg g) -> 1 <= sc_max_window (g_cfg g) ->
  mpreach c g m0 -> mview m0 a = None -> main_turn c g m0 (MData a d) i = Some (m1, o) ->
  sent_to a o = [OWire w] -> mview m1 a = Some e -> en_work e = WRead file r ->
  negotiates c (g_cfg g) (i_henv i) false d w k ->
  let n := nblocks file (bs_enc (k_opts k)) in
  n <= 55535 \/ op_window (k_opts k) <= 10000 ->
  Forall (stale_for_receiver (client_dec c (k_sock k) (op_bs (k_opts k)))) down ->
  Forall (stale_for_sender (fun y => entry_dec c e (thread_cut e y))) up ->
  dwreach (mphase c g) mview c a k n (mkDW m1 false (crecv_new t) CRun down up 0 0) W ->
  let out := w_out (cr_w (dw_cl W)) in
  out = takeN (w_written (cr_w (dw_cl W)) * bs_enc (k_opts k)) file /\
  (forall total, dw_stat W = CDone total -> out = file /\ total = blen file) /\
  (forall e', dw_over W = false -> mview (dw_srv W) a = Some e' -> c_finished (en_conn e') = true -> out = file).
Proof.
  intros c g a m0 i m1 o d w e file r k t down up W HC HB HW R0 V0 E SO V1 EW HN n HNB HD HU HR.
  destruct (multi_accepts _ _ _ _ _ _ _ _ _ _ (mpreach_ok _ _ _ R0) V0 E SO V1) as (x & HX & EE).
  destruct (tcut_ok x) as [HL HCUT].
  assert (OK1 : HandlesOk m1) by (eapply mphase_ok; [eapply mpreach_ok; exact R0|eapply mp_main; exact E]).
  pose proof V1 as V1'. rewrite EE in V1'.
  eapply (download_world (mphase c g) mview c g a k thread_cut HandlesOk (fun s t s' o _ _ I P _ _ => mphase_ok c g s t s' o I P)
    (fun s t s' o e => mphase_pev c g s t s' o a e) _ _ d w x _ _ m1 false t HC HB HW HN HX OK1 V1' _ HL HCUT); eassumption.
Qed.

(** Uploads: the file stored by the server is always a prefix of whole blocks of the client's file
    (or everything); the client reports success only if it is complete, and so does the server. *)
Lemma fresh_writer x now fs e path w : e = new_entry x now fs -> en_work e = WWrite path w -> w = writer_new.
Proof. intros ->. unfold new_entry. cbn [en_work]. destruct (es_reader x); [discriminate|]. intros [= _ <-]. reflexivity. Qed.
Theorem busy_single_upload : forall c g a s0 i s1 o d w e path wr k seek file t down up W,
  crypto_ok c -> 512 <= sc_max_bs (g_cfg g) -> 1 <= sc_max_window (g_cfg g) ->
  spreach c g s0 -> sview s0 a = None -> taken s0 i = TookMain a d -> step_recv c g s0 i = Some (s1, o) ->
  sent_to a o = [OWire w] -> sview s1 a = Some e -> en_work e = WWrite path wr ->
  negotiates c (g_cfg g) (i_henv i) true d w k ->
  let n := nblocks file (bs_enc (k_opts k)) in
  n <= 55535 \/ op_window (k_opts k) <= 10000 ->
  Forall (stale_for_sender (client_dec c (k_sock k) (op_bs (k_opts k)))) down ->
  Forall (stale_for_receiver (fun y => entry_dec c e (recv_cut g y))) up ->
  uwreach (sphase c g) sview c a k file n (mkUW s1 false [] (mkCS (client_reader (k_opts k) seek) 0 t) CRun down up 0 0) W ->
  (exists m, uw_kept W = takeN (m * bs_enc (k_opts k)) file) /\
  (forall total, uw_stat W = CDone total -> uw_kept W = file /\ total = blen file) /\
  (forall e', uw_over W = false -> sview (uw_srv W) a = Some e' -> c_finished (en_conn e') = true -> uw_kept W = file).
Proof.
  intros c g a s0 i s1 o d w e path wr k seek file t down up W HC HB HW R0 V0 TK E SO V1 EW HN n HNB HD HU HR.
  destruct (single_accepts _ _ _ _ _ _ _ _ _ _ TK V0 E SO V1) as (x & HX & EE).
  destruct (accept_opts _ _ _ _ _ _ _ HX HB HW) as ((_ & A1) & _). destruct (scut_ok g x A1) as [HL HCUT].
  assert (OK1 : TableOk g s1) by (eapply step_recv_ok; [eapply spreach_ok; exact R0|exact E]).
  pose proof V1 as V1'. rewrite EE in V1'. rewrite (fresh_writer _ _ _ _ _ _ EE EW) in EW.
  eapply (upload_world (sphase c g) sview c g a k (scut g) (TableOk g) (fun s t s' o _ _ I P _ _ => sphase_ok c g s t s' o I P)
    (fun s t s' o e => sphase_pev c g s t s' o a e) _ _ d w x _ _ s1 true t HC HB HW HN HX OK1 V1' _ HL HCUT); eassumption.
Qed.
Theorem busy_multi_upload : forall c g a m0 i m1 o d w e path wr k seek file t down up W,
  crypto_ok c -> 512 <= sc_max_bs (g_cfg g) -> 1 <= sc_max_window (g_cfg g) ->
  mpreach c g m0 -> mview m0 a = None -> main_turn c g m0 (MData a d) i = Some (m1, o) ->
  sent_to a o = [OWire w] -> mview m1 a = Some e -> en_work e = WWrite path wr ->
  negotiates c (g_cfg g) (i_henv i) true d w k ->
  let n := nblocks file (bs_enc (k_opts k)) in
  n <= 55535 \/ op_window (k_opts k) <= 10000 ->
  Forall (stale_for_sender (client_dec c (k_sock k) (op_bs (k_opts k)))) down ->
  Forall (stale_for_receiver (fun y => entry_dec c e (thread_cut e y))) up ->
  uwreach (mphase c g) mview c a k file n (mkUW m1 false [] (mkCS (client_reader (k_opts k) seek) 0 t) CRun down up 0 0) W ->
  (exists m, uw_kept W = takeN (m * bs_enc (k_opts k)) file) /\
  (forall total, uw_stat W = CDone total -> uw_kept W = file /\ total = blen file) /\
  (forall e', uw_over W = false -> mview (uw_srv W) a = Some e' -> c_finished (en_conn e') = true -> uw_kept W = file).
Proof.
  intros c g a m0 i m1 o d w e path wr k seek file t down up W HC HB HW R0 V0 E SO V1 EW HN n HNB HD HU HR.
  destruct (multi_accepts _ _ _ _ _ _ _ _ _ _ (mpreach_ok _ _ _ R0) V0 E SO V1) as (x & HX & EE).
  destruct (tcut_ok x) as [HL HCUT].
  assert (OK1 : HandlesOk m1) by (eapply mphase_ok; [eapply mpreach_ok; exact R0|eapply mp_main; exact E]).
  pose proof V1 as V1'. rewrite EE in V1'. rewrite (fresh_writer _ _ _ _ _ _ EE EW) in EW.
  eapply (upload_world (mphase c g) mview c g a k thread_cut HandlesOk (fun s t s' o _ _ I P _ _ => mphase_ok c g s t s' o I P)
    (fun s t s' o e => mphase_pev c g s t s' o a e) _ _ d w x _ _ m1 true t HC HB HW HN HX OK1 V1' _ HL HCUT); eassumption.
Qed.
Print Assumptions turns_are_phases.
Print Assumptions busy_single_download.
Print Assumptions busy_multi_download.
Print Assumptions busy_single_upload.
Print Assumptions busy_multi_upload.
