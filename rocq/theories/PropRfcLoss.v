(** C87. *)
From Verif Require Import Base BaseProofs PacketModel PacketSpec PacketProofs MapperModel MapperProofs ReaderModel ReaderSpec BlockLemmas ReaderProofs
  WriterSpec WriterProofs ConfigModel Base64Model CryptoModel CryptoSpec CryptoProofs PropCrypto ExtModel ExtSpec ExtProofs PathModel ConnModel ClientModel ConnSpec
  HandshakeModel HandshakeProofs PropExt PropHandshake AgreeProofs PropAgree SystemModel CoreProofs DownloadProofs UploadProofs LiveModel LiveProofs
  ServerModel ServerSpec ServerProofs PropServer PropFair WorldModel WorldProofs WorldB WorldC PropWorld ProgressModel ProgressProofs ProgressB PropProgress
  RfcSpec RfcProofs PropRfc RfcLossSpec.

Lemma rfc_data_cut i b : blen b <= 512 -> takeN 516 (rfc_data i b) = rfc_data i b.
Proof.
  intros H. apply takeN_all. unfold rfc_data, rfc_number. rewrite !blen_app. change (blen [0; 3]) with 2.
  change (blen [i mod 65536 / 256; i mod 65536 mod 256]) with 2. lia.
Qed.

Section D.
Context {S : Type} (step : S -> took -> S -> outs -> Prop) (view : S -> addr -> option entry).
Variables (c : crypto) (g : srvcfg) (a : addr) (cut : entry -> bytes -> bytes) (Inv : S -> Prop) (file : bytes).
Notation k := (rfc_side file).
Hypothesis HI : forall s t s' o e e', Inv s -> step s t s' o -> view s a = Some e -> view s' a = Some e' -> Inv s'.
Hypothesis HV : forall s t s' o e, Inv s -> step s t s' o -> view s a = Some e -> pev c g a cut e t (view s' a) (sent_to a o).
Variables (x : est) (L : N) (kd : kind).
Hypothesis HC : crypto_ok c.
Hypothesis HA : agree (k_opts k) (k_sock k) x.
Hypothesis HL : op_bs (es_opts x) + 4 <= L /\ 516 <= L.
Hypothesis Hcut : forall e d, c_opts (en_conn e) = es_opts x -> cut e d = takeN L d.
Notation PD := (dP c g k x L file kd).
Notation PU := (uP c g k x L file KSingle).
Hypothesis HPd : valid PD.
Hypothesis HPu : valid PU.
Notation n := (blen file / 512 + 1).

Lemma dstate_resends st s e : DInv PD st s -> en_conn e = d_conn st -> en_work e = WRead file (d_reader st) -> c_finished (en_conn e) = false ->
  conf s < n /\ resends e (rfc_data (conf s + 1) (putter_block file (conf s + 1))).
Proof.
  intros I C0 W0 FI. rewrite C0 in FI. destruct (x_bs file x HA) as (B1 & B2 & B3 & B4).
  assert (PB : p_bs PD = 512) by exact B4.
  assert (PN : p_n PD = n) by exact (x_n c g file x L kd HA).
  pose proof I as (HCo & _ & TR & HF & _). pose proof (core_win PD _ _ HPd _ _ _ _ _ _ _ HCo) as K. rewrite PN in *.
  assert (LT : conf s < n) by (rewrite FI in HF; lia). split; [exact LT|].
  intros buflen v (D1 & D2 & D3). rewrite C0 in D1.
  destruct (dresend PD HPd st s buflen (e_now v) (e_txt v) I FI D1) as (i & c1 & r1 & Hi & TR' & SD & _).
  rewrite TR in TR'. symmetry in TR'. rewrite PB, PN in *.
  assert (EI : i = conf s + 1).
  { pose proof (transfer_block PD HPd (conf s) i) as TB. rewrite PB, PN in TB. apply TB; [exact LT|lia|]. symmetry; exact TR'. }
  subst i. unfold send_client. rewrite W0, C0, D2, D3. change (p_file PD) with file in SD. rewrite SD.
  rewrite rfc_data_bytes, putter_block_of. eauto.
Qed.

Lemma grel_recovers G e : grel view c g a Inv file x L kd G -> gw_over G = false -> view (gw_srv G) a = Some e -> c_finished (en_conn e) = false ->
  let j := got_blocks (gw_cl G) in
  exists i, (i = j \/ i = j + 1) /\ 1 <= i <= n /\ resends e (rfc_data i (putter_block file i)) /\
    (i = j + 1 -> getter_hears (gw_cl G) (rfc_data i (putter_block file i)) = mkG i (got (gw_cl G) ++ putter_block file i) (i =? n)) /\
    (i = j -> forall v s' o e', step (gw_srv G) (TookClient a (rfc_ack j) v) s' o -> view s' a = Some e' ->
       if j =? n then c_finished (en_conn e') = true
       else c_finished (en_conn e') = false /\ resends e' (rfc_data (j + 1) (putter_block file (j + 1)))) /\ Inv (gw_srv G).
Proof.
  intros (W & (st & R & DS) & E1 & E2 & E3 & E4 & E5 & E6 & E7 & E8 & E9 & E10) OV VE FI. cbn zeta.
  destruct (x_bs file x HA) as (B1 & B2 & B3 & B4).
  assert (PB : p_bs PD = 512) by exact B4.
  assert (PN : p_n PD = n) by exact (x_n c g file x L kd HA).
  destruct (dreach_inv PD HPd st R) as [s I]. pose proof DS as (II & D1 & D2 & D3 & D4 & D5 & DL).
  rewrite E1, E2 in *. destruct (DL OV) as (D6 & LV & e0 & V0 & C0 & K0 & W0). rewrite VE in V0. injection V0 as <-.
  destruct (dstate_resends st s e I C0 W0 FI) as [LT RS].
  pose proof I as (HCo & HO & _ & HF & HS). pose proof (core_win PD _ _ HPd _ _ _ _ _ _ _ HCo) as (K1 & K2 & K3 & K4 & K5).
  pose proof HCo as (m & _ & _ & _ & _ & C5 & C6 & _). cbn [dP p_opts] in K5. rewrite B2 in K5. rewrite D1, E7 in *.
  exists (conf s + 1). split; [lia|]. split; [lia|]. split; [exact RS|]. split; [|split].
  - intros EI. assert (EC : conf s = got_blocks (gw_cl G)) by lia. clear EI.
    assert (GA : got_all (gw_cl G) = false).
    { destruct (got_all (gw_cl G)); [|reflexivity]. destruct E9 as [t E9]. rewrite D2, E9 in HS. destruct HS as [HS _]. rewrite PN in HS. lia. }
    unfold getter_hears. rewrite putter_block_of. rewrite rfc_data_cut by apply block_le.
    unfold rfc_data, rfc_number. cbn [app]. rewrite GA, num16, EC, N.eqb_refl. cbn [negb andb]. f_equal.
    pose proof (block_short file 512 ltac:(lia) (got_blocks (gw_cl G) + 1)) as BS.
    assert (NB : nblocks file 512 = n) by reflexivity. rewrite NB in BS. specialize (BS ltac:(lia) ltac:(lia)).
    destruct (N.ltb_spec (blen (block_of file 512 (got_blocks (gw_cl G) + 1))) 512) as [H|H]; [rewrite (proj1 BS H); symmetry; apply N.eqb_refl|].
    symmetry. apply N.eqb_neq. intros H'. apply BS in H'. lia.
  - intros EJ v s' o e' ST VE'. rewrite <- EJ in *. specialize (II OV).
    pose proof (HV _ _ _ _ _ II ST VE) as PV.
    assert (EO : c_opts (en_conn e) = es_opts x) by (rewrite C0; exact HO).
    rewrite VE' in PV. remember (sent_to a o) as ot eqn:EOT. remember (TookClient a (rfc_ack (conf s + 1)) v) as tk eqn:ETK. remember (Some e') as vw eqn:EVW.
    destruct PV as [t0 Ht|t0 v0 plain Ht ET|t0 buflen v0 e'0 plain ok Ht AC SC|t0|d v0 e'0 plain EH];
      try (rewrite ETK in Ht; cbn in Ht; rewrite N.eqb_refl in Ht; discriminate); [discriminate|].
    injection ETK as -> ->. injection EVW as ->.
    destruct (handle_client_read c g cut x L file Hcut _ _ _ _ _ _ EH EO K0 W0) as (cn' & r' & HR & -> & ->).
    rewrite C0 in HR. cbn [en_conn].
    assert (IN : In (rfc_ack (conf s + 1), Some (conf s + 1)) (d_up st)) by (rewrite D4; apply E10; lia).
    assert (FR : not_too_old PD (d_seens st) (rfc_ack (conf s + 1), Some (conf s + 1))) by (right; lia).
    destruct (danswer_step PD HPd st s _ (conf s + 1) (e_now v) cn' r' (Some tt) I LV IN eq_refl FR HR) as (_ & _ & s'' & I' & M1 & M2).
    pose proof I' as (HCo' & _ & _ & HF' & _). pose proof (core_win PD _ _ HPd _ _ _ _ _ _ _ HCo') as (K1' & _).
    unfold danswer in HF', K1', HCo'. cbn [d_conn d_cl] in HF', K1'. rewrite D1, E7 in K1'. rewrite PN in HF'.
    assert (EC : conf s'' = conf s + 1) by lia. rewrite EC in HF'. rewrite HF'.
    destruct (N.eqb_spec (conf s + 1) n) as [EN|EN]; [reflexivity|]. split; [reflexivity|].
    assert (F' : c_finished (en_conn (mkE cn' (en_key e) (WRead file r'))) = false) by (cbn [en_conn]; rewrite HF'; reflexivity).
    destruct (dstate_resends _ s'' (mkE cn' (en_key e) (WRead file r')) I' eq_refl eq_refl F') as [_ RS']. rewrite EC in RS'. exact RS'.
  - exact (II OV).
Qed.

Lemma prel_recovers G e : prel view c g a Inv file x L G -> pw_over G = false -> view (pw_srv G) a = Some e -> c_invalid (en_conn e) = None ->
  blen file <= g_max_size g -> let j := pw_cl G in 1 <= j <= putter_last file ->
  forall v s' o e', step (pw_srv G) (TookClient a (rfc_data j (putter_block file j)) v) s' o ->
    e_io v = false -> e_short v = None -> e_sock v = true -> view s' a = Some e' ->
    sent_to a o = [OPlain (rfc_ack j)] /\ keep (pw_kept G) (Some e') = takeN (512 * j) file /\
    c_invalid (en_conn e') = None /\ (j = putter_last file -> c_finished (en_conn e') = true).
Proof.
  intros (W & RW & E1 & E2 & E3 & E4 & E5 & E6 & E7 & E8) OV VE IV HM j Hj v s' o e' ST IO SH SO VE'. unfold j in *. clear j. set (j := pw_cl G) in *.
  assert (LE : (j <=? putter_last file) = true) by lia. rewrite LE in E8. assert (MX : N.max 1 j = j) by lia. rewrite MX in E8. cbn zeta in E8.
  destruct E8 as (RU & (r & ER & RR & RL) & INB).
  destruct (x_bs file x HA) as (B1 & B2 & B3 & B4).
  destruct (x_nu c g file x L HA) as [XN XB].
  destruct (single_facts view c g a Inv file x L HA HPu W r RW ER) as (s & F1 & F2 & F3 & F4 & F5 & (st & R & US & CO) & F7).
  destruct F5 as [[F5 _]|[_ F5]]; [contradiction|]. rewrite RR in F1.
  destruct (ureach_inv PU HPu st R) as [s0 (_ & (SO1 & SO2 & SO3) & _)].
  destruct US as (II & U1 & U2 & U3 & U4 & U5 & UK & UL). rewrite E1, E2 in *.
  destruct (UL OV) as (U6 & LV & e0 & path & V0 & C0 & K0 & W0). rewrite VE in V0. injection V0 as <-.
  specialize (II OV). pose proof (HV _ _ _ _ _ II ST VE) as PV.
  assert (EO : c_opts (en_conn e) = es_opts x) by (rewrite C0; exact SO1).
  rewrite VE' in PV. remember (sent_to a o) as ot eqn:EOT. remember (TookClient a (rfc_data j (putter_block file j)) v) as tk eqn:ETK. remember (Some e') as vw eqn:EVW.
  destruct PV as [t0 Ht|t0 v0 plain Ht ET|t0 buflen v0 e'0 plain ok Ht AC SC|t0|d v0 e'0 plain EH];
    try (rewrite ETK in Ht; cbn in Ht; rewrite N.eqb_refl in Ht; discriminate); [discriminate|].
  injection ETK as -> ->. injection EVW as ->.
  destruct (handle_client_write c g cut x L Hcut _ _ _ _ _ _ _ EH EO K0 W0) as (cn' & w' & HW & ->).
  rewrite IO, SH, SO in HW. pose proof (core_win PU _ _ HPu _ _ _ _ _ _ _ CO) as (K1 & K2 & K3 & K4 & K5).
  pose proof CO as (m & _ & _ & _ & CO4 & C5 & C6 & C7 & C8 & C9 & _).
  destruct (write_block (u_writer st) (j mod 65536) (block_of file 512 j) false None) as [w1 res] eqn:EW.
  assert (FR : not_too_old PU (u_seens st) (rfc_data j (putter_block file j), Some j)) by (right; lia).
  assert (EW' : write_block (u_writer st) (j mod 65536) (block_of (p_file PU) (p_bs PU) j) false None = (w1, res)) by (rewrite XB; exact EW).
  destruct (core_receive PU _ _ HPu _ _ _ _ _ _ _ _ _ _ _ _ CO INB FR EW') as [CO' RC].
  pose proof CO' as (m' & _ & _ & _ & OUT & _). rewrite XB in OUT. change (p_file PU) with file in OUT.
  assert (WJ : w_written w1 = j).
  { destruct res as [[n1 i1]|[cc i1|cc i1|]|]; [lia|lia|lia|destruct RC as (_ & _ & RC); discriminate|contradiction]. }
  assert (KEPT : w_out w1 = takeN (512 * j) file).
  { rewrite OUT, WJ. unfold prefix_size. destruct (N.le_gt_cases (j * 512) (blen file)) as [H|H].
    - rewrite N.min_l by exact H. f_equal. lia.
    - rewrite N.min_r by lia. rewrite !takeN_all by lia. reflexivity. }
  pose proof (data_ok_bytes := proj1 (Forall_forall _ _) C9 _ INB). unfold data_ok in data_ok_bytes. cbn [fst snd] in data_ok_bytes. destruct data_ok_bytes as (_ & _ & DEC).
  unfold handle_write in HW. cbn [uP p_decs] in DEC. change (uP c g k x L file KSingle) with PU in DEC. rewrite XB in DEC. change (p_file PU) with file in DEC.
  rewrite DEC in HW.
  rewrite decode_data in HW by (apply N.mod_upper_bound; discriminate).
  unfold srv_write_block in HW. rewrite EW in HW.
  assert (DUE : forall l i1 wr, ack_due (c_opts (en_conn e)) l i1 wr = true).
  { intros. unfold ack_due. rewrite EO, B2. reflexivity. }
  destruct res as [[n1 i1]|[cc i1|cc i1|]|].
  - destruct RC as (-> & RC1 & RC2 & -> & _).
    assert (FN : c_finished (en_conn e) = false).
    { destruct (c_finished (en_conn e)) eqn:FE; [|reflexivity]. rewrite C0 in FE. destruct (SO2 FE) as [SO4 _]. rewrite XN in SO4. lia. }
    assert (RN : running (u_conn st)) by (split; congruence).
    destruct (SO3 RN) as [SO5 SO6]. rewrite XB in SO6. change (p_file PU) with file in SO6.
    assert (NB : nblocks file 512 = putter_last file) by reflexivity.
    pose proof (prefix_step file 512 ltac:(lia) (w_written (u_writer st))) as PS. rewrite NB in PS. rewrite XN in SO5. specialize (PS SO5). rewrite <- RC1 in PS.
    assert (PL : prefix_size file 512 j <= blen file) by (unfold prefix_size; lia).
    assert (SZ : size_ok (c_transfer (en_conn e) + blen (block_of file 512 j)) (g_max_size g) = true).
    { unfold size_ok. rewrite C0, SO6. apply Bool.negb_true_iff, N.ltb_ge. lia. }
    rewrite XB in HW. change (p_file PU) with file in HW. rewrite SZ in HW. cbn [negb] in HW. rewrite DUE in HW. cbn [andb when] in HW. injection HW as <- <- <-.
    cbn [map en_conn]. rewrite rfc_ack_bytes. split; [reflexivity|]. split; [cbn; exact KEPT|].
    assert (BE : bs_enc (c_opts (en_conn e)) = 512) by (rewrite EO; exact B4). rewrite BE.
    split; [destruct (_ <? 512); cbn; exact IV|]. intros EJ.
    pose proof (block_short file 512 ltac:(lia) j ltac:(lia)) as BS. rewrite NB in BS. specialize (BS ltac:(lia)).
    assert (SHORT : (blen (block_of file 512 j) <? 512) = true) by (apply N.ltb_lt, BS; exact EJ).
    rewrite SHORT. reflexivity.
  - destruct RC as (RC1 & -> & -> & RC3 & RC4).
    rewrite DUE in HW. cbn [andb when] in HW. injection HW as <- <- <-. cbn [map en_conn].
    assert (EWJ : w_written (u_writer st) = j) by lia. rewrite EWJ.
    rewrite rfc_ack_bytes. split; [reflexivity|]. split; [cbn; exact KEPT|]. split; [exact IV|].
    intros EJ. cbn. change (c_finished (set_acked (en_conn e) j)) with (c_finished (en_conn e)).
    destruct (c_finished (en_conn e)) eqn:FE; [reflexivity|].
    assert (RN : running (u_conn st)) by (split; congruence). destruct (SO3 RN) as [SO5 _]. rewrite XN in SO5. lia.
  - lia.
  - destruct RC as (_ & _ & RC). discriminate.
  - contradiction.
Qed.

End D.

(** ** From the request on *)
Section T.
Context {S : Type} (step : S -> took -> S -> outs -> Prop) (view : S -> addr -> option entry).
Variables (c : crypto) (g : srvcfg) (a : addr) (cut : entry -> bytes -> bytes) (Inv : S -> Prop).
Hypothesis HI : forall s t s' o e e', Inv s -> step s t s' o -> view s a = Some e -> view s' a = Some e' -> Inv s'.
Hypothesis HV : forall s t s' o e, Inv s -> step s t s' o -> view s a = Some e -> pev c g a cut e t (view s' a) (sent_to a o).
Variables (env : henv) (av : avail) (name : bytes) (x : est) (reply : option bytes) (now : N) (fs : bytes -> bytes) (s1 : S) (wr : bool).
Hypothesis HC : crypto_ok c.
Hypothesis HB : 512 <= sc_max_bs (g_cfg g).
Hypothesis HW : 1 <= sc_max_window (g_cfg g).
Hypothesis HN : good_string name.
Hypothesis HS : in_clear c (g_cfg g) (rfc_request wr name).
Hypothesis HX : server_new c (g_cfg g) env av (rfc_request wr name) = SAccepted x reply.
Hypothesis HI1 : Inv s1.
Hypothesis V1 : view s1 a = Some (new_entry x now fs).
Variable L : N.
Hypothesis HL : op_bs (es_opts x) + 4 <= L /\ 516 <= L.
Hypothesis Hcut : forall e d, c_opts (en_conn e) = es_opts x -> cut e d = takeN L d.

Lemma rfc_download_recovers e file r W e1 : e = new_entry x now fs -> en_work e = WRead file r ->
  gwreach step view c a file (mkGW s1 false (mkG 0 [] false) [] [] 0 0) W ->
  gw_over W = false -> view (gw_srv W) a = Some e1 -> c_finished (en_conn e1) = false ->
  let j := got_blocks (gw_cl W) in
  exists i, (i = j \/ i = j + 1) /\ 1 <= i <= blen file / 512 + 1 /\ resends e1 (rfc_data i (putter_block file i)) /\
    (i = j + 1 -> getter_hears (gw_cl W) (rfc_data i (putter_block file i)) = mkG i (got (gw_cl W) ++ putter_block file i) (i =? blen file / 512 + 1)) /\
    (i = j -> forall v s' o e', step (gw_srv W) (TookClient a (rfc_ack j) v) s' o -> view s' a = Some e' ->
       if j =? blen file / 512 + 1 then c_finished (en_conn e') = true
       else c_finished (en_conn e') = false /\ resends e' (rfc_data (j + 1) (putter_block file (j + 1)))) /\ Inv (gw_srv W).
Proof.
  intros EE EW HR. destruct (plain_accepted _ _ _ _ _ _ _ _ HC HN HS HX) as (_ & _ & AG). specialize (AG file).
  destruct (x_bs file x AG) as (B1 & B2 & B3 & B4). destruct (accept_opts _ _ _ _ _ _ _ HX HB HW) as (_ & _ & RD).
  assert (R0 : exists kd, es_reader x = Some r /\ r = new_reader kd (bs_enc (es_opts x)) (op_window (es_opts x)) /\ (kd = KSingle -> op_window (es_opts x) = 1)).
  { rewrite EE in EW. unfold new_entry in EW. cbn [en_work] in EW. destruct (es_reader x) as [r0|]; [|discriminate].
    injection EW as _ <-. destruct (es_write x); [discriminate|]. destruct RD as (kd & [= ->] & RK). eauto. }
  destruct R0 as (kd & ER & ERR & RK).
  assert (HP : valid (dP c g (rfc_side file) x L file kd)).
  { unfold valid, dP. cbn [p_opts p_kind]. rewrite B1, B2. split; [lia|]. split; [lia|]. split; [lia|]. split; [reflexivity|right; lia]. }
  eapply (grel_recovers step view c g a cut Inv file HI HV x L kd AG HL Hcut HP).
  eapply (grel_reach step view c g a cut Inv file HI HV x L kd HC AG HL Hcut HP); [|exact HR].
  exists (mkDW s1 false (crecv_new 0) CRun [] [] 0 0). split.
  - exists (mkD (conn_new (es_opts x) now) (new_reader kd (bs_enc (es_opts x)) (op_window (es_opts x))) true (crecv_new 0) CRun [] [] 0 0).
    split; [apply dreach_init; exists now, 0, [], []; split; [constructor|]; split; [constructor|reflexivity]|].
    split; [intros _; exact HI1|].
    cbn [d_cl d_stat d_down d_up d_seenc d_seens d_live d_conn d_reader dw_srv dw_over dw_cl dw_stat dw_down dw_up dw_sc dw_ss].
    do 5 (split; [reflexivity|]). intros _. do 2 (split; [reflexivity|]). exists e. rewrite EE in *. split; [exact V1|].
    split; [reflexivity|]. split; [reflexivity|]. rewrite EW, ERR. reflexivity.
  - unfold gsim. cbn. do 5 (split; [reflexivity|]). split; [intros ? []|]. do 3 (split; [reflexivity|]). lia.
Qed.

Lemma rfc_upload_recovers e path w file W e1 : e = new_entry x now fs -> en_work e = WWrite path w ->
  pwreach step view c a file (mkPW s1 false [] 0 [(rfc_ack 0, Some 0)] [] 0 0) W ->
  pw_over W = false -> view (pw_srv W) a = Some e1 -> c_invalid (en_conn e1) = None ->
  blen file <= g_max_size g -> let j := pw_cl W in 1 <= j <= putter_last file ->
  forall v s' o e', step (pw_srv W) (TookClient a (rfc_data j (putter_block file j)) v) s' o ->
    e_io v = false -> e_short v = None -> e_sock v = true -> view s' a = Some e' ->
    sent_to a o = [OPlain (rfc_ack j)] /\ keep (pw_kept W) (Some e') = takeN (512 * j) file /\
    c_invalid (en_conn e') = None /\ (j = putter_last file -> c_finished (en_conn e') = true).
Proof.
  intros EE EW HR. rewrite (fresh_writer _ _ _ _ _ _ EE EW) in EW. destruct (plain_accepted _ _ _ _ _ _ _ _ HC HN HS HX) as (_ & _ & AG). specialize (AG file).
  destruct (x_bs file x AG) as (B1 & B2 & B3 & B4).
  assert (HP : valid (uP c g (rfc_side file) x L file KSingle)).
  { unfold valid, uP. cbn [p_opts p_kind]. rewrite B1, B2. split; [lia|]. split; [lia|]. split; [lia|]. split; [reflexivity|right; lia]. }
  eapply (prel_recovers step view c g a cut Inv file HI HV x L AG HL Hcut HP).
  eapply (prel_reach step view c g a cut Inv file HI HV x L HC AG HL Hcut HP); [|exact HR].
  pose (W0 := mkUW s1 false [] (mkCS (RS (single_new 512)) 0 0) CRun [(rfc_ack 0, Some 0)] [] 0 0).
  apply (prel_start step view c g a cut Inv file HI HV x L HC AG HL Hcut HP W0 (single_new 512) 0); try reflexivity.
  exists (mkU (conn_new (es_opts x) now) writer_new true (mkCS (RS (single_new 512)) 0 0) CRun [(rfc_ack 0, Some 0)] [] 0 0).
  split.
  { apply ureach_init. exists now, 0, [(rfc_ack 0, Some 0)], []. split; [constructor; [right; split; reflexivity|constructor]|]. split; [constructor|].
    unfold p_bs. cbn [uP p_opts p_kind]. rewrite B4. reflexivity. }
  split; [intros _; exact HI1|].
  cbn [u_cl u_stat u_down u_up u_seenc u_seens u_live u_conn u_writer w_out writer_new uw_srv uw_over uw_kept uw_cl uw_stat uw_down uw_up uw_sc uw_ss W0].
  do 6 (split; [reflexivity|]). intros _. do 2 (split; [reflexivity|]). exists e, path. rewrite EE in *. split; [exact V1|].
  split; [reflexivity|]. split; [reflexivity|]. rewrite EW. reflexivity.
Qed.
End T.

Lemma putter_goes_on file j : j <= putter_last file -> putter_hears file j (rfc_ack j) = j + 1.
Proof.
  intros H. unfold putter_hears. rewrite takeN_all by (change (blen (rfc_ack j)) with 4; lia).
  unfold rfc_ack, rfc_number. cbn [app]. rewrite num16. assert (E : (j <=? putter_last file) = true) by lia. rewrite E, N.eqb_refl. reflexivity.
Qed.

(** A client of RFC 1350 fetches a file from the single threaded server.  In every state that can be reached, as long as the
    transfer is not over, the server retransmits one block: the one the client is waiting for, and the client that gets
    it goes on; or the last one the client has got, and the server that gets the client's acknowledgement of it goes on,
    or is done.  So no loss stops the transfer; and the retransmission is not left out for longer
    than the server needs to serve each of its clients once. *)
Theorem plain_download_recovers_single : forall c g a s0 i s1 o name e file r W e1,
  crypto_ok c -> 512 <= sc_max_bs (g_cfg g) -> 1 <= sc_max_window (g_cfg g) ->
  good_string name -> blen name <= 500 -> in_clear c (g_cfg g) (rfc_request false name) ->
  spreach c g s0 -> sview s0 a = None -> taken s0 i = TookMain a (rfc_request false name) -> step_recv c g s0 i = Some (s1, o) ->
  sview s1 a = Some e -> en_work e = WRead file r ->
  gwreach (sphase c g) sview c a file (mkGW s1 false (mkG 0 [] false) [] [] 0 0) W ->
  gw_over W = false -> sview (gw_srv W) a = Some e1 -> c_finished (en_conn e1) = false ->
  let j := got_blocks (gw_cl W) in
  (exists b, (b = j \/ b = j + 1) /\ 1 <= b <= blen file / 512 + 1 /\ resends e1 (rfc_data b (putter_block file b)) /\
    (b = j + 1 -> getter_hears (gw_cl W) (rfc_data b (putter_block file b)) = mkG b (got (gw_cl W) ++ putter_block file b) (b =? blen file / 512 + 1)) /\
    (b = j -> forall v s' o' e', sphase c g (gw_srv W) (TookClient a (rfc_ack j) v) s' o' -> sview s' a = Some e' ->
       if j =? blen file / 512 + 1 then c_finished (en_conn e') = true
       else c_finished (en_conn e') = false /\ resends e' (rfc_data (j + 1) (putter_block file (j + 1))))) /\
  (forall L is, In a L -> neglected c g L a e1 (gw_srv W) is -> (length is < length L)%nat).
Proof.
  intros c g a s0 i s1 o name e file r W e1 HC HB HW HN HL HI R0 V0 TK E V1 EW HR OV VE FI.
  destruct (single_takes _ _ _ _ _ _ _ _ _ TK V0 E V1) as (x & reply & HX & EE & SO).
  rewrite whole_request in HX by (apply request_length; exact HL).
  destruct (accept_opts _ _ _ _ _ _ _ HX HB HW) as ((_ & A1) & _). destruct (scut_ok g x A1) as [HL' HCUT].
  assert (OK1 : TableOk g s1) by (eapply step_recv_ok; [eapply spreach_ok; exact R0|exact E]).
  pose proof V1 as V1'. rewrite EE in V1'.
  destruct (rfc_download_recovers (sphase c g) sview c g a (scut g) (TableOk g) (fun s t s' o _ _ I P _ _ => sphase_ok c g s t s' o I P)
    (fun s t s' o e => sphase_pev c g s t s' o a e) _ _ name x _ _ _ s1 false HC HB HW HN HI HX OK1 V1' _ HL' HCUT _ file r W e1 EE EW HR OV VE FI)
    as (b & B1 & B2 & B3 & B4 & B5 & OK).
  cbn zeta. split; [eauto 10|]. intros l is Hin. exact (neglected_bound c g l a e1 _ _ is OK VE B3 Hin).
Qed.
(** The same with the multi threaded server, where every connection has a thread of its own. *)
Theorem plain_download_recovers_multi : forall c g a m0 i m1 o name e file r W e1,
  crypto_ok c -> 512 <= sc_max_bs (g_cfg g) -> 1 <= sc_max_window (g_cfg g) ->
  good_string name -> blen name <= 500 -> in_clear c (g_cfg g) (rfc_request false name) ->
  mpreach c g m0 -> mview m0 a = None -> main_turn c g m0 (MData a (rfc_request false name)) i = Some (m1, o) ->
  mview m1 a = Some e -> en_work e = WRead file r ->
  gwreach (mphase c g) mview c a file (mkGW m1 false (mkG 0 [] false) [] [] 0 0) W ->
  gw_over W = false -> mview (gw_srv W) a = Some e1 -> c_finished (en_conn e1) = false ->
  let j := got_blocks (gw_cl W) in
  exists b, (b = j \/ b = j + 1) /\ 1 <= b <= blen file / 512 + 1 /\ resends e1 (rfc_data b (putter_block file b)) /\
    (b = j + 1 -> getter_hears (gw_cl W) (rfc_data b (putter_block file b)) = mkG b (got (gw_cl W) ++ putter_block file b) (b =? blen file / 512 + 1)) /\
    (b = j -> forall v s' o' e', mphase c g (gw_srv W) (TookClient a (rfc_ack j) v) s' o' -> mview s' a = Some e' ->
       if j =? blen file / 512 + 1 then c_finished (en_conn e') = true
       else c_finished (en_conn e') = false /\ resends e' (rfc_data (j + 1) (putter_block file (j + 1)))).
Proof.
  intros c g a m0 i m1 o name e file r W e1 HC HB HW HN HL HI R0 V0 E V1 EW HR OV VE FI.
  destruct (multi_takes _ _ _ _ _ _ _ _ _ (mpreach_ok _ _ _ R0) V0 E V1) as (x & reply & HX & EE & SO).
  rewrite whole_request in HX by (apply request_length; exact HL).
  destruct (tcut_ok x) as [HL' HCUT].
  assert (OK1 : HandlesOk m1) by (eapply mphase_ok; [eapply mpreach_ok; exact R0|eapply mp_main; exact E]).
  pose proof V1 as V1'. rewrite EE in V1'.
  destruct (rfc_download_recovers (mphase c g) mview c g a thread_cut HandlesOk (fun s t s' o _ _ I P _ _ => mphase_ok c g s t s' o I P)
    (fun s t s' o e => mphase_pev c g s t s' o a e) _ _ name x _ _ _ m1 false HC HB HW HN HI HX OK1 V1' _ HL' HCUT _ file r W e1 EE EW HR OV VE FI)
    as (b & B1 & B2 & B3 & B4 & B5 & OK).
  cbn zeta. eauto 10.
Qed.

(** A client of RFC 1350 stores a file that is not too large.  In every state that can be reached, if the block the
    client is sending gets to the server again, the server has stored the file up to and including this block, and
    answers with its acknowledgement, on which the client goes on; with the last block the server is done. *)
Theorem plain_upload_recovers_single : forall c g a s0 i s1 o name e path w file W e1,
  crypto_ok c -> 512 <= sc_max_bs (g_cfg g) -> 1 <= sc_max_window (g_cfg g) ->
  good_string name -> blen name <= 500 -> in_clear c (g_cfg g) (rfc_request true name) ->
  spreach c g s0 -> sview s0 a = None -> taken s0 i = TookMain a (rfc_request true name) -> step_recv c g s0 i = Some (s1, o) ->
  sview s1 a = Some e -> en_work e = WWrite path w ->
  pwreach (sphase c g) sview c a file (mkPW s1 false [] 0 [(rfc_ack 0, Some 0)] [] 0 0) W ->
  pw_over W = false -> sview (pw_srv W) a = Some e1 -> c_invalid (en_conn e1) = None -> blen file <= g_max_size g ->
  let j := pw_cl W in 1 <= j <= putter_last file ->
  putter_hears file j (rfc_ack j) = j + 1 /\
  forall v s' o' e', sphase c g (pw_srv W) (TookClient a (rfc_data j (putter_block file j)) v) s' o' ->
    e_io v = false -> e_short v = None -> e_sock v = true -> sview s' a = Some e' ->
    sent_to a o' = [OPlain (rfc_ack j)] /\ keep (pw_kept W) (Some e') = takeN (512 * j) file /\
    c_invalid (en_conn e') = None /\ (j = putter_last file -> c_finished (en_conn e') = true).
Proof.
  intros c g a s0 i s1 o name e path w file W e1 HC HB HW HN HL HI R0 V0 TK E V1 EW HR OV VE IV SZ. cbn zeta. intros HJ.
  split; [apply putter_goes_on; lia|].
  destruct (single_takes _ _ _ _ _ _ _ _ _ TK V0 E V1) as (x & reply & HX & EE & SO).
  rewrite whole_request in HX by (apply request_length; exact HL).
  destruct (accept_opts _ _ _ _ _ _ _ HX HB HW) as ((_ & A1) & _). destruct (scut_ok g x A1) as [HL' HCUT].
  assert (OK1 : TableOk g s1) by (eapply step_recv_ok; [eapply spreach_ok; exact R0|exact E]).
  pose proof V1 as V1'. rewrite EE in V1'.
  exact (rfc_upload_recovers (sphase c g) sview c g a (scut g) (TableOk g) (fun s t s' o _ _ I P _ _ => sphase_ok c g s t s' o I P)
    (fun s t s' o e => sphase_pev c g s t s' o a e) _ _ name x _ _ _ s1 true HC HB HW HN HI HX OK1 V1' _ HL' HCUT _ path w file W e1 EE EW HR OV VE IV SZ HJ).
Qed.
Theorem plain_upload_recovers_multi : forall c g a m0 i m1 o name e path w file W e1,
  crypto_ok c -> 512 <= sc_max_bs (g_cfg g) -> 1 <= sc_max_window (g_cfg g) ->
  good_string name -> blen name <= 500 -> in_clear c (g_cfg g) (rfc_request true name) ->
  mpreach c g m0 -> mview m0 a = None -> main_turn c g m0 (MData a (rfc_request true name)) i = Some (m1, o) ->
  mview m1 a = Some e -> en_work e = WWrite path w ->
  pwreach (mphase c g) mview c a file (mkPW m1 false [] 0 [(rfc_ack 0, Some 0)] [] 0 0) W ->
  pw_over W = false -> mview (pw_srv W) a = Some e1 -> c_invalid (en_conn e1) = None -> blen file <= g_max_size g ->
  let j := pw_cl W in 1 <= j <= putter_last file ->
  putter_hears file j (rfc_ack j) = j + 1 /\
  forall v s' o' e', mphase c g (pw_srv W) (TookClient a (rfc_data j (putter_block file j)) v) s' o' ->
    e_io v = false -> e_short v = None -> e_sock v = true -> mview s' a = Some e' ->
    sent_to a o' = [OPlain (rfc_ack j)] /\ keep (pw_kept W) (Some e') = takeN (512 * j) file /\
    c_invalid (en_conn e') = None /\ (j = putter_last file -> c_finished (en_conn e') = true).
Proof.
  intros c g a m0 i m1 o name e path w file W e1 HC HB HW HN HL HI R0 V0 E V1 EW HR OV VE IV SZ. cbn zeta. intros HJ.
  split; [apply putter_goes_on; lia|].
  destruct (multi_takes _ _ _ _ _ _ _ _ _ (mpreach_ok _ _ _ R0) V0 E V1) as (x & reply & HX & EE & SO).
  rewrite whole_request in HX by (apply request_length; exact HL).
  destruct (tcut_ok x) as [HL' HCUT].
  assert (OK1 : HandlesOk m1) by (eapply mphase_ok; [eapply mpreach_ok; exact R0|eapply mp_main; exact E]).
  pose proof V1 as V1'. rewrite EE in V1'.
  exact (rfc_upload_recovers (mphase c g) mview c g a thread_cut HandlesOk (fun s t s' o _ _ I P _ _ => mphase_ok c g s t s' o I P)
    (fun s t s' o e => mphase_pev c g s t s' o a e) _ _ name x _ _ _ m1 true HC HB HW HN HI HX OK1 V1' _ HL' HCUT _ path w file W e1 EE EW HR OV VE IV SZ HJ).
Qed.
(** ** The acknowledgement of the request *)
Lemma request_cut_silent m name : match from_bytes (takeN m (rfc_request true name)) with Ok (PData _ _) | Ok (PError _ _) => False | _ => True end.
Proof.
  unfold rfc_request. destruct m as [|m] using N.peano_ind; [exact I|]. clear IHm.
  destruct m as [|m] using N.peano_ind; [exact I|]. clear IHm.
  assert (E : takeN (N.succ (N.succ m)) ([0; 2] ++ name ++ [0] ++ s2b "octet" ++ [0]) = 0 :: 2 :: takeN m (name ++ [0] ++ s2b "octet" ++ [0])).
  { unfold takeN. rewrite !N2Nat.inj_succ. reflexivity. }
  rewrite E. unfold from_bytes. cbn. destruct (request_from_bytes _); exact I.
Qed.
Section F.
Context {S : Type} (step : S -> took -> S -> outs -> Prop) (view : S -> addr -> option entry).
Variables (c : crypto) (g : srvcfg) (a : addr) (cut : entry -> bytes -> bytes) (Inv : S -> Prop).
Hypothesis HI : forall s t s' o e e', Inv s -> step s t s' o -> view s a = Some e -> view s' a = Some e' -> Inv s'.
Hypothesis HV : forall s t s' o e, Inv s -> step s t s' o -> view s a = Some e -> pev c g a cut e t (view s' a) (sent_to a o).
Hypothesis Hcut : forall e d, exists m, cut e d = takeN m d.
Lemma request_again e path w name s0 s l : Inv s0 -> view s0 a = Some e -> en_work e = WWrite path w -> op_enc (c_opts (en_conn e)) = LNone ->
  hears_only step view a (rfc_request true name) s0 s l ->
  (forall e', view s a = Some e' -> Inv s /\ e' = e) /\
  forall o, In o l -> exists code txt, o = OPlain (to_bytes (PError code txt)) /\ forall file, putter_hears file 0 (to_bytes (PError code txt)) = 0.
Proof.
  intros I0 V0 W0 K0 H. induction H as [|s l e1 t s' o H IH V1 ST TK].
  { split; [intros e' V; rewrite V0 in V; injection V as <-; auto|intros ? []]. }
  destruct IH as [IH1 IH2]. destruct (IH1 _ V1) as [I1 ->]. pose proof (HV _ _ _ _ _ I1 ST V1) as PV.
  assert (G : (forall e', view s' a = Some e' -> e' = e) /\ forall o', In o' (sent_to a o) ->
    exists code txt, o' = OPlain (to_bytes (PError code txt)) /\ forall file, putter_hears file 0 (to_bytes (PError code txt)) = 0).
  { remember (view s' a) as vw eqn:EVW. remember (sent_to a o) as ot eqn:EOT.
    destruct PV as [t0 Ht|t0 v0 plain Ht ET|t0 buflen v0 e'0 plain ok Ht AC SC|t0|d v0 e'0 plain EH].
    - split; [intros e' [= <-]; reflexivity|intros ? []].
    - split; [discriminate|]. unfold timeout_client in ET. intros o' Ho.
      destruct (_ || _)%bool; [injection ET as <-; destruct Ho|]. destruct (_ <=? _); [discriminate|]. injection ET as <-.
      destruct (e_sock v0); [|destruct Ho]. destruct Ho as [<-|[]]. eexists _, _. split; [reflexivity|]. intros file. reflexivity.
    - unfold active in AC. rewrite W0 in AC. discriminate.
    - split; [discriminate|intros ? []].
    - destruct TK as [TK|[v TK]]; [cbn in TK; rewrite N.eqb_refl in TK; discriminate|]. injection TK as -> ->.
      destruct (Hcut e (rfc_request true name)) as [m EM]. rewrite EM in EH. unfold handle_client, entry_decrypt in EH. rewrite K0 in EH. cbn [server_decrypt] in EH.
      rewrite W0 in EH. unfold handle_write, entry_dec, entry_decrypt in EH. rewrite K0 in EH. cbn [server_decrypt] in EH.
      pose proof (request_cut_silent m name) as SI.
      assert (EQ : Some (mkE (en_conn e) (en_key e) (WWrite path w), @nil bytes) = Some (e'0, plain)).
      { destruct (from_bytes (takeN m (rfc_request true name))) as [[]| |]; try exact EH; destruct SI. }
      injection EQ as <- <-. split; [intros e' [= <-]; destruct e as [cn kx wk]; cbn [en_conn en_key en_work] in *; rewrite W0; reflexivity|intros ? []]. }
  destruct G as [G1 G2]. split.
  - intros e' V'. split; [eapply HI; eassumption|apply G1; exact V'].
  - intros o' Ho. apply in_app_iff in Ho as [Ho|Ho]; [apply IH2; exact Ho|apply G2; exact Ho].
Qed.
End F.

(** If the acknowledgement of block 0 is lost, the client of RFC 1350 repeats its request; but a server
    that has taken the request does not answer it again while it has the connection: it leaves the connection as it is, and sends
    at most a notice of the time limit, which the client cannot go on with.  (After that a new request is
    taken as the first one was.) *)
Theorem first_ack_not_repeated_single : forall c g a s0 i s1 o name e path w s l,
  crypto_ok c -> 512 <= sc_max_bs (g_cfg g) -> 1 <= sc_max_window (g_cfg g) ->
  good_string name -> blen name <= 500 -> in_clear c (g_cfg g) (rfc_request true name) ->
  spreach c g s0 -> sview s0 a = None -> taken s0 i = TookMain a (rfc_request true name) -> step_recv c g s0 i = Some (s1, o) ->
  sview s1 a = Some e -> en_work e = WWrite path w ->
  hears_only (sphase c g) sview a (rfc_request true name) s1 s l ->
  (forall e', sview s a = Some e' -> e' = e) /\
  forall o', In o' l -> exists code txt, o' = OPlain (to_bytes (PError code txt)) /\ forall file, putter_hears file 0 (to_bytes (PError code txt)) = 0.
Proof.
  intros c g a s0 i s1 o name e path w s l HC HB HW HN HL HI R0 V0 TK E V1 EW HO.
  destruct (single_takes _ _ _ _ _ _ _ _ _ TK V0 E V1) as (x & reply & HX & EE & SO).
  rewrite whole_request in HX by (apply request_length; exact HL).
  destruct (plain_accepted _ _ _ _ _ _ _ _ HC HN HI HX) as (_ & _ & AG). destruct (x_bs [] x (AG [])) as (_ & _ & B3 & _).
  assert (OK1 : TableOk g s1) by (eapply step_recv_ok; [eapply spreach_ok; exact R0|exact E]).
  destruct (request_again (sphase c g) sview c g a (scut g) (TableOk g) (fun s t s' o _ _ I P _ _ => sphase_ok c g s t s' o I P)
    (fun s t s' o e => sphase_pev c g s t s' o a e) (fun e d => ex_intro _ _ eq_refl) e path w name s1 s l OK1 V1 EW) as [P1 P2]; [rewrite EE; exact B3|exact HO|].
  split; [intros e' V'; exact (proj2 (P1 _ V'))|exact P2].
Qed.
Theorem first_ack_not_repeated_multi : forall c g a m0 i m1 o name e path w m l,
  crypto_ok c -> 512 <= sc_max_bs (g_cfg g) -> 1 <= sc_max_window (g_cfg g) ->
  good_string name -> blen name <= 500 -> in_clear c (g_cfg g) (rfc_request true name) ->
  mpreach c g m0 -> mview m0 a = None -> main_turn c g m0 (MData a (rfc_request true name)) i = Some (m1, o) ->
  mview m1 a = Some e -> en_work e = WWrite path w ->
  hears_only (mphase c g) mview a (rfc_request true name) m1 m l ->
  (forall e', mview m a = Some e' -> e' = e) /\
  forall o', In o' l -> exists code txt, o' = OPlain (to_bytes (PError code txt)) /\ forall file, putter_hears file 0 (to_bytes (PError code txt)) = 0.
Proof.
  intros c g a m0 i m1 o name e path w m l HC HB HW HN HL HI R0 V0 E V1 EW HO.
  destruct (multi_takes _ _ _ _ _ _ _ _ _ (mpreach_ok _ _ _ R0) V0 E V1) as (x & reply & HX & EE & SO).
  rewrite whole_request in HX by (apply request_length; exact HL).
  destruct (plain_accepted _ _ _ _ _ _ _ _ HC HN HI HX) as (_ & _ & AG). destruct (x_bs [] x (AG [])) as (_ & _ & B3 & _).
  assert (OK1 : HandlesOk m1) by (eapply mphase_ok; [eapply mpreach_ok; exact R0|eapply mp_main; exact E]).
  destruct (request_again (mphase c g) mview c g a thread_cut HandlesOk (fun s t s' o _ _ I P _ _ => mphase_ok c g s t s' o I P)
    (fun s t s' o e => mphase_pev c g s t s' o a e) (fun e d => ex_intro _ _ eq_refl) e path w name m1 m l OK1 V1 EW) as [P1 P2]; [rewrite EE; exact B3|exact HO|].
  split; [intros e' V'; exact (proj2 (P1 _ V'))|exact P2].
Qed.
Print Assumptions plain_download_recovers_single.
Print Assumptions plain_download_recovers_multi.
Print Assumptions plain_upload_recovers_single.
Print Assumptions plain_upload_recovers_multi.
Print Assumptions first_ack_not_repeated_single.
Print Assumptions first_ack_not_repeated_multi.
