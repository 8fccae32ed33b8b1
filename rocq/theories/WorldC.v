From Verif Require Import Base BaseProofs PacketModel PacketSpec PacketProofs MapperModel MapperProofs ReaderModel ReaderSpec BlockLemmas ReaderProofs
  WriterSpec WriterProofs ConfigModel Base64Model CryptoModel CryptoSpec CryptoProofs PropCrypto ExtModel ExtSpec ExtProofs PathModel ConnModel ClientModel ConnSpec
  HandshakeModel HandshakeProofs PropExt PropHandshake AgreeProofs PropAgree SystemModel CoreProofs DownloadProofs UploadProofs
  ServerModel ServerSpec ServerProofs PropServer WorldModel WorldProofs WorldB.

Lemma recv_step_opts dec o o' max tmo cl e now io sh sock txt : op_window o = op_window o' -> bs_enc o = bs_enc o' ->
  recv_step dec o max tmo cl e now io sh sock txt = recv_step dec o' max tmo cl e now io sh sock txt.
Proof. intros H1 H2. unfold recv_step, ack_due. rewrite H1, H2. reflexivity. Qed.

Section C.
Context {S : Type} (step : S -> took -> S -> outs -> Prop) (view : S -> addr -> option entry).
Variables (c : crypto) (g : srvcfg) (a : addr) (k : cside) (cut : entry -> bytes -> bytes) (Inv : S -> Prop).
Hypothesis HI : forall s t s' o e e', Inv s -> step s t s' o -> view s a = Some e -> view s' a = Some e' -> Inv s'.
Hypothesis HV : forall s t s' o e, Inv s -> step s t s' o -> view s a = Some e -> pev c g a cut e t (view s' a) (sent_to a o).
Variables (x : est) (L : N) (file : bytes) (kd : kind).
Hypothesis HC : crypto_ok c.
Hypothesis HA : agree (k_opts k) (k_sock k) x.
Hypothesis HB : 512 <= op_bs (es_opts x).
Hypothesis HL : op_bs (es_opts x) + 4 <= L /\ 516 <= L.
Hypothesis Hcut : forall e d, c_opts (en_conn e) = es_opts x -> cut e d = takeN L d.

Lemma dec_cut e d : c_opts (en_conn e) = es_opts x -> en_key e = es_key x ->
  entry_dec c e (cut e d) = srv_dec c x L d.
Proof. intros E1 E2. rewrite Hcut by exact E1. unfold entry_dec, entry_decrypt, srv_dec. rewrite E1, E2. reflexivity. Qed.

Definition dP : params := mkParams file (es_opts x) kd (k_max k) (k_timeout k) (g_timeout g)
  (srv_dec c x L) (client_dec c (k_sock k) (op_bs (k_opts k))).
Hypothesis HP : valid dP.

Definition dsim (W : @dworld S) (st : dstate) : Prop :=
  (dw_over W = false -> Inv (dw_srv W)) /\ d_cl st = dw_cl W /\ d_stat st = dw_stat W /\
    d_down st = dw_down W /\ d_up st = dw_up W /\ d_seenc st = dw_sc W /\
    (dw_over W = false -> d_seens st = dw_ss W /\ d_live st = true /\
      exists e, view (dw_srv W) a = Some e /\ en_conn e = d_conn st /\ en_key e = es_key x /\
        en_work e = WRead file (d_reader st)).
Definition drel (W : @dworld S) : Prop := exists st, dreach dP st /\ dsim W st.

Lemma dopts st : dreach dP st -> c_opts (d_conn st) = es_opts x.
Proof. intros R. destruct (dreach_inv dP HP st R) as [s (_ & HO & _)]. exact HO. Qed.
Lemma bs_agree : bs_enc (k_opts k) = bs_enc (es_opts x).
Proof. destruct HA as (E1 & _ & E3 & _). unfold bs_enc. rewrite E1, E3. reflexivity. Qed.

Lemma sealed_nil e i new : server_sealed c e i [] new -> new = [].
Proof. unfold server_sealed. inversion 1. reflexivity. Qed.

Lemma handle_client_read e d v e' plain r : handle_client c (g_max_size g) e (cut e d) v = Some (e', plain) ->
  c_opts (en_conn e) = es_opts x -> en_key e = es_key x -> en_work e = WRead file r ->
  exists cn r', handle_read (srv_dec c x L) (en_conn e) r d (e_now v) = (cn, r', Some tt) /\
    e' = mkE cn (en_key e) (WRead file r') /\ plain = [].
Proof.
  intros H EO EK EW. unfold handle_client in H. rewrite EW in H.
  assert (E : handle_read (entry_dec c e) (en_conn e) r (cut e d) (e_now v) = handle_read (srv_dec c x L) (en_conn e) r d (e_now v))
    by (unfold handle_read; rewrite dec_cut by assumption; reflexivity).
  rewrite E in H. destruct (handle_read _ _ _ _ _) as [[cn r'] ok].
  assert (H' : match ok with Some _ => Some (mkE cn (en_key e) (WRead file r'), []) | None => None end = Some (e', plain))
    by (destruct (entry_decrypt _ _ _); [exact H|exact H|discriminate]).
  destruct ok as [[]|]; [|discriminate]. injection H' as <- <-. eauto.
Qed.

Lemma dsim_step W W' st : dreach dP st -> dsim W st -> dwstep step view c a k (p_n dP) W W' ->
  exists st', (st' = st \/ dstep dP st st') /\ dsim W' st'.
Proof.
  intros R (II & E1 & E2 & E3 & E4 & E5 & HS) ST.
  destruct ST as [s t s' o e new cl stat down up sc ss H HH VE SL
                 |s y v s' o e new cl stat down up sc ss H IN FR VE SL
                 |s t s' o cl stat down up sc ss H
                 |s over cl down up sc ss ev y v cl' plain stat' new CE FR SH RS SL];
    cbn [dw_srv dw_over dw_cl dw_stat dw_down dw_up dw_sc dw_ss] in *.
  - specialize (II eq_refl). pose proof (fun e' => HI _ _ _ _ e e' II H VE) as II'. pose proof (HV _ _ _ _ _ II H VE) as PV.
    destruct (HS eq_refl) as (E6 & LV & e0 & V0 & C0 & K0 & W0). rewrite VE in V0. injection V0 as <-.
    pose proof (dopts st R) as EO. assert (IX : ended (view s' a) = false -> Inv s') by (destruct (view s' a) as [e1|]; [intros _; exact (II' e1 eq_refl)|discriminate]). cbn [dw_srv dw_over dw_cl dw_stat dw_down dw_up dw_sc dw_ss].
    destruct st as [cn rd lv dcl dstat ddown dup dsc dss]. cbn [d_cl d_stat d_down d_up d_seenc d_seens d_live d_conn d_reader] in *. subst.
    remember (view s' a) as vw eqn:EVW. remember (sent_to a o) as ot eqn:EOT.
    destruct PV as [t0 Ht|t0 v plain Ht ET|t0 buflen v e' plain ok Ht AC SC|t0|d v e' plain EH]; try (cbn in HH; rewrite N.eqb_refl in HH; discriminate).
    + apply sealed_nil in SL as ->. cbn [app].
      eexists. split; [left; reflexivity|]. split; [exact IX|]. cbn [d_cl d_stat d_down d_up d_seenc d_seens d_live d_conn d_reader ended]. do 5 (split; [reflexivity|]). intros _. do 2 (split; [reflexivity|]). exists e. auto.
    +  cbn [entry_mark] in SL.
      eexists. split; [right|split; [exact IX|]].
      { eapply d_server_end; [exact ET|]. eapply server_emitted; try eassumption. eapply timeout_plain; eassumption. }
      cbn [d_cl d_stat d_down d_up d_seenc d_seens d_live d_conn d_reader ended]. do 5 (split; [reflexivity|]). discriminate.
    +  unfold send_client in SC. rewrite W0 in SC.
      destruct (send_data_block _ _ _ _ _ _ _ _) as [[[cn' r'] pl] b] eqn:SD. injection SC as <- <- <-.
      cbn [entry_mark en_work] in SL.
      eexists. split; [right|split; [exact IX|]].
      { eapply d_send with (buflen := buflen) (now := e_now v) (io := e_io v) (sock := e_sock v) (txt := e_txt v); [| exact SD|].
        - unfold active in AC. rewrite W0 in AC. unfold running. destruct (c_invalid (en_conn e)), (c_finished (en_conn e)); try discriminate; auto.
        - eapply server_emitted; try eassumption. eapply (send_plain dP HP _ _ _ _ _ _ _ _ _ _ R). exact SD. }
      cbn [d_cl d_stat d_down d_up d_seenc d_seens d_live d_conn d_reader ended]. do 5 (split; [reflexivity|]). intros _. do 2 (split; [reflexivity|]).
      eexists. split; [symmetry; exact EVW|]. auto.
    + apply sealed_nil in SL as ->. cbn [app].
      eexists. split; [left; reflexivity|]. split; [exact IX|]. cbn [d_cl d_stat d_down d_up d_seenc d_seens d_live d_conn d_reader ended]. do 5 (split; [reflexivity|]). discriminate.
  - specialize (II eq_refl). pose proof (fun e' => HI _ _ _ _ e e' II H VE) as II'. pose proof (HV _ _ _ _ _ II H VE) as PV.
    destruct (HS eq_refl) as (E6 & LV & e0 & V0 & C0 & K0 & W0). rewrite VE in V0. injection V0 as <-.
    pose proof (dopts st R) as EO. assert (IX : ended (view s' a) = false -> Inv s') by (destruct (view s' a) as [e1|]; [intros _; exact (II' e1 eq_refl)|discriminate]). cbn [dw_srv dw_over dw_cl dw_stat dw_down dw_up dw_sc dw_ss].
    destruct st as [cn rd lv dcl dstat ddown dup dsc dss]. cbn [d_cl d_stat d_down d_up d_seenc d_seens d_live d_conn d_reader] in *. subst.
    remember (view s' a) as vw eqn:EVW. remember (sent_to a o) as ot eqn:EOT. remember (TookClient a (fst y) v) as tk eqn:ETK.
    destruct PV as [t0 Ht|t0 v0 plain Ht ET|t0 buflen v0 e' plain ok Ht AC SC|t0|d v0 e' plain EH];
      try (rewrite ETK in Ht; cbn in Ht; rewrite N.eqb_refl in Ht; discriminate).
    + apply sealed_nil in SL as ->. cbn [app].
      eexists. split; [left; reflexivity|]. split; [exact IX|]. cbn [d_cl d_stat d_down d_up d_seenc d_seens d_live d_conn d_reader ended]. do 5 (split; [reflexivity|]). discriminate.
    +  injection ETK as -> ->. destruct (handle_client_read _ _ _ _ _ _ EH EO K0 W0) as (cn' & r' & HR & -> & ->). apply sealed_nil in SL as ->. cbn [app].
      eexists. split; [right|split; [exact IX|]].
      { eapply d_server_receive; [exact IN|exact FR|exact HR]. }
      cbn [d_cl d_stat d_down d_up d_seenc d_seens d_live d_conn d_reader ended]. do 5 (split; [reflexivity|]). intros _. do 2 (split; [reflexivity|]).
      eexists. split; [symmetry; exact EVW|]. auto.
  - exists st. split; [left; reflexivity|]. split; [discriminate|]. cbn [dw_srv dw_over dw_cl dw_stat dw_down dw_up dw_sc dw_ss].
    do 5 (split; [assumption|]). discriminate.
  - cbn [dw_srv dw_over dw_cl dw_stat dw_down dw_up dw_sc dw_ss].
    destruct st as [cn rd lv dcl dstat ddown dup dsc dss]. cbn [d_cl d_stat d_down d_up d_seenc d_seens d_live d_conn d_reader] in *. subst.
    eexists. split; [right|split; [exact II|]].
    { eapply d_client with (now := e_now v) (io := e_io v) (sock := e_sock v) (txt := e_txt v) (e := ev); [exact CE|exact FR| |].
      - rewrite SH in RS. erewrite <- recv_step_opts; [exact RS| |]; [apply HA|apply bs_agree].
      - eapply client_emitted; try eassumption. eapply recv_plain; exact RS. }
    cbn [d_cl d_stat d_down d_up d_seenc d_seens d_live d_conn d_reader ended]. do 5 (split; [reflexivity|]). exact HS.
Qed.
Lemma drel_step W W' : drel W -> dwstep step view c a k (p_n dP) W W' -> drel W'.
Proof.
  intros (st & R & D) ST. destruct (dsim_step W W' st R D ST) as (st' & [->|X] & D'); [exists st; auto|].
  exists st'. split; [eapply dreach_step; eassumption|exact D'].
Qed.
Lemma drel_reach W0 W : drel W0 -> dwreach step view c a k (p_n dP) W0 W -> drel W.
Proof. intros R H. induction H; [exact R|]. eapply drel_step; eassumption. Qed.
Lemma drel_safe W : drel W ->
  let out := w_out (cr_w (dw_cl W)) in
  out = takeN (w_written (cr_w (dw_cl W)) * bs_enc (es_opts x)) file /\
  (forall total, dw_stat W = CDone total -> out = file /\ total = blen file) /\
  (forall e, dw_over W = false -> view (dw_srv W) a = Some e -> c_finished (en_conn e) = true -> out = file).
Proof.
  intros (st & R & _ & E1 & E2 & _ & _ & _ & HS). destruct (dreach_inv dP HP st R) as [s I].
  destruct (dinv_safe dP HP st s I) as (S1 & S2 & S3). rewrite <- E1, <- E2. cbn zeta.
  split; [exact S1|]. split; [exact S2|]. intros e OV VE F. destruct (HS OV) as (_ & _ & e0 & V0 & C0 & _).
  rewrite VE in V0. injection V0 as <-. rewrite C0 in F. apply S3, F.
Qed.

(** Upload *)
Definition uP : params := mkParams file (es_opts x) kd (g_max_size g) (k_timeout k) (g_timeout g)
  (srv_dec c x L) (client_dec c (k_sock k) (op_bs (k_opts k))).
Hypothesis HPu : valid uP.

Definition usim (W : @uworld S) (st : ustate) : Prop :=
  (uw_over W = false -> Inv (uw_srv W)) /\ u_cl st = uw_cl W /\ u_stat st = uw_stat W /\
    u_down st = uw_down W /\ u_up st = uw_up W /\ u_seenc st = uw_sc W /\ w_out (u_writer st) = uw_kept W /\
    (uw_over W = false -> u_seens st = uw_ss W /\ u_live st = true /\
      exists e path, view (uw_srv W) a = Some e /\ en_conn e = u_conn st /\ en_key e = es_key x /\
        en_work e = WWrite path (u_writer st)).
Definition urel (W : @uworld S) : Prop := exists st, ureach uP st /\ usim W st.
Lemma uopts st : ureach uP st -> c_opts (u_conn st) = es_opts x.
Proof. intros R. destruct (ureach_inv uP HPu st R) as [s (_ & (HO & _) & _)]. exact HO. Qed.

Lemma handle_client_write e d v e' plain path w : handle_client c (g_max_size g) e (cut e d) v = Some (e', plain) ->
  c_opts (en_conn e) = es_opts x -> en_key e = es_key x -> en_work e = WWrite path w ->
  exists cn w', handle_write (srv_dec c x L) (en_conn e) w d (e_now v) (g_max_size g) (e_io v) (e_short v) (e_sock v) (e_txt v) = (cn, w', plain) /\
    e' = mkE cn (en_key e) (WWrite path w').
Proof.
  intros H EO EK EW. unfold handle_client in H. rewrite EW in H.
  assert (E : handle_write (entry_dec c e) (en_conn e) w (cut e d) (e_now v) (g_max_size g) (e_io v) (e_short v) (e_sock v) (e_txt v)
    = handle_write (srv_dec c x L) (en_conn e) w d (e_now v) (g_max_size g) (e_io v) (e_short v) (e_sock v) (e_txt v))
    by (unfold handle_write; rewrite dec_cut by assumption; reflexivity).
  rewrite E in H. destruct (handle_write _ _ _ _ _ _ _ _ _ _) as [[cn w'] pl].
  assert (H' : Some (mkE cn (en_key e) (WWrite path w'), pl) = Some (e', plain))
    by (destruct (entry_decrypt _ _ _); [exact H|exact H|discriminate]).
  injection H' as <- <-. eauto.
Qed.

Lemma usim_step W W' st : ureach uP st -> usim W st -> uwstep step view c a k file (p_n uP) W W' ->
  exists st', (st' = st \/ ustep uP st st') /\ usim W' st'.
Proof.
  intros R (II & E1 & E2 & E3 & E4 & E5 & EK & HS) ST.
  destruct ST as [s t s' o e new kept cl stat down up sc ss H HH VE SL
                 |s y v s' o e new kept cl stat down up sc ss H SH IN FR VE SL
                 |s t s' o kept cl stat down up sc ss H
                 |s over kept cl down up sc ss buflen retry io sock cl' plain stat' new BL SS SL
                 |s over kept cl down up sc ss ev y now cl' stat' CE FR SR];
    cbn [uw_srv uw_over uw_kept uw_cl uw_stat uw_down uw_up uw_sc uw_ss] in *.
  - specialize (II eq_refl). pose proof (fun e' => HI _ _ _ _ e e' II H VE) as II'. pose proof (HV _ _ _ _ _ II H VE) as PV.
    destruct (HS eq_refl) as (E6 & LV & e0 & path & V0 & C0 & K0 & W0). rewrite VE in V0. injection V0 as <-.
    pose proof (uopts st R) as EO. assert (IX : ended (view s' a) = false -> Inv s') by (destruct (view s' a) as [e1|]; [intros _; exact (II' e1 eq_refl)|discriminate]). cbn [uw_srv uw_over uw_kept uw_cl uw_stat uw_down uw_up uw_sc uw_ss].
    destruct st as [cn rd lv dcl dstat ddown dup dsc dss]. cbn [u_cl u_stat u_down u_up u_seenc u_seens u_live u_conn u_writer] in *. subst.
    remember (view s' a) as vw eqn:EVW. remember (sent_to a o) as ot eqn:EOT.
    destruct PV as [t0 Ht|t0 v plain Ht ET|t0 buflen v e' plain ok Ht AC SC|t0|d v e' plain EH]; try (cbn in HH; rewrite N.eqb_refl in HH; discriminate).
    + apply sealed_nil in SL as ->. cbn [app].
      eexists. split; [left; reflexivity|]. split; [exact IX|]. cbn [u_cl u_stat u_down u_up u_seenc u_seens u_live u_conn u_writer ended keep]. rewrite W0. do 6 (split; [reflexivity|]). intros _. do 2 (split; [reflexivity|]). exists e, path. auto.
    +  cbn [entry_mark] in SL.
      eexists. split; [right|split; [exact IX|]].
      { eapply u_server_end; [exact ET|]. eapply server_emitted; try eassumption. eapply timeout_plain; eassumption. }
      cbn [u_cl u_stat u_down u_up u_seenc u_seens u_live u_conn u_writer ended keep]. do 6 (split; [reflexivity|]). discriminate.
    + unfold active in AC. rewrite W0 in AC. discriminate.
    + apply sealed_nil in SL as ->. cbn [app].
      eexists. split; [left; reflexivity|]. split; [exact IX|]. cbn [u_cl u_stat u_down u_up u_seenc u_seens u_live u_conn u_writer ended keep]. do 6 (split; [reflexivity|]). discriminate.
  - specialize (II eq_refl). pose proof (fun e' => HI _ _ _ _ e e' II H VE) as II'. pose proof (HV _ _ _ _ _ II H VE) as PV.
    destruct (HS eq_refl) as (E6 & LV & e0 & path & V0 & C0 & K0 & W0). rewrite VE in V0. injection V0 as <-.
    pose proof (uopts st R) as EO. assert (IX : ended (view s' a) = false -> Inv s') by (destruct (view s' a) as [e1|]; [intros _; exact (II' e1 eq_refl)|discriminate]). cbn [uw_srv uw_over uw_kept uw_cl uw_stat uw_down uw_up uw_sc uw_ss].
    destruct st as [cn rd lv dcl dstat ddown dup dsc dss]. cbn [u_cl u_stat u_down u_up u_seenc u_seens u_live u_conn u_writer] in *. subst.
    remember (view s' a) as vw eqn:EVW. remember (sent_to a o) as ot eqn:EOT. remember (TookClient a (fst y) v) as tk eqn:ETK.
    destruct PV as [t0 Ht|t0 v0 plain Ht ET|t0 buflen v0 e' plain ok Ht AC SC|t0|d v0 e' plain EH];
      try (rewrite ETK in Ht; cbn in Ht; rewrite N.eqb_refl in Ht; discriminate).
    + apply sealed_nil in SL as ->. cbn [app].
      eexists. split; [left; reflexivity|]. split; [exact IX|]. cbn [u_cl u_stat u_down u_up u_seenc u_seens u_live u_conn u_writer ended keep]. do 6 (split; [reflexivity|]). discriminate.
    +  injection ETK as -> ->. destruct (handle_client_write _ _ _ _ _ _ _ EH EO K0 W0) as (cn' & w' & HW & ->).
      cbn [entry_mark en_work] in SL.
      eexists. split; [right|split; [exact IX|]].
      { eapply u_server_receive; [exact IN|exact FR|rewrite <- SH; exact HW|]. eapply server_emitted; try eassumption. eapply write_plain; exact HW. }
      cbn [u_cl u_stat u_down u_up u_seenc u_seens u_live u_conn u_writer ended keep en_work]. do 6 (split; [reflexivity|]). intros _. do 2 (split; [reflexivity|]).
      eexists _, path. split; [symmetry; exact EVW|]. auto.
  - exists st. split; [left; reflexivity|]. split; [discriminate|]. cbn [uw_srv uw_over uw_kept uw_cl uw_stat uw_down uw_up uw_sc uw_ss].
    do 6 (split; [assumption|]). discriminate.
  - cbn [uw_srv uw_over uw_kept uw_cl uw_stat uw_down uw_up uw_sc uw_ss].
    destruct st as [cn rd lv dcl dstat ddown dup dsc dss]. cbn [u_cl u_stat u_down u_up u_seenc u_seens u_live u_conn u_writer] in *. subst.
    assert (BL' : op_bs (p_opts uP) + DATA_PACKET_HEADER_SIZE <= buflen) by (cbn [p_opts uP]; destruct HA as (<- & _); exact BL).
    eexists. split; [right|split; [exact II|]].
    { eapply u_send; [exact BL'|exact SS|]. eapply client_emitted; try eassumption. exact (csend_plain uP HPu _ _ _ _ _ _ _ _ R BL' SS). }
    cbn [u_cl u_stat u_down u_up u_seenc u_seens u_live u_conn u_writer ended keep]. do 6 (split; [reflexivity|]). exact HS.
  - cbn [uw_srv uw_over uw_kept uw_cl uw_stat uw_down uw_up uw_sc uw_ss].
    destruct st as [cn rd lv dcl dstat ddown dup dsc dss]. cbn [u_cl u_stat u_down u_up u_seenc u_seens u_live u_conn u_writer] in *. subst.
    eexists. split; [right|split; [exact II|]].
    { eapply u_client_receive; [exact CE|exact FR|exact SR]. }
    cbn [u_cl u_stat u_down u_up u_seenc u_seens u_live u_conn u_writer ended keep]. do 6 (split; [reflexivity|]). exact HS.
Qed.
Lemma urel_step W W' : urel W -> uwstep step view c a k file (p_n uP) W W' -> urel W'.
Proof.
  intros (st & R & D) ST. destruct (usim_step W W' st R D ST) as (st' & [->|X] & D'); [exists st; auto|].
  exists st'. split; [eapply ureach_step; eassumption|exact D'].
Qed.
Lemma urel_reach W0 W : urel W0 -> uwreach step view c a k file (p_n uP) W0 W -> urel W.
Proof. intros R H. induction H; [exact R|]. eapply urel_step; eassumption. Qed.
Lemma urel_safe W : urel W ->
  (exists m, uw_kept W = takeN (m * bs_enc (es_opts x)) file) /\
  (forall total, uw_stat W = CDone total -> uw_kept W = file /\ total = blen file) /\
  (forall e, uw_over W = false -> view (uw_srv W) a = Some e -> c_finished (en_conn e) = true -> uw_kept W = file).
Proof.
  intros (st & R & _ & E1 & E2 & _ & _ & _ & EK & HS). destruct (ureach_inv uP HPu st R) as [s I].
  destruct (uinv_safe uP HPu st s I) as (S1 & S2 & S3). rewrite <- EK, <- E2.
  split; [eexists; exact S1|]. split; [exact S2|]. intros e OV VE F. destruct (HS OV) as (_ & _ & e0 & path & V0 & C0 & _).
  rewrite VE in V0. injection V0 as <-. rewrite C0 in F. apply S3, F.
Qed.
End C.
