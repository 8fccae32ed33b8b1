From Verif Require Import Base BaseProofs PacketModel PacketSpec PacketProofs MapperModel MapperProofs ReaderModel ReaderSpec BlockLemmas ReaderProofs
  WriterSpec WriterProofs ConfigModel Base64Model CryptoModel CryptoSpec CryptoProofs PropCrypto ExtModel ExtSpec ExtProofs PathModel ConnModel ClientModel ConnSpec
  HandshakeModel HandshakeProofs PropExt PropHandshake AgreeProofs PropAgree SystemModel CoreProofs DownloadProofs UploadProofs LiveModel LiveProofs
  ServerModel ServerSpec ServerProofs PropServer WorldModel WorldProofs WorldB WorldC ProgressModel ProgressProofs.

Section B.
Context {S : Type} (step : S -> took -> S -> outs -> Prop) (view : S -> addr -> option entry).
Variables (c : crypto) (g : srvcfg) (a : addr) (k : cside) (cut : entry -> bytes -> bytes) (Inv : S -> Prop).
Hypothesis HI : forall s t s' o e e', Inv s -> step s t s' o -> view s a = Some e -> view s' a = Some e' -> Inv s'.
Hypothesis HV : forall s t s' o e, Inv s -> step s t s' o -> view s a = Some e -> pev c g a cut e t (view s' a) (sent_to a o).
Variables (x : est) (L : N) (file : bytes) (kd : kind).
Hypothesis HC : crypto_ok c.
Hypothesis HA : agree (k_opts k) (k_sock k) x.
Hypothesis HB : 512 <= op_bs (es_opts x).
Hypothesis HL : op_bs (es_opts x) + 4 <= L /\ 516 <= L.
Hypothesis Hcut : forall e d, c_opts (en_conn e) = es_opts x -> cut e d = takeN L d.

Notation PD := (dP c g k x L file kd).
Hypothesis HP : valid PD.
Notation DS := (dsim view a Inv x file).

(** What an exchange on its way promises. *)
Definition promise (n m : N) (written : N) (w : option dgram) : Prop :=
  match w with None => True | Some y => exists v, snd y = Some v /\ m + 1 <= N.min written (n - 1) + v end.
Definition dprog (m : N) (w : option dgram) (W : @dworld S) : Prop :=
  exists st s, dreach PD st /\ DS W st /\ DInv PD st s /\ m <= dpot PD st s /\ promise (p_n PD) m (w_written (cr_w (d_cl st))) w.

Lemma dclient_written st st' : dstep PD st st' -> w_written (cr_w (d_cl st)) <= w_written (cr_w (d_cl st')).
Proof. intros H. destruct H; cbn; try lia. eapply recv_mono; eassumption. Qed.

Lemma dprog_any m w W W' : dprog m w W -> dwstep step view c a k (p_n PD) W W' -> dprog m w W'.
Proof.
  intros (st & s & R & D & I & M & PR) ST.
  destruct (dsim_step step view c g a k cut Inv HI HV x L file kd HC HA HB HL Hcut HP W W' st R D ST) as (st' & [->|X] & D').
  - exists st, s. auto.
  - destruct (dstep_mono PD HP _ _ _ I X) as (s' & I' & M' & MC). exists st', s'. split; [eapply dreach_step; eassumption|].
    split; [exact D'|]. split; [exact I'|]. pose proof (dclient_written _ _ X) as MW. split; [unfold dpot in *; lia|].
    destruct w as [y|]; [|exact Logic.I]. destruct PR as (v & Hv & HM). exists v. split; [exact Hv|lia].
Qed.

Lemma dprog_handed m s cl down up sc ss e y i now txt cl' plain stat' new : blen file <= k_max k ->
  dprog m None (mkDW s false cl CRun down up sc ss) ->
  view s a = Some e -> c_finished (en_conn e) = false -> 1 <= i -> c_transfer (en_conn e) = (i - 1) * bs_enc (es_opts x) ->
  In (y, Some i) down ->
  recv_step (client_dec c (k_sock k) (op_bs (k_opts k))) (k_opts k) (k_max k) (k_timeout k) cl (EvDatagram true y)
    now false None true txt = (cl', plain, stat') ->
  client_sealed c (k_sock k) (w_written (cr_w cl')) plain new ->
  stat' <> CFail /\
  dprog (match new with [] => m + 1 | _ => m end) (hd_error new) (mkDW s false cl' stat' down (new ++ up) (see sc (y, Some i)) ss).
Proof.
  intros Hmax (st & ws & R & D & I & M & _) VE FI Hi TR IN E SL.
  destruct D as (II & E1 & E2 & E3 & E4 & E5 & HS). cbn [dw_srv dw_over dw_cl dw_stat dw_down dw_up dw_sc dw_ss] in *.
  destruct (HS eq_refl) as (E6 & LV & e0 & V0 & C0 & K0 & W0). rewrite VE in V0. injection V0 as <-.
  assert (RS : recv_step (p_decc PD) (p_opts PD) (p_max PD) (p_ctimeout PD) (d_cl st) (EvDatagram true y) now false None true txt = (cl', plain, stat')).
  { rewrite E1. cbn [p_decc p_opts p_max p_ctimeout dP]. erewrite <- recv_step_opts; [exact E| |]; [apply HA|apply (bs_agree k x HA)]. }
  assert (EM : emitted (p_decs PD) (w_written (cr_w cl')) plain new).
  { eapply client_emitted; try eassumption. eapply recv_plain; exact E. }
  rewrite C0 in FI, TR. rewrite <- E3 in IN.
  destruct (dhand_step PD HP st ws y i now txt cl' plain stat' new Hmax I E2 FI Hi TR IN RS EM) as (X & I' & NF & MM & G).
  split; [exact NF|]. exists (dhand st y i cl' stat' new), ws. split; [eapply dreach_step; eassumption|]. split.
  { split; [exact II|]. unfold dhand. cbn [d_cl d_stat d_down d_up d_seenc d_seens d_live d_conn d_reader dw_srv dw_over dw_cl dw_stat dw_down dw_up dw_sc dw_ss].
    do 2 (split; [reflexivity|]). split; [exact E3|]. split; [rewrite E4; reflexivity|]. split; [rewrite E5; reflexivity|]. intros _. split; [exact E6|]. split; [exact LV|].
    exists e. auto. }
  split; [exact I'|]. destruct G as [[-> G]|(z & v & -> & Hv & G)].
  - split; [lia|exact Logic.I].
  - split; [lia|]. cbn [hd_error promise]. exists v. split; [reflexivity|]. unfold dhand. cbn [d_cl]. lia.
Qed.

Lemma dprog_answered m s cl stat down up sc ss e y v s' o e' new :
  dprog m (Some y) (mkDW s false cl stat down up sc ss) ->
  step s (TookClient a (fst y) v) s' o -> In y up -> fresh_enough (p_n PD) ss y -> view s a = Some e -> view s' a = Some e' ->
  server_sealed c e (entry_mark (view s' a)) (sent_to a o) new ->
  dprog (m + 1) None (mkDW s' false cl stat (new ++ down) up sc (see ss y)).
Proof.
  intros (st & ws & R & D & I & M & (vv & SY & PR)) H IN FR VE VE' SL.
  destruct D as (II & E1 & E2 & E3 & E4 & E5 & HS). cbn [dw_srv dw_over dw_cl dw_stat dw_down dw_up dw_sc dw_ss] in *.
  destruct (HS eq_refl) as (E6 & LV & e0 & V0 & C0 & K0 & W0). rewrite VE in V0. injection V0 as <-.
  specialize (II eq_refl). pose proof (HI _ _ _ _ e e' II H VE VE') as II'. pose proof (HV _ _ _ _ _ II H VE) as PV.
  pose proof (dopts c g k x L file kd HP st R) as EO. rewrite <- C0 in EO.
  rewrite VE' in PV, SL. remember (sent_to a o) as ot eqn:EOT. remember (TookClient a (fst y) v) as tk eqn:ETK. remember (Some e') as vw eqn:EVW.
  destruct PV as [t0 Ht|t0 v0 plain Ht ET|t0 buflen v0 e'0 plain ok Ht AC SC|t0|d v0 e'0 plain EH];
    try (rewrite ETK in Ht; cbn in Ht; rewrite N.eqb_refl in Ht; discriminate); [discriminate|].
  injection ETK as -> ->. injection EVW as ->.
  destruct (handle_client_read c g cut x L file Hcut _ _ _ _ _ _ EH EO K0 W0) as (cn' & r' & HR & -> & ->). apply sealed_nil in SL as ->.
  rewrite C0 in HR. rewrite <- E4 in IN. rewrite <- E6 in FR.
  destruct (danswer_step PD HP st ws y vv (e_now v) cn' r' (Some tt) I LV IN SY FR HR) as (_ & X & s'' & I' & M1 & M2).
  exists (danswer st y cn' r'), s''. split; [eapply dreach_step; eassumption|]. split.
  { split; [intros _; exact II'|]. unfold danswer. cbn [d_cl d_stat d_down d_up d_seenc d_seens d_live d_conn d_reader dw_srv dw_over dw_cl dw_stat dw_down dw_up dw_sc dw_ss app].
    do 5 (split; [assumption|]). intros _. split; [rewrite E6; reflexivity|]. split; [reflexivity|]. eexists. split; [exact VE'|]. auto. }
  split; [exact I'|]. split; [|exact Logic.I]. unfold dpot, danswer in *. cbn [d_cl]. lia.
Qed.

Lemma dprog_all W0 m w W : blen file <= k_max k -> dprog 0 None W0 ->
  dexchanges step view c a k (bs_enc (es_opts x)) (p_n PD) W0 m w W -> dprog m w W.
Proof.
  intros Hmax D0 H. induction H as [|m w W W' H IH ST|m y W H IH|m W new W' H IH HD
    |m s cl stat down up sc ss e y v s' o e' new H IH ST IN FR VE VE' SL].
  - exact D0.
  - eapply dprog_any; eassumption.
  - destruct IH as (st & s & R & D & I & M & _). exists st, s. do 4 (split; [assumption|]). exact Logic.I.
  - destruct HD. eapply dprog_handed; eassumption.
  - eapply dprog_answered; eassumption.
Qed.
Lemma dprog_bound m w W : dprog m w W -> m <= 2 * p_n PD - 1 /\ (dw_stat W = CRun -> m <= 2 * p_n PD - 2) /\
  (dw_stat W = CFail \/ dw_stat W = CRun \/ dw_stat W = CDone (blen file) /\ w_out (cr_w (dw_cl W)) = file).
Proof.
  intros (st & s & R & D & I & M & _). destruct D as (_ & E1 & E2 & _).
  pose proof (n_pos PD HP) as NP. pose proof I as (HCo & _ & _ & _ & HS). pose proof (core_win PD _ _ HP _ _ _ _ _ _ _ HCo) as K.
  split; [unfold dpot in M; lia|]. split.
  - intros ST. rewrite <- E2 in ST. rewrite ST in HS. unfold dpot in M. lia.
  - rewrite <- E1, <- E2. destruct (dinv_safe PD HP st s I) as (_ & S2 & _). destruct (d_stat st) as [|t|] eqn:ED; [auto| |auto].
    destruct (S2 t eq_refl) as [S3 ->]. auto.
Qed.

(** ** Upload *)
Notation PU := (uP c g k x L file kd).
Hypothesis HPu : valid PU.
Notation US := (usim view a Inv x).
Definition uprog (m : N) (w : option dgram) (W : @uworld S) : Prop :=
  exists st s, ureach PU st /\ US W st /\ UInv PU st s /\ m <= upot PU st s /\ promise (p_n PU) m (w_written (u_writer st)) w.

Lemma userver_written st st' : ustep PU st st' -> w_written (u_writer st) <= w_written (u_writer st').
Proof.
  intros H. destruct H as [| |cc ww cl stat down up sc ss y now io sock txt c' w' plain new IN AGE E EM|]; cbn; try lia.
  revert E. unfold handle_write, srv_write_block. destruct (p_decs PU (fst y)) as [b|]; [|intros [= _ <- _]; lia].
  destruct (from_bytes b) as [[]| |]; try (intros [= _ <- _]; lia).
  unfold write_block. destruct (map_index _ _) as [pi pm]. destruct (pi <? w_written ww + 1).
  { cbn. intros [= _ <- _]. cbn. lia. }
  destruct (_ <? pi). { cbn. intros [= _ <- _]. cbn. lia. }
  destruct io. { intros [= _ <- _]. cbn. lia. }
  cbn. destruct (negb _); intros [= _ <- _]; cbn; lia.
Qed.

Lemma uprog_any m w W W' : uprog m w W -> uwstep step view c a k file (p_n PU) W W' -> uprog m w W'.
Proof.
  intros (st & s & R & D & I & M & PR) ST.
  destruct (usim_step step view c g a k cut Inv HI HV x L file kd HC HA HB HL Hcut HPu W W' st R D ST) as (st' & [->|X] & D').
  - exists st, s. auto.
  - destruct (ustep_mono PU HPu _ _ _ I X) as (s' & I' & M' & MC). exists st', s'. split; [eapply ureach_step; eassumption|].
    split; [exact D'|]. split; [exact I'|]. pose proof (userver_written _ _ X) as MW. split; [unfold upot in *; lia|].
    destruct w as [y|]; [|exact Logic.I]. destruct PR as (v & Hv & HM). exists v. split; [exact Hv|lia].
Qed.

Lemma uprog_handed m s kept cl down up sc ss e y i v s' o e' new : blen file <= g_max_size g ->
  uprog m None (mkUW s false kept cl CRun down up sc ss) ->
  1 <= i -> cs_total cl = (i - 1) * bs_enc (es_opts x) -> In (y, Some i) up ->
  view s a = Some e -> c_finished (en_conn e) = false -> c_invalid (en_conn e) = None ->
  step s (TookClient a y v) s' o -> e_io v = false -> e_short v = None -> e_sock v = true -> view s' a = Some e' ->
  server_sealed c e (entry_mark (view s' a)) (sent_to a o) new ->
  c_invalid (en_conn e') = None /\
  uprog (match new with [] => m + 1 | _ => m end) (hd_error new)
    (mkUW s' false (keep kept (view s' a)) cl CRun (new ++ down) up sc (see ss (y, Some i))).
Proof.
  intros Hmax (st & ws & R & D & I & M & _) Hi TR IN VE FI IV H IO SH SO VE' SL.
  destruct D as (II & E1 & E2 & E3 & E4 & E5 & EK & HS). cbn [uw_srv uw_over uw_kept uw_cl uw_stat uw_down uw_up uw_sc uw_ss] in *.
  destruct (HS eq_refl) as (E6 & LV & e0 & path & V0 & C0 & K0 & W0). rewrite VE in V0. injection V0 as <-.
  specialize (II eq_refl). pose proof (HI _ _ _ _ e e' II H VE VE') as II'. pose proof (HV _ _ _ _ _ II H VE) as PV.
  pose proof (uopts c g k x L file kd HPu st R) as EO. rewrite <- C0 in EO.
  rewrite VE' in PV, SL |- *. remember (sent_to a o) as ot eqn:EOT. remember (TookClient a y v) as tk eqn:ETK. remember (Some e') as vw eqn:EVW.
  destruct PV as [t0 Ht|t0 v0 plain Ht ET|t0 buflen v0 e'0 plain ok Ht AC SC|t0|d v0 e'0 plain EH];
    try (rewrite ETK in Ht; cbn in Ht; rewrite N.eqb_refl in Ht; discriminate); [discriminate|].
  injection ETK as -> ->. injection EVW as ->.
  destruct (handle_client_write c g cut x L Hcut _ _ _ _ _ _ _ EH EO K0 W0) as (cn' & w' & HW & ->).
  rewrite C0, IO, SH, SO in HW. cbn [entry_mark en_work] in SL.
  assert (EM : emitted (p_decc PU) (w_written w') plain new).
  { eapply server_emitted; try eassumption. eapply write_plain; exact HW. }
  rewrite <- E4 in IN. rewrite <- E1 in TR. assert (RU : running (u_conn st)) by (split; congruence).
  destruct (uhand_step PU HPu st ws y i (e_now v) (e_txt v) cn' w' plain new Hmax I E2 LV RU Hi TR IN HW EM) as (X & I' & NF & MM & G).
  split; [exact NF|]. exists (uhand st y i cn' w' new), ws. split; [eapply ureach_step; eassumption|]. split.
  { split; [intros _; exact II'|]. unfold uhand. cbn [u_cl u_stat u_down u_up u_seenc u_seens u_live u_conn u_writer uw_srv uw_over uw_kept uw_cl uw_stat uw_down uw_up uw_sc uw_ss keep en_work].
    split; [exact E1|]. split; [exact E2|]. split; [rewrite E3; reflexivity|]. split; [exact E4|]. split; [exact E5|]. split; [reflexivity|]. intros _.
    split; [rewrite E6; reflexivity|]. split; [reflexivity|]. eexists _, path. split; [exact VE'|]. auto. }
  split; [exact I'|]. destruct G as [[-> G]|(z & vv & -> & Hv & G)].
  - split; [lia|exact Logic.I].
  - split; [lia|]. cbn [hd_error promise]. exists vv. split; [reflexivity|]. unfold uhand. cbn [u_writer]. lia.
Qed.

Lemma uprog_answered m s over kept cl down up sc ss y now cl' stat' :
  uprog m (Some y) (mkUW s over kept cl CRun down up sc ss) ->
  In y down -> fresh_enough (p_n PU) sc y ->
  sender_recv (client_dec c (k_sock k) (op_bs (k_opts k))) (k_timeout k) cl (EvDatagram true (fst y)) now = (cl', stat') ->
  stat' <> CFail /\ uprog (m + 1) None (mkUW s over kept cl' stat' down up (see sc y) ss).
Proof.
  intros (st & ws & R & D & I & M & (vv & SY & PR)) IN FR E.
  destruct D as (II & E1 & E2 & E3 & E4 & E5 & EK & HS). cbn [uw_srv uw_over uw_kept uw_cl uw_stat uw_down uw_up uw_sc uw_ss] in *.
  rewrite <- E3 in IN. rewrite <- E1 in E. rewrite <- E5 in FR.
  destruct (uanswer_step PU HPu st ws y vv now cl' stat' I E2 IN SY FR E) as (X & NF & s'' & I' & M1 & M2).
  split; [exact NF|]. exists (uanswer st y cl' stat'), s''. split; [eapply ureach_step; eassumption|]. split.
  { split; [exact II|]. unfold uanswer. cbn [u_cl u_stat u_down u_up u_seenc u_seens u_live u_conn u_writer uw_srv uw_over uw_kept uw_cl uw_stat uw_down uw_up uw_sc uw_ss].
    do 2 (split; [reflexivity|]). split; [exact E3|]. split; [exact E4|]. split; [rewrite E5; reflexivity|]. split; [exact EK|]. exact HS. }
  split; [exact I'|]. split; [|exact Logic.I]. unfold upot, uanswer in *. cbn [u_writer]. lia.
Qed.

Lemma uprog_all W0 m w W : blen file <= g_max_size g -> uprog 0 None W0 ->
  uexchanges step view c a k file (bs_enc (es_opts x)) (p_n PU) W0 m w W -> uprog m w W.
Proof.
  intros Hmax D0 H. induction H as [|m w W W' H IH ST|m y W H IH
    |m W new W' H IH HD|m W y W' H IH HD].
  - exact D0.
  - eapply uprog_any; eassumption.
  - destruct IH as (st & s & R & D & I & M & _). exists st, s. do 4 (split; [assumption|]). exact Logic.I.
  - destruct HD. eapply (uprog_handed m s kept cl down up sc ss); eassumption.
  - destruct HD. eapply uprog_answered; eassumption.
Qed.
Lemma uprog_bound m w W : uprog m w W -> m <= 2 * p_n PU - 1 /\ (uw_stat W = CRun -> m <= 2 * p_n PU - 2) /\
  (uw_stat W = CFail \/ uw_stat W = CRun \/ uw_stat W = CDone (blen file) /\ uw_kept W = file).
Proof.
  intros (st & s & R & D & I & M & _). destruct D as (_ & E1 & E2 & _ & _ & _ & EK & _).
  pose proof (n_pos' PU HPu) as NP. pose proof I as (HCo & _ & HS). pose proof (core_win PU _ _ HPu _ _ _ _ _ _ _ HCo) as K.
  split; [unfold upot in M; lia|]. split.
  - intros ST. rewrite <- E2 in ST. rewrite ST in HS. unfold upot in M. lia.
  - rewrite <- E2, <- EK. destruct (uinv_safe PU HPu st s I) as (_ & S2 & _). destruct (u_stat st) as [|t|] eqn:ED; [auto| |auto].
    destruct (S2 t eq_refl) as [S3 ->]. auto.
Qed.
End B.
