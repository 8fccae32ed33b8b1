From Verif Require Import Base BaseProofs PacketModel PacketSpec PacketProofs MapperModel MapperProofs ReaderModel ReaderSpec BlockLemmas ReaderProofs
  WriterSpec WriterProofs ConfigModel Base64Model CryptoModel CryptoSpec CryptoProofs PropCrypto ExtModel ExtSpec ExtProofs PathModel ConnModel ClientModel ConnSpec
  HandshakeModel HandshakeProofs PropExt PropHandshake AgreeProofs PropAgree SystemModel CoreProofs DownloadProofs UploadProofs
  ServerModel ServerSpec ServerProofs PropServer WorldModel WorldProofs WorldB WorldC PropWorld AttackModel AttackProofs.

(** The attacker's datagrams as leftovers that were on the way from the start. *)
Definition dext {S} (xd xu : list dgram) (W : @dworld S) : @dworld S :=
  mkDW (dw_srv W) (dw_over W) (dw_cl W) (dw_stat W) (dw_down W ++ xd) (dw_up W ++ xu) (dw_sc W) (dw_ss W).
Definition uext {S} (xd xu : list dgram) (W : @uworld S) : @uworld S :=
  mkUW (uw_srv W) (uw_over W) (uw_kept W) (uw_cl W) (uw_stat W) (uw_down W ++ xd) (uw_up W ++ xu) (uw_sc W) (uw_ss W).
Lemma dext_more {S} xd xu yd yu (W : @dworld S) : dext yd yu (dext xd xu W) = dext (xd ++ yd) (xu ++ yu) W.
Proof. unfold dext. cbn. rewrite !app_assoc. reflexivity. Qed.
Lemma uext_more {S} xd xu yd yu (W : @uworld S) : uext yd yu (uext xd xu W) = uext (xd ++ yd) (xu ++ yu) W.
Proof. unfold uext. cbn. rewrite !app_assoc. reflexivity. Qed.

Lemma event_more down xd e x : client_event down e x -> client_event (down ++ xd) e x.
Proof. unfold client_event. destruct e as [[] y| |]; auto. intros [E I]. split; [exact E|]. apply in_or_app. auto. Qed.

Section X.
Context {S : Type} (step step' : S -> took -> S -> outs -> Prop) (view : S -> addr -> option entry).
Hypothesis Hsub : forall s t s' o, step s t s' o -> step' s t s' o.
Variables (c : crypto) (a : addr) (k : cside) (xd xu : list dgram).
Lemma dwstep_ext n W W' : dwstep step view c a k n W W' -> dwstep step' view c a k n (dext xd xu W) (dext xd xu W').
Proof.
  intros H. destruct H; unfold dext; cbn [dw_srv dw_over dw_cl dw_stat dw_down dw_up dw_sc dw_ss]; rewrite <- ?app_assoc.
  - eapply dw_server; eauto.
  - eapply dw_server_receives; eauto. apply in_or_app; auto.
  - eapply dw_server_later; eauto.
  - eapply dw_client; eauto. apply event_more; assumption.
Qed.
Lemma uwstep_ext file n W W' : uwstep step view c a k file n W W' -> uwstep step' view c a k file n (uext xd xu W) (uext xd xu W').
Proof.
  intros H. destruct H; unfold uext; cbn [uw_srv uw_over uw_kept uw_cl uw_stat uw_down uw_up uw_sc uw_ss]; rewrite <- ?app_assoc.
  - eapply uw_server; eauto.
  - eapply uw_server_receives; eauto. apply in_or_app; auto.
  - eapply uw_server_later; eauto.
  - eapply uw_client_sends; eauto.
  - eapply uw_client_receives; eauto. apply event_more; assumption.
Qed.
End X.
Lemma dwreach_ext {S} (step : S -> took -> S -> outs -> Prop) view c a k xd xu n W0 W :
  dwreach step view c a k n W0 W -> dwreach step view c a k n (dext xd xu W0) (dext xd xu W).
Proof. induction 1; [constructor|]. eapply dwr_step; [eassumption|]. eapply dwstep_ext; [|eassumption]. auto. Qed.
Lemma uwreach_ext {S} (step : S -> took -> S -> outs -> Prop) view c a k xd xu file n W0 W :
  uwreach step view c a k file n W0 W -> uwreach step view c a k file n (uext xd xu W0) (uext xd xu W).
Proof. induction 1; [constructor|]. eapply uwr_step; [eassumption|]. eapply uwstep_ext; [|eassumption]. auto. Qed.

Section T.
Context {S : Type} (step : S -> took -> S -> outs -> Prop) (view : S -> addr -> option entry).
Variables (c : crypto) (g : srvcfg) (a : addr) (k : cside) (cut : entry -> bytes -> bytes) (Inv : S -> Prop).
Hypothesis HI : forall s t s' o e e', Inv s -> step s t s' o -> view s a = Some e -> view s' a = Some e' -> Inv s'.
Hypothesis HV : forall s t s' o e, Inv s -> step s t s' o -> view s a = Some e -> pev c g a cut e t (view s' a) (sent_to a o).

(** Bytes that open to the same plaintext are as good. *)
Definition astep (s : S) (t : took) (s' : S) (o : outs) : Prop :=
  step s t s' o \/
  exists y y' v e p, t = TookClient a y' v /\ view s a = Some e /\ entry_dec c e (cut e y) = Some p /\ entry_dec c e (cut e y') = Some p /\
    step s (TookClient a y v) s' o.
Lemma astep_sub s t s' o : step s t s' o -> astep s t s' o.
Proof. intros H. left. exact H. Qed.
Lemma astep_inv s t s' o e e' : Inv s -> astep s t s' o -> view s a = Some e -> view s' a = Some e' -> Inv s'.
Proof. intros I [H|(y & y' & v & e0 & p & _ & _ & _ & _ & H)] V V'; eapply HI; eassumption. Qed.
Lemma astep_pev s t s' o e : Inv s -> astep s t s' o -> view s a = Some e -> pev c g a cut e t (view s' a) (sent_to a o).
Proof.
  intros I [H|(y & y' & v & e0 & p & -> & V0 & D & D' & H)] V; [eapply HV; eassumption|].
  rewrite V in V0. injection V0 as <-. pose proof (HV _ _ _ _ _ I H V) as PV.
  remember (TookClient a y v) as t eqn:ET. remember (view s' a) as vw. remember (sent_to a o) as ot.
  destruct PV as [t0 Ht|t0 v0 plain Ht ET'|t0 buflen v0 e' plain ok Ht AC SC|t0|d v0 e' plain EH];
    try (rewrite ET in Ht; cbn in Ht; rewrite N.eqb_refl in Ht; discriminate).
  - apply pe_lost.
  - injection ET as -> ->. apply pe_receive. rewrite <- EH. symmetry. eapply handle_client_open; eassumption.
Qed.

Variables (env : henv) (av : avail) (d w : bytes) (x : est) (now : N) (fs : bytes -> bytes) (s1 : S) (wr : bool) (t : N).
Hypothesis HC : crypto_ok c.
Hypothesis HB : 512 <= sc_max_bs (g_cfg g).
Hypothesis HW : 1 <= sc_max_window (g_cfg g).
Hypothesis HN : negotiates c (g_cfg g) env wr d w k.
Hypothesis HX : server_new c (g_cfg g) env av (recv_cut g d) = SAccepted x (Some w).
Hypothesis HI1 : Inv s1.
Hypothesis V1 : view s1 a = Some (new_entry x now fs).
Variable L : N.
Hypothesis HL : op_bs (es_opts x) + 4 <= L /\ 516 <= L.
Hypothesis Hcut : forall e d, c_opts (en_conn e) = es_opts x -> cut e d = takeN L d.
Hypothesis HS : sealed_packets (k_opts k).
Notation e0 := (new_entry x now fs).
Notation cdec := (client_dec c (k_sock k) (op_bs (k_opts k))).
Notation sdec := (srv_dec c x L).

Lemma TA : agree (k_opts k) (k_sock k) x.
Proof. eapply proj1, t_agree; eassumption. Qed.
Lemma TO : 512 <= op_bs (es_opts x) <= 1425 /\ 1 <= op_window (es_opts x).
Proof. eapply (t_opts step view c g a k cut Inv); eassumption. Qed.

Lemma sdec_entry e y : c_opts (en_conn e) = es_opts x -> en_key e = es_key x -> entry_dec c e (cut e y) = sdec y.
Proof. intros E1 E2. apply dec_cut; assumption. Qed.
Lemma stale_entry (P : (bytes -> option bytes) -> dgram -> Prop) l :
  (forall f f' y, (forall d, f d = f' d) -> P f y -> P f' y) -> Forall (P sdec) l -> Forall (P (fun y => entry_dec c e0 (cut e0 y))) l.
Proof. intros H. apply Forall_impl. intros y. apply H. intros z. symmetry. apply sdec_entry; reflexivity. Qed.

(** ** Download *)
Section D.
Variables (file : bytes) (r : reader).
Hypothesis EW : en_work e0 = WRead file r.
Notation n := (nblocks file (bs_enc (k_opts k))).
Hypothesis HNB : n <= 55535 \/ op_window (k_opts k) <= 10000.

Lemma d_rel down up W :
  Forall (stale_for_receiver cdec) down -> Forall (stale_for_sender sdec) up ->
  dwreach astep view c a k n (mkDW s1 false (crecv_new t) CRun down up 0 0) W ->
  exists kd, valid (dP c g k x L file kd) /\ drel view c g a k Inv x L file kd W.
Proof.
  intros HD HU HR.
  destruct (download_start astep view c g a k cut Inv astep_inv astep_pev env av d w x now fs s1 wr t HC HB HW HN HX HI1 V1 L HL Hcut e0 file r down up eq_refl EW HNB HD) as (kd & st & HP & IN & DS).
  { apply (stale_entry stale_for_sender); [exact stale_s_ext|exact HU]. }
  exists kd. split; [exact HP|].
  assert (TB : bs_enc (k_opts k) = bs_enc (es_opts x)) by (apply bs_agree; exact TA). rewrite TB in HR.
  eapply (drel_reach astep view c g a k cut Inv astep_inv astep_pev x L file kd HC TA (proj1 (proj1 TO)) HL Hcut HP); [|exact HR].
  exists st. split; [apply dreach_init; exact IN|exact DS].
Qed.

Lemma d_server_new kd W tk s' o e new : drel view c g a k Inv x L file kd W -> valid (dP c g k x L file kd) -> dw_over W = false ->
  step (dw_srv W) tk s' o -> view (dw_srv W) a = Some e ->
  server_sealed c e (entry_mark (view s' a)) (sent_to a o) new -> Forall (no_ack sdec) new.
Proof.
  intros (st & R & II & E1 & E2 & E3 & E4 & E5 & HS') HP OV H VE SL. destruct (HS' OV) as (_ & _ & e' & V0 & C0 & K0 & W0).
  rewrite VE in V0. injection V0 as <-. pose proof (HV _ _ _ _ _ (II OV) H VE) as PV.
  assert (EO : c_opts (en_conn e) = es_opts x) by (rewrite C0; eapply dopts; eassumption).
  apply opened_no_ack. remember (view s' a) as vw. remember (sent_to a o) as ot.
  destruct PV as [t0 Ht|t0 v plain Ht ET|t0 buflen v e' plain ok Ht AC SC|t0|y v e' plain EH].
  - apply sealed_nil in SL as ->. constructor.
  - eapply own_server_all; try eassumption; [exact TA|apply TO|eapply timeout_plain; eassumption|eapply timeout_not; eassumption].
  - unfold send_client in SC. rewrite W0 in SC.
    destruct (send_data_block _ _ _ _ _ _ _ _) as [[[cn' r'] pl] b] eqn:SD. injection SC as <- <- <-.
    eapply own_server_all; try eassumption; [exact TA|apply TO| |eapply send_not; exact SD].
    rewrite C0 in SD. eapply (send_plain _ HP _ _ _ _ _ _ _ _ _ _ R). exact SD.
  - apply sealed_nil in SL as ->. constructor.
  - destruct (handle_client_read c g cut x L file Hcut _ _ _ _ _ _ EH EO K0 W0) as (cn' & r' & HR & -> & ->).
    apply sealed_nil in SL as ->. constructor.
Qed.
Lemma d_client_new cl e v cl' plain stat' i new :
  recv_step cdec (k_opts k) (k_max k) (k_timeout k) cl e (e_now v) (e_io v) (e_short v) (e_sock v) (e_txt v) = (cl', plain, stat') ->
  client_sealed c (k_sock k) i plain new -> Forall (no_data cdec) new.
Proof.
  intros RS SL. apply opened_no_data. eapply own_client_all; try eassumption; [exact TA|apply TO|eapply recv_plain; exact RS|eapply recv_not; exact RS].
Qed.

Lemma no_data_stale y : (forall p b q, cdec y = Some p -> from_bytes p <> Ok (PData b q)) -> stale_for_receiver cdec (y, None).
Proof.
  intros H. split; [reflexivity|]. cbn [fst]. destruct (cdec y) as [p|]; [|exact Logic.I].
  specialize (H p). destruct (from_bytes p) as [[]| |]; try exact Logic.I. eapply H; reflexivity.
Qed.
Lemma no_ack_stale y : (forall p b, sdec y = Some p -> from_bytes p <> Ok (PAck b)) -> stale_for_sender sdec (y, None).
Proof.
  intros H. left. split; [reflexivity|]. cbn [fst]. destruct (sdec y) as [p|]; [|exact Logic.I].
  specialize (H p). destruct (from_bytes p) as [[]| |]; try exact Logic.I. eapply H; reflexivity.
Qed.

Variables (down up : list dgram).
Hypothesis HD : Forall (stale_for_receiver cdec) down.
Hypothesis HU : Forall (stale_for_sender sdec) up.
Hypothesis ND : Forall (no_data cdec) up.
Hypothesis NA : Forall (no_ack sdec) down.
Notation W0 := (mkDW s1 false (crecv_new t) CRun down up 0 0).

Definition dgood (W : @dworld S) : Prop := exists xd xu,
  Forall (stale_for_receiver cdec) xd /\ Forall (stale_for_sender sdec) xu /\
  dwreach astep view c a k n (dext xd xu W0) (dext xd xu W) /\
  Forall (no_data cdec) (dw_up W) /\ Forall (no_ack sdec) (dw_down W).

Lemma dgood_rel W : dgood W -> exists kd xd xu, valid (dP c g k x L file kd) /\ drel view c g a k Inv x L file kd (dext xd xu W).
Proof.
  intros (xd & xu & SD & SU & R & _). destruct (d_rel (down ++ xd) (up ++ xu) (dext xd xu W)) as (kd & HP & X).
  - apply Forall_app; auto.
  - apply Forall_app; auto.
  - exact R.
  - eauto.
Qed.
Lemma dgood_step W W' : dgood W -> dastep step view cut c a k n W W' -> dgood W'.
Proof.
  intros G H. destruct (dgood_rel W G) as (kd & xd0 & xu0 & HP & REL). destruct G as (xd & xu & SD & SU & R & IU & ID).
  assert (INV : Forall (no_data cdec) (dw_up W') /\ Forall (no_ack sdec) (dw_down W')).
  { destruct H as [W W' H|s over cl dn u sc ss y sc' v cl' plain stat' new OR SH RS SL|s y v s' o e new cl stat dn u sc ss ss' ST VE OR SL].
    - destruct H as [s tk s' o e new cl stat dn u sc ss ST HH VE SL
                 |s y v s' o e new cl stat dn u sc ss ST IN FR VE SL
                 |s tk s' o cl stat dn u sc ss ST
                 |s over cl dn u sc ss ev y v cl' plain stat' new CE FR SH RS SL];
        cbn [dw_srv dw_over dw_cl dw_stat dw_down dw_up dw_sc dw_ss] in *.
      + split; [exact IU|]. apply Forall_app. split; [|exact ID]. eapply d_server_new; [exact REL|exact HP|reflexivity|exact ST|exact VE|exact SL].
      + split; [exact IU|]. apply Forall_app. split; [|exact ID]. eapply d_server_new; [exact REL|exact HP|reflexivity|exact ST|exact VE|exact SL].
      + auto.
      + split; [|exact ID]. apply Forall_app. split; [|exact IU]. eapply d_client_new; eassumption.
    - cbn [dw_down dw_up] in *. split; [|exact ID]. apply Forall_app. split; [|exact IU]. eapply d_client_new; eassumption.
    - cbn [dw_down dw_up] in *. split; [exact IU|]. apply Forall_app. split; [|exact ID].
      eapply d_server_new; [exact REL|exact HP|reflexivity|exact ST|exact VE|exact SL]. }
  destruct H as [W W' H|s over cl dn u sc ss y sc' v cl' plain stat' new OR SH RS SL|s y v s' o e new cl stat dn u sc ss ss' ST VE OR SL].
  - exists xd, xu. do 2 (split; [assumption|]). split; [|exact INV].
    eapply dwr_step; [exact R|]. eapply dwstep_ext; [exact astep_sub|exact H].
  - cbn [dw_srv dw_over dw_cl dw_stat dw_down dw_up dw_sc dw_ss] in *.
    assert (LEFT : (sc' = sc /\ stale_for_receiver cdec (y, None)) \/
                   (exists z, In z dn /\ cdec y = cdec (fst z) /\ fresh_enough n sc z /\ sc' = see sc z)).
    { destruct OR as [E|z p IN E E'|z p IN E E' FR].
      - left. split; [reflexivity|]. apply no_data_stale. intros p b q E'. congruence.
      - left. split; [reflexivity|]. apply no_data_stale. intros p' b q X. rewrite E in X. injection X as <-.
        exact (proj1 (Forall_forall _ _) IU z IN p b q E').
      - right. exists z. rewrite E, E'. auto. }
    destruct LEFT as [[-> ST]|(z & IN & EZ & FR & ->)].
    + exists (xd ++ [(y, None)]), xu. split; [apply Forall_app; split; [exact SD|constructor; [exact ST|constructor]]|].
      split; [exact SU|]. split; [|exact INV].
      apply (dwreach_ext _ _ _ _ _ [(y, None)] []) in R. rewrite !dext_more, app_nil_r in R.
      eapply dwr_step; [exact R|]. unfold dext. cbn [dw_srv dw_over dw_cl dw_stat dw_down dw_up dw_sc dw_ss]. rewrite <- app_assoc.
      change sc with (see sc (y, None)) at 2.
      eapply dw_client with (e := EvDatagram true y); [|exact Logic.I|exact SH|exact RS|exact SL].
      split; [reflexivity|]. apply in_or_app. right. apply in_or_app. right. left. reflexivity.
    + exists xd, xu. do 2 (split; [assumption|]). split; [|exact INV].
      eapply dwr_step; [exact R|]. unfold dext. cbn [dw_srv dw_over dw_cl dw_stat dw_down dw_up dw_sc dw_ss]. rewrite <- app_assoc.
      eapply dw_client with (e := EvDatagram true (fst z)) (x := z); [|exact FR|exact SH| |exact SL].
      * split; [reflexivity|]. apply in_or_app. left. exact IN.
      * rewrite <- RS. apply recv_step_open. symmetry. exact EZ.
  - cbn [dw_srv dw_over dw_cl dw_stat dw_down dw_up dw_sc dw_ss] in *.
    assert (DE : forall y, entry_dec c e (cut e y) = sdec y).
    { destruct REL as (st & RR & _ & _ & _ & _ & _ & _ & HS'). destruct (HS' eq_refl) as (_ & _ & e' & V0 & C0 & K0 & _).
      cbn [dw_srv dext] in V0. rewrite VE in V0. injection V0 as <-. intros z. apply sdec_entry; [rewrite C0; eapply dopts; eassumption|exact K0]. }
    assert (LEFT : (ss' = ss /\ stale_for_sender sdec (y, None)) \/
                   (exists z p, In z u /\ sdec y = Some p /\ sdec (fst z) = Some p /\ fresh_enough n ss z /\ ss' = see ss z)).
    { destruct OR as [E|z p IN E E'|z p IN E E' FR].
      - left. split; [reflexivity|]. apply no_ack_stale. intros p b E'. rewrite DE in E. congruence.
      - left. split; [reflexivity|]. apply no_ack_stale. intros p' b X. rewrite DE in E, E'. rewrite E in X. injection X as <-.
        exact (proj1 (Forall_forall _ _) ID z IN p b E').
      - right. exists z, p. rewrite <- !DE. auto. }
    destruct LEFT as [[-> SX]|(z & p & IN & EY & EZ & FR & ->)].
    + exists xd, (xu ++ [(y, None)]). split; [exact SD|]. split; [apply Forall_app; split; [exact SU|constructor; [exact SX|constructor]]|].
      split; [|exact INV].
      apply (dwreach_ext _ _ _ _ _ [] [(y, None)]) in R. rewrite !dext_more, app_nil_r in R.
      eapply dwr_step; [exact R|]. unfold dext. cbn [dw_srv dw_over dw_cl dw_stat dw_down dw_up dw_sc dw_ss]. rewrite <- app_assoc.
      change ss with (see ss (y, None)) at 2.
      eapply dw_server_receives; [apply astep_sub; exact ST| |exact Logic.I|exact VE|exact SL].
      apply in_or_app. right. apply in_or_app. right. left. reflexivity.
    + exists xd, xu. do 2 (split; [assumption|]). split; [|exact INV].
      eapply dwr_step; [exact R|]. unfold dext. cbn [dw_srv dw_over dw_cl dw_stat dw_down dw_up dw_sc dw_ss]. rewrite <- app_assoc.
      eapply dw_server_receives with (v := v); [|apply in_or_app; left; exact IN|exact FR|exact VE|exact SL].
      right. exists y, (fst z), v, e, p. rewrite !DE. auto.
Qed.
Lemma attacked_download W : dareach step view cut c a k n W0 W ->
  let out := w_out (cr_w (dw_cl W)) in
  out = takeN (w_written (cr_w (dw_cl W)) * bs_enc (k_opts k)) file /\
  (forall total, dw_stat W = CDone total -> out = file /\ total = blen file) /\
  (forall e', dw_over W = false -> view (dw_srv W) a = Some e' -> c_finished (en_conn e') = true -> out = file).
Proof.
  intros R. assert (G : dgood W).
  { induction R as [|W W' R IH ST]; [|eapply dgood_step; eassumption].
    exists [], []. do 2 (split; [constructor|]). split; [constructor|]. auto. }
  destruct (dgood_rel W G) as (kd & xd & xu & HP & REL).
  assert (TB : bs_enc (k_opts k) = bs_enc (es_opts x)) by (apply bs_agree; exact TA). rewrite TB.
  exact (drel_safe view c g a k Inv x L file kd HP _ REL).
Qed.
End D.

(** ** Upload *)
Section U.
Variables (file path : bytes) (seek : bool).
Hypothesis EW : en_work e0 = WWrite path writer_new.
Notation n := (nblocks file (bs_enc (k_opts k))).
Hypothesis HNB : n <= 55535 \/ op_window (k_opts k) <= 10000.
Notation Wst := (fun down up => mkUW s1 false [] (mkCS (client_reader (k_opts k) seek) 0 t) CRun down up 0 0).

Lemma u_rel down up W :
  Forall (stale_for_sender cdec) down -> Forall (stale_for_receiver sdec) up ->
  uwreach astep view c a k file n (Wst down up) W ->
  exists kd, valid (uP c g k x L file kd) /\ urel view c g a k Inv x L file kd W.
Proof.
  intros HD HU HR.
  destruct (upload_start astep view c g a k cut Inv astep_inv astep_pev env av d w x now fs s1 wr t HC HB HW HN HX HI1 V1 L HL Hcut e0 path seek file down up eq_refl EW HNB HD) as (kd & st & HP & IN & DS).
  { apply (stale_entry stale_for_receiver); [exact stale_r_ext|exact HU]. }
  exists kd. split; [exact HP|].
  assert (TB : bs_enc (k_opts k) = bs_enc (es_opts x)) by (apply bs_agree; exact TA). rewrite TB in HR.
  eapply (urel_reach astep view c g a k cut Inv astep_inv astep_pev x L file kd HC TA (proj1 (proj1 TO)) HL Hcut HP); [|exact HR].
  exists st. split; [apply ureach_init; exact IN|exact DS].
Qed.

Lemma u_server_new kd W tk s' o e new : urel view c g a k Inv x L file kd W -> valid (uP c g k x L file kd) -> uw_over W = false ->
  step (uw_srv W) tk s' o -> view (uw_srv W) a = Some e ->
  server_sealed c e (entry_mark (view s' a)) (sent_to a o) new -> Forall (no_data sdec) new.
Proof.
  intros (st & R & II & E1 & E2 & E3 & E4 & E5 & EK & HS') HP OV H VE SL. destruct (HS' OV) as (_ & _ & e' & pth & V0 & C0 & K0 & W0).
  rewrite VE in V0. injection V0 as <-. pose proof (HV _ _ _ _ _ (II OV) H VE) as PV.
  assert (EO : c_opts (en_conn e) = es_opts x) by (rewrite C0; eapply uopts; eassumption).
  apply opened_no_data. remember (view s' a) as vw. remember (sent_to a o) as ot.
  destruct PV as [t0 Ht|t0 v plain Ht ET|t0 buflen v e' plain ok Ht AC SC|t0|y v e' plain EH].
  - apply sealed_nil in SL as ->. constructor.
  - eapply own_server_all; try eassumption; [exact TA|apply TO|eapply timeout_plain; eassumption|eapply timeout_not; eassumption].
  - unfold active in AC. rewrite W0 in AC. discriminate.
  - apply sealed_nil in SL as ->. constructor.
  - destruct (handle_client_write c g cut x L Hcut _ _ _ _ _ _ _ EH EO K0 W0) as (cn' & w' & HR & ->).
    eapply own_server_all; try eassumption; [exact TA|apply TO|eapply write_plain; exact HR|eapply write_not; exact HR].
Qed.
Lemma u_client_new kd W buflen retry io sock cl' plain stat' i new : urel view c g a k Inv x L file kd W -> valid (uP c g k x L file kd) ->
  op_bs (k_opts k) + DATA_PACKET_HEADER_SIZE <= buflen ->
  sender_send file (uw_cl W) buflen retry io sock = (cl', plain, stat') ->
  client_sealed c (k_sock k) i plain new -> Forall (no_ack cdec) new.
Proof.
  intros (st & R & II & E1 & _) HP BL RS SL. apply opened_no_ack.
  eapply own_client_all; try eassumption; [exact TA|apply TO| |eapply csend_not; exact RS].
  assert (BL' : op_bs (p_opts (uP c g k x L file kd)) + DATA_PACKET_HEADER_SIZE <= buflen)
    by (cbn [p_opts uP]; destruct TA as (<- & _); exact BL).
  rewrite <- E1 in RS. exact (csend_plain _ HP _ _ _ _ _ _ _ _ R BL' RS).
Qed.

Lemma no_ack_stale_c y : (forall p b, cdec y = Some p -> from_bytes p <> Ok (PAck b)) -> stale_for_sender cdec (y, None).
Proof.
  intros H. left. split; [reflexivity|]. cbn [fst]. destruct (cdec y) as [p|]; [|exact Logic.I].
  specialize (H p). destruct (from_bytes p) as [[]| |]; try exact Logic.I. eapply H; reflexivity.
Qed.
Lemma no_data_stale_s y : (forall p b q, sdec y = Some p -> from_bytes p <> Ok (PData b q)) -> stale_for_receiver sdec (y, None).
Proof.
  intros H. split; [reflexivity|]. cbn [fst]. destruct (sdec y) as [p|]; [|exact Logic.I].
  specialize (H p). destruct (from_bytes p) as [[]| |]; try exact Logic.I. eapply H; reflexivity.
Qed.

Variables (down up : list dgram).
Hypothesis HD : Forall (stale_for_sender cdec) down.
Hypothesis HU : Forall (stale_for_receiver sdec) up.
Hypothesis NA : Forall (no_ack cdec) up.
Hypothesis ND : Forall (no_data sdec) down.
Notation W0 := (mkUW s1 false [] (mkCS (client_reader (k_opts k) seek) 0 t) CRun down up 0 0).

Definition ugood (W : @uworld S) : Prop := exists xd xu,
  Forall (stale_for_sender cdec) xd /\ Forall (stale_for_receiver sdec) xu /\
  uwreach astep view c a k file n (uext xd xu W0) (uext xd xu W) /\
  Forall (no_ack cdec) (uw_up W) /\ Forall (no_data sdec) (uw_down W).

Lemma ugood_rel W : ugood W -> exists kd xd xu, valid (uP c g k x L file kd) /\ urel view c g a k Inv x L file kd (uext xd xu W).
Proof.
  intros (xd & xu & SD & SU & R & _). destruct (u_rel (down ++ xd) (up ++ xu) (uext xd xu W)) as (kd & HP & X).
  - apply Forall_app; auto.
  - apply Forall_app; auto.
  - exact R.
  - eauto.
Qed.
Lemma ugood_step W W' : ugood W -> uastep step view cut c a k file n W W' -> ugood W'.
Proof.
  intros G H. destruct (ugood_rel W G) as (kd & xd0 & xu0 & HP & REL). destruct G as (xd & xu & SD & SU & R & IU & ID).
  assert (INV : Forall (no_ack cdec) (uw_up W') /\ Forall (no_data sdec) (uw_down W')).
  { destruct H as [W W' H|s over kept cl dn u sc ss y sc' nw cl' stat' OR RS|s y v s' o e new kept cl stat dn u sc ss ss' ST SH VE OR SL].
    - destruct H as [s tk s' o e new kept cl stat dn u sc ss ST HH VE SL
                 |s y v s' o e new kept cl stat dn u sc ss ST SH IN FR VE SL
                 |s tk s' o kept cl stat dn u sc ss ST
                 |s over kept cl dn u sc ss buflen retry io sock cl' plain stat' new BL RS SL
                 |s over kept cl dn u sc ss ev y nw cl' stat' CE FR RS];
        cbn [uw_srv uw_over uw_kept uw_cl uw_stat uw_down uw_up uw_sc uw_ss] in *.
      + split; [exact IU|]. apply Forall_app. split; [|exact ID]. eapply u_server_new; [exact REL|exact HP|reflexivity|exact ST|exact VE|exact SL].
      + split; [exact IU|]. apply Forall_app. split; [|exact ID]. eapply u_server_new; [exact REL|exact HP|reflexivity|exact ST|exact VE|exact SL].
      + auto.
      + split; [|exact ID]. apply Forall_app. split; [|exact IU]. eapply u_client_new; [exact REL|exact HP|exact BL|exact RS|exact SL].
      + auto.
    - auto.
    - cbn [uw_down uw_up] in *. split; [exact IU|]. apply Forall_app. split; [|exact ID].
      eapply u_server_new; [exact REL|exact HP|reflexivity|exact ST|exact VE|exact SL]. }
  destruct H as [W W' H|s over kept cl dn u sc ss y sc' nw cl' stat' OR RS|s y v s' o e new kept cl stat dn u sc ss ss' ST SH VE OR SL].
  - exists xd, xu. do 2 (split; [assumption|]). split; [|exact INV].
    eapply uwr_step; [exact R|]. eapply uwstep_ext; [exact astep_sub|exact H].
  - cbn [uw_srv uw_over uw_kept uw_cl uw_stat uw_down uw_up uw_sc uw_ss] in *.
    assert (LEFT : (sc' = sc /\ stale_for_sender cdec (y, None)) \/
                   (exists z, In z dn /\ cdec y = cdec (fst z) /\ fresh_enough n sc z /\ sc' = see sc z)).
    { destruct OR as [E|z p IN E E'|z p IN E E' FR].
      - left. split; [reflexivity|]. apply no_ack_stale_c. intros p b E'. congruence.
      - left. split; [reflexivity|]. apply no_ack_stale_c. intros p' b X. rewrite E in X. injection X as <-.
        exact (proj1 (Forall_forall _ _) IU z IN p b E').
      - right. exists z. rewrite E, E'. auto. }
    destruct LEFT as [[-> ST]|(z & IN & EZ & FR & ->)].
    + exists (xd ++ [(y, None)]), xu. split; [apply Forall_app; split; [exact SD|constructor; [exact ST|constructor]]|].
      split; [exact SU|]. split; [|exact INV].
      apply (uwreach_ext _ _ _ _ _ [(y, None)] []) in R. rewrite !uext_more, app_nil_r in R.
      eapply uwr_step; [exact R|]. unfold uext. cbn [uw_srv uw_over uw_kept uw_cl uw_stat uw_down uw_up uw_sc uw_ss].
      change sc with (see sc (y, None)) at 2.
      eapply uw_client_receives with (e := EvDatagram true y); [|exact Logic.I|exact RS].
      split; [reflexivity|]. apply in_or_app. right. apply in_or_app. right. left. reflexivity.
    + exists xd, xu. do 2 (split; [assumption|]). split; [|exact INV].
      eapply uwr_step; [exact R|]. unfold uext. cbn [uw_srv uw_over uw_kept uw_cl uw_stat uw_down uw_up uw_sc uw_ss].
      eapply uw_client_receives with (e := EvDatagram true (fst z)) (x := z); [|exact FR|].
      * split; [reflexivity|]. apply in_or_app. left. exact IN.
      * rewrite <- RS. apply sender_recv_open. symmetry. exact EZ.
  - cbn [uw_srv uw_over uw_kept uw_cl uw_stat uw_down uw_up uw_sc uw_ss] in *.
    assert (DE : forall y, entry_dec c e (cut e y) = sdec y).
    { destruct REL as (st & RR & _ & _ & _ & _ & _ & _ & _ & HS'). destruct (HS' eq_refl) as (_ & _ & e' & pth & V0 & C0 & K0 & _).
      cbn [uw_srv uext] in V0. rewrite VE in V0. injection V0 as <-. intros z. apply sdec_entry; [rewrite C0; eapply uopts; eassumption|exact K0]. }
    assert (LEFT : (ss' = ss /\ stale_for_receiver sdec (y, None)) \/
                   (exists z p, In z u /\ sdec y = Some p /\ sdec (fst z) = Some p /\ fresh_enough n ss z /\ ss' = see ss z)).
    { destruct OR as [E|z p IN E E'|z p IN E E' FR].
      - left. split; [reflexivity|]. apply no_data_stale_s. intros p b q E'. rewrite DE in E. congruence.
      - left. split; [reflexivity|]. apply no_data_stale_s. intros p' b q X. rewrite DE in E, E'. rewrite E in X. injection X as <-.
        exact (proj1 (Forall_forall _ _) ID z IN p b q E').
      - right. exists z, p. rewrite <- !DE. auto. }
    destruct LEFT as [[-> SX]|(z & p & IN & EY & EZ & FR & ->)].
    + exists xd, (xu ++ [(y, None)]). split; [exact SD|]. split; [apply Forall_app; split; [exact SU|constructor; [exact SX|constructor]]|].
      split; [|exact INV].
      apply (uwreach_ext _ _ _ _ _ [] [(y, None)]) in R. rewrite !uext_more, app_nil_r in R.
      eapply uwr_step; [exact R|]. unfold uext. cbn [uw_srv uw_over uw_kept uw_cl uw_stat uw_down uw_up uw_sc uw_ss]. rewrite <- app_assoc.
      change ss with (see ss (y, None)) at 2.
      eapply uw_server_receives; [apply astep_sub; exact ST|exact SH| |exact Logic.I|exact VE|exact SL].
      apply in_or_app. right. apply in_or_app. right. left. reflexivity.
    + exists xd, xu. do 2 (split; [assumption|]). split; [|exact INV].
      eapply uwr_step; [exact R|]. unfold uext. cbn [uw_srv uw_over uw_kept uw_cl uw_stat uw_down uw_up uw_sc uw_ss]. rewrite <- app_assoc.
      eapply uw_server_receives with (v := v); [|exact SH|apply in_or_app; left; exact IN|exact FR|exact VE|exact SL].
      right. exists y, (fst z), v, e, p. rewrite !DE. auto.
Qed.
Lemma attacked_upload W : uareach step view cut c a k file n W0 W ->
  (exists m, uw_kept W = takeN (m * bs_enc (k_opts k)) file) /\
  (forall total, uw_stat W = CDone total -> uw_kept W = file /\ total = blen file) /\
  (forall e', uw_over W = false -> view (uw_srv W) a = Some e' -> c_finished (en_conn e') = true -> uw_kept W = file).
Proof.
  intros R. assert (G : ugood W).
  { induction R as [|W W' R IH ST]; [|eapply ugood_step; eassumption].
    exists [], []. do 2 (split; [constructor|]). split; [constructor|]. auto. }
  destruct (ugood_rel W G) as (kd & xd & xu & HP & REL).
  assert (TB : bs_enc (k_opts k) = bs_enc (es_opts x)) by (apply bs_agree; exact TA). rewrite TB.
  exact (urel_safe view c g a k Inv x L file kd HP _ REL).
Qed.
End U.
End T.
