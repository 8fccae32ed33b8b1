(** Concrete runs for C69: the worlds of WorldCases with exchanges counted. *)
From Verif Require Import Base BaseProofs PacketModel PacketSpec MapperModel ReaderModel ReaderSpec ConfigModel Base64Model CryptoModel CryptoSpec CryptoProofs ExtModel ExtSpec
  PathModel ConnModel ClientModel ConnSpec HandshakeModel PropCrypto PropExt PropHandshake AgreeProofs PropAgree SystemModel
  ServerModel ServerSpec ServerProofs PropServer WorldModel WorldProofs WorldB PropWorld WorldCases ProgressModel PropProgress.

Section Run.
Context {S E : Type} (step : S -> took -> S -> outs -> Prop) (view : S -> addr -> option entry)
  (exec : S -> E -> option (took * S * outs)).
Hypothesis exec_ok : forall s x t s' o, exec s x = Some (t, s', o) -> step s t s' o.
Variables (c : crypto) (a : addr) (k : cside) (bs n : N).
(** Anything; the client is handed the [j]-th datagram sent to it; the server gets the answer; the answer is lost. *)
Inductive xev := XAny (x : @wev E) | XHand (j : nat) (now : N) | XAnswer (x : bytes -> E) | XLost.
Definition dx : Type := N * option dgram * @dworld S.
Definition dx_do (x : dx) (ev : xev) : option dx :=
  let '(m, w, W) := x in
  match ev with
  | XAny y => match dw_do view exec c a k n W y with Some W' => Some (m, w, W') | None => None end
  | XLost => match w with Some _ => Some (m, None, W) | None => None end
  | XHand j now =>
      match w, dw_stat W, dw_over W, nth_error (dw_down W) j, view (dw_srv W) a with
      | None, CRun, false, Some (y, Some i), Some e =>
          if negb (c_finished (en_conn e)) && (1 <=? i) && (c_transfer (en_conn e) =? (i - 1) * bs) then
            let '(cl', plain, stat') := recv_step (client_dec c (k_sock k) (op_bs (k_opts k))) (k_opts k) (k_max k) (k_timeout k)
              (dw_cl W) (EvDatagram true y) now false None true [] in
            match sealed_all (seal_client c (k_sock k) (w_written (cr_w cl'))) plain with
            | Some new => Some (match new with [] => m + 1 | _ => m end, hd_error new,
                mkDW (dw_srv W) false cl' stat' (dw_down W) (new ++ dw_up W) (see (dw_sc W) (y, Some i)) (dw_ss W))
            | None => None
            end
          else None
      | _, _, _, _, _ => None
      end
  | XAnswer f =>
      match w, dw_over W, dw_up W with
      | Some y, false, y0 :: _ =>
          if beq (fst y0) (fst y) && match snd y0, snd y with Some u, Some v => u =? v | _, _ => false end then
          match srv_do view exec c a (dw_srv W) (f (fst y0)) with
          | Some (t, s', new) =>
              match view s' a with
              | Some _ =>
                  if own_b a t y0 && fresh_b (dw_ss W) y0 then
                    Some (m + 1, None, mkDW s' false (dw_cl W) (dw_stat W) (new ++ dw_down W) (dw_up W) (dw_sc W) (see (dw_ss W) y0))
                  else None
              | None => None
              end
          | None => None
          end
          else None
      | _, _, _ => None
      end
  end.
Lemma dx_do_ok W0 m w W ev m' w' W' : dexchanges step view c a k bs n W0 m w W -> dx_do (m, w, W) ev = Some (m', w', W') ->
  dexchanges step view c a k bs n W0 m' w' W'.
Proof.
  intros H. destruct ev as [y|j now|f|]; cbn [dx_do].
  - destruct (dw_do _ _ _ _ _ _ _ _) as [W1|] eqn:D; [|discriminate]. intros [= <- <- <-]. eapply dx_any; [exact H|].
    eapply dw_do_step; eassumption.
  - destruct W as [s over cl stat down up sc ss]. cbn [dw_srv dw_over dw_cl dw_stat dw_down dw_up dw_sc dw_ss].
    destruct w; [discriminate|]. destruct stat; try discriminate. destruct over; [discriminate|].
    destruct (nth_error down j) as [[y [i|]]|] eqn:NT; [|discriminate..]. destruct (view s a) as [e|] eqn:VE; [|discriminate].
    destruct (_ && _)%bool eqn:CK; [|discriminate]. apply Bool.andb_true_iff in CK as [CK C3]. apply Bool.andb_true_iff in CK as [C1 C2].
    destruct (recv_step _ _ _ _ _ _ _ _ _ _ _) as [[cl' plain] stat'] eqn:RS. destruct (sealed_all _ _) as [new|] eqn:SL; [|discriminate].
    intros [= <- <- <-]. eapply dx_handed; [exact H|]. eapply dhanded_intro; [exact VE| | | | |exact RS|apply seal_client_ok; exact SL].
    + apply Bool.negb_true_iff. exact C1.
    + apply N.leb_le. exact C2.
    + apply N.eqb_eq. exact C3.
    + eapply nth_error_In. exact NT.
  - destruct W as [s over cl stat down up sc ss]. cbn [dw_srv dw_over dw_cl dw_stat dw_down dw_up dw_sc dw_ss].
    destruct w as [y|]; [|discriminate]. destruct over; [discriminate|]. destruct up as [|y0 up]; [discriminate|].
    destruct (beq _ _ && _)%bool eqn:EY; [|discriminate].
    assert (y0 = y) as ->.
    { apply Bool.andb_true_iff in EY as [E1 E2]. apply beq_eq in E1. destruct y0 as [d0 [u|]], y as [d1 [v|]]; cbn in *; try discriminate.
      apply N.eqb_eq in E2. congruence. }
    destruct (srv_do _ _ _ _ _ _) as [[[t s'] new]|] eqn:D; [|discriminate]. destruct (view s' a) as [e'|] eqn:VE'; [|discriminate].
    destruct (own_b a t y && fresh_b ss y)%bool eqn:CK; [|discriminate]. intros [= <- <- <-].
    apply Bool.andb_true_iff in CK as [OB FR]. destruct (own_check _ _ _ OB) as (v & -> & _).
    destruct (srv_do_ok step view exec exec_ok _ _ _ _ _ _ _ D) as (e & o & V & ST & SL).
    eapply dx_answered; [exact H|exact ST|left; reflexivity|apply fresh_check; exact FR|exact V|exact VE'|exact SL].
  - destruct w as [y|]; [|discriminate]. intros [= <- <- <-]. eapply dx_lost. exact H.
Qed.
Fixpoint dx_run (x : dx) (l : list xev) : option dx :=
  match l with [] => Some x | y :: l' => match dx_do x y with Some x' => dx_run x' l' | None => None end end.
Definition dx_final (W0 : @dworld S) (l : list xev) : dx := match dx_run (0, None, W0) l with Some x => x | None => (0, None, W0) end.
Lemma dx_final_ok W0 l : let '(m, w, W) := dx_final W0 l in dexchanges step view c a k bs n W0 m w W.
Proof.
  unfold dx_final. assert (G : forall l m w W m' w' W', dexchanges step view c a k bs n W0 m w W -> dx_run (m, w, W) l = Some (m', w', W') ->
    dexchanges step view c a k bs n W0 m' w' W').
  { clear l. induction l as [|ev l IH]; cbn [dx_run]; intros m w W m' w' W' H R; [injection R as <- <- <-; exact H|].
    destruct (dx_do (m, w, W) ev) as [[[m1 w1] W1]|] eqn:D; [|discriminate]. eapply IH; [|exact R]. eapply dx_do_ok; eassumption. }
  destruct (dx_run _ l) as [[[m w] W]|] eqn:R; [|constructor]. eapply G; [constructor|exact R].
Qed.

(** The same for uploads: the server is handed the [j]-th datagram sent to it; the client gets the answer. *)
Inductive yev := YAny (x : @wev E) | YHand (j : nat) (x : bytes -> E) | YAnswer (now : N) | YLost.
Definition ux : Type := N * option dgram * @uworld S.
Definition calm_b (t : took) : bool := match t with TookClient _ _ v => negb (e_io v) && e_sock v | _ => false end.
Definition ux_do (file : bytes) (x : ux) (ev : yev) : option ux :=
  let '(m, w, W) := x in
  match ev with
  | YAny y => match uw_do view exec c a k file n W y with Some W' => Some (m, w, W') | None => None end
  | YLost => match w with Some _ => Some (m, None, W) | None => None end
  | YHand j f =>
      match w, uw_stat W, uw_over W, nth_error (uw_up W) j, view (uw_srv W) a with
      | None, CRun, false, Some (y, Some i), Some e =>
          if negb (c_finished (en_conn e)) && (1 <=? i) && (cs_total (uw_cl W) =? (i - 1) * bs) &&
             match c_invalid (en_conn e) with None => true | Some _ => false end then
            match srv_do view exec c a (uw_srv W) (f y) with
            | Some (t, s', new) =>
                match view s' a with
                | Some _ =>
                    if own_b a t (y, Some i) && calm_b t then
                      Some (match new with [] => m + 1 | _ => m end, hd_error new,
                        mkUW s' false (keep (uw_kept W) (view s' a)) (uw_cl W) CRun (new ++ uw_down W) (uw_up W) (uw_sc W) (see (uw_ss W) (y, Some i)))
                    else None
                | None => None
                end
            | None => None
            end
          else None
      | _, _, _, _, _ => None
      end
  | YAnswer now =>
      match w, uw_stat W, uw_down W with
      | Some y, CRun, y0 :: _ =>
          if beq (fst y0) (fst y) && match snd y0, snd y with Some u, Some v => u =? v | _, _ => false end && fresh_b (uw_sc W) y0 then
            let '(cl', stat') := sender_recv (client_dec c (k_sock k) (op_bs (k_opts k))) (k_timeout k) (uw_cl W) (EvDatagram true (fst y0)) now in
            Some (m + 1, None, mkUW (uw_srv W) (uw_over W) (uw_kept W) cl' stat' (uw_down W) (uw_up W) (see (uw_sc W) y0) (uw_ss W))
          else None
      | _, _, _ => None
      end
  end.
Lemma ux_do_ok file W0 m w W ev m' w' W' : uexchanges step view c a k file bs n W0 m w W -> ux_do file (m, w, W) ev = Some (m', w', W') ->
  uexchanges step view c a k file bs n W0 m' w' W'.
Proof.
  intros H. destruct ev as [y|j f|now|]; cbn [ux_do].
  - destruct (uw_do _ _ _ _ _ _ _ _ _) as [W1|] eqn:D; [|discriminate]. intros [= <- <- <-]. eapply ux_any; [exact H|].
    eapply uw_do_step; eassumption.
  - destruct W as [s over kept cl stat down up sc ss]. cbn [uw_srv uw_over uw_kept uw_cl uw_stat uw_down uw_up uw_sc uw_ss].
    destruct w; [discriminate|]. destruct stat; try discriminate. destruct over; [discriminate|].
    destruct (nth_error up j) as [[y [i|]]|] eqn:NT; [|discriminate..]. destruct (view s a) as [e|] eqn:VE; [|discriminate].
    destruct (_ && _)%bool eqn:CK; [|discriminate]. apply Bool.andb_true_iff in CK as [CK C4]. apply Bool.andb_true_iff in CK as [CK C3].
    apply Bool.andb_true_iff in CK as [C1 C2]. destruct (c_invalid (en_conn e)) eqn:IV; [discriminate|].
    destruct (srv_do _ _ _ _ _ _) as [[[t s'] new]|] eqn:D; [|discriminate]. destruct (view s' a) as [e'|] eqn:VE'; [|discriminate].
    destruct (own_b a t (y, Some i) && calm_b t)%bool eqn:OC; [|discriminate]. intros [= <- <- <-].
    apply Bool.andb_true_iff in OC as [OB CB]. destruct (own_check _ _ _ OB) as (v & -> & SH). cbn [calm_b fst] in *.
    apply Bool.andb_true_iff in CB as [CB1 CB2].
    destruct (srv_do_ok step view exec exec_ok _ _ _ _ _ _ _ D) as (e0 & o & V & ST & SL). rewrite VE in V. injection V as <-.
    change (match en_work e' with WRead _ _ => kept | WWrite _ w => w_out w end) with (keep kept (Some e')). rewrite <- VE'.
    eapply ux_handed; [exact H|]. eapply uhanded_intro; [ | |eapply nth_error_In; exact NT|exact VE| |exact IV|exact ST| |exact SH|exact CB2|exact VE'|exact SL].
    + apply N.leb_le. exact C2.
    + apply N.eqb_eq. exact C3.
    + apply Bool.negb_true_iff. exact C1.
    + apply Bool.negb_true_iff. exact CB1.
  - destruct W as [s over kept cl stat down up sc ss]. cbn [uw_srv uw_over uw_kept uw_cl uw_stat uw_down uw_up uw_sc uw_ss].
    destruct w as [y|]; [|discriminate]. destruct stat; try discriminate. destruct down as [|y0 down]; [discriminate|].
    destruct (_ && _)%bool eqn:EY; [|discriminate]. apply Bool.andb_true_iff in EY as [EY FR].
    assert (y0 = y) as ->.
    { apply Bool.andb_true_iff in EY as [E1 E2]. apply beq_eq in E1. destruct y0 as [d0 [u|]], y as [d1 [v|]]; cbn in *; try discriminate.
      apply N.eqb_eq in E2. congruence. }
    destruct (sender_recv _ _ _ _ _) as [cl' stat'] eqn:RS. intros [= <- <- <-].
    eapply ux_answered; [exact H|]. eapply uanswered_intro; [left; reflexivity|apply fresh_check; exact FR|exact RS].
  - destruct w as [y|]; [|discriminate]. intros [= <- <- <-]. eapply ux_lost. exact H.
Qed.
Fixpoint ux_run (file : bytes) (x : ux) (l : list yev) : option ux :=
  match l with [] => Some x | y :: l' => match ux_do file x y with Some x' => ux_run file x' l' | None => None end end.
Definition ux_final (file : bytes) (W0 : @uworld S) (l : list yev) : ux := match ux_run file (0, None, W0) l with Some x => x | None => (0, None, W0) end.
Lemma ux_final_ok file W0 l : let '(m, w, W) := ux_final file W0 l in uexchanges step view c a k file bs n W0 m w W.
Proof.
  unfold ux_final. assert (G : forall l m w W m' w' W', uexchanges step view c a k file bs n W0 m w W -> ux_run file (m, w, W) l = Some (m', w', W') ->
    uexchanges step view c a k file bs n W0 m' w' W').
  { clear l. induction l as [|ev l IH]; cbn [ux_run]; intros m w W m' w' W' H R; [injection R as <- <- <-; exact H|].
    destruct (ux_do file (m, w, W) ev) as [[[m1 w1] W1]|] eqn:D; [|discriminate]. eapply IH; [|exact R]. eapply ux_do_ok; eassumption. }
  destruct (ux_run _ _ l) as [[[m w] W]|] eqn:R; [|constructor]. eapply G; [constructor|exact R].
Qed.
End Run.

(** The download of two blocks, with one answer lost, in three exchanges: the most that are needed. *)
Definition pg_events : list (@xev sev) :=
  [XAny (WDo (SSend (wc_in 11 wc_quiet MWouldBlock))); XAny (WDo (SSend (wc_in 12 wc_quiet MWouldBlock)));
   XHand 1 20; XHand 1 21; XLost; XHand 1 22; XAnswer (wc_ack 30); XHand 0 31; XAny (WDo (SRecv (wc_in 31 wc_quiet MWouldBlock))); XAnswer (wc_ack 32)].
Definition pg_f : @dx sstate := Eval vm_compute in dx_final sview (sexec toy wc_g) toy 10 wc_k (bs_enc (k_opts wc_k)) wc_n wc_W0 pg_events.
Lemma pg_f_eq : pg_f = dx_final sview (sexec toy wc_g) toy 10 wc_k (bs_enc (k_opts wc_k)) wc_n wc_W0 pg_events.
Proof. vm_compute. reflexivity. Qed.
Example download_progress_case :
  (* 2n - 1 exchanges of the n = 2 blocks, after which the whole file is there *)
  wc_n = 2 /\ fst (fst pg_f) = 2 * wc_n - 1 /\
  dexchanges (sphase toy wc_g) sview toy 10 wc_k (bs_enc (k_opts wc_k)) wc_n wc_W0 (fst (fst pg_f)) (snd (fst pg_f)) (snd pg_f) /\
  dw_stat (snd pg_f) = CDone 1500 /\ w_out (cr_w (dw_cl (snd pg_f))) = wc_file.
Proof.
  do 2 (split; [vm_compute; reflexivity|]). split.
  - rewrite pg_f_eq. pose proof (dx_final_ok (sphase toy wc_g) sview (sexec toy wc_g) (sexec_ok toy wc_g) toy 10 wc_k (bs_enc (k_opts wc_k)) wc_n wc_W0 pg_events) as H.
    destruct (dx_final _ _ _ _ _ _ _ _ _) as [[m w] W]. exact H.
  - split; vm_compute; reflexivity.
Qed.
(** The same from a thread of the multi threaded server. *)
Definition pg_mevents : list (@xev tev) :=
  [XAny (WDo (TSend 1404 (wc_e 11))); XAny (WDo (TSend 1404 (wc_e 12)));
   XHand 1 20; XHand 1 21; XLost; XHand 1 22; XAnswer (fun d => TRecv d (wc_e 30)); XHand 0 31; XAnswer (fun d => TRecv d (wc_e 32))].
Definition pg_mf : @dx mstate := Eval vm_compute in dx_final mview (mexec toy wc_g 10) toy 10 wc_k (bs_enc (k_opts wc_k)) wc_n wc_M0 pg_mevents.
Lemma pg_mf_eq : pg_mf = dx_final mview (mexec toy wc_g 10) toy 10 wc_k (bs_enc (k_opts wc_k)) wc_n wc_M0 pg_mevents.
Proof. vm_compute. reflexivity. Qed.
Example multi_download_progress_case :
  2 * wc_n - 1 <= fst (fst pg_mf) /\
  dexchanges (mphase toy wc_g) mview toy 10 wc_k (bs_enc (k_opts wc_k)) wc_n wc_M0 (fst (fst pg_mf)) (snd (fst pg_mf)) (snd pg_mf) /\
  dw_stat (snd pg_mf) = CDone 1500.
Proof.
  split; [vm_compute; discriminate|]. split; [|vm_compute; reflexivity].
  rewrite pg_mf_eq. pose proof (dx_final_ok (mphase toy wc_g) mview (mexec toy wc_g 10) (mexec_ok toy wc_g 10) toy 10 wc_k (bs_enc (k_opts wc_k)) wc_n wc_M0 pg_mevents) as H.
  destruct (dx_final _ _ _ _ _ _ _ _ _) as [[m w] W]. exact H.
Qed.

(** ** Uploads. *)
Definition pg_uevents : list (@yev sev) :=
  [YAny WClientSends; YAny WClientSends; YHand 1 (wu_data 20); YAny (wu_idle 20); YHand 1 (wu_data 20); YLost; YAny (wu_idle 20); YHand 1 (wu_data 21); YAnswer 22; YAny (wu_idle 22);
   YHand 0 (wu_data 23); YAnswer 24].
Definition pg_uf : @ux sstate := Eval vm_compute in ux_final sview (sexec toy wc_g) toy 50 wu_k (bs_enc (k_opts wu_k)) wu_n wc_file wu_W0 pg_uevents.
Lemma pg_uf_eq : pg_uf = ux_final sview (sexec toy wc_g) toy 50 wu_k (bs_enc (k_opts wu_k)) wu_n wc_file wu_W0 pg_uevents.
Proof. vm_compute. reflexivity. Qed.
Example upload_progress_case :
  wu_n = 2 /\ fst (fst pg_uf) = 2 * wu_n - 1 /\
  uexchanges (sphase toy wc_g) sview toy 50 wu_k wc_file (bs_enc (k_opts wu_k)) wu_n wu_W0 (fst (fst pg_uf)) (snd (fst pg_uf)) (snd pg_uf) /\
  uw_stat (snd pg_uf) = CDone 1500 /\ uw_kept (snd pg_uf) = wc_file.
Proof.
  do 2 (split; [vm_compute; reflexivity|]). split.
  - rewrite pg_uf_eq. pose proof (ux_final_ok (sphase toy wc_g) sview (sexec toy wc_g) (sexec_ok toy wc_g) toy 50 wu_k (bs_enc (k_opts wu_k)) wu_n wc_file wu_W0 pg_uevents) as H.
    destruct (ux_final _ _ _ _ _ _ _ _ _ _) as [[m w] W]. exact H.
  - split; vm_compute; reflexivity.
Qed.
Definition pg_muevents : list (@yev tev) :=
  [YAny WClientSends; YAny WClientSends; YHand 1 (wu_mdata 20); YHand 1 (wu_mdata 20); YLost; YHand 1 (wu_mdata 21); YAnswer 22;
   YHand 0 (wu_mdata 23); YAnswer 24].
Definition pg_muf : @ux mstate := Eval vm_compute in ux_final mview (mexec toy wc_g 50) toy 50 wu_k (bs_enc (k_opts wu_k)) wu_n wc_file wu_M0 pg_muevents.
Lemma pg_muf_eq : pg_muf = ux_final mview (mexec toy wc_g 50) toy 50 wu_k (bs_enc (k_opts wu_k)) wu_n wc_file wu_M0 pg_muevents.
Proof. vm_compute. reflexivity. Qed.
Example multi_upload_progress_case :
  fst (fst pg_muf) = 2 * wu_n - 1 /\
  uexchanges (mphase toy wc_g) mview toy 50 wu_k wc_file (bs_enc (k_opts wu_k)) wu_n wu_M0 (fst (fst pg_muf)) (snd (fst pg_muf)) (snd pg_muf) /\
  uw_stat (snd pg_muf) = CDone 1500 /\ uw_kept (snd pg_muf) = wc_file.
Proof.
  split; [vm_compute; reflexivity|]. split.
  - rewrite pg_muf_eq. pose proof (ux_final_ok (mphase toy wc_g) mview (mexec toy wc_g 50) (mexec_ok toy wc_g 50) toy 50 wu_k (bs_enc (k_opts wu_k)) wu_n wc_file wu_M0 pg_muevents) as H.
    destruct (ux_final _ _ _ _ _ _ _ _ _ _) as [[m w] W]. exact H.
  - split; vm_compute; reflexivity.
Qed.

(** ** A second downloader at address 20: one turn goes to the first one, and that is the most a
    connection that is due can be passed over with two of them. *)
Definition pg_i : input := wc_in 11 wc_quiet (MData 20 wc_d).
Definition pg_s2 : sstate := Eval vm_compute in wc_st (step_recv toy wc_g wc_s1 pg_i).
Lemma pg_s2_eq : pg_s2 = wc_st (step_recv toy wc_g wc_s1 pg_i).
Proof. vm_compute. reflexivity. Qed.
Definition pg_o2 : outs := Eval vm_compute in wc_out (step_recv toy wc_g wc_s1 pg_i).
Lemma pg_o2_eq : pg_o2 = wc_out (step_recv toy wc_g wc_s1 pg_i).
Proof. vm_compute. reflexivity. Qed.
Definition pg_e : entry := match sview pg_s2 20 with Some e => e | None => mkE (conn_new ex_o 0) None (WWrite [] writer_new) end.
Definition pg_turn : input := wc_in 2100 wc_quiet MWouldBlock.
Example resends_case :
  spreach toy wc_g wc_s1 /\ sview wc_s1 20 = None /\ taken wc_s1 pg_i = TookMain 20 wc_d /\ step_recv toy wc_g wc_s1 pg_i = Some (pg_s2, pg_o2) /\
  sent_to 20 pg_o2 = [OWire wc_w] /\ sview pg_s2 20 = Some pg_e /\ (exists r, en_work pg_e = WRead wc_file r) /\
  negotiates toy (g_cfg wc_g) (i_henv pg_i) false wc_d wc_w wc_k /\
  c_finished (en_conn pg_e) = false /\ due pg_e (wc_e 2100) /\
  neglected toy wc_g [10; 20] 20 pg_e pg_s2 [pg_turn].
Proof.
  split. { eapply spreach_step; [exact wc_s0_reach|]. eapply (sp_receive toy wc_g wc_s0 wc_i). instantiate (1 := wc_o1). vm_compute. reflexivity. }
  do 5 (split; [vm_compute; reflexivity|]). split; [eexists; vm_compute; reflexivity|]. split; [exact wc_negotiates|].
  split; [vm_compute; reflexivity|]. assert (DU : due pg_e (wc_e 2100)) by (repeat split; vm_compute; reflexivity). split; [exact DU|].
  destruct (step_clean wc_g pg_s2 pg_turn) as [s1 o1] eqn:E1. destruct (step_send s1 pg_turn) as [s2 o2] eqn:E2.
  destruct (step_recv toy wc_g s2 pg_turn) as [[s3 o3]|] eqn:E3.
  - eapply neglected_cons; [exact E1| |exact DU|exact DU|exact E2| |exact E3| |constructor].
    + replace s1 with (fst (step_clean wc_g pg_s2 pg_turn)) by (rewrite E1; reflexivity). vm_compute. reflexivity.
    + replace o2 with (snd (step_send (fst (step_clean wc_g pg_s2 pg_turn)) pg_turn)) by (rewrite E1; cbn [fst]; rewrite E2; reflexivity). vm_compute. reflexivity.
    + replace s2 with (fst (step_send (fst (step_clean wc_g pg_s2 pg_turn)) pg_turn)) by (rewrite E1; cbn [fst]; rewrite E2; reflexivity). vm_compute. reflexivity.
  - exfalso. replace s2 with (fst (step_send (fst (step_clean wc_g pg_s2 pg_turn)) pg_turn)) in E3 by (rewrite E1; cbn [fst]; rewrite E2; reflexivity).
    assert (X : match step_recv toy wc_g (fst (step_send (fst (step_clean wc_g pg_s2 pg_turn)) pg_turn)) pg_turn with None => false | _ => true end = true)
      by (vm_compute; reflexivity). rewrite E3 in X. discriminate.
Qed.
