(** Invariants of servers that share a disk, and what one connection sees of it. *)
From Verif Require Import Base BaseProofs PacketModel MapperModel ReaderModel ReaderSpec ConfigModel CryptoModel CryptoSpec ExtModel PathModel ConnModel
  ClientModel SystemModel ConnSpec HandshakeModel HandshakeProofs ServerModel ServerSpec ServerProofs PropServer WorldModel WorldB PropWorld FsModel FsProofs FsServerModel DiskModel DiskSpec DiskProofs.

(** What a connection does, and the file it has open. *)
Definition kind_ok (v : option entry) (o : option opened) : Prop :=
  match v with
  | None => o = None
  | Some e => match en_work e with WRead _ _ => exists src, o = Some (Reads src) | WWrite _ _ => exists id, o = Some (Writes id) end
  end.

Section G.
Context {S : Type} (c : crypto) (g : srvcfg) (fg : fcfg) (dirsize : N) (sv : server S) (Inv : S -> Prop) (cut : entry -> bytes -> bytes).
Hypothesis G : good c g sv Inv cut.
Notation dkstep := (dkstep sv c g fg dirsize).
Notation dkany := (dkany sv c g fg dirsize).
Notation view := (sv_view sv).
Notation dview := (dview sv).

(** ** Which connections read and which write *)
Lemma accepted_kind f eph d f' q r env av x reply :
  open_request c (g_cfg g) fg dirsize f eph d = (f', q, r) -> h_eph env = eph ->
  server_new c (g_cfg g) (with_open env q) av d = SAccepted x reply ->
  if es_write x then es_reader x = None /\ exists id, r = Some (Writes id) /\ f_data f' id = []
  else f' = f /\ (exists rd, es_reader x = Some rd) /\ exists src, r = Some (Reads src).
Proof.
  intros H EE A. apply server_new_accepted in A. destruct A as [(buf & hs & o0 & rq & used & op & keys & size & F1 & F2 & F3 & F4 & F5 & F6 & _ & RD & _)].
  unfold open_request, file_request in H. rewrite F1, F2 in H. cbn [h_eph with_open] in F3. cbn [h_open with_open] in F5. rewrite EE in F3.
  destruct (es_write x); rewrite F3, F4 in H.
  - destruct (create_server_writer f fg _) as [f1 r1] eqn:CW. injection H as <- <- <-. split; [exact RD|].
    destruct r1 as [id|]; [|discriminate]. exists id. split; [reflexivity|]. apply (writer_new_file _ _ _ _ _ CW).
  - destruct (create_server_reader f fg _) as [src|]; injection H as <- <- <-; [|discriminate].
    split; [reflexivity|]. split; [|eauto]. destruct RD as [RD NN]. destruct (es_reader x); [eauto|congruence].
Qed.

Definition DInv (st : disk S) : Prop := Inv (dk_srv st) /\ forall a, kind_ok (view (dk_srv st) a) (dk_open st a).

Lemma load_inv st : DInv st -> Inv (loaded sv st).
Proof. intros [H _]. apply (gd_load _ _ _ _ _ G). exact H. Qed.
Lemma dview_eq st a : dview st a = option_map (set_file (content (dk_fs st) (dk_open st a))) (view (dk_srv st) a).
Proof. unfold DiskModel.dview, loaded. apply (gd_view _ _ _ _ _ G). Qed.
Lemma dview_none st a : dview st a = None <-> view (dk_srv st) a = None.
Proof. rewrite dview_eq. destruct (view (dk_srv st) a); cbn; split; congruence. Qed.

(** Every step, seen as a phase of the server. *)
Lemma step_phase st t st' o : dkstep st t st' o -> sv_phase sv (loaded sv st) t (dk_srv st') o.
Proof. intros [st0 t0 s' o0 P L|st0 b d i f' q r s' o0 L E M]; cbn [dk_srv]; [exact P|]. apply (gd_main _ _ _ _ _ G) in M. exact M. Qed.

(** One connection through a step. *)
Lemma dk_pev st t st' o a e : DInv st -> dkstep st t st' o -> dview st a = Some e ->
  pev c g a cut e t (view (dk_srv st') a) (sent_to a o) /\
  (view (dk_srv st') a <> None -> dk_open st' a = dk_open st a).
Proof.
  intros H P V. pose proof (gd_pev _ _ _ _ _ G _ _ _ _ a e (load_inv _ H) (step_phase _ _ _ _ P) V) as PE. split; [exact PE|].
  intros N. destruct P as [st0 t0 s' o0 P L|st0 b d i f' q r s' o0 L E M]; cbn [dk_srv dk_open dk_fs] in *; unfold still_open.
  - destruct (view s' a); [reflexivity|contradiction].
  - destruct (view s' a); [|contradiction]. destruct (N.eqb_spec a b) as [->|]; [|reflexivity].
    exfalso. destruct H as [H _]. apply (gd_looked _ _ _ _ _ G _ _ H) in L. apply dview_none in L. congruence.
Qed.
(** A new connection. *)
Lemma dk_new st t st' o a e : DInv st -> dkstep st t st' o -> view (dk_srv st) a = None -> view (dk_srv st') a = Some e ->
  exists d i f' q r x reply, t = TookMain a d /\
    open_request c (g_cfg g) fg dirsize (dk_fs st) (h_eph (i_henv i)) (recv_cut g d) = (f', q, r) /\
    server_new c (g_cfg g) (with_open (i_henv i) q) (i_av i) (recv_cut g d) = SAccepted x reply /\
    e = new_entry x (e_now (i_env i)) (fun _ => content f' r) /\ dk_fs st' = f' /\ dk_open st' a = r /\
    sent_to a o = match reply with Some w => [OWire w] | None => [] end.
Proof.
  intros H P V V'. pose proof (load_inv _ H) as HL. assert (VL : view (loaded sv st) a = None) by (apply dview_none; exact V).
  destruct P as [st t s' o P L|st b d i f' q r s' o L E M]; cbn [dk_srv dk_open dk_fs] in *.
  - exfalso. destruct (gd_none _ _ _ _ _ G _ _ _ _ _ _ HL P VL V') as (d & -> & LK). unfold loaded in LK.
    rewrite (gd_looked_load _ _ _ _ _ G) in LK. rewrite (L _ _ eq_refl) in LK. discriminate.
  - destruct (gd_new _ _ _ _ _ G _ _ _ _ _ _ _ _ HL M VL V') as (-> & x & reply & SN & EE & SO).
    exists d, i, f', q, r, x, reply. split; [reflexivity|]. split; [exact E|]. split; [exact SN|]. split; [exact EE|]. split; [reflexivity|].
    split; [|exact SO]. unfold still_open. rewrite V', N.eqb_refl. reflexivity.
Qed.
Lemma new_kind st t st' o a e : DInv st -> dkstep st t st' o -> view (dk_srv st) a = None -> view (dk_srv st') a = Some e ->
  kind_ok (Some e) (dk_open st' a) /\
  match en_work e with
  | WRead F _ => F = content (dk_fs st') (dk_open st' a)
  | WWrite _ w => w = writer_new /\ content (dk_fs st') (dk_open st' a) = []
  end.
Proof.
  intros H P V V'. destruct (dk_new _ _ _ _ _ _ H P V V') as (d & i & f' & q & r & x & reply & _ & E & SN & -> & -> & -> & _).
  pose proof (accepted_kind _ _ _ _ _ _ _ _ _ _ E eq_refl SN) as K. unfold new_entry. cbn [kind_ok en_work].
  destruct (es_write x).
  - destruct K as (-> & id & -> & D). split; [eauto|]. split; [reflexivity|exact D].
  - destruct K as (_ & (rd & ->) & src & ->). split; [eauto|reflexivity].
Qed.
Lemma DInv_step st t st' o : DInv st -> dkstep st t st' o -> DInv st'.
Proof.
  intros H P. pose proof (gd_keep _ _ _ _ _ G _ _ _ _ (load_inv _ H) (step_phase _ _ _ _ P)) as K. split; [exact K|].
  intros a. destruct (view (dk_srv st') a) as [e'|] eqn:V'.
  - destruct (view (dk_srv st) a) as [e|] eqn:V.
    + assert (VD : dview st a = Some (set_file (content (dk_fs st) (dk_open st a)) e)) by (rewrite dview_eq, V; reflexivity).
      destruct (dk_pev _ _ _ _ _ _ H P VD) as [PE OP]. rewrite OP by congruence. rewrite V' in PE. apply pev_works in PE.
      pose proof (proj2 H a) as KO. rewrite V in KO. cbn [kind_ok] in *. destruct e as [cn ky [F r|p w]]; cbn in PE, KO |- *;
        destruct (en_work e'); tauto.
    + apply (new_kind _ _ _ _ _ _ H P V V').
  - destruct P as [st t s' o P L|st b d i f' q r s' o L E M]; cbn [dk_srv dk_open] in *; unfold still_open; rewrite V'; reflexivity.
Qed.
Lemma DInv_any st t st' o : DInv st -> dkany st t st' o -> DInv st'.
Proof. intros H P. destruct P as [st t st' o P|st f' FN]; [eapply DInv_step; eassumption|]. exact H. Qed.

(** ** Downloads *)
Definition RInv (a : addr) (src : source) (F : bytes) (st : disk S) : Prop :=
  DInv st /\ dk_open st a = Some (Reads src) /\ content (dk_fs st) (Some (Reads src)) = F /\
  exists e r, view (dk_srv st) a = Some e /\ en_work e = WRead F r.
Lemma RInv_view a src F st : RInv a src F st -> dview st a = view (dk_srv st) a.
Proof.
  intros (_ & EO & EC & e & r & V & EW). rewrite dview_eq, EO, EC, V. cbn. rewrite (set_file_same _ _ _ EW). reflexivity.
Qed.
Notation rstep := (unchanged sv c g fg dirsize).
Lemma rstep_pev a src F st t st' o e : RInv a src F st -> rstep a src st t st' o -> dview st a = Some e ->
  pev c g a cut e t (dview st' a) (sent_to a o) /\ (forall e', dview st' a = Some e' -> RInv a src F st').
Proof.
  intros R [P U] V. pose proof R as (D & EO & EC & e0 & r0 & V0 & EW). pose proof (RInv_view _ _ _ _ R) as VW. specialize (U EO).
  pose proof (DInv_any _ _ _ _ D P) as D'. rewrite EC in U.
  destruct P as [st t st' o P|st f' FN].
  - destruct (dk_pev _ _ _ _ _ _ D P V) as [PE OP]. destruct (view (dk_srv st') a) as [e'|] eqn:V'.
    + assert (R' : RInv a src F st').
      { split; [exact D'|]. split; [rewrite OP; [exact EO|congruence]|]. split; [exact U|]. pose proof (pev_works _ _ _ _ _ _ _ _ PE) as W.
        rewrite VW, V0 in V. injection V as <-. rewrite EW in W. destruct (en_work e') as [F' r'|] eqn:EW'; [|contradiction].
        exists e', r'. subst F'. auto. }
      rewrite (RInv_view _ _ _ _ R'), V'. split; [exact PE|]. auto.
    + assert (VN : dview st' a = None) by (apply dview_none; exact V'). rewrite VN. split; [exact PE|discriminate].
  - cbn [dk_srv dk_fs dk_open] in *. assert (R' : RInv a src F (mkDk (dk_srv st) f' (dk_open st))).
    { split; [exact D'|]. split; [exact EO|]. split; [exact U|]. exists e0, r0. auto. }
    rewrite (RInv_view _ _ _ _ R'). cbn [dk_srv]. rewrite <- VW, V. split; [constructor; reflexivity|]. auto.
Qed.

(** ** Uploads *)
Notation writes := (writes sv).
Definition UInv (a : addr) (st : disk S) : Prop := DInv st /\ exists id w, writes a st id w.
Lemma writes_view a st id w : writes a st id w -> dview st a = view (dk_srv st) a.
Proof. intros (e & p & V & EW & _). rewrite dview_eq, V. cbn. rewrite (set_file_write _ _ _ _ EW). reflexivity. Qed.
Lemma wstep_pev a st t st' o e id w : DInv st -> writes a st id w -> dkany st t st' o -> dview st a = Some e ->
  pev c g a cut e t (dview st' a) (sent_to a o) /\
  (forall e', dview st' a = Some e' -> exists w', writes a st' id w' /\ (exists x, w_out w' = w_out w ++ x) /\ (hears a t = false -> w' = w)).
Proof.
  intros D W P V. pose proof (writes_view _ _ _ _ W) as VW. pose proof W as (e0 & p & V0 & EW & EO).
  destruct P as [st t st' o P|st f' FN].
  - destruct (dk_pev _ _ _ _ _ _ D P V) as [PE OP]. rewrite VW, V0 in V. injection V as <-. destruct (view (dk_srv st') a) as [e'|] eqn:V'.
    + pose proof (pev_works _ _ _ _ _ _ _ _ PE) as WK. rewrite EW in WK. destruct (en_work e') as [|p' w'] eqn:EW'; [contradiction|].
      destruct WK as (-> & X & HH). assert (W' : writes a st' id w') by (exists e', p; rewrite OP by congruence; auto).
      rewrite (writes_view _ _ _ _ W'), V'. split; [exact PE|]. intros _ _. eauto.
    + assert (VN : dview st' a = None) by (apply dview_none; exact V'). rewrite VN. split; [exact PE|discriminate].
  - assert (W' : writes a (mkDk (dk_srv st) f' (dk_open st)) id w) by (exists e0, p; auto).
    rewrite (writes_view _ _ _ _ W'). cbn [dk_srv]. rewrite <- VW, V. split; [constructor; reflexivity|]. intros _ _. exists w.
    split; [exact W'|]. split; [exists []; rewrite app_nil_r; reflexivity|auto].
Qed.

(** What a client's datagram does to the disk. *)
Lemma hears_writes a st t st' o id w w' : DInv st -> dkany st t st' o -> hears a t = true -> writes a st id w -> writes a st' id w' ->
  dk_fs st' = set_data (dk_fs st) id (write_at (f_data (dk_fs st) id) (blen (w_out w)) (dropN (blen (w_out w)) (w_out w'))).
Proof.
  intros D P H W W'. pose proof (writes_view _ _ _ _ W) as VW. destruct W as (e & p & V & EW & EO), W' as (e' & p' & V' & EW' & EO').
  destruct P as [st t st' o P|st f' FN]; [|discriminate]. destruct P as [st t s' o P L|st b d i f' q r s' o L E M]; cbn [dk_srv dk_open dk_fs] in *; [|discriminate].
  destruct t as [|b d v|b d]; [discriminate| |discriminate]. cbn [hears] in H. apply N.eqb_eq in H. subst b.
  rewrite EO, VW, V, V'. unfold written. destruct e as [cn ky wk], e' as [cn' ky' wk']. cbn [en_work] in *. subst. reflexivity.
Qed.
Lemma hears_other a st t st' o id : DInv st -> dkany st t st' o -> hears a t = true -> dk_open st a <> Some (Writes id) ->
  f_data (dk_fs st') id = f_data (dk_fs st) id.
Proof.
  intros D P H N. destruct P as [st t st' o P|st f' FN]; [|discriminate]. destruct P as [st t s' o P L|st b d i f' q r s' o L E M]; cbn [dk_srv dk_open dk_fs] in *; [|discriminate].
  destruct t as [|b d v|b d]; [discriminate| |discriminate]. cbn [hears] in H. apply N.eqb_eq in H. subst b.
  unfold written. destruct (dk_open st a) as [[|id']|]; try reflexivity.
  destruct (dview st a) as [[cn ky [|p w]]|]; try reflexivity. destruct (view s' a) as [[cn' ky' [|p' w']]|]; try reflexivity.
  cbn. destruct (N.eqb_spec id id') as [->|]; [contradiction|reflexivity].
Qed.
Lemma hears_lost a st t st' o id : DInv st -> dkany st t st' o -> hears a t = true -> view (dk_srv st') a = None ->
  f_data (dk_fs st') id = f_data (dk_fs st) id.
Proof.
  intros D P H V'. destruct P as [st t st' o P|st f' FN]; [|discriminate]. destruct P as [st t s' o P L|st b d i f' q r s' o L E M]; cbn [dk_srv dk_open dk_fs] in *; [|discriminate].
  destruct t as [|b d v|b d]; [discriminate| |discriminate]. cbn [hears] in H. apply N.eqb_eq in H. subst b. rewrite V'.
  unfold written. destruct (dk_open st a) as [[|id']|]; try reflexivity. destruct (dview st a) as [[cn ky [|p w]]|]; reflexivity.
Qed.

Notation ustep := (alone sv c g fg dirsize).
Definition kept_ok (a : addr) (id : N) (over : bool) (kept : bytes) (st : disk S) : Prop :=
  DInv st /\ f_data (dk_fs st) id = kept /\
  if over then dk_open st a <> Some (Writes id) else exists w, writes a st id w /\ w_out w = kept.
Lemma kept_step a id st t st' o kept : kept_ok a id false kept st -> ustep a id st t st' o ->
  kept_ok a id (ended (dview st' a)) (keep kept (dview st' a)) st'.
Proof.
  intros (D & EK & w & W & EO) [P [A1 A2]]. pose proof (DInv_any _ _ _ _ D P) as D'. split; [exact D'|].
  pose proof (writes_view _ _ _ _ W) as VW. pose proof W as (e & p & V & EW & OP). rewrite V in VW.
  destruct (wstep_pev _ _ _ _ _ _ _ _ D W P VW) as [_ NX].
  destruct (dview st' a) as [e'|] eqn:VD'; cbn [ended keep].
  - destruct (NX e' eq_refl) as (w' & W' & (x & EX) & HH).
    assert (EK' : match en_work e' with WWrite _ w0 => w_out w0 | WRead _ _ => kept end = w_out w').
    { pose proof (writes_view _ _ _ _ W') as VW'. destruct W' as (e1 & p1 & V1 & EW1 & _). rewrite VD', V1 in VW'. injection VW' as ->. rewrite EW1. reflexivity. }
    rewrite EK'. split; [|exists w'; auto]. destruct (hears a t) eqn:HT.
    + rewrite (hears_writes _ _ _ _ _ _ _ _ D P HT W W'). cbn. rewrite N.eqb_refl, EK, <- EO.
      rewrite EX, dropN_app_exact, write_end by reflexivity. reflexivity.
    + rewrite A1, EK, <- EO, HH; reflexivity.
  - apply dview_none in VD'. split.
    + destruct (hears a t) eqn:HT; [rewrite (hears_lost _ _ _ _ _ _ D P HT VD'); exact EK|rewrite A1; auto].
    + pose proof (proj2 D' a) as KO. rewrite VD' in KO. cbn in KO. rewrite KO. discriminate.
Qed.
Lemma kept_later a id st t st' o kept : kept_ok a id true kept st -> ustep a id st t st' o -> kept_ok a id true kept st'.
Proof.
  intros (D & EK & NO) [P [A1 A2]]. split; [eapply DInv_any; eassumption|]. split; [|intros X; apply NO, A2, X].
  destruct (hears a t) eqn:HT; [rewrite (hears_other _ _ _ _ _ _ D P HT NO); exact EK|rewrite A1; auto].
Qed.
Lemma kept_run a id k file n W0 W : uwreach (ustep a id) dview c a k file n W0 W ->
  kept_ok a id (uw_over W0) (uw_kept W0) (uw_srv W0) -> kept_ok a id (uw_over W) (uw_kept W) (uw_srv W).
Proof.
  induction 1 as [|W1 W2 R IH ST]; intros H0; [exact H0|]. specialize (IH H0).
  destruct ST; cbn [uw_srv uw_over uw_kept] in *; try exact IH; try (eapply kept_step; eassumption). eapply kept_later; eassumption.
Qed.

(** ** Any number of uploads into one file *)
Lemma changed_cases st t st' o id : DInv st -> dkstep st t st' o ->
  f_data (dk_fs st') id = f_data (dk_fs st) id \/
  (exists b d, t = TookMain b d /\ sv_looked sv (dk_srv st) b = true /\ f_data (dk_fs st') id = []) \/
  (exists b d v w w' x, t = TookClient b d v /\ writes b st id w /\ writes b st' id w' /\ w_out w' = w_out w ++ x /\
    f_data (dk_fs st') id = write_at (f_data (dk_fs st) id) (blen (w_out w)) x).
Proof.
  intros D P. pose proof (DInv_step _ _ _ _ D P) as D'. pose proof P as P0. destruct P as [st t s' o P L|st b d i f' q r s' o L E M]; cbn [dk_srv dk_open dk_fs] in *.
  - destruct t as [|b d v|b d]; [left; reflexivity| |left; reflexivity].
    destruct (hears b (TookClient b d v)) eqn:HH; [|cbn in HH; rewrite N.eqb_refl in HH; discriminate].
    pose proof (dk_step _ _ _ _ _ _ _ _ _ P0) as PA.
    destruct (dview st b) as [e|] eqn:VD; [|left; unfold written; destruct (dk_open st b) as [[]|]; reflexivity].
    pose proof (proj2 D b) as K. rewrite dview_eq in VD. destruct (view (dk_srv st) b) as [e0|] eqn:V; [|discriminate]. cbn [option_map] in VD. injection VD as <-.
    cbn [kind_ok] in K. destruct (en_work e0) as [F r|p w] eqn:EW.
    { left. destruct K as [src ->]. reflexivity. }
    destruct K as [id0 EO]. destruct (N.eq_dec id0 id) as [->|NE].
    2:{ left. refine (hears_other b st _ _ _ id D PA HH _). rewrite EO. congruence. }
    assert (W : writes b st id w) by (exists e0, p; auto).
    pose proof (writes_view _ _ _ _ W) as VW. rewrite V in VW.
    destruct (wstep_pev _ _ _ _ _ _ _ _ D W PA VW) as [_ NX].
    destruct (view s' b) as [e'|] eqn:V'.
    2:{ left. exact (hears_lost b st _ _ _ id D PA HH V'). }
    match type of PA with DiskModel.dkany _ _ _ _ _ _ _ ?s _ => set (st' := s) in * end.
    assert (VD' : exists e1, dview st' b = Some e1) by (rewrite dview_eq; unfold st'; cbn [dk_srv]; rewrite V'; cbn; eauto).
    destruct VD' as [e1 VD']. destruct (NX e1 VD') as (w' & W' & (x & EX) & _).
    right. right. exists b, d, v, w, w', x. split; [reflexivity|]. split; [exact W|]. split; [exact W'|]. split; [exact EX|].
    pose proof (hears_writes _ _ _ _ _ _ _ _ D PA HH W W') as HW. unfold st' in HW at 1. cbn [dk_fs] in HW. rewrite HW. cbn. rewrite N.eqb_refl, EX, dropN_app_exact by reflexivity. reflexivity.
  - pose proof (request_data _ _ _ _ _ _ _ _ _ _ E id) as [X|X]; [left; exact X|]. right. left. exists b, d. auto.
Qed.
End G.
