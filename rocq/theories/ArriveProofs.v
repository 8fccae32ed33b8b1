(** Lemmas for C79. *)
From Verif Require Import Base BaseProofs PacketModel MapperModel ReaderModel ReaderSpec ConfigModel CryptoModel CryptoSpec ExtModel PathModel ConnModel
  ClientModel ConnSpec HandshakeModel ClientWaitModel ServerModel ServerSpec ServerProofs PropServer WorldModel WorldB PropWorld FsModel FsSpec FsProofs FsServerModel
  DiskModel DiskSpec DiskProofs DiskB StoreSpec StoreProofs RunModel RunSpec SmoothModel SmoothSpec SmoothC ArriveModel ArriveSpec.
From Verif Require CliModel.

(** What becomes of a connection in a turn: it reads the same file, it stores more, but only if a datagram was received. *)
Definition evolves (got : bool) (e : entry) (v : option entry) : Prop :=
  match v with
  | None => True
  | Some e' => match en_work e, en_work e' with
      | WRead F _, WRead F' _ => F' = F
      | WWrite p w, WWrite p' w' => p' = p /\ (exists x, w_out w' = w_out w ++ x) /\ (got = false -> w' = w)
      | _, _ => False
      end
  end.
Lemma evolves_refl e : evolves false e (Some e).
Proof. unfold evolves. destruct (en_work e); auto. split; [reflexivity|]. split; [exists []; rewrite app_nil_r; reflexivity|auto]. Qed.
Lemma evolves_trans g1 g2 e e1 v : evolves g1 e (Some e1) -> evolves g2 e1 v -> evolves (g1 || g2) e v.
Proof.
  unfold evolves. destruct v as [e2|]; [|auto]. destruct (en_work e), (en_work e1); try contradiction; destruct (en_work e2); try contradiction.
  - congruence.
  - intros (-> & (x & E1) & H1) (-> & (y & E2) & H2). split; [reflexivity|]. split; [exists (x ++ y); rewrite E2, E1, app_assoc; reflexivity|].
    intros G. apply Bool.orb_false_iff in G as [G1 G2]. rewrite (H2 G2). auto.
Qed.
Lemma pev_evolves c g a cut e t v o : pev c g a cut e t v o -> evolves (hears a t) e v.
Proof.
  intros P. destruct v as [e'|]; [|exact I]. pose proof (pev_works _ _ _ _ _ _ _ _ P) as W. unfold evolves. destruct (en_work e), (en_work e'); auto.
Qed.

(** ** One turn of either server *)
Lemma sole_ok sg a s : 1 <= g_max_conn sg -> sole a s -> TableOk sg s.
Proof.
  intros M [E|(e & E)]; split; rewrite E; try (unfold sorted; cbn; repeat constructor); cbn [length]; lia.
Qed.
Lemma sole_addrs a s : sole a s <-> addrs (s_clients s) = [] \/ addrs (s_clients s) = [a].
Proof.
  unfold sole, addrs. split.
  - intros [->|(e & ->)]; auto.
  - intros [E|E]; destruct (s_clients s) as [|[b e] l]; try discriminate; auto. cbn in E. injection E as -> E. destruct l; [|discriminate]. eauto.
Qed.
Lemma single_keeps c sg a t rx s got s' o : 1 <= g_max_conn sg -> sole a s -> single_turn c sg a t rx s got s' o ->
  sole a s' /\ forall e, sview s a = Some e -> evolves got e (sview s' a).
Proof.
  intros M SO (i & s1 & o1 & s2 & o2 & o3 & T1 & T2 & T3 & _ & -> & _ & _ & _ & _ & T8). pose proof (sole_ok sg a s M SO) as K.
  pose proof (sp_clean c sg s i s1 o1 T1) as P1. pose proof (sphase_ok _ _ _ _ _ _ K P1) as K1.
  pose proof (sp_send c sg s1 i s2 o2 T2) as P2. pose proof (sphase_ok _ _ _ _ _ _ K1 P2) as K2.
  pose proof (sp_receive c sg s2 i s' o3 T3) as P3.
  assert (S1 : sole a s1).
  { unfold step_clean in T1. destruct (2000 <? _); [|injection T1 as <- _; exact SO]. destruct SO as [E|(e & E)]; rewrite E in T1; cbn [retain] in T1.
    - injection T1 as <- _. left. reflexivity.
    - destruct (timeout_client _ _ _ _ _) as [dr pl]. injection T1 as <- _. destruct dr; [left|right; exists e]; reflexivity. }
  assert (S2 : sole a s2).
  { apply sole_addrs. apply sole_addrs in S1. unfold step_send, send_data_blocks in T2. destruct (pass _ _ (i_send1 i) 0 _) as [[t1 p1] r1] eqn:E1. apply pass_addrs in E1.
    destruct r1; [injection T2 as <- _; cbn [s_clients]; rewrite E1; exact S1|]. destruct (pass _ _ (i_send2 i) 0 _) as [[t2 p2] r2] eqn:E2. apply pass_addrs in E2.
    destruct r2; injection T2 as <- _; cbn [s_clients]; rewrite E2, E1; exact S1. }
  assert (MN : forall b d, taken s2 i = TookMain b d -> b = a /\ sview s2 a <> None).
  { intros b d TK. unfold taken in TK. destruct (scan _ _ _ _) as [[[b' y]|] cu]; cbn [fst] in TK; [discriminate|]. destruct T8 as [T8|(d' & T8 & H)]; rewrite T8 in TK; [discriminate|].
    injection TK as <- <-. split; [reflexivity|]. unfold has_entry, sview in *. destruct (find_entry _ a); [discriminate|discriminate]. }
  split.
  - apply sole_addrs. apply sole_addrs in S2. unfold step_recv in T3. unfold taken in MN. destruct (scan _ _ _ _) as [[[b d]|] cu]; cbn [fst] in MN.
    + destruct (find_entry _ b); [|discriminate]. unfold known_client in T3. destruct (handle_client _ _ _ _ _) as [[e' pl]|]; [|discriminate]. injection T3 as <- _.
      cbn [s_clients set_recv]. rewrite update_addrs. exact S2.
    + destruct (i_main i) as [b d| |]; [|injection T3 as <- _; exact S2|discriminate].
      destruct (MN b d eq_refl) as [-> H]. unfold has_entry in T3. unfold sview in H. destruct (find_entry _ a); [|contradiction]. injection T3 as <- _. exact S2.
  - intros e V. pose proof (sphase_pev _ _ _ _ _ _ a e K P1 V) as E1. apply pev_evolves in E1. cbn [hears] in E1.
    assert (NO : forall s0 t0 s3 o0, TableOk sg s0 -> sphase c sg s0 t0 s3 o0 -> (forall d, t0 <> TookMain a d) -> sview s0 a = None -> sview s3 a = None).
    { intros s0 t0 s3 o0 K0 P0 NT V0. destruct (sview s3 a) as [e3|] eqn:V3; [|reflexivity]. exfalso.
      destruct (gd_none _ _ _ _ _ (single_good c sg) s0 t0 s3 o0 a e3 K0 P0 V0 V3) as (d & X & _). exact (NT d X). }
    destruct (sview s1 a) as [e1|] eqn:V1.
    + pose proof (sphase_pev _ _ _ _ _ _ a e1 K1 P2 V1) as E2. apply pev_evolves in E2. cbn [hears] in E2. destruct (sview s2 a) as [e2|] eqn:V2.
      * pose proof (sphase_pev _ _ _ _ _ _ a e2 K2 P3 V2) as E3. apply pev_evolves in E3. exact (evolves_trans _ _ _ _ _ (evolves_trans _ _ _ _ _ E1 E2) E3).
      * rewrite (NO _ _ _ _ K2 P3 (fun d TK => proj2 (MN a d TK) eq_refl) V2). exact I.
    + assert (V2 : sview s2 a = None) by (refine (NO _ _ _ _ K1 P2 _ V1); discriminate).
      rewrite (NO _ _ _ _ K2 P3 (fun d TK => proj2 (MN a d TK) V2) V2). exact I.
Qed.

Lemma thread_turns c sg a t rx m got m' o : thread_own c sg a t rx m got m' o -> multi_turn c sg a t rx m got m' o.
Proof.
  intros (e & buflen & v1 & v2 & v3 & th & plain & EF & F1 & F2 & F3 & ET & -> & -> & ->).
  exists m, [], e, buflen, v1, v2, v3, th, plain. split; [constructor|]. auto 10.
Qed.
Lemma thread_regular c sg a : regular (thread_own c sg a) mview (fun _ => true) HandlesOk c sg a thread_cut.
Proof.
  pose proof (multi_regular c sg a) as R. split.
  - intros. eapply (rg_run _ _ _ _ _ _ _ _ R); try eassumption. apply thread_turns. eassumption.
  - intros. eapply (rg_end _ _ _ _ _ _ _ _ R); try eassumption. apply thread_turns. eassumption.
  - intros t rx s e I V E1 E2 _.
    destruct (thread_turn c sg e 0 (quick t) (quick t) (quick t) (match rx with Some d => TData d | None => TWouldBlock end)) as [th plain] eqn:ET.
    do 3 eexists. exists e, 0, (quick t), (quick t), (quick t), th, plain. split; [apply live_find; exact V|].
    do 3 (split; [apply quick_fine|]). split; [exact ET|]. split; [reflexivity|]. split; reflexivity.
  - intros t s e path w I V E1 E2.
    destruct (thread_turn c sg e 0 (quick t) (quick t) (quick t) TWouldBlock) as [th plain] eqn:ET.
    do 3 eexists. exists e, 0, (quick t), (quick t), (quick t), th, plain. split; [apply live_find; exact V|].
    do 3 (split; [apply quick_fine|]). split; [exact ET|]. split; [reflexivity|]. split; reflexivity.
Qed.
Lemma send_evolves buflen e v e1 p ok : send_client buflen e v = (e1, p, ok) -> evolves false e (Some e1).
Proof.
  unfold send_client, evolves. destruct (en_work e) as [F r|p0 w] eqn:EW.
  - destruct (send_data_block _ _ _ _ _ _ _ _) as [[[k r'] pl] b]. intros [= <- _ _]. reflexivity.
  - intros [= <- _ _]. rewrite EW. split; [reflexivity|]. split; [exists []; rewrite app_nil_r; reflexivity|auto].
Qed.
Lemma handle_evolves c max e d v e' plain : handle_client c max e d v = Some (e', plain) -> evolves true e (Some e').
Proof.
  intros H. apply handle_client_works in H. unfold evolves. destruct (en_work e), (en_work e'); auto. destruct H as [-> H]. split; [reflexivity|]. split; [exact H|discriminate].
Qed.
Lemma thread_keeps c sg a t rx m got m' o : HandlesOk m -> thread_own c sg a t rx m got m' o ->
  HandlesOk m' /\ forall e, mview m a = Some e -> evolves got e (mview m' a).
Proof.
  intros HO (e & buflen & v1 & v2 & v3 & th & plain & EF & (N1 & _ & _ & K1) & F2 & F3 & ET & -> & -> & ->). split; [apply handles_update; exact HO|].
  intros e0 V. assert (e0 = e) as -> by (unfold mview in V; rewrite live_find, EF in V; congruence).
  unfold mview. cbn [m_handles]. rewrite (live_update _ _ _ _ _ EF), N.eqb_refl. unfold thread_turn in ET. rewrite N1, K1 in ET.
  destruct (timeout_client _ _ _ _ _) as [dr pl]. cbn [fst]. destruct dr; [injection ET as <- _; exact I|].
  destruct (send_client buflen e v2) as [[e1 p1] ok] eqn:SC. apply send_evolves in SC. cbn [negb].
  destruct rx as [d|]; [|injection ET as <- _; exact SC].
  destruct (handle_client c (g_max_size sg) e1 (thread_cut e d) v3) as [[e2 p2]|] eqn:HCL; injection ET as <- _; [|exact I]. cbn [th_live th_entry].
  exact (evolves_trans _ _ _ _ _ SC (handle_evolves _ _ _ _ _ _ _ HCL)).
Qed.

(** ** On a disk *)
Record tame {S} (sv : server S) (own : N -> option bytes -> S -> bool -> S -> outs -> Prop) (step : disk S -> took -> disk S -> outs -> Prop)
    (ready : S -> bool) (Inv : S -> Prop) (c : crypto) (sg : srvcfg) (a : addr) (cut : entry -> bytes -> bytes) (id : N) : Prop := {
  tm_own : regular own (sv_view sv) ready Inv c sg a cut;
  tm_keep : forall t rx s got s' o, Inv s -> own t rx s got s' o -> Inv s' /\ forall e, sv_view sv s a = Some e -> evolves got e (sv_view sv s' a);
  tm_load : forall fl s, (Inv s -> Inv (sv_load sv fl s)) /\ ready (sv_load sv fl s) = ready s;
  tm_view : forall fl s, sv_view sv (sv_load sv fl s) a = option_map (set_file (fl a)) (sv_view sv s a);
  tm_step : forall st t st' o e, Inv (dk_srv st) -> sv_view sv (dk_srv st) a = Some e -> step st t st' o -> sv_view sv (dk_srv st') a <> None ->
    Inv (dk_srv st') /\ ready (dk_srv st') = ready (dk_srv st) /\ dk_open st' a = dk_open st a /\ f_data (dk_fs st') id = f_data (dk_fs st) id }.

Section D.
Context {S : Type} (sv : server S) (own : N -> option bytes -> S -> bool -> S -> outs -> Prop) (step : disk S -> took -> disk S -> outs -> Prop).
Variables (ready : S -> bool) (Inv : S -> Prop) (c : crypto) (sg : srvcfg) (a : addr) (cut : entry -> bytes -> bytes) (id : N).
Hypothesis TM : tame sv own step ready Inv c sg a cut id.
Notation view := (sv_view sv).
Notation turn := (disk_turn sv own step a).

Definition DI (st : disk S) : Prop :=
  Inv (dk_srv st) /\ forall e, view (dk_srv st) a = Some e ->
    match en_work e with
    | WRead F _ => dk_open st a = Some (Reads (SFile id)) /\ F = f_data (dk_fs st) id
    | WWrite _ w => dk_open st a = Some (Writes id) /\ f_data (dk_fs st) id = w_out w
    end.
Lemma DI_view st : DI st -> dview sv st a = view (dk_srv st) a.
Proof.
  intros [_ H]. unfold dview, loaded. rewrite (tm_view _ _ _ _ _ _ _ _ _ _ TM). destruct (view (dk_srv st) a) as [e|]; [|reflexivity]. cbn [option_map]. specialize (H e eq_refl). f_equal.
  destruct (en_work e) as [F r|p w] eqn:EW.
  - destruct H as [-> ->]. cbn [content]. apply (set_file_same _ _ r). exact EW.
  - eapply set_file_write. exact EW.
Qed.
Lemma meantime_keeps st st1 o1 e : meantime sv step a st st1 o1 -> DI st -> dview sv st a = Some e ->
  DI st1 /\ dview sv st1 a = Some e /\ sent_to a o1 = [] /\ ready (dk_srv st1) = ready (dk_srv st) /\ f_data (dk_fs st1) id = f_data (dk_fs st) id.
Proof.
  induction 1 as [st|st t st1 o1 st2 o2 ST HE SO VW MT IH]; intros D V; [auto 10|].
  pose proof D as [DI1 DI2]. rewrite (DI_view _ D) in VW, V. rewrite V in VW.
  destruct (tm_step _ _ _ _ _ _ _ _ _ _ TM _ _ _ _ _ DI1 V ST ltac:(congruence)) as (X1 & X2 & X3 & X4).
  assert (D1 : DI st1) by (split; [exact X1|]; intros e' V'; rewrite X3, X4; apply DI2; congruence).
  destruct (IH D1) as (Y1 & Y2 & Y3 & Y4 & Y5); [rewrite (DI_view _ D1); exact VW|].
  split; [exact Y1|]. split; [exact Y2|]. split; [rewrite sent_to_app, SO, Y3; reflexivity|]. split; congruence.
Qed.
(** A turn: the invariant, and what is in the file then. *)
Lemma turn_keeps t rx st got st' o e : DI st -> dview sv st a = Some e -> turn t rx st got st' o ->
  DI st' /\ f_data (dk_fs st') id = keep (f_data (dk_fs st) id) (dview sv st' a).
Proof.
  intros D V (st1 & o1 & s' & o2 & MT & OW & -> & ->). destruct (meantime_keeps _ _ _ _ MT D V) as (D1 & V1 & SO & RD & FD).
  assert (V1' : view (loaded sv st1) a = Some e) by exact V1.
  destruct (tm_keep _ _ _ _ _ _ _ _ _ _ TM _ _ _ _ _ _ (proj1 (tm_load _ _ _ _ _ _ _ _ _ _ TM _ _) (proj1 D1)) OW) as [I' EV]. specialize (EV e V1').
  pose proof V1 as VS. rewrite (DI_view _ D1) in VS. pose proof (proj2 D1 e VS) as OD.
  set (st' := mkDk _ _ _).
  assert (D' : DI st').
  { split; [exact I'|]. cbn [dk_srv st' dk_fs dk_open]. intros e' V'. rewrite V' in EV. cbn [evolves] in EV. unfold still_open. rewrite V', V1. 
    destruct e as [cn ky wk], e' as [cn' ky' wk']. cbn [en_work] in *. destruct wk as [F r|p w], wk' as [F' r'|p' w']; try contradiction.
    - destruct OD as [OD1 OD2]. rewrite OD1 in *. split; [reflexivity|]. subst F'. destruct got; exact OD2.
    - destruct OD as [OD1 OD2]. rewrite OD1 in *. split; [reflexivity|]. destruct EV as (-> & (x & EX) & EG). destruct got.
      + cbn [written set_data f_data]. rewrite N.eqb_refl, EX, dropN_app_exact, OD2, write_end by reflexivity. reflexivity.
      + rewrite (EG eq_refl). exact OD2. }
  split; [exact D'|]. rewrite (DI_view _ D'). rewrite <- FD. cbn [dk_srv st'] in *.
  destruct (view s' a) as [e'|] eqn:V'; cbn [keep].
  - pose proof (proj2 D' e' V') as OD'. cbn [evolves] in EV. destruct (en_work e) as [F r|p w], (en_work e') as [F' r'|p' w']; try contradiction.
    + cbn [dk_fs st']. rewrite V1. destruct OD as [-> _]. destruct got; reflexivity.
    + exact (proj2 OD').
  - cbn [dk_fs st']. destruct got; [|reflexivity]. unfold written. destruct (dk_open st1 a) as [[|id']|]; try reflexivity. destruct (dview sv st1 a) as [[cn ky []]|]; reflexivity.
Qed.
Lemma disk_regular : regular turn (dview sv) (fun st => ready (dk_srv st)) DI c sg a cut.
Proof.
  pose proof (tm_own _ _ _ _ _ _ _ _ _ _ TM) as R. split.
  - intros t rx st got st' o e D V E1 E2 E3 T. destruct (turn_keeps _ _ _ _ _ _ _ D V T) as [D' _]. split; [exact D'|]. rewrite (DI_view _ D').
    destruct T as (st1 & o1 & s' & o2 & MT & OW & -> & ->). destruct (meantime_keeps _ _ _ _ MT D V) as (D1 & V1 & SO & RD & FD).
    destruct (rg_run _ _ _ _ _ _ _ _ R _ _ _ _ _ _ e (proj1 (tm_load _ _ _ _ _ _ _ _ _ _ TM _ _) (proj1 D1)) V1 E1 E2 E3 OW) as (_ & X).
    unfold loaded in X. rewrite (proj2 (tm_load _ _ _ _ _ _ _ _ _ _ TM _ _)), RD in X. rewrite sent_to_app, SO. exact X.
  - intros t st got st' o e path w D V E1 E2 T. destruct (turn_keeps _ _ _ _ _ _ _ D V T) as [D' _]. split; [exact D'|]. rewrite (DI_view _ D').
    destruct T as (st1 & o1 & s' & o2 & MT & OW & -> & ->). destruct (meantime_keeps _ _ _ _ MT D V) as (D1 & V1 & SO & RD & FD).
    destruct (rg_end _ _ _ _ _ _ _ _ R _ _ _ _ _ e _ _ (proj1 (tm_load _ _ _ _ _ _ _ _ _ _ TM _ _) (proj1 D1)) V1 E1 E2 OW) as (_ & X). rewrite sent_to_app, SO. exact X.
  - intros t rx st e D V E1 E2 HH.
    destruct (rg_able _ _ _ _ _ _ _ _ R t rx _ e (proj1 (tm_load _ _ _ _ _ _ _ _ _ _ TM _ _) (proj1 D)) V E1 E2 HH) as (got & s' & o & OW).
    do 3 eexists. exists st, [], s', o. split; [constructor|]. split; [exact OW|]. split; reflexivity.
  - intros t st e path w D V E1 E2.
    destruct (rg_able_end _ _ _ _ _ _ _ _ R t _ e _ _ (proj1 (tm_load _ _ _ _ _ _ _ _ _ _ TM _ _) (proj1 D)) V E1 E2) as (got & s' & o & OW).
    do 3 eexists. exists st, [], s', o. split; [constructor|]. split; [exact OW|]. split; reflexivity.
Qed.
(** The record of writes is the file, and its name stays. *)
Lemma run_kept {P} (act : P -> option bytes -> N -> P -> list sent -> Prop) patient busy peer ck W0 k b W :
  turns turn (dview sv) act patient busy c sg a peer ck W0 k b W -> DI (sm_srv W0) -> f_data (dk_fs (sm_srv W0)) id = sm_kept W0 ->
  DI (sm_srv W) /\ f_data (dk_fs (sm_srv W)) id = sm_kept W.
Proof.
  intros T D0 K0. induction T as [|k b W W' T [D K] B ST|k b W W' T [D K] B CT]; [auto| |].
  - destruct ST as [s kept p down up V|s kept p down up t e got s' o ws CK V PR TU SE]; cbn [sm_srv sm_kept] in *; [auto|].
    destruct (turn_keeps _ _ _ _ _ _ _ D V TU) as [D' K']. split; [exact D'|]. rewrite K', K. reflexivity.
  - destruct CT as [s kept p down up t p' out ws CK PT AC SE]. cbn [sm_srv sm_kept] in *. auto.
Qed.
Lemma run_leads {P} (act : P -> option bytes -> N -> P -> list sent -> Prop) patient busy peer ck W0 k b W fg name :
  (forall st t st' o, step st t st' o -> leads (dk_fs st') fg name = leads (dk_fs st) fg name) ->
  turns turn (dview sv) act patient busy c sg a peer ck W0 k b W -> leads (dk_fs (sm_srv W)) fg name = leads (dk_fs (sm_srv W0)) fg name.
Proof.
  intros LS T. assert (MT : forall st st1 o1, meantime sv step a st st1 o1 -> leads (dk_fs st1) fg name = leads (dk_fs st) fg name).
  { induction 1 as [st|st t st1 o1 st2 o2 ST HE SO VW MT IH]; [reflexivity|]. rewrite IH. exact (LS _ _ _ _ ST). }
  induction T as [|k b W W' T IH B ST|k b W W' T IH B CT]; [reflexivity| |].
  - rewrite <- IH. destruct ST as [s kept p down up V|s kept p down up t e got s' o ws CK V PR TU SE]; cbn [sm_srv] in *; [reflexivity|].
    destruct TU as (st1 & o1 & s1 & o2 & M & OW & -> & ->). cbn [dk_fs]. destruct got; [rewrite leads_written|]; exact (MT _ _ _ M).
  - rewrite <- IH. destruct CT; reflexivity.
Qed.
End D.

(** ** The two servers *)
Lemma single_tame c sg a id (step : disk sstate -> took -> disk sstate -> outs -> Prop) : 1 <= g_max_conn sg ->
  (forall st t st' o, step st t st' o -> programs st t st' o /\ f_data (dk_fs st') id = f_data (dk_fs st) id) ->
  tame (single_server c sg) (single_turn c sg a) step sready (sole a) c sg a (scut sg) id.
Proof.
  intros M HS. split.
  - exact (single_regular c sg a).
  - intros t rx s got s' o SO T. exact (single_keeps c sg a t rx s got s' o M SO T).
  - intros fl s. split; [|reflexivity]. intros SO. apply sole_addrs in SO. apply sole_addrs. cbn [single_server sv_load s_clients]. rewrite addrs_load. exact SO.
  - intros fl s. exact (gd_view _ _ _ _ _ (single_good c sg) fl s a).
  - intros st t st' o e SO V ST _. destruct (HS _ _ _ _ ST) as [(f' & FN & -> & -> & ->) FD]. cbn [dk_srv dk_open]. auto.
Qed.
Lemma multi_tame c sg fg ds a id (step : disk mstate -> took -> disk mstate -> outs -> Prop) :
  (forall st t st' o, step st t st' o -> dkany (multi_server c sg) c sg fg ds st t st' o /\ f_data (dk_fs st') id = f_data (dk_fs st) id) ->
  tame (multi_server c sg) (thread_own c sg a) step (fun _ => true) HandlesOk c sg a thread_cut id.
Proof.
  intros HS. pose proof (multi_good c sg) as G. split.
  - exact (thread_regular c sg a).
  - intros t rx s got s' o HO T. exact (thread_keeps c sg a t rx s got s' o HO T).
  - intros fl s. split; [|reflexivity]. apply (gd_load _ _ _ _ _ G).
  - intros fl s. exact (gd_view _ _ _ _ _ G fl s a).
  - intros st t st' o e HO V ST NN. destruct (HS _ _ _ _ ST) as [P FD]. pose proof (gd_load _ _ _ _ _ G (fun b => content (dk_fs st) (dk_open st b)) _ HO) as HL.
    destruct P as [st t st' o P|st f' FN]; [|cbn [dk_srv dk_open]; auto].
    pose proof (gd_keep _ _ _ _ _ G _ _ _ _ HL (step_phase c sg fg ds _ _ _ G _ _ _ _ P)) as I'. split; [exact I'|]. split; [reflexivity|]. split; [|exact FD].
    destruct P as [st t s' o P L|st b d i f' q r s' o L E M]; cbn [dk_srv dk_open dk_fs] in *; unfold still_open.
    + destruct (sv_view _ s' a); [reflexivity|contradiction].
    + destruct (sv_view _ s' a); [|contradiction]. destruct (N.eqb_spec a b) as [->|]; [|reflexivity].
      exfalso. apply (gd_looked _ _ _ _ _ G _ _ HO) in L. congruence.
Qed.
