From Verif Require Import Base BaseProofs PacketModel PacketSpec PacketProofs MapperModel MapperProofs ReaderModel ReaderSpec BlockLemmas ReaderProofs
  WriterSpec WriterProofs ConfigModel CryptoModel CryptoSpec CryptoProofs PropCrypto ExtModel PathModel ConnModel ClientModel ConnSpec
  HandshakeModel AgreeProofs PropAgree ClientWaitModel StreamModel SystemModel CoreProofs LiveModel LiveProofs
  ServerModel ServerSpec ServerProofs WorldModel WorldProofs WorldC FsModel FsServerModel DiskModel RunModel RunSpec RunProofs
  RfcSpec RfcProofs SmoothA SmoothB SmoothModel SmoothSpec SmoothC SmoothD SmoothE RfcSmoothSpec.
From Verif Require CliModel.

Lemma ack_is o i : plain_ok o (ack_plain i) /\ short (ack_plain i) /\ 4 <= blen (ack_plain i) <= bs_enc o + 4 /\
  has_type T_READ (ack_plain i) || has_type T_WRITE (ack_plain i) = false.
Proof.
  unfold ack_plain. split; [apply plain_ack|]. split; [apply short_ack|]. change (blen (to_bytes (PAck (i mod 65536)))) with 4.
  split; [lia|]. rewrite !type_of_packet. reflexivity.
Qed.
Lemma block_is P o i : p_opts P = o -> plain_ok o (block_plain P i) /\ short (block_plain P i) /\ 4 <= blen (block_plain P i) <= bs_enc o + 4 /\
  has_type T_READ (block_plain P i) || has_type T_WRITE (block_plain P i) = false.
Proof.
  intros <-. unfold block_plain. pose proof (block_le (p_file P) (p_bs P) i) as BL. split; [apply plain_data; exact BL|].
  split; [apply short_data|]. rewrite data_len. change (p_bs P) with (bs_enc (p_opts P)) in *. split; [lia|].
  rewrite !type_of_packet. reflexivity.
Qed.

(** ** Download *)
Section G.
Context {S : Type} (turn : N -> option bytes -> S -> bool -> S -> outs -> Prop) (view : S -> ServerModel.addr -> option entry)
  (ready : S -> bool) (Inv : S -> Prop).
Variables (g : run_cfg) (sg : srvcfg) (a : ServerModel.addr) (cut : entry -> bytes -> bytes).
Notation c := (ru_c g).
Hypothesis RG : regular turn view ready Inv c sg a cut.
Variables (x : est) (L : N) (F : bytes) (kd : kind).
Notation k := (rfc_side F).
Hypothesis HC : crypto_ok c.
Hypothesis HA : agree (k_opts k) (k_sock k) x.
Hypothesis HL : op_bs (es_opts x) + 4 <= L /\ 516 <= L.
Hypothesis Hcut : forall e d, c_opts (en_conn e) = es_opts x -> cut e d = takeN L d.
Notation P := (dP c sg k x L F kd).
Hypothesis HP : valid P.
Notation n := (p_n P).
Notation Q := (QC P (p_decc P) (p_decs P)).
Variables (wc : wcfg) (peer : CliModel.addr) (f0 : fs) (keptAt : N -> bytes) (strAt : N -> option swritr).
Hypothesis KS : forall j f lid, j < n -> f_data f lid = keptAt j ->
  sink_write c f (mkSink lid (blen (keptAt j)) (strAt j)) (block_of F (p_bs P) (j + 1)) false None =
    (set_data f lid (keptAt (j + 1)), mkSink lid (blen (keptAt (j + 1))) (strAt (j + 1)), Ok (blen (block_of F (p_bs P) (j + 1)))).
Variables (ck : N -> Prop) (t0 : N).
Notation T := (T ck t0).
Notation core := (core view Inv g sg a x L F kd k ck t0).
Notation weight := (weight ready g sg x L F kd k).
Notation conn_ok := (conn_ok x F ck t0).
Lemma HB : 512 <= op_bs (es_opts x).
Proof. destruct (x_bs F x HA) as (E & _). rewrite E. apply N.le_refl. Qed.
Lemma HM : blen F <= k_max k.
Proof. cbn [rfc_side k_max]. apply N.le_refl. Qed.
Lemma kept_all : w_out writer_new = [].
Proof. reflexivity. Qed.

Definition gstate (W : smooth S getter) (mu : N) : Prop :=
  exists s wr la data acks zs ss, core (sm_srv W) (sm_up W) s wr la data acks zs ss /\
    sm_prog W = mkG (w_written wr) (w_out wr) false /\ sm_down W = map fst data /\ mu = weight (sm_srv W) s (w_written wr) zs.
Notation sstep := (sturn turn view c sg a ck).
Notation cstep := (cturn (getter_act peer) no_timer c peer ck).

Lemma gserver W W' mu : gstate W mu -> sstep W W' -> exists mu', gstate W' mu' /\ (mu' + 1 <= mu \/ mu' <= mu /\ sm_down W' <> []).
Proof.
  intros (s & wr & la & data & acks & zs & ss & HCo & EP & ED & ->) ST. destruct ST as [srv kept p down up V|srv kept p down up t e got srv' o ws CK V PR TU SE];
    cbn [sm_srv sm_up sm_prog sm_down] in *.
  - destruct HCo as (_ & (e & r & V' & _) & _). congruence.
  - destruct (core_turn turn view ready Inv g sg a cut RG x L F kd k HC HA HB HL Hcut HP wc [] f0 keptAt strAt KS HM ck t0 _ _ _ _ _ _ _ _ _ _ _ _ _ _ _ HCo CK V PR TU SE)
      as (s' & nd & acks' & zs' & ss' & HCo' & -> & HU & HMu).
    exists (weight srv' s' (w_written wr) zs'). split.
    + exists s', wr, la, (data ++ nd), acks', zs', ss'. cbn [sm_srv sm_up sm_prog sm_down]. split; [exact HCo'|]. split; [exact EP|]. rewrite ED, map_app. auto.
    + destruct HMu as [H|[H1 H2]]; [left; exact H|right]. split; [exact H1|]. rewrite ED, <- map_app. apply map_nil. exact H2.
Qed.

Lemma gclient W W' mu : gstate W mu -> cstep W W' ->
  fetched F W' \/ exists mu', gstate W' mu' /\ mu' <= mu /\ (sm_down W <> [] -> mu' + 1 <= mu).
Proof.
  intros (s & wr & la & data & acks & zs & ss & HCo & EP & ED & ->) ST. destruct ST as [srv kept p down up t p' out ws CK _ [-> ->] SE].
  cbn [sm_srv sm_up sm_prog sm_down] in *. subst p down. destruct data as [|d data]; cbn [map hd_error tl] in *.
  - right. rewrite N.eqb_refl in SE. unfold client_seals in SE. cbn [sends map filter] in SE. inversion SE; subst ws. rewrite app_nil_r.
    exists (weight srv s (w_written wr) zs). split; [|split; [lia|congruence]].
    exists s, wr, la, [], acks, zs, ss. cbn [sm_srv sm_up sm_prog sm_down]. auto.
  - destruct HCo as (I0 & (e & r & V & CO & HQ) & HN & HU & HZs & HSS).
    pose proof (q_bounds P HP _ _ _ _ _ _ _ _ _ HQ) as BD.
    destruct (q_recv P HP _ _ _ _ _ _ _ _ _ _ HQ) as (-> & -> & LE & DE & wr' & WB & WW & WO & WO' & PE & DU & _ & QA).
    set (i := w_written wr + 1) in *.
    destruct (x_bs F x HA) as (X1 & X2 & X3 & X4).
    assert (BE : p_bs P = 512) by exact X4.
    assert (DE' : takeN 516 (fst d) = rfc_data i (block_of F 512 i)).
    { rewrite rfc_data_bytes. rewrite BE in DE. change (p_decc P (fst d)) with (client_dec c (k_sock k) (op_bs (k_opts k)) (fst d)) in DE.
      rewrite side_dec in DE. injection DE as DE. exact DE. }
    destruct (DU (es_opts x) eq_refl eq_refl) as [_ DN]. rewrite X4 in DN. rewrite BE in *. change (p_file P) with F in *.
    assert (DS : due P s i = true).
    { unfold due. apply Bool.orb_true_iff. left. apply N.eqb_eq. cbn [dP p_opts]. cbn [dP p_opts] in BD. rewrite X2 in *. unfold i in *.
      destruct HQ as (_ & _ & _ & _ & _ & [(_ & _ & _ & HQ)|(y & A & _)]); [|discriminate]. cbn [dP p_opts] in HQ. rewrite X2 in HQ. lia. }
    assert (EH : getter_hears (mkG (w_written wr) (w_out wr) false) (fst d) = mkG i (w_out wr') (i =? n)).
    { unfold getter_hears. rewrite DE'. unfold rfc_data, rfc_number. cbn [app]. rewrite num16. cbn [got_all got_blocks got negb andb]. fold i. rewrite N.eqb_refl.
      rewrite DN. f_equal. pose proof (WriterProofs.write_block_cases wr (i mod 65536) (block_of F 512 i) false None) as WC. cbn zeta in WC. rewrite WB in WC.
      destruct WC as (_ & _ & _ & _ & _ & WC & _). symmetry. exact WC. }
    rewrite EH in *. cbn [got_blocks] in SE. replace (i =? w_written wr) with false in SE by (symmetry; apply N.eqb_neq; unfold i; lia).
    destruct (ack_is (es_opts x) i) as (B1 & B2 & _).
    destruct (client_sealed1 c (k_opts k) (k_sock k) x L HC HA HB HL peer _ ws B1 B2 SE) as (y & -> & DY).
    pose proof (QA DS y DY) as Q'.
    destruct (N.eqb_spec i n) as [EN|EN].
    + left. unfold fetched. cbn [sm_prog got_all got]. split; [reflexivity|]. rewrite WO', EN, (prefix_all F 512); [apply takeN_all; lia|reflexivity|]. unfold p_n. rewrite BE. apply N.le_refl.
    + right. exists (weight srv s i zs). split; [|unfold SmoothD.weight, i in *; split; [|intros _]; destruct (ready srv); lia].
      exists s, wr', i, data, [(y, Some i)], zs, ss. cbn [sm_srv sm_up sm_prog sm_down]. rewrite WW. split; [|auto].
      split; [exact I0|]. split; [exists e, r; auto|]. split; [rewrite WW; lia|]. split; [rewrite HU; cbn [map]; rewrite app_nil_r; reflexivity|]. auto.
Qed.
Lemma gbusy W mu : gstate W mu -> getting (sm_prog W) = true /\ 1 <= mu.
Proof.
  intros (s & wr & la & data & acks & zs & ss & (_ & _ & HN & _) & E & _ & ->). rewrite E. split; [reflexivity|]. unfold SmoothD.weight. lia.
Qed.
Lemma gfile (W : smooth S getter) : fetched F W -> getting (sm_prog W) = false.
Proof. intros [E _]. unfold getting. rewrite E. reflexivity. Qed.
Lemma gview W mu : gstate W mu -> exists e r, view (sm_srv W) a = Some e /\ conn_ok e r.
Proof. intros (s & wr & la & data & acks & zs & ss & (I0 & (e & r & V & CO & HQ) & _) & _). eauto. Qed.

Lemma gserver_able W mu t e : gstate W mu -> ck t -> view (sm_srv W) a = Some e -> prompt sg e t -> exists W', sstep W W'.
Proof.
  intros (s & wr & la & data & acks & zs & ss & HCo & _) CK V PR. pose proof HCo as (I0 & (e' & r & V' & CO & HQ) & HN & EU & HZs & HSS).
  rewrite V in V'. injection V' as <-. pose proof CO as (K1 & K2 & K3 & K4 & K5 & _). pose proof PR as [PT PR']. rewrite K1 in PR'.
  assert (RDS : forall buflen v e1 p1 ok, fine t v -> send_client buflen e v = (e1, p1, ok) ->
    (exists ws, server_seals c e (map OPlain p1) ws) /\ forall d v2, fine t v2 -> hd_error (sm_up W) = Some d -> exists e', handle_client c (g_max_size sg) e1 (cut e1 d) v2 = Some (e', [])).
  { intros buflen v e1 p1 ok FV SC.
    destruct (conn_sends g sg cut x L F kd k HC HA HB HL Hcut HP wc [] f0 keptAt strAt KS HM ck t0 e r buflen v e1 p1 ok s wr la data acks ss t CO HQ FV CK PR' SC) as (r1 & CO1 & HS).
    assert (AN : exists ws1, server_seals c e (map OPlain p1) ws1).
    { destruct HS as [(-> & _)|(-> & _)]; [exists []; constructor|]. destruct (block_is P (es_opts x) (hi s + 1) eq_refl) as (_ & _ & B & _). exact (server_can c x L HB HL _ B e K3 K2). }
    split; [exact AN|]. intros d v2 FV2 HD. rewrite EU in HD.
    assert (Q1 : exists s1 data1, Q s1 r1 wr la data1 acks ss).
    { destruct HS as [(_ & Q1 & _)|(_ & _ & X)]; [eauto|]. destruct AN as [ws AN]. destruct (X ws AN) as (y & s1 & _ & _ & _ & Q1). eauto. }
    destruct Q1 as (s1 & data1 & Q1).
    destruct (conn_reads g sg cut x L F kd k HB HL Hcut HP wc [] f0 keptAt strAt KS HM ck t0 e1 r1 d v2 t s1 wr la data1 acks zs ss CO1 Q1 FV2 CK HN HD HZs HSS) as (e' & _ & _ & _ & _ & _ & X & _). eauto. }
  destruct (rg_able _ _ _ _ _ _ _ _ RG t (hd_error (sm_up W)) (sm_srv W) e I0 V K4 K5) as (got & srv' & o & TU).
  { intros buflen v e1 p1 ok d v2 FV FV2 SC HD. destruct (proj2 (RDS _ _ _ _ _ FV SC) d v2 FV2 HD) as [e' X]. congruence. }
  enough (exists ws, server_seals c e (sent_to a o) ws) as [ws SE].
  { destruct W as [srv kept p down up]. cbn [sm_srv sm_up] in *. eexists. eapply st_turn; eassumption. }
  destruct (rg_run _ _ _ _ _ _ _ _ RG t _ _ got srv' o e I0 V K4 K5 PT TU) as (I1 & buflen & v & e1 & p1 & ok & FV & SC & H).
  destruct (RDS _ _ _ _ _ FV SC) as [[ws AN] RD]. exists ws.
  destruct H as [(_ & _ & -> & _)|(-> & _ & d & v2 & RX & FV2 & [H|(e2 & p2 & H & _ & ->)])]; [exact AN| |]; destruct (RD d v2 FV2 RX) as [e' X]; rewrite X in H; [discriminate|].
  injection H as _ <-. rewrite app_nil_r. exact AN.
Qed.
Lemma gclient_able (W : smooth S getter) t : ck t -> exists W', cstep W W'.
Proof.
  intros CK. destruct W as [srv kept p down up].
  set (p' := match hd_error down with Some w => getter_hears p w | None => p end).
  assert (X : exists ws, client_seals c peer (sends plain_sock peer (if got_blocks p' =? got_blocks p then [] else [rfc_ack (got_blocks p')])) ws).
  { destruct (_ =? _); [exists []; constructor|].
    destruct (ack_is (es_opts x) (got_blocks p')) as (_ & _ & B3 & B4). exact (client_can c (k_opts k) (k_sock k) x L HA HB HL _ peer B3 B4). }
  destruct X as [ws SE]. eexists. eapply ct_turn; [exact CK|intros _; exact Logic.I| |exact SE]. split; reflexivity.
Qed.
Notation rounds := (turns turn view (getter_act peer) no_timer getting c sg a peer ck).
Lemma g_run W0 mu0 kk b W : gstate W0 mu0 -> rounds W0 kk b W -> kk <= mu0 /\
  (fetched F W \/ under_way turn view (getter_act peer) no_timer getting c sg a peer ck W).
Proof.
  intros H0 R. destruct (run_bound turn view _ _ _ c sg a peer ck gstate (fetched F) (fun W => sm_down W <> []) gserver gclient gbusy gfile _ _ _ _ _ H0 R)
    as [[F1 F2]|(mu & H & K)].
  - split; [exact F2|left; exact F1].
  - split; [destruct K as [|[]]; lia|]. right. split; [exact (proj1 (gbusy _ _ H))|]. split.
    + intros t CK PR. destruct (gview _ _ H) as (e & r & V & _). exact (gserver_able _ _ t e H CK V (PR e V)).
    + intros t CK _. exact (gclient_able W t CK).
Qed.
Lemma g_init srv e r : Inv srv -> view srv a = Some e -> conn_ok e r -> r = new_reader kd (p_bs P) (op_window (p_opts P)) ->
  gstate (mkSm srv [] (mkG 0 [] false) [] []) (4 * n + (if ready srv then 0 else 1)).
Proof.
  intros I0 V CO ->. exists (mkWin 0 0 0), writer_new, 0, [], [], [], 0. cbn [sm_srv sm_up sm_prog sm_down]. split; [|split; [reflexivity|split; [reflexivity|]]].
  - split; [exact I0|]. split; [exists e; eexists; split; [exact V|]; split; [exact CO|apply q_init; exact HP]|]. pose proof (n_pos P HP). cbn [w_written writer_new].
    split; [lia|]. split; [reflexivity|]. auto.
  - unfold SmoothD.weight. cbn [hi conf w_written writer_new length]. destruct (ready srv); lia.
Qed.
Hypothesis CE : forall t, ck t <-> t = t0.
Lemma g_done W0 mu0 : gstate W0 mu0 -> exists kk b W, rounds W0 kk b W /\ fetched F W.
Proof.
  intros H0. assert (TE : forall t, T t -> t = t0) by (intros t [H|H]; [apply CE; exact H|exact H]).
  refine (run_ends turn view _ _ _ c sg a peer ck gstate (fetched F) (fun W => sm_down W <> []) gserver gclient gbusy gfile _ _ _ _ H0).
  - intros W mu H. destruct (gview _ _ H) as (e & r & V & (K1 & _ & _ & _ & _ & K6 & K7)). apply (gserver_able _ _ t0 e H); [apply CE; reflexivity|exact V|].
    apply TE in K6, K7. unfold prompt. rewrite K1, K7. split; [lia|]. unfold retry_due. rewrite K6, N.sub_diag. apply N.ltb_ge. lia.
  - intros W mu H. apply (gclient_able W t0). apply CE. reflexivity.
Qed.
End G.

(** ** Upload *)
Section U.
Context {S : Type} (turn : N -> option bytes -> S -> bool -> S -> outs -> Prop) (view : S -> ServerModel.addr -> option entry)
  (ready : S -> bool) (Inv : S -> Prop).
Variables (g : run_cfg) (sg : srvcfg) (a : ServerModel.addr) (cut : entry -> bytes -> bytes).
Notation c := (ru_c g).
Hypothesis RG : regular turn view ready Inv c sg a cut.
Variables (x : est) (L : N) (F : bytes).
Notation k := (rfc_side F).
Notation kd := KSingle.
Hypothesis HC : crypto_ok c.
Hypothesis HA : agree (k_opts k) (k_sock k) x.
Hypothesis HL : op_bs (es_opts x) + 4 <= L /\ 516 <= L.
Hypothesis Hcut : forall e d, c_opts (en_conn e) = es_opts x -> cut e d = takeN L d.
Notation P := (uP c sg k x L F kd).
Hypothesis HP : valid P.
Notation n := (p_n P).
Notation Q := (QC P (p_decs P) (p_decc P)).
Variables (wc : wcfg) (peer : CliModel.addr).
Hypothesis HMU : blen F <= g_max_size sg.
Variables (ck : N -> Prop) (t0 : N).
Notation T := (T ck t0).
Notation ucore := (ucore view Inv g sg a x L F kd k ck t0).
Notation uweight := (uweight ready g sg x L F kd k).
Notation taking := (taking g sg x L F kd k ck t0).
Notation HB := (HB x F HA).
Lemma p_last : n = putter_last F.
Proof. unfold p_n, p_bs, putter_last. cbn [uP p_file p_opts]. rewrite (proj2 (proj2 (proj2 (x_bs F x HA)))). reflexivity. Qed.
Lemma p_512 : p_bs P = 512.
Proof. exact (proj2 (proj2 (proj2 (x_bs F x HA)))). Qed.

Definition pstate (W : smooth S N) (mu : N) : Prop :=
  exists s r wr la data acks zs ss, ucore (sm_srv W) (sm_kept W) (sm_up W) s r wr la data acks zs ss /\
    (sm_prog W = 0 /\ sm_down W = [rfc_ack 0] /\ s = mkWin 0 0 0 /\ data = [] /\ acks = [] /\ w_written wr < n \/
     sm_prog W = hi s /\ hi s = conf s + 1 /\ sm_down W = map fst acks) /\
    mu = uweight (sm_srv W) s (w_written wr) zs.
Notation sstep := (sturn turn view c sg a ck).
Notation cstep := (cturn (putter_act F peer) no_timer c peer ck).

Lemma pserver W W' mu : pstate W mu -> sstep W W' -> exists mu', pstate W' mu' /\ (mu' + 1 <= mu \/ mu' <= mu /\ sm_up W' = []).
Proof.
  intros (s & r & wr & la & data & acks & zs & ss & HCo & HK & ->) ST. destruct ST as [srv kept p down up V|srv kept p down up t e got srv' o ws CK V PR TU SE];
    cbn [sm_srv sm_kept sm_up sm_prog sm_down] in *.
  - eexists. split; [exists s, r, wr, la, data, acks, zs, ss; split; [exact HCo|]; split; [exact HK|reflexivity]|]. right. split; [apply N.le_refl|].
    destruct HCo as (_ & _ & _ & [((e & V' & _) & _)|(_ & _ & -> & _)]); [congruence|reflexivity].
  - destruct (ucore_turn turn view ready Inv g sg a cut RG x L F kd k HC HA HB HL Hcut HP wc [] HMU ck t0 _ _ _ _ _ _ _ _ _ _ _ _ _ _ _ _ _ HCo CK V PR TU SE)
      as (wr' & la' & data' & nacks & zs' & HCo' & -> & HU & HMu).
    exists (uweight srv' s (w_written wr') zs'). split; [|exact HMu].
    exists s, r, wr', la', data', (acks ++ nacks), zs', ss. cbn [sm_srv sm_kept sm_up sm_prog sm_down]. split; [exact HCo'|]. split; [|reflexivity].
    destruct HK as [(E1 & E2 & E3 & E4 & E5 & E6)|(E1 & E2 & E3)].
    + left. destruct (HU E4) as (-> & -> & ->). rewrite E2, E5. auto 8.
    + right. rewrite E3, map_app. auto.
Qed.

(** With nothing on the way and the file not at its end, the next block can be put on the way. *)
Lemma put_next srv kept up s r wr la zs ss : ucore srv kept up s r wr la [] [] zs ss -> w_written wr < n ->
  hi s < n /\ forall ws, client_seals c peer (sends plain_sock peer [rfc_data (hi s + 1) (putter_block F (hi s + 1))]) ws ->
  exists s1 r1 y, ws = [y] /\ conf s1 = conf s /\ hi s1 = hi s + 1 /\ ucore srv kept (up ++ ws) s1 r1 wr la [(y, Some (hi s + 1))] [] zs ss.
Proof.
  intros (I0 & EK & HQ & HX) HN. destruct (reader_next F r 512 false false) as [r1 res] eqn:ER.
  destruct (q_next P HP _ _ _ _ _ _ _ _ _ 512 _ _ HQ ltac:(rewrite p_512; lia) ER) as [(_ & _ & X)|(b & s' & _ & _ & _ & _ & HI & C1 & H1 & X)]; [exfalso; apply X; reflexivity|].
  split; [exact HI|]. intros ws SE.
  destruct (block_is P (es_opts x) (hi s + 1) eq_refl) as (B1 & B2 & _).
  assert (EB : rfc_data (hi s + 1) (putter_block F (hi s + 1)) = block_plain P (hi s + 1)).
  { unfold block_plain. rewrite p_512, putter_block_of. apply rfc_data_bytes. }
  rewrite EB in SE.
  destruct (client_sealed1 c (k_opts k) (k_sock k) x L HC HA HB HL peer _ ws B1 B2 SE) as (y & -> & DY).
  exists s', r1, y. do 3 (split; [assumption || reflexivity|]). split; [exact I0|]. split; [exact EK|]. split; [exact (X y DY)|].
  destruct HX as [(HE & _ & -> & HZs)|(_ & HN' & _)]; [|lia]. left. split; [exact HE|]. split; [exact HN|]. cbn [map]. rewrite app_nil_r. auto.
Qed.
Lemma pclient W W' mu : pstate W mu -> cstep W W' ->
  stored F W' \/ exists mu', pstate W' mu' /\ mu' <= mu /\ (sm_up W = [] -> mu' + 1 <= mu).
Proof.
  intros (s & r & wr & la & data & acks & zs & ss & HCo & HK & ->) ST. destruct ST as [srv kept p down up t p' out ws CK _ [-> ->] SE].
  cbn [sm_srv sm_kept sm_up sm_prog sm_down] in *. destruct HK as [(-> & -> & -> & -> & -> & HN)|(-> & HH & ->)].
  - right. cbn [hd_error tl] in *.
    assert (E1 : putter_hears F 0 (rfc_ack 0) = 1) by (unfold putter_hears; change (takeN 516 (rfc_ack 0)) with [0; 4; 0; 0]; replace (0 <=? putter_last F) with true by (symmetry; apply N.leb_le; lia); reflexivity). rewrite E1 in *.
    destruct (put_next _ _ _ _ _ _ _ _ _ HCo HN) as [HI PN]. cbn [hi conf] in *.
    replace (1 <=? putter_last F) with true in SE by (symmetry; apply N.leb_le; unfold putter_last; lia). cbn [N.eqb Pos.eqb orb negb] in SE.
    destruct (PN ws SE) as (s1 & r1 & y & -> & C1 & H1 & HCo1). cbn in C1, H1.
    exists (uweight srv s1 (w_written wr) zs). assert (X : uweight srv s1 (w_written wr) zs + 1 <= uweight srv (mkWin 0 0 0) (w_written wr) zs).
    { unfold SmoothE.uweight. cbn [hi conf]. rewrite C1, H1. destruct (ready srv); [lia|]. destruct (_ =? _); lia. }
    split; [|split; [lia|intros _; exact X]].
    exists s1, r1, wr, la, [(y, Some 1)], [], zs, ss. cbn [sm_srv sm_kept sm_up sm_prog sm_down]. split; [exact HCo1|]. split; [right|reflexivity].
    rewrite C1, H1. auto.
  - pose proof HCo as (I0 & EK & HQ & HX). pose proof (q_bounds P HP _ _ _ _ _ _ _ _ _ HQ) as BD.
    destruct acks as [|d acks]; cbn [map hd_error tl] in *.
    + right. rewrite N.eqb_refl in SE. cbn [orb] in SE. unfold client_seals in SE. cbn [sends map filter] in SE. inversion SE; subst ws. rewrite app_nil_r.
      exists (uweight srv s (w_written wr) zs). split; [|split; [lia|]].
      * exists s, r, wr, la, data, [], zs, ss. cbn [sm_srv sm_kept sm_up sm_prog sm_down]. split; [exact HCo|]. split; [right; auto|reflexivity].
      * intros ->. exfalso. destruct HQ as (_ & _ & _ & _ & HQ & [(_ & _ & HN & W1)|(y & A & _)]); [|discriminate].
        cbn [uP p_opts] in W1. rewrite (proj1 (proj2 (x_bs F x HA))) in W1.
        destruct HX as [(_ & _ & X & _)|(_ & HN' & _)]; [|lia]. destruct data; [cbn [length] in HQ; lia|]. destruct zs; discriminate X.
    + destruct (qc_ack P HP _ _ _ _ _ _ _ _ _ _ HQ) as (r' & -> & -> & LW & LB & DE & _ & _ & WO & NX).
      assert (HL' : hi s = la) by (destruct HQ as (_ & _ & _ & _ & HQ & _); cbn [length] in HQ; lia).
      assert (DE' : takeN 516 (fst d) = rfc_ack la).
      { rewrite rfc_ack_bytes. change (p_decc P (fst d)) with (client_dec c (k_sock k) (op_bs (k_opts k)) (fst d)) in DE. rewrite side_dec in DE. injection DE as DE. exact DE. }
      assert (EH : putter_hears F (hi s) (fst d) = hi s + 1).
      { unfold putter_hears. rewrite DE'. unfold rfc_ack, rfc_number. cbn [app]. rewrite num16, HL', N.eqb_refl.
        replace (la <=? putter_last F) with true by (symmetry; apply N.leb_le; rewrite <- p_last; lia). reflexivity. }
      rewrite EH in *. replace (hi s + 1 =? hi s) with false in SE by (symmetry; apply N.eqb_neq; lia). cbn [orb] in SE.
      destruct (N.eq_dec la n) as [EN|EN].
      * left. unfold stored. cbn [sm_prog sm_kept]. split; [rewrite <- p_last; lia|]. rewrite EK, WO, EN. change (p_file P) with F. rewrite p_512.
        rewrite (prefix_all F 512); [apply takeN_all; lia|reflexivity|]. unfold p_n. rewrite p_512. apply N.le_refl.
      * right. destruct (NX ltac:(lia)) as (s' & S1 & S2 & Q').
        assert (HCo2 : ucore srv kept up s' r' wr la [] [] zs (N.max ss la)).
        { split; [exact I0|]. split; [exact EK|]. split; [exact Q'|]. exact HX. }
        destruct (put_next _ _ _ _ _ _ _ _ _ HCo2 ltac:(lia)) as [HI PN]. rewrite S2 in PN.
        replace (hi s + 1 <=? putter_last F) with true in SE by (symmetry; apply N.leb_le; rewrite <- p_last; lia). cbn [negb] in SE.
        destruct (PN ws SE) as (s1 & r1 & y & -> & C1 & H1 & HCo1).
        exists (uweight srv s1 (w_written wr) zs).
        assert (X : uweight srv s1 (w_written wr) zs + 1 <= uweight srv s (w_written wr) zs).
        { unfold SmoothE.uweight. rewrite C1, H1, S1. destruct (ready srv); [lia|]. destruct (_ =? _); lia. }
        split; [|split; [lia|intros _; exact X]].
        exists s1, r1, wr, la, [(y, Some (hi s + 1))], [], zs, (N.max ss la). cbn [sm_srv sm_kept sm_up sm_prog sm_down]. split; [exact HCo1|]. split; [right|reflexivity].
        rewrite C1, H1. split; [reflexivity|]. split; [lia|reflexivity].
Qed.
Lemma pbusy W mu : pstate W mu -> putting F (sm_prog W) = true /\ 1 <= mu.
Proof.
  intros (s & r & wr & la & data & acks & zs & ss & (_ & _ & HQ & _) & HK & ->). pose proof (q_bounds P HP _ _ _ _ _ _ _ _ _ HQ) as BD.
  split; [|unfold SmoothE.uweight; lia]. unfold putting. apply N.leb_le. rewrite <- p_last. destruct HK as [(-> & _)|(-> & _)]; lia.
Qed.
Lemma pfile (W : smooth S N) : stored F W -> putting F (sm_prog W) = false.
Proof. intros [E _]. unfold putting. apply N.leb_gt. exact E. Qed.
Lemma pserver_able W mu t : pstate W mu -> ck t -> (forall e, view (sm_srv W) a = Some e -> prompt sg e t) -> exists W', sstep W W'.
Proof.
  intros (s & r & wr & la & data & acks & zs & ss & HCo & _) CK PR. pose proof HCo as (I0 & EK & HQ & HX). destruct W as [srv kept p down up]. cbn [sm_srv sm_kept sm_up] in *.
  destruct HX as [((e & V & TK) & HN & EU & HZs)|([V|(e & path & V & FE & WK & TE)] & HN & -> & ->)].
  - pose proof TK as ((path & K1) & K2 & K3 & K4 & K5 & _). specialize (PR e V). pose proof PR as [PT _].
    assert (CW : forall d v2, fine t v2 -> hd_error (zs ++ map fst data) = Some d ->
      exists e2 plain, handle_client c (g_max_size sg) e (cut e d) v2 = Some (e2, plain) /\ (plain = [] \/ exists j, plain = [ack_plain j])).
    { intros d v2 FV2 HD. destruct (conn_writes g sg cut x L F kd k HB HL Hcut HP wc HMU ck t0 e d v2 t s r wr la data acks zs ss TK HQ FV2 CK HN HD HZs) as (e2 & plain & EH & X).
      exists e2, plain. split; [exact EH|]. destruct X as [(-> & _)|(? & ? & ? & ? & _ & _ & _ & _ & _ & _ & _ & _ & _ & [(-> & _)|(-> & _)])]; eauto. }
    destruct (rg_able _ _ _ _ _ _ _ _ RG t (hd_error up) srv e I0 V K4 K5) as (got & srv' & o & TU).
    { intros buflen v e1 p1 ok d v2 FV FV2 SC HD. destruct (writer_sends _ _ _ _ _ _ _ _ _ _ _ _ _ _ _ _ _ TK SC) as [-> ->]. rewrite EU in HD.
      destruct (CW d v2 FV2 HD) as (e2 & plain & EH & _). congruence. }
    enough (exists ws, server_seals c e (sent_to a o) ws) as [ws SE] by (eexists; eapply st_turn; eassumption).
    destruct (rg_run _ _ _ _ _ _ _ _ RG t _ srv got srv' o e I0 V K4 K5 PT TU) as (_ & buflen & v & e1 & p1 & ok & FV & SC & H).
    destruct (writer_sends _ _ _ _ _ _ _ _ _ _ _ _ _ _ _ _ _ TK SC) as [-> ->].
    destruct H as [(_ & _ & SO & _)|(_ & _ & d & v2 & RX & FV2 & H)]; [rewrite SO; exists []; constructor|].
    rewrite EU in RX. destruct (CW d v2 FV2 RX) as (e2 & plain & EH & Y).
    destruct H as [H|(e2' & p2 & H & _ & SO)]; [congruence|]. rewrite EH in H. injection H as <- <-. rewrite SO.
    destruct Y as [-> |[j ->]]; [exists []; constructor|]. destruct (ack_is (es_opts x) j) as (_ & _ & B & _). exact (server_can c x L HB HL _ B e K3 K2).
  - eexists. apply st_over. exact V.
  - destruct (rg_able_end _ _ _ _ _ _ _ _ RG t srv e path wr I0 V FE WK) as (got & srv' & o & TU).
    destruct (rg_end _ _ _ _ _ _ _ _ RG t srv got srv' o e path wr I0 V FE WK TU) as (_ & _ & SO & _).
    eexists. eapply (st_turn _ _ _ _ _ _ srv kept p down [] t e got srv' o []); [exact CK|exact V|exact (PR e V)|exact TU|rewrite SO; constructor].
Qed.
Lemma pclient_able (W : smooth S N) t : ck t -> exists W', cstep W W'.
Proof.
  intros CK. destruct W as [srv kept p down up].
  set (p' := match hd_error down with Some w => putter_hears F p w | None => p end).
  assert (X : exists ws, client_seals c peer (sends plain_sock peer (if (p' =? p) || negb (p' <=? putter_last F) then [] else [rfc_data p' (putter_block F p')])) ws).
  { destruct (_ || _); [exists []; constructor|].
    destruct (block_is P (es_opts x) p' eq_refl) as (_ & _ & B3 & B4).
    assert (EB : rfc_data p' (putter_block F p') = block_plain P p') by (unfold block_plain; rewrite p_512, putter_block_of; apply rfc_data_bytes).
    rewrite EB. exact (client_can c (k_opts k) (k_sock k) x L HA HB HL _ peer B3 B4). }
  destruct X as [ws SE]. eexists. eapply ct_turn; [exact CK|intros _; exact Logic.I| |exact SE]. split; reflexivity.
Qed.
Lemma ptime W mu : pstate W mu -> forall e, view (sm_srv W) a = Some e -> T (c_updated (en_conn e)) /\ exists path wr, en_work e = WWrite path wr.
Proof.
  intros (s & r & wr & la & data & acks & zs & ss & (_ & _ & _ & HX) & _) e V.
  destruct HX as [((e' & V' & ((path & K1) & _ & _ & _ & _ & K6 & _)) & _)|([V'|(e' & path & V' & _ & WK & TE)] & _)]; rewrite V' in V; try discriminate; injection V as ->; eauto.
Qed.
Notation rounds := (turns turn view (putter_act F peer) no_timer (putting F) c sg a peer ck).
Lemma p_run W0 mu0 kk b W : pstate W0 mu0 -> rounds W0 kk b W -> kk <= mu0 /\
  (stored F W \/ under_way turn view (putter_act F peer) no_timer (putting F) c sg a peer ck W).
Proof.
  intros H0 R. destruct (run_bound turn view _ _ _ c sg a peer ck pstate (stored F) (fun W => sm_up W = []) pserver pclient pbusy pfile _ _ _ _ _ H0 R)
    as [[F1 F2]|(mu & H & K)].
  - split; [exact F2|left; exact F1].
  - split; [destruct K as [|[]]; lia|]. right. split; [exact (proj1 (pbusy _ _ H))|]. split.
    + intros t CK PR. exact (pserver_able _ _ t H CK PR).
    + intros t CK _. exact (pclient_able W t CK).
Qed.
Lemma p_init srv e : Inv srv -> view srv a = Some e -> taking e writer_new 0 ->
  pstate (mkSm srv [] 0 [rfc_ack 0] []) (4 * n + (if ready srv then 0 else 1)).
Proof.
  intros I0 V TK. pose proof (n_pos P HP) as NP. exists (mkWin 0 0 0), (new_reader kd (p_bs P) (op_window (p_opts P))), writer_new, 0, [], [], [], 0.
  cbn [sm_srv sm_kept sm_up sm_prog sm_down]. split; [|split].
  - split; [exact I0|]. split; [reflexivity|]. split; [apply (q_init P HP)|]. left. split; [eauto|]. cbn [w_written writer_new].
    split; [lia|]. split; [reflexivity|constructor].
  - left. cbn [w_written writer_new]. do 5 (split; [reflexivity|]). lia.
  - unfold SmoothE.uweight. cbn [hi conf w_written writer_new length]. destruct (N.eqb_spec 0 n); destruct (ready srv); lia.
Qed.
Hypothesis CE : forall t, ck t <-> t = t0.
Lemma p_done W0 mu0 : pstate W0 mu0 -> exists kk b W, rounds W0 kk b W /\ stored F W.
Proof.
  intros H0. assert (TE : forall t, T t -> t = t0) by (intros t [H|H]; [apply CE; exact H|exact H]).
  refine (run_ends turn view _ _ _ c sg a peer ck pstate (stored F) (fun W => sm_up W = []) pserver pclient pbusy pfile _ _ _ _ H0).
  - intros W mu H. pose proof (ptime _ _ H) as X. apply (pserver_able _ _ t0 H); [apply CE; reflexivity|].
    intros e V. destruct (X e V) as [K (path & wr & WK)]. apply TE in K. unfold prompt. rewrite K, WK. split; [lia|exact Logic.I].
  - intros W mu H. apply (pclient_able W t0). apply CE. reflexivity.
Qed.
End U.
