(** Uploads while nothing goes wrong.  Used by PropSmooth. *)
From Verif Require Import Base BaseProofs PacketModel PacketSpec PacketProofs MapperModel MapperProofs ReaderModel ReaderSpec BlockLemmas ReaderProofs
  WriterSpec WriterProofs ConfigModel CryptoModel CryptoSpec CryptoProofs PropCrypto ExtModel PathModel ConnModel ClientModel ConnSpec
  HandshakeModel AgreeProofs PropAgree ClientWaitModel StreamModel SystemModel CoreProofs LiveModel LiveProofs
  ServerModel ServerSpec ServerProofs WorldModel WorldProofs WorldC FsModel FsServerModel DiskModel RunModel RunSpec RunProofs
  SmoothA SmoothB SmoothModel SmoothSpec SmoothC SmoothD.
From Verif Require CliModel.

Section U.
Context {S : Type} (turn : N -> option bytes -> S -> bool -> S -> outs -> Prop) (view : S -> ServerModel.addr -> option entry)
  (ready : S -> bool) (Inv : S -> Prop).
Variables (g : run_cfg) (sg : srvcfg) (a : ServerModel.addr) (cut : entry -> bytes -> bytes).
Notation c := (ru_c g).
Hypothesis RG : regular turn view ready Inv c sg a cut.
Variables (x : est) (L : N) (F : bytes) (kd : kind) (k : cside).
Hypothesis HC : crypto_ok c.
Hypothesis HA : agree (k_opts k) (k_sock k) x.
Hypothesis HB : 512 <= op_bs (es_opts x).
Hypothesis HL : op_bs (es_opts x) + 4 <= L /\ 516 <= L.
Hypothesis Hcut : forall e d, c_opts (en_conn e) = es_opts x -> cut e d = takeN L d.
Notation P := (uP c sg k x L F kd).
Hypothesis HP : valid P.
Notation n := (p_n P).
Notation Q := (QC P (p_decs P) (p_decc P)).
Notation pre := (prefix_size F (p_bs P)).
(** The client. *)
Variables (wc : wcfg) (keys : option client_keys) (ex : exts) (w : bytes) (peer : CliModel.addr) (f : fs) (src : source).
Hypothesis W1 : wc_crypto wc = ru_c g.
Hypothesis W2 : wc_write wc = true.
Hypothesis W3 : wc_txt wc = ru_txt g.
Hypothesis PP : answers_from g wc true ex (fun d => ignored c (es_opts x) (es_key x) (takeN L d)) peer.
Hypothesis RQ : exists d, request_of g wc true ex d.
Hypothesis AG : agrees g wc keys true ex w k.
Hypothesis SR : src <> SDir.
Hypothesis SF : read_as g (content f (Some (Reads src))) (bs_enc (k_opts k)) = F.
Hypothesis FR : file_reader (k_opts k) (CliModel.cl_seek (ru_start g)) = new_reader kd (p_bs P) (op_window (p_opts P)).
Hypothesis HM : blen F <= g_max_size sg.
Variables (ck : N -> Prop) (t0 : N).
Notation T := (T ck t0).
Notation leaves := (fun d => ignored c (es_opts x) (es_key x) (takeN L d)).
(** Datagrams without effect: acknowledgements of the server's answer, requests. *)
Definition ustray (y : bytes) : Prop := p_decs P y = Some (ack_plain 0) \/ leaves y.

Lemma block_facts i : plain_ok (es_opts x) (block_plain P i) /\ short (block_plain P i) /\ 4 <= blen (block_plain P i) <= bs_enc (es_opts x) + 4 /\
  has_type T_READ (block_plain P i) || has_type T_WRITE (block_plain P i) = false.
Proof.
  unfold block_plain. pose proof (block_le F (p_bs P) i) as BL. split; [apply plain_data; exact BL|].
  split; [apply short_data|]. rewrite data_len. change (p_file P) with F. change (p_bs P) with (bs_enc (es_opts x)) in *. split; [lia|].
  rewrite !type_of_packet. reflexivity.
Qed.
Lemma ack_facts i : plain_ok (es_opts x) (ack_plain i) /\ short (ack_plain i) /\ 4 <= blen (ack_plain i) <= bs_enc (es_opts x) + 4 /\
  has_type T_READ (ack_plain i) || has_type T_WRITE (ack_plain i) = false.
Proof.
  unfold ack_plain. split; [apply plain_ack|]. split; [apply short_ack|]. change (blen (to_bytes (PAck (i mod 65536)))) with 4.
  split; [lia|]. rewrite !type_of_packet. reflexivity.
Qed.

(** The connection. *)
Definition taking (e : entry) (wr : writer) (la : N) : Prop :=
  (exists path, en_work e = WWrite path wr) /\ en_key e = es_key x /\ c_opts (en_conn e) = es_opts x /\ c_invalid (en_conn e) = None /\
  c_finished (en_conn e) = false /\ T (c_updated (en_conn e)) /\ c_transfer (en_conn e) = pre (w_written wr) /\ c_acked (en_conn e) = la.
Definition ucore (srv : S) (kept : bytes) (up : list bytes) (s : win) (r : reader) (wr : writer) (la : N) (data acks : list dgram) (zs : list bytes) (ss : N) : Prop :=
  Inv srv /\ kept = w_out wr /\ Q s r wr la data acks ss /\
  ((exists e, view srv a = Some e /\ taking e wr la) /\ w_written wr < n /\ up = zs ++ map fst data /\ Forall ustray zs \/
   (view srv a = None \/ exists e path, view srv a = Some e /\ c_finished (en_conn e) = true /\ en_work e = WWrite path wr /\ T (c_updated (en_conn e))) /\ w_written wr = n /\ up = [] /\ zs = []).
Definition uweight (srv : S) (s : win) (m : N) (zs : list bytes) : N :=
  (n - hi s) + 2 * (n - m) + (n - conf s) + (if ready srv then 0 else if m =? n then 0 else 1) + 2 * N.of_nat (length zs).

(** The command. *)
Definition uasks (p : uphase) (down : list bytes) (s : win) (r : reader) (wr : writer) (data acks : list dgram) : Prop :=
  exists w0, p = UAsk src w0 /\ waits wc ex w0 /\ s = mkWin 0 0 0 /\ r = new_reader kd (p_bs P) (op_window (p_opts P)) /\ w_written wr < n /\ data = [] /\ acks = [] /\ down = [w].
Definition uputs (p : uphase) (down : list bytes) (s : win) (r : reader) (acks : list dgram) : Prop :=
  exists key cl, p = USend k peer key src cl /\ cs_r cl = r /\ cs_total cl = pre (conf s) /\ T (cs_time cl) /\ down = map fst acks.
Definition sent_ok (W : smooth S uphase) : Prop := exists total key, sm_prog W = UDone total key /\ total = blen F /\ sm_kept W = F.
Definition ustate (W : smooth S uphase) (mu : N) : Prop :=
  exists s r wr la data acks zs ss, ucore (sm_srv W) (sm_kept W) (sm_up W) s r wr la data acks zs ss /\
    (uasks (sm_prog W) (sm_down W) s r wr data acks /\ mu = uweight (sm_srv W) s (w_written wr) zs + 5 \/
     uputs (sm_prog W) (sm_down W) s r acks /\ mu = uweight (sm_srv W) s (w_written wr) zs).

Notation sstep := (sturn turn view c sg a ck).
Notation cstep := (cturn (send_act g wc keys peer f) (send_patient wc) c peer ck).

Lemma hwrite e d v path wr cn w' plain : en_work e = WWrite path wr -> en_key e = es_key x -> c_opts (en_conn e) = es_opts x -> p_decs P d <> None ->
  handle_write (p_decs P) (en_conn e) wr d (e_now v) (g_max_size sg) (e_io v) (e_short v) (e_sock v) (e_txt v) = (cn, w', plain) ->
  handle_client c (g_max_size sg) e (cut e d) v = Some (mkE cn (en_key e) (WWrite path w'), plain).
Proof.
  intros K1 K2 K3 HD E. unfold handle_client. rewrite K1. pose proof (dec_cut c cut x L Hcut e d K3 K2) as DC.
  assert (E' : handle_write (entry_dec c e) (en_conn e) wr (cut e d) (e_now v) (g_max_size sg) (e_io v) (e_short v) (e_sock v) (e_txt v) = (cn, w', plain)).
  { rewrite <- E. unfold handle_write. rewrite DC. reflexivity. }
  rewrite E'. unfold entry_dec in DC. destruct (entry_decrypt c e (cut e d)); [reflexivity|reflexivity|]. exfalso. apply HD. symmetry. exact DC.
Qed.

(** What a connection does with a datagram. *)
Lemma conn_writes e d v t s r wr la data acks zs ss : taking e wr la -> Q s r wr la data acks ss -> fine t v -> ck t -> w_written wr < n ->
  hd_error (zs ++ map fst data) = Some d -> Forall ustray zs ->
  exists e' plain, handle_client c (g_max_size sg) e (cut e d) v = Some (e', plain) /\
   ((plain = [] /\ e' = e /\ exists zs', tl (zs ++ map fst data) = zs' ++ map fst data /\ Forall ustray zs' /\ N.of_nat (length zs) = N.of_nat (length zs') + 1) \/
    exists path wr' d' data', zs = [] /\ data = d' :: data' /\ acks = [] /\ en_work e' = WWrite path wr' /\ T (c_updated (en_conn e')) /\ w_written wr' = w_written wr + 1 /\ w_written wr' <= n /\
      c_finished (en_conn e') = (w_written wr' =? n) /\
      (w_written wr' < n -> taking e' wr' (c_acked (en_conn e'))) /\
      (plain = [] /\ w_written wr' < n /\ Q s r wr' (c_acked (en_conn e')) data' [] ss \/
       plain = [ack_plain (w_written wr')] /\ forall y, p_decc P y = Some (ack_plain (w_written wr')) -> Q s r wr' (c_acked (en_conn e')) data' [(y, Some (w_written wr'))] ss)).
Proof.
  intros TK HQ (F1 & F2 & F3 & F4) CK HN HD HZs. pose proof TK as ((path & K1) & K2 & K3 & K4 & K5 & K6 & K7 & K8).
  destruct zs as [|z zs]; cbn [app hd_error tl] in *.
  - destruct data as [|y data]; [discriminate|]. cbn [map hd_error tl] in *. injection HD as <-.
    destruct (q_recv P HP _ _ _ _ _ _ _ _ _ _ HQ) as (_ & _ & _ & DE & _).
    destruct (handle_write (p_decs P) (en_conn e) wr (fst y) (e_now v) (g_max_size sg) (e_io v) (e_short v) (e_sock v) (e_txt v)) as [[cn w'] plain] eqn:EH.
    pose proof (hwrite e (fst y) v path wr cn w' plain K1 K2 K3 ltac:(rewrite DE; discriminate) EH) as HC'.
    rewrite F1, F2, F3, F4 in EH. rewrite <- K8 in HQ.
    destruct (u_recv P HP s r (en_conn e) wr y data acks ss (g_max_size sg) t (e_txt v) cn w' plain HQ K3 K7 K5 HM EH) as (-> & R1 & R2 & R3 & R4 & R5 & R6 & R7 & R8 & R9 & R10).
    eexists _, plain. split; [exact HC'|]. right. exists path, w', y, data. cbn [en_conn en_work en_key]. rewrite <- R1 in R2, R6, R7, R10.
    do 4 (split; [reflexivity|]). split; [left; rewrite R8; exact CK|]. split; [exact R1|]. split; [exact R2|]. split; [exact R7|]. split.
    { intros LT. unfold taking. cbn [en_conn en_work en_key]. rewrite R3, R4, R6, R7, R8. split; [eauto|]. repeat split; try assumption. { apply N.eqb_neq. lia. } left. exact CK. }
    exact R10.
  - injection HD as <-. pose proof (Forall_inv HZs) as D.
    destruct D as [D|D].
    2:{ exists e, []. split; [rewrite Hcut by exact K3; eapply ignored_nothing; eassumption|]. left. do 2 (split; [reflexivity|]).
        exists zs. split; [reflexivity|]. split; [exact (Forall_inv_tail HZs)|]. cbn [length]. lia. }
    eexists _, []. split; [eapply hwrite; try eassumption; [congruence|]; apply u_stale; exact D|]. left. split; [reflexivity|]. split.
    { destruct e as [cn ky wk]. cbn in *. rewrite K1. reflexivity. }
    exists zs. split; [reflexivity|]. split; [exact (Forall_inv_tail HZs)|]. cbn [length]. lia.
Qed.

Lemma seals_nil e ws : server_seals c e [] ws -> ws = [].
Proof. unfold server_seals. inversion 1. reflexivity. Qed.
Lemma writer_sends buflen e v e1 p1 ok wr la : taking e wr la -> send_client buflen e v = (e1, p1, ok) -> e1 = e /\ p1 = [].
Proof. intros ((path & K1) & _). unfold send_client. rewrite K1. intros [= <- <- _]. auto. Qed.

(** A turn of the server. *)
Lemma ucore_turn srv kept up s r wr la data acks zs ss t got srv' o e ws : ucore srv kept up s r wr la data acks zs ss ->
  ck t -> view srv a = Some e -> prompt sg e t -> turn t (hd_error up) srv got srv' o -> server_seals c e (sent_to a o) ws ->
  exists wr' la' data' nacks zs', ucore srv' (keep kept (view srv' a)) (if got then tl up else up) s r wr' la' data' (acks ++ nacks) zs' ss /\ ws = map fst nacks /\
    (data = [] -> wr' = wr /\ data' = [] /\ nacks = []) /\
    (uweight srv' s (w_written wr') zs' + 1 <= uweight srv s (w_written wr) zs \/
     uweight srv' s (w_written wr') zs' <= uweight srv s (w_written wr) zs /\ (if got then tl up else up) = []).
Proof.
  intros (I0 & EK & HQ & [((e' & V' & TK) & HN & EU & HZs)|(VV & HN & -> & ->)]) CK V [PT PR] TU SE.
  - rewrite V in V'. injection V' as <-. pose proof TK as ((path & K1) & K2 & K3 & K4 & K5 & K6 & K7 & K8).
    destruct (rg_run _ _ _ _ _ _ _ _ RG t _ srv got srv' o e I0 V K4 K5 PT TU) as (I1 & buflen & v & e1 & p1 & ok & FV & SC & H).
    destruct (writer_sends _ _ _ _ _ _ _ _ TK SC) as [-> ->].
    destruct H as [(-> & V1 & SO & RY & RX)|(-> & RY & d & v2 & RX & FV2 & H)].
    + rewrite SO in SE. apply seals_nil in SE as ->. exists wr, la, data, [], zs. rewrite app_nil_r. split; [|split; [reflexivity|split; [auto|]]].
      * split; [exact I1|]. split; [rewrite V1; cbn [keep]; rewrite K1; reflexivity|]. split; [exact HQ|]. left. split; [exists e; auto|]. auto.
      * unfold uweight. rewrite RY. destruct (ready srv); [right|left].
        -- split; [lia|]. specialize (RX eq_refl). destruct up; [reflexivity|discriminate].
        -- replace (w_written wr =? n) with false by (symmetry; apply N.eqb_neq; lia). lia.
    + rewrite EU in RX.
      destruct (conn_writes e d v2 t s r wr la data acks zs ss TK HQ FV2 CK HN RX HZs) as (e2 & plain & EH & X).
      destruct H as [H|(e2' & p2 & H & V2 & SO)]; [congruence|]. rewrite EH in H. injection H as <- <-. rewrite SO in SE. cbn [app] in SE.
      destruct X as [(-> & -> & zs' & X1 & X2 & X3)|(path' & wr' & d' & data' & -> & -> & -> & X1 & XT & X2 & X3 & X4 & X5 & X6)].
      * apply seals_nil in SE as ->. exists wr, la, data, [], zs'. rewrite app_nil_r. split; [|split; [reflexivity|split; [auto|]]].
        -- split; [exact I1|]. split; [rewrite V2; cbn [keep]; rewrite K1; reflexivity|]. split; [exact HQ|]. left. split; [exists e; auto|]. rewrite EU. auto.
        -- left. unfold uweight. rewrite RY. destruct (ready srv'), (w_written wr =? n); lia.
      * assert (WT : uweight srv' s (w_written wr') [] + 1 <= uweight srv s (w_written wr) []).
        { unfold uweight. rewrite RY. destruct (ready srv'), (w_written wr' =? n), (w_written wr =? n); lia. }
        assert (EU' : tl up = map fst data') by (rewrite EU; reflexivity).
        assert (GO : forall nacks, Q s r wr' (c_acked (en_conn e2)) data' nacks ss -> (w_written wr' = n -> data' = []) ->
          ucore srv' (keep kept (view srv' a)) (tl up) s r wr' (c_acked (en_conn e2)) data' nacks [] ss).
        { intros nacks Q' DN. split; [exact I1|]. split; [rewrite V2; cbn [keep]; rewrite X1; reflexivity|]. split; [exact Q'|].
          destruct (N.eq_dec (w_written wr') n) as [EN|EN].
          - right. rewrite EU', (DN EN). split; [|auto]. right. exists e2, path'. split; [exact V2|]. split; [rewrite X4; apply N.eqb_eq; exact EN|]. auto.
          - left. split; [exists e2; split; [exact V2|apply X5; lia]|]. split; [lia|]. split; [exact EU'|constructor]. }
        destruct X6 as [(-> & LT & Q')|(-> & Q')].
        -- apply seals_nil in SE as ->. exists wr', (c_acked (en_conn e2)), data', [], []. split; [apply GO; [exact Q'|lia]|]. split; [reflexivity|]. split; [congruence|]. left. exact WT.
        -- destruct (ack_facts (w_written wr')) as (B1 & B2 & _).
           destruct (server_sealed1 c (k_opts k) (k_sock k) x L HC HA HB HL e _ ws K3 K2 B1 B2 SE) as (y & -> & DY).
           pose proof (Q' y DY) as Q2.
           exists wr', (c_acked (en_conn e2)), data', [(y, Some (w_written wr'))], []. split; [apply GO; [exact Q2|]|].
           { intros _. apply qc_ack in Q2; [|exact HP]. destruct Q2 as (_ & _ & Q2 & _). exact Q2. }
           split; [reflexivity|]. split; [congruence|]. left. exact WT.
  - destruct VV as [VV|(e' & path & V' & FE & WK & TE)]; [congruence|]. rewrite V in V'. injection V' as <-. cbn [hd_error] in TU.
    destruct (rg_end _ _ _ _ _ _ _ _ RG t srv got srv' o e path wr I0 V FE WK TU) as (I1 & -> & SO & V1).
    rewrite SO in SE. apply seals_nil in SE as ->. exists wr, la, data, [], []. rewrite app_nil_r. split; [|split; [reflexivity|split; [auto|]]].
    + split; [exact I1|]. split; [destruct V1 as [-> | ->]; cbn [keep]; rewrite ?WK; auto|]. split; [exact HQ|]. right. split; [|auto]. destruct V1 as [-> | ->]; [right|left; reflexivity]. exists e, path. auto.
    + right. split; [|reflexivity]. unfold uweight. rewrite HN, N.eqb_refl. destruct (ready srv), (ready srv'); lia.
Qed.

Lemma userver W W' mu : ustate W mu -> sstep W W' -> exists mu', ustate W' mu' /\ (mu' + 1 <= mu \/ mu' <= mu /\ sm_up W' = []).
Proof.
  intros (s & r & wr & la & data & acks & zs & ss & HCo & HK) ST. destruct ST as [srv kept p down up V|srv kept p down up t e got srv' o ws CK V PR TU SE];
    cbn [sm_srv sm_kept sm_up sm_prog sm_down] in *.
  - exists mu. split; [exists s, r, wr, la, data, acks, zs, ss; split; assumption|]. right. split; [lia|].
    destruct HCo as (_ & _ & _ & [((e & V' & _) & _)|(_ & _ & -> & _)]); [congruence|reflexivity].
  - destruct (ucore_turn _ _ _ _ _ _ _ _ _ _ _ _ _ _ _ _ _ HCo CK V PR TU SE) as (wr' & la' & data' & nacks & zs' & HCo' & -> & HU & HMu).
    destruct HK as [[(w0 & E1 & E2 & E3 & E4 & E5 & E6 & E7 & E9) ->]|[(key & cl & E1 & E2 & E3 & E4 & E5) ->]].
    + destruct (HU E6) as (-> & -> & ->).
      exists (uweight srv' s (w_written wr) zs' + 5). split.
      * exists s, r, wr, la', [], acks, zs', ss. rewrite app_nil_r in HCo'. cbn [sm_srv sm_kept sm_up sm_prog sm_down map]. split; [exact HCo'|]. left. split; [|reflexivity].
        exists w0. rewrite app_nil_r. repeat split; try assumption; apply E2.
      * destruct HMu as [|[HMu ->]]; [left; lia|right]. split; [lia|reflexivity].
    + exists (uweight srv' s (w_written wr') zs'). split; [|exact HMu].
      exists s, r, wr', la', data', (acks ++ nacks), zs', ss. cbn [sm_srv sm_kept sm_up sm_prog sm_down]. split; [exact HCo'|]. right. split; [|reflexivity].
      exists key, cl. rewrite E5, map_app. auto.
Qed.

Lemma read_is s r wr la data acks ss io : Q s r wr la data acks ss -> read_io g src r false io = io.
Proof.
  intros ((m & (_ & SM) & _) & CH & _). unfold read_io.
  assert (RA : reads_again r false = false).
  { destruct (p_kind P), r as [r|r|r]; try contradiction; try reflexivity. destruct SM as (_ & _ & _ & R1 & _ & R2 & _). unfold reads_again. cbn [andb orb]. rewrite R1, R2, CH. apply N.ltb_irrefl. }
  rewrite RA. destruct src, (CliModel.cl_file_key (ru_start g)); try reflexivity; congruence.
Qed.
Lemma cseals_nil ws : client_seals c peer (sends (k_sock k) peer []) ws -> ws = [].
Proof. unfold client_seals. cbn [sends map filter]. inversion 1. reflexivity. Qed.

(** The sending half of a turn of the command. *)
Lemma put_half srv kept up s cl wr la data acks zs ss cl1 plain stat : ucore srv kept up s (cs_r cl) wr la data acks zs ss ->
  sender_send F cl (N.max (op_bs (k_opts k) + DATA_PACKET_HEADER_SIZE) MIN_BUFFER_SIZE) false IoOk (Some true) = (cl1, plain, stat) ->
  stat = CRun /\ cs_total cl1 = cs_total cl /\ cs_time cl1 = cs_time cl /\ (exists ws, client_seals c peer (sends (k_sock k) peer plain) ws) /\
  (acks <> [] -> plain = []) /\
  forall ws, client_seals c peer (sends (k_sock k) peer plain) ws ->
    exists s1 data1, ucore srv kept (up ++ ws) s1 (cs_r cl1) wr la data1 acks zs ss /\ conf s1 = conf s /\
      (plain = [] /\ s1 = s /\ ws = [] /\ data1 = data /\ (acks = [] -> data <> []) \/ plain <> [] /\ hi s1 = hi s + 1 /\ hi s < n).
Proof.
  intros HCo E. pose proof HCo as (I0 & EK & HQ & HX).
  assert (BL : op_bs (p_opts P) + DATA_PACKET_HEADER_SIZE <= N.max (op_bs (k_opts k) + DATA_PACKET_HEADER_SIZE) MIN_BUFFER_SIZE).
  { destruct HA as (X & _). change (p_opts P) with (es_opts x). rewrite X. lia. }
  pose proof (q_bounds P HP _ _ _ _ _ _ _ _ _ HQ) as BD.
  destruct (u_send P HP s cl wr la data acks ss _ cl1 plain stat HQ BL E) as (-> & E1 & E2 & [(-> & Q1 & ND)|(-> & HN & X)]).
  - do 3 (split; [assumption||reflexivity|]). split; [exists []; constructor|]. split; [reflexivity|]. intros ws HS. apply cseals_nil in HS as ->.
    rewrite app_nil_r. exists s, data. split; [|split; [reflexivity|left; auto 8]]. split; [exact I0|]. split; [exact EK|]. split; [exact Q1|exact HX].
  - destruct (block_facts (hi s + 1)) as (B1 & B2 & B3 & B4).
    do 3 (split; [assumption||reflexivity|]). split; [exact (client_can c (k_opts k) (k_sock k) x L HA HB HL _ peer B3 B4)|].
    assert (SE : forall ws, client_seals c peer (sends (k_sock k) peer [block_plain P (hi s + 1)]) ws ->
      exists y s1, ws = [y] /\ conf s1 = conf s /\ hi s1 = hi s + 1 /\ Q s1 (cs_r cl1) wr la (data ++ [(y, Some (hi s + 1))]) acks ss).
    { intros ws HS. destruct (client_sealed1 c (k_opts k) (k_sock k) x L HC HA HB HL peer _ ws B1 B2 HS) as (y & -> & DY).
      destruct (X y DY) as (s1 & S1 & S2 & Q1). exists y, s1. auto. }
    split.
    { intros NE. exfalso. destruct (client_can c (k_opts k) (k_sock k) x L HA HB HL _ peer B3 B4) as [ws AN]. destruct (SE ws AN) as (y & s1 & _ & _ & _ & Q1).
      destruct acks as [|d acks]; [congruence|]. apply qc_ack in Q1; [|exact HP]. destruct Q1 as (_ & _ & Q1 & _). destruct data; discriminate. }
    intros ws HS. destruct (SE ws HS) as (y & s1 & -> & S1 & S2 & Q1). exists s1, (data ++ [(y, Some (hi s + 1))]).
    split; [|split; [exact S1|right; split; [discriminate|auto]]]. split; [exact I0|]. split; [exact EK|]. split; [exact Q1|].
    destruct HX as [(HE & HN' & -> & HZs)|(_ & HN' & _)]; [|lia]. left. split; [exact HE|]. split; [exact HN'|]. rewrite map_app, app_assoc. auto.
Qed.

Lemma uclient W W' mu : ustate W mu -> cstep W W' ->
  sent_ok W' \/ exists mu', ustate W' mu' /\ mu' <= mu /\ (sm_up W = [] -> mu' + 1 <= mu).
Proof.
  intros (s & r & wr & la & data & acks & zs & ss & HCo & HK) ST. destruct ST as [srv kept p down up t p' out ws CK PA AC SE]. cbn [sm_srv sm_kept sm_up sm_prog sm_down] in *.
  destruct AC as (i & A1 & A2 & A3 & A4 & A5 & AT).
  destruct HK as [[(w0 & E1 & E2 & E3 & E4 & E5 & E6 & E7 & E9) ->]|[(key & cl & E1 & E2 & E3 & E4 & E5) ->]].
  - right. subst p down data acks. cbn [hd_error arrival] in A1. unfold send_turn in AT. rewrite A1, A2, A5 in AT.
    destruct (wait_done g wc keys ex true w k peer w0 t W1 W2 W3 (proj1 (proj1 PP)) (port_fits _ _ _ _ _ _ PP) AG E2) as (q & pt & EW & QA & QD & QK). rewrite EW, QK in AT.
    unfold send_accepted in AT. rewrite Bool.andb_false_r in AT. injection AT as <- <-.
    change (to_bytes (PAck 0)) with (ack_plain 0) in SE. cbn [when] in SE.
    rewrite (proj1 (proj2 E2)) in SE. destruct (ask_seals g wc _ ex _ peer (k_sock k) PP _ _ SE) as (pp & ws' & -> & HPP & LPP & SE'). clear SE.
    destruct (ack_facts 0) as (B1 & B2 & _).
    assert (HY : Forall ustray ws' /\ (length ws' <= 1)%nat).
    { destruct (q_ack q); cbn [when] in SE'; [|apply cseals_nil in SE' as ->; split; [constructor|cbn; lia]].
      destruct (client_sealed1 c (k_opts k) (k_sock k) x L HC HA HB HL peer _ ws' B1 B2 SE') as (y & -> & DY). split; [constructor; [left; exact DY|constructor]|cbn; lia]. }
    destruct HY as [DY LY].
    destruct HCo as (I0 & EK & HQ & [(HE & HN & HU & HZs)|(_ & HN & _)]); [|lia]. cbn [map] in HU. rewrite app_nil_r in HU. subst up.
    exists (uweight srv s (w_written wr) (zs ++ pp ++ ws')). split.
    + exists s, r, wr, la, [], [], (zs ++ pp ++ ws'), ss. cbn [sm_srv sm_kept sm_up sm_prog sm_down]. split.
      * split; [exact I0|]. split; [exact EK|]. split; [exact HQ|]. left. split; [exact HE|]. split; [exact HN|]. split; [cbn [map]; rewrite app_nil_r; reflexivity|].
        apply Forall_app. split; [exact HZs|]. apply Forall_app. split; [|exact DY].
        eapply Forall_impl; [|exact HPP]. intros z Z. right. exact Z.
      * right. split; [|reflexivity]. exists (auth_key q), (mkCS (file_reader (k_opts k) (CliModel.cl_seek (ru_start g))) 0 t). cbn [cs_r cs_total cs_time tl map].
        split; [reflexivity|]. split; [rewrite FR, E4; reflexivity|]. split; [rewrite E3; cbn [conf]; symmetry; apply prefix_0|]. split; [left; exact CK|reflexivity].
    + unfold uweight. rewrite !app_length. cbn [length]. lia.
  - subst p r down. unfold send_turn in AT. rewrite SF, A2, A3, A4, A5, (read_is _ _ _ _ _ _ _ _ (proj1 (proj2 (proj2 HCo)))) in AT.
    destruct (sender_send F cl (N.max (op_bs (k_opts k) + DATA_PACKET_HEADER_SIZE) MIN_BUFFER_SIZE) false IoOk (Some true)) as [[cl1 plain] stat] eqn:ES.
    destruct (put_half _ _ _ _ _ _ _ _ _ _ _ _ _ _ HCo ES) as (-> & T1 & T2 & _ & _ & HS).
    destruct (sender_recv (client_dec c (k_sock k) (op_bs (k_opts k))) (k_timeout k) cl1 (get_ev peer (si_ev i)) t) as [cl2 stat2] eqn:ER.
    injection AT as <- <-. destruct (HS ws SE) as (s1 & data1 & HCo1 & C1 & HP1). clear HS.
    pose proof HCo1 as (I1 & EK1 & HQ1 & HX1). pose proof (q_bounds P HP _ _ _ _ _ _ _ _ _ HQ1) as BD1.
    assert (HI : hi s <= hi s1) by (destruct HP1 as [(_ & -> & _)|(_ & -> & _)]; lia).
    destruct acks as [|y acks].
    + right. cbn [map hd_error arrival] in *. rewrite A1 in ER. cbn [get_ev sender_recv] in ER. specialize (PA eq_refl). cbn [send_patient] in PA.
      rewrite T2 in ER. replace (k_timeout k <? t - cs_time cl) with false in ER by (symmetry; apply N.ltb_ge; exact PA). injection ER as <- <-.
      exists (uweight srv s1 (w_written wr) zs). split; [|split].
      * exists s1, (cs_r cl1), wr, la, data1, [], zs, ss. cbn [sm_srv sm_kept sm_up sm_prog sm_down map tl]. split; [exact HCo1|]. right. split; [|reflexivity].
        exists key, cl1. rewrite T1, T2, C1. auto.
      * unfold uweight. rewrite C1. lia.
      * intros ->. unfold uweight. rewrite C1. destruct HP1 as [(_ & _ & -> & -> & ND)|(_ & HI' & HN')]; [|lia]. exfalso. apply ND; [reflexivity|].
        destruct HX1 as [(_ & _ & X & _)|(_ & HN1 & _)].
        -- cbn [app] in X. symmetry in X. apply app_eq_nil in X as [_ X]. destruct data; [reflexivity|discriminate].
        -- destruct HQ1 as (_ & _ & _ & _ & HH & _). destruct data; [reflexivity|]. cbn [length] in HH. lia.
    + cbn [map hd_error arrival] in *. rewrite A1 in ER. cbn [get_ev] in ER. rewrite same_addr_refl in ER.
      rewrite <- C1 in E3. rewrite <- T1 in E3.
      destruct (u_ack P HP s1 cl1 wr la y data1 acks ss (k_timeout k) t cl2 stat2 HQ1 E3 ER) as (-> & -> & LN & LW & T3 & D1 & D2).
      destruct (N.eq_dec la n) as [EN|EN].
      * left. destruct (D1 EN) as [-> WF]. exists (blen F), key. cbn [sm_prog sm_kept]. rewrite EK1. auto.
      * right. destruct (D2 ltac:(lia)) as (-> & s' & ss' & S1 & S2 & T4 & Q').
        pose proof (q_bounds P HP _ _ _ _ _ _ _ _ _ Q') as BD'.
        assert (X : uweight srv s' (w_written wr) zs + 1 <= uweight srv s (w_written wr) zs) by (unfold uweight; destruct (ready srv), (w_written wr =? n); lia).
        exists (uweight srv s' (w_written wr) zs). split; [|split; [lia|intros _; exact X]].
        exists s', (cs_r cl2), wr, la, [], [], zs, ss'. cbn [sm_srv sm_kept sm_up sm_prog sm_down map tl]. split.
        { split; [exact I1|]. split; [exact EK1|]. split; [exact Q'|exact HX1]. }
        right. split; [|reflexivity]. exists key, cl2. rewrite T3. split; [reflexivity|]. split; [reflexivity|]. split; [exact T4|]. split; [left; exact CK|reflexivity].
Qed.

Lemma ubusy W mu : ustate W mu -> send_busy (sm_prog W) = true /\ 1 <= mu.
Proof.
  intros (s & r & wr & la & data & acks & zs & ss & (_ & _ & HQ & _) & [[(w0 & E & _) ->]|[(key & cl & E & _) ->]]); rewrite E; (split; [reflexivity|]);
    pose proof (q_bounds P HP _ _ _ _ _ _ _ _ _ HQ); unfold uweight; lia.
Qed.
Lemma usent (W : smooth S uphase) : sent_ok W -> send_busy (sm_prog W) = false.
Proof. intros (total & key & E & _). rewrite E. reflexivity. Qed.

(** Turns are possible. *)
Lemma userver_able W mu t : ustate W mu -> ck t -> (forall e, view (sm_srv W) a = Some e -> prompt sg e t) -> exists W', sstep W W'.
Proof.
  intros (s & r & wr & la & data & acks & zs & ss & HCo & _) CK PR. pose proof HCo as (I0 & EK & HQ & HX). destruct W as [srv kept p down up]. cbn [sm_srv sm_kept sm_up] in *.
  destruct HX as [((e & V & TK) & HN & EU & HZs)|([V|(e & path & V & FE & WK & TE)] & HN & -> & ->)].
  - pose proof TK as ((path & K1) & K2 & K3 & K4 & K5 & _). specialize (PR e V). pose proof PR as [PT _].
    destruct (rg_able _ _ _ _ _ _ _ _ RG t (hd_error up) srv e I0 V K4 K5) as (got & srv' & o & TU).
    { intros buflen v e1 p1 ok d v2 FV FV2 SC HD. destruct (writer_sends _ _ _ _ _ _ _ _ TK SC) as [-> ->]. rewrite EU in HD.
      destruct (conn_writes e d v2 t s r wr la data acks zs ss TK HQ FV2 CK HN HD HZs) as (e2 & plain & EH & _). congruence. }
    enough (exists ws, server_seals c e (sent_to a o) ws) as [ws SE] by (eexists; eapply st_turn; eassumption).
    destruct (rg_run _ _ _ _ _ _ _ _ RG t _ srv got srv' o e I0 V K4 K5 PT TU) as (_ & buflen & v & e1 & p1 & ok & FV & SC & H).
    destruct (writer_sends _ _ _ _ _ _ _ _ TK SC) as [-> ->].
    destruct H as [(_ & _ & SO & _)|(_ & _ & d & v2 & RX & FV2 & H)]; [rewrite SO; exists []; constructor|].
    rewrite EU in RX. destruct (conn_writes e d v2 t s r wr la data acks zs ss TK HQ FV2 CK HN RX HZs) as (e2 & plain & EH & X).
    destruct H as [H|(e2' & p2 & H & _ & SO)]; [congruence|]. rewrite EH in H. injection H as <- <-. rewrite SO.
    assert (Y : plain = [] \/ exists j, plain = [ack_plain j]) by (destruct X as [(-> & _)|(? & ? & ? & ? & _ & _ & _ & _ & _ & _ & _ & _ & _ & [(-> & _)|(-> & _)])]; eauto).
    destruct Y as [-> |[j ->]]; [exists []; constructor|]. destruct (ack_facts j) as (_ & _ & B & _). exact (server_can c x L HB HL _ B e K3 K2).
  - eexists. apply st_over. exact V.
  - destruct (rg_able_end _ _ _ _ _ _ _ _ RG t srv e path wr I0 V FE WK) as (got & srv' & o & TU).
    destruct (rg_end _ _ _ _ _ _ _ _ RG t srv got srv' o e path wr I0 V FE WK TU) as (_ & _ & SO & _).
    eexists. eapply (st_turn _ _ _ _ _ _ srv kept p down [] t e got srv' o []); [exact CK|exact V|exact (PR e V)|exact TU|rewrite SO; constructor].
Qed.
Lemma uclient_able W mu t : ustate W mu -> ck t -> (sm_down W = [] -> send_patient wc (sm_prog W) t) -> exists W', cstep W W'.
Proof.
  intros (s & r & wr & la & data & acks & zs & ss & HCo & HK) CK PA.
  set (i := mkSin false IoOk (Some true) (arrival peer (hd_error (sm_down W))) t).
  destruct (send_turn g wc keys f (sm_prog W) i) as [p' out] eqn:AT.
  enough (exists ws, client_seals c peer out ws) as [ws SE].
  { destruct W as [srv kept p down up]. cbn [sm_prog sm_down] in *. eexists. eapply ct_turn; [exact CK|exact PA| |exact SE]. exists i. repeat split. exact AT. }
  destruct HK as [[(w0 & E1 & E2 & E3 & E4 & E5 & E6 & E7 & E9) ->]|[(key & cl & E1 & E2 & E3 & E4 & E5) ->]]; rewrite E1 in AT; unfold i in AT; clear i.
  - rewrite E9 in AT. cbn [hd_error arrival] in AT. unfold send_turn in AT. cbn [si_ev si_now si_sock] in AT.
    destruct (wait_done g wc keys ex true w k peer w0 t W1 W2 W3 (proj1 (proj1 PP)) (port_fits _ _ _ _ _ _ PP) AG E2) as (q & pt & EW & QA & QD & QK). rewrite EW, QK in AT.
    unfold send_accepted in AT. rewrite Bool.andb_false_r in AT. injection AT as <- <-.
    destruct (ack_facts 0) as (_ & _ & B3 & B4). destruct (client_can c (k_opts k) (k_sock k) x L HA HB HL _ peer B3 B4) as [ws X].
    rewrite (proj1 (proj2 E2)). apply (ask_can g wc true ex peer (k_sock k) RQ (when (q_ack q) [ack_plain 0])). destruct (q_ack q); [exists ws; exact X|exists []; constructor].
  - unfold send_turn in AT. cbn [si_ev si_now si_sock si_io si_retry] in AT. rewrite SF in AT. subst r. rewrite (read_is _ _ _ _ _ _ _ _ (proj1 (proj2 (proj2 HCo)))) in AT.
    destruct (sender_send F cl (N.max (op_bs (k_opts k) + DATA_PACKET_HEADER_SIZE) MIN_BUFFER_SIZE) false IoOk (Some true)) as [[cl1 plain] stat] eqn:ES.
    destruct (put_half _ _ _ _ _ _ _ _ _ _ _ _ _ _ HCo ES) as (-> & _ & _ & AN & _).
    destruct (sender_recv _ _ _ _ _) as [cl2 stat2]. injection AT as _ <-. exact AN.
Qed.
Lemma utime W mu : ustate W mu -> (forall e, view (sm_srv W) a = Some e -> T (c_updated (en_conn e)) /\ exists path wr, en_work e = WWrite path wr) /\
  (sm_down W = [] -> match sm_prog W with USend _ _ _ _ cl => T (cs_time cl) | _ => False end).
Proof.
  intros (s & r & wr & la & data & acks & zs & ss & (_ & _ & _ & HX) & HK). split.
  - intros e V. destruct HX as [((e' & V' & ((path & K1) & _ & _ & _ & _ & K6 & _)) & _)|([V'|(e' & path & V' & _ & WK & TE)] & _)]; rewrite V' in V; try discriminate; injection V as ->; eauto.
  - intros ED. destruct HK as [[(w0 & _ & _ & _ & _ & _ & _ & _ & E9) ->]|[(key & cl & E1 & _ & _ & E4 & _) ->]]; [rewrite E9 in ED; discriminate|]. rewrite E1. exact E4.
Qed.

Notation rounds := (turns turn view (send_act g wc keys peer f) (send_patient wc) send_busy c sg a peer ck).
Lemma u_run W0 mu0 kk b W : ustate W0 mu0 -> rounds W0 kk b W -> kk <= mu0 /\
  (sent_ok W \/
   send_busy (sm_prog W) = true /\ (forall t, ck t -> (forall e, view (sm_srv W) a = Some e -> prompt sg e t) -> exists W', sstep W W') /\
   forall t, ck t -> (sm_down W = [] -> send_patient wc (sm_prog W) t) -> exists W', cstep W W').
Proof.
  intros H0 R. destruct (run_bound turn view _ _ _ c sg a peer ck ustate sent_ok (fun W => sm_up W = []) userver uclient ubusy usent _ _ _ _ _ H0 R)
    as [[F1 F2]|(mu & H & K)].
  - split; [exact F2|left; exact F1].
  - split; [destruct K as [|[]]; lia|]. right. split; [exact (proj1 (ubusy _ _ H))|]. split.
    + intros t CK PR. exact (userver_able _ _ t H CK PR).
    + intros t CK PA. exact (uclient_able _ _ t H CK PA).
Qed.
Lemma u_init srv w0 e zs : Forall ustray zs -> Inv srv -> view srv a = Some e -> taking e writer_new 0 -> waits wc ex w0 ->
  ustate (mkSm srv [] (UAsk src w0) [w] zs) (4 * n + (if ready srv then 0 else 1) + 2 * N.of_nat (length zs) + 5).
Proof.
  intros HZs I0 V TK WT. pose proof (n_pos P HP). exists (mkWin 0 0 0), (new_reader kd (p_bs P) (op_window (p_opts P))), writer_new, 0, [], [], zs, 0.
  cbn [sm_srv sm_kept sm_up sm_prog sm_down]. split.
  - split; [exact I0|]. split; [reflexivity|]. split; [apply (q_init P HP)|]. left. split; [eauto|]. cbn [w_written writer_new].
    split; [lia|]. split; [cbn [map]; rewrite app_nil_r; reflexivity|exact HZs].
  - left. split.
    + exists w0. cbn [w_written writer_new]. repeat split; try reflexivity; try lia; apply WT.
    + unfold uweight. cbn [hi conf w_written writer_new]. destruct (N.eqb_spec 0 n); destruct (ready srv); lia.
Qed.
Hypothesis CE : forall t, ck t <-> t = t0.
Lemma u_done W0 mu0 : ustate W0 mu0 -> exists kk b W, rounds W0 kk b W /\ sent_ok W.
Proof.
  intros H0. assert (TE : forall t, T t -> t = t0) by (intros t [H|H]; [apply CE; exact H|exact H]).
  refine (run_ends turn view _ _ _ c sg a peer ck ustate sent_ok (fun W => sm_up W = []) userver uclient ubusy usent _ _ _ _ H0).
  - intros W mu H. destruct (utime _ _ H) as [X _]. apply (userver_able _ _ t0 H); [apply CE; reflexivity|].
    intros e V. destruct (X e V) as [K (path & wr & WK)]. apply TE in K. unfold prompt. rewrite K, WK. split; [lia|exact Logic.I].
  - intros W mu H. apply (uclient_able _ _ t0 H); [apply CE; reflexivity|]. intros ED. pose proof (proj2 (utime _ _ H) ED) as X. unfold send_patient.
    destruct (sm_prog W); try exact Logic.I; [destruct X|]. apply TE in X. rewrite X. lia.
Qed.
End U.
