(** Downloads while nothing goes wrong.  Used by PropSmooth. *)
From Verif Require Import Base BaseProofs PacketModel PacketSpec PacketProofs MapperModel MapperProofs ReaderModel ReaderSpec BlockLemmas ReaderProofs
  WriterSpec WriterProofs ConfigModel CryptoModel CryptoSpec CryptoProofs PropCrypto ExtModel PathModel ConnModel ClientModel ConnSpec
  HandshakeModel AgreeProofs PropAgree ClientWaitModel StreamModel SystemModel CoreProofs LiveModel LiveProofs
  ServerModel ServerSpec ServerProofs WorldModel WorldProofs WorldC FsModel FsServerModel DiskModel RunModel RunSpec RunProofs
  SmoothA SmoothB SmoothModel SmoothSpec SmoothC.
From Verif Require CliModel.

(** ** Sealing *)
Lemma short_data b d : short (to_bytes (PData b d)).
Proof. unfold short. rewrite type_of_packet. discriminate. Qed.
Lemma short_ack b : short (to_bytes (PAck b)).
Proof. intros _. change (blen (to_bytes (PAck b))) with 4. unfold MIN_BUFFER_SIZE. lia. Qed.

Section Seal.
Variables (c : crypto) (oq : options) (cs : csock) (x : est) (L : N).
Hypothesis HC : crypto_ok c.
Hypothesis HA : agree oq cs x.
Hypothesis HB : 512 <= op_bs (es_opts x).
Hypothesis HL : op_bs (es_opts x) + 4 <= L /\ 516 <= L.
Lemma server_sealed1 e p ws : c_opts (en_conn e) = es_opts x -> en_key e = es_key x -> plain_ok (es_opts x) p -> short p ->
  server_seals c e (map OPlain [p]) ws -> exists y, ws = [y] /\ client_dec c cs (op_bs oq) y = Some p.
Proof.
  intros E1 E2 HP HS H. unfold server_seals in H. cbn [map] in H. inversion H as [|? y ? l (p' & n & EP & Hn & HE) HN]; subst. inversion HN; subst.
  injection EP as <-. rewrite E1, E2 in HE. exists y. split; [reflexivity|]. eapply server_wire; eassumption.
Qed.
Lemma client_sealed1 peer p ws : plain_ok (es_opts x) p -> short p ->
  client_seals c peer (sends cs peer [p]) ws -> exists y, ws = [y] /\ srv_dec c x L y = Some p.
Proof.
  intros HP HS H. unfold client_seals in H. rewrite filter_peer in H. cbn [sends map] in H. inversion H as [|? y ? l (n & Hn & HE) HN]; subst. inversion HN; subst.
  exists y. split; [reflexivity|]. eapply client_wire; eassumption.
Qed.
Lemma bs_enc_pos : 1 <= bs_enc (es_opts x).
Proof. unfold bs_enc, ENCRYPTION_TAG_SIZE, ENCRYPTION_NONCE_SIZE, ENCRYPTION_PADDING_SIZE. destruct (op_enc (es_opts x)); lia. Qed.
Lemma packet_seals key n p : p <> [] -> blen p <= bs_enc (es_opts x) + 4 -> exists y, enc_packet c key n p (bs_enc (es_opts x) + DATA_PACKET_HEADER_SIZE) = Ok y.
Proof.
  intros NE HS. unfold enc_packet, apply_bit_padding. destruct (rev p) as [|l r] eqn:ER.
  { apply (f_equal (@rev N)) in ER. rewrite rev_involutive in ER. cbn in ER. congruence. }
  unfold DATA_PACKET_HEADER_SIZE. destruct (N.ltb_spec (bs_enc (es_opts x) + 4) (blen p)); [lia|]. cbn [bindr]. unfold encrypt.
  match goal with |- context [if ?b then _ else _] => destruct b eqn:EB end; [apply N.ltb_lt in EB; lia|]. destruct (c_seal _ _ _ _). eauto.
Qed.
Lemma data_seals key n p : 4 <= blen p -> exists y, enc_data c key n p = Ok y.
Proof.
  intros HS. unfold enc_data, encrypt, DATA_PACKET_HEADER_SIZE. destruct (N.ltb_spec (blen p) 4); [lia|]. destruct (c_seal _ _ _ _). eauto.
Qed.
Lemma server_can p : 4 <= blen p <= bs_enc (es_opts x) + 4 -> forall e, c_opts (en_conn e) = es_opts x -> en_key e = es_key x ->
  exists ws, server_seals c e (map OPlain [p]) ws.
Proof.
  intros [H1 H2] e E1 E2. enough (exists y, server_encrypt c (es_opts x) (es_key x) (has_type T_DATA p) (repeat 0 24) p = Ok y) as [y Y].
  { exists [y]. constructor; [|constructor]. exists p, (repeat 0 24). rewrite E1, E2. auto. }
  assert (NE : p <> []) by (intros ->; cbn in H1; lia). unfold server_encrypt.
  destruct (op_enc (es_opts x)), (es_key x) as [key|]; eauto using packet_seals. destruct (has_type T_DATA p); eauto using data_seals.
Qed.
Lemma client_can p peer : 4 <= blen p <= bs_enc (es_opts x) + 4 -> has_type T_READ p || has_type T_WRITE p = false ->
  exists ws, client_seals c peer (sends cs peer [p]) ws.
Proof.
  intros [H1 H2] HT. enough (exists y, client_send c cs (repeat 0 24) p = Ok y) as [y Y].
  { exists [y]. unfold client_seals. rewrite filter_peer. constructor; [|constructor]. exists (repeat 0 24). auto. }
  assert (NE : p <> []) by (intros ->; cbn in H1; lia). unfold client_send. rewrite HT.
  replace (cs_bs cs) with (bs_enc (es_opts x)) by (symmetry; apply HA).
  destruct (cs_level cs), (cs_key cs) as [key|]; eauto using packet_seals. destruct (has_type T_DATA p); eauto using data_seals.
Qed.
End Seal.

(** ** The wait *)
Lemma wait_done g wc keys ex write w k peer w0 now :
  wc_crypto wc = ru_c g -> wc_write wc = write -> wc_txt wc = ru_txt g ->
  same_ip peer (CliModel.cl_endpoint (ru_start g)) = true ->
  same_addr (CliModel.cl_endpoint (ru_start g)) peer = true \/ cc_port_change (wc_cfg wc) = true -> agrees g wc keys write ex w k ->
  waits wc ex w0 ->
  exists q pt, wait_turn wc w0 (mkWI true (wait_ev g (RvFrom peer w)) now) = WoDone q pt /\ (q_ack q = true \/ write = true) /\ q_data q = None /\ agreed g wc keys q = k.
Proof.
  intros E1 E2 E3 IP PC (p & q & sp & CR & QS & QA & ->) (W1 & W2 & W3). unfold wait_turn. cbn [wi_sock wi_ev wi_now negb wait_ev].
  rewrite E1, W3, CR, IP, E2, E3, W1, W2. exists q, (same_addr peer (CliModel.cl_endpoint (ru_start g))).
  assert (X : query_step (ru_c g) (wc_cfg wc) write true (wc_opts wc) ex (same_addr peer (CliModel.cl_endpoint (ru_start g))) (ru_txt g) p = QDone q).
  { rewrite <- QS. destruct PC as [PC|PC]; [|unfold query_step; rewrite PC, !Bool.andb_false_r; reflexivity].
    apply same_addr_eq in PC as <-. rewrite same_addr_refl. destruct sp; [reflexivity|]. unfold query_step in QS |- *. cbn [negb andb] in QS |- *.
    destruct (cc_port_change (wc_cfg wc)); [reflexivity|discriminate QS]. }
  assert (QA' : q_ack q = true \/ write = true) by tauto. rewrite X. split; [reflexivity|]. split; [exact QA'|]. split; [eapply query_ack_data; eassumption|reflexivity].
Qed.

(** The first words of the client. *)
Section Ask.
Variables (g : run_cfg) (wc : wcfg) (write : bool) (ex : exts) (ign : bytes -> Prop) (peer : CliModel.addr) (s : csock).
Notation c := (ru_c g).
Hypothesis PP : answers_from g wc write ex ign peer.
Lemma port_fits : same_addr (CliModel.cl_endpoint (ru_start g)) peer = true \/ cc_port_change (wc_cfg wc) = true.
Proof. exact (proj2 PP). Qed.
Lemma ask_seals (plain : list bytes) ws : client_seals c peer (sends (wc_sock wc) (CliModel.cl_endpoint (ru_start g)) [asking g write ex] ++ sends s peer plain) ws ->
  exists pre ws', ws = pre ++ ws' /\ Forall ign pre /\ (length pre <= 1)%nat /\ client_seals c peer (sends s peer plain) ws'.
Proof.
  unfold client_seals. rewrite filter_app. cbn [sends map filter sn_to app]. intros H. destruct (proj1 PP) as (_ & IG). destruct (same_addr _ peer) eqn:P2 in H; cbn [app] in H.
  2: { exists [], ws. cbn. auto. }
  - specialize (IG P2). inversion H as [|? y ? l (nn & Hn & CS) H']; subst. exists [y], l. split; [reflexivity|]. split; [|split; [cbn; lia|exact H']].
    constructor; [|constructor]. apply IG. exists nn. split; [exact Hn|]. exact CS.
Qed.
Hypothesis RQ : exists d, request_of g wc write ex d.
Lemma ask_can (plain : list bytes) : (exists ws, client_seals c peer (sends s peer plain) ws) ->
  exists ws, client_seals c peer (sends (wc_sock wc) (CliModel.cl_endpoint (ru_start g)) [asking g write ex] ++ sends s peer plain) ws.
Proof.
  intros [ws H]. unfold client_seals in *. rewrite filter_app. cbn [sends map filter sn_to app] in H |- *.
  destruct (same_addr (CliModel.cl_endpoint (ru_start g)) peer); cbn [app]; [|exists ws; exact H].
  destruct RQ as (d & nn & Hn & CS). exists (d :: ws). constructor; [|exact H]. exists nn. auto.
Qed.
End Ask.
Lemma ignored_nothing c sg o key e d v : c_opts (en_conn e) = o -> en_key e = key -> ignored c o key d ->
  handle_client c (g_max_size sg) e d v = Some (e, []).
Proof.
  intros E1 E2 H. unfold ignored in H. rewrite <- E1, <- E2 in H. fold (entry_decrypt c e d) in H. unfold handle_client.
  destruct e as [cn ky wk]. cbn [en_work en_key en_conn] in *.
  destruct (entry_decrypt c _ d) as [p| |] eqn:ED; [| |destruct H]; unfold handle_read, handle_write, entry_dec; rewrite ED; destruct wk; try reflexivity;
    destruct (from_bytes p) as [[]| |]; reflexivity || destruct H.
Qed.

(** ** The transfer *)
Section D.
Context {S : Type} (turn : N -> option bytes -> S -> bool -> S -> outs -> Prop) (view : S -> ServerModel.addr -> option entry)
  (ready : S -> bool) (Inv : S -> Prop).
Variables (g : run_cfg) (sg : srvcfg) (a : ServerModel.addr) (cut : entry -> bytes -> bytes).
Notation c := (ru_c g).
Hypothesis RG : regular turn view ready Inv c sg a cut.
Variables (x : est) (L : N) (F : bytes) (kd : kind) (k : cside).
Hypothesis HC : crypto_ok c.
Hypothesis HA : agree (k_opts k) (k_sock k) x.
Hypothesis HB : 512 <= op_bs (es_opts x).
Hypothesis HL : op_bs (es_opts x) + 4 <= L /\ 516 <= L.
Hypothesis Hcut : forall e d, c_opts (en_conn e) = es_opts x -> cut e d = takeN L d.
Notation P := (dP c sg k x L F kd).
Hypothesis HP : valid P.
Notation n := (p_n P).
Notation Q := (QC P (p_decc P) (p_decs P)).
Notation pre := (prefix_size F (p_bs P)).
(** The client. *)
Variables (wc : wcfg) (keys : option client_keys) (ex : exts) (w : bytes) (peer : CliModel.addr) (f0 : fs).
Hypothesis W1 : wc_crypto wc = ru_c g.
Hypothesis W2 : wc_write wc = false.
Hypothesis W3 : wc_txt wc = ru_txt g.
Hypothesis PP : answers_from g wc false ex (fun d => ignored c (es_opts x) (es_key x) (takeN L d)) peer.
Hypothesis RQ : exists d, request_of g wc false ex d.
Hypothesis AG : agrees g wc keys false ex w k.
(** What the local disk holds once [j] blocks are stored, and the state of the decryption (with a file key). *)
Variables (keptAt : N -> bytes) (strAt : N -> option swritr).
Hypothesis K0 : keptAt 0 = [] /\ strAt 0 = option_map sw_new (CliModel.cl_file_key (ru_start g)).
Hypothesis KS : forall j f lid, j < n -> f_data f lid = keptAt j ->
  sink_write c f (mkSink lid (blen (keptAt j)) (strAt j)) (block_of F (p_bs P) (j + 1)) false None =
    (set_data f lid (keptAt (j + 1)), mkSink lid (blen (keptAt (j + 1))) (strAt (j + 1)), Ok (blen (block_of F (p_bs P) (j + 1)))).
Notation path := (CliModel.cl_local (ru_start g)).
Hypothesis CW : exists f1 lid, create_writer f0 path = (f1, Some lid).
Hypothesis HM : blen F <= k_max k.
Hypothesis HZ : match op_size (k_opts k) with Some s => s <= k_max k | None => True end.
(** Times. *)
Notation leaves := (fun d => ignored c (es_opts x) (es_key x) (takeN L d)).
(** Datagrams without effect: acknowledgements of the server's answer, requests. *)
Definition stray (y : bytes) : Prop := p_decs P y = Some (ack_plain 0) \/ leaves y.
Variables (ck : N -> Prop) (t0 : N).
Definition T (t : N) : Prop := ck t \/ t = t0.

Lemma decode_block i : has_type T_DATA (block_plain P i) = true /\ plain_ok (es_opts x) (block_plain P i) /\ short (block_plain P i) /\
  4 <= blen (block_plain P i) <= bs_enc (es_opts x) + 4.
Proof.
  unfold block_plain. split; [apply type_of_packet|]. pose proof (block_le F (p_bs P) i) as BL. split; [apply plain_data; exact BL|].
  split; [apply short_data|]. rewrite data_len. change (p_file P) with F. change (p_bs P) with (bs_enc (es_opts x)) in *. lia.
Qed.
Lemma decode_ackp i : plain_ok (es_opts x) (ack_plain i) /\ short (ack_plain i) /\ 4 <= blen (ack_plain i) <= bs_enc (es_opts x) + 4 /\
  has_type T_READ (ack_plain i) || has_type T_WRITE (ack_plain i) = false.
Proof.
  unfold ack_plain. split; [apply plain_ack|]. split; [apply short_ack|]. change (blen (to_bytes (PAck (i mod 65536)))) with 4.
  split; [lia|]. rewrite !type_of_packet. reflexivity.
Qed.

(** The connection. *)
Definition conn_ok (e : entry) (r : reader) : Prop :=
  en_work e = WRead F r /\ en_key e = es_key x /\ c_opts (en_conn e) = es_opts x /\ c_invalid (en_conn e) = None /\
  c_finished (en_conn e) = false /\ T (c_sent (en_conn e)) /\ T (c_updated (en_conn e)).
Definition core (srv : S) (up : list bytes) (s : win) (wr : writer) (la : N) (data acks : list dgram) (zs : list bytes) (ss : N) : Prop :=
  Inv srv /\ (exists e r, view srv a = Some e /\ conn_ok e r /\ Q s r wr la data acks ss) /\
  w_written wr < n /\ up = zs ++ map fst acks /\ Forall stray zs /\ (zs = [] \/ ss = 0).
Definition weight (srv : S) (s : win) (m : N) (zs : list bytes) : N :=
  (n - hi s) + (n - m) + 2 * (n - conf s) + (if ready srv then 0 else 1) + 2 * N.of_nat (length zs).

(** The command. *)
Definition asks (p : rprog) (down : list bytes) (wr : writer) (la : N) (data acks : list dgram) (ss : N) : Prop :=
  exists w0, p = mkRP f0 (RAsk w0) /\ waits wc ex w0 /\ wr = writer_new /\ la = 0 /\ acks = [] /\ ss = 0 /\ down = w :: map fst data.
Definition gets (p : rprog) (down : list bytes) (wr : writer) (la : N) (data acks : list dgram) : Prop :=
  exists f key lid cl, p = mkRP f (RGet k peer key (mkSink lid (blen (keptAt (w_written wr))) (strAt (w_written wr))) cl) /\
    cr_w cl = wr /\ cr_ack cl = la /\ cr_total cl = pre (w_written wr) /\ T (cr_time cl) /\
    local_file f path = Some lid /\ f_data f lid = keptAt (w_written wr) /\ down = map fst data.
Definition has_file (p : rprog) : Prop :=
  exists total key lid, rp_ph p = RDone total key /\ total = blen F /\ local_file (rp_fs p) path = Some lid /\ f_data (rp_fs p) lid = keptAt n.
Definition dstate (W : smooth S rprog) (mu : N) : Prop :=
  exists s wr la data acks zs ss, core (sm_srv W) (sm_up W) s wr la data acks zs ss /\
    (asks (sm_prog W) (sm_down W) wr la data acks ss /\ mu = weight (sm_srv W) s (w_written wr) zs + 5 \/
     gets (sm_prog W) (sm_down W) wr la data acks /\ mu = weight (sm_srv W) s (w_written wr) zs).

Lemma read_safe e r d v cn r' : conn_ok e r -> handle_read (p_decs P) (en_conn e) r d (e_now v) = (cn, r', Some tt) ->
  p_decs P d <> None -> handle_client c (g_max_size sg) e (cut e d) v = Some (mkE cn (en_key e) (WRead F r'), []).
Proof.
  intros (K1 & K2 & K3 & _) E HD. unfold handle_client. rewrite K1.
  assert (E' : handle_read (entry_dec c e) (en_conn e) r (cut e d) (e_now v) = (cn, r', Some tt)).
  { rewrite <- E. unfold handle_read. rewrite (dec_cut c cut x L Hcut e d K3 K2). reflexivity. }
  rewrite E'. pose proof (dec_cut c cut x L Hcut e d K3 K2) as DC. unfold entry_dec in DC.
  destruct (entry_decrypt c e (cut e d)); [reflexivity|reflexivity|]. exfalso. apply HD. symmetry. exact DC.
Qed.

(** What a connection does before it looks at its socket. *)
Lemma conn_sends e r buflen v e1 p1 ok s wr la data acks ss t : conn_ok e r -> Q s r wr la data acks ss -> fine t v -> ck t ->
  retry_due (en_conn e) t = false -> send_client buflen e v = (e1, p1, ok) ->
  exists r1, conn_ok e1 r1 /\ (p1 = [] /\ Q s r1 wr la data acks ss /\ (acks = [] -> data <> []) \/
    p1 = [block_plain P (hi s + 1)] /\ hi s < n /\
    forall ws, server_seals c e (map OPlain p1) ws -> exists y s1, ws = [fst y] /\ conf s1 = conf s /\ hi s1 = hi s + 1 /\ Q s1 r1 wr la (data ++ [y]) acks ss).
Proof.
  intros (K1 & K2 & K3 & K4 & K5 & K6 & K7) HQ (F1 & F2 & F3 & F4) CK RD E. unfold send_client in E. rewrite K1, F1, F2, F4 in E.
  destruct (send_data_block F (en_conn e) r buflen t false true (e_txt v)) as [[[c' r'] plain] ok'] eqn:ES. injection E as <- <- <-.
  destruct (d_send P HP s (en_conn e) r wr la data acks ss buflen t (e_txt v) c' r' plain ok' HQ K3 RD ES) as [(-> & -> & Q' & X)|(-> & -> & HI & X)].
  - exists r'. split; [repeat split; assumption|]. left. auto.
  - exists r'. split.
    { unfold conn_ok. cbn [en_work en_key en_conn c_opts c_invalid c_finished c_sent c_updated set_sent]. repeat split; try assumption. left. exact CK. }
    right. split; [reflexivity|]. split; [exact HI|]. intros ws HW.
    destruct (decode_block (hi s + 1)) as (_ & B1 & B2 & _).
    destruct (server_sealed1 c (k_opts k) (k_sock k) x L HC HA HB HL e _ ws K3 K2 B1 B2 HW) as (y & -> & D).
    destruct (X y D) as (s' & S1 & S2 & Q'). exists (y, Some (hi s + 1)), s'. auto.
Qed.

(** What it does with a datagram. *)
Lemma conn_reads e r d v t s wr la data acks zs ss : conn_ok e r -> Q s r wr la data acks ss -> fine t v -> ck t -> w_written wr < n ->
  hd_error (zs ++ map fst acks) = Some d -> Forall stray zs -> (zs = [] \/ ss = 0) ->
  exists e' r' s' acks' zs' ss', handle_client c (g_max_size sg) e (cut e d) v = Some (e', []) /\ conn_ok e' r' /\
    Q s' r' wr la data acks' ss' /\ tl (zs ++ map fst acks) = zs' ++ map fst acks' /\ Forall stray zs' /\ (zs' = [] \/ ss' = 0) /\
    hi s' = hi s /\ (acks = [] -> ss = 0 -> acks' = [] /\ ss' = 0) /\ (conf s < conf s' <= n /\ zs' = zs \/ s' = s /\ N.of_nat (length zs) = N.of_nat (length zs') + 1).
Proof.
  intros CO HQ (F1 & _) CK HN HD HZs HSS. pose proof CO as (K1 & K2 & K3 & K4 & K5 & K6 & K7).
  destruct zs as [|z zs]; cbn [app hd_error tl] in *.
  - destruct acks as [|y acks]; [discriminate|]. cbn [map hd_error tl] in *. injection HD as <-.
    destruct (qc_ack P HP _ _ _ _ _ _ _ _ _ _ HQ) as (_ & EA & ED & LW & _ & DE & _).
    destruct (handle_read (p_decs P) (en_conn e) r (fst y) (e_now v)) as [[cn r'] ok] eqn:ER.
    destruct (d_ack P HP _ _ _ _ _ _ _ _ _ _ _ _ _ HQ ltac:(lia) ER) as (-> & E1 & E2 & E3 & E4 & E5 & s' & ss' & S1 & S2 & -> & -> & Q').
    exists (mkE cn (en_key e) (WRead F r')), r', s', [], [], ss'. split; [eapply read_safe; [exact CO|exact ER|congruence]|].
    split. { unfold conn_ok. cbn [en_work en_key en_conn]. rewrite E1, E2, E3, E4. repeat split; try assumption. destruct E5 as [-> | ->]; [|assumption]. left. rewrite F1. exact CK. }
    pose proof (q_bounds P HP _ _ _ _ _ _ _ _ _ Q') as BD.
    split; [exact Q'|]. split; [reflexivity|]. split; [constructor|]. split; [left; reflexivity|]. split; [exact S2|]. split; [discriminate|]. left. split; [lia|reflexivity].
  - injection HD as <-. destruct HSS as [HSS| ->]; [discriminate|]. pose proof (Forall_inv HZs) as D.
    destruct D as [D|D].
    2:{ exists e, r, s, acks, zs, 0. split; [exact (ltac:(rewrite Hcut by exact K3; eapply ignored_nothing; eassumption))|]. split; [exact CO|]. split; [exact HQ|]. split; [reflexivity|].
        split; [exact (Forall_inv_tail HZs)|]. split; [right; reflexivity|]. split; [reflexivity|]. split; [auto|]. right. split; [reflexivity|]. cbn [length]. lia. }
    destruct (handle_read (p_decs P) (en_conn e) r z (e_now v)) as [[cn r'] ok] eqn:ER.
    destruct (d_ack0 P HP _ _ _ _ _ _ _ _ _ _ _ _ HQ D ER) as (-> & -> & Q').
    exists (mkE (en_conn e) (en_key e) (WRead F r')), r', s, acks, zs, 0. split; [eapply read_safe; [exact CO|exact ER|congruence]|].
    split; [repeat split; assumption|]. split; [exact Q'|]. split; [reflexivity|]. split; [exact (Forall_inv_tail HZs)|]. split; [right; reflexivity|].
    split; [reflexivity|]. split; [auto|]. right. split; [reflexivity|]. cbn [length]. lia.
Qed.

(** A turn of the server. *)
Lemma core_turn srv up s wr la data acks zs ss t got srv' o e ws : core srv up s wr la data acks zs ss ->
  ck t -> view srv a = Some e -> prompt sg e t -> turn t (hd_error up) srv got srv' o -> server_seals c e (sent_to a o) ws ->
  exists s' nd acks' zs' ss', core srv' (if got then tl up else up) s' wr la (data ++ nd) acks' zs' ss' /\ ws = map fst nd /\
    (acks = [] -> ss = 0 -> acks' = [] /\ ss' = 0) /\
    (weight srv' s' (w_written wr) zs' + 1 <= weight srv s (w_written wr) zs \/ weight srv' s' (w_written wr) zs' <= weight srv s (w_written wr) zs /\ data ++ nd <> []).
Proof.
  intros (I0 & (e' & r & V & CO & HQ) & HN & EU & HZs & HSS) CK V' [PT PR] TU SE. rewrite V in V'. injection V' as ->.
  pose proof CO as (K1 & K2 & K3 & K4 & K5 & K6 & K7). rewrite K1 in PR.
  destruct (rg_run _ _ _ _ _ _ _ _ RG t _ srv got srv' o e I0 V K4 K5 PT TU) as (I1 & buflen & v & e1 & p1 & ok & FV & SC & H).
  destruct (conn_sends e r buflen v e1 p1 ok s wr la data acks ss t CO HQ FV CK PR SC) as (r1 & CO1 & HS).
  pose proof (q_bounds P HP _ _ _ _ _ _ _ _ _ HQ) as BD.
  (* what was sent before the socket was looked at *)
  assert (SEND : forall ws1, server_seals c e (map OPlain p1) ws1 -> exists s1 nd, ws1 = map fst nd /\ conf s1 = conf s /\ Q s1 r1 wr la (data ++ nd) acks ss /\
    (p1 = [] /\ nd = [] /\ s1 = s /\ (acks = [] -> data <> []) \/ hi s1 = hi s + 1 /\ hi s < n /\ nd <> [])).
  { intros ws1 HW. destruct HS as [(-> & Q' & X)|(E & HI & X)].
    - inversion HW; subst. exists s, []. rewrite app_nil_r. cbn. auto 10.
    - destruct (X ws1 HW) as (y & s1 & -> & S1 & S2 & Q'). exists s1, [y]. split; [reflexivity|]. split; [exact S1|]. split; [exact Q'|]. right. split; [exact S2|]. split; [exact HI|discriminate]. }
  destruct H as [(-> & V1 & SO & RY & RX)|(-> & RY & d & v2 & RX & FV2 & H)].
  - rewrite SO in SE. destruct (SEND ws SE) as (s1 & nd & -> & C1 & Q1 & H1). exists s1, nd, acks, zs, ss.
    split; [|split; [reflexivity|split]].
    + split; [exact I1|]. split; [exists e1, r1; auto|]. auto.
    + auto.
    + unfold weight. rewrite RY, C1. destruct H1 as [(_ & -> & -> & ND)|(HI & LN & NE)].
      * destruct (ready srv); [|left; lia]. right. split; [lia|]. rewrite app_nil_r. apply ND.
        specialize (RX eq_refl). destruct zs, acks; try reflexivity; subst up; discriminate RX.
      * left. destruct (ready srv); lia.
  - (* the seal of the bytes sent does not matter to what is read *)
    assert (AN : exists ws1, server_seals c e (map OPlain p1) ws1).
    { destruct HS as [(-> & _)|(-> & _)]; [exists []; constructor|]. destruct (decode_block (hi s + 1)) as (_ & _ & _ & B). exact (server_can c x L HB HL _ B e K3 K2). }
    rewrite EU in RX.
    assert (RD : forall ws1, server_seals c e (map OPlain p1) ws1 -> exists s1 nd e' r' s' acks' zs' ss', ws1 = map fst nd /\ conf s1 = conf s /\
      handle_client c (g_max_size sg) e1 (cut e1 d) v2 = Some (e', []) /\ conn_ok e' r' /\
      Q s' r' wr la (data ++ nd) acks' ss' /\ tl (zs ++ map fst acks) = zs' ++ map fst acks' /\ Forall stray zs' /\ (zs' = [] \/ ss' = 0) /\
      hi s <= hi s' /\ (acks = [] -> ss = 0 -> acks' = [] /\ ss' = 0) /\ (conf s < conf s' <= n /\ zs' = zs \/ conf s' = conf s /\ N.of_nat (length zs) = N.of_nat (length zs') + 1)).
    { intros ws1 HW. destruct (SEND ws1 HW) as (s1 & nd & -> & C1 & Q1 & H1).
      destruct (conn_reads e1 r1 d v2 t s1 wr la (data ++ nd) acks zs ss CO1 Q1 FV2 CK HN RX HZs HSS) as (e' & r' & s' & acks' & zs' & ss' & X1 & X2 & X3 & X4 & X5 & X6 & X7 & XA & X8).
      exists s1, nd, e', r', s', acks', zs', ss'. do 8 (split; [assumption||reflexivity|]). split.
      { destruct H1 as [(_ & _ & -> & _)|(H1 & _)]; lia. }
      split; [exact XA|].
      rewrite C1 in X8. destruct X8 as [X8|[-> X8]]; [left; exact X8|right; auto]. }
    assert (H' : exists e2 p2, handle_client c (g_max_size sg) e1 (cut e1 d) v2 = Some (e2, p2) /\ view srv' a = Some e2 /\ sent_to a o = map OPlain (p1 ++ p2)).
    { destruct H as [H|H]; [|exact H]. destruct AN as [ws1 AN]. destruct (RD ws1 AN) as (? & ? & ? & ? & ? & ? & ? & ? & _ & _ & X & _). congruence. }
    destruct H' as (e2 & p2 & EH & V2 & SO). destruct AN as [ws1 AN]. pose proof (RD _ AN) as RD0. destruct RD0 as (? & ? & ? & ? & ? & ? & ? & ? & _ & _ & X & _).
    rewrite EH in X. injection X as _ ->. rewrite SO, app_nil_r in SE.
    destruct (RD ws SE) as (s1 & nd & e' & r' & s' & acks' & zs' & ss' & -> & C1 & X1 & X2 & X3 & X4 & X5 & X6 & X7 & XA & X8). rewrite EH in X1. injection X1 as <-.
    pose proof (q_bounds P HP _ _ _ _ _ _ _ _ _ X3) as BD'.
    exists s', nd, acks', zs', ss'. split; [|split; [reflexivity|split]].
    + split; [exact I1|]. split; [exists e2, r'; auto|]. rewrite EU. auto.
    + exact XA.
    + left. unfold weight. rewrite RY. destruct X8 as [(X8 & ->)|(X8 & X9)]; destruct (ready srv'); lia.
Qed.

Notation sstep := (sturn turn view c sg a ck).
Notation cstep := (cturn (receive_act g wc keys peer) (receive_patient wc) c peer ck).

Lemma map_nil (l : list dgram) : l <> [] -> map fst l <> [].
Proof. destruct l; [congruence|discriminate]. Qed.
Lemma dserver W W' mu : dstate W mu -> sstep W W' ->
  exists mu', dstate W' mu' /\ (mu' + 1 <= mu \/ mu' <= mu /\ sm_down W' <> []) /\ (sm_down W <> [] -> sm_down W' <> []).
Proof.
  intros (s & wr & la & data & acks & zs & ss & HCo & HK) ST. destruct ST as [srv kept p down up V|srv kept p down up t e got srv' o ws CK V PR TU SE];
    cbn [sm_srv sm_up sm_prog sm_down] in *.
  - destruct HCo as (_ & (e & r & V' & _) & _). congruence.
  - destruct (core_turn _ _ _ _ _ _ _ _ _ _ _ _ _ _ _ HCo CK V PR TU SE) as (s' & nd & acks' & zs' & ss' & HCo' & -> & HU & HMu).
    assert (DN : forall mu' M, (mu' + 1 <= M \/ mu' <= M /\ data ++ nd <> []) -> forall D, (data ++ nd <> [] -> D <> []) -> mu' + 1 <= M \/ mu' <= M /\ D <> ([] : list bytes)) by tauto.
    destruct HK as [[(w0 & E1 & E2 & E3 & E4 & E5 & E7 & E8) ->]|[(f & key & lid & cl & E1 & E2 & E3 & E4 & E5 & E6 & E7 & E8) ->]].
    + destruct (HU E5 E7) as (-> & ->).
      exists (weight srv' s' (w_written wr) zs' + 5). split; [|split].
      * exists s', wr, la, (data ++ nd), [], zs', 0. cbn [sm_srv sm_up sm_prog sm_down]. split; [exact HCo'|]. left. split; [|reflexivity].
        exists w0. rewrite E8, map_app. subst. repeat split; try assumption; apply E2.
      * rewrite E8. right; split; [|discriminate]. destruct HMu as [|[]]; lia.
      * rewrite E8. discriminate.
    + exists (weight srv' s' (w_written wr) zs'). split; [|split].
      * exists s', wr, la, (data ++ nd), acks', zs', ss'. cbn [sm_srv sm_up sm_prog sm_down]. split; [exact HCo'|]. right. split; [|reflexivity].
        exists f, key, lid, cl. rewrite E8, map_app. repeat split; assumption.
      * apply DN; [exact HMu|]. intros NE. rewrite E8, <- map_app. apply map_nil. exact NE.
      * intros NE H. apply app_eq_nil in H. apply NE. apply H.
Qed.

Lemma dclient W W' mu : dstate W mu -> cstep W W' ->
  has_file (sm_prog W') \/ exists mu', dstate W' mu' /\ mu' <= mu /\ (sm_down W <> [] -> mu' + 1 <= mu).
Proof.
  intros (s & wr & la & data & acks & zs & ss & HCo & HK) ST. destruct ST as [srv kept p down up t p' out ws CK PA AC SE]. cbn [sm_srv sm_up sm_prog sm_down] in *.
  destruct AC as (i & A1 & A2 & A3 & A4 & A5 & AT).
  destruct HK as [[(w0 & E1 & E2 & E3 & E4 & E5 & E7 & E8) ->]|[(f & key & lid & cl & E1 & E2 & E3 & E4 & E5 & E6 & E7 & E8) ->]].
  - right. subst p down wr la acks ss. cbn [hd_error arrival] in A1. unfold receive_turn in AT. cbn [rp_ph rp_fs] in AT. rewrite A1, A2, A5 in AT.
    destruct (wait_done g wc keys ex false w k peer w0 t W1 W2 W3 (proj1 (proj1 PP)) (port_fits _ _ _ _ _ _ PP) AG E2) as (q & pt & EW & [QA|?] & QD & QK); [|discriminate]. rewrite EW, QK in AT.
    unfold receive_accepted in AT. destruct CW as (f1 & lid & CW'). rewrite CW', QD, QA, A2, A5 in AT. destruct K0 as [K1 K2]. rewrite <- K2 in AT. cbn [crecv_new cr_w cr_ack cr_total andb negb when] in AT.
    replace (match op_size (k_opts k) with Some n0 => cl_size_ok n0 (k_max k) | None => true end) with true in AT.
    2:{ symmetry. destruct (op_size (k_opts k)); [|reflexivity]. unfold cl_size_ok. apply Bool.negb_true_iff, N.ltb_ge. exact HZ. }
    injection AT as <- <-. destruct (create_writer_cases _ _ _ _ CW') as (LF & LD & _).
    change (to_bytes (PAck 0)) with (ack_plain 0) in SE.
    rewrite (proj1 (proj2 E2)) in SE. destruct (ask_seals g wc _ ex _ peer (k_sock k) PP [ack_plain 0] _ SE) as (pp & ws' & -> & HPP & LPP & SE'). clear SE.
    destruct (decode_ackp 0) as (B1 & B2 & _).
    destruct (client_sealed1 c (k_opts k) (k_sock k) x L HC HA HB HL peer _ ws' B1 B2 SE') as (y & -> & DY).
    destruct HCo as (I0 & HE & HN & HU & HZs & _). cbn [map] in HU. rewrite app_nil_r in HU. subst up.
    exists (weight srv s (w_written writer_new) (zs ++ pp ++ [y])). split.
    + exists s, writer_new, 0, data, [], (zs ++ pp ++ [y]), 0. cbn [sm_srv sm_up sm_prog sm_down]. split.
      * split; [exact I0|]. split; [exact HE|]. split; [exact HN|]. split; [cbn [map]; rewrite app_nil_r; reflexivity|]. split; [|auto].
        apply Forall_app. split; [exact HZs|]. apply Forall_app. split; [|constructor; [left; exact DY|constructor]].
        eapply Forall_impl; [|exact HPP]. intros z Z. right. exact Z.
      * right. split; [|reflexivity]. exists f1, (auth_key q), lid, (mkCR writer_new 0 0 t). cbn [cr_w cr_ack cr_total cr_time writer_new w_written tl]. rewrite K1.
        split; [reflexivity|]. split; [reflexivity|]. split; [reflexivity|]. split; [symmetry; apply prefix_0|]. split; [left; exact CK|]. auto.
    + unfold weight. rewrite !app_length. cbn [length]. lia.
  - subst p. unfold receive_turn in AT. cbn [rp_ph rp_fs] in AT.
    destruct data as [|d data].
    + right. cbn [map] in E8. subst down. cbn [hd_error arrival] in A1. rewrite A1, A2, A5 in AT. cbn [get_ev get_data store recv_step] in AT.
      specialize (PA eq_refl). cbn [receive_patient rp_ph] in PA.
      replace (k_timeout k <? t - cr_time cl) with false in AT by (symmetry; apply N.ltb_ge; exact PA).
      injection AT as <- <-. cbn [sends map] in SE. unfold client_seals in SE. cbn [filter] in SE. inversion SE; subst ws.
      exists (weight srv s (w_written wr) zs). split; [|split; [lia|congruence]].
      exists s, wr, la, [], acks, zs, ss. cbn [sm_srv sm_up sm_prog sm_down tl]. rewrite app_nil_r. split; [exact HCo|]. right. split; [|reflexivity].
      exists f, key, lid, cl. repeat split; assumption.
    + cbn [map] in E8. subst down. cbn [hd_error arrival] in A1. rewrite A1, A2, A5 in AT. cbn [get_ev] in AT. rewrite same_addr_refl in AT.
      destruct HCo as (I0 & (e & r & V & CO & HQ) & HN & HU & HZs & HSS). subst wr la.
      assert (DE : client_dec c (k_sock k) (op_bs (k_opts k)) (fst d) = Some (block_plain P (w_written (cr_w cl) + 1)) /\
        for_file (cr_w cl) (block_plain P (w_written (cr_w cl) + 1)) = Some (block_of F (p_bs P) (w_written (cr_w cl) + 1))).
      { destruct (q_recv P HP _ _ _ _ _ _ _ _ _ _ HQ) as (_ & _ & _ & DE & wr' & WB & _). split; [exact DE|].
        unfold for_file, block_plain. rewrite decode_data by apply m16. change (p_file P) with F in *. rewrite WB. reflexivity. }
      destruct DE as [DE FF].
      destruct (recv_step (client_dec c (k_sock k) (op_bs (k_opts k))) (k_opts k) (k_max k) (k_timeout k) cl (EvDatagram true (fst d)) t false None true (ri_text i)) as [[cl' plain] stat] eqn:ER.
      destruct (d_recv P HP s r cl d data acks ss (k_opts k) (k_max k) (k_timeout k) t (ri_text i) cl' plain stat HQ E4 HM) as (-> & R1 & R2 & R3 & R4 & R5 & R6 & R7 & R8);
        [exact (proj1 (proj2 HA))|unfold bs_enc; destruct HA as (X1 & _ & X3 & _); rewrite X1, X3; reflexivity|exact ER|].
      set (j := w_written (cr_w cl) + 1) in *.
      cbn [get_data] in AT. rewrite DE, FF in AT. unfold store in AT. rewrite ?A3, ?A4 in AT. unfold j in AT. rewrite (KS _ _ _ HN E7), N.eqb_refl, ER in AT. fold j in AT.
      injection AT as <- <-.
      destruct (N.eq_dec j n) as [EN|EN].
      * left. rewrite (R6 EN). exists (blen F), key, lid. cbn [rp_ph rp_fs sm_prog]. rewrite local_set, data_set, N.eqb_refl.
        do 2 (split; [reflexivity|]). split; [exact E6|]. rewrite EN. reflexivity.
      * right. rewrite (R7 ltac:(lia)).
        assert (GO : forall acks', Q s r (cr_w cl') (cr_ack cl') data acks' ss -> ws = map fst acks' ->
          exists mu', dstate (mkSm srv kept (mkRP (set_data f lid (keptAt j)) (RGet k peer key (mkSink lid (blen (keptAt j)) (strAt j)) cl')) (map fst data) (up ++ ws)) mu' /\
            mu' + 1 <= weight srv s (w_written (cr_w cl)) zs).
        { intros acks' Q' ->. exists (weight srv s j zs). split; [|unfold weight, j in *; destruct (ready srv); lia].
          exists s, (cr_w cl'), (cr_ack cl'), data, acks', zs, ss. cbn [sm_srv sm_up sm_prog sm_down]. rewrite R1. split.
          - split; [exact I0|]. split; [exists e, r; auto|]. split; [rewrite R1; lia|]. split; [rewrite HU; cbn [map]; rewrite app_nil_r; reflexivity|]. auto.
          - right. split; [|reflexivity]. exists (set_data f lid (keptAt j)), key, lid, cl'. rewrite local_set, data_set, N.eqb_refl, R1, R5.
            split; [reflexivity|]. split; [reflexivity|]. split; [reflexivity|]. split; [exact R3|]. split; [left; exact CK|]. auto. }
        cbn [tl].
        enough (exists mu', dstate (mkSm srv kept (mkRP (set_data f lid (keptAt j)) (RGet k peer key (mkSink lid (blen (keptAt j)) (strAt j)) cl')) (map fst data) (up ++ ws)) mu' /\
            mu' + 1 <= weight srv s (w_written (cr_w cl)) zs) as (mu' & G1 & G2) by (exists mu'; split; [exact G1|]; split; [lia|intros; exact G2]).
        destruct R8 as [(-> & _ & Q')|(-> & Q')].
        -- apply (GO [] Q'). unfold client_seals in SE. cbn [sends map filter] in SE. inversion SE. reflexivity.
        -- destruct (decode_ackp j) as (B1 & B2 & _).
           destruct (client_sealed1 c (k_opts k) (k_sock k) x L HC HA HB HL peer _ ws B1 B2 SE) as (y & -> & DY).
           destruct (Q' y DY) as [Q2 _]. apply (GO [(y, Some j)] Q2). reflexivity.
Qed.

Lemma dbusy W mu : dstate W mu -> receive_busy (sm_prog W) = true /\ 1 <= mu.
Proof.
  intros (s & wr & la & data & acks & zs & ss & (_ & _ & HN & _) & [[(w0 & E & _) ->]|[(f & key & lid & cl & E & _) ->]]); rewrite E; (split; [reflexivity|]);
    unfold weight; lia.
Qed.
Lemma dfile (W : smooth S rprog) : has_file (sm_prog W) -> receive_busy (sm_prog W) = false.
Proof. intros (total & key & lid & E & _). unfold receive_busy. rewrite E. reflexivity. Qed.

(** Turns are possible. *)
Lemma server_able W mu t e : dstate W mu -> ck t -> view (sm_srv W) a = Some e -> prompt sg e t -> exists W', sstep W W'.
Proof.
  intros (s & wr & la & data & acks & zs & ss & HCo & _) CK V PR. pose proof HCo as (I0 & (e' & r & V' & CO & HQ) & HN & EU & HZs & HSS).
  rewrite V in V'. injection V' as <-. pose proof CO as (K1 & K2 & K3 & K4 & K5 & _). pose proof PR as [PT PR']. rewrite K1 in PR'.
  assert (RDS : forall buflen v e1 p1 ok, fine t v -> send_client buflen e v = (e1, p1, ok) ->
    (exists ws, server_seals c e (map OPlain p1) ws) /\ forall d v2, fine t v2 -> hd_error (sm_up W) = Some d -> exists e', handle_client c (g_max_size sg) e1 (cut e1 d) v2 = Some (e', [])).
  { intros buflen v e1 p1 ok FV SC.
    destruct (conn_sends e r buflen v e1 p1 ok s wr la data acks ss t CO HQ FV CK PR' SC) as (r1 & CO1 & HS).
    assert (AN : exists ws1, server_seals c e (map OPlain p1) ws1).
    { destruct HS as [(-> & _)|(-> & _)]; [exists []; constructor|]. destruct (decode_block (hi s + 1)) as (_ & _ & _ & B). exact (server_can c x L HB HL _ B e K3 K2). }
    split; [exact AN|]. intros d v2 FV2 HD. rewrite EU in HD.
    assert (Q1 : exists s1 data1, Q s1 r1 wr la data1 acks ss).
    { destruct HS as [(_ & Q1 & _)|(_ & _ & X)]; [eauto|]. destruct AN as [ws AN]. destruct (X ws AN) as (y & s1 & _ & _ & _ & Q1). eauto. }
    destruct Q1 as (s1 & data1 & Q1).
    destruct (conn_reads e1 r1 d v2 t s1 wr la data1 acks zs ss CO1 Q1 FV2 CK HN HD HZs HSS) as (e' & _ & _ & _ & _ & _ & X & _). eauto. }
  destruct (rg_able _ _ _ _ _ _ _ _ RG t (hd_error (sm_up W)) (sm_srv W) e I0 V K4 K5) as (got & srv' & o & TU).
  { intros buflen v e1 p1 ok d v2 FV FV2 SC HD. destruct (proj2 (RDS _ _ _ _ _ FV SC) d v2 FV2 HD) as [e' X]. congruence. }
  enough (exists ws, server_seals c e (sent_to a o) ws) as [ws SE].
  { destruct W as [srv kept p down up]. cbn [sm_srv sm_up] in *. eexists. eapply st_turn; eassumption. }
  destruct (rg_run _ _ _ _ _ _ _ _ RG t _ _ got srv' o e I0 V K4 K5 PT TU) as (I1 & buflen & v & e1 & p1 & ok & FV & SC & H).
  destruct (RDS _ _ _ _ _ FV SC) as [[ws AN] RD]. exists ws.
  destruct H as [(_ & _ & -> & _)|(-> & _ & d & v2 & RX & FV2 & [H|(e2 & p2 & H & _ & ->)])]; [exact AN| |]; destruct (RD d v2 FV2 RX) as [e' X]; rewrite X in H; [discriminate|].
  injection H as _ <-. rewrite app_nil_r. exact AN.
Qed.

Lemma client_able W mu t : dstate W mu -> ck t -> (sm_down W = [] -> receive_patient wc (sm_prog W) t) -> exists W', cstep W W'.
Proof.
  intros (s & wr & la & data & acks & zs & ss & HCo & HK) CK PA.
  set (i := mkRin (arrival peer (hd_error (sm_down W))) t false None true []).
  destruct (receive_turn g wc keys (sm_prog W) i) as [p' out] eqn:AT.
  enough (exists ws, client_seals c peer out ws) as [ws SE].
  { destruct W as [srv kept p down up]. cbn [sm_prog sm_down] in *. eexists. eapply ct_turn; [exact CK|exact PA| |exact SE]. exists i. repeat split. exact AT. }
  assert (CAN : forall j, exists ws, client_seals c peer (sends (k_sock k) peer [ack_plain j]) ws).
  { intros j. destruct (decode_ackp j) as (_ & _ & B3 & B4). exact (client_can c (k_opts k) (k_sock k) x L HA HB HL _ peer B3 B4). }
  assert (NIL : exists ws, client_seals c peer [] ws) by (exists []; constructor).
  destruct HK as [[(w0 & E1 & E2 & E3 & E4 & E5 & E7 & E8) ->]|[(f & key & lid & cl & E1 & E2 & E3 & E4 & E5 & E6 & E7 & E8) ->]]; rewrite E1 in AT; unfold i in AT; rewrite E8 in AT; clear i.
  - cbn [hd_error arrival] in AT. unfold receive_turn in AT. cbn [rp_ph rp_fs ri_ev ri_now ri_io ri_short ri_sock] in AT.
    destruct (wait_done g wc keys ex false w k peer w0 t W1 W2 W3 (proj1 (proj1 PP)) (port_fits _ _ _ _ _ _ PP) AG E2) as (q & pt & EW & [QA|?] & QD & QK); [|discriminate]. rewrite EW, QK in AT.
    unfold receive_accepted in AT. destruct CW as (f1 & lid & CW'). rewrite CW', QD, QA in AT. cbn [crecv_new cr_w cr_ack cr_total andb negb when ri_sock] in AT.
    replace (match op_size (k_opts k) with Some n0 => cl_size_ok n0 (k_max k) | None => true end) with true in AT.
    2:{ symmetry. destruct (op_size (k_opts k)); [|reflexivity]. unfold cl_size_ok. apply Bool.negb_true_iff, N.ltb_ge. exact HZ. }
    injection AT as <- <-. rewrite (proj1 (proj2 E2)). apply (ask_can g wc false ex peer (k_sock k) RQ [ack_plain 0]). apply CAN.
  - destruct data as [|d data]; cbn [map hd_error arrival] in AT; unfold receive_turn in AT; cbn [rp_ph rp_fs ri_ev ri_now ri_io ri_short ri_sock ri_text get_ev] in AT.
    + cbn [get_data store recv_step] in AT. destruct (_ <? _); injection AT as _ <-; exact NIL.
    + rewrite same_addr_refl in AT. destruct HCo as (I0 & (e & r & V & CO & HQ) & HN & _). subst wr la.
      destruct (q_recv P HP _ _ _ _ _ _ _ _ _ _ HQ) as (_ & _ & _ & DE & wr' & WB & _). change (p_decc P (fst d)) with (client_dec c (k_sock k) (op_bs (k_opts k)) (fst d)) in DE.
      cbn [get_data] in AT. rewrite DE in AT. unfold for_file in AT. rewrite decode_data in AT by apply m16. change (p_file P) with F in *. rewrite WB in AT. cbn [snd] in AT.
      unfold store in AT. cbn [ri_io ri_short] in AT. change (p_n P) with n in HN. rewrite (KS _ _ _ HN E7), N.eqb_refl in AT.
      destruct (recv_step _ _ _ _ _ _ _ _ _ _ _) as [[cl' plain] stat] eqn:ER. injection AT as _ <-.
      destruct (d_recv P HP s r cl d data acks ss (k_opts k) (k_max k) (k_timeout k) t [] cl' plain stat HQ E4 HM) as (_ & _ & _ & _ & _ & _ & _ & _ & R8);
        [exact (proj1 (proj2 HA))|unfold bs_enc; destruct HA as (X1 & _ & X3 & _); rewrite X1, X3; reflexivity|exact ER|].
      destruct R8 as [(-> & _)|(-> & _)]; [exact NIL|apply CAN].
Qed.
Lemma dview W mu : dstate W mu -> exists e r, view (sm_srv W) a = Some e /\ conn_ok e r.
Proof. intros (s & wr & la & data & acks & zs & ss & (I0 & (e & r & V & CO & HQ) & _) & _). eauto. Qed.
Lemma dtime W mu : dstate W mu -> sm_down W = [] -> match rp_ph (sm_prog W) with RGet k' _ _ _ st => T (cr_time st) | _ => False end.
Proof.
  intros (s & wr & la & data & acks & zs & ss & HCo & [[(w0 & _ & _ & _ & _ & _ & _ & E) ->]|[(f & key & lid & cl & E1 & _ & _ & _ & E5 & _) ->]]) ED; [rewrite E in ED; discriminate|].
  rewrite E1. exact E5.
Qed.

Lemma dserver' W W' mu : dstate W mu -> sstep W W' -> exists mu', dstate W' mu' /\ (mu' + 1 <= mu \/ mu' <= mu /\ sm_down W' <> []).
Proof. intros H1 H2. destruct (dserver _ _ _ H1 H2) as (mu' & X1 & X2 & _). eauto. Qed.
Notation rounds := (turns turn view (receive_act g wc keys peer) (receive_patient wc) receive_busy c sg a peer ck).
Lemma d_run W0 mu0 kk b W : dstate W0 mu0 -> rounds W0 kk b W -> kk <= mu0 /\
  (has_file (sm_prog W) \/
   receive_busy (sm_prog W) = true /\ (exists e, view (sm_srv W) a = Some e /\ forall t, ck t -> prompt sg e t -> exists W', sstep W W') /\
   forall t, ck t -> (sm_down W = [] -> receive_patient wc (sm_prog W) t) -> exists W', cstep W W').
Proof.
  intros H0 R. destruct (run_bound turn view _ _ _ c sg a peer ck dstate (fun W => has_file (sm_prog W)) (fun W => sm_down W <> []) dserver' dclient dbusy dfile _ _ _ _ _ H0 R)
    as [[F1 F2]|(mu & H & K)].
  - split; [exact F2|left; exact F1].
  - split; [destruct K as [|[]]; lia|]. right. split; [exact (proj1 (dbusy _ _ H))|]. split.
    + destruct (dview _ _ H) as (e & r & V & _). exists e. split; [exact V|]. intros t CK PR. exact (server_able _ _ t e H CK V PR).
    + intros t CK PA. exact (client_able _ _ t H CK PA).
Qed.
Lemma d_init srv kept w0 e r zs : Forall stray zs -> Inv srv -> view srv a = Some e -> conn_ok e r -> r = new_reader kd (p_bs P) (op_window (p_opts P)) -> waits wc ex w0 ->
  dstate (mkSm srv kept (mkRP f0 (RAsk w0)) [w] zs) (4 * n + (if ready srv then 0 else 1) + 2 * N.of_nat (length zs) + 5).
Proof.
  intros HZs I0 V CO -> WT. exists (mkWin 0 0 0), writer_new, 0, [], [], zs, 0. cbn [sm_srv sm_up sm_prog sm_down]. split.
  - split; [exact I0|]. split; [exists e; eexists; split; [exact V|]; split; [exact CO|apply q_init; exact HP]|]. pose proof (n_pos P HP). cbn [w_written writer_new].
    split; [lia|]. split; [cbn [map]; rewrite app_nil_r; reflexivity|]. auto.
  - left. split; [|unfold weight; cbn [hi conf w_written writer_new]; lia]. exists w0. repeat split; try reflexivity; apply WT.
Qed.
Hypothesis CE : forall t, ck t <-> t = t0.
Lemma d_done W0 mu0 : dstate W0 mu0 -> exists kk b W, rounds W0 kk b W /\ has_file (sm_prog W).
Proof.
  intros H0. assert (TE : forall t, T t -> t = t0) by (intros t [H|H]; [apply CE; exact H|exact H]).
  refine (run_ends turn view _ _ _ c sg a peer ck dstate (fun W => has_file (sm_prog W)) (fun W => sm_down W <> []) dserver' dclient dbusy dfile _ _ _ _ H0).
  - intros W mu H. destruct (dview _ _ H) as (e & r & V & (K1 & _ & _ & _ & _ & K6 & K7)). apply (server_able _ _ t0 e H); [apply CE; reflexivity|exact V|].
    apply TE in K6, K7. unfold prompt. rewrite K1, K7. split; [lia|]. unfold retry_due. rewrite K6, N.sub_diag. apply N.ltb_ge. lia.
  - intros W mu H. apply (client_able _ _ t0 H); [apply CE; reflexivity|]. intros ED. pose proof (dtime _ _ H ED) as X. unfold receive_patient.
    destruct (rp_ph (sm_prog W)); try exact Logic.I; [destruct X|]. apply TE in X. rewrite X. lia.
Qed.
End D.
