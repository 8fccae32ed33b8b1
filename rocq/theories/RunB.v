(** Whole client runs and the servers: what connects them. *)
From Verif Require Import Base BaseProofs PacketModel PacketSpec PacketProofs MapperModel ReaderModel ReaderSpec ConfigModel CryptoModel CryptoSpec ExtModel PathModel ConnModel
  ConnSpec ClientModel HandshakeModel HandshakeProofs AgreeProofs PropAgree ClientWaitModel StreamModel SystemModel ServerModel ServerSpec WorldModel WorldProofs WorldC PropWorld
  FsModel FsSpec FsProofs FsServerModel DiskModel DiskSpec DiskProofs DiskB DiskC PropDisk StoreSpec PropStore RunModel RunSpec RunProofs.
From Verif Require CliModel.

(** ** The request *)
Lemma run_ask_inv g write o wc keys ex : run_ask g write o = Some (wc, keys, ex) ->
  wc_crypto wc = ru_c g /\ wc_txt wc = ru_txt g /\ wc_write wc = write /\ wc_cfg wc = CliModel.cl_cfg (ru_start g) /\
  create_max_buffer (op_bs o) = Ok (wc_buf wc) /\
  create_initial_socket (ru_c g) (CliModel.cl_cfg (ru_start g)) o (ru_eph g) (ru_hs g) = (wc_sock wc, keys, wc_opts wc) /\
  create_extensions (ru_c g) (wc_opts wc) keys = Ok ex.
Proof.
  unfold run_ask. destruct (create_max_buffer (op_bs o)) as [n| |]; try discriminate.
  destruct (create_initial_socket _ _ _ _ _) as [[s ks] o1]. destruct (create_extensions _ _ _) as [e| |] eqn:CE; try discriminate.
  intros [= <- <- <-]. cbn. auto 10.
Qed.
Lemma run_request g write o wc keys ex d nonce : run_ask g write o = Some (wc, keys, ex) ->
  client_send (ru_c g) (wc_sock wc) nonce (asking g write ex) = Ok d ->
  client_request (ru_c g) (CliModel.cl_cfg (ru_start g)) o (ru_eph g) (ru_hs g) nonce write (CliModel.cl_remote (ru_start g)) =
    Ok (d, wc_sock wc, keys, wc_opts wc, ex).
Proof.
  intros RA CS. destruct (run_ask_inv _ _ _ _ _ _ RA) as (_ & _ & _ & _ & E1 & E2 & E3). unfold client_request. rewrite E1, E2, E3.
  unfold asking in CS. rewrite CS. reflexivity.
Qed.

Lemma run_negotiates g write o wc keys ex d cfg env w k : run_ask g write o = Some (wc, keys, ex) ->
  request_of g wc write ex d -> understood g wc cfg d -> agrees g wc keys write ex w k ->
  blen (h_nonce env) = 24 -> (forall p n, h_open env p = Some (Some n) -> n <= U64_MAX) ->
  negotiates (ru_c g) cfg env write d w k.
Proof.
  intros RA (nonce & Hn & CS) (U1 & U2 & U3 & U4) (p & q & sp & A1 & A2 & A3 & ->) E1 E2.
  destruct (run_ask_inv _ _ _ _ _ _ RA) as (_ & _ & _ & W4 & W5 & _).
  exists (CliModel.cl_cfg (ru_start g)), o, (ru_eph g), (ru_hs g), nonce, (CliModel.cl_remote (ru_start g)), (wc_sock wc), keys, (wc_opts wc), ex,
    (takeN (wc_buf wc) w), p, sp, (ru_txt g), q.
  rewrite W4 in A2. repeat (split; [first [eassumption|reflexivity]|]).
  split; [eapply run_request; eassumption|]. split; [exact U2|]. split; [exact U3|]. split; [exact U4|].
  split; [unfold client_receive; rewrite W5; reflexivity|]. do 2 (split; [assumption|]). split; [|auto].
  pose proof (request_datagram _ _ _ _ _ _ _ _ _ _ _ _ _ (run_request _ _ _ _ _ _ _ _ RA CS)) as (_ & _ & EW & _). rewrite <- EW. exact A3.
Qed.

(** The file the server opens is the one the command asked for. *)
Lemma asked_name g write o wc keys ex d cfg eph wr name : crypto_ok (ru_c g) -> run_ask g write o = Some (wc, keys, ex) ->
  request_of g wc write ex d -> understood g wc cfg d ->
  file_request (ru_c g) cfg eph d = Some (wr, name) -> wr = write /\ normalize None (CliModel.cl_remote (ru_start g)) = Some name.
Proof.
  intros HC RA (nonce & Hn & CS) (U1 & U2 & U3 & U4) FR. pose proof (run_request _ _ _ _ _ _ _ _ RA CS) as HR.
  pose proof (request_datagram _ _ _ _ _ _ _ _ _ _ _ _ _ HR) as (LB & _ & _ & _ & _ & _ & CE & KS & KN & RD).
  set (rn := CliModel.cl_remote (ru_start g)) in *.
  assert (RT : from_bytes (to_bytes (req_packet write (mkReq rn ex))) = Ok (req_packet write (mkReq rn ex))).
  { apply round_trip; [|destruct write; discriminate]. pose proof (ex_good _ _ _ _ HC CE). destruct write; split; assumption. }
  unfold file_request in FR. destruct (from_new_connection (ru_c g) cfg d) as [[buf key0] o0] eqn:FN.
  assert (X : buf = to_bytes (req_packet write (mkReq rn ex))).
  { destruct RD as [(-> & EE & SL)|(vk & RV & EF & _ & ES & EI)].
    - assert (C1 : in_clear (ru_c g) cfg (to_bytes (req_packet write (mkReq rn ex)))).
      { apply U3. destruct SL as [?|[E|[E|E]]]; auto; right; rewrite E; discriminate. }
      rewrite (in_clear_new _ _ _ HC C1) in FN. injection FN as <- _ _. reflexivity.
    - destruct (U2 _ RV) as (k & K1 & ->). rewrite (sealed_new _ _ _ _ _ _ _ _ HC Hn K1 EI) in FN. injection FN as <- _ _. reflexivity. }
  rewrite X, RT in FR. 
  assert (Y : forall b, match server_parse (ru_c g) cfg (sc_max_window cfg) eph ex o0 with
    | Ok (_, o, _) => match validate_request_options (sc_max_size cfg) rn (op_size o) with Ok path => Some (b, path) | _ => None end
    | _ => None end = Some (wr, name) -> wr = b /\ normalize None rn = Some name).
  { intros b Z. destruct (server_parse _ _ _ _ _ _) as [[[? op] ?]|?|]; try discriminate.
    unfold validate_request_options in Z. destruct (handle_file_size _ _); try discriminate. unfold validate_file_name in Z.
    destruct (normalize None rn); [|destruct (ensure_size _ _); discriminate]. injection Z as <- <-. auto. }
  destruct write; exact (Y _ FR).
Qed.

(** ** The wait *)
Lemma quiet_turn wc ex w0 sock now : waits wc ex w0 ->
  match wait_turn wc w0 (mkWI sock WvBlock now) with WoWaiting w' => waits wc ex w' | WoDone _ _ | WoRefuse _ => False | _ => True end.
Proof.
  intros (W1 & W2 & W3). unfold wait_turn. cbn [wi_sock wi_ev wi_now]. destruct sock; cbn [negb]; [|exact I].
  destruct (_ <? _); [exact I|]. repeat split; assumption.
Qed.
Lemma wait_init_waits wc ex now : waits wc ex (wait_init wc ex now).
Proof. repeat split. Qed.
Definition still_asks (wc : wcfg) (ex : exts) (f : fs) (p : rprog) : Prop :=
  rp_fs p = f /\ (rp_ph p = RFailed \/ exists w0, rp_ph p = RAsk w0 /\ waits wc ex w0).
Lemma quiet_run g wc keys ex f l : forall p, Forall quiet l -> still_asks wc ex f p -> still_asks wc ex f (receive_run g wc keys p l).
Proof.
  induction l as [|i l IH]; intros p HQ H; [exact H|]. inversion HQ as [|? ? Q1 Q2]; subst. apply IH; [exact Q2|].
  destruct H as [E1 E2]. unfold receive_turn. destruct E2 as [E2|(w0 & E2 & WT)]; rewrite E2; [split; auto|].
  unfold quiet in Q1. rewrite Q1. cbn [wait_ev]. pose proof (quiet_turn wc ex w0 (ri_sock i) (ri_now i) WT) as QT.
  destruct (wait_turn _ _ _) as [w1| | |er| |q pt]; cbn [fst]; try destruct QT; (split; cbn [rp_fs rp_ph]; [exact E1|]); auto.
  right. exists w1. split; [reflexivity|]. first [exact QT | (split; assumption)].
Qed.
Definition still_asks_u (wc : wcfg) (ex : exts) (src : source) (p : uphase) : Prop :=
  p = UFailed \/ exists w0, p = UAsk src w0 /\ waits wc ex w0.
Lemma quiet_run_u g wc keys ex f src l : forall p, Forall squiet l -> still_asks_u wc ex src p -> still_asks_u wc ex src (send_run g wc keys f p l).
Proof.
  induction l as [|i l IH]; intros p HQ H; [exact H|]. inversion HQ as [|? ? Q1 Q2]; subst. apply IH; [exact Q2|].
  destruct H as [->|(w0 & -> & WT)]; [left; reflexivity|]. unfold send_turn.
  unfold squiet in Q1. rewrite Q1. cbn [wait_ev].
  set (sock := match si_sock i with Some true => true | _ => false end).
  pose proof (quiet_turn wc ex w0 sock (si_now i) WT) as QT.
  destruct (wait_turn _ _ _) as [w1| | |er| |q pt]; cbn [fst]; unfold still_asks_u; auto; try destruct QT.
  right. exists w1. split; [reflexivity|]. first [exact QT | (split; assumption)].
Qed.

(** ** The confirmation of the answer changes nothing *)
Section Ack.
Variables (c : crypto) (sg : srvcfg) (fg : fcfg) (ds : N) (S : Type) (sv : server S) (init : S -> Prop) (cut : entry -> bytes -> bytes).
Hypothesis ONE : one_of c sg S sv init cut.
Hypothesis HC : crypto_ok c.
Hypothesis HB : 512 <= sc_max_bs (g_cfg sg).
Hypothesis HW : 1 <= sc_max_window (g_cfg sg).
Variables (st0 st1 : disk S) (a : ServerModel.addr) (wr : bool) (d name w : bytes) (r : opened) (e : entry) (k : cside).
Hypothesis R0 : dkreach sv c sg fg ds init st0.

Lemma answers_begins : answers sv c sg fg ds wr st0 a d name st1 r e w ->
  (forall env, blen (h_nonce env) = 24 -> (forall p n, h_open env p = Some (Some n) -> n <= U64_MAX) -> negotiates c (g_cfg sg) env wr d w k) ->
  begins sv c sg fg ds wr st0 a d name st1 r e k /\ bs_enc (k_opts k) > 0 /\
  (forall nn x, blen nn = 24 -> client_send c (k_sock k) nn (to_bytes (PAck 0)) = Ok x -> entry_dec c e (cut e x) = Some (to_bytes (PAck 0))).
Proof.
  intros (i & f' & q & s1 & o & N1 & N2 & LK & FR & OR & MN & SO & V & E1) NG.
  assert (NEG : negotiates c (g_cfg sg) (with_open (i_henv i) q) wr d w k).
  { apply NG; [exact N1|]. cbn [h_open with_open]. intros _ n. apply N2. }
  split; [exists i, f', q, s1, o, w; auto 10|].
  destruct (one_good _ _ _ _ _ _ ONE) as (Inv & G & HI). pose proof (reach_inv _ _ _ _ _ _ _ _ _ G HI _ R0) as D0.
  destruct (t_accept c sg sv Inv cut G st0 a d w i f' q _ s1 o D0 LK MN SO e V) as (x & SN & EE).
  pose proof (t_whole c sg k _ d w wr NEG) as TW. rewrite TW in SN.
  destruct (negotiates_agree _ _ _ _ _ _ _ _ _ HC NEG SN) as (AG & MB & _).
  destruct (accept_opts _ _ _ _ _ _ _ SN HB HW) as ((A0 & A1) & _). destruct (gd_cut _ _ _ _ _ G x A1) as (L & HL & HCUT).
  split.
  - destruct AG as (B1 & _). unfold bs_enc. rewrite B1. unfold ENCRYPTION_TAG_SIZE, ENCRYPTION_NONCE_SIZE, ENCRYPTION_PADDING_SIZE in *. destruct (op_enc (k_opts k)); lia.
  - intros nn y Hn CS. rewrite EE. rewrite (dec_cut c cut x L HCUT) by reflexivity.
    eapply client_wire; try eassumption; try apply plain_ack. intros _. change (blen (to_bytes (PAck 0))) with 4. unfold MIN_BUFFER_SIZE. lia.
Qed.
End Ack.
