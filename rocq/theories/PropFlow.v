(** When uploads retransmit (C60). *)
From Coq Require Import Reals Lra Floats.SpecFloat Sorting.Sorted.
From Flocq Require Import Core.
From Verif Require Import Base BaseProofs PacketModel MapperModel ReaderModel ReaderSpec ReaderProofs ConfigModel ConnModel ClientModel
  FlowModel FlowSpec F32Proofs FlowProofs PropGiveUp.
Close Scope R_scope.
Open Scope N_scope.

(** ** The invariant is kept *)
Lemma start_rtt_ok j bs r t b : rate_ok j bs r -> rate_ok j bs (start_rtt r t b).
Proof. intros [R1 R2 R3 R4]. unfold start_rtt. cbv zeta. destruct (_ =? 0); constructor; assumption. Qed.
Lemma start_rtt_same r t b : r_est (start_rtt r t b) = r_est r /\ r_allowed (start_rtt r t b) = r_allowed r.
Proof. unfold start_rtt. cbv zeta. destruct (_ =? 0); auto. Qed.
Lemma end_rtt_ok j bs r t b : j <= 33 -> rate_ok j bs r -> (r_for r = b -> t - r_start r <= lim j) -> rate_ok j bs (fst (end_rtt r t b)).
Proof.
  intros HJ [R1 R2 R3 R4] H. unfold end_rtt. cbn [fst]. constructor; cbn [r_est r_allowed r_packets]; try assumption.
  destruct (N.eqb_spec (r_for r) b) as [E|E]; [|exact R1].
  destruct (as_secs_le _ j HJ (H E)) as (a & HA & A). destruct (no_estimate (r_est r)); [eauto|].
  destruct R1 as (e & HE & A2). exact (smooth_le _ _ _ _ j HJ HE A2 HA A).
Qed.
Lemma errors_ok chk j bs r r' : increment_errors chk r = Ok r' -> rate_ok j bs r -> rate_ok j bs r'.
Proof.
  unfold increment_errors. destruct (upto _ _ _) as [e| |]; try discriminate. intros [= <-] [R1 R2 R3 R4]. constructor; assumption.
Qed.
Lemma sent_ok chk j bs r n r' : data_sent chk r n = Ok r' -> rate_ok j bs r -> rate_ok j bs r'.
Proof.
  unfold data_sent. destruct (upto _ _ _) as [e| |]; try discriminate. intros [= <-] [R1 R2 R3 R4]. constructor; assumption.
Qed.
Lemma acked_ok chk j bs r n p r' : acknowledged_data chk r n p = Ok r' -> rate_ok j bs r -> rate_ok j bs r'.
Proof.
  unfold acknowledged_data. destruct (upto chk U32 (r_data r + _)) as [e| |]; try discriminate. cbn [bindp].
  destruct (upto chk U32 (r_packets r + _)) as [q| |] eqn:EP; try discriminate.
  intros [= <-] [R1 R2 R3 R4]. constructor; cbn [r_est r_allowed r_packets]; try assumption.
  apply upto_lt in EP; [assumption|reflexivity].
Qed.
Lemma acked_same chk r n p r' : acknowledged_data chk r n p = Ok r' ->
  r_for r' = r_for r /\ r_start r' = r_start r /\ r_est r' = r_est r /\ r_allowed r' = r_allowed r /\ r_errors r' = r_errors r.
Proof.
  unfold acknowledged_data. destruct (upto chk U32 (r_data r + _)) as [e| |]; try discriminate. cbn [bindp].
  destruct (upto chk U32 (r_packets r + _)) as [q| |]; try discriminate. intros [= <-]. auto 10.
Qed.
Lemma rate_new_ok j bs t : bs <= 16383 -> rate_ok j bs (rate_new t).
Proof.
  intros HB. constructor; cbn [rate_new r_est r_allowed r_packets].
  - exists 0%R. split; [apply fin_zero|]. pose proof (Mj_pos j). lra.
  - unfold U32_MAX. apply N.div_le_upper_bound; lia.
  - reflexivity.
  - reflexivity.
Qed.
Lemma rate_start_ok o t0 t1 j : j <= 33 -> 64 <= fo_bs o <= 16383 -> t1 - t0 <= lim j ->
  exists r, rate_start o t0 t1 = Ok r /\ rate_ok j (fo_bs o) r.
Proof.
  intros HJ HB HT. unfold rate_start.
  pose proof (end_rtt_ok j (fo_bs o) (start_rtt (rate_new t0) t0 1) t1 1 HJ (start_rtt_ok _ _ _ _ _ (rate_new_ok j (fo_bs o) t0 ltac:(lia)))) as E.
  assert (ST : r_start (start_rtt (rate_new t0) t0 1) = t0).
  { unfold start_rtt, rate_new. cbn [r_nofb r_start r_for]. rewrite N.sub_diag. reflexivity. }
  specialize (E ltac:(intros _; rewrite ST; exact HT)).
  destruct (end_rtt (start_rtt (rate_new t0) t0 1) t1 1) as [r rtt] eqn:ER. cbn [fst] in E.
  assert (EA : exists r', acknowledged_data (fo_chk o) r (fo_bs o) 1 = Ok r').
  { unfold end_rtt, start_rtt, rate_new in ER. cbn [r_nofb r_start r_for] in ER. rewrite N.sub_diag in ER. injection ER as <- _. unfold acknowledged_data, upto. cbn [r_data r_packets].
    rewrite (N.mod_small (fo_bs o)) by (unfold U32; lia).
    rewrite (proj2 (N.ltb_lt _ _)) by (unfold U32; lia). cbn [bindp].
    rewrite (proj2 (N.ltb_lt _ _)) by (unfold U32; lia). cbn [bindp]. eauto. }
  destruct EA as (r' & EA). rewrite EA. cbn [bindp].
  destruct (calculate_ok (fo_chk o) r' (fo_bs o) (fo_window o) (fo_retry o) (match rtt with Some d => d | None => 1000000 end) j HJ HB
              (acked_ok _ _ _ _ _ _ _ EA E)) as (r2 & -> & OK & _). eauto.
Qed.

Lemma loop_retry_ok o st t j : j <= 33 -> 64 <= fo_bs o <= 16383 -> rate_ok j (fo_bs o) (sl_rate st) ->
  exists r stats ti retry, loop_retry o st t = Ok (r, stats, ti, retry) /\ rate_ok j (fo_bs o) r /\
    retry = (ti <? t - sl_last_sent st) /\ timeout_interval r (fo_retry o) (fo_bs o) = Ok ti /\
    (if FLOW_PERIOD <? t - sl_stats st
     then stats = t /\ r_errors r = 0 /\ (r_errors (sl_rate st) = 0 -> 2 * fo_bs o <= r_allowed r)
     else stats = sl_stats st /\ r = sl_rate st).
Proof.
  intros HJ HB RO. unfold loop_retry. cbv zeta.
  assert (G : exists r, (if FLOW_PERIOD <? t - sl_stats st then calculate (fo_chk o) (sl_rate st) (fo_bs o) (fo_window o) (fo_retry o) (t - sl_stats st) else Ok (sl_rate st)) = Ok r /\
     rate_ok j (fo_bs o) r /\ (if FLOW_PERIOD <? t - sl_stats st then r_errors r = 0 /\ (r_errors (sl_rate st) = 0 -> 2 * fo_bs o <= r_allowed r) else r = sl_rate st)).
  { destruct (FLOW_PERIOD <? t - sl_stats st).
    - destruct (calculate_ok (fo_chk o) (sl_rate st) (fo_bs o) (fo_window o) (fo_retry o) (t - sl_stats st) j HJ HB RO) as (r & E & A & B & C). eauto 10.
    - eauto. }
  destruct G as (r & -> & RO' & C). cbn [bindp].
  assert (Q1 : 1 <= fo_bs o / 64) by (apply N.div_le_lower_bound; lia).
  destruct RO' as [R1 R2 R3 R4].
  destruct (interval_le r (fo_retry o) (fo_bs o) j (2 * fo_bs o) HJ R1) as (ti & E & _); [lia|unfold U32 in *; lia|lia|nia|].
  rewrite E. cbn [bindp]. do 4 eexists. split; [reflexivity|]. split; [constructor; assumption|]. do 2 (split; [auto|]).
  destruct (_ <? _); [destruct C; auto|auto].
Qed.

(** ** The loop is the sender of the transfer theorems, with a definite time to retry *)
Theorem loop_send_is_send : forall file o st buflen io sock t t' st' plain stat,
  loop_send file o st buflen io sock t t' = Ok (st', plain, stat) ->
  exists r stats ti retry, loop_retry o st t = Ok (r, stats, ti, retry) /\
    sender_send file (sl_cs st) buflen retry io sock = (sl_cs st', plain, stat).
Proof.
  intros file o st buflen io sock t t' st' plain stat H. unfold loop_send in H.
  destruct (loop_retry o st t) as [[[[r stats] ti] retry]| |]; try discriminate. exists r, stats, ti, retry. split; [reflexivity|].
  cbn [bindp] in H. unfold sender_send. destruct (reader_next _ _ _ _ _) as [rd res].
  destruct res as [[b|]|[|]|]; try (injection H as <- <- <-; reflexivity).
  destruct (map_index _ _) as [index map]. destruct (if _ =? _ then _ else _) as [r2| |]; try discriminate. cbn [bindp] in H.
  destruct sock as [[|]|]; try (injection H as <- <- <-; reflexivity).
  destruct (data_sent _ _ _) as [r3| |]; try discriminate. cbn [bindp] in H.
  destruct (_ && _); [discriminate|]. injection H as <- <- <-. reflexivity.
Qed.
Theorem loop_recv_is_recv : forall dec o st e t st' stat,
  loop_recv dec o st e t = Ok (st', stat) -> sender_recv dec (fo_timeout o) (sl_cs st) e t = (sl_cs st', stat).
Proof.
  intros dec o st e t st' stat H. unfold loop_recv in H.
  destruct (sender_recv dec (fo_timeout o) (sl_cs st) e t) as [cs s0]. cbv zeta in H.
  destruct e as [[|] wire| |]; try (injection H as <- <-; reflexivity).
  destruct (dec wire) as [p|]; [|injection H as <- <-; reflexivity].
  destruct (from_bytes p) as [[?|?|?|b|?|?]|?|]; try (injection H as <- <-; reflexivity).
  destruct (snd (reader_free _ _)) as [n|]; [|injection H as <- <-; reflexivity].
  destruct (map_index _ _) as [i mp]. destruct (acknowledged_data _ _ _ _) as [r| |]; try discriminate. cbn [bindp] in H.
  injection H as <- <-. reflexivity.
Qed.

Lemma loop_send_rate file o st buflen io sock t t' st' plain stat j r stats ti retry :
  loop_retry o st t = Ok (r, stats, ti, retry) -> rate_ok j (fo_bs o) r ->
  loop_send file o st buflen io sock t t' = Ok (st', plain, stat) ->
  rate_ok j (fo_bs o) (sl_rate st') /\ sl_stats st' = stats /\
  r_est (sl_rate st') = r_est r /\ r_allowed (sl_rate st') = r_allowed r /\
  (sock = Some true -> plain = [] -> sl_rate st' = r /\ sl_last_sent st' = sl_last_sent st).
Proof.
  intros LR RO H. unfold loop_send in H. rewrite LR in H. cbn [bindp] in H.
  destruct (reader_next _ _ _ _ _) as [rd res].
  destruct res as [[b|]|[|]|]; try (injection H as <- <- <-; cbn; auto 10).
  destruct (map_index _ _) as [index map].
  destruct (if _ =? _ then _ else _) as [r2| |] eqn:E2; try discriminate. cbn [bindp] in H.
  assert (RO2 : rate_ok j (fo_bs o) r2 /\ r_est r2 = r_est r /\ r_allowed r2 = r_allowed r).
  { destruct (_ =? index) in E2; [|injection E2 as <-; auto].
    destruct (if o_retry b then _ else _) as [r1| |] eqn:E1; try discriminate. cbn [bindp] in E2. injection E2 as <-.
    destruct (start_rtt_same r1 t (o_block b)) as [-> ->]. 
    destruct (o_retry b); [|injection E1 as <-; split; [apply start_rtt_ok; exact RO|auto]].
    split; [apply start_rtt_ok; eapply errors_ok; eauto|]. unfold increment_errors in E1. destruct (upto _ _ _); try discriminate. injection E1 as <-. auto. }
  destruct RO2 as (RO2 & EE & EA).
  destruct sock as [[|]|]; try (injection H as <- <- <-; cbn [sl_rate sl_stats sl_last_sent]; do 4 (split; [assumption || reflexivity|]); discriminate).
  destruct (data_sent _ _ _) as [r3| |] eqn:DS; try discriminate. cbn [bindp] in H.
  destruct (_ && _); [discriminate|]. injection H as <- <- <-. cbn [sl_rate sl_stats].
  pose proof (sent_ok _ _ _ _ _ _ DS RO2). unfold data_sent in DS. destruct (upto _ _ _); try discriminate. injection DS as <-. cbn [r_est r_allowed].
  do 4 (split; [assumption || reflexivity|]). discriminate.
Qed.
Lemma loop_recv_rate m dec o st e t st' stat j : j <= 33 -> m = lim j -> rate_ok j (fo_bs o) (sl_rate st) -> sample_le m dec st e t ->
  loop_recv dec o st e t = Ok (st', stat) ->
  rate_ok j (fo_bs o) (sl_rate st') /\ sl_stats st' = sl_stats st /\ sl_last_sent st' = sl_last_sent st /\
  r_allowed (sl_rate st') = r_allowed (sl_rate st) /\ r_errors (sl_rate st') = r_errors (sl_rate st).
Proof.
  intros HJ -> RO SA H. unfold loop_recv in H.
  destruct (sender_recv dec (fo_timeout o) (sl_cs st) e t) as [cs s0]. cbv zeta in H.
  destruct e as [[|] wire| |]; try (injection H as <- <-; cbn; auto 10).
  destruct (dec wire) as [p|] eqn:DW; [|injection H as <- <-; cbn; auto 10].
  destruct (from_bytes p) as [[?|?|?|b|?|?]|?|] eqn:FB; try (injection H as <- <-; cbn; auto 10).
  destruct (snd (reader_free _ _)) as [n|]; [|injection H as <- <-; cbn; auto 10].
  destruct (map_index _ _) as [i mp]. destruct (acknowledged_data _ _ _ _) as [r| |] eqn:AD; try discriminate. cbn [bindp] in H.
  injection H as <- <-. cbn [sl_rate sl_stats sl_last_sent]. destruct (acked_same _ _ _ _ _ AD) as (E1 & E2 & E3 & E4 & E5).
  split; [|cbn; auto 10]. apply end_rtt_ok; [exact HJ|eapply acked_ok; eauto|]. rewrite E1, E2. intros <-.
  exact (SA wire p eq_refl DW FB).
Qed.

(** ** Invariant of running uploads *)
Section Loop.
Variables (dec : bytes -> option bytes) (file : bytes) (o : flow_opts) (kd : kind) (j : N).
Hypothesis HJ : j <= 33.
Hypothesis HB : 64 <= fo_bs o <= 16383.
Hypothesis HE : 0 < fo_bs_enc o < 65536.
Hypothesis HW : 1 <= fo_window o.

Definition linv (st : sloop) : Prop :=
  rate_ok j (fo_bs o) (sl_rate st) /\
  exists m s, Sim file (fo_bs_enc o) (fo_window o) kd (cs_r (sl_cs st)) m s /\ conf s <> nblocks file (fo_bs_enc o).

Lemma linv_send st buflen io sock t t' st' plain : linv st -> fo_bs_enc o + DATA_PACKET_HEADER_SIZE <= buflen ->
  loop_send file o st buflen io sock t t' = Ok (st', plain, CRun) -> linv st'.
Proof.
  intros [RO (m & s & SI & NF)] HL H.
  destruct (loop_retry_ok o st t j HJ HB RO) as (r & stats & ti & retry & LR & RO' & _).
  split; [exact (proj1 (loop_send_rate _ _ _ _ _ _ _ _ _ _ _ _ _ _ _ _ LR RO' H))|].
  apply loop_send_is_send in H. destruct H as (r2 & s2 & ti2 & retry2 & LR2 & H). rewrite LR in LR2. injection LR2 as <- <- <- <-.
  unfold sender_send in H.
  destruct (sim_next file (fo_bs_enc o) (fo_window o) (buflen - DATA_PACKET_HEADER_SIZE) (proj1 HE) (proj2 HE) ltac:(lia) kd _ m s retry (io_bad io) SI) as [S1 S2].
  assert (EC : cs_r (sl_cs st') = fst (reader_next file (cs_r (sl_cs st)) (buflen - DATA_PACKET_HEADER_SIZE) retry (io_bad io))).
  { destruct (reader_next _ _ _ _ _) as [rd res]. cbn [fst].
    destruct res as [[b|]|[|]|]; [destruct sock as [[|]|]|..]; apply (f_equal (fun x => fst (fst x))) in H; cbn [fst] in H; rewrite <- H; reflexivity. }
  rewrite EC. exists m. eexists. split; [exact S2|].
  pose proof (spec_next_cases file (fo_bs_enc o) (fo_window o) (buflen - DATA_PACKET_HEADER_SIZE) (proj1 HE) (proj2 HE) ltac:(lia) kd s retry (io_bad io) (proj1 SI)) as C.
  destruct (spec_next _ _ _ _ _ _ _) as [s' oo]. cbn [fst]. destruct C as [-> _]. exact NF.
Qed.
Lemma linv_recv st e t st' : linv st -> sample_le (lim j) dec st e t -> loop_recv dec o st e t = Ok (st', CRun) -> linv st'.
Proof.
  intros [RO (m & s & SI & NF)] SA H.
  split; [exact (proj1 (loop_recv_rate _ _ _ _ _ _ _ _ _ HJ eq_refl RO SA H))|].
  apply loop_recv_is_recv in H. unfold sender_recv in H.
  destruct e as [[|] wire| |]; [| |injection H as <- _; eauto|discriminate].
  - destruct (dec wire) as [p|]; [|discriminate]. cbn [negb] in H.
    destruct (from_bytes p) as [[?|?|?|b|?|?]|?|]; try discriminate; try (injection H as <-; eauto).
    destruct (reader_free (cs_r (sl_cs st)) b) as [r1 [n|]] eqn:RF; [|discriminate].
    pose proof (sim_free_state file (fo_bs_enc o) (fo_window o) (fo_bs_enc o) (proj1 HE) (proj2 HE) ltac:(lia) kd _ m s b SI) as S2.
    rewrite RF in S2. cbn [fst] in S2.
    destruct (reader_finished r1) eqn:FI; [discriminate|]. injection H as E. rewrite <- E. cbn [cs_r].
    do 2 eexists. split; [exact S2|].
    rewrite (sim_finished file (fo_bs_enc o) (fo_window o) (fo_bs_enc o) (proj1 HE) (proj2 HE) ltac:(lia) _ _ _ _ S2) in FI. unfold spec_finished in FI. apply N.eqb_neq in FI. exact FI.
  - destruct (dec wire); [|discriminate]. cbn [negb] in H. injection H as <-. eauto.
Qed.
Lemma linv_start t0 t1 t r : t1 - t0 <= lim j -> rate_start o t0 t1 = Ok r -> linv (sloop_new (new_reader kd (fo_bs_enc o) (fo_window o)) r t).
Proof.
  intros HT HR. destruct (rate_start_ok o t0 t1 j HJ HB HT) as (r' & E & RO). rewrite HR in E. injection E as <-.
  split; [exact RO|]. exists mapper_new, (mkWin 0 0 0). split; [cbn; apply sim_init with (cap := fo_bs_enc o); lia|]. cbn. unfold nblocks. lia.
Qed.
Lemma loop_linv st : upload_loop (lim j) dec file o kd st -> linv st.
Proof.
  induction 1 as [t0 t1 t r H1 H2|st bl io sock t t' st' plain H IH HL E|st e t st' H IH SA E].
  - eapply linv_start; eauto.
  - eapply linv_send; eauto.
  - eapply linv_recv; eauto.
Qed.

(** When it retries with something to send, something is sent. *)
Lemma retry_sends st buflen t t' st' plain r stats ti : linv st -> fo_bs_enc o + DATA_PACKET_HEADER_SIZE <= buflen ->
  loop_retry o st t = Ok (r, stats, ti, true) ->
  loop_send file o st buflen IoOk (Some true) t t' = Ok (st', plain, CRun) -> plain <> [].
Proof.
  intros [RO (m & s & SI & NF)] HL LR H. apply loop_send_is_send in H. destruct H as (r2 & s2 & ti2 & retry2 & LR2 & H).
  rewrite LR in LR2. injection LR2 as <- <- <- <-. unfold sender_send in H.
  destruct (sim_next file (fo_bs_enc o) (fo_window o) (buflen - DATA_PACKET_HEADER_SIZE) (proj1 HE) (proj2 HE) ltac:(lia) kd _ m s true (io_bad IoOk) SI) as [S1 _].
  destruct (reader_next _ _ _ _ _) as [rd res]. cbn [snd io_bad] in S1. subst res.
  destruct SI as [(W1 & W2 & W3 & W4 & _) _]. unfold spec_next in H.
  rewrite (proj2 (N.eqb_neq _ _) NF) in H. cbn [andb] in H.
  destruct (N.ltb_spec (conf s) (hi s)) as [L|L].
  - destruct kd; cbn [snd emit] in H; injection H as _ <-; discriminate.
  - destruct (N.ltb_spec (cur s) (hi s)) as [L2|L2].
    + destruct kd; cbn [snd emit] in H; injection H as _ <-; discriminate.
    + destruct ((hi s =? nblocks file (fo_bs_enc o)) || (window_of kd (fo_window o) <=? hi s - conf s)) eqn:EX.
      * exfalso. apply orb_prop in EX. destruct EX as [EX|EX]; [apply N.eqb_eq in EX; lia|].
        apply N.leb_le in EX. unfold window_of in EX. destruct kd; lia.
      * cbn [snd emit] in H. injection H as _ <-. discriminate.
Qed.
End Loop.

(** ** C60 *)
Definition block_ok (o : flow_opts) : Prop := 64 <= fo_bs o <= 16383 /\ 0 < fo_bs_enc o < 65536 /\ 1 <= fo_window o.

(** The interval is always defined (no panic) and bounded: at least the configured time, at most
    that, four times the longest round trip, or 256 seconds (144 for the block sizes that can be
    agreed on). *)
Theorem interval_bounded : forall dec file o kd j st t, j <= 33 -> block_ok o ->
  upload_loop (lim j) dec file o kd st ->
  exists r stats ti, loop_retry o st t = Ok (r, stats, ti, ti <? t - sl_last_sent st) /\
    fo_retry o <= ti <= N.max (fo_retry o) (N.max (4 * lim j) ((if 512 <=? fo_bs o then 144 else 256) * second)).
Proof.
  intros dec file o kd j st t HJ (HB & HE & HW) H. apply loop_linv in H as [RO _]; try assumption.
  destruct (loop_retry_ok o st t j HJ HB RO) as (r & stats & ti & retry & LR & RO' & -> & TI & _).
  exists r, stats, ti. split; [exact LR|].
  assert (Q1 : 1 <= fo_bs o / 64) by (apply N.div_le_lower_bound; lia).
  pose proof (N.div_mod (fo_bs o) 64 ltac:(lia)) as DM. pose proof (N.mod_lt (fo_bs o) 64 ltac:(lia)) as ML.
  destruct RO' as [R1 R2 R3 R4].
  destruct (interval_le r (fo_retry o) (fo_bs o) j (if 512 <=? fo_bs o then 144 else 256) HJ R1) as (ti2 & E & B).
  - lia.
  - unfold U32 in *. lia.
  - destruct (_ <=? _); lia.
  - destruct (N.leb_spec 512 (fo_bs o)) as [L|L].
    + assert (8 <= fo_bs o / 64) by (apply N.div_le_lower_bound; lia). nia.
    + nia.
  - rewrite TI in E. injection E as <-. exact B.
Qed.

(** Whatever was lost is sent again: while the transfer runs, the client never stays silent longer than
    the retry time, four round trips or one second, or 0.4 seconds and one turn if that is longer. *)
Theorem retransmits_in_time : forall dec file o kd j st0 t0 g t st, j <= 33 -> block_ok o ->
  upload_loop (lim j) dec file o kd st0 -> sl_last_sent st0 <= t0 -> sl_stats st0 <= t0 ->
  silent (lim j) dec file o st0 t0 g t st ->
  t <= t0 + N.max (N.max (fo_retry o) (N.max (4 * lim j) second)) (2 * FLOW_PERIOD + g).
Proof.
  intros dec file o kd j st0 t0 g t st HJ (HB & HE & HW) H0 LS0 ST0 SI.
  set (R := N.max (fo_retry o) (N.max (4 * lim j) second)).
  assert (G : linv file o kd j st /\ sl_last_sent st <= t0 /\ t0 <= t /\
    (sl_stats st <= t0 /\ t <= t0 + FLOW_PERIOD \/
     r_errors (sl_rate st) = 0 /\ sl_stats st <= t0 + FLOW_PERIOD + g /\ t <= sl_stats st + FLOW_PERIOD \/
     r_errors (sl_rate st) = 0 /\ 2 * fo_bs o <= r_allowed (sl_rate st) /\ t <= t0 + N.max R (2 * FLOW_PERIOD + g))).
  { induction SI as [|t st bl u u' st' SI IH HU HL E|t st e u st' SI IH TU SA E].
    - split; [eapply loop_linv; eauto|]. split; [assumption|]. split; [lia|]. left. unfold FLOW_PERIOD in *. lia.
    - destruct IH as (LI & LS & LT & IH).
      pose proof (linv_send dec file o kd j HJ HB HE HW st bl IoOk (Some true) u u' st' [] LI HL E) as LI'.
      destruct (loop_retry_ok o st u j HJ HB (proj1 LI)) as (r & stats & ti & retry & LR & RO' & RT & TI & C).
      destruct (loop_send_rate _ _ _ _ _ _ _ _ _ _ _ _ _ _ _ _ LR RO' E) as (_ & SS & _ & _ & SM).
      destruct (SM eq_refl eq_refl) as [ER EL].
      assert (NR : retry = false).
      { destruct retry; [|reflexivity]. exfalso. exact (retry_sends dec file o kd j HJ HB HE HW _ _ _ _ _ _ _ _ _ LI HL LR E eq_refl). }
      split; [exact LI'|]. rewrite EL, ER, SS. split; [exact LS|]. split; [lia|].
      assert (TB : 2 * fo_bs o <= r_allowed r -> u <= t0 + R).
      { intros AL. rewrite NR in RT. symmetry in RT. apply N.ltb_ge in RT.
        destruct RO' as [R1 R2 R3 R4].
        destruct (interval_le r (fo_retry o) (fo_bs o) j 1 HJ R1) as (ti2 & E2 & B); [lia|unfold U32 in *; lia|lia|lia|].
        rewrite TI in E2. injection E2 as <-. unfold R, second, NANOS in *. lia. }
      destruct (N.ltb_spec FLOW_PERIOD (u - sl_stats st)) as [D|D].
      + destruct C as (-> & E0 & EA). destruct IH as [(I1 & I2)|[(I1 & I2 & I3)|(I1 & I2 & I3)]].
        * right. left. split; [exact E0|]. lia.
        * right. right. split; [exact E0|]. specialize (EA I1). split; [exact EA|]. specialize (TB EA). lia.
        * right. right. split; [exact E0|]. specialize (EA I1). split; [exact EA|]. specialize (TB EA). lia.
      + destruct C as (-> & ->). destruct IH as [(I1 & I2)|[(I1 & I2 & I3)|(I1 & I2 & I3)]].
        * left. lia.
        * right. left. lia.
        * right. right. split; [exact I1|]. split; [exact I2|]. specialize (TB I2). lia.
    - destruct IH as (LI & LS & LT & IH).
      destruct (loop_recv_rate _ _ _ _ _ _ _ _ _ HJ eq_refl (proj1 LI) SA E) as (_ & E1 & E2 & E3 & E4).
      split; [eapply linv_recv; eauto|]. rewrite E1, E2, E3, E4. auto. }
  destruct G as (_ & _ & _ & G). unfold R, FLOW_PERIOD in *. lia.
Qed.

(** So with a request timeout beyond that, the client does not give up without having sent
    something after the last acknowledgement. *)
Theorem retransmits_before_giving_up : forall dec file o kd j st0 t0 g t st u st', j <= 33 -> block_ok o ->
  upload_loop (lim j) dec file o kd st0 -> sl_last_sent st0 <= t0 -> sl_stats st0 <= t0 -> cs_time (sl_cs st0) = t0 ->
  silent (lim j) dec file o st0 t0 g t st -> u <= t + g ->
  N.max (N.max (fo_retry o) (N.max (4 * lim j) second)) (2 * FLOW_PERIOD + g) + g <= fo_timeout o ->
  loop_recv dec o st EvWouldBlock u <> Ok (st', CFail).
Proof.
  intros dec file o kd j st0 t0 g t st u st' HJ HB H0 LS0 ST0 CT SI HU HT E.
  pose proof (retransmits_in_time dec file o kd j st0 t0 g t st HJ HB H0 LS0 ST0 SI) as RT.
  assert (G : t0 <= cs_time (sl_cs st) /\ t0 <= t).
  { clear HU HT E RT. induction SI as [|t st bl v v' st2 SI IH HU HL E|t st e v st2 SI IH TU SA E].
    - lia.
    - apply loop_send_is_send in E. destruct E as (r2 & s2 & ti2 & retry2 & _ & E). unfold sender_send in E.
      destruct (reader_next _ _ _ _ _) as [rd [[b|]|[|]|]]; apply (f_equal (fun x => cs_time (fst (fst x)))) in E;
        cbn [fst cs_time] in E; rewrite <- E; lia.
    - apply loop_recv_is_recv in E. unfold sender_recv in E.
      destruct e as [[|] wire| |]; try (apply (f_equal (fun x => cs_time (fst x))) in E; cbn [fst] in E; rewrite <- E; exact IH).
      + destruct (dec wire) as [p|]; [|discriminate]. cbn [negb] in E.
        destruct (from_bytes p) as [[?|?|?|b|?|?]|?|]; try (apply (f_equal (fun x => cs_time (fst x))) in E; cbn [fst] in E; rewrite <- E; exact IH).
        destruct (reader_free _ b) as [r1 [n|]]; apply (f_equal (fun x => cs_time (fst x))) in E; cbn [fst cs_time] in E; lia.
      + destruct (dec wire); [|discriminate]. apply (f_equal (fun x => cs_time (fst x))) in E; cbn [fst negb] in E; rewrite <- E; exact IH. }
  apply loop_recv_is_recv in E. unfold sender_recv in E. apply (f_equal snd) in E. cbn [snd] in E.
  destruct (N.ltb_spec (fo_timeout o) (u - cs_time (sl_cs st))) as [L|L]; [|discriminate]. lia.
Qed.

(** ** A slow handshake *)
Lemma rate_start_est o t0 t1 r : rate_start o t0 t1 = Ok r -> r_est r = as_secs (t1 - t0).
Proof.
  unfold rate_start, end_rtt, start_rtt, rate_new. cbn [r_nofb r_start r_for]. rewrite N.sub_diag. cbn [N.leb]. 
  change (2 * NANOS <=? 0) with false. cbv iota. cbn. unfold acknowledged_data.
  destruct (upto _ _ _); try discriminate. cbn [bindp]. destruct (upto _ _ _); try discriminate. cbn [bindp].
  intros H. apply calculate_est in H. exact H.
Qed.

Lemma loop_retry_est o st t r stats ti retry : loop_retry o st t = Ok (r, stats, ti, retry) -> r_est r = r_est (sl_rate st).
Proof.
  unfold loop_retry. cbv zeta. destruct (_ <? _).
  - destruct (calculate _ _ _ _ _ _) as [r1| |] eqn:C; try discriminate. cbn [bindp].
    destruct (timeout_interval _ _ _); try discriminate. cbn [bindp]. intros [= <- _ _ _]. exact (calculate_est _ _ _ _ _ _ _ C).
  - cbn [bindp]. destruct (timeout_interval _ _ _); try discriminate. cbn [bindp]. intros [= <- _ _ _]. reflexivity.
Qed.
Lemma no_ack_same dec o st e t st' : no_ack dec e -> loop_recv dec o st e t = Ok (st', CRun) ->
  sl_rate st' = sl_rate st /\ sl_last_sent st' = sl_last_sent st /\ sl_cs st' = sl_cs st.
Proof.
  intros NA H. pose proof (loop_recv_is_recv _ _ _ _ _ _ _ H) as H2. unfold loop_recv in H. rewrite H2 in H. cbv zeta in H.
  unfold sender_recv in H2.
  assert (G : sl_cs st' = sl_cs st).
  { destruct e as [[|] wire| |]; try (apply (f_equal fst) in H2; cbn [fst] in H2; congruence).
    - destruct (dec wire) as [p|] eqn:DW; [|discriminate]. cbn [negb] in H2.
      destruct (from_bytes p) as [[?|?|?|b|?|?]|?|] eqn:FB; try (apply (f_equal fst) in H2; cbn [fst] in H2; congruence).
      exfalso. exact (NA wire p b eq_refl DW FB).
    - destruct (dec wire) as [p|]; [|discriminate]. cbn [negb] in H2. apply (f_equal fst) in H2; cbn [fst] in H2; congruence. }
  destruct e as [[|] wire| |]; try (injection H as <-; cbn [sl_rate sl_last_sent]; auto).
  destruct (dec wire) as [p|] eqn:DW; [|injection H as <-; cbn [sl_rate sl_last_sent]; auto].
  destruct (from_bytes p) as [[?|?|?|b|?|?]|?|] eqn:FB; try (injection H as <-; cbn [sl_rate sl_last_sent]; auto).
  exfalso. exact (NA wire p b eq_refl DW FB).
Qed.
Lemma loop_send_last file o st buflen io sock t t' st' plain stat : loop_send file o st buflen io sock t t' = Ok (st', plain, stat) ->
  sl_last_sent st' = sl_last_sent st \/ sl_last_sent st' = t'.
Proof.
  intros H. unfold loop_send in H. destruct (loop_retry o st t) as [[[[r stats] ti] retry]| |]; try discriminate. cbn [bindp] in H.
  destruct (reader_next _ _ _ _ _) as [rd res]. destruct res as [[b|]|[|]|]; try (injection H as <- _ _; cbn; auto).
  destruct (map_index _ _) as [index map]. destruct (if _ =? _ then _ else _) as [r2| |]; try discriminate. cbn [bindp] in H.
  destruct sock as [[|]|]; try (injection H as <- _ _; cbn; auto).
  destruct (data_sent _ _ _) as [r3| |]; try discriminate. cbn [bindp] in H.
  destruct (_ && _); [discriminate|]. injection H as <- _ _. cbn. auto.
Qed.

(** The time the handshake took is the first estimate of the round trip; as long as nothing is
    acknowledged it stays.  After a handshake of [s] seconds nothing is sent twice for four times
    as long, and a client whose timeout is shorter gives up first: it sent each block of the first
    window at most once. *)
Theorem slow_handshake_no_retransmission : forall dec file o kd s t0 t1 r tl st out, block_ok o -> 1 <= s < 2 ^ 22 ->
  s * second <= t1 - t0 <= lim 33 -> rate_start o t0 t1 = Ok r ->
  unanswered dec file o (sloop_new (new_reader kd (fo_bs_enc o) (fo_window o)) r tl) (tl + 4 * s * second) st out ->
  (exists ks, StronglySorted N.lt ks /\ Forall (fun k => 1 <= k <= window_of kd (fo_window o)) ks /\
     out = map (block_packet file (fo_bs_enc o)) ks) /\
  (forall u, tl + fo_timeout o < u -> exists st', loop_recv dec o st EvWouldBlock u = Ok (st', CFail)).
Proof.
  intros dec file o kd s t0 t1 r tl st out (HB & HE & HW) HS HT HR H.
  destruct (rate_start_ok o t0 t1 33 ltac:(lia) HB (proj2 HT)) as (r' & HR' & RO0). rewrite HR in HR'. injection HR' as <-.
  destruct (as_secs_bounds (t1 - t0) 33 ltac:(lia) (proj2 HT)) as (a & FA & [A0 A1] & A2).
  assert (A3 : (IZR (Z.of_N s) <= a)%R).
  { apply Rle_trans with (IZR (Z.of_N ((t1 - t0) / NANOS))); [|exact A2]. apply IZR_le.
    assert (s <= (t1 - t0) / NANOS) by (apply N.div_le_lower_bound; [discriminate|]; unfold second, NANOS in *; lia). lia. }
  assert (G : rate_ok 33 (fo_bs o) (sl_rate st) /\ r_est (sl_rate st) = as_secs (t1 - t0) /\
    tl <= sl_last_sent st /\ cs_time (sl_cs st) = tl /\
    exists m h ks, Sim file (fo_bs_enc o) (fo_window o) kd (cs_r (sl_cs st)) m (mkWin 0 h h) /\
      StronglySorted N.lt ks /\ Forall (fun k => 1 <= k <= h) ks /\ out = map (block_packet file (fo_bs_enc o)) ks).
  { induction H as [|st out bl io sock t t' st' plain H IH HL TT TU E|st out e t st' H IH NA E].
    - split; [exact RO0|]. split; [exact (rate_start_est _ _ _ _ HR)|]. split; [cbn; lia|]. split; [reflexivity|].
      exists mapper_new, 0, []. split; [cbn; apply sim_init with (cap := fo_bs_enc o); lia|].
      split; [constructor|]. split; [constructor|reflexivity].
    - destruct IH as (RO & EE & LS & CT & m & h & ks & SI & SO & FO & ->).
      destruct (loop_retry_ok o st t 33 ltac:(lia) HB RO) as (r1 & stats & ti & retry & LR & RO' & RT & TI & _).
      destruct (loop_send_rate _ _ _ _ _ _ _ _ _ _ _ _ _ _ _ _ LR RO' E) as (RO2 & _ & E2 & _ & _).
      pose proof (loop_retry_est _ _ _ _ _ _ _ LR) as E3.
      assert (Q1 : 1 <= fo_bs o / 64) by (apply N.div_le_lower_bound; lia).
      assert (GE : 4 * s * NANOS <= ti).
      { apply (interval_ge r1 (fo_retry o) (fo_bs o)); [|lia|lia|destruct RO'; unfold U32 in *; lia|exact TI].
        rewrite E3, EE. exists a. split; [exact FA|]. split; [exact A3|exact A1]. }
      assert (RF : retry = false) by (rewrite RT; apply N.ltb_ge; unfold second, NANOS in *; lia).
      split; [exact RO2|]. split; [congruence|].
      split; [destruct (loop_send_last _ _ _ _ _ _ _ _ _ _ _ E) as [->| ->]; lia|].
      apply loop_send_is_send in E. destruct E as (r2 & s2 & ti2 & retry2 & LR2 & E). rewrite LR in LR2. injection LR2 as <- <- <- <-.
      subst retry. rewrite RF in E.
      destruct (sim_next file (fo_bs_enc o) (fo_window o) (bl - DATA_PACKET_HEADER_SIZE) (proj1 HE) (proj2 HE) ltac:(lia) kd _ m _ false (io_bad io) SI) as [S1 S2].
      unfold sender_send in E. destruct (reader_next _ _ _ _ _) as [rd res]. cbn [fst snd] in S1, S2. subst res.
      unfold spec_next in E, S2. cbn [conf hi cur andb] in E, S2. rewrite N.ltb_irrefl in E, S2.
      destruct (0 =? nblocks file (fo_bs_enc o)).
      { cbn [fst snd] in E, S2. injection E as <- <-. cbn [cs_r cs_time]. split; [exact CT|]. rewrite app_nil_r. eauto 10. }
      destruct ((h =? _) || _).
      { cbn [fst snd] in E, S2. injection E as <- <-. cbn [cs_r cs_time]. split; [exact CT|]. rewrite app_nil_r. eauto 10. }
      destruct (io_bad io).
      { cbn [fst snd] in E, S2. apply (f_equal fst) in E. cbn [fst] in E. injection E as <- <-. cbn [cs_r cs_time]. split; [exact CT|]. rewrite app_nil_r. eauto 10. }
      cbn [fst snd emit] in E, S2. cbn [o_block o_data] in E.
      assert (FO' : Forall (fun k => 1 <= k <= h + 1) ks) by (eapply Forall_impl; [|exact FO]; cbn; lia).
      destruct sock as [[|]|]; [injection E as <- <-|discriminate|injection E as <- <-]; cbn [cs_r cs_time]; (split; [exact CT|]).
      + exists m, (h + 1), (ks ++ [h + 1]). split; [exact S2|]. split; [|split].
        * clear -SO FO. induction SO as [|k ks SO IH FA]; cbn; [constructor; constructor|].
          inversion FO; subst. constructor; [apply IH; assumption|]. apply Forall_app. split; [exact FA|]. constructor; [lia|constructor].
        * apply Forall_app. split; [exact FO'|]. constructor; [lia|constructor].
        * rewrite map_app. reflexivity.
      + exists m, (h + 1), ks. split; [exact S2|]. split; [exact SO|]. split; [exact FO'|]. apply app_nil_r.
    - destruct IH as (RO & EE & LS & CT & IH). destruct (no_ack_same _ _ _ _ _ _ NA E) as (-> & -> & ->). auto. }
  destruct G as (_ & _ & _ & CT & m & h & ks & SI & SO & FO & ->). split.
  - exists ks. split; [exact SO|]. split; [|reflexivity]. eapply Forall_impl; [|exact FO]. cbn beta. intros k K.
    destruct SI as [(_ & _ & _ & W & _) _]. cbn [conf hi] in W. lia.
  - intros u HU. eexists. unfold loop_recv, sender_recv. rewrite CT, (proj2 (N.ltb_lt _ _)) by lia. cbv zeta iota. reflexivity.
Qed.

(** ** Panics *)
Lemma upto_release m n : 0 < m -> exists x, upto false m n = Ok x.
Proof. intros H. unfold upto. destruct (_ <? _); eauto. Qed.
(** A release build never panics here. *)
Theorem release_never_panics : forall dec file o kd j st, j <= 33 -> block_ok o -> fo_chk o = false ->
  upload_loop (lim j) dec file o kd st ->
  (forall buflen io sock t t', exists x, loop_send file o st buflen io sock t t' = Ok x) /\
  (forall e t, exists x, loop_recv dec o st e t = Ok x).
Proof.
  intros dec file o kd j st HJ (HB & HE & HW) HC H. apply loop_linv in H as [RO _]; try assumption. split.
  - intros buflen io sock t t'. unfold loop_send.
    destruct (loop_retry_ok o st t j HJ HB RO) as (r & stats & ti & retry & -> & _). cbn [bindp]. rewrite HC.
    destruct (reader_next _ _ _ _ _) as [rd res]. destruct res as [[b|]|[|]|]; eauto.
    destruct (map_index _ _) as [index map].
    assert (G : exists r2, (if sl_last_ack st + fo_window o =? index then bindp (if o_retry b then increment_errors false r else Ok r)
                 (fun r => Ok (start_rtt r t (o_block b))) else Ok r) = Ok r2).
    { destruct (_ =? _); [|eauto]. destruct (o_retry b); [|cbn [bindp]; eauto]. unfold increment_errors.
      destruct (upto_release U32 (r_errors r + 1) ltac:(reflexivity)) as (x & ->). cbn [bindp]. eauto. }
    destruct G as (r2 & ->). cbn [bindp]. destruct sock as [[|]|]; eauto. unfold data_sent.
    destruct (upto_release U32 (r_sent r2 + blen (o_data b) mod U32) ltac:(reflexivity)) as (x & ->). cbn [bindp]. rewrite andb_false_r. eauto.
  - intros e t. unfold loop_recv. destruct (sender_recv _ _ _ _ _) as [cs stat]. cbv zeta. rewrite HC.
    destruct e as [[|] wire| |]; eauto. destruct (dec wire) as [p|]; [|eauto].
    destruct (from_bytes p) as [[?|?|?|b|?|?]|?|]; eauto. destruct (snd _) as [n|]; [|eauto].
    destruct (map_index _ _) as [i mp]. unfold acknowledged_data.
    destruct (upto_release U32 (r_data (sl_rate st) + n mod U32) ltac:(reflexivity)) as (x & ->). cbn [bindp].
    destruct (upto_release U32 (r_packets (sl_rate st) + (n / fo_bs_enc o) mod U32) ltac:(reflexivity)) as (y & ->). cbn [bindp]. eauto.
Qed.

Lemma upto_build chk m n x : upto true m n = Ok x -> upto chk m n = Ok x.
Proof. unfold upto. destruct (_ <? _); [auto|discriminate]. Qed.
Lemma calculate_build chk r bs w retry rin x : calculate true r bs w retry rin = Ok x -> calculate chk r bs w retry rin = Ok x.
Proof.
  unfold calculate, initial_rate. intros H.
  destruct (upto true 65536 (4 * bs)) as [a| |] eqn:A; try discriminate. rewrite (upto_build chk _ _ _ A). cbn [bindp] in *.
  destruct (upto true 65536 (2 * bs)) as [b| |] eqn:B; try discriminate. rewrite (upto_build chk _ _ _ B). exact H.
Qed.
(** A debug build differs only by panicking: what it computes, a release build computes too. *)
Theorem debug_build_agrees : forall file dec o st,
  (forall buflen io sock t t' x, loop_send file (build o true) st buflen io sock t t' = Ok x -> loop_send file (build o false) st buflen io sock t t' = Ok x) /\
  (forall e t x, loop_recv dec (build o true) st e t = Ok x -> loop_recv dec (build o false) st e t = Ok x).
Proof.
  intros file dec o st. split.
  - intros buflen io sock t t' x H. unfold loop_send, loop_retry in *. cbn [build fo_chk fo_bs fo_bs_enc fo_window fo_retry fo_timeout] in *. cbv zeta in *.
    assert (G : forall r, (if FLOW_PERIOD <? t - sl_stats st then calculate true (sl_rate st) (fo_bs o) (fo_window o) (fo_retry o) (t - sl_stats st) else Ok (sl_rate st)) = Ok r ->
      (if FLOW_PERIOD <? t - sl_stats st then calculate false (sl_rate st) (fo_bs o) (fo_window o) (fo_retry o) (t - sl_stats st) else Ok (sl_rate st)) = Ok r)
      by (intros r; destruct (_ <? _); [apply calculate_build|auto]).
    destruct (if FLOW_PERIOD <? t - sl_stats st then calculate true _ _ _ _ _ else _) as [r| |]; try discriminate. rewrite (G r eq_refl). clear G. cbn [bindp] in *.
    destruct (timeout_interval _ _ _) as [ti| |]; try discriminate. cbn [bindp] in *.
    destruct (reader_next _ _ _ _ _) as [rd res]. destruct res as [[b|]|[|]|]; try exact H.
    destruct (map_index _ _) as [index map].
    assert (G : forall r2, (if sl_last_ack st + fo_window o =? index then bindp (if o_retry b then increment_errors true r else Ok r) (fun r => Ok (start_rtt r t (o_block b))) else Ok r) = Ok r2 ->
      (if sl_last_ack st + fo_window o =? index then bindp (if o_retry b then increment_errors false r else Ok r) (fun r => Ok (start_rtt r t (o_block b))) else Ok r) = Ok r2).
    { intros r2. destruct (_ =? _); [|auto]. destruct (o_retry b); [|auto]. unfold increment_errors.
      destruct (upto true U32 _) as [e| |] eqn:U; try discriminate. rewrite (upto_build false _ _ _ U). auto. }
    destruct (if sl_last_ack st + fo_window o =? index then bindp (if o_retry b then increment_errors true r else Ok r) _ else Ok r) as [r2| |]; try discriminate.
    rewrite (G r2 eq_refl). clear G. cbn [bindp] in *. destruct sock as [[|]|]; try exact H. unfold data_sent in *.
    destruct (upto true U32 _) as [e| |] eqn:U; try discriminate. rewrite (upto_build false _ _ _ U). cbn [bindp] in *.
    rewrite andb_true_r in H. rewrite andb_false_r. destruct (sl_left st =? 0); [discriminate|exact H].
  - intros e t x H. unfold loop_recv in *. cbn [build fo_chk fo_bs fo_bs_enc fo_window fo_retry fo_timeout] in *.
    destruct (sender_recv _ _ _ _ _) as [cs stat]. cbv zeta in *.
    destruct e as [[|] wire| |]; try exact H. destruct (dec wire) as [p|]; [|exact H].
    destruct (from_bytes p) as [[?|?|?|b|?|?]|?|]; try exact H. destruct (snd _) as [n|]; [|exact H].
    destruct (map_index _ _) as [i mp]. unfold acknowledged_data in *.
    destruct (upto true U32 (r_data _ + _)) as [u| |] eqn:U; try discriminate. rewrite (upto_build false _ _ _ U). cbn [bindp] in *.
    destruct (upto true U32 (r_packets _ + _)) as [v| |] eqn:V; try discriminate. rewrite (upto_build false _ _ _ V). exact H.
Qed.

(** The loop is one of the histories of C56. *)
Theorem loop_is_upload_history : forall m dec file o kd st, upload_loop m dec file o kd st ->
  exists start h, upload_history dec file kd (fo_bs_enc o) (fo_window o) (fo_timeout o) start h (sl_cs st).
Proof.
  induction 1 as [t0 t1 t r H1 H2|st bl io sock t t' st' plain H (start & h & IH) HL E|st e t st' H (start & h & IH) SA E].
  - exists t, [t]. constructor.
  - apply loop_send_is_send in E. destruct E as (r & stats & ti & retry & _ & E). exists start, h. eapply uh_send; eauto.
  - apply loop_recv_is_recv in E. exists start, (if is_ack dec e then t :: h else h). eapply uh_recv; eauto.
Qed.

(** ** Nothing is sent again too early *)
Lemma clock_is_last dec file o kd m st last : upload_clock m dec file o kd st last ->
  upload_loop m dec file o kd st /\ sl_last_sent st = last.
Proof.
  induction 1 as [t0 t1 t r H1 H2|st last bl io sock t t' st' plain H [IH IL] HL E|st last e t st' H [IH IL] SA E].
  - split; [econstructor; eauto|reflexivity].
  - split; [eapply ul_send; eauto|]. unfold loop_send in E.
    destruct (loop_retry o st t) as [[[[r stats] ti] retry]| |]; try discriminate. cbn [bindp] in E.
    destruct (reader_next _ _ _ _ _) as [rd res].
    destruct res as [[b|]|[|]|]; try (injection E as <- <-; cbn [sl_last_sent]; exact IL); try discriminate.
    destruct (map_index _ _) as [index map]. destruct (if _ =? _ then _ else _) as [r2| |]; try discriminate. cbn [bindp] in E.
    destruct sock as [[|]|]; try discriminate; [|injection E as <- <-; exact IL].
    destruct (data_sent _ _ _) as [r3| |]; try discriminate. cbn [bindp] in E.
    destruct (_ && _); [discriminate|]. injection E as <- <-. reflexivity.
  - split; [eapply ul_recv; eauto|]. unfold loop_recv in E.
    destruct (sender_recv dec (fo_timeout o) (sl_cs st) e t) as [cs s0]. cbv zeta in E.
    destruct e as [[|] wire| |]; try (injection E as <- _; exact IL).
    destruct (dec wire) as [p|]; [|injection E as <- _; exact IL].
    destruct (from_bytes p) as [[?|?|?|b|?|?]|?|]; try (injection E as <- _; exact IL).
    destruct (snd (reader_free _ _)) as [n|]; [|injection E as <- _; exact IL].
    destruct (map_index _ _) as [i mp]. destruct (acknowledged_data _ _ _ _) as [r| |]; try discriminate. cbn [bindp] in E.
    injection E as <- _. exact IL.
Qed.
(** A turn sends what the reader has next, or the configured interval has passed since anything was
    sent. *)
Theorem no_early_retransmission : forall dec file o kd j st last buflen io sock t t' st' plain stat, j <= 33 -> block_ok o ->
  upload_clock (lim j) dec file o kd st last ->
  loop_send file o st buflen io sock t t' = Ok (st', plain, stat) ->
  sender_send file (sl_cs st) buflen false io sock = (sl_cs st', plain, stat) \/ last + fo_retry o < t.
Proof.
  intros dec file o kd j st last bl io sock t t' st' plain stat HJ HB H E.
  apply clock_is_last in H as [H <-]. destruct (interval_bounded dec file o kd j st t HJ HB H) as (r & stats & ti & LR & LE & _).
  apply loop_send_is_send in E. destruct E as (r' & stats' & ti' & retry & LR' & E). rewrite LR in LR'. injection LR' as <- <- <- <-.
  destruct (N.ltb_spec ti (t - sl_last_sent st)) as [L|L]; [right; lia|left; exact E].
Qed.

(** ** Concrete cases *)
(** The values the tests of flow_control.rs expect. *)
Definition lit (a b : N) : f32 := fdiv (f_of a) (f_of b).
Example flow_values :
  average_rate (lit 1 100) (f_of 512) (f_of 1) (f_of 0) (f_of 1) = 4294967295 /\
  average_rate (lit 1 100) (f_of 512) (f_of 1) (lit 1 1000) (f_of 1) = 1618739 /\
  average_rate (lit 1 100) (f_of 512) (f_of 8) (lit 1 1000) (f_of 1) = 572310 /\
  average_rate (lit 800998 10000000) (f_of 512) (f_of 8) (lit 1 1000) (lit 80 1000) = 87330 /\
  average_rate (lit 3800998 10000000) (f_of 1400) (f_of 8) (fdiv (f_of 25) (f_of 158)) (lit 80 1000) = 3532 /\
  average_rate (lit 11 1000) (f_of 1400) (f_of 8) (f_of 1) (lit 80 1000) = 101 /\
  average_rate (lit 127 1000) (f_of 1400) (f_of 8) (f_of 1) (lit 80 1000) = 99 /\
  packets_to_send 572310 200000000 512 = 223 /\ packets_to_send 1618739 200000000 512 = 632 /\
  packets_to_send 4294967295 200000000 512 = 1677721 /\ packets_to_send 0 200000000 512 = 4294967295 /\
  packets_to_send 128 200000000 512 = 0 /\ packets_to_send 10000 200000000 512 = 3 /\ packets_to_send 10000 1000000000 512 = 19 /\
  smooth (lit 1 4) (lit 1 2) = lit 275 1000 /\ smooth (lit 1 2) (lit 0 1) = lit 45 100.
Proof. repeat split; vm_compute; reflexivity. Qed.
(** test_transmit_rate_doubles, with a round trip of 1 ms: the rate and the interval (ms) after each
    period; the numbers are the acknowledgements in the period. *)
Fixpoint acked (n : nat) (r : rate) : res unit rate :=
  match n with O => Ok r | S n => bindp (acknowledged_data true r 512 8) (acked n) end.
Fixpoint periods (l : list nat) (r : rate) : res unit (list (N * N)) :=
  match l with
  | [] => Ok []
  | n :: l => bindp (acked n r) (fun r => bindp (calculate true r 512 8 80000000 200000000) (fun r =>
      bindp (timeout_interval r 80000000 512) (fun ti => bindp (periods l r) (fun q => Ok ((r_allowed r, ti / 1000000) :: q)))))
  end.
Example flow_doubles :
  periods [1; 1; 1; 2; 4; 0; 0]%nat (fst (end_rtt (start_rtt (rate_new 0) 0 1) 1000000 1)) =
  Ok [(4294967295, 80); (4294967295, 80); (5120, 200); (10240, 100); (20480, 80); (2048, 500); (2048, 500)].
Proof. vm_compute. reflexivity. Qed.

(** An upload of two blocks in plain text: handshake of 20 ms, both blocks sent at once and lost,
    sent again after 81 ms. *)
Definition xo : flow_opts := mkFO 512 512 4 80000000 15000000000 false.
Definition xfile : bytes := repeat 97 600.
Definition xdec (b : bytes) : option bytes := Some b.
Definition xrun (r : res unit (sloop * list bytes * cstat)) : sloop :=
  match r with Ok (st, _, _) => st | _ => sloop_new (new_reader KMulti 512 4) (rate_new 0) 0 end.
Definition xs0 : sloop := Eval vm_compute in
  match rate_start xo 0 20000000 with Ok r => sloop_new (new_reader KMulti 512 4) r 20000000 | _ => sloop_new (new_reader KMulti 512 4) (rate_new 0) 0 end.
Definition xs1 : sloop := Eval vm_compute in xrun (loop_send xfile xo xs0 1429 IoOk (Some true) 20000000 20000000).
Definition xs2 : sloop := Eval vm_compute in xrun (loop_send xfile xo xs1 1429 IoOk (Some true) 20000000 20000000).
Definition xs3 : sloop := Eval vm_compute in xrun (loop_send xfile xo xs2 1429 IoOk (Some true) 100000000 100000000).
Example flow_case :
  block_ok xo /\ upload_loop (lim 4) xdec xfile xo KMulti xs2 /\
  silent (lim 4) xdec xfile xo xs2 20000000 80000000 100000000 xs3 /\
  loop_send xfile xo xs3 1429 IoOk (Some true) 100000001 100000001 =
    Ok (xrun (loop_send xfile xo xs3 1429 IoOk (Some true) 100000001 100000001), [block_packet xfile 512 1], CRun).
Proof.
  split; [repeat split; cbn; lia|]. split.
  - apply ul_send with xs1 1429 IoOk (Some true) 20000000 20000000 [block_packet xfile 512 2]; [|vm_compute; discriminate|vm_compute; reflexivity].
    apply ul_send with xs0 1429 IoOk (Some true) 20000000 20000000 [block_packet xfile 512 1]; [|vm_compute; discriminate|vm_compute; reflexivity].
    apply (ul_start (lim 4) xdec xfile xo KMulti 0 20000000 20000000 (sl_rate xs0)); [vm_compute; discriminate|vm_compute; reflexivity].
  - split; [|vm_compute; reflexivity].
    apply si_turn with 20000000 xs2 1429 100000000; [constructor|lia|vm_compute; discriminate|vm_compute; reflexivity].
Qed.
(** The state before the second copy, with the time of the last datagram: 81 ms passed. *)
Example clock_case : upload_clock (lim 4) xdec xfile xo KMulti xs3 20000000 /\
  sender_send xfile (sl_cs xs3) 1429 false IoOk (Some true) = (sl_cs xs3, [], CRun) /\ 20000000 + fo_retry xo < 100000001.
Proof.
  split; [|vm_compute; auto].
  apply (uc_send (lim 4) xdec xfile xo KMulti xs2 20000000 1429 IoOk (Some true) 100000000 100000000 xs3 []); [|vm_compute; discriminate|vm_compute; reflexivity].
  apply (uc_send (lim 4) xdec xfile xo KMulti xs1 20000000 1429 IoOk (Some true) 20000000 20000000 xs2 [block_packet xfile 512 2]); [|vm_compute; discriminate|vm_compute; reflexivity].
  apply (uc_send (lim 4) xdec xfile xo KMulti xs0 20000000 1429 IoOk (Some true) 20000000 20000000 xs1 [block_packet xfile 512 1]); [|vm_compute; discriminate|vm_compute; reflexivity].
  apply (uc_start (lim 4) xdec xfile xo KMulti 0 20000000 20000000 (sl_rate xs0)); [vm_compute; discriminate|vm_compute; reflexivity].
Qed.
(** The same with a handshake of 4 seconds: nothing is sent again within the 15 seconds of the
    timeout. *)
Definition xr4 : rate := Eval vm_compute in match rate_start xo 0 4000000000 with Ok r => r | _ => rate_new 0 end.
Definition xz0 : sloop := sloop_new (new_reader KMulti 512 4) xr4 4000000000.
Definition xz1 : sloop := Eval vm_compute in xrun (loop_send xfile xo xz0 1429 IoOk (Some true) 4000000000 4000000000).
Definition xz2 : sloop := Eval vm_compute in xrun (loop_send xfile xo xz1 1429 IoOk (Some true) 18900000000 18900000000).
Definition xz3 : sloop := Eval vm_compute in xrun (loop_send xfile xo xz2 1429 IoOk (Some true) 19000000000 19000000000).
Example slow_case :
  rate_start xo 0 4000000000 = Ok xr4 /\ 4 * second <= 4000000000 - 0 <= lim 33 /\
  unanswered xdec xfile xo xz0 (4000000000 + 4 * 4 * second) xz3 [block_packet xfile 512 1; block_packet xfile 512 2] /\
  snd (match loop_recv xdec xo xz3 EvWouldBlock 19000000001 with Ok x => x | _ => (xz3, CRun) end) = CFail.
Proof.
  split; [vm_compute; reflexivity|]. split; [split; vm_compute; discriminate|]. split; [|vm_compute; reflexivity].
  change [block_packet xfile 512 1; block_packet xfile 512 2] with ((([] ++ [block_packet xfile 512 1]) ++ [block_packet xfile 512 2]) ++ []).
  apply un_send with xz2 1429 IoOk (Some true) 19000000000 19000000000; [|vm_compute; discriminate|vm_compute; split; discriminate|vm_compute; discriminate|vm_compute; reflexivity].
  apply un_send with xz1 1429 IoOk (Some true) 18900000000 18900000000; [|vm_compute; discriminate|vm_compute; split; discriminate|vm_compute; discriminate|vm_compute; reflexivity].
  apply un_send with xz0 1429 IoOk (Some true) 4000000000 4000000000; [|vm_compute; discriminate|vm_compute; split; discriminate|vm_compute; discriminate|vm_compute; reflexivity].
  constructor.
Qed.
(** An acknowledgement of block number 0 while nothing is being timed counts as a round trip
    measured from the last block timed. *)
Example stray_sample :
  let r := sl_rate xs0 in
  r_for r = 0 /\ snd (end_rtt r 5000000000 0) = Some 5000000000 /\ r_est (fst (end_rtt r 5000000000 0)) <> r_est r.
Proof. vm_compute. split; [reflexivity|]. split; [reflexivity|discriminate]. Qed.
(** All blocks of a period lost, none acknowledged: the interval after that period is 128 s. *)
Example lossy_period :
  match bindp (increment_errors true (sl_rate xs0)) (fun r => bindp (calculate true r 512 4 80000000 200000000) (fun r => timeout_interval r 80000000 512)) with
  | Ok ti => ti / second
  | _ => 0
  end = 128.
Proof. vm_compute. reflexivity. Qed.
(** 4 GiB sent: a debug build panics. *)
Example debug_overflow : data_sent true (mkRate 1 0 0 (S754_zero false) 0 0 4294966784 0 (0, 0, 0) false 0 false false) 512 = Panic.
Proof. reflexivity. Qed.
Print Assumptions interval_bounded.
Print Assumptions retransmits_in_time.

Print Assumptions loop_send_is_send.
Print Assumptions loop_recv_is_recv.
Print Assumptions retransmits_before_giving_up.
Print Assumptions slow_handshake_no_retransmission.
Print Assumptions release_never_panics.
Print Assumptions debug_build_agrees.
Print Assumptions loop_is_upload_history.
Print Assumptions no_early_retransmission.
