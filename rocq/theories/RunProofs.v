(** Proofs about whole client runs. *)
From Verif Require Import Base BaseProofs PacketModel MapperModel ReaderModel ReaderSpec BlockLemmas ConfigModel CryptoModel CryptoSpec ExtModel PathModel ConnModel
  ConnSpec ClientModel HandshakeModel ClientWaitModel StreamModel StreamSpec StreamProofs PropStream SystemModel ServerModel ServerSpec WorldModel FsModel FsSpec FsProofs PropFs FsServerModel DiskModel DiskProofs
  RunModel RunSpec.
From Verif Require CliModel.

(** ** Writing to the local file *)
Lemma sw_write_len c s d s' n : crypto_ok c -> sw_write c s d false None = (s', Ok n) -> n = blen d.
Proof.
  intros HC H. unfold sw_write in H.
  assert (HH : forall s1 from, sw_header s d = Ok (s1, from) -> from <= blen d).
  { intros s1 from E. unfold sw_header in E. destruct (sw_key s); [|injection E as _ <-; lia].
    destruct (slice_to_array STREAM_BLOCK_SIZE 0 d); [|discriminate]. destruct (_ && _); [|discriminate].
    destruct (slice_to_array STREAM_NONCE_SIZE STREAM_BLOCK_SIZE d) eqn:E2; [|discriminate]. injection E as _ <-.
    unfold slice_to_array, STREAM_NONCE_SIZE, STREAM_BLOCK_SIZE in E2. destruct (2 + 19 <=? blen d) eqn:X; [|discriminate].
    unfold STREAM_NONCE_SIZE, STREAM_BLOCK_SIZE. lia. }
  destruct (sw_header s d) as [[s1 from]| |] eqn:E; try discriminate. specialize (HH _ _ eq_refl).
  destruct (sw_bs s1) as [bs|]; [|discriminate]. destruct (sw_dec s1) as [[[key iv] dec]|]; [|discriminate].
  destruct (bs <? blen (dropN from d)); [discriminate|]. unfold stream_decrypt in H. destruct dec as [pos|]; [|discriminate].
  assert (OL : forall last m, open_segment c key iv pos last (dropN from d) = Some m -> blen m + 16 = blen (dropN from d)).
  { intros last m O. apply (open_inv c HC) in O. rewrite O, (seal_len c HC). reflexivity. }
  rewrite blen_dropN in OL. destruct (bs - from =? blen (dropN from d)).
  - destruct (pos =? COUNTER_MAX); [discriminate|]. destruct (open_segment _ _ _ _ _ _) as [m|] eqn:O; [|discriminate].
    apply OL in O. injection H as _ <-. unfold ENCRYPTION_TAG_SIZE. lia.
  - destruct (open_segment _ _ _ _ _ _) as [m|] eqn:O; [|discriminate]. apply OL in O. injection H as _ <-. unfold ENCRYPTION_TAG_SIZE. lia.
Qed.
Lemma sw_write_out c s d io short s' r : sw_write c s d io short = (s', r) ->
  exists part, sw_out s' = sw_out s ++ part /\ (forall n, r = Ok n -> True) /\ ((forall n, r <> Ok n) -> part = []).
Proof.
  intros H. unfold sw_write in H.
  assert (HH : forall s1 from, sw_header s d = Ok (s1, from) -> sw_out s1 = sw_out s).
  { intros s1 from E. unfold sw_header in E. destruct (sw_key s); [|injection E as <- _; reflexivity].
    destruct (slice_to_array STREAM_BLOCK_SIZE 0 d); [|discriminate]. destruct (_ && _); [|discriminate].
    destruct (slice_to_array STREAM_NONCE_SIZE STREAM_BLOCK_SIZE d); [|discriminate]. injection E as <- _. reflexivity. }
  assert (NIL : forall x, sw_out x = sw_out s -> s' = x -> (forall n, r <> Ok n) -> exists part, sw_out s' = sw_out s ++ part /\ (forall n, r = Ok n -> True) /\ ((forall n, r <> Ok n) -> part = [])).
  { intros x E -> _. exists []. rewrite app_nil_r. auto. }
  destruct (sw_header s d) as [[s1 from]| |] eqn:E; [|injection H as <- <-; apply (NIL s); auto; discriminate|injection H as <- <-; apply (NIL s); auto; discriminate].
  specialize (HH _ _ eq_refl).
  destruct (sw_bs s1) as [bs|]; [|injection H as <- <-; apply (NIL s1); auto; discriminate].
  destruct (sw_dec s1) as [[[key iv] dec]|]; [|injection H as <- <-; apply (NIL s1); auto; discriminate].
  destruct (bs <? blen (dropN from d)); [injection H as <- <-; apply (NIL s1); auto; discriminate|].
  destruct (stream_decrypt c key iv dec (dropN from d) (bs - from)) as [dec' [m| |]];
    try (injection H as <- <-; eapply NIL; [|reflexivity|discriminate]; exact HH).
  destruct io; [injection H as <- <-; eapply NIL; [|reflexivity|discriminate]; exact HH|].
  injection H as <- <-. cbn [sw_out]. rewrite HH. eexists. split; [reflexivity|]. split; [auto|]. intros X. destruct (X _ eq_refl).
Qed.

Lemma write_at_end u d : write_at u (blen u) d = u ++ d.
Proof.
  unfold write_at. destruct d as [|x d]; [rewrite app_nil_r; reflexivity|].
  rewrite takeN_all by lia. rewrite N.sub_diag. cbn [N.to_nat repeat app]. rewrite dropN_all by lia. rewrite app_nil_r. reflexivity.
Qed.

(** The state of the local file: [w] is the client's block writer, [l] the blocks it has handed to the file. *)
Inductive sunk (c : crypto) (fk : option bytes) (f : fs) : sink -> writer -> list bytes -> Prop :=
| sunk_plain id w l : fk = None -> f_data f id = w_out w -> concat l = w_out w ->
    sunk c fk f (mkSink id (blen (w_out w)) None) w l
| sunk_stream key id w l s : fk = Some key -> writes c (sw_new key) l s -> f_data f id = sw_out s -> concat l = w_out w ->
    sunk c fk f (mkSink id (blen (sw_out s)) (Some s)) w l.
(** What remains of it when the run is over. *)
Definition left_in (c : crypto) (fk : option bytes) (f : fs) (id : N) (w : writer) (l : list bytes) : Prop :=
  concat l = w_out w /\
  match fk with None => f_data f id = w_out w | Some key => exists s, writes c (sw_new key) l s /\ f_data f id = sw_out s end.
Lemma sunk_left c fk f s w l : sunk c fk f s w l -> left_in c fk f (sk_id s) w l.
Proof. destruct 1; subst; (split; [assumption|]); cbn; eauto. Qed.
Lemma writes_snoc c s l s' b s'' : writes c s l s' -> sw_write c s' b false None = (s'', Ok (blen b)) -> writes c s (l ++ [b]) s''.
Proof. induction 1; intros E; cbn [app]; econstructor; try eassumption; [constructor|auto]. Qed.

Lemma data_set f i x j : f_data (set_data f i x) j = if j =? i then x else f_data f j.
Proof. reflexivity. Qed.

(** One hand-over. *)
Lemma store_cases c fk f s w l d i f' s' io short : crypto_ok c -> sunk c fk f s w l -> ri_short i = None ->
  store c f s d i = (f', s', io, short) ->
  short = None /\ sk_id s' = sk_id s /\ (forall j, j <> sk_id s -> f_data f' j = f_data f j) /\
  (d = None -> f' = f /\ s' = s) /\
  (forall x, d = Some x ->
     if io then left_in c fk f' (sk_id s) w l
     else forall w', w_out w' = w_out w ++ x -> sunk c fk f' s' w' (l ++ [x])).
Proof.
  intros HC SK SH H. unfold store in H. destruct d as [d|]; cycle 1.
  { injection H as <- <- _ <-. repeat split; auto. intros; discriminate. }
  destruct (sink_write c f s d (ri_io i) (ri_short i)) as [[f1 s1] r] eqn:E. rewrite SH in E. unfold sink_write in E.
  destruct SK as [id w l FK FD CL|key id w l sw FK WR FD CL]; cbn [sk_stream sk_id sk_pos] in *.
  - destruct (ri_io i).
    + injection E as <- <- <-. injection H as <- <- <- <-. repeat split; auto; try discriminate; cbn; subst fk; auto.
    + injection E as <- <- <-. rewrite N.eqb_refl in H. injection H as <- <- <- <-. rewrite FD, write_at_end.
      repeat split; auto; try discriminate.
      * intros j NJ. rewrite data_set. destruct (N.eqb_spec j id); [contradiction|reflexivity].
      * intros x [= <-] w' EW. replace (blen (w_out w) + blen d) with (blen (w_out w')) by (rewrite EW, blen_app; reflexivity).
        apply sunk_plain; [exact FK|rewrite data_set, N.eqb_refl; auto|rewrite concat_app, CL, EW; cbn [concat]; rewrite app_nil_r; reflexivity].
  - destruct (sw_write c sw d (ri_io i) None) as [sw' r'] eqn:EW. destruct (sw_write_out _ _ _ _ _ _ _ EW) as (part & EO & _ & EN).
    rewrite EO in E. rewrite dropN_app_exact in E by reflexivity. injection E as <- <- <-.
    assert (DJ : forall j, j <> id -> f_data (set_data f id (write_at (f_data f id) (blen (sw_out sw)) part)) j = f_data f j).
    { intros j NJ. rewrite data_set. destruct (N.eqb_spec j id); [contradiction|reflexivity]. }
    assert (DI : f_data (set_data f id (write_at (f_data f id) (blen (sw_out sw)) part)) id = sw_out sw').
    { rewrite data_set, N.eqb_refl, FD, write_at_end. symmetry. exact EO. }
    destruct r' as [n|e|].
    + assert (ER : ri_io i = false).
      { destruct (ri_io i); [|reflexivity]. exfalso. clear - EW. unfold sw_write in EW. destruct (sw_header sw d) as [[s1 fr]| |]; try discriminate.
        destruct (sw_bs s1); [|discriminate]. destruct (sw_dec s1) as [[[? ?] ?]|]; [|discriminate]. destruct (_ <? _); [discriminate|].
        destruct (stream_decrypt _ _ _ _ _ _) as [? [?| |]]; discriminate. }
      rewrite ER in EW. pose proof (sw_write_len _ _ _ _ _ HC EW) as ->. rewrite N.eqb_refl in H. injection H as <- <- <- <-.
      repeat split; auto; try discriminate. intros x [= <-] w' EW'.
      replace (blen (sw_out sw) + blen part) with (blen (sw_out sw')) by (rewrite EO, blen_app; reflexivity).
      eapply sunk_stream; [exact FK|eapply writes_snoc; eassumption|exact DI|rewrite concat_app, CL, EW'; cbn [concat]; rewrite app_nil_r; reflexivity].
    + injection H as <- <- <- <-. repeat split; auto; try discriminate. subst fk. exists sw. split; [exact WR|].
      rewrite DI, EO. rewrite EN by discriminate. apply app_nil_r.
    + injection H as <- <- <- <-. repeat split; auto; try discriminate. subst fk. exists sw. split; [exact WR|].
      rewrite DI, EO. rewrite EN by discriminate. apply app_nil_r.
Qed.

(** ** The loop of receive_file *)
Lemma write_block_cases w b d io w' r : write_block w b d io None = (w', r) ->
  match snd (write_block w b d false None) with
  | Ok _ => if io then r = Err WFile /\ w_out w' = w_out w /\ w_written w' = w_written w
            else r = Ok (blen d, w_written w + 1) /\ w_out w' = w_out w ++ d /\ w_written w' = w_written w + 1
  | _ => w_out w' = w_out w /\ w_written w' = w_written w /\ (exists cur i, r = Err (AlreadyWritten cur i) \/ r = Err (ExpectedBlock cur i))
  end.
Proof.
  unfold write_block. destruct (map_index (w_map w) b) as [pr m]. destruct (pr <? w_written w + 1).
  { intros [= <- <-]. cbn. repeat split. eauto. }
  destruct (w_written w + 1 <? pr); [intros [= <- <-]; cbn; repeat split; eauto|]. destruct io; intros [= <- <-]; cbn; repeat split.
Qed.
Lemma recv_step_file dec o max timeout st e now io sock txt st' plain stat :
  recv_step dec o max timeout st e now io None sock txt = (st', plain, stat) ->
  match get_data dec (cr_w st) e with
  | None => w_out (cr_w st') = w_out (cr_w st) /\ w_written (cr_w st') = w_written (cr_w st) /\ (forall t, stat <> CDone t)
  | Some x =>
      if io then w_out (cr_w st') = w_out (cr_w st) /\ w_written (cr_w st') = w_written (cr_w st) /\ stat = CFail
      else w_out (cr_w st') = w_out (cr_w st) ++ x /\ w_written (cr_w st') = w_written (cr_w st) + 1 /\
        (stat = CFail \/ cr_total st' = cr_total st + blen x /\ (stat = if blen x <? bs_enc o then CDone (cr_total st + blen x) else CRun))
  end.
Proof.
  intros H. unfold recv_step in H. destruct e as [fp wire| |]; cbn [get_data].
  2:{ injection H as <- _ <-. repeat split. intros t. destruct (_ <? _); discriminate. }
  2:{ injection H as <- _ <-. repeat split. discriminate. }
  destruct (dec wire) as [p|]; [|injection H as <- _ <-; destruct fp; repeat split; discriminate].
  destruct fp; cbn [negb] in H; [|injection H as <- _ <-; repeat split; discriminate].
  unfold for_file. destruct (from_bytes p) as [pk| |]; [|injection H as <- _ <-; repeat split; discriminate|injection H as <- _ <-; repeat split; discriminate].
  destruct pk; try (injection H as <- _ <-; repeat split; discriminate).
  unfold cl_write_block in H. destruct (write_block (cr_w st) block data io None) as [w1 res] eqn:EW.
  pose proof (write_block_cases _ _ _ _ _ _ EW) as WC. destruct (snd (write_block (cr_w st) block data false None)) as [ok|er|].
  - destruct io.
    + destruct WC as (-> & O & N'). injection H as <- _ <-. cbn [cr_w]. auto.
    + destruct WC as (-> & O & N'). destruct (negb (cl_size_ok (cr_total st + blen data) max)); [injection H as <- _ <-; cbn [cr_w]; auto|].
      destruct (_ && negb sock); [injection H as <- _ <-; cbn [cr_w]; auto|]. injection H as <- _ <-. cbn [cr_w cr_total]. auto.
  - destruct WC as (O & N' & cur & i & [-> | ->]); (destruct (_ && negb sock); injection H as <- _ <-; cbn [cr_w]; repeat split; auto; discriminate).
  - destruct WC as (O & N' & cur & i & [-> | ->]); (destruct (_ && negb sock); injection H as <- _ <-; cbn [cr_w]; repeat split; auto; discriminate).
Qed.

(** The local path after something was written into a file. *)
Lemma local_set f i x path : local_file (set_data f i x) path = local_file f path.
Proof.
  unfold local_file, realpath, start_of. cbn [f_cwd set_data]. destruct (p_empty _); [reflexivity|].
  rewrite (walk_ext f (set_data f i x)) by (intros; apply at_set). destruct (walk _ _ _ _); [rewrite at_set|]; reflexivity.
Qed.
Lemma sink_set c f s d io short f' s' r : sink_write c f s d io short = (f', s', r) -> f' = f \/ exists x, f' = set_data f (sk_id s) x.
Proof.
  unfold sink_write. destruct (sk_stream s) as [sw|].
  - destruct (sw_write _ _ _ _ _). intros [= <- _ _]. eauto.
  - destruct io; intros [= <- _ _]; eauto.
Qed.
Lemma store_set c f s d i f' s' io short : store c f s d i = (f', s', io, short) -> f' = f \/ exists x, f' = set_data f (sk_id s) x.
Proof.
  unfold store. destruct d as [d|]; [|intros [= <- _ _ _]; auto]. destruct (sink_write _ _ _ _ _ _) as [[f1 s1] r] eqn:E.
  destruct r; intros [= <- _ _ _]; eapply sink_set; exact E.
Qed.
Lemma local_store c f s d i f' s' io short path : store c f s d i = (f', s', io, short) -> local_file f' path = local_file f path.
Proof. intros E. destruct (store_set _ _ _ _ _ _ _ _ _ E) as [->|[x ->]]; [reflexivity|apply local_set]. Qed.

(** ** The start of receive_file *)
Lemma create_writer_cases f path f1 r : create_writer f path = (f1, r) ->
  match r with
  | None => f1 = f
  | Some id => local_file f1 path = Some id /\ f_data f1 id = [] /\ (forall j, j <> id -> f_data f1 j = f_data f j) /\
      (local_file f path = Some id /\ (forall q, at_ f1 q = at_ f q) /\ f1 = set_data f id [] \/
       local_file f path = None /\ id = f_next f /\
       exists d n, at_ f (d ++ [n]) = None /\ at_ f1 (d ++ [n]) = Some (NFile id) /\ (forall q, q <> d ++ [n] -> at_ f1 q = at_ f q))
  end.
Proof.
  unfold create_writer. destruct (open_path false f (parse_path path)) as [f' [[p0 id]|]] eqn:E; intros [= <- <-].
  - unfold open_path in E. destruct (p_empty (parse_path path)) eqn:EP; [discriminate|].
    destruct (open_then_walk _ _ _ _ _ _ _ _ E) as [W EA]. pose proof (open_cases _ _ _ _ _ _ _ E) as OC. cbn beta iota in OC.
    assert (CW : f_cwd f' = f_cwd f) by (destruct OC as [(-> & _)|(-> & _)]; reflexivity).
    assert (RP : realpath f' (parse_path path) = Some p0).
    { unfold realpath. rewrite EP. unfold start_of in *. rewrite CW. exact W. }
    assert (L' : local_file f' path = Some id) by (unfold local_file; rewrite RP, EA; reflexivity).
    split; [rewrite local_set; exact L'|]. split; [rewrite data_set, N.eqb_refl; reflexivity|].
    split.
    { intros j NJ. rewrite data_set. destruct (N.eqb_spec j id); [contradiction|]. destruct OC as [(-> & _)|(-> & EI & _)]; [reflexivity|].
      rewrite data_new. destruct (N.eqb_spec j (f_next f)); [congruence|reflexivity]. }
    destruct OC as [(-> & _ & _)|(-> & -> & EN & d & n & ->)].
    + left. split; [exact L'|]. split; [intros q; apply at_set|reflexivity].
    + right. split; [|split; [reflexivity|]].
      * unfold local_file, realpath. rewrite EP. destruct (walk MAX_LINKS f (start_of f (parse_path path)) (p_parts (parse_path path))) as [q|] eqn:WF; [|reflexivity].
        destruct (at_ f q) as [[i| |t]|] eqn:AQ; try reflexivity. exfalso.
        pose proof (walk_grows _ _ (new_file_grows _ _ _ EN) _ _ _ _ WF) as W2. rewrite W2 in W. injection W as ->. congruence.
      * exists d, n. split; [exact EN|]. rewrite at_set. rewrite at_new. rewrite (proj2 (place_eqb_iff _ _) eq_refl). split; [reflexivity|].
        intros q NQ. rewrite at_set, at_new. destruct (place_eqb q (d ++ [n])) eqn:EQ; [apply place_eqb_iff in EQ; contradiction|reflexivity].
  - unfold open_path in E. destruct (p_empty _); [congruence|]. apply (open_cases _ _ _ _ _ _ _ E).
Qed.

(** ** What is received first *)
Lemma same_addr_refl x : same_addr x x = true.
Proof. unfold same_addr, same_ip. rewrite Bool.eqb_reflx, N.eqb_refl. rewrite (proj2 (beq_eq _ _) eq_refl). reflexivity. Qed.
Lemma same_addr_eq x y : same_addr x y = true -> x = y.
Proof.
  unfold same_addr, same_ip. destruct x, y. cbn [CliModel.ad_v6 CliModel.ad_host CliModel.ad_port]. intros H. apply Bool.andb_true_iff in H as [H H3].
  apply Bool.andb_true_iff in H as [H1 H2]. apply Bool.eqb_prop in H1. apply beq_eq in H2. apply N.eqb_eq in H3. congruence.
Qed.
Lemma transfer_ev p down e x : transfer_event p down e x -> client_event down (get_ev p e) x.
Proof.
  unfold transfer_event, client_event, get_ev. destruct e as [src wire| |]; [|auto..]. intros [(-> & H)|(N & H)]; [rewrite same_addr_refl; exact H|].
  destruct (same_addr src p) eqn:E; [destruct N; apply same_addr_eq; exact E|exact H].
Qed.
Lemma query_port c cc write init o used sp sp' txt p q q' :
  query_step c cc write init o used sp txt p = QDone q -> query_step c cc write init o used sp' txt p = QDone q' -> q = q'.
Proof.
  unfold query_step. destruct (negb sp && _); [discriminate|]. destruct (negb sp' && _); [discriminate|]. intros -> [= ->]. reflexivity.
Qed.
Lemma query_ack_data c cc write init o used sp txt p q : query_step c cc write init o used sp txt p = QDone q -> q_ack q = true \/ write = true -> q_data q = None.
Proof.
  unfold query_step. destruct (_ && _); [discriminate|]. destruct (from_bytes p) as [[]| |]; try discriminate.
  - destruct write; [discriminate|]. intros [= <-] [H|H]; discriminate.
  - destruct write; [|discriminate]. intros [= <-] _. reflexivity.
  - destruct (_ && _); discriminate.
  - destruct (unasked _ _); [|discriminate]. destruct (client_parse _ _ _) as [[o2 kp]| |]; try discriminate. destruct (_ && _); [discriminate|].
    intros [= <-] _. reflexivity.
Qed.
Lemma query_again c cc write init o used sp sp' txt p q r : query_step c cc write init o used sp txt p = QDone q ->
  query_step c cc write init o used sp' txt p = r -> r = QDone q \/ r = QFail None.
Proof.
  unfold query_step. destruct (negb sp && _); [discriminate|]. destruct (negb sp' && _); [auto|]. intros -> <-. auto.
Qed.

Definition waits (wc : wcfg) (ex : exts) (w0 : wstate) : Prop := ws_initial w0 = true /\ ws_used w0 = ex /\ ws_cap w0 = wc_buf wc.

(** One turn of the wait for the answer. *)
Lemma wait_cases g wc keys ex write w k peer w0 sock e now :
  wc_crypto wc = ru_c g -> wc_write wc = write -> wc_txt wc = ru_txt g ->
  same_ip peer (CliModel.cl_endpoint (ru_start g)) = true -> agrees g wc keys write ex w k -> answer_only peer w e ->
  waits wc ex w0 ->
  match wait_turn wc w0 (mkWI sock (wait_ev g e) now) with
  | WoWaiting w' => waits wc ex w'
  | WoDone q _ => sock = true /\ e = RvFrom peer w /\ (q_ack q = true \/ write = true) /\ q_data q = None /\ agreed g wc keys q = k
  | WoRefuse _ => False
  | _ => True
  end.
Proof.
  intros E1 E2 E3 IP (p & q & sp & CR & QS & QA & ->) AO (W1 & W2 & W3). unfold wait_turn. cbn [wi_sock wi_ev wi_now].
  destruct sock; cbn [negb]; [|exact I]. destruct e as [src wire| |]; cbn [wait_ev]; [|cbn; destruct (_ <? _); [exact I|repeat split; assumption]|exact I].
  cbn [answer_only] in AO. destruct AO as [-> ->]. rewrite E1, W3, CR, IP, E2, E3, W1, W2.
  destruct (query_step _ _ _ _ _ _ (same_addr peer _) _ _) eqn:QS'; pose proof (query_again _ _ _ _ _ _ _ _ _ _ _ _ QS QS') as [X|X]; try discriminate X.
  - injection X as ->. exact I.
  - assert (QA' : q_ack q = true \/ write = true) by tauto. injection X as ->. repeat split; auto. eapply query_ack_data; eassumption.
Qed.

Section R.
Context {S : Type} (step : S -> took -> S -> outs -> Prop) (view : S -> ServerModel.addr -> option entry).
Variables (g : run_cfg) (wc : wcfg) (keys : option client_keys) (a : ServerModel.addr) (peer : CliModel.addr) (w : bytes) (ex : exts) (k : cside).
Hypothesis HC : crypto_ok (ru_c g).
Notation path := (CliModel.cl_local (ru_start g)).
Notation fk := (CliModel.cl_file_key (ru_start g)).
Notation c := (ru_c g).
Hypothesis W1 : wc_crypto wc = c.
Hypothesis W3 : wc_txt wc = ru_txt g.
Hypothesis P1 : same_ip peer (CliModel.cl_endpoint (ru_start g)) = true.

Lemma filter_peer s l : filter (fun x => same_addr (sn_to x) peer) (sends s peer l) = sends s peer l.
Proof. unfold sends. induction l; [reflexivity|]. cbn [map filter sn_to]. rewrite same_addr_refl. f_equal. assumption. Qed.
(** A request that is repeated, on its way to the connection. *)
Definition again (write : bool) (y : dgram) : Prop :=
  snd y = None /\ same_addr (CliModel.cl_endpoint (ru_start g)) peer = true /\ request_of g wc write ex (fst y).
Lemma ask_again write mk sock new : mk (asking g write ex) = None ->
  all_sealed c peer mk (sends (wc_sock wc) (CliModel.cl_endpoint (ru_start g)) (when sock [asking g write ex])) new -> Forall (again write) new.
Proof.
  unfold all_sealed, sends. intros MK. destruct sock; cbn [when map filter sn_to]; [|intros H; inversion H; constructor].
  destruct (same_addr _ peer) eqn:SA; intros H; [|inversion H; constructor]. inversion H as [|? y ? l (_ & G & nn & Hn & CS) H']; subst. inversion H'; subst.
  constructor; [|constructor]. cbn [sn_plain sn_sock] in *. split; [congruence|]. split; [exact SA|]. exists nn. auto.
Qed.
Lemma all_sealed_app mk l1 l2 new : all_sealed c peer mk (l1 ++ l2) new -> exists n1 n2, new = n1 ++ n2 /\ all_sealed c peer mk l1 n1 /\ all_sealed c peer mk l2 n2.
Proof. unfold all_sealed. rewrite filter_app. intros H. apply Forall2_app_inv_l in H as (n1 & n2 & H1 & H2 & ->). eauto. Qed.
Lemma asking_ghost write m : ghost (asking g write ex) m = None.
Proof.
  unfold ghost, asking, to_bytes. destruct write; cbn [opcode body_to_bytes]; unfold from_bytes;
    [change (try_from (be16 2 ++ ?z)) with (@Ok perr N 2)|change (try_from (be16 1 ++ ?z)) with (@Ok perr N 1)]; cbv iota beta; destruct (request_from_bytes _); reflexivity.
Qed.
Lemma all_sealed_client s m mk l new : (forall p, mk p = ghost p m) -> all_sealed c peer mk (sends s peer l) new -> client_sealed c s m l new.
Proof.
  unfold all_sealed, client_sealed. intros MK. rewrite filter_peer. unfold sends. revert new. induction l as [|x l IH]; intros new H; inversion H as [|? ? ? ? H1 H2]; subst; constructor; auto.
  cbn [sn_plain sn_sock] in H1. rewrite MK in H1. exact H1.
Qed.
Lemma see_none m (x : dgram) : snd x = None -> see m x = m.
Proof. unfold see. intros ->. reflexivity. Qed.

(** *** Downloads *)
Section D.
Hypothesis W2 : wc_write wc = false.
Hypothesis HA : agrees g wc keys false ex w k.
Variables (n : N) (st1 : S) (down0 up0 : list dgram) (f0 : fs).
Notation dwr := (dwreach step view c a k n).

(** A datagram with the confirmation of the answer, or with a repeated request. *)
Definition first_ack (y : dgram) : Prop :=
  again false y \/ snd y = Some 0 /\ exists nn, blen nn = 24 /\ client_send c (k_sock k) nn (to_bytes (PAck 0)) = Ok (fst y).

Lemma dw_more z s over cl stat down up sc ss W : dwr (mkDW s over cl stat down up sc ss) W ->
  dwr (mkDW s over cl stat down (up ++ z) sc ss) (mkDW (dw_srv W) (dw_over W) (dw_cl W) (dw_stat W) (dw_down W) (dw_up W ++ z) (dw_sc W) (dw_ss W)).
Proof.
  intros R. induction R as [|W W' R IH ST]; [constructor|]. eapply dwr_step; [exact IH|].
  destruct ST; cbn [dw_srv dw_over dw_cl dw_stat dw_down dw_up dw_sc dw_ss].
  - eapply dw_server; eassumption.
  - eapply dw_server_receives; try eassumption. apply in_or_app. auto.
  - eapply dw_server_later; eassumption.
  - rewrite <- app_assoc. eapply dw_client; eassumption.
Qed.

(** What the transfer is known to bring (proved elsewhere for the servers at hand): the first blocks of [F]. *)
Variable F : bytes.
Notation bs := (bs_enc (k_opts k)).
Notation nb := (nblocks F (bs_enc (k_opts k))).
Hypothesis HB : 0 < bs.
Hypothesis HT : forall z t W, Forall first_ack z -> dwr (mkDW st1 false (crecv_new t) CRun down0 (up0 ++ z) 0 0) W ->
  w_out (cr_w (dw_cl W)) = takeN (w_written (cr_w (dw_cl W)) * bs) F.
Definition blocks_to (m : N) : list bytes := map (block_of F bs) (seqN 1 (N.to_nat m)).

Lemma next_block m x : m < nb -> takeN (m * bs) F ++ x = takeN ((m + 1) * bs) F -> x = block_of F bs (m + 1).
Proof.
  intros Hm E. destruct (nblocks_bounds F bs HB) as (B1 & _ & _). unfold block_of. replace (m + 1 - 1) with m by lia.
  assert (Hl : m * bs <= blen F).
  { apply N.le_trans with ((nb - 1) * bs); [apply N.mul_le_mono_r; lia|exact B1]. }
  replace ((m + 1) * bs) with (m * bs + bs) in E by lia.
  assert (E' : takeN (m * bs + bs) F = takeN (m * bs) F ++ takeN bs (dropN (m * bs) F)).
  { rewrite <- (takeN_dropN (m * bs) F) at 1. assert (LT : blen (takeN (m * bs) F) = m * bs) by (rewrite blen_takeN; lia).
    rewrite takeN_app, LT. rewrite (takeN_all _ (takeN (m * bs) F)) by lia. do 2 f_equal. lia. }
  rewrite E' in E. apply app_inv_head in E. exact E.
Qed.
Lemma blocks_snoc m : blocks_to (m + 1) = blocks_to m ++ [block_of F bs (m + 1)].
Proof.
  unfold blocks_to. replace (N.to_nat (m + 1)) with (N.to_nat m + 1)%nat by lia. rewrite seqN_app, map_app. do 2 f_equal. cbn [seqN map].
  do 2 f_equal. lia.
Qed.

(** The run and the loop (WorldModel) it contains. *)
Definition rsim (id : N) (W : @rworld S) : Prop :=
  exists z t cl stat l u, Forall first_ack z /\
    dwr (mkDW st1 false (crecv_new t) CRun down0 (up0 ++ z) 0 0) (mkDW (rw_srv W) (rw_over W) cl stat (rw_down W) u (rw_sc W) (rw_ss W)) /\
    incl (rw_up W) u /\
    local_file (rp_fs (rw_prog W)) path = Some id /\
    l = blocks_to (w_written (cr_w cl)) /\
    (w_written (cr_w cl) <= nb /\ (stat = CRun -> w_written (cr_w cl) < nb)) /\
    (forall t, stat = CDone t -> w_written (cr_w cl) = nb) /\
    match rp_ph (rw_prog W) with
    | RAsk _ => False
    | RGet k' from key s st => k' = k /\ from = peer /\ st = cl /\ stat = CRun /\ sk_id s = id /\ sunk c fk (rp_fs (rw_prog W)) s (cr_w cl) l
    | RDone total key => stat = CDone total /\ left_in c fk (rp_fs (rw_prog W)) id (cr_w cl) l
    | RFailed => stat = CFail /\ left_in c fk (rp_fs (rw_prog W)) id (cr_w cl) l
    end.
Lemma left_keeps f f' id v l : local_file f path = Some id -> keeps path f f' -> left_in c fk f id v l -> left_in c fk f' id v l.
Proof. intros L [_ K] [CL H]. split; [exact CL|]. rewrite (K _ L). exact H. Qed.
Lemma sunk_keeps f f' s v l : local_file f path = Some (sk_id s) -> keeps path f f' -> sunk c fk f s v l -> sunk c fk f' s v l.
Proof.
  intros L [_ K] H. destruct H; cbn [sk_id] in L; [apply sunk_plain; auto|eapply sunk_stream; eauto]; rewrite (K _ L); assumption.
Qed.
Lemma keeps_refl f : keeps path f f.
Proof. split; auto. Qed.
Lemma keeps_trans f1 f2 f3 : keeps path f1 f2 -> keeps path f2 f3 -> keeps path f1 f3.
Proof. intros [A1 A2] [B1 B2]. split; [congruence|]. intros id L. rewrite B2 by congruence. auto. Qed.

(** The states of a world. *)
Definition rall (W : @rworld S) : Prop :=
  (exists w0, rp_ph (rw_prog W) = RAsk w0 /\ waits wc ex w0 /\ keeps path f0 (rp_fs (rw_prog W)) /\
     exists z u, Forall first_ack z /\ incl (rw_up W) u /\
     forall t, dwr (mkDW st1 false (crecv_new t) CRun down0 (up0 ++ z) 0 0)
                   (mkDW (rw_srv W) (rw_over W) (crecv_new t) CRun (rw_down W) u (rw_sc W) (rw_ss W))) \/
  (rp_ph (rw_prog W) = RFailed /\
     (keeps path f0 (rp_fs (rw_prog W)) \/ exists id, local_file (rp_fs (rw_prog W)) path = Some id /\ f_data (rp_fs (rw_prog W)) id = [])) \/
  exists id, rsim id W.

Lemma rsim_step id W W' : rsim id W -> rwstep step view g wc keys a peer w n W W' -> rsim id W'.
Proof.
  intros (z & t0 & cl & stat & l & u & FA & R & IU & LF & LN & LR & LD & H) ST. destruct ST as
    [s t s' o e new p down up sc ss P HR V SE | s x v s' o e new p down up sc ss P IX FR V SE | s t s' o p down up sc ss P
    | s over p down up sc ss i x p' out new CE FR SH TU SE | s over f f' ph down up sc ss K];
    cbn [rw_srv rw_over rw_prog rw_down rw_up rw_sc rw_ss] in *.
  - exists z, t0, cl, stat, l, u. cbn [rw_srv rw_over rw_prog rw_down rw_up rw_sc rw_ss]. split; [exact FA|]. split; [eapply dwr_step; [exact R|]; eapply dw_server; eassumption|]. auto 10.
  - exists z, t0, cl, stat, l, u. cbn [rw_srv rw_over rw_prog rw_down rw_up rw_sc rw_ss]. split; [exact FA|]. split; [eapply dwr_step; [exact R|]; eapply dw_server_receives; try eassumption; apply IU; exact IX|]. auto 10.
  - exists z, t0, cl, stat, l, u. cbn [rw_srv rw_over rw_prog rw_down rw_up rw_sc rw_ss]. split; [exact FA|]. split; [eapply dwr_step; [exact R|]; eapply dw_server_later; eassumption|]. auto 10.
  - unfold rsim. cbn [rw_srv rw_over rw_prog rw_down rw_up rw_sc rw_ss]. unfold receive_turn in TU. unfold rheard in CE. unfold rmark in SE.
    destruct (rp_ph p) as [w0|k' from key s1 st|total key|] eqn:EP.
    + destruct H.
    + destruct H as (-> & -> & -> & -> & SID & SK). apply transfer_ev in CE. set (dec := client_dec c (k_sock k) (op_bs (k_opts k))) in *.
      set (ev := get_ev peer (ri_ev i)) in *.
      destruct (store c (rp_fs p) s1 (get_data dec (cr_w cl) ev) i) as [[[f' s'] io] short] eqn:ES.
      destruct (recv_step dec (k_opts k) (k_max k) (k_timeout k) cl ev (ri_now i) io short (ri_sock i) (ri_text i)) as [[st' plain] stat'] eqn:ER.
      injection TU as <- <-. cbn [rp_fs rp_ph].
      destruct (store_cases _ _ _ _ _ _ _ _ _ _ _ _ HC SK SH ES) as (-> & SI & SJ & SN & SX).
      pose proof (recv_step_file _ _ _ _ _ _ _ _ _ _ _ _ _ ER) as RF.
      assert (LF' : local_file f' path = Some id) by (rewrite (local_store _ _ _ _ _ _ _ _ _ _ ES); exact LF).
      assert (MK : forall m, w_written (cr_w st') = m -> all_sealed c peer (fun p => ghost p m) (sends (k_sock k) peer plain) new ->
        dwr (mkDW st1 false (crecv_new t0) CRun down0 (up0 ++ z) 0 0) (mkDW s over st' stat' down (new ++ u) (see sc x) ss)).
      { intros m EM SE'. eapply dwr_step; [exact R|]. eapply dw_client with (e := ev) (v := mkEnv (ri_now i) io None (ri_sock i) (ri_text i)); try eassumption; try reflexivity.
        rewrite EM. eapply all_sealed_client; [|exact SE']. reflexivity. }
      assert (IU' : incl (new ++ up) (new ++ u)) by (apply incl_app; [apply incl_appl, incl_refl|apply incl_appr; exact IU]).
      destruct (get_data dec (cr_w cl) ev) as [x0|] eqn:EG.
      * specialize (SX _ eq_refl). destruct io.
        -- destruct RF as (O & NW & ->). exists z, t0, st', CFail, l, (new ++ u). split; [exact FA|]. split; [apply (MK _ NW); rewrite N.add_0_r in SE; exact SE|]. split; [exact IU'|]. split; [exact LF'|].
           split; [rewrite NW; exact LN|]. split; [rewrite NW; split; [apply LR|discriminate]|]. split; [discriminate|]. split; [reflexivity|]. rewrite <- SID. destruct SX as [CL X]. split; [rewrite O; exact CL|].
           destruct fk; [exact X|rewrite O; exact X].
        -- destruct RF as (O & NW & ST). specialize (SX _ O). exists z, t0, st', stat', (l ++ [x0]), (new ++ u).
           pose proof (MK _ NW SE) as MK'.
           split; [exact FA|]. split; [exact MK'|]. split; [exact IU'|]. split; [exact LF'|].
           destruct LR as [LR LR']. specialize (LR' eq_refl).
           assert (XB : x0 = block_of F bs (w_written (cr_w cl) + 1)).
           { apply next_block; [exact LR'|]. pose proof (HT _ _ _ FA MK') as H1. pose proof (HT _ _ _ FA R) as H2. cbn [dw_cl] in H1, H2.
             rewrite <- H2, <- NW, <- H1, O. reflexivity. }
           split; [rewrite NW, blocks_snoc, <- LN, <- XB; reflexivity|].
           assert (XS : blen x0 < bs <-> w_written (cr_w cl) + 1 = nb) by (rewrite XB; apply block_short; [exact HB|lia|lia]).
           rewrite NW.
           destruct ST as [->|[ET ST]].
           { split; [split; [lia|discriminate]|]. split; [discriminate|]. split; [reflexivity|]. apply sunk_left in SX. rewrite SI, SID in SX. exact SX. }
           destruct (N.ltb_spec (blen x0) bs) as [LB|LB]; subst stat'.
           { split; [split; [lia|discriminate]|]. split; [intros t _; apply XS; exact LB|]. split; [reflexivity|]. apply sunk_left in SX. rewrite SI, SID in SX. exact SX. }
           split; [split; [lia|intros _; lia]|]. split; [discriminate|].
           repeat (split; [reflexivity|]). split; [rewrite SI; exact SID|exact SX].
      * destruct (SN eq_refl) as [-> ->]. destruct RF as (O & NW & ND). exists z, t0, st', stat', l, (new ++ u).
        split; [exact FA|]. split; [apply (MK _ NW); rewrite N.add_0_r in SE; exact SE|]. split; [exact IU'|]. split; [exact LF|].
        rewrite NW. split; [exact LN|]. split; [split; [apply LR|intros _; apply LR; reflexivity]|].
        split; [intros t X; destruct (ND _ X)|].
        assert (SK' : sunk c fk (rp_fs p) s1 (cr_w st') l).
        { clear - SK O. destruct SK; rewrite <- O in *; [apply sunk_plain; auto|eapply sunk_stream; eauto]. }
        destruct stat' as [|t|]; [|destruct (ND t eq_refl)|].
        -- repeat (split; [reflexivity|]). split; [exact SID|exact SK'].
        -- split; [reflexivity|]. rewrite <- SID. apply sunk_left. exact SK'.
    + injection TU as <- <-. inversion SE; subst. cbn [app]. rewrite EP. exists z, t0, cl, stat, (blocks_to (w_written (cr_w cl))), u. rewrite see_none by exact CE. split; [exact FA|]. split; [exact R|]. split; [exact IU|]. split; [exact LF|]. split; [reflexivity|]. do 2 (split; [assumption|]). exact H.
    + injection TU as <- <-. inversion SE; subst. cbn [app]. rewrite EP. exists z, t0, cl, stat, (blocks_to (w_written (cr_w cl))), u. rewrite see_none by exact CE. split; [exact FA|]. split; [exact R|]. split; [exact IU|]. split; [exact LF|]. split; [reflexivity|]. do 2 (split; [assumption|]). exact H.
  - cbn [rp_fs rp_ph] in *. exists z, t0, cl, stat, l, u. cbn [rw_srv rw_over rw_prog rw_down rw_up rw_sc rw_ss rp_fs rp_ph]. split; [exact FA|]. split; [exact R|]. split; [exact IU|].
    split; [destruct K as [K _]; rewrite K; exact LF|]. do 3 (split; [assumption|]). destruct ph as [w0|k' from key s1 st|total key|].
    + exact H.
    + destruct H as (H1 & H2 & H3 & H4 & H5 & H6). repeat (split; [assumption|]). eapply sunk_keeps; [|exact K|exact H6]. rewrite H5. exact LF.
    + destruct H as [H1 H2]. split; [exact H1|]. eapply left_keeps; eassumption.
    + destruct H as [H1 H2]. split; [exact H1|]. eapply left_keeps; eassumption.
Qed.

Lemma rall_step W W' : rall W -> rwstep step view g wc keys a peer w n W W' -> rall W'.
Proof.
  intros [(w0 & EP & WT & KP & z & u & FA & IU & R)|[(EP & FL)|(id & H)]] ST; [| |right; right; exists id; eapply rsim_step; eassumption].
  - destruct ST as
      [s t s' o e new p down up sc ss P HR V SE | s x v s' o e new p down up sc ss P IX FR V SE | s t s' o p down up sc ss P
      | s over p down up sc ss i x p' out new CE FR SH TU SE | s over f f' ph down up sc ss K];
      cbn [rw_srv rw_over rw_prog rw_down rw_up rw_sc rw_ss] in *.
    + left. exists w0. cbn [rw_srv rw_over rw_prog rw_down rw_up rw_sc rw_ss]. do 3 (split; [assumption|]). exists z, u. do 2 (split; [assumption|]). intros t0. eapply dwr_step; [apply R|]. eapply dw_server; eassumption.
    + left. exists w0. cbn [rw_srv rw_over rw_prog rw_down rw_up rw_sc rw_ss]. do 3 (split; [assumption|]). exists z, u. do 2 (split; [assumption|]). intros t0. eapply dwr_step; [apply R|]. eapply dw_server_receives; try eassumption. apply IU. exact IX.
    + left. exists w0. cbn [rw_srv rw_over rw_prog rw_down rw_up rw_sc rw_ss]. do 3 (split; [assumption|]). exists z, u. do 2 (split; [assumption|]). intros t0. eapply dwr_step; [apply R|]. eapply dw_server_later; eassumption.
    + unfold receive_turn in TU. unfold rheard in CE. unfold rmark in SE. rewrite EP in TU, CE, SE. destruct CE as [AO XN].
      set (ask := sends (wc_sock wc) (CliModel.cl_endpoint (ru_start g)) (when (ri_sock i) [asking g false (ws_used w0)])) in TU.
      pose proof (wait_cases g wc keys ex false w k peer w0 (ri_sock i) (ri_ev i) (ri_now i) W1 W2 W3 P1 HA AO WT) as WTC.
      unfold ask in TU. rewrite (proj1 (proj2 WT)) in TU. clear ask.
      destruct (wait_turn wc w0 _) as [w1| | |er| |q pt].
      * injection TU as <- <-. left. exists w1. cbn [rw_srv rw_over rw_prog rw_down rw_up rw_sc rw_ss rp_ph rp_fs]. split; [reflexivity|]. split; [exact WTC|]. split; [exact KP|].
        apply ask_again in SE; [|apply asking_ghost]. rewrite see_none by exact XN. exists (z ++ new), (u ++ new). split; [apply Forall_app; split; [exact FA|eapply Forall_impl; [|exact SE]; intros y Y; left; exact Y]|].
        split; [apply incl_app; [apply incl_appr, incl_refl|apply incl_appl; exact IU]|]. intros t. rewrite app_assoc. exact (dw_more new _ _ _ _ _ _ _ _ _ (R t)).
      * injection TU as <- <-. right. left. cbn [rw_prog rp_ph rp_fs]. auto.
      * injection TU as <- <-. right. left. cbn [rw_prog rp_ph rp_fs]. auto.
      * destruct WTC.
      * injection TU as <- <-. right. left. cbn [rw_prog rp_ph rp_fs]. auto.
      * destruct WTC as (SO & EV & [QA|?] & QD & AG); [|discriminate]. rewrite EV in TU.
        destruct (receive_accepted g (agreed g wc keys q) (auth_key q) peer q (rp_fs p) i) as [p1 out1] eqn:RA. injection TU as <- <-.
        rewrite AG in RA. unfold receive_accepted in RA. destruct (create_writer (rp_fs p) path) as [f1 [id|]] eqn:CW; pose proof (create_writer_cases _ _ _ _ CW) as WC.
        2:{ injection RA as <- <-. cbn beta iota in WC. right. left. cbn [rw_prog rp_ph rp_fs]. rewrite WC. auto. }
        destruct WC as (L1 & D1 & _). rewrite QD in RA. cbn [fst snd] in RA.
        destruct (match op_size (k_opts k) with Some n => cl_size_ok n (k_max k) | None => true end).
        2:{ injection RA as <- <-. right. left. cbn [rw_prog rp_ph rp_fs]. split; [reflexivity|]. right. eauto. }
        rewrite QA, SO in RA. cbn [andb negb when] in RA. injection RA as <- <-. right. right. exists id.
        apply all_sealed_app in SE as (n1 & n2 & -> & SE1 & SE). apply ask_again in SE1; [|apply asking_ghost].
        unfold all_sealed in SE. cbn [sends map app] in SE.
        change [mkSent (k_sock k) peer (to_bytes (PAck 0))] with (sends (k_sock k) peer [to_bytes (PAck 0)]) in SE. rewrite filter_peer in SE.
        exists (z ++ n1 ++ n2), (ri_now i), (crecv_new (ri_now i)), CRun, [], (u ++ n1 ++ n2). cbn [rw_srv rw_over rw_prog rw_down rw_up rw_sc rw_ss rp_ph rp_fs].
        split.
        { apply Forall_app. split; [exact FA|]. apply Forall_app. split; [eapply Forall_impl; [|exact SE1]; intros y Y; left; exact Y|].
          inversion SE as [|? d ? ? (SH' & GH & nn & Hn & CS) SE']; subst. inversion SE'; subst. constructor; [|constructor]. right. split; [exact GH|]. exists nn. auto. }
        split; [rewrite see_none by exact XN; rewrite app_assoc; exact (dw_more (n1 ++ n2) _ _ _ _ _ _ _ _ _ (R (ri_now i)))|].
        split; [apply incl_app; [apply incl_appr, incl_refl|apply incl_appl; exact IU]|]. split; [exact L1|]. split; [reflexivity|].
        split; [cbn; destruct (nblocks_bounds F bs HB) as (_ & _ & X); split; lia|]. split; [discriminate|]. repeat (split; [reflexivity|]).
        destruct fk as [key|] eqn:FK; cbn [option_map].
        -- change 0 with (blen (sw_out (sw_new key))). eapply sunk_stream; [reflexivity|constructor|exact D1|reflexivity].
        -- change 0 with (blen (w_out writer_new)) at 1. apply sunk_plain; [reflexivity|exact D1|reflexivity].
    + left. exists w0. cbn [rw_srv rw_over rw_prog rw_down rw_up rw_sc rw_ss rp_ph rp_fs]. do 2 (split; [assumption|]). split; [eapply keeps_trans; eassumption|]. exists z, u. auto.
  - right. left. destruct ST as
      [s t s' o e new p down up sc ss P HR V SE | s x v s' o e new p down up sc ss P IX FR V SE | s t s' o p down up sc ss P
      | s over p down up sc ss i x p' out new CE FR SH TU SE | s over f f' ph down up sc ss K];
      cbn [rw_srv rw_over rw_prog rw_down rw_up rw_sc rw_ss rp_ph rp_fs] in *; auto.
    + unfold receive_turn in TU. rewrite EP in TU. injection TU as <- <-. auto.
    + split; [exact EP|]. destruct FL as [KP|(id & L & D)]; [left; eapply keeps_trans; eassumption|]. right. exists id. destruct K as [K1 K2]. rewrite K1, (K2 _ L). auto.
Qed.
Lemma rall_reach W0 W : rall W0 -> rwreach step view g wc keys a peer w n W0 W -> rall W.
Proof. intros H R. induction R; [exact H|]. eapply rall_step; eassumption. Qed.
End D.

(** *** Uploads *)
Section U.
Hypothesis W2 : wc_write wc = true.
Hypothesis HA : agrees g wc keys true ex w k.
Variables (n : N) (st1 : S) (down0 up0 : list dgram) (src : source) (F0 : bytes).
Notation file := (read_as g F0 (bs_enc (k_opts k))).
Notation uwr := (uwreach step view c a k file n).
Notation cl0 t := (mkCS (file_reader (k_opts k) (CliModel.cl_seek (ru_start g))) 0 t).

Definition first_sent (y : dgram) : Prop :=
  again true y \/ snd y = None /\ exists nn, blen nn = 24 /\ client_send c (k_sock k) nn (to_bytes (PAck 0)) = Ok (fst y).

Lemma uw_more z s over kept cl stat down up sc ss W : uwr (mkUW s over kept cl stat down up sc ss) W ->
  uwr (mkUW s over kept cl stat down (up ++ z) sc ss)
      (mkUW (uw_srv W) (uw_over W) (uw_kept W) (uw_cl W) (uw_stat W) (uw_down W) (uw_up W ++ z) (uw_sc W) (uw_ss W)).
Proof.
  intros R. induction R as [|W W' R IH ST]; [constructor|]. eapply uwr_step; [exact IH|].
  destruct ST; cbn [uw_srv uw_over uw_kept uw_cl uw_stat uw_down uw_up uw_sc uw_ss].
  - eapply uw_server; eassumption.
  - eapply uw_server_receives; try eassumption. apply in_or_app. auto.
  - eapply uw_server_later; eassumption.
  - rewrite <- app_assoc. eapply uw_client_sends; eassumption.
  - eapply uw_client_receives; eassumption.
Qed.
Lemma sender_fail fl cl buflen retry io sock cl' plain stat : sender_send fl cl buflen retry io sock = (cl', plain, stat) -> stat = CRun \/ stat = CFail.
Proof.
  unfold sender_send. destruct (reader_next _ _ _ _ _) as [r1 res]. destruct res as [[b|]|[|]|].
  - destruct sock as [[]|]; intros H; injection H as _ _ <-; auto.
  - intros H; injection H as _ _ <-; auto.
  - intros H; injection H as _ _ <-; destruct io; auto.
  - intros H; injection H as _ _ <-; auto.
  - intros H; injection H as _ _ <-; auto.
Qed.

Definition usim (W : @sworld S) : Prop :=
  exists z t cl stat u sc', Forall first_sent z /\
    uwr (mkUW st1 false [] (cl0 t) CRun down0 (up0 ++ z) 0 0) (mkUW (sv_srv W) (sv_over W) (sv_kept W) cl stat (sv_down W) u sc' (sv_ss W)) /\
    incl (sv_up W) u /\ (stat = CRun -> sc' = sv_sc W) /\ content (sv_fs W) (Some (Reads src)) = F0 /\
    match sv_prog W with
    | UAsk _ _ => False
    | USend k' from key src' st => k' = k /\ from = peer /\ src' = src /\ st = cl /\ stat = CRun
    | UDone total key => stat = CDone total
    | UFailed => stat = CFail
    end.
Definition uall (W : @sworld S) : Prop :=
  (exists w0, sv_prog W = UAsk src w0 /\ waits wc ex w0 /\ content (sv_fs W) (Some (Reads src)) = F0 /\
     exists z u, Forall first_sent z /\ incl (sv_up W) u /\
     forall t, uwr (mkUW st1 false [] (cl0 t) CRun down0 (up0 ++ z) 0 0)
                   (mkUW (sv_srv W) (sv_over W) (sv_kept W) (cl0 t) CRun (sv_down W) u (sv_sc W) (sv_ss W))) \/
  (exists z t cl u sc', sv_prog W = UFailed /\ Forall first_sent z /\
     uwr (mkUW st1 false [] (cl0 t) CRun down0 (up0 ++ z) 0 0) (mkUW (sv_srv W) (sv_over W) (sv_kept W) cl CRun (sv_down W) u sc' (sv_ss W)) /\
     incl (sv_up W) u /\ content (sv_fs W) (Some (Reads src)) = F0) \/
  usim W.

Lemma usim_step W W' : usim W -> swstep step view g wc keys a peer w src n W W' -> usim W'.
Proof.
  intros (z & t0 & cl & stat & u & sc' & FA & R & IU & SC & CO & H) ST. destruct ST as
    [s t s' o e new kept f p down up sc ss P HR V SE | s x v s' o e new kept f p down up sc ss P ES IX FR V SE | s t s' o kept f p down up sc ss P
    | s over kept f p down up sc ss i x p' out new CE FR TU SE | s over kept f f' p down up sc ss K];
    cbn [sv_srv sv_over sv_kept sv_fs sv_prog sv_down sv_up sv_sc sv_ss] in *;
    unfold usim; cbn [sv_srv sv_over sv_kept sv_fs sv_prog sv_down sv_up sv_sc sv_ss].
  - exists z, t0, cl, stat, u, sc'. split; [exact FA|]. split; [eapply uwr_step; [exact R|]; eapply uw_server; eassumption|]. auto.
  - exists z, t0, cl, stat, u, sc'. split; [exact FA|]. split; [eapply uwr_step; [exact R|]; eapply uw_server_receives; try eassumption; apply IU; exact IX|]. auto.
  - exists z, t0, cl, stat, u, sc'. split; [exact FA|]. split; [eapply uwr_step; [exact R|]; eapply uw_server_later; eassumption|]. auto.
  - unfold send_turn in TU. unfold uheard in CE. unfold umark in SE.
    destruct p as [sr w0|k' from key sr st|total key|].
    + destruct H.
    + destruct H as (-> & -> & -> & -> & ->). apply transfer_ev in CE. specialize (SC eq_refl). subst sc'. rewrite CO in TU, SE.
      set (buflen := N.max (op_bs (k_opts k) + DATA_PACKET_HEADER_SIZE) MIN_BUFFER_SIZE) in *.
      destruct (sender_send file cl buflen (si_retry i) (read_io g src (cs_r cl) (si_retry i) (si_io i)) (si_sock i)) as [[st2 plain] stat1] eqn:E1.
      cbn [fst] in SE.
      assert (IU' : incl (new ++ up) (new ++ u)) by (apply incl_app; [apply incl_appl, incl_refl|apply incl_appr; exact IU]).
      assert (R1 : all_sealed c peer (fun p => ghost p (reader_cur (cs_r st2))) (sends (k_sock k) peer plain) new ->
        uwr (mkUW st1 false [] (cl0 t0) CRun down0 (up0 ++ z) 0 0) (mkUW s over kept st2 stat1 down (new ++ u) sc ss)).
      { intros SE'. eapply uwr_step; [exact R|]. eapply uw_client_sends; [|exact E1|].
        - unfold buflen. apply N.le_max_l.
        - eapply all_sealed_client; [|exact SE']. reflexivity. }
      destruct (sender_fail _ _ _ _ _ _ _ _ _ E1) as [->| ->].
      * destruct (sender_recv (client_dec c (k_sock k) (op_bs (k_opts k))) (k_timeout k) st2 (get_ev peer (si_ev i)) (si_now i)) as [st3 stat2] eqn:E2.
        injection TU as <- <-. exists z, t0, st3, stat2, (new ++ u), (see sc x). split; [exact FA|].
        split; [eapply uwr_step; [exact (R1 SE)|]; eapply uw_client_receives; eassumption|]. split; [exact IU'|]. split; [reflexivity|]. split; [exact CO|].
        destruct stat2; auto.
      * injection TU as <- <-. exists z, t0, st2, CFail, (new ++ u), sc. split; [exact FA|]. split; [exact (R1 SE)|]. split; [exact IU'|]. split; [discriminate|]. auto.
    + injection TU as <- <-. inversion SE; subst. exists z, t0, cl, (CDone total), u, sc'. cbn [app]. repeat (split; [assumption|]). split; [discriminate|]. auto.
    + injection TU as <- <-. inversion SE; subst. exists z, t0, cl, CFail, u, sc'. cbn [app]. repeat (split; [assumption|]). split; [discriminate|]. auto.
  - exists z, t0, cl, stat, u, sc'. repeat (split; [assumption|]). split; [rewrite K; exact CO|exact H].
Qed.
Lemma uall_step W W' : uall W -> swstep step view g wc keys a peer w src n W W' -> uall W'.
Proof.
  intros [(w0 & EP & WT & CO & z & u & FA & IU & R)|[(z & t0 & cl & u & sc' & EP & FA & R & IU & CO)|H]] ST; [| |right; right; eapply usim_step; eassumption].
  - destruct ST as
      [s t s' o e new kept f p down up sc ss P HR V SE | s x v s' o e new kept f p down up sc ss P ES IX FR V SE | s t s' o kept f p down up sc ss P
      | s over kept f p down up sc ss i x p' out new CE FR TU SE | s over kept f f' p down up sc ss K];
      cbn [sv_srv sv_over sv_kept sv_fs sv_prog sv_down sv_up sv_sc sv_ss] in *.
    + left. exists w0. cbn [sv_srv sv_over sv_kept sv_fs sv_prog sv_down sv_up sv_sc sv_ss]. do 3 (split; [assumption|]). exists z, u. do 2 (split; [assumption|]). intros t0. eapply uwr_step; [apply R|]. eapply uw_server; eassumption.
    + left. exists w0. cbn [sv_srv sv_over sv_kept sv_fs sv_prog sv_down sv_up sv_sc sv_ss]. do 3 (split; [assumption|]). exists z, u. do 2 (split; [assumption|]). intros t0. eapply uwr_step; [apply R|]. eapply uw_server_receives; try eassumption. apply IU. exact IX.
    + left. exists w0. cbn [sv_srv sv_over sv_kept sv_fs sv_prog sv_down sv_up sv_sc sv_ss]. do 3 (split; [assumption|]). exists z, u. do 2 (split; [assumption|]). intros t0. eapply uwr_step; [apply R|]. eapply uw_server_later; eassumption.
    + subst p. unfold send_turn in TU. unfold uheard in CE. unfold umark in SE. destruct CE as [AO XN].
      set (sock := match si_sock i with Some true => true | _ => false end) in TU.
      set (ask := sends (wc_sock wc) (CliModel.cl_endpoint (ru_start g)) (when sock [asking g true (ws_used w0)])) in TU.
      pose proof (wait_cases g wc keys ex true w k peer w0 sock (si_ev i) (si_now i) W1 W2 W3 P1 HA AO WT) as WTC.
      assert (QU : all_sealed c peer (fun _ => None) ask new -> Forall first_sent (z ++ new) /\ incl (new ++ up) (u ++ new)).
      { unfold ask. rewrite (proj1 (proj2 WT)). intros X. apply ask_again in X; [|reflexivity]. split.
        - apply Forall_app. split; [exact FA|]. eapply Forall_impl; [|exact X]. intros y Y. left. exact Y.
        - apply incl_app; [apply incl_appr, incl_refl|apply incl_appl; exact IU]. }
      assert (FL : (UFailed, ask) = (p', out) -> uall (mkSW_ s over kept f p' down (new ++ up) (see sc x) ss)).
      { intros [= <- <-]. destruct (QU SE) as [Q1 Q2]. right. left. exists (z ++ new), 0, (cl0 0), (u ++ new), sc. cbn [sv_srv sv_over sv_kept sv_fs sv_prog sv_down sv_up sv_sc sv_ss].
        split; [reflexivity|]. split; [exact Q1|]. split; [rewrite app_assoc; exact (uw_more new _ _ _ _ _ _ _ _ _ _ (R 0))|]. split; [exact Q2|exact CO]. }
      destruct (wait_turn wc w0 _) as [w1| | |er| |q pt].
      * injection TU as <- <-. left. exists w1. destruct (QU SE) as [Q1 Q2]. cbn [sv_srv sv_over sv_kept sv_fs sv_prog sv_down sv_up sv_sc sv_ss]. split; [reflexivity|]. split; [exact WTC|]. split; [exact CO|].
        rewrite see_none by exact XN. exists (z ++ new), (u ++ new). split; [exact Q1|]. split; [exact Q2|]. intros t. rewrite app_assoc. exact (uw_more new _ _ _ _ _ _ _ _ _ _ (R t)).
      * exact (FL TU).
      * exact (FL TU).
      * destruct WTC.
      * exact (FL TU).
      * destruct WTC as (SO & EV & _ & QD & AG). rewrite EV in TU. rewrite AG, SO in TU. unfold send_accepted in TU. rewrite Bool.andb_false_r in TU. injection TU as <- <-.
        right. right. apply all_sealed_app in SE as (n1 & n2 & -> & SE1 & SE). unfold ask in SE1. rewrite (proj1 (proj2 WT)) in SE1. apply ask_again in SE1; [|reflexivity].
        unfold all_sealed in SE. rewrite filter_peer in SE.
        exists (z ++ n1 ++ n2), (si_now i), (cl0 (si_now i)), CRun, (u ++ n1 ++ n2), sc. cbn [sv_srv sv_over sv_kept sv_fs sv_prog sv_down sv_up sv_sc sv_ss].
        split.
        { apply Forall_app. split; [exact FA|]. apply Forall_app. split; [eapply Forall_impl; [|exact SE1]; intros y Y; left; exact Y|].
          destruct (q_ack q); cbn [when sends map] in SE; [|inversion SE; constructor].
          inversion SE as [|? d ? ? (SH' & GH & nn & Hn & CS) SE']; subst. inversion SE'; subst. constructor; [|constructor]. right. split; [exact GH|]. exists nn. auto. }
        split; [rewrite app_assoc; exact (uw_more (n1 ++ n2) _ _ _ _ _ _ _ _ _ _ (R (si_now i)))|].
        split; [apply incl_app; [apply incl_appr, incl_refl|apply incl_appl; exact IU]|]. split; [rewrite see_none by exact XN; reflexivity|]. split; [exact CO|]. auto.
    + left. exists w0. cbn [sv_srv sv_over sv_kept sv_fs sv_prog sv_down sv_up sv_sc sv_ss]. do 2 (split; [assumption|]). split; [rewrite K; exact CO|]. exists z, u. auto.
  - right. left. destruct ST as
      [s t s' o e new kept f p down up sc ss P HR V SE | s x v s' o e new kept f p down up sc ss P ES IX FR V SE | s t s' o kept f p down up sc ss P
      | s over kept f p down up sc ss i x p' out new CE FR TU SE | s over kept f f' p down up sc ss K];
      cbn [sv_srv sv_over sv_kept sv_fs sv_prog sv_down sv_up sv_sc sv_ss] in *; exists z, t0, cl, u, sc'; cbn [sv_srv sv_over sv_kept sv_fs sv_prog sv_down sv_up sv_sc sv_ss].
    + do 2 (split; [assumption|]). split; [eapply uwr_step; [exact R|]; eapply uw_server; eassumption|]. auto.
    + do 2 (split; [assumption|]). split; [eapply uwr_step; [exact R|]; eapply uw_server_receives; try eassumption; apply IU; exact IX|]. auto.
    + do 2 (split; [assumption|]). split; [eapply uwr_step; [exact R|]; eapply uw_server_later; eassumption|]. auto.
    + subst p. injection TU as <- <-. inversion SE; subst. cbn [app]. auto 10.
    + repeat (split; [assumption|]). rewrite K. exact CO.
Qed.
Lemma uall_reach W0 W : uall W0 -> swreach step view g wc keys a peer w src n W0 W -> uall W.
Proof. intros H R. induction R; [exact H|]. eapply uall_step; eassumption. Qed.
End U.
End R.
