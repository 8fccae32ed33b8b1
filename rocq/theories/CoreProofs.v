(** The invariant of a transfer, stated on the sender's reader, the receiver's writer and the
    datagrams in flight; shared by downloads and uploads. *)
From Verif Require Import Base BaseProofs PacketModel PacketSpec PacketProofs MapperModel MapperProofs ReaderModel
  ReaderSpec BlockLemmas ReaderProofs WriterSpec WriterProofs ConfigModel ConnModel ClientModel SystemModel.

Lemma decode_data b d : b < 65536 -> from_bytes (to_bytes (PData b d)) = Ok (PData b d).
Proof. intros H. apply round_trip; [exact H|discriminate]. Qed.
Lemma decode_ack b : b < 65536 -> from_bytes (to_bytes (PAck b)) = Ok (PAck b).
Proof. intros H. apply round_trip; [exact H|discriminate]. Qed.
Lemma decode_error c m : match from_bytes (to_bytes (PError c m)) with
  | Ok (PError _ _) => True | Err _ => True | _ => False end.
Proof.
  assert (H : from_bytes (to_bytes (PError c m)) = error_from_bytes (be16 (ecode_num c) ++ m ++ [0])).
  { reflexivity. }
  rewrite H. unfold error_from_bytes. destruct (try_from _) as [k|e|] eqn:E; [|exact I|].
  - destruct (ecode_of k); [|exact I]. destruct (split_nul _) as [[msg r]|]; [|exact I].
    destruct (utf8 msg); exact I.
  - cbn in E. discriminate.
Qed.
Lemma ghost_data b d i : b < 65536 -> ghost (to_bytes (PData b d)) i = Some i.
Proof. intros H. unfold ghost. rewrite decode_data by assumption. reflexivity. Qed.
Lemma ghost_ack b i : b < 65536 -> ghost (to_bytes (PAck b)) i = Some i.
Proof. intros H. unfold ghost. rewrite decode_ack by assumption. reflexivity. Qed.
Lemma ghost_error c m i : ghost (to_bytes (PError c m)) i = None.
Proof.
  unfold ghost. pose proof (decode_error c m) as H.
  destruct (from_bytes (to_bytes (PError c m))) as [[]| |]; try contradiction; reflexivity.
Qed.

Section C.
Variable P : params.
Variables decR decS : bytes -> option bytes.   (* receiver's and sender's decryption *)
Hypothesis HP : valid P.
Notation file := (p_file P).
Notation bs := (p_bs P).
Notation w := (op_window (p_opts P)).
Notation n := (p_n P).
Notation blk := (block_of file bs).
Notation pre := (prefix_size file bs).

Lemma bs_pos : 0 < bs /\ bs < 65536 /\ bs <= op_bs (p_opts P).
Proof.
  destruct HP as (H1 & H2 & _). unfold p_bs, bs_enc, ENCRYPTION_TAG_SIZE, ENCRYPTION_NONCE_SIZE, ENCRYPTION_PADDING_SIZE.
  destruct (op_enc (p_opts P)); lia.
Qed.

Definition MapOk (m : mapper) (seen : N) : Prop :=
  if n <=? 55535 then m = mapper_new else w <= 10000 /\ MapInv m seen.

Lemma map_ok_init : MapOk mapper_new 0.
Proof.
  unfold MapOk. destruct (N.leb_spec n 55535) as [H|H]; [reflexivity|].
  destruct HP as (_ & _ & _ & _ & [H'|H']); [lia|]. split; [assumption|apply mapper_new_inv].
Qed.
Lemma map_ok_step m seen i : MapOk m seen -> i <= n -> i <= seen + w ->
  (n <= 55535 \/ seen <= i + 10000) ->
  fst (map_index m (i mod 65536)) = i /\ MapOk (snd (map_index m (i mod 65536))) (N.max seen i).
Proof.
  unfold MapOk. destruct (N.leb_spec n 55535) as [Hn|Hn].
  - intros -> Hi _ _. rewrite map_index_small by lia. auto.
  - intros [Hw H] Hi Hs [Ho|Ho]; [lia|].
    destruct (map_index_near m seen i H ltac:(lia) Ho). auto.
Qed.

Definition data_ok (h : N) (d : dgram) : Prop :=
  match snd d with
  | Some i => 1 <= i /\ i <= h /\ decR (fst d) = Some (to_bytes (PData (i mod 65536) (blk i)))
  | None => match decR (fst d) with
            | Some p => match from_bytes p with Ok (PData _ _) => False | _ => True end
            | None => True
            end
  end.
Definition ack_ok (k : N) (d : dgram) : Prop :=
  match snd d with
  | Some i => i <= k /\ decS (fst d) = Some (to_bytes (PAck (i mod 65536)))
  | None => match decS (fst d) with
            | Some p => match from_bytes p with Ok (PAck _) => False | _ => True end
            | None => True
            end
  end.
Lemma data_ok_mono h h' d : h <= h' -> data_ok h d -> data_ok h' d.
Proof. unfold data_ok. destruct (snd d); [|auto]. intros ? (? & ? & ?). repeat split; try assumption; lia. Qed.
Lemma ack_ok_mono k k' d : k <= k' -> ack_ok k d -> ack_ok k' d.
Proof. unfold ack_ok. destruct (snd d); [|auto]. intros ? (? & ?). split; [lia|assumption]. Qed.

Definition Core (s : win) (r : reader) (wr : writer) (data acks : list dgram) (seenR seenS : N) : Prop :=
  exists m,
  Sim file bs w (p_kind P) r m s /\ MapOk m seenS /\ MapOk (w_map wr) seenR /\
  w_out wr = takeN (pre (w_written wr)) file /\
  conf s <= seenS /\ seenS <= w_written wr /\ w_written wr <= seenR /\ seenR <= hi s /\
  Forall (data_ok (hi s)) data /\ Forall (ack_ok (w_written wr)) acks.

Lemma window_le : window_of (p_kind P) w <= w.
Proof. destruct HP as (_ & _ & H & _). destruct (p_kind P); cbn; lia. Qed.

Lemma core_win s r wr data acks sr ss : Core s r wr data acks sr ss ->
  conf s <= w_written wr /\ w_written wr <= hi s /\ hi s <= n /\ hi s <= w_written wr + w /\ hi s <= conf s + w.
Proof.
  intros (m & [(W1 & W2 & W3 & W4 & _) _] & _ & _ & _ & H1 & H2 & H3 & H4 & _).
  pose proof window_le. repeat split; try lia; exact W3.
Qed.

Lemma core_init down up :
  Forall (stale_for_receiver decR) down -> Forall (stale_for_sender decS) up ->
  Core (mkWin 0 0 0) (new_reader (p_kind P) bs w) writer_new down up 0 0.
Proof.
  intros HD HU. destruct bs_pos as (B1 & B2 & B3). exists mapper_new. cbn [conf hi cur w_map w_out w_written writer_new].
  split; [eapply sim_init; eauto|]. split; [apply map_ok_init|]. split; [apply map_ok_init|].
  split; [rewrite prefix_0; reflexivity|]. do 4 (split; [lia|]).
  split.
  - eapply Forall_impl; [|exact HD]. intros d [H1 H2]. unfold data_ok. rewrite H1. exact H2.
  - eapply Forall_impl; [|exact HU]. intros d [[H1 H2]|[H1 H2]]; unfold ack_ok; rewrite H1; [exact H2|].
    split; [lia|exact H2].
Qed.

(** Adding datagrams that carry neither data nor acknowledgements. *)
Lemma core_other_data s r wr data acks sr ss new :
  Core s r wr data acks sr ss -> Forall (data_ok (hi s)) new -> Core s r wr (new ++ data) acks sr ss.
Proof.
  intros (m & H1 & H2 & H3 & H4 & H5 & H6 & H7 & H8 & H9 & H10) HF. exists m.
  do 8 (split; [assumption|]). split; [apply Forall_app; auto|assumption].
Qed.
Lemma core_other_acks s r wr data acks sr ss new :
  Core s r wr data acks sr ss -> Forall (ack_ok (w_written wr)) new -> Core s r wr data (new ++ acks) sr ss.
Proof.
  intros (m & H1 & H2 & H3 & H4 & H5 & H6 & H7 & H8 & H9 & H10) HF. exists m.
  do 8 (split; [assumption|]). split; [assumption|apply Forall_app; auto].
Qed.

(** The sender produces a block (or not). *)
Lemma core_next s r wr data acks sr ss cap retry io r' res :
  Core s r wr data acks sr ss -> bs <= cap ->
  reader_next file r cap retry io = (r', res) ->
  exists s', spec_next (p_kind P) file bs w s retry io = (s', res) /\
  Core s' r' wr data acks sr ss /\
  (forall b, res = Ok (Some b) -> reader_cur r' = o_index b).
Proof.
  intros (m & H1 & H2 & H3 & H4 & H5 & H6 & H7 & H8 & H9 & H10) Hcap E.
  destruct bs_pos as (B1 & B2 & B3).
  destruct (sim_next file bs w cap B1 B2 Hcap (p_kind P) r m s retry io H1) as [E1 E2].
  rewrite E in E1, E2. cbn [fst snd] in *.
  destruct (spec_next (p_kind P) file bs w s retry io) as [s' res'] eqn:Es. cbn [fst snd] in *. subst res'.
  pose proof (spec_next_cases file bs w cap B1 B2 Hcap (p_kind P) s retry io (proj1 H1)) as C. rewrite Es in C.
  exists s'. split; [reflexivity|].
  assert (Hhi : hi s <= hi s') by (destruct C as [_ C]; destruct res as [[b|]| |];
    [destruct C as (_ & _ & _ & _ & _ & C & _); destruct (o_retry b); lia|subst; lia..]).
  assert (Hconf : conf s' = conf s) by apply C.
  split.
  - exists m. split; [exact E2|]. split; [exact H2|]. split; [exact H3|]. split; [exact H4|].
    rewrite Hconf. split; [exact H5|]. split; [exact H6|]. split; [exact H7|]. split; [lia|].
    split; [eapply Forall_impl; [|exact H9]; intros; eapply data_ok_mono; eassumption|exact H10].
  - intros b ->. revert Es. unfold spec_next, emit.
    destruct E2 as [_ E2].
    assert (Hc : reader_cur r' = cur s').
    { destruct (p_kind P), r' as [x|x|x]; cbn in E2; try contradiction; cbn.
      - destruct E2 as (_ & _ & -> & -> & _). reflexivity.
      - destruct E2 as (_ & _ & _ & -> & _). reflexivity.
      - destruct E2 as (_ & _ & _ & _ & _ & -> & _). reflexivity. }
    rewrite Hc.
    destruct (conf s =? _); [discriminate|].
    destruct (retry && _)%bool.
    { destruct (match p_kind P with KSeek => io | _ => false end); [discriminate|]. intros [= <- <-]. reflexivity. }
    destruct (cur s <? hi s).
    { destruct (match p_kind P with KSeek => io | _ => false end); [discriminate|]. intros [= <- <-]. reflexivity. }
    destruct (_ || _)%bool; [discriminate|]. destruct io; [discriminate|]. intros [= <- <-]. reflexivity.
Qed.

(** A block produced by the sender is put on the wire. *)
Lemma core_emit s r wr data acks sr ss cap retry io r' b new :
  Core s r wr data acks sr ss -> bs <= cap ->
  reader_next file r cap retry io = (r', Ok (Some b)) ->
  emitted decR (reader_cur r') [to_bytes (PData (o_block b) (o_data b))] new ->
  exists s', spec_next (p_kind P) file bs w s retry io = (s', Ok (Some b)) /\
    Core s' r' wr (new ++ data) acks sr ss.
Proof.
  intros C Hcap E HE. destruct (core_next _ _ _ _ _ _ _ _ _ _ _ _ C Hcap E) as (s' & E1 & C' & Hcur).
  exists s'. split; [exact E1|]. apply core_other_data; [exact C'|].
  destruct C as (m & H1 & _). destruct bs_pos as (B1 & B2 & B3).
  pose proof (spec_next_cases file bs w cap B1 B2 Hcap (p_kind P) s retry io (proj1 H1)) as CC. rewrite E1 in CC.
  destruct CC as (_ & C1 & C2 & C3 & C4 & C5 & C6 & C7 & C8).
  inversion HE as [|? d ? ? [Hd1 Hd2] HE']; subst. inversion HE'; subst. constructor; [|constructor].
  rewrite C5 in *. rewrite ghost_data in Hd2 by (apply N.mod_upper_bound; discriminate).
  rewrite (Hcur b eq_refl) in Hd2. unfold data_ok. rewrite Hd2. rewrite C4 in Hd1. repeat split; assumption.
Qed.

(** The receiver gets a data datagram. *)
Lemma core_receive s r wr data acks sr ss x i io wr' res :
  Core s r wr data acks sr ss -> In (x, Some i) data -> not_too_old P sr (x, Some i) ->
  write_block wr (i mod 65536) (blk i) io None = (wr', res) ->
  Core s r wr' data acks (N.max sr i) ss /\
  match res with
  | Ok (c, j) => j = i /\ i = w_written wr + 1 /\ w_written wr' = i /\ c = blen (blk i) /\ io = false
  | Err (AlreadyWritten cur j) => i <= w_written wr /\ j = w_written wr /\ cur = j mod 65536 /\ w_written wr' = w_written wr /\ w_out wr' = w_out wr
  | Err (ExpectedBlock cur j) => w_written wr + 1 < i /\ j = w_written wr /\ cur = j mod 65536 /\ w_written wr' = w_written wr /\ w_out wr' = w_out wr
  | Err WFile => w_written wr' = w_written wr /\ w_out wr' = w_out wr /\ io = true
  | Panic => False
  end.
Proof.
  intros C Hin Hold E. pose proof (core_win _ _ _ _ _ _ _ C) as (K1 & K2 & K3 & K4 & K5).
  destruct C as (m & H1 & H2 & H3 & H4 & H5 & H6 & H7 & H8 & H9 & H10).
  destruct bs_pos as (B1 & B2 & B3).
  pose proof (proj1 (Forall_forall _ _) H9 _ Hin) as HD. cbn in HD. destruct HD as (D1 & D2 & _).
  destruct (map_ok_step _ _ i H3 ltac:(lia) ltac:(lia) Hold) as [M1 M2].
  pose proof (write_block_cases wr (i mod 65536) (blk i) io None) as W. cbn zeta in W.
  rewrite E, M1 in W. destruct W as [W0 W]. rewrite <- W0 in M2.
  destruct res as [[c j]|[cc j|cc j|]|].
  - destruct W as (W1 & W2 & W3 & W4 & W5 & W6). split; [|repeat split; try assumption; lia].
    exists m. rewrite W5, W4, W3, <- W1.
    split; [assumption|]. split; [assumption|]. split; [assumption|].
    split; [rewrite H4, W1; apply prefix_snoc; [assumption|unfold p_n in *; lia]|].
    do 4 (split; [lia|]). split; [assumption|].
    eapply Forall_impl; [|exact H10]. intros; eapply ack_ok_mono; [|eassumption]. lia.
  - destruct W as (W1 & W2 & W3 & W4 & W5). split; [|repeat split; assumption].
    exists m. rewrite W5, W4. do 4 (split; [assumption|]). do 4 (split; [lia|]). auto.
  - destruct W as (W1 & W2 & W3 & W4 & W5). split; [|repeat split; assumption].
    exists m. rewrite W5, W4. do 4 (split; [assumption|]). do 4 (split; [lia|]). auto.
  - destruct W as (W1 & W2 & W3 & W4). split; [|repeat split; assumption].
    exists m. rewrite W3, W4. do 4 (split; [assumption|]). do 4 (split; [lia|]). auto.
  - destruct W.
Qed.

(** The receiver sends an acknowledgement of everything received so far. *)
Lemma core_ack_new s r wr data acks sr ss new :
  Core s r wr data acks sr ss ->
  emitted decS (w_written wr) [to_bytes (PAck (w_written wr mod 65536))] new ->
  Core s r wr data (new ++ acks) sr ss.
Proof.
  intros C HE. apply core_other_acks; [exact C|].
  inversion HE as [|? d ? ? [Hd1 Hd2] HE']; subst. inversion HE'; subst. constructor; [|constructor].
  rewrite ghost_ack in Hd2 by (apply N.mod_upper_bound; discriminate).
  unfold ack_ok. rewrite Hd2. split; [lia|exact Hd1].
Qed.
Lemma emitted_error dec i c m new : emitted dec i [to_bytes (PError c m)] new ->
  Forall (fun d => snd d = None /\ exists p, dec (fst d) = Some p /\ p = to_bytes (PError c m)) new.
Proof.
  intros HE. inversion HE as [|? d ? ? [Hd1 Hd2] HE']; subst. inversion HE'; subst. constructor; [|constructor].
  rewrite ghost_error in Hd2. eauto.
Qed.
Lemma error_not_data h i c m new : emitted decR i [to_bytes (PError c m)] new -> Forall (data_ok h) new.
Proof.
  intros H. eapply Forall_impl; [|eapply emitted_error; exact H].
  intros d (E1 & p & E2 & ->). unfold data_ok. rewrite E1, E2. pose proof (decode_error c m).
  destruct (from_bytes (to_bytes (PError c m))) as [[]| |]; auto.
Qed.
Lemma error_not_ack k i c m new : emitted decS i [to_bytes (PError c m)] new -> Forall (ack_ok k) new.
Proof.
  intros H. eapply Forall_impl; [|eapply emitted_error; exact H].
  intros d (E1 & p & E2 & ->). unfold ack_ok. rewrite E1, E2. pose proof (decode_error c m).
  destruct (from_bytes (to_bytes (PError c m))) as [[]| |]; auto.
Qed.

(** The sender gets an acknowledgement. *)
Lemma core_acked s r wr data acks sr ss x i r' freed :
  Core s r wr data acks sr ss -> In (x, Some i) acks -> not_too_old P ss (x, Some i) ->
  reader_free r (i mod 65536) = (r', freed) ->
  exists s' c, freed = Some c /\ spec_free (p_kind P) file bs s i = (s', c) /\
    Core s' r' wr data acks sr (N.max ss i) /\ pre (conf s) + c = pre (conf s') /\
    hi s' = hi s /\ conf s <= conf s' /\ reader_finished r' = (conf s' =? n).
Proof.
  intros C Hin Hold E. pose proof (core_win _ _ _ _ _ _ _ C) as (K1 & K2 & K3 & K4 & K5).
  destruct C as (m & H1 & H2 & H3 & H4 & H5 & H6 & H7 & H8 & H9 & H10).
  destruct bs_pos as (B1 & B2 & B3).
  pose proof (proj1 (Forall_forall _ _) H10 _ Hin) as HD. cbn in HD. destruct HD as (D1 & D2).
  destruct (map_ok_step _ _ i H2 ltac:(lia) ltac:(lia) Hold) as [M1 M2].
  assert (Hq : p_kind P = KSeek -> conf s < n \/ fst (map_index m (i mod 65536)) <= conf s).
  { intros _. rewrite M1. cbn [fst]. lia. }
  destruct (sim_free file bs w bs B1 B2 (N.le_refl _) (p_kind P) r m s (i mod 65536) H1 Hq) as [F1 F2].
  rewrite E, M1 in *. cbn [fst snd] in *.
  pose proof (spec_free_cases file bs w bs B1 B2 (N.le_refl _) (p_kind P) s i (proj1 H1)) as SC.
  destruct (spec_free (p_kind P) file bs s i) as [s' c] eqn:Es. cbn [fst snd] in *.
  destruct SC as (S1 & S2 & S3 & S4).
  exists s', c. split; [exact F1|]. split; [reflexivity|].
  assert (Hc : conf s' <= N.max ss i).
  { revert Es. unfold spec_free. destruct (match p_kind P with KSingle => _ | _ => _ end); intros [= <- <-]; cbn; lia. }
  split.
  - exists (snd (map_index m (i mod 65536))). split; [exact F2|]. split; [exact M2|]. split; [exact H3|].
    split; [exact H4|]. rewrite S1. do 4 (split; [lia|]). auto.
  - split; [exact S3|]. split; [exact S1|]. split; [exact S2|].
    rewrite (sim_finished file bs w bs B1 B2 (N.le_refl _) _ _ _ _ F2). reflexivity.
Qed.

Lemma core_prefix s r wr data acks sr ss : Core s r wr data acks sr ss ->
  w_out wr = takeN (pre (w_written wr)) file /\ w_written wr <= n.
Proof.
  intros C. pose proof (core_win _ _ _ _ _ _ _ C) as K. destruct C as (m & _ & _ & _ & H & _). split; [exact H|lia].
Qed.
Lemma core_finished s r wr data acks sr ss : Core s r wr data acks sr ss ->
  reader_finished r = (conf s =? n).
Proof.
  intros (m & H & _). destruct bs_pos as (B1 & B2 & B3).
  rewrite (sim_finished file bs w bs B1 B2 (N.le_refl _) _ _ _ _ H). reflexivity.
Qed.
End C.
