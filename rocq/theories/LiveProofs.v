From Verif Require Import Base BaseProofs PacketModel PacketSpec PacketProofs MapperModel MapperProofs ReaderModel
  ReaderSpec BlockLemmas ReaderProofs WriterSpec WriterProofs ConfigModel ConnModel ClientModel SystemModel CoreProofs
  DownloadProofs UploadProofs LiveModel.

Section L.
Variable P : params.
Hypothesis HP : valid P.
Notation file := (p_file P).
Notation bs := (p_bs P).
Notation w := (op_window (p_opts P)).
Notation n := (p_n P).
Notation blk := (block_of file bs).
Notation pre := (prefix_size file bs).

Lemma plain_data_len i : 1 <= i ->
  blen (to_bytes (PData (i mod 65536) (blk i))) <= DATA_PACKET_HEADER_SIZE + bs.
Proof.
  intros Hi. destruct (bs_pos P HP) as (B & _).
  pose proof (block_le file bs i). unfold DATA_PACKET_HEADER_SIZE.
  unfold to_bytes. cbn [opcode body_to_bytes]. unfold be16. rewrite !blen_app, !blen_cons, blen_nil. lia.
Qed.
Lemma plain_ack_len i : blen (to_bytes (PAck i)) <= DATA_PACKET_HEADER_SIZE + bs.
Proof. unfold DATA_PACKET_HEADER_SIZE, to_bytes. cbn [opcode body_to_bytes]. unfold be16. rewrite !blen_app, !blen_cons, blen_nil. lia. Qed.

Section Core.
Variables decR decS : bytes -> option bytes.
Notation C := (Core P decR decS).

(** A retry always produces the oldest unacknowledged block. *)
Lemma core_retry s r wr data acks sr ss cap : C s r wr data acks sr ss -> bs <= cap -> conf s < n ->
  exists r' b s', reader_next file r cap true false = (r', Ok (Some b)) /\
    o_block b = (conf s + 1) mod 65536 /\ o_data b = blk (conf s + 1) /\ reader_cur r' = conf s + 1 /\
    spec_next (p_kind P) file bs w s true false = (s', Ok (Some b)) /\ conf s' = conf s.
Proof.
  intros HC Hcap Hn. destruct (reader_next file r cap true false) as [r' res] eqn:E.
  destruct (core_next P _ _ HP _ _ _ _ _ _ _ _ _ _ _ _ HC Hcap E) as (s' & Es & C' & Hcur).
  pose proof (core_win P _ _ HP _ _ _ _ _ _ _ HC) as K.
  pose proof HC as (m & [(W1 & W2 & W3 & W4 & W5) _] & _).
  assert (Hw : 1 <= window_of (p_kind P) w).
  { destruct HP as (_ & _ & Hw & _). destruct (p_kind P); cbn; lia. }
  assert (G : exists b, res = Ok (Some b) /\ o_index b = conf s + 1 /\ o_block b = (conf s + 1) mod 65536 /\
     o_data b = blk (conf s + 1) /\ conf s' = conf s).
  { revert Es. unfold spec_next, emit. unfold p_n in *. replace (conf s =? nblocks file bs) with false by lia.
    cbn [andb]. destruct (N.ltb_spec (conf s) (hi s)) as [H|H].
    - destruct (p_kind P); cbn; intros [= <- <-]; eexists; repeat split.
    - replace (cur s <? hi s) with false by lia.
      replace (hi s =? nblocks file bs) with false by lia.
      replace (window_of (p_kind P) w <=? hi s - conf s) with false by lia. cbn [orb].
      intros [= <- <-]. eexists. split; [reflexivity|]. cbn. replace (hi s) with (conf s) by lia. repeat split. }
  destruct G as (b & -> & G1 & G2 & G3 & G4). exists r', b, s'.
  repeat split; try assumption. rewrite (Hcur b eq_refl). exact G1.
Qed.

Lemma age_data s r wr data acks sr ss x : C s r wr data acks sr ss ->
  not_too_old P sr (x, Some (conf s + 1)).
Proof.
  intros HC. pose proof (core_win P _ _ HP _ _ _ _ _ _ _ HC) as K.
  pose proof HC as (m & _ & _ & _ & _ & H1 & H2 & H3 & H4 & _). cbn.
  destruct HP as (_ & _ & _ & _ & [H|H]); [auto|]. right. lia.
Qed.
Lemma age_ack s r wr data acks sr ss x : C s r wr data acks sr ss ->
  not_too_old P ss (x, Some (w_written wr)).
Proof.
  intros HC. pose proof HC as (m & _ & _ & _ & _ & H1 & H2 & H3 & H4 & _). cbn. right. lia.
Qed.
(** An acknowledgement of everything received confirms everything received. *)
Lemma spec_free_all s r wr data acks sr ss : C s r wr data acks sr ss -> conf s < w_written wr ->
  conf (fst (spec_free (p_kind P) file bs s (w_written wr))) = w_written wr.
Proof.
  intros HC H. pose proof (core_win P _ _ HP _ _ _ _ _ _ _ HC) as K.
  pose proof HC as (m & [(W1 & W2 & W3 & W4 & W5) _] & _).
  unfold spec_free. destruct (p_kind P); cbn in *.
  - replace (w_written wr =? hi s) with true by lia. replace (conf s <? hi s) with true by lia. cbn. lia.
  - replace (conf s <? N.min (w_written wr) (hi s)) with true by lia. cbn. lia.
  - replace (conf s <? N.min (w_written wr) (hi s)) with true by lia. cbn. lia.
Qed.
End Core.

(** ** Download *)
Lemma send_retry s c r wr data acks sr ss buflen now txt :
  Core P (p_decc P) (p_decs P) s r wr data acks sr ss -> conf s < n -> c_opts c = p_opts P ->
  retry_due c now = true ->
  exists c1 r1 s1, send_data_block file c r buflen now false true txt =
      (c1, r1, [to_bytes (PData ((conf s + 1) mod 65536) (blk (conf s + 1)))], true) /\
    reader_cur r1 = conf s + 1 /\ conf s1 = conf s /\
    c_opts c1 = c_opts c /\ c_transfer c1 = c_transfer c /\ c_finished c1 = c_finished c /\ c_invalid c1 = c_invalid c /\
    (forall x, p_decc P x = Some (to_bytes (PData ((conf s + 1) mod 65536) (blk (conf s + 1)))) ->
       Core P (p_decc P) (p_decs P) s1 r1 wr ((x, Some (conf s + 1)) :: data) acks sr ss).
Proof.
  intros HC Hn HO Hr. destruct (bs_pos P HP) as (B1 & B2 & B3). unfold send_data_block. rewrite Hr.
  set (cap := N.max buflen (DATA_PACKET_HEADER_SIZE + op_bs (c_opts c)) - DATA_PACKET_HEADER_SIZE) in *.
  assert (Hcap : bs <= cap) by (unfold cap, DATA_PACKET_HEADER_SIZE; rewrite HO; lia).
  destruct (core_retry _ _ _ _ _ _ _ _ _ cap HC Hcap Hn) as (r1 & b & s1 & E & E1 & E2 & E3 & E5 & E4).
  rewrite E, E1, E2. cbn [when]. eexists _, r1, s1. split; [reflexivity|].
  split; [exact E3|]. split; [exact E4|]. cbn. do 4 (split; [reflexivity|]).
  intros x Hx. assert (HE : emitted (p_decc P) (reader_cur r1) [to_bytes (PData (o_block b) (o_data b))] [(x, Some (conf s + 1))]).
  { constructor; [|constructor]. cbn [fst snd]. rewrite E1, E2, ghost_data by (apply N.mod_upper_bound; discriminate).
    split; [exact Hx|]. rewrite E3. reflexivity. }
  destruct (core_emit P _ _ HP _ _ _ _ _ _ _ _ _ _ _ _ _ HC Hcap E HE) as (s'' & Es & C'').
  rewrite E5 in Es. injection Es as <-. exact C''.
Qed.

(** What the receiver does with the oldest unacknowledged block: it accepts it or answers. *)
Lemma recv_oldest s r data acks sr ss cl x now txt cl' plain stat' new :
  Core P (p_decc P) (p_decs P) s r (cr_w cl) ((x, Some (conf s + 1)) :: data) acks sr ss ->
  w_written (cr_w cl) < n -> cr_total cl = pre (w_written (cr_w cl)) -> blen file <= p_max P ->
  recv_step (p_decc P) (p_opts P) (p_max P) (p_ctimeout P) cl (EvDatagram true x) now false None true txt = (cl', plain, stat') ->
  emitted (p_decs P) (w_written (cr_w cl')) plain new ->
  Core P (p_decc P) (p_decs P) s r (cr_w cl') ((x, Some (conf s + 1)) :: data) (new ++ acks) (N.max sr (conf s + 1)) ss /\ stat' <> CFail /\ match stat' with
  | CRun => w_written (cr_w cl') < n /\ cr_total cl' = pre (w_written (cr_w cl'))
  | CDone t => w_written (cr_w cl') = n /\ t = blen file
  | CFail => True
  end /\ (w_written (cr_w cl) = conf s /\ w_written (cr_w cl') = conf s + 1 \/
   w_written (cr_w cl') = w_written (cr_w cl) /\ conf s < w_written (cr_w cl) /\ plain <> []) /\ (plain = [] \/ plain = [to_bytes (PAck (w_written (cr_w cl') mod 65536))]) /\ (w_written (cr_w cl') = n -> plain <> []).
Proof.
  intros HC Hk Ht Hmax E HE.
  assert (Hold : not_too_old P sr (x, Some (conf s + 1))) by (eapply age_data; exact HC).
  assert (Hev : client_event ((x, Some (conf s + 1)) :: data) (EvDatagram true x) (x, Some (conf s + 1))) by (cbn; auto).
  destruct (recv_inv P HP _ _ _ _ _ _ _ _ _ _ _ _ _ _ _ _ _ HC Hk Ht Hev Hold E HE) as [C1 HS].
  cbn [see snd] in C1. split; [exact C1|].
  destruct (bs_pos P HP) as (B1 & B2 & B3).
  pose proof HC as (m & _ & _ & _ & _ & _ & _ & _ & _ & HD & _).
  apply Forall_inv in HD. cbn [data_ok snd fst] in HD. destruct HD as (G1 & G2 & G3).
  cbn [recv_step] in E. rewrite G3 in E. cbn [negb] in E.
  rewrite decode_data in E by (apply N.mod_upper_bound; discriminate).
  unfold cl_write_block in E.
  destruct (write_block (cr_w cl) ((conf s + 1) mod 65536) (blk (conf s + 1)) false None) as [w1 res] eqn:EW.
  destruct (core_receive P _ _ HP _ _ _ _ _ _ _ _ _ _ _ _ HC (or_introl eq_refl) Hold EW) as [C2 R].
  pose proof (core_win P _ _ HP _ _ _ _ _ _ _ HC) as K.
  pose proof (core_win P _ _ HP _ _ _ _ _ _ _ C2) as K2.
  destruct res as [[c j]|[cc j|cc j|]|].
  - destruct R as (-> & R2 & R3 & -> & _). cbn match in E.
    pose proof (prefix_step file bs B1 (w_written (cr_w cl)) Hk) as Hp.
    replace (conf s) with (w_written (cr_w cl)) in * by lia.
    assert (Hsz : cl_size_ok (cr_total cl + blen (blk (w_written (cr_w cl) + 1))) (p_max P) = true).
    { unfold cl_size_ok. rewrite Ht, <- Hp. unfold prefix_size. lia. }
    rewrite Hsz in E. cbn [negb] in E.
    set (due := ack_due _ _ _ _) in *. rewrite Bool.andb_false_r in E.
    injection E as <- <- <-. cbn [cr_w cr_total] in *. rewrite R3 in *.
    split; [destruct (_ <? _); discriminate|]. split; [exact HS|]. split; [auto|]. split.
    + destruct due; auto.
    + intros En. replace due with true; [discriminate|]. unfold due, ack_due.
      pose proof (block_short file bs B1 (w_written (cr_w cl) + 1) ltac:(lia) ltac:(unfold p_n in *; lia)) as Hs.
      change (bs_enc (p_opts P)) with bs.
      replace (blen (blk (w_written (cr_w cl) + 1)) <? bs) with true; [rewrite Bool.orb_true_r; reflexivity|].
      symmetry. apply N.ltb_lt. apply Hs. exact En.
  - destruct R as (R1 & -> & -> & R4 & R5). cbn match in E.
    assert (Hdue : ack_due (p_opts P) (cr_ack cl) (w_written (cr_w cl)) None = true).
    { unfold ack_due. change (bs_enc (p_opts P)) with bs. replace (0 <? bs) with true by lia. apply Bool.orb_true_r. }
    rewrite Hdue in E. cbn [andb negb when] in E. injection E as <- <- <-. cbn [cr_w] in *. rewrite R4 in *.
    split; [discriminate|]. split; [exact HS|]. split; [right; split; [reflexivity|split; [lia|discriminate]]|].
    split; [right; reflexivity|discriminate].
  - destruct R as (R1 & _). lia.
  - destruct R as (_ & _ & R). discriminate.
  - destruct R.
Qed.

Lemma emitted_ack dec k new : emitted dec k [to_bytes (PAck (k mod 65536))] new ->
  exists x, new = [(x, Some k)] /\ dec x = Some (to_bytes (PAck (k mod 65536))).
Proof.
  intros H. inversion H as [|? d ? ? [H1 H2] H3]; subst. inversion H3; subst.
  rewrite ghost_ack in H2 by (apply N.mod_upper_bound; discriminate). destruct d as [x g]. cbn in *. subst g. eauto.
Qed.

Definition dmeasure (st : dstate) (s : win) : N := w_written (cr_w (d_cl st)) + conf s.
Lemma dmeasure_bound st s : DInv P st s -> d_stat st = CRun -> dmeasure st s <= 2 * n - 2.
Proof.
  intros (HC & _ & _ & _ & HS) E. rewrite E in HS. unfold dmeasure. pose proof (core_win P _ _ HP _ _ _ _ _ _ _ HC). lia.
Qed.

Lemma dround_inv st st' s : blen file <= p_max P -> DInv P st s -> dround P st st' ->
  exists s', DInv P st' s' /\ dmeasure st s < dmeasure st' s' /\ d_stat st' <> CFail /\ d_live st' = true /\   c_invalid (d_conn st') = None /\ (d_stat st' = CRun -> c_finished (d_conn st') = false) /\   (d_stat st' <> CRun -> c_finished (d_conn st') = true).
Proof.
  intros Hmax (HC & HO & HT & HF & HS) R.
  destruct R as [c r cl down up sc ss buflen now txt c1 r1 p x now2 txt2 cl2 plain stat2 new now3 c3 r3 HR Hdue E1 Hx E2 HE E3 g].
  cbn [d_conn d_reader d_live d_cl d_stat d_down d_up d_seenc d_seens] in *. destruct HS as [Hk Ht].
  assert (Hn : conf s < n).
  { destruct HR as [_ HR]. rewrite HR in HF. pose proof (core_win P _ _ HP _ _ _ _ _ _ _ HC). lia. }
  destruct (send_retry _ _ _ _ _ _ _ _ buflen now txt HC Hn HO Hdue) as (c1' & r1' & s1 & F & F1 & F2 & F3 & F4 & F5 & F6 & F7).
  rewrite F in E1. injection E1 as <- <- <-.
  specialize (F7 x Hx). subst g. rewrite ghost_data by (apply N.mod_upper_bound; discriminate). rewrite F1. rewrite <- F2 in *.
  destruct (recv_oldest _ _ _ _ _ _ _ _ _ _ _ _ _ _ F7 Hk Ht Hmax E2 HE) as (C2 & S1 & S2 & S3 & S4 & S5).
  cbn [see snd].
  destruct S4 as [S4|S4].
  - subst plain. inversion HE; subst. cbn in E3. injection E3 as <- <-. exists s1. cbn [app see_all fold_left].
    split; [|split].
    + split; [exact C2|]. cbn. rewrite F3, F4, F5, HT, HF. auto.
    + unfold dmeasure. cbn. rewrite F2. destruct S3 as [[A B]|(A & B & D)]; [lia|congruence].
    + cbn. split; [exact S1|]. split; [reflexivity|]. split; [rewrite F6; apply HR|].
      split; [intros _; rewrite F5; apply HR|]. intros Hd. exfalso.
      destruct stat2; [congruence| |congruence]. destruct S2 as [S2 _]. apply S5; auto.
  - subst plain. destruct (emitted_ack _ _ _ HE) as (y & -> & Hy).
    cbn [server_gets_acks fst] in E3. cbn [app see_all fold_left see snd].
    pose proof (age_ack _ _ _ _ _ _ _ _ _ y C2) as Ho.
    assert (Hn1 : conf s1 < n) by lia.
    assert (Hf1 : c_finished c1' = (conf s1 =? n)) by (replace (conf s1 =? n) with false by lia; rewrite F5; apply HR).
    assert (Ht1 : c_transfer c1' = pre (conf s1)) by congruence.
    destruct (read_inv P HP _ _ _ _ _ _ _ _ (y, Some (w_written (cr_w cl2))) _ _ _ _ C2 Hf1 Ht1 (or_introl eq_refl) Ho E3)
      as (s' & C3 & Q1 & Q2 & Q3 & Q4 & _ & Q5 & Q6).
    destruct (Q6 _ eq_refl) as [Q7 Q8].
    pose proof (core_win P _ _ HP _ _ _ _ _ _ _ C2) as K.
    assert (Hc : conf s1 < w_written (cr_w cl2)).
    { destruct S3 as [[A B]|(A & B & _)]; lia. }
    pose proof (spec_free_all _ _ _ _ _ _ _ _ _ C2 Hc) as Hall. rewrite Q7 in Hall. cbn [fst] in Hall.
    cbn [see snd] in C3.
    exists s'. split; [|split].
    + split; [exact C3|]. cbn. rewrite Q1, F3, Q2, Q3. auto.
    + unfold dmeasure. cbn. rewrite Hall. destruct S3 as [[A B]|(A & B & D)]; lia.
    + cbn. split; [exact S1|]. split; [reflexivity|]. split; [rewrite Q8, F6; apply HR|]. rewrite Q3, Hall.
      split; intros Hd; destruct stat2; try congruence; destruct S2; lia.
Qed.

Lemma retry_possible c : exists now, retry_due c now = true.
Proof. exists (c_sent c + op_retry (c_opts c) * c_mult c + 1). unfold retry_due. lia. Qed.

Lemma dround_exists st s : encodable P (p_decc P) -> encodable P (p_decs P) -> blen file <= p_max P ->
  DInv P st s -> d_alive st -> exists st', dround P st st'.
Proof.
  intros He1 He2 Hmax (HC & HO & HT & HF & HS) (A1 & A2 & A3).
  destruct st as [c r live cl stat down up sc ss]. cbn in *. subst live stat. destruct HS as [Hk Ht].
  assert (Hn : conf s < n).
  { destruct A2 as [_ A2]. rewrite A2 in HF. pose proof (core_win P _ _ HP _ _ _ _ _ _ _ HC). lia. }
  destruct (retry_possible c) as [now Hnow].
  destruct (send_retry _ _ _ _ _ _ _ _ 0 now [] HC Hn HO Hnow) as (c1 & r1 & s1 & F & F1 & F2 & F3 & F4 & F5 & F6 & F7).
  destruct (He1 _ (plain_data_len (conf s + 1) ltac:(lia))) as [x Hx].
  specialize (F7 x Hx). rewrite <- F2 in *.
  destruct (recv_step (p_decc P) (p_opts P) (p_max P) (p_ctimeout P) cl (EvDatagram true x) 0 false None true []) as [[cl2 plain] stat2] eqn:E2.
  assert (HE : exists new, emitted (p_decs P) (w_written (cr_w cl2)) plain new).
  { assert (G : plain = [] \/ exists b, plain = [to_bytes (PAck b)]).
    { cbn [recv_step] in E2. rewrite Hx in E2. cbn [negb] in E2.
      rewrite decode_data in E2 by (apply N.mod_upper_bound; discriminate). unfold cl_write_block in E2.
      destruct (write_block (cr_w cl) _ _ _ _) as [w1 res] eqn:EW. rewrite F2 in *.
      pose proof F7 as F7'. rewrite <- F2 in F7', EW.
      destruct (core_receive P _ _ HP _ _ _ _ _ _ _ _ _ _ _ _ F7' (or_introl eq_refl) (age_data _ _ _ _ _ _ _ _ _ x F7') EW) as [C2 R].
      rewrite F2 in *.
      destruct res as [[k j]|[cc j|cc j|]|].
      - destruct R as (-> & R2 & R3 & -> & _). cbn match in E2.
        destruct (bs_pos P HP) as (B1 & B2 & B3).
        pose proof (prefix_step file bs B1 (w_written (cr_w cl)) Hk) as Hp. rewrite <- R2 in *.
        assert (Hsz : cl_size_ok (cr_total cl + blen (blk (conf s + 1))) (p_max P) = true).
        { unfold cl_size_ok. rewrite Ht, <- Hp. unfold prefix_size. lia. }
        rewrite Hsz in E2. cbn [negb] in E2. destruct (ack_due _ _ _ _); cbn [andb negb when] in E2; injection E2 as _ <- _; eauto.
      - destruct (ack_due _ _ _ _); cbn [andb negb when] in E2; injection E2 as _ <- _; eauto.
      - destruct (ack_due _ _ _ _); cbn [andb negb when] in E2; injection E2 as _ <- _; eauto.
      - injection E2 as _ <- _; eauto.
      - destruct R. }
    destruct G as [->|[b ->]]; [exists []; constructor|].
    destruct (He2 _ (plain_ack_len b)) as [y Hy]. exists [(y, ghost (to_bytes (PAck b)) (w_written (cr_w cl2)))].
    constructor; [auto|constructor]. }
  destruct HE as [new HE].
  destruct (recv_oldest _ _ _ _ _ _ _ _ _ _ _ _ _ _ F7 Hk Ht Hmax E2 HE) as (C2 & S1 & S2 & S3 & S4 & S5).
  assert (Hsv : exists c3 r3, server_gets_acks P c1 r1 new 0 = (c3, r3, Some tt)).
  { destruct S4 as [->|S4]; [inversion HE; subst; cbn; eauto|]. subst plain.
    destruct (emitted_ack _ _ _ HE) as (y & -> & Hy). cbn [server_gets_acks fst].
    destruct (handle_read (p_decs P) c1 r1 y 0) as [[c3 r3] ok] eqn:E3.
    assert (Hn1 : conf s1 < n) by lia.
    assert (Hf1 : c_finished c1 = (conf s1 =? n)) by (replace (conf s1 =? n) with false by lia; rewrite F5; apply A2).
    assert (Ht1 : c_transfer c1 = pre (conf s1)) by congruence.
    destruct (read_inv P HP _ _ _ _ _ _ _ _ (y, Some (w_written (cr_w cl2))) _ _ _ _ C2 Hf1 Ht1 (or_introl eq_refl) (age_ack _ _ _ _ _ _ _ _ _ y C2) E3)
      as (s' & _ & _ & _ & _ & _ & -> & _). eauto. }
  destruct Hsv as (c3 & r3 & E3).
  eexists. eapply dround_intro; eassumption.
Qed.

(** Steps never lose progress. *)
Lemma recv_mono dec o max tmo cl e now io short sock txt cl' plain stat' :
  recv_step dec o max tmo cl e now io short sock txt = (cl', plain, stat') ->
  w_written (cr_w cl) <= w_written (cr_w cl').
Proof.
  assert (W : forall wr b d i sh wr' res, write_block wr b d i sh = (wr', res) -> w_written wr <= w_written wr').
  { intros wr b d i sh wr' res E. unfold write_block in E. destruct (map_index _ _).
    destruct (_ <? _); [injection E as <- _; cbn; lia|]. destruct (_ <? _); [injection E as <- _; cbn; lia|].
    destruct i; injection E as <- _; cbn; lia. }
  intros E. destruct e as [fp wire| |]; cbn [recv_step] in E; try (injection E as <- _ _; apply N.le_refl).
  destruct (dec wire); [|injection E as <- _ _; apply N.le_refl].
  destruct (negb fp); [injection E as <- _ _; apply N.le_refl|].
  destruct (from_bytes b) as [[]| |]; try (injection E as <- _ _; apply N.le_refl).
  unfold cl_write_block in E. destruct (write_block (cr_w cl) _ _ _ _) as [w1 res] eqn:EW.
  apply W in EW.
  destruct res as [[k j]|[cc j|cc j|]|].
  - destruct (negb _); [injection E as <- _ _; exact EW|].
    destruct (_ && _)%bool; injection E as <- _ _; exact EW.
  - destruct (_ && _)%bool; injection E as <- _ _; exact EW.
  - destruct (_ && _)%bool; injection E as <- _ _; exact EW.
  - injection E as <- _ _; exact EW.
  - injection E as <- _ _; exact EW.
Qed.

Lemma dstep_mono st st' s : DInv P st s -> dstep P st st' -> exists s', DInv P st' s' /\ dmeasure st s <= dmeasure st' s' /\ conf s <= conf s'.
Proof.
  intros (HC & HO & HT & HF & HS) H. unfold dmeasure. destruct H; cbn in *.
  - destruct (send_inv P HP _ _ _ _ _ _ _ _ _ _ _ _ _ _ _ _ _ _ HC HO H0 H1) as (s' & C' & E1 & E2 & E3 & E4).
    exists s'. split; [|cbn; lia]. split; [exact C'|]. cbn. rewrite E1, E2, E3, E4. auto.
  - destruct (read_inv P HP _ _ _ _ _ _ _ _ _ _ _ _ _ HC HF HT H H0 H1) as (s' & C' & E1 & E2 & E3 & E4 & E5 & E6).
    exists s'. split; [|cbn; lia]. split; [exact C'|]. cbn. rewrite E1, E2, E3. auto.
  - exists s. split; [|cbn; lia]. assert (D : dstep P (mkD c r true cl stat down up sc ss) (mkD c r false cl stat (new ++ down) up sc ss))
      by (eapply d_server_end; eassumption).
    split; [|cbn; auto]. cbn. unfold timeout_client in H. apply core_other_data; [exact HC|].
    destruct (_ || _)%bool; [injection H as <-; inversion H0; constructor|].
    destruct (_ <=? _); [discriminate|]. injection H as <-.
    destruct sock; cbn [when] in H0; [eapply error_not_data; exact H0|inversion H0; constructor].
  - destruct HS as [Hk Ht]. pose proof (recv_mono _ _ _ _ _ _ _ _ _ _ _ _ _ _ H1) as Hm.
    destruct (recv_inv P HP _ _ _ _ _ _ _ _ _ _ _ _ _ _ _ _ _ HC Hk Ht H H0 H1 H2) as [C' Hs].
    exists s. split; [|cbn; lia]. split; [exact C'|]. cbn. auto.
Qed.

Lemma drun_inv k st : blen file <= p_max P -> drun P k st -> exists s, DInv P st s /\ N.of_nat k <= dmeasure st s.
Proof.
  intros Hmax. induction 1 as [st H|k st st' _ (s & I & L) H|k st st' _ (s & I & L) H].
  - destruct (dinv_init P HP st H) as [s I]. exists s. split; [exact I|]. cbn. lia.
  - destruct (dstep_mono _ _ _ I H) as (s' & I' & L'). exists s'. split; [exact I'|lia].
  - destruct (dround_inv _ _ _ Hmax I H) as (s' & I' & L' & _). exists s'. split; [exact I'|lia].
Qed.
Lemma dcomplete st s : encodable P (p_decc P) -> encodable P (p_decs P) -> blen file <= p_max P ->
  DInv P st s -> d_alive st ->
  exists k st', drounds P k st st' /\ N.of_nat k <= 2 * n /\ d_stat st' = CDone (blen file) /\   w_out (cr_w (d_cl st')) = file /\ c_finished (d_conn st') = true.
Proof.
  intros He1 He2 Hmax.
  enough (G : forall m st s, (2 * n - dmeasure st s <= N.of_nat m) -> DInv P st s -> d_alive st ->
    exists k st', drounds P k st st' /\ (k <= m)%nat /\ exists s', DInv P st' s' /\ (exists t, d_stat st' = CDone t) /\ c_finished (d_conn st') = true).
  { intros I A. destruct (G (N.to_nat (2 * n)) st s ltac:(lia) I A) as (k & st' & R & L & s' & I' & [t D] & Fi).
    exists k, st'. split; [exact R|]. split; [lia|].
    destruct (dinv_safe P HP st' s' I') as (_ & S2 & _). destruct (S2 t D) as [S3 ->]. auto. }
  induction m as [|m IH]; intros st0 s0 Hm I A.
  - pose proof (dmeasure_bound _ _ I (proj2 (proj2 A))). pose proof (n_pos P HP). lia.
  - destruct (dround_exists _ _ He1 He2 Hmax I A) as [st' R].
    destruct (dround_inv _ _ _ Hmax I R) as (s' & I' & L & D1 & D2 & D3 & D4 & D5).
    destruct (d_stat st') eqn:Ed.
    + destruct (IH st' s' ltac:(lia) I') as (k & st'' & R' & Lk & X).
      { repeat split; auto. }
      exists (S k), st''. split; [econstructor; eassumption|]. split; [lia|exact X].
    + exists 1%nat, st'. split; [econstructor; [exact R|constructor]|]. split; [lia|]. exists s'.
      split; [exact I'|]. rewrite Ed. split; [eauto|]. apply D5. discriminate.
    + congruence.
Qed.

(** A round is a sequence of ordinary steps. *)
Inductive dsteps : dstate -> dstate -> Prop :=
| dsteps_refl st : dsteps st st
| dsteps_cons st st' st'' : dstep P st st' -> dsteps st' st'' -> dsteps st st''.
Lemma dround_steps st st' s : blen file <= p_max P -> DInv P st s -> dround P st st' -> dsteps st st'.
Proof.
  intros Hmax (HC & HO & HT & HF & HS) R.
  destruct R as [c r cl down up sc ss buflen now txt c1 r1 p x now2 txt2 cl2 plain stat2 new now3 c3 r3 HR Hdue E1 Hx E2 HE E3 g].
  cbn [d_conn d_reader d_live d_cl d_stat d_down d_up d_seenc d_seens] in *. destruct HS as [Hk Ht].
  assert (Hn : conf s < n).
  { destruct HR as [_ HR]. rewrite HR in HF. pose proof (core_win P _ _ HP _ _ _ _ _ _ _ HC). lia. }
  destruct (send_retry _ _ _ _ _ _ _ _ buflen now txt HC Hn HO Hdue) as (c1' & r1' & s1 & F & F1 & F2 & F3 & F4 & F5 & F6 & F7).
  pose proof F as F'. rewrite E1 in F'. injection F' as -> -> ->.
  assert (Hg : g = (x, Some (conf s1 + 1))).
  { subst g. rewrite ghost_data by (apply N.mod_upper_bound; discriminate). rewrite F1, F2. reflexivity. }
  specialize (F7 x Hx). rewrite <- F2 in F7.
  destruct (recv_oldest _ _ _ _ _ _ _ _ _ _ _ _ _ _ F7 Hk Ht Hmax E2 HE) as (C2 & S1 & S2 & S3 & S4 & S5).
  eapply dsteps_cons; [eapply d_send with (new := [g]); [exact HR|exact E1|]|].
  { constructor; [|constructor]. subst g. cbn. auto. }
  cbn [app].
  eapply dsteps_cons; [eapply d_client with (e := EvDatagram true x) (g := g); [|rewrite Hg; eapply age_data; exact F7|exact E2|exact HE]|].
  { cbn. rewrite Hg. auto. }
  destruct S4 as [->|S4].
  - inversion HE; subst new. cbn in E3. injection E3 as <- <-. cbn. constructor.
  - subst plain. destruct (emitted_ack _ _ _ HE) as (y & -> & Hy).
    cbn [server_gets_acks fst] in E3. cbn [app see_all fold_left].
    eapply dsteps_cons; [|constructor].
    assert (Hr1 : running c1') by (split; [rewrite F6|rewrite F5]; apply HR).
    pose proof (d_server_receive P c1' r1' cl2 stat2 (g :: down) ((y, Some (w_written (cr_w cl2))) :: up) (see sc g) ss
      (y, Some (w_written (cr_w cl2))) now3 c3 r3 (Some tt) (or_introl eq_refl) (age_ack _ _ _ _ _ _ _ _ _ y C2) E3) as D.
    exact D.
Qed.

(** ** Upload *)
Notation CU := (Core P (p_decs P) (p_decc P)).
Lemma usend_retry s wr data acks sr ss cl buflen :
  CU s (cs_r cl) wr data acks sr ss -> conf s < n ->
  op_bs (p_opts P) + DATA_PACKET_HEADER_SIZE <= buflen ->
  exists cl1 s1, sender_send file cl buflen true IoOk (Some true) =
      (cl1, [to_bytes (PData ((conf s + 1) mod 65536) (blk (conf s + 1)))], CRun) /\
    reader_cur (cs_r cl1) = conf s + 1 /\ conf s1 = conf s /\ cs_total cl1 = cs_total cl /\
    (forall x, p_decs P x = Some (to_bytes (PData ((conf s + 1) mod 65536) (blk (conf s + 1)))) ->
       CU s1 (cs_r cl1) wr ((x, Some (conf s + 1)) :: data) acks sr ss).
Proof.
  intros HC Hn Hb. destruct (bs_pos P HP) as (B1 & B2 & B3). unfold sender_send.
  set (cap := buflen - DATA_PACKET_HEADER_SIZE) in *.
  assert (Hcap : bs <= cap) by (unfold cap, DATA_PACKET_HEADER_SIZE in *; lia).
  destruct (core_retry _ _ _ _ _ _ _ _ _ cap HC Hcap Hn) as (r1 & b & s1 & E & E1 & E2 & E3 & E5 & E4).
  cbn [io_bad]. rewrite E, E1, E2. eexists _, s1. split; [reflexivity|]. cbn [cs_r cs_total].
  split; [exact E3|]. split; [exact E4|]. split; [reflexivity|].
  intros x Hx. assert (HE : emitted (p_decs P) (reader_cur r1) [to_bytes (PData (o_block b) (o_data b))] [(x, Some (conf s + 1))]).
  { constructor; [|constructor]. cbn [fst snd]. rewrite E1, E2, ghost_data by (apply N.mod_upper_bound; discriminate).
    split; [exact Hx|]. rewrite E3. reflexivity. }
  destruct (core_emit P _ _ HP _ _ _ _ _ _ _ _ _ _ _ _ _ HC Hcap E HE) as (s'' & Es & C'').
  rewrite E5 in Es. injection Es as <-. exact C''.
Qed.

Lemma uwrite_oldest s r data acks sr ss c wr x now txt c' wr' plain new :
  CU s r wr ((x, Some (conf s + 1)) :: data) acks sr ss ->
  SrvOk P c wr -> running c -> blen file <= p_max P ->
  handle_write (p_decs P) c wr x now (p_max P) false None true txt = (c', wr', plain) ->
  emitted (p_decc P) (w_written wr') plain new ->
  CU s r wr' ((x, Some (conf s + 1)) :: data) (new ++ acks) (N.max sr (conf s + 1)) ss /\
  SrvOk P c' wr' /\ c_invalid c' = None /\
  (w_written wr' < n -> c_finished c' = false) /\ (w_written wr' = n -> c_finished c' = true) /\
  (w_written wr = conf s /\ w_written wr' = conf s + 1 \/
   w_written wr' = w_written wr /\ conf s < w_written wr /\ plain <> []) /\
  (plain = [] \/ plain = [to_bytes (PAck (w_written wr' mod 65536))]) /\
  (w_written wr' = n -> plain <> []).
Proof.
  intros HC HS HR Hmax E HE.
  assert (Hold : not_too_old P sr (x, Some (conf s + 1))) by (eapply age_data; exact HC).
  destruct (uwrite_inv P HP _ _ _ _ _ _ _ _ (x, Some (conf s + 1)) _ _ _ _ _ _ _ _ HC HS (or_introl eq_refl) Hold E HE) as [C1 HS'].
  cbn [see snd] in C1. split; [exact C1|]. split; [exact HS'|].
  destruct (bs_pos P HP) as (B1 & B2 & B3).
  pose proof HS as (HO & HS1 & HS2). destruct (HS2 HR) as [Hk Ht]. pose proof HR as [HR1 HR2].
  pose proof HC as (m & _ & _ & _ & _ & _ & _ & _ & _ & HD & _).
  apply Forall_inv in HD. cbn [data_ok snd fst] in HD. destruct HD as (G1 & G2 & G3).
  unfold handle_write in E. rewrite G3 in E.
  rewrite decode_data in E by (apply N.mod_upper_bound; discriminate).
  unfold srv_write_block in E.
  destruct (write_block wr ((conf s + 1) mod 65536) (blk (conf s + 1)) false None) as [w1 res] eqn:EW.
  destruct (core_receive P _ _ HP _ _ _ _ _ _ _ _ _ _ _ _ HC (or_introl eq_refl) Hold EW) as [C2 R].
  pose proof (core_win P _ _ HP _ _ _ _ _ _ _ HC) as K.
  pose proof (core_win P _ _ HP _ _ _ _ _ _ _ C2) as K2.
  destruct res as [[k j]|[cc j|cc j|]|].
  - destruct R as (-> & R2 & R3 & -> & _). cbn match in E.
    pose proof (prefix_step file bs B1 (w_written wr) Hk) as Hp.
    replace (conf s) with (w_written wr) in * by lia.
    assert (Hsz : size_ok (c_transfer c + blen (blk (w_written wr + 1))) (p_max P) = true).
    { unfold size_ok. rewrite Ht, <- Hp. unfold prefix_size. lia. }
    rewrite Hsz in E. cbn [negb] in E.
    set (due := ack_due _ _ _ _) in *. rewrite Bool.andb_true_r in E.
    injection E as <- <- <-. rewrite R3 in *.
    pose proof (block_short file bs B1 (w_written wr + 1) ltac:(lia) ltac:(unfold p_n in *; lia)) as Hs. fold n in Hs.
    rewrite HO. change (bs_enc (p_opts P)) with bs.
    split; [destruct (blen _ <? bs); destruct due; exact HR1|].
    split; [intros H; replace (blen (blk (w_written wr + 1)) <? bs) with false by (symmetry; apply N.ltb_ge; apply N.nlt_ge; intros X; apply Hs in X; lia); destruct due; exact HR2|].
    split; [intros H; replace (blen (blk (w_written wr + 1)) <? bs) with true by (symmetry; apply N.ltb_lt; apply Hs; exact H); reflexivity|].
    split; [auto|]. split.
    + destruct due; auto.
    + intros En. replace due with true; [discriminate|]. unfold due, ack_due. rewrite HO.
      change (bs_enc (p_opts P)) with bs.
      replace (blen (blk (w_written wr + 1)) <? bs) with true; [rewrite Bool.orb_true_r; reflexivity|].
      symmetry. apply N.ltb_lt. apply Hs. exact En.
  - destruct R as (R1 & -> & -> & R4 & R5). cbn match in E.
    assert (Hdue : ack_due (c_opts c) (c_acked c) (w_written wr) None = true).
    { unfold ack_due. rewrite HO. change (bs_enc (p_opts P)) with bs. replace (0 <? bs) with true by lia. apply Bool.orb_true_r. }
    rewrite Hdue in E. cbn [andb when] in E. injection E as <- <- <-. rewrite R4 in *.
    split; [exact HR1|]. split; [intros _; exact HR2|]. split; [lia|].
    split; [right; split; [reflexivity|split; [lia|discriminate]]|].
    split; [right; reflexivity|discriminate].
  - destruct R as (R1 & _). lia.
  - destruct R as (_ & _ & R). discriminate.
  - destruct R.
Qed.

Definition umeasure (st : ustate) (s : win) : N := w_written (u_writer st) + conf s.
Lemma umeasure_bound st s : UInv P st s -> u_stat st = CRun -> umeasure st s <= 2 * n - 1.
Proof.
  intros (HC & _ & HS) E. rewrite E in HS. unfold umeasure. pose proof (core_win P _ _ HP _ _ _ _ _ _ _ HC). lia.
Qed.

Lemma uround_inv st st' s : blen file <= p_max P -> UInv P st s -> uround P st st' ->
  exists s', UInv P st' s' /\ umeasure st s < umeasure st' s' /\ u_stat st' <> CFail /\ u_live st' = true /\
    c_invalid (u_conn st') = None /\ (u_stat st' = CRun -> c_finished (u_conn st') = false) /\
    (u_stat st' <> CRun -> c_finished (u_conn st') = true).
Proof.
  intros Hmax (HC & HS & HT) R.
  destruct R as [c wr cl down up sc ss buflen cl1 p x now txt c2 w2 plain new now3 cl3 stat3 HR Hb E1 Hx E2 HE E3 g].
  cbn [u_conn u_writer u_live u_cl u_stat u_down u_up u_seenc u_seens] in *. destruct HT as [Hn Ht].
  destruct (usend_retry _ _ _ _ _ _ _ _ HC Hn Hb) as (cl1' & s1 & F & F1 & F2 & F3 & F7).
  rewrite F in E1. injection E1 as <- <-.
  specialize (F7 x Hx). subst g. rewrite ghost_data by (apply N.mod_upper_bound; discriminate). rewrite F1. rewrite <- F2 in *.
  destruct (uwrite_oldest _ _ _ _ _ _ _ _ _ _ _ _ _ _ _ F7 HS HR Hmax E2 HE) as (C2 & S1 & S2 & S2' & S2'' & S3 & S4 & S5).
  cbn [see snd]. pose proof (core_win P _ _ HP _ _ _ _ _ _ _ C2) as K.
  destruct S4 as [S4|S4].
  - subst plain. inversion HE; subst. cbn in E3. injection E3 as <- <-. exists s1. cbn [app see_all fold_left].
    assert (Hlt : w_written w2 < n).
    { destruct (N.eq_dec (w_written w2) n) as [e|e]; [destruct (S5 e eq_refl)|lia]. }
    split; [|split].
    + split; [exact C2|]. cbn. split; [exact S1|]. rewrite F3. auto.
    + unfold umeasure. cbn. rewrite F2. destruct S3 as [[A B]|(A & B & D)]; [lia|congruence].
    + cbn. split; [discriminate|]. split; [reflexivity|]. split; [exact S2|].
      split; [auto|congruence].
  - subst plain. destruct (emitted_ack _ _ _ HE) as (y & -> & Hy).
    cbn [client_gets_acks fst] in E3. cbn [app see_all fold_left see snd].
    pose proof (age_ack _ _ _ _ _ _ _ _ _ y C2) as Ho.
    assert (Ht1 : cs_total cl1' = pre (conf s1)) by congruence.
    assert (Hev : client_event ([(y, Some (w_written w2))] ++ down) (EvDatagram true y) (y, Some (w_written w2))) by (cbn; auto).
    destruct (urecv_inv P HP _ _ _ _ _ _ _ _ _ _ _ _ C2 Hn Ht1 Hev Ho E3) as (s' & C3 & Q1 & Q2 & Q3).
    destruct (Q3 _ eq_refl) as [Q4 Q5].
    assert (Hc : conf s1 < w_written w2).
    { destruct S3 as [[A B]|(A & B & _)]; lia. }
    pose proof (spec_free_all _ _ _ _ _ _ _ _ _ C2 Hc) as Hall. rewrite Q5 in Hall.
    cbn [see snd] in C3.
    exists s'. split; [|split].
    + split; [exact C3|]. cbn. auto.
    + unfold umeasure. cbn. rewrite Hall. destruct S3 as [[A B]|(A & B & D)]; lia.
    + cbn. split; [exact Q4|]. split; [reflexivity|]. split; [exact S2|].
      split; intros Hd; destruct stat3; try congruence; destruct Q2; [apply S2'|apply S2'']; lia.
Qed.

Lemma uround_exists st s : encodable P (p_decc P) -> encodable P (p_decs P) -> blen file <= p_max P ->
  UInv P st s -> u_alive st -> exists st', uround P st st'.
Proof.
  intros He1 He2 Hmax (HC & HS & HT) (A1 & A2 & A3).
  destruct st as [c wr live cl stat down up sc ss]. cbn in *. subst live stat. destruct HT as [Hn Ht].
  set (buflen := op_bs (p_opts P) + DATA_PACKET_HEADER_SIZE).
  destruct (usend_retry _ _ _ _ _ _ _ buflen HC Hn ltac:(subst buflen; lia)) as (cl1 & s1 & F & F1 & F2 & F3 & F7).
  destruct (He2 _ (plain_data_len (conf s + 1) ltac:(lia))) as [x Hx].
  specialize (F7 x Hx). rewrite <- F2 in *.
  destruct (handle_write (p_decs P) c wr x 0 (p_max P) false None true []) as [[c2 w2] plain] eqn:E2.
  assert (HE : exists new, emitted (p_decc P) (w_written w2) plain new).
  { assert (G : plain = [] \/ exists b, plain = [to_bytes (PAck b)]).
    { unfold handle_write in E2. rewrite Hx in E2.
      rewrite decode_data in E2 by (apply N.mod_upper_bound; discriminate). unfold srv_write_block in E2.
      destruct (write_block wr _ _ _ _) as [w1 res] eqn:EW.
      destruct (core_receive P _ _ HP _ _ _ _ _ _ _ _ _ _ _ _ F7 (or_introl eq_refl) (age_data _ _ _ _ _ _ _ _ _ x F7) EW) as [C2 R].
      pose proof HS as (HO & HS1 & HS2). destruct (HS2 A2) as [Hk Ht2].
      destruct res as [[k j]|[cc j|cc j|]|].
      - destruct R as (-> & R2 & R3 & -> & _). cbn match in E2.
        destruct (bs_pos P HP) as (B1 & B2 & B3).
        pose proof (prefix_step file bs B1 (w_written wr) Hk) as Hp. rewrite <- R2 in *.
        assert (Hsz : size_ok (c_transfer c + blen (blk (conf s1 + 1))) (p_max P) = true).
        { unfold size_ok. rewrite Ht2, <- Hp. unfold prefix_size. lia. }
        rewrite Hsz in E2. cbn [negb] in E2. destruct (ack_due _ _ _ _); cbn [andb negb when] in E2; injection E2 as _ _ <-; eauto.
      - destruct (ack_due _ _ _ _); cbn [andb negb when] in E2; injection E2 as _ _ <-; eauto.
      - destruct (ack_due _ _ _ _); cbn [andb negb when] in E2; injection E2 as _ _ <-; eauto.
      - destruct R as (_ & _ & R). discriminate.
      - destruct R. }
    destruct G as [->|[b ->]]; [exists []; constructor|].
    destruct (He1 _ (plain_ack_len b)) as [y Hy]. exists [(y, ghost (to_bytes (PAck b)) (w_written w2))].
    constructor; [auto|constructor]. }
  destruct HE as [new HE].
  destruct (client_gets_acks P cl1 new 0) as [cl3 stat3] eqn:E3.
  eexists. eapply uround_intro; try eassumption. apply N.le_refl.
Qed.

Lemma ustep_mono st st' s : UInv P st s -> ustep P st st' -> exists s', UInv P st' s' /\ umeasure st s <= umeasure st' s' /\ conf s <= conf s'.
Proof.
  intros (HC & HS & HT) H. unfold umeasure. destruct H as [|c wr|c w1x|]; cbn in *.
  - destruct HT as [Hc Ht].
    destruct (usend_inv P HP _ _ _ _ _ _ _ _ _ _ _ _ _ _ _ HC H H0 H1) as (s' & C' & E1 & E2 & E3).
    exists s'. split; [|cbn; lia]. split; [exact C'|]. cbn. split; [exact HS|]. destruct E3 as [->| ->]; [|exact I]. rewrite E1, E2. auto.
  - destruct HT as [Hc Ht].
    destruct (urecv_inv P HP _ _ _ _ _ _ _ _ _ _ _ _ HC Hc Ht H H0 H1) as (s' & C' & E1 & E2 & _).
    exists s'. split; [|cbn; lia]. split; [exact C'|]. cbn. auto.
  - destruct (uwrite_inv P HP _ _ _ _ _ _ _ _ _ _ _ _ _ _ _ _ _ HC HS H H0 H1 H2) as [C' HS'].
    exists s. split.
    + split; [exact C'|]. cbn. auto.
    + cbn. enough (w_written w1x <= w_written w') by lia.
      revert H1. unfold handle_write, srv_write_block. destruct (p_decs P (fst g)) as [b|]; [|intros [= _ <- _]; lia].
      destruct (from_bytes b) as [[]| |]; try (intros [= _ <- _]; lia).
      unfold write_block. destruct (map_index _ _) as [pi pm]. destruct (pi <? w_written w1x + 1).
      { cbn. intros [= _ <- _]. cbn. lia. }
      destruct (_ <? pi). { cbn. intros [= _ <- _]. cbn. lia. }
      destruct io. { intros [= _ <- _]. cbn. lia. }
      cbn. destruct (negb _); intros [= _ <- _]; cbn; lia.
  - exists s. split; [|cbn; lia]. split; [|cbn; auto].
    cbn. unfold timeout_client in H. apply core_other_acks; [exact HC|].
    destruct (_ || _)%bool; [injection H as <-; inversion H0; constructor|].
    destruct (_ <=? _); [discriminate|]. injection H as <-.
    destruct sock; cbn [when] in H0; [eapply error_not_ack; exact H0|inversion H0; constructor].
Qed.

Lemma urun_inv k st : blen file <= p_max P -> urun P k st -> exists s, UInv P st s /\ N.of_nat k <= umeasure st s.
Proof.
  intros Hmax. induction 1 as [st H|k st st' _ (s & I & L) H|k st st' _ (s & I & L) H].
  - destruct (uinv_init P HP st H) as [s I]. exists s. split; [exact I|]. cbn. lia.
  - destruct (ustep_mono _ _ _ I H) as (s' & I' & L'). exists s'. split; [exact I'|lia].
  - destruct (uround_inv _ _ _ Hmax I H) as (s' & I' & L' & _). exists s'. split; [exact I'|lia].
Qed.
Lemma ucomplete st s : encodable P (p_decc P) -> encodable P (p_decs P) -> blen file <= p_max P ->
  UInv P st s -> u_alive st ->
  exists k st', urounds P k st st' /\ N.of_nat k <= 2 * n /\ u_stat st' = CDone (blen file) /\
    w_out (u_writer st') = file /\ c_finished (u_conn st') = true.
Proof.
  intros He1 He2 Hmax.
  enough (G : forall m st s, (2 * n - umeasure st s <= N.of_nat m) -> UInv P st s -> u_alive st ->
    exists k st', urounds P k st st' /\ (k <= m)%nat /\ exists s', UInv P st' s' /\ (exists t, u_stat st' = CDone t) /\ c_finished (u_conn st') = true).
  { intros I A. destruct (G (N.to_nat (2 * n)) st s ltac:(lia) I A) as (k & st' & R & L & s' & I' & [t D] & Fi).
    exists k, st'. split; [exact R|]. split; [lia|].
    destruct (uinv_safe P HP st' s' I') as (_ & S2 & _). destruct (S2 t D) as [S3 ->]. auto. }
  induction m as [|m IH]; intros st0 s0 Hm I A.
  - pose proof (umeasure_bound _ _ I (proj2 (proj2 A))). pose proof (n_pos P HP). lia.
  - destruct (uround_exists _ _ He1 He2 Hmax I A) as [st' R].
    destruct (uround_inv _ _ _ Hmax I R) as (s' & I' & L & D1 & D2 & D3 & D4 & D5).
    destruct (u_stat st') eqn:Ed.
    + destruct (IH st' s' ltac:(lia) I') as (k & st'' & R' & Lk & X).
      { repeat split; auto. }
      exists (S k), st''. split; [econstructor; eassumption|]. split; [lia|exact X].
    + exists 1%nat, st'. split; [econstructor; [exact R|constructor]|]. split; [lia|]. exists s'.
      split; [exact I'|]. rewrite Ed. split; [eauto|]. apply D5. discriminate.
    + congruence.
Qed.

Inductive usteps : ustate -> ustate -> Prop :=
| usteps_refl st : usteps st st
| usteps_cons st st' st'' : ustep P st st' -> usteps st' st'' -> usteps st st''.
Lemma uround_steps st st' s : blen file <= p_max P -> UInv P st s -> uround P st st' -> usteps st st'.
Proof.
  intros Hmax (HC & HS & HT) R.
  destruct R as [c wr cl down up sc ss buflen cl1 p x now txt c2 w2 plain new now3 cl3 stat3 HR Hb E1 Hx E2 HE E3 g].
  cbn [u_conn u_writer u_live u_cl u_stat u_down u_up u_seenc u_seens] in *. destruct HT as [Hn Ht].
  destruct (usend_retry _ _ _ _ _ _ _ _ HC Hn Hb) as (cl1' & s1 & F & F1 & F2 & F3 & F7).
  pose proof F as F'. rewrite E1 in F'. injection F' as -> ->.
  assert (Hg : g = (x, Some (conf s1 + 1))).
  { subst g. rewrite ghost_data by (apply N.mod_upper_bound; discriminate). rewrite F1, F2. reflexivity. }
  specialize (F7 x Hx). rewrite <- F2 in F7.
  destruct (uwrite_oldest _ _ _ _ _ _ _ _ _ _ _ _ _ _ _ F7 HS HR Hmax E2 HE) as (C2 & S1 & S2 & S2' & S2'' & S3 & S4 & S5).
  eapply usteps_cons; [eapply u_send with (new := [g]); [exact Hb|exact E1|]|].
  { constructor; [|constructor]. subst g. cbn. auto. }
  cbn [app].
  eapply usteps_cons; [eapply u_server_receive with (g := g); [left; reflexivity|rewrite Hg; eapply age_data; exact F7| |exact HE]|].
  { rewrite Hg. cbn [fst]. exact E2. }
  destruct S4 as [->|S4].
  - inversion HE; subst new. cbn in E3. injection E3 as <- <-. cbn. constructor.
  - subst plain. destruct (emitted_ack _ _ _ HE) as (y & -> & Hy).
    cbn [client_gets_acks fst] in E3. cbn [app see_all fold_left].
    eapply usteps_cons; [|constructor].
    apply (u_client_receive P c2 w2 true cl1' ((y, Some (w_written w2)) :: down) (g :: up) sc (see ss g)
      (EvDatagram true y) (y, Some (w_written w2)) now3 cl3 stat3); [cbn; auto|eapply age_ack; exact C2|exact E3].
Qed.
End L.
