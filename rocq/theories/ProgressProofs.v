From Verif Require Import Base BaseProofs PacketModel PacketSpec PacketProofs MapperModel MapperProofs ReaderModel ReaderSpec BlockLemmas ReaderProofs
  WriterSpec WriterProofs ConfigModel ConnModel ClientModel SystemModel CoreProofs DownloadProofs UploadProofs LiveModel LiveProofs.

(** ** One exchange, in SystemModel *)
Section L.
Variable P : params.
Hypothesis HP : valid P.
Notation file := (p_file P).
Notation bs := (p_bs P).
Notation w := (op_window (p_opts P)).
Notation n := (p_n P).
Notation blk := (block_of file bs).
Notation pre := (prefix_size file bs).

Lemma core_more decR decS s r wr x data acks sr ss : Core P decR decS s r wr data acks sr ss -> In x data ->
  Core P decR decS s r wr (x :: data) acks sr ss.
Proof.
  intros (m & H1 & H2 & H3 & H4 & H5 & H6 & H7 & H8 & HD & HA) I. exists m. repeat (split; [assumption|]). split; [|exact HA].
  constructor; [|exact HD]. exact (proj1 (Forall_forall _ _) HD _ I).
Qed.
Lemma core_less decR decS s r wr x data acks sr ss : Core P decR decS s r wr (x :: data) acks sr ss ->
  Core P decR decS s r wr data acks sr ss.
Proof.
  intros (m & H1 & H2 & H3 & H4 & H5 & H6 & H7 & H8 & HD & HA). exists m. repeat (split; [assumption|]). split; [|exact HA].
  inversion HD; assumption.
Qed.

(** An acknowledgement of [v] confirms at least [v] blocks. *)
Lemma spec_free_ge decR decS s r wr data acks sr ss v : Core P decR decS s r wr data acks sr ss -> v <= w_written wr ->
  conf s <= conf (fst (spec_free (p_kind P) file bs s v)) -> v <= conf (fst (spec_free (p_kind P) file bs s v)).
Proof.
  intros HC Hv HM. destruct (N.le_gt_cases v (conf s)) as [H|H]; [lia|].
  pose proof (core_win P _ _ HP _ _ _ _ _ _ _ HC) as K.
  pose proof HC as (m & [(W1 & W2 & W3 & W4 & W5) _] & _).
  unfold spec_free in *. destruct (p_kind P); cbn in *.
  - replace (v =? hi s) with true by lia. replace (conf s <? hi s) with true by lia. cbn. lia.
  - replace (conf s <? N.min v (hi s)) with true by lia. cbn. lia.
  - replace (conf s <? N.min v (hi s)) with true by lia. cbn. lia.
Qed.

(** The bytes acknowledged tell the block. *)
Lemma transfer_block j i : j < n -> 1 <= i -> pre j = (i - 1) * bs -> i = j + 1.
Proof.
  intros Hj Hi E. destruct (bs_pos P HP) as (B & _). unfold prefix_size in E.
  pose proof (nblocks_bounds file bs B) as NB. fold n in NB. unfold p_n in *.
  nia.
Qed.

Definition dhand (st : dstate) (x : bytes) (i : N) (cl' : crecv) (stat' : cstat) (new : list dgram) : dstate :=
  mkD (d_conn st) (d_reader st) (d_live st) cl' stat' (d_down st) (new ++ d_up st) (see (d_seenc st) (x, Some i)) (d_seens st).
(** The last block only counts once it is acknowledged. *)
Definition dpot (st : dstate) (s : win) : N := N.min (w_written (cr_w (d_cl st))) (n - 1) + conf s.
Lemma dhand_step st s x i now txt cl' plain stat' new : blen file <= p_max P -> DInv P st s -> d_stat st = CRun ->
  c_finished (d_conn st) = false -> 1 <= i -> c_transfer (d_conn st) = (i - 1) * bs -> In (x, Some i) (d_down st) ->
  recv_step (p_decc P) (p_opts P) (p_max P) (p_ctimeout P) (d_cl st) (EvDatagram true x) now false None true txt = (cl', plain, stat') ->
  emitted (p_decs P) (w_written (cr_w cl')) plain new ->
  let st' := dhand st x i cl' stat' new in
  dstep P st st' /\ DInv P st' s /\ stat' <> CFail /\ dpot st s <= dpot st' s /\
  (new = [] /\ dpot st s + 1 <= dpot st' s \/
   exists y v, new = [(y, Some v)] /\ v <= w_written (cr_w cl') /\ dpot st s + 1 <= N.min (w_written (cr_w cl')) (n - 1) + v).
Proof.
  intros Hmax (HC & HO & HT & HF & HS) ST FI Hi TR IN E HE. cbn zeta.
  destruct st as [c r live cl stat down up sc ss]. unfold dhand. cbn [d_conn d_reader d_live d_cl d_stat d_down d_up d_seenc d_seens] in *. subst stat.
  destruct HS as [Hk Ht]. pose proof (core_win P _ _ HP _ _ _ _ _ _ _ HC) as K.
  assert (Hn : conf s < n) by (rewrite FI in HF; lia).
  assert (EI : i = conf s + 1) by (apply transfer_block; [exact Hn|exact Hi|congruence]). subst i.
  pose proof (age_data P HP _ _ _ _ _ _ _ _ _ x HC) as AGE.
  assert (DS : dstep P (mkD c r live cl CRun down up sc ss) (mkD c r live cl' stat' down (new ++ up) (see sc (x, Some (conf s + 1))) ss)).
  { eapply d_client; [|exact AGE|exact E|exact HE]. cbn. auto. }
  split; [exact DS|]. pose proof (core_more _ _ _ _ _ _ _ _ _ _ HC IN) as HM.
  destruct (recv_oldest P HP _ _ _ _ _ _ _ _ _ _ _ _ _ _ HM Hk Ht Hmax E HE) as (C2 & S1 & S2 & S3 & S4 & S5).
  apply core_less in C2. split.
  { split; [exact C2|]. cbn. auto. }
  split; [exact S1|]. unfold dpot. cbn [d_cl].
  split; [destruct S3 as [[A B]|(A & _)]; lia|].
  destruct S4 as [->| ->].
  - left. inversion HE; subst. split; [reflexivity|]. pose proof (core_win P _ _ HP _ _ _ _ _ _ _ C2) as K2. destruct S3 as [[A B]|(A & B & D)]; [|congruence].
    assert (NE : w_written (cr_w cl') <> n) by (intros X; apply S5 in X; congruence). lia.
  - right. destruct (emitted_ack _ _ _ HE) as (y & -> & _). exists y, (w_written (cr_w cl')). split; [reflexivity|].
    split; [lia|]. destruct S3 as [[A B]|(A & B & D)]; lia.
Qed.

Definition danswer (st : dstate) (x : dgram) (c' : conn) (r' : reader) : dstate :=
  mkD c' r' true (d_cl st) (d_stat st) (d_down st) (d_up st) (d_seenc st) (see (d_seens st) x).
Lemma danswer_step st s x v now c' r' ok : DInv P st s -> d_live st = true -> In x (d_up st) -> snd x = Some v ->
  not_too_old P (d_seens st) x ->
  handle_read (p_decs P) (d_conn st) (d_reader st) (fst x) now = (c', r', ok) ->
  let st' := danswer st x c' r' in
  ok = Some tt /\ dstep P st st' /\ exists s', DInv P st' s' /\ conf s <= conf s' /\ v <= conf s'.
Proof.
  intros (HC & HO & HT & HF & HS) LV IN SX AGE E. cbn zeta.
  destruct st as [c r live cl stat down up sc ss]. unfold danswer. cbn [d_conn d_reader d_live d_cl d_stat d_down d_up d_seenc d_seens] in *. subst live.
  destruct (read_inv P HP _ _ _ _ _ _ _ _ x _ _ _ _ HC HF HT IN AGE E) as (s' & C3 & Q1 & Q2 & Q3 & Q4 & Q0 & Q5 & Q6).
  split; [exact Q0|]. split.
  { pose proof (d_server_receive P c r cl stat down up sc ss x now c' r' ok IN AGE E) as D. rewrite Q0 in D. exact D. }
  exists s'. split.
  { split; [exact C3|]. cbn. rewrite Q1, Q2, Q3. auto. }
  split; [exact Q4|]. destruct (Q6 v SX) as [Q7 _].
  pose proof HC as (m & _ & _ & _ & _ & _ & _ & _ & _ & _ & HA). pose proof (proj1 (Forall_forall _ _) HA _ IN) as HX.
  unfold ack_ok in HX. rewrite SX in HX. destruct HX as [HX _].
  pose proof (spec_free_ge _ _ _ _ _ _ _ _ _ v HC HX) as G. rewrite Q7 in G. cbn [fst] in G. apply G. exact Q4.
Qed.

(** What a connection due for a retry sends: the first block without acknowledgement. *)
Lemma dresend st s buflen now txt : DInv P st s -> c_finished (d_conn st) = false -> retry_due (d_conn st) now = true ->
  exists i c1 r1, 1 <= i <= n /\ c_transfer (d_conn st) = (i - 1) * bs /\
    send_data_block file (d_conn st) (d_reader st) buflen now false true txt = (c1, r1, [to_bytes (PData (i mod 65536) (blk i))], true) /\
    reader_cur r1 = i.
Proof.
  intros (HC & HO & HT & HF & HS) FI RD. pose proof (core_win P _ _ HP _ _ _ _ _ _ _ HC) as K.
  assert (Hn : conf s < n) by (rewrite FI in HF; lia).
  destruct (send_retry P HP _ _ _ _ _ _ _ _ buflen now txt HC Hn HO RD) as (c1 & r1 & s1 & F & F1 & _).
  exists (conf s + 1), c1, r1. split; [lia|]. split; [|split; [exact F|exact F1]]. rewrite HT. unfold prefix_size.
  destruct (bs_pos P HP) as (B & _). pose proof (nblocks_bounds file bs B) as NB. fold n in NB. unfold p_n in *. nia.
Qed.

(** Upload *)
Definition uhand (st : ustate) (x : bytes) (i : N) (c' : conn) (w' : writer) (new : list dgram) : ustate :=
  mkU c' w' true (u_cl st) (u_stat st) (new ++ u_down st) (u_up st) (u_seenc st) (see (u_seens st) (x, Some i)).
Definition upot (st : ustate) (s : win) : N := N.min (w_written (u_writer st)) (n - 1) + conf s.
Lemma uhand_step st s x i now txt c' w' plain new : blen file <= p_max P -> UInv P st s -> u_stat st = CRun -> u_live st = true ->
  running (u_conn st) -> 1 <= i -> cs_total (u_cl st) = (i - 1) * bs -> In (x, Some i) (u_up st) ->
  handle_write (p_decs P) (u_conn st) (u_writer st) x now (p_max P) false None true txt = (c', w', plain) ->
  emitted (p_decc P) (w_written w') plain new ->
  let st' := uhand st x i c' w' new in
  ustep P st st' /\ UInv P st' s /\ c_invalid c' = None /\ upot st s <= upot st' s /\
  (new = [] /\ upot st s + 1 <= upot st' s \/
   exists y v, new = [(y, Some v)] /\ v <= w_written w' /\ upot st s + 1 <= N.min (w_written w') (n - 1) + v).
Proof.
  intros Hmax (HC & HS & HT) ST LV RU Hi TR IN E HE. cbn zeta.
  destruct st as [c wr live cl stat down up sc ss]. unfold uhand. cbn [u_conn u_writer u_live u_cl u_stat u_down u_up u_seenc u_seens] in *. subst stat live.
  destruct HT as [Hn Ht]. pose proof (core_win P _ _ HP _ _ _ _ _ _ _ HC) as K.
  assert (EI : i = conf s + 1) by (apply transfer_block; [exact Hn|exact Hi|congruence]). subst i.
  pose proof (age_data P HP _ _ _ _ _ _ _ _ _ x HC) as AGE.
  split.
  { eapply (u_server_receive P c wr cl CRun down up sc ss (x, Some (conf s + 1))); [exact IN|exact AGE|exact E|exact HE]. }
  pose proof (core_more _ _ _ _ _ _ _ _ _ _ HC IN) as HM.
  destruct (uwrite_oldest P HP _ _ _ _ _ _ _ _ _ _ _ _ _ _ _ HM HS RU Hmax E HE) as (C2 & S1 & S2 & S2' & S2'' & S3 & S4 & S5).
  apply core_less in C2. split.
  { split; [exact C2|]. cbn. auto. }
  split; [exact S2|]. unfold upot. cbn [u_writer].
  split; [destruct S3 as [[A B]|(A & _)]; lia|].
  destruct S4 as [->| ->].
  - left. inversion HE; subst. split; [reflexivity|]. pose proof (core_win P _ _ HP _ _ _ _ _ _ _ C2) as K2. destruct S3 as [[A B]|(A & B & D)]; [|congruence].
    assert (NE : w_written w' <> n) by (intros X; apply S5 in X; congruence). lia.
  - right. destruct (emitted_ack _ _ _ HE) as (y & -> & _). exists y, (w_written w'). split; [reflexivity|].
    split; [lia|]. destruct S3 as [[A B]|(A & B & D)]; lia.
Qed.

Definition uanswer (st : ustate) (x : dgram) (cl' : csend) (stat' : cstat) : ustate :=
  mkU (u_conn st) (u_writer st) (u_live st) cl' stat' (u_down st) (u_up st) (see (u_seenc st) x) (u_seens st).
Lemma uanswer_step st s x v now cl' stat' : UInv P st s -> u_stat st = CRun -> In x (u_down st) -> snd x = Some v ->
  not_too_old P (u_seenc st) x ->
  sender_recv (p_decc P) (p_ctimeout P) (u_cl st) (EvDatagram true (fst x)) now = (cl', stat') ->
  let st' := uanswer st x cl' stat' in
  ustep P st st' /\ stat' <> CFail /\ exists s', UInv P st' s' /\ conf s <= conf s' /\ v <= conf s'.
Proof.
  intros (HC & HS & HT) ST IN SX AGE E. cbn zeta.
  destruct st as [c wr live cl stat down up sc ss]. unfold uanswer. cbn [u_conn u_writer u_live u_cl u_stat u_down u_up u_seenc u_seens] in *. subst stat.
  destruct HT as [Hn Ht].
  assert (Hev : client_event down (EvDatagram true (fst x)) x) by (cbn; auto).
  destruct (urecv_inv P HP _ _ _ _ _ _ _ _ _ _ _ _ HC Hn Ht Hev AGE E) as (s' & C3 & Q1 & Q2 & Q3).
  destruct (Q3 _ SX) as [Q4 Q5].
  split. { eapply u_client_receive; eassumption. }
  split; [exact Q4|]. exists s'. split.
  { split; [exact C3|]. cbn. auto. }
  split; [exact Q1|].
  pose proof HC as (m & _ & _ & _ & _ & _ & _ & _ & _ & _ & HA). pose proof (proj1 (Forall_forall _ _) HA _ IN) as HX.
  unfold ack_ok in HX. rewrite SX in HX. destruct HX as [HX _].
  pose proof (spec_free_ge _ _ _ _ _ _ _ _ _ v HC HX) as G. rewrite Q5 in G. apply G. exact Q1.
Qed.
End L.
