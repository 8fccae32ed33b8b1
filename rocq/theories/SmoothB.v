(** One turn of a connection, and of a client's loop, while every datagram arrives once and in order.  Used by PropSmooth. *)
From Verif Require Import Base BaseProofs PacketModel PacketSpec PacketProofs MapperModel MapperProofs ReaderModel
  ReaderSpec BlockLemmas ReaderProofs WriterSpec WriterProofs ConfigModel ConnModel ClientModel SystemModel CoreProofs
  DownloadProofs UploadProofs LiveModel LiveProofs SmoothA.

Definition block_plain (P : params) (i : N) : bytes := to_bytes (PData (i mod 65536) (block_of (p_file P) (p_bs P) i)).
Definition ack_plain (i : N) : bytes := to_bytes (PAck (i mod 65536)).
Lemma m16 i : i mod 65536 < 65536.
Proof. apply N.mod_upper_bound. discriminate. Qed.

Section D.
Variable P : params.
Hypothesis HP : valid P.
Notation file := (p_file P).
Notation bs := (p_bs P).
Notation n := (p_n P).
Notation blk := (block_of file bs).
Notation pre := (prefix_size file bs).
Notation Q := (QC P (p_decc P) (p_decs P)).

Lemma pre_n : pre n = blen file.
Proof. destruct (bs_pos P HP) as (B & _). apply prefix_all; [exact B|apply N.le_refl]. Qed.

Lemma d_send s c r wr la data acks ss buflen now txt c' r' plain ok : Q s r wr la data acks ss -> c_opts c = p_opts P -> retry_due c now = false ->
  send_data_block file c r buflen now false true txt = (c', r', plain, ok) ->
  plain = [] /\ c' = c /\ Q s r' wr la data acks ss /\ (acks = [] -> data <> []) \/
  plain = [block_plain P (hi s + 1)] /\ c' = set_sent c now /\ hi s < n /\
    forall x, p_decc P x = Some (block_plain P (hi s + 1)) -> exists s', conf s' = conf s /\ hi s' = hi s + 1 /\ Q s' r' wr la (data ++ [(x, Some (hi s + 1))]) acks ss.
Proof.
  intros HQ HO HR E. unfold send_data_block in E. rewrite HR in E. destruct (bs_pos P HP) as (B1 & B2 & B3).
  destruct (reader_next _ _ _ _ _) as [r1 res] eqn:ER.
  pose proof (fun H => q_next P HP _ _ _ _ _ _ _ _ _ _ _ _ HQ H ER) as QN. rewrite HO in QN.
  destruct (QN ltac:(unfold DATA_PACKET_HEADER_SIZE; lia)) as [(-> & Q' & X)|(b & s' & -> & E1 & E2 & E3 & E4 & E5 & E6 & Q')].
  - injection E as <- <- <- _. left. auto.
  - injection E as <- <- <- _. right. cbn [when]. rewrite E1, E2. split; [reflexivity|]. split; [reflexivity|]. split; [exact E4|]. eauto.
Qed.

Lemma d_ack s c r wr la d data acks ss now c' r' ok : Q s r wr la data (d :: acks) ss -> la < n ->
  handle_read (p_decs P) c r (fst d) now = (c', r', ok) ->
  ok = Some tt /\ c_opts c' = c_opts c /\ c_sent c' = c_sent c /\ c_invalid c' = c_invalid c /\ c_finished c' = c_finished c /\
  (c_updated c' = now \/ c_updated c' = c_updated c) /\
  exists s' ss', conf s < conf s' /\ hi s' = hi s /\ data = [] /\ acks = [] /\ Q s' r' wr la [] [] ss'.
Proof.
  intros HQ HL E. destruct (qc_ack P HP _ _ _ _ _ _ _ _ _ _ HQ) as (r1 & -> & -> & A3 & A4 & A5 & A6 & A7 & _ & A8).
  destruct (A8 HL) as (s' & S1 & S2 & Q').
  unfold handle_read in E. rewrite A5, decode_ack, A6, A7 in E by apply m16. replace (la =? n) with false in E by lia.
  injection E as <- <- <-. split; [reflexivity|].
  destruct (0 <? pre la - pre (conf s)); cbn [c_opts c_sent c_invalid c_finished c_updated set_mult set_progress];
    (do 4 (split; [reflexivity|]); split; [auto|]); exists s', (N.max ss la); (split; [lia|]); auto.
Qed.
Lemma d_ack0 s c r wr la data acks y now c' r' ok : Q s r wr la data acks 0 -> p_decs P y = Some (ack_plain 0) ->
  handle_read (p_decs P) c r y now = (c', r', ok) -> ok = Some tt /\ c' = c /\ Q s r' wr la data acks 0.
Proof.
  intros HQ HY E. destruct (q_ack0 P HP _ _ _ _ _ _ _ _ _ _ HQ HY eq_refl) as (r1 & F1 & F2 & Q').
  unfold handle_read in E. rewrite HY in E. unfold ack_plain in E. rewrite decode_ack in E by apply m16. change (0 mod 65536) with 0 in E.
  rewrite F1, F2 in E. injection E as <- <- <-. auto.
Qed.

Lemma d_recv s r cl d data acks ss o max tmo now txt cl' plain stat' : Q s r (cr_w cl) (cr_ack cl) (d :: data) acks ss ->
  cr_total cl = pre (w_written (cr_w cl)) -> blen file <= max -> op_window o = op_window (p_opts P) -> bs_enc o = bs ->
  recv_step (p_decc P) o max tmo cl (EvDatagram true (fst d)) now false None true txt = (cl', plain, stat') ->
  let i := w_written (cr_w cl) + 1 in
  acks = [] /\ w_written (cr_w cl') = i /\ i <= n /\ cr_total cl' = pre i /\ w_out (cr_w cl') = takeN (pre i) file /\ cr_time cl' = now /\
  (i = n -> stat' = CDone (blen file)) /\
  (i < n -> stat' = CRun) /\
  (plain = [] /\ i < n /\ Q s r (cr_w cl') (cr_ack cl') data [] ss \/
   plain = [ack_plain i] /\ forall y, p_decs P y = Some (ack_plain i) -> Q s r (cr_w cl') (cr_ack cl') data [(y, Some i)] ss /\ cr_ack cl' = i).
Proof.
  intros HQ HT HM O1 O2 E i. pose proof (q_bounds P HP _ _ _ _ _ _ _ _ _ HQ) as BD.
  destruct (q_recv P HP _ _ _ _ _ _ _ _ _ _ HQ) as (-> & LA & IN & DE & wr' & WB & WW & _ & WO & PI & DU & Q1 & Q2). fold i in IN, DE, WB, WW, WO, PI, DU, Q1, Q2.
  destruct (DU o O1 O2) as [D1 D2]. cbn [recv_step] in E. rewrite DE in E. cbn [negb] in E. rewrite decode_data in E by apply m16.
  unfold cl_write_block in E. rewrite WB in E.
  assert (PM : pre i <= blen file) by (unfold prefix_size; lia).
  rewrite D1, D2, HT, <- PI in E. replace (cl_size_ok (pre i) max) with true in E by (symmetry; unfold cl_size_ok; apply Bool.negb_true_iff, N.ltb_ge; lia).
  rewrite Bool.andb_false_r in E. cbn [negb] in E. injection E as <- <- <-. cbn [cr_w cr_total cr_time cr_ack]. rewrite WW, WO.
  split; [reflexivity|]. split; [reflexivity|]. split; [exact IN|]. split; [reflexivity|]. split; [reflexivity|]. split; [reflexivity|].
  split; [intros ->; rewrite N.eqb_refl, pre_n; reflexivity|]. split; [intros L; replace (i =? n) with false by lia; reflexivity|].
  destruct (due P s i) eqn:ED; cbn [when].
  - right. split; [reflexivity|]. intros y HY. split; [apply Q2; [reflexivity|exact HY]|reflexivity].
  - left. split; [reflexivity|]. split; [|apply Q1; reflexivity].
    unfold due in ED. apply Bool.orb_false_iff in ED as [_ ED]. rewrite N.eqb_neq in ED. lia.
Qed.
End D.

Section U.
Variable P : params.
Hypothesis HP : valid P.
Notation file := (p_file P).
Notation bs := (p_bs P).
Notation n := (p_n P).
Notation pre := (prefix_size file bs).
Notation Q := (QC P (p_decs P) (p_decc P)).

Lemma u_send s cl wr la data acks ss buflen cl' plain stat : Q s (cs_r cl) wr la data acks ss -> op_bs (p_opts P) + DATA_PACKET_HEADER_SIZE <= buflen ->
  sender_send file cl buflen false IoOk (Some true) = (cl', plain, stat) ->
  stat = CRun /\ cs_total cl' = cs_total cl /\ cs_time cl' = cs_time cl /\
  (plain = [] /\ Q s (cs_r cl') wr la data acks ss /\ (acks = [] -> data <> []) \/
   plain = [block_plain P (hi s + 1)] /\ hi s < n /\
   forall x, p_decs P x = Some (block_plain P (hi s + 1)) -> exists s', conf s' = conf s /\ hi s' = hi s + 1 /\ Q s' (cs_r cl') wr la (data ++ [(x, Some (hi s + 1))]) acks ss).
Proof.
  intros HQ HO E. unfold sender_send in E. cbn [io_bad] in E. destruct (bs_pos P HP) as (B1 & B2 & B3).
  destruct (reader_next _ _ _ _ _) as [r1 res] eqn:ER.
  pose proof (fun H => q_next P HP _ _ _ _ _ _ _ _ _ _ _ _ HQ H ER) as QN.
  destruct (QN ltac:(unfold DATA_PACKET_HEADER_SIZE in *; lia)) as [(-> & Q' & X)|(b & s' & -> & E1 & E2 & E3 & E4 & E5 & E6 & Q')].
  - injection E as <- <- <-. cbn [cs_r cs_total cs_time]. do 3 (split; [reflexivity|]). left. auto.
  - injection E as <- <- <-. cbn [cs_r cs_total cs_time]. do 3 (split; [reflexivity|]). right. rewrite E1, E2. split; [reflexivity|]. split; [exact E4|]. eauto.
Qed.

Lemma u_ack s cl wr la d data acks ss tmo now cl' stat : Q s (cs_r cl) wr la data (d :: acks) ss -> cs_total cl = pre (conf s) ->
  sender_recv (p_decc P) tmo cl (EvDatagram true (fst d)) now = (cl', stat) ->
  data = [] /\ acks = [] /\ la <= n /\ la = w_written wr /\ cs_time cl' = now /\
  (la = n -> stat = CDone (blen file) /\ w_out wr = file) /\
  (la < n -> stat = CRun /\ exists s' ss', conf s < conf s' /\ hi s' = hi s /\ cs_total cl' = pre (conf s') /\ Q s' (cs_r cl') wr la [] [] ss').
Proof.
  intros HQ HT E. destruct (qc_ack P HP _ _ _ _ _ _ _ _ _ _ HQ) as (r1 & -> & -> & A3 & A4 & A5 & A6 & A7 & A9 & A8).
  cbn [sender_recv] in E. rewrite A5 in E. cbn [negb] in E. rewrite decode_ack, A6, A7 in E by apply m16.
  assert (PM : pre (conf s) <= pre la) by (apply prefix_mono; lia).
  rewrite HT in E. replace (pre (conf s) + (pre la - pre (conf s))) with (pre la) in E by lia.
  injection E as <- <-. cbn [cs_time cs_r cs_total]. split; [reflexivity|]. split; [reflexivity|]. split; [lia|]. split; [exact A3|]. split; [reflexivity|]. split.
  - intros ->. rewrite N.eqb_refl, (pre_n P HP). split; [reflexivity|]. rewrite A9, (pre_n P HP). apply takeN_all. lia.
  - intros L. replace (la =? n) with false by lia. split; [reflexivity|]. destruct (A8 L) as (s' & S1 & S2 & Q').
    exists s', (N.max ss la). split; [lia|]. split; [exact S2|]. rewrite S1. auto.
Qed.

Lemma u_recv s r c wr d data acks ss max now txt c' wr' plain : Q s r wr (c_acked c) (d :: data) acks ss ->
  c_opts c = p_opts P -> c_transfer c = pre (w_written wr) -> c_finished c = false -> blen file <= max ->
  handle_write (p_decs P) c wr (fst d) now max false None true txt = (c', wr', plain) ->
  let i := w_written wr + 1 in
  acks = [] /\ w_written wr' = i /\ i <= n /\ c_opts c' = c_opts c /\ c_invalid c' = c_invalid c /\ c_sent c' = c_sent c /\ c_transfer c' = pre i /\
  c_finished c' = (i =? n) /\ c_updated c' = now /\ w_out wr' = takeN (pre i) file /\
  (plain = [] /\ i < n /\ Q s r wr' (c_acked c') data [] ss \/
   plain = [ack_plain i] /\ forall y, p_decc P y = Some (ack_plain i) -> Q s r wr' (c_acked c') data [(y, Some i)] ss).
Proof.
  intros HQ HO HT HF HM E i. pose proof (q_bounds P HP _ _ _ _ _ _ _ _ _ HQ) as BD.
  destruct (q_recv P HP _ _ _ _ _ _ _ _ _ _ HQ) as (-> & LA & IN & DE & w1 & WB & WW & _ & WO & PI & DU & Q1 & Q2). fold i in IN, DE, WB, WW, WO, PI, DU, Q1, Q2.
  destruct (DU (c_opts c)) as [D1 D2]; [rewrite HO; reflexivity|rewrite HO; reflexivity|].
  unfold handle_write in E. rewrite DE, decode_data in E by apply m16. unfold srv_write_block in E. rewrite WB in E.
  assert (PM : pre i <= blen file) by (unfold prefix_size; lia).
  rewrite D1, D2, HT, <- PI in E. replace (size_ok (pre i) max) with true in E by (symmetry; unfold size_ok; apply Bool.negb_true_iff, N.ltb_ge; lia).
  cbn [negb] in E. rewrite Bool.andb_true_r in E. injection E as <- <- <-. rewrite WW, WO.
  split; [reflexivity|]. split; [reflexivity|]. split; [exact IN|].
  destruct (due P s i) eqn:ED; cbn [when]; destruct (N.eqb_spec i n) as [EN|EN];
    cbn [c_opts c_invalid c_sent c_transfer c_finished c_updated c_acked set_finished set_progress set_acked];
    rewrite ?HT, ?HF, <- ?PI; do 7 (split; [reflexivity|]).
  - right. split; [reflexivity|]. auto.
  - right. split; [reflexivity|]. auto.
  - exfalso. unfold due in ED. apply Bool.orb_false_iff in ED as [_ ED]. rewrite N.eqb_neq in ED. exact (ED EN).
  - left. split; [reflexivity|]. split; [lia|]. auto.
Qed.
Lemma u_stale c wr x now max io short sock txt : p_decs P x = Some (ack_plain 0) ->
  handle_write (p_decs P) c wr x now max io short sock txt = (c, wr, []).
Proof. intros H. unfold handle_write. rewrite H. unfold ack_plain. rewrite decode_ack by apply m16. reflexivity. Qed.
End U.
