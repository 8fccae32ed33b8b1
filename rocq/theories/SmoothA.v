(** Block transfer over queues that lose nothing: what the sender and the receiver of blocks do while every datagram
    arrives once and in order.  Used by PropSmooth. *)
From Verif Require Import Base BaseProofs PacketModel PacketSpec PacketProofs MapperModel MapperProofs ReaderModel
  ReaderSpec BlockLemmas ReaderProofs WriterSpec WriterProofs ConfigModel ConnModel ClientModel SystemModel CoreProofs
  DownloadProofs UploadProofs LiveModel LiveProofs.

Fixpoint run_from (i : N) (l : list dgram) : Prop :=
  match l with [] => True | d :: l' => snd d = Some (i + 1) /\ run_from (i + 1) l' end.
Lemma run_from_snoc l : forall i x, run_from i l -> run_from i (l ++ [(x, Some (i + N.of_nat (length l) + 1))]).
Proof.
  induction l as [|d l IH]; intros i x H; cbn [app run_from length] in *.
  - split; [cbn [snd]; f_equal; lia|exact I].
  - destruct H as [H1 H2]. split; [exact H1|]. specialize (IH (i + 1) x H2).
    replace (i + N.of_nat (S (length l)) + 1) with (i + 1 + N.of_nat (length l) + 1) by lia. exact IH.
Qed.

Section Q.
Variable P : params.
Hypothesis HP : valid P.
Variables decR decS : bytes -> option bytes.
Notation file := (p_file P).
Notation bs := (p_bs P).
Notation w := (op_window (p_opts P)).
Notation n := (p_n P).
Notation blk := (block_of file bs).
Notation pre := (prefix_size file bs).
Notation C := (Core P decR decS).

Lemma core_sub s r wr data acks sr ss data' acks' : C s r wr data acks sr ss ->
  Forall (data_ok P decR (hi s)) data' -> Forall (ack_ok decS (w_written wr)) acks' -> C s r wr data' acks' sr ss.
Proof. intros (m & H1 & H2 & H3 & H4 & H5 & H6 & H7 & H8 & _ & _) HD HA. exists m. auto 12. Qed.
Lemma core_lists s r wr data acks sr ss : C s r wr data acks sr ss ->
  Forall (data_ok P decR (hi s)) data /\ Forall (ack_ok decS (w_written wr)) acks.
Proof. intros (m & _ & _ & _ & _ & _ & _ & _ & _ & H1 & H2). auto. Qed.
Lemma core_seen s r wr data acks sr ss : C s r wr data acks sr ss -> conf s <= ss /\ ss <= w_written wr.
Proof. intros (m & _ & _ & _ & _ & H1 & H2 & _). auto. Qed.

Definition QC (s : win) (r : reader) (wr : writer) (la : N) (data acks : list dgram) (ss : N) : Prop :=
  C s r wr data acks (w_written wr) ss /\ cur s = hi s /\ conf s < n /\
  run_from (w_written wr) data /\ hi s = w_written wr + N.of_nat (length data) /\
  (la = conf s /\ acks = [] /\ w_written wr < n /\ w_written wr < conf s + w \/
   exists y, acks = [(y, Some la)] /\ la = w_written wr /\ data = [] /\ conf s < la /\ (la = conf s + w \/ la = n)).

Lemma window_is : window_of (p_kind P) w = w.
Proof. destruct HP as (_ & _ & _ & H & _). destruct (p_kind P); cbn; [symmetry; apply H; reflexivity|reflexivity..]. Qed.
Lemma w_pos : 1 <= w.
Proof. destruct HP as (_ & _ & H & _). exact H. Qed.
Lemma n_pos : 1 <= n.
Proof. destruct (bs_pos P HP) as (B & _). apply (nblocks_bounds file bs B). Qed.

Lemma q_init : QC (mkWin 0 0 0) (new_reader (p_kind P) bs w) writer_new 0 [] [] 0.
Proof.
  pose proof w_pos. pose proof n_pos. split; [apply core_init; auto|]. cbn. repeat split; try lia. left. repeat split; lia.
Qed.

Lemma q_bounds s r wr la data acks ss : QC s r wr la data acks ss ->
  conf s <= w_written wr /\ w_written wr <= hi s /\ hi s <= n /\ hi s <= conf s + w /\ conf s < n.
Proof. intros (HC & _ & H & _). pose proof (core_win P _ _ HP _ _ _ _ _ _ _ HC). repeat split; tauto. Qed.

(** The sender's turn: the next block if the window is open, nothing otherwise; and if nothing, and
    no acknowledgement is on its way, then blocks are. *)
Lemma q_next s r wr la data acks ss cap r' res : QC s r wr la data acks ss -> bs <= cap ->
  reader_next file r cap false false = (r', res) ->
  (res = Ok None /\ QC s r' wr la data acks ss /\ (acks = [] -> data <> [])) \/
  exists b s', res = Ok (Some b) /\ o_block b = (hi s + 1) mod 65536 /\ o_data b = blk (hi s + 1) /\ reader_cur r' = hi s + 1 /\
    hi s < n /\ conf s' = conf s /\ hi s' = hi s + 1 /\
    forall x, decR x = Some (to_bytes (PData ((hi s + 1) mod 65536) (blk (hi s + 1)))) ->
      QC s' r' wr la (data ++ [(x, Some (hi s + 1))]) acks ss.
Proof.
  intros Q Hcap E. pose proof (q_bounds _ _ _ _ _ _ _ Q) as (K1 & K2 & K3 & K4 & K5). pose proof w_pos.
  destruct Q as (HC & Q1 & Q2 & Q3 & Q4 & Q5).
  destruct (core_next P _ _ HP _ _ _ _ _ _ _ _ _ _ _ _ HC Hcap E) as (s' & Es & C' & Hcur).
  revert Es. unfold spec_next. rewrite window_is. unfold p_n in *. replace (conf s =? nblocks file bs) with false by lia. cbn [andb].
  replace (cur s <? hi s) with false by lia.
  destruct ((hi s =? nblocks file bs) || (w <=? hi s - conf s))%bool eqn:ED.
  - intros [= <- <-]. left. split; [reflexivity|]. split.
    + split; [exact C'|]. auto 8.
    + intros -> ->. cbn in Q4. destruct Q5 as [(A1 & _ & A3 & A4)|(y & A & _)]; [lia|discriminate].
  - intros [= <- <-]. right. eexists _, (mkWin (conf s) (hi s + 1) (hi s + 1)). split; [reflexivity|]. cbn [o_block o_data conf hi cur].
    apply Bool.orb_false_iff in ED as [ED1 ED2]. rewrite N.eqb_neq in ED1. rewrite N.leb_gt in ED2.
    assert (HN : hi s < nblocks file bs) by lia.
    split; [reflexivity|]. split; [reflexivity|]. split; [exact (Hcur _ eq_refl)|]. split; [exact HN|]. split; [reflexivity|]. split; [reflexivity|].
    intros x Hx. destruct (core_lists _ _ _ _ _ _ _ C') as [L1 L2]. split; [|split; [|split; [|split; [|split]]]].
    + eapply core_sub; [exact C'| |exact L2]. apply Forall_app. split; [exact L1|]. constructor; [|constructor].
      cbn [data_ok snd fst hi]. repeat split; try lia. exact Hx.
    + reflexivity.
    + exact Q2.
    + rewrite Q4. apply run_from_snoc. exact Q3.
    + rewrite app_length. cbn [length]. cbn [hi]. lia.
    + cbn [conf]. destruct Q5 as [A|(y & A1 & A2 & A3 & A4 & A5)]; [left; exact A|].
      exfalso. subst data. cbn in Q4. unfold p_n in *. lia.
Qed.

(** The receiver's turn with a block. *)
Definition due (s : win) (i : N) : bool := (conf s + w =? i) || (i =? n).
Lemma due_is o s i m la : i = m + 1 -> i <= n -> la = conf s -> m < conf s + w -> conf s <= m ->
  op_window o = w -> bs_enc o = bs ->
  ack_due o la i (Some (blen (blk i))) = due s i /\ (blen (blk i) <? bs_enc o) = (i =? n).
Proof.
  intros -> Hi -> HM HC E1 E2. destruct (bs_pos P HP) as (B & _). pose proof w_pos.
  unfold ack_due, due. rewrite E1, E2. pose proof (block_short file bs B (m + 1) ltac:(lia) Hi) as BS. fold n in BS.
  assert (X : (blen (blk (m + 1)) <? bs) = (m + 1 =? n)).
  { destruct (N.ltb_spec (blen (blk (m + 1))) bs) as [H1|H1]; destruct (N.eqb_spec (m + 1) n) as [H2|H2]; try reflexivity; exfalso.
    - apply H2. apply BS. exact H1.
    - apply BS in H2. lia. }
  rewrite X. split; [|reflexivity]. destruct (N.leb_spec w 1); [|reflexivity]. cbn [orb].
  destruct (N.eqb_spec (conf s + w) (m + 1)); [reflexivity|lia].
Qed.
Lemma q_recv s r wr la d data acks ss : QC s r wr la (d :: data) acks ss ->
  let i := w_written wr + 1 in
  acks = [] /\ la = conf s /\ i <= n /\ decR (fst d) = Some (to_bytes (PData (i mod 65536) (blk i))) /\
  exists wr', write_block wr (i mod 65536) (blk i) false None = (wr', Ok (blen (blk i), i)) /\ w_written wr' = i /\
    w_out wr = takeN (pre (w_written wr)) file /\ w_out wr' = takeN (pre i) file /\
    pre i = pre (w_written wr) + blen (blk i) /\
    (forall o, op_window o = w -> bs_enc o = bs -> ack_due o la i (Some (blen (blk i))) = due s i /\ (blen (blk i) <? bs_enc o) = (i =? n)) /\
    (due s i = false -> QC s r wr' la data [] ss) /\
    (due s i = true -> forall y, decS y = Some (to_bytes (PAck (i mod 65536))) -> QC s r wr' i data [(y, Some i)] ss).
Proof.
  intros Q i. pose proof (q_bounds _ _ _ _ _ _ _ Q) as (K1 & K2 & K3 & K4 & K5). pose proof w_pos.
  destruct Q as (HC & Q1 & Q2 & Q3 & Q4 & Q5). cbn [run_from length] in Q3, Q4. destruct Q3 as [Q3 Q3'].
  destruct Q5 as [(A1 & A2 & A3 & A4)|(y & _ & _ & A & _)]; [|discriminate].
  split; [exact A2|]. split; [exact A1|]. split; [unfold i; lia|].
  destruct d as [x gi]. cbn [snd fst] in *. subst gi. fold i in Q3', HC.
  destruct (core_lists _ _ _ _ _ _ _ HC) as [L1 L2]. pose proof (Forall_inv L1) as D. cbn [data_ok snd fst] in D. destruct D as (_ & D2 & D3).
  split; [exact D3|].
  assert (Hold : not_too_old P (w_written wr) (x, Some i)) by (cbn; right; unfold i; lia).
  destruct (write_block wr (i mod 65536) (blk i) false None) as [wr' res] eqn:EW.
  destruct (core_receive P _ _ HP _ _ _ _ _ _ _ _ _ _ _ _ HC (or_introl eq_refl) Hold EW) as [C2 R].
  assert (R' : res = Ok (blen (blk i), i) /\ w_written wr' = i).
  { destruct res as [[c j]|[cc j|cc j|]|]; try (destruct R; lia).
    - destruct R as (-> & _ & R3 & -> & _). auto. }
  destruct R' as [-> R2]. exists wr'. split; [reflexivity|]. split; [exact R2|].
  split; [exact (proj1 (core_prefix P _ _ HP _ _ _ _ _ _ _ HC))|].
  split; [rewrite <- R2; exact (proj1 (core_prefix P _ _ HP _ _ _ _ _ _ _ C2))|].
  split; [apply prefix_step; [apply bs_pos; exact HP|exact A3]|].
  split; [intros o O1 O2; eapply due_is; try eassumption; try reflexivity; unfold i; lia|].
  replace (N.max (w_written wr) i) with i in C2 by (unfold i; lia).
  destruct (core_lists _ _ _ _ _ _ _ C2) as [M1 M2].
  assert (HH : hi s = i + N.of_nat (length data)) by (unfold i; lia).
  split.
  - unfold due. intros ED. apply Bool.orb_false_iff in ED as [ED1 ED2]. rewrite N.eqb_neq in ED1. rewrite N.eqb_neq in ED2.
    unfold QC. rewrite R2. split; [eapply core_sub; [exact C2|exact (Forall_inv_tail M1)|constructor]|].
    do 4 (split; [assumption|]). left. repeat split; try assumption; unfold i in *; lia.
  - unfold due. intros ED y Hy. apply Bool.orb_true_iff in ED. rewrite !N.eqb_eq in ED.
    assert (data = []) as -> by (destruct data as [|? data]; [reflexivity|]; cbn [length] in HH; lia).
    unfold QC. rewrite R2. split; [eapply core_sub; [exact C2|constructor|]|].
    { constructor; [|constructor]. cbn [ack_ok snd fst]. rewrite R2. split; [lia|exact Hy]. }
    do 4 (split; [assumption|]). right. exists y. do 3 (split; [reflexivity|]). split; [unfold i; lia|]. destruct ED; [left; lia|auto].
Qed.

(** The sender's turn with an acknowledgement. *)
Lemma qc_ack s r wr la d data acks ss : QC s r wr la data (d :: acks) ss ->
  exists r', acks = [] /\ data = [] /\ la = w_written wr /\ conf s < la <= n /\
    decS (fst d) = Some (to_bytes (PAck (la mod 65536))) /\
    reader_free r (la mod 65536) = (r', Some (pre la - pre (conf s))) /\ reader_finished r' = (la =? n) /\
    w_out wr = takeN (pre la) file /\
    (la < n -> exists s', conf s' = la /\ hi s' = hi s /\ QC s' r' wr la [] [] (N.max ss la)).
Proof.
  intros Q. pose proof (q_bounds _ _ _ _ _ _ _ Q) as (K1 & K2 & K3 & K4 & K5). pose proof w_pos.
  destruct Q as (HC & Q1 & Q2 & Q3 & Q4 & Q5).
  destruct Q5 as [(_ & A & _)|(y & A1 & A2 & A3 & A4 & A5)]; [discriminate|]. injection A1 as -> ->. subst data. cbn [length] in Q4.
  pose proof (core_seen _ _ _ _ _ _ _ HC) as [S1 S2].
  assert (Hold : not_too_old P ss (y, Some la)) by (cbn; right; lia).
  destruct (reader_free r (la mod 65536)) as [r' freed] eqn:EF.
  destruct (core_acked P _ _ HP _ _ _ _ _ _ _ _ _ _ _ HC (or_introl eq_refl) Hold EF) as (s' & c & -> & F1 & F2 & F3 & F4 & F5 & F6).
  pose proof (spec_free_all P HP _ _ _ _ _ _ _ _ _ HC ltac:(lia)) as FA. rewrite <- A2, F1 in FA. cbn [fst] in FA.
  exists r'. split; [reflexivity|]. split; [reflexivity|]. split; [exact A2|]. split; [lia|].
  destruct (core_lists _ _ _ _ _ _ _ HC) as [_ L2]. pose proof (Forall_inv L2) as D. cbn [ack_ok snd fst] in D. destruct D as (_ & D2).
  split; [exact D2|]. split; [f_equal; f_equal; rewrite <- FA; lia|]. split; [rewrite F6, FA; reflexivity|].
  split; [rewrite A2; exact (proj1 (core_prefix P _ _ HP _ _ _ _ _ _ _ HC))|].
  intros LN. exists s'. split; [exact FA|]. split; [exact F4|]. split; [eapply core_sub; [exact F2|constructor|constructor]|].
  assert (CU : cur s' = la).
  { revert F1. unfold spec_free. destruct (match p_kind P with KSingle => _ | _ => _ end) eqn:EB; intros [= <- <-]; cbn [cur conf] in *; lia. }
  cbn [run_from length]. repeat split; try lia. left. repeat split; lia.
Qed.

(** The acknowledgement of the options confirms no block. *)
Lemma q_ack0 s r wr la data acks ss y : QC s r wr la data acks ss -> decS y = Some (to_bytes (PAck 0)) -> ss = 0 ->
  exists r', reader_free r 0 = (r', Some 0) /\ reader_finished r' = false /\ QC s r' wr la data acks 0.
Proof.
  intros Q Hy ->. pose proof (q_bounds _ _ _ _ _ _ _ Q) as (K1 & K2 & K3 & K4 & K5).
  destruct Q as (HC & Q1 & Q2 & Q3 & Q4 & Q5). pose proof (core_seen _ _ _ _ _ _ _ HC) as [S1 S2].
  destruct (core_lists _ _ _ _ _ _ _ HC) as [L1 L2].
  assert (C' : C s r wr data ((y, Some 0) :: acks) (w_written wr) 0).
  { eapply core_sub; [exact HC|exact L1|]. constructor; [|exact L2]. cbn [ack_ok snd fst]. split; [lia|exact Hy]. }
  assert (Hold : not_too_old P 0 (y, Some 0)) by (cbn; right; lia).
  destruct (reader_free r 0) as [r' freed] eqn:EF.
  destruct (core_acked P _ _ HP _ _ _ _ _ _ _ _ _ _ _ C' (or_introl eq_refl) Hold EF) as (s' & c & -> & F1 & F2 & F3 & F4 & F5 & F6).
  assert (X : s' = s /\ c = 0).
  { revert F1. unfold spec_free. destruct (match p_kind P with KSingle => _ | _ => _ end) eqn:EB; intros [= <- <-]; [|auto].
    exfalso. destruct (p_kind P); lia. }
  destruct X as [-> ->]. exists r'. split; [reflexivity|]. split; [rewrite F6; lia|].
  split; [eapply core_sub; [exact F2|exact L1|exact L2]|]. auto 8.
Qed.
Lemma q_sub_acked s r wr la data acks ss : QC s r wr la data acks ss -> acks = [] \/ exists y, acks = [(y, Some la)].
Proof. intros (_ & _ & _ & _ & _ & [(_ & H & _)|(y & H & _)]); eauto. Qed.

End Q.
