From Verif Require Import Base BaseProofs PacketModel PacketSpec PacketProofs MapperModel MapperProofs ReaderModel
  ReaderSpec BlockLemmas ReaderProofs WriterSpec WriterProofs ConfigModel ConnModel ClientModel SystemModel CoreProofs DownloadProofs
  LiveModel LiveProofs PropTransfer.

(** At most one block is written by a turn of the client, and only for a data packet of the server. *)
Lemma write_block_one wr b d io sh wr' res : write_block wr b d io sh = (wr', res) ->
  w_written wr' = w_written wr \/ w_written wr' = w_written wr + 1 /\ exists n i, res = Ok (n, i).
Proof.
  intros E. unfold write_block in E. destruct (map_index _ _).
  destruct (_ <? _); [injection E as <- _; cbn; lia|]. destruct (_ <? _); [injection E as <- _; cbn; lia|].
  destruct io; injection E as <- <-; cbn; [left; lia|right; split; [lia|eauto]].
Qed.
Lemma recv_one dec o max tmo cl e now io sh sock txt cl' plain stat' :
  recv_step dec o max tmo cl e now io sh sock txt = (cl', plain, stat') ->
  w_written (cr_w cl') = w_written (cr_w cl) \/
  w_written (cr_w cl') = w_written (cr_w cl) + 1 /\
  exists x p b d n i, e = EvDatagram true x /\ dec x = Some p /\ from_bytes p = Ok (PData b d) /\
    write_block (cr_w cl) b d io sh = (cr_w cl', Ok (n, i)).
Proof.
  intros E. destruct e as [fp wire| |]; cbn [recv_step] in E; try (injection E as <- _ _; left; reflexivity).
  destruct (dec wire) as [p|] eqn:ED; [|injection E as <- _ _; left; reflexivity].
  destruct fp; cbn [negb] in E; [|injection E as <- _ _; left; reflexivity].
  destruct (from_bytes p) as [[]| |] eqn:EF; try (injection E as <- _ _; left; reflexivity).
  unfold cl_write_block in E. destruct (write_block (cr_w cl) _ _ _ _) as [w1 res] eqn:EW.
  assert (CW : cr_w cl' = w1).
  { destruct res as [[k j]|[cc j|cc j|]|].
    - destruct (negb _); [injection E as <- _ _; reflexivity|]. destruct (_ && _)%bool; injection E as <- _ _; reflexivity.
    - destruct (_ && _)%bool; injection E as <- _ _; reflexivity.
    - destruct (_ && _)%bool; injection E as <- _ _; reflexivity.
    - injection E as <- _ _; reflexivity.
    - injection E as <- _ _; reflexivity. }
  rewrite CW. pose proof EW as EW'. apply write_block_one in EW as [->|(-> & n & i & ->)]; [left; reflexivity|right].
  split; [reflexivity|]. exists wire, p, block, data, n, i. auto.
Qed.

Section R.
Variable P : params.
Hypothesis HP : valid P.
Notation file := (p_file P).
Notation bs := (p_bs P).
Notation n := (p_n P).
Notation blk := (block_of file bs).

(** Every block the client has stored is on the list of datagrams sent. *)
Lemma stored_sent st m : dreach P st -> 1 <= m <= w_written (cr_w (d_cl st)) -> exists x, In (x, Some m) (d_down st).
Proof.
  intros R. revert m. induction R as [st I|st st' R IH S]; intros m H.
  - destruct I as (t & t' & down & up & _ & _ & ->). cbn in H. lia.
  - destruct (dreach_inv P HP st R) as [s IV]. destruct S; cbn [d_cl d_down] in *.
    + destruct (IH m H) as [x X]. exists x. apply in_or_app. auto.
    + auto.
    + destruct (IH m H) as [x X]. exists x. apply in_or_app. auto.
    + destruct (recv_one _ _ _ _ _ _ _ _ _ _ _ _ _ _ H2) as [E|(E & x & p & b & d & k & i & -> & D & F & W)]; [rewrite E in H; auto|].
      destruct (N.eq_dec m (w_written (cr_w cl) + 1)) as [->|Hne]; [|apply IH; lia].
      destruct IV as (HC & _). cbn [d_reader d_cl d_down d_up d_seenc d_seens] in HC. destruct H0 as [Eg IN]. destruct g as [gx [gi|]]; cbn [fst] in Eg; subst gx.
      * exists x. pose proof HC as HC'. destruct HC' as (mm & _ & _ & _ & _ & _ & _ & _ & _ & H9 & _).
        pose proof (proj1 (Forall_forall _ _) H9 _ IN) as DO. unfold data_ok in DO. cbn [snd fst] in DO. destruct DO as (_ & _ & DX). rewrite DX in D. injection D as <-.
        rewrite decode_data in F by (apply N.mod_upper_bound; discriminate). injection F as <- <-.
        destruct (core_receive P _ _ HP _ _ _ _ _ _ _ _ _ _ _ _ HC IN H1 W) as [_ (_ & -> & _)]. exact IN.
      * exfalso. destruct HC as (mm & _ & _ & _ & _ & _ & _ & _ & _ & H9 & _).
        pose proof (proj1 (Forall_forall _ _) H9 _ IN) as DO. unfold data_ok in DO. cbn [snd fst] in DO. rewrite D, F in DO. exact DO.
Qed.

(** An old datagram whose block number has come round again is stored in the place of the block
    that is due. *)
Lemma wrapped st x j now txt cl' plain stat' : dreach P st -> d_stat st = CRun ->
  1 <= j -> j + 65536 = w_written (cr_w (d_cl st)) + 1 ->
  p_decc P x = Some (to_bytes (PData (j mod 65536) (blk j))) ->
  recv_step (p_decc P) (p_opts P) (p_max P) (p_ctimeout P) (d_cl st) (EvDatagram true x) now false None true txt = (cl', plain, stat') ->
  w_out (cr_w cl') = w_out (cr_w (d_cl st)) ++ blk j /\ w_written (cr_w cl') = w_written (cr_w (d_cl st)) + 1.
Proof.
  intros R ES J1 J2 D E. destruct (dreach_inv P HP st R) as [s (HC & _ & _ & _ & HSt)]. rewrite ES in HSt. destruct HSt as [HK HT].
  pose proof (core_win P _ _ HP _ _ _ _ _ _ _ HC) as (K1 & K2 & K3 & K4 & K5).
  destruct HC as (m & H1 & H2 & H3 & H4 & H5 & H6 & H7 & H8 & H9 & H10).
  set (i := w_written (cr_w (d_cl st))) in *.
  assert (W10 : op_window (p_opts P) <= 10000) by (destruct HP as (_ & _ & _ & _ & [X|X]); [lia|exact X]).
  assert (W1 : 1 <= op_window (p_opts P)) by apply HP.
  destruct (map_ok_step P _ _ (i + 1) H3) as [M1 M2]; [lia|lia|right; lia|].
  assert (EM : (i + 1) mod 65536 = j mod 65536).
  { rewrite <- J2. replace (j + 65536) with (j + 1 * 65536) by lia. apply N.mod_add. discriminate. }
  rewrite EM in M1. cbn [recv_step negb] in E. rewrite D in E.
  rewrite decode_data in E by (apply N.mod_upper_bound; discriminate).
  unfold cl_write_block in E. destruct (write_block (cr_w (d_cl st)) (j mod 65536) (blk j) false None) as [w1 res] eqn:EW.
  pose proof (write_block_cases (cr_w (d_cl st)) (j mod 65536) (blk j) false None) as W. cbn zeta in W.
  rewrite EW, M1 in W. destruct W as [_ W]. fold i in W.
  destruct res as [[c jj]|[cc jj|cc jj|]|]; try (exfalso; intuition lia); try (exfalso; intuition discriminate).
  assert (CW : cr_w cl' = w1).
  { destruct (negb _); [injection E as <- _ _; reflexivity|]. destruct (_ && _)%bool; injection E as <- _ _; reflexivity. }
  rewrite CW. split; intuition congruence.
Qed.

(** States with any number of blocks stored are reachable. *)
Lemma rounds_through k st st' v : blen file <= p_max P -> dreach P st -> drounds P k st st' ->
  w_written (cr_w (d_cl st)) <= v <= w_written (cr_w (d_cl st')) -> (exists t, d_stat st' = CDone t) -> v < n ->
  exists mid, dreach P mid /\ w_written (cr_w (d_cl mid)) = v /\ d_stat mid = CRun.
Proof.
  intros Hmax R H. induction H as [st|k st st1 st2 H1 H2 IH]; intros HV HD Hn.
  - exfalso. destruct HD as [t D]. destruct (dreach_inv P HP st R) as [s (_ & _ & _ & _ & X)]. rewrite D in X. lia.
  - destruct (N.eq_dec (w_written (cr_w (d_cl st))) v) as [E|E].
    + exists st. split; [exact R|]. split; [exact E|]. destruct H1; reflexivity.
    + apply IH; [eapply download_rounds_reachable; eassumption| |exact HD|exact Hn].
      assert (W : w_written (cr_w (d_cl st1)) <= w_written (cr_w (d_cl st)) + 1)
        by (destruct H1; cbn [d_cl]; match goal with X : recv_step _ _ _ _ _ _ _ _ _ _ _ = _ |- _ => apply recv_one in X as [->|[-> _]]; lia end).
      lia.
Qed.
End R.
