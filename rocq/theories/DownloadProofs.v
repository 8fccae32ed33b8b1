From Verif Require Import Base BaseProofs PacketModel PacketSpec PacketProofs MapperModel MapperProofs ReaderModel
  ReaderSpec BlockLemmas ReaderProofs WriterSpec WriterProofs ConfigModel ConnModel ClientModel SystemModel CoreProofs.

Section D.
Variable P : params.
Hypothesis HP : valid P.
Notation file := (p_file P).
Notation bs := (p_bs P).
Notation n := (p_n P).
Notation blk := (block_of file bs).
Notation pre := (prefix_size file bs).

Definition DInv (st : dstate) (s : win) : Prop :=
  Core P (p_decc P) (p_decs P) s (d_reader st) (cr_w (d_cl st)) (d_down st) (d_up st) (d_seenc st) (d_seens st) /\
  c_opts (d_conn st) = p_opts P /\
  c_transfer (d_conn st) = pre (conf s) /\
  (c_finished (d_conn st) = (conf s =? n)) /\
  match d_stat st with
  | CRun => w_written (cr_w (d_cl st)) < n /\ cr_total (d_cl st) = pre (w_written (cr_w (d_cl st)))
  | CDone t => w_written (cr_w (d_cl st)) = n /\ t = blen file
  | CFail => True
  end.

Lemma n_pos : 1 <= n.
Proof. destruct (bs_pos P HP) as (B & _). apply (nblocks_bounds file bs B). Qed.
Lemma dinv_init st : dinit P st -> exists s, DInv st s.
Proof.
  intros (t & t' & down & up & H1 & H2 & ->). exists (mkWin 0 0 0).
  pose proof n_pos. split; [apply core_init; assumption|]. cbn. rewrite prefix_0.
  repeat split; try lia. destruct n eqn:?; [lia|reflexivity].
Qed.

(** send_data_block keeps the invariant and describes what it did. *)
Lemma send_inv s c r wr data acks sr ss buflen now io sock txt c' r' plain b new :
  Core P (p_decc P) (p_decs P) s r wr data acks sr ss ->
  c_opts c = p_opts P ->
  send_data_block file c r buflen now io sock txt = (c', r', plain, b) ->
  emitted (p_decc P) (reader_cur r') plain new ->
  exists s', Core P (p_decc P) (p_decs P) s' r' wr (new ++ data) acks sr ss /\
    conf s' = conf s /\ c_opts c' = c_opts c /\ c_transfer c' = c_transfer c /\ c_finished c' = c_finished c.
Proof.
  intros C HO E HE. unfold send_data_block in E. destruct (bs_pos P HP) as (B1 & B2 & B3).
  set (retry := retry_due c now) in *.
  set (cap := N.max buflen (DATA_PACKET_HEADER_SIZE + op_bs (c_opts c)) - DATA_PACKET_HEADER_SIZE) in *.
  assert (Hcap : bs <= cap) by (unfold cap, DATA_PACKET_HEADER_SIZE; rewrite HO; lia).
  destruct (reader_next file r cap retry io) as [r1 res] eqn:ER.
  destruct (core_next P _ _ HP _ _ _ _ _ _ _ _ _ _ _ _ C Hcap ER) as (s' & Es & C' & _).
  assert (Hconf : conf s' = conf s).
  { pose proof C as (m & H1 & _).
    pose proof (spec_next_cases file bs _ cap B1 B2 Hcap (p_kind P) s retry io (proj1 H1)) as CC.
    rewrite Es in CC. apply CC. }
  set (c1 := if retry then set_mult c (sat_add (c_mult c) 2) else c) in *.
  assert (Hc1 : c_opts c1 = c_opts c /\ c_transfer c1 = c_transfer c /\ c_finished c1 = c_finished c)
    by (unfold c1; destruct retry; auto).
  destruct res as [[bl|]|[|]|].
  - injection E as <- <- <- <-. destruct sock; cbn [when] in HE.
    + destruct (core_emit P _ _ HP _ _ _ _ _ _ _ _ _ _ _ _ _ C Hcap ER HE) as (s'' & Es' & C'').
      rewrite Es in Es'. injection Es' as <-. exists s'. split; [exact C''|]. cbn. intuition.
    + inversion HE; subst. exists s'. split; [exact C'|]. intuition.
  - injection E as <- <- <- <-. inversion HE; subst. exists s'. split; [exact C'|]. intuition.
  - injection E as <- <- <- <-. exists s'. split; [|cbn; intuition].
    destruct sock; cbn [when] in HE; [|inversion HE; subst; exact C'].
    apply core_other_data; [exact C'|]. eapply error_not_data; exact HE.
  - injection E as <- <- <- <-. exists s'. split; [|cbn; intuition].
    destruct sock; cbn [when] in HE; [|inversion HE; subst; exact C'].
    apply core_other_data; [exact C'|]. eapply error_not_data; exact HE.
  - injection E as <- <- <- <-. inversion HE; subst. exists s'. split; [exact C'|]. intuition.
Qed.

Lemma core_see_none s r wr data acks sr ss : Core P (p_decc P) (p_decs P) s r wr data acks sr ss ->
  forall g, snd g = None -> Core P (p_decc P) (p_decs P) s r wr data acks (see sr g) (see ss g).
Proof. intros C g E. unfold see. rewrite E. exact C. Qed.

(** handle_read *)
Lemma read_inv s c r wr data acks sr ss g now c' r' ok :
  Core P (p_decc P) (p_decs P) s r wr data acks sr ss ->
  c_finished c = (conf s =? n) -> c_transfer c = pre (conf s) ->
  In g acks -> not_too_old P ss g ->
  handle_read (p_decs P) c r (fst g) now = (c', r', ok) ->
  exists s', Core P (p_decc P) (p_decs P) s' r' wr data acks sr (see ss g) /\
    c_opts c' = c_opts c /\ c_transfer c' = pre (conf s') /\ c_finished c' = (conf s' =? n) /\
    conf s <= conf s' /\ ok = Some tt /\ (hi s' = hi s) /\
    (forall i, snd g = Some i -> spec_free (p_kind P) file bs s i = (s', pre (conf s') - pre (conf s)) /\
        c_invalid c' = c_invalid c).
Proof.
  intros C Hf Ht Hin Hold E. unfold handle_read in E.
  pose proof C as (m & _ & _ & _ & _ & _ & _ & _ & _ & _ & HA).
  pose proof (proj1 (Forall_forall _ _) HA _ Hin) as HG. unfold ack_ok in HG.
  destruct g as [x [i|]]; cbn [fst snd] in *.
  - destruct HG as [G1 G2]. rewrite G2 in E. rewrite decode_ack in E by (apply N.mod_upper_bound; discriminate).
    destruct (reader_free r (i mod 65536)) as [r1 freed] eqn:EF.
    destruct (core_acked P _ _ HP _ _ _ _ _ _ _ _ _ _ _ C Hin Hold EF) as (s' & k & -> & S0 & S1 & S2 & S3 & S4 & S5).
    rewrite S5 in E. exists s'. split.
    + injection E as _ <- _. exact S1.
    + assert (G : forall cc, c_opts cc = c_opts c -> c_transfer cc = pre (conf s') -> (c_finished cc = true -> conf s' = n) ->
              c_invalid cc = c_invalid c ->
              (if conf s' =? n then set_finished cc else cc, r1, Some tt) = (c', r', ok) ->
              c_opts c' = c_opts c /\ c_transfer c' = pre (conf s') /\ c_finished c' = (conf s' =? n) /\
              conf s <= conf s' /\ ok = Some tt /\ hi s' = hi s /\
              (forall i0, Some i = Some i0 -> spec_free (p_kind P) file bs s i0 = (s', pre (conf s') - pre (conf s)) /\ c_invalid c' = c_invalid c)).
      { intros cc Q1 Q2 Q3 Q4 Q5. injection Q5 as <- <- <-.
        destruct (conf s' =? n) eqn:En; cbn; repeat split; try assumption; try congruence;
          try (injection H as <-; rewrite S0; f_equal; lia).
        destruct (c_finished cc); [|reflexivity]. apply N.eqb_neq in En. destruct En. apply Q3. reflexivity. }
      eapply G; [| | | |exact E].
      * destruct (0 <? k); reflexivity.
      * destruct (N.ltb_spec 0 k); cbn; rewrite Ht; lia.
      * assert (K : c_finished c = true -> conf s' = n).
        { rewrite Hf. intros Hx%N.eqb_eq. pose proof (core_win P _ _ HP _ _ _ _ _ _ _ S1). lia. }
        destruct (0 <? k); cbn; exact K.
      * destruct (0 <? k); reflexivity.
  - exists s. destruct (p_decs P x) as [p|].
    + destruct (from_bytes p) as [[]| |]; try contradiction; injection E as <- <- <-; cbn;
        (split; [exact C|]); repeat split; try assumption; try lia; discriminate.
    + injection E as <- <- <-. split; [exact C|]. repeat split; try assumption; try lia; discriminate.
Qed.

(** recv_step; also used for what a delivered data datagram achieves. *)
Lemma recv_inv s r data acks sr ss cl e g now io sock txt cl' plain stat' new :
  Core P (p_decc P) (p_decs P) s r (cr_w cl) data acks sr ss ->
  w_written (cr_w cl) < n -> cr_total cl = pre (w_written (cr_w cl)) ->
  client_event data e g -> not_too_old P sr g ->
  recv_step (p_decc P) (p_opts P) (p_max P) (p_ctimeout P) cl e now io None sock txt = (cl', plain, stat') ->
  emitted (p_decs P) (w_written (cr_w cl')) plain new ->
  Core P (p_decc P) (p_decs P) s r (cr_w cl') data (new ++ acks) (see sr g) ss /\
  match stat' with
  | CRun => w_written (cr_w cl') < n /\ cr_total cl' = pre (w_written (cr_w cl'))
  | CDone t => w_written (cr_w cl') = n /\ t = blen file
  | CFail => True
  end.
Proof.
  intros C Hk Ht Hev Hold E HE. destruct (bs_pos P HP) as (B1 & B2 & B3).
  assert (Hnone : snd g = None -> cl' = cl -> plain = [] -> (stat' = CRun \/ stat' = CFail) ->
    Core P (p_decc P) (p_decs P) s r (cr_w cl') data (new ++ acks) (see sr g) ss /\
    match stat' with
    | CRun => w_written (cr_w cl') < n /\ cr_total cl' = pre (w_written (cr_w cl'))
    | CDone t => w_written (cr_w cl') = n /\ t = blen file
    | CFail => True
    end).
  { intros Hg -> -> Hs. inversion HE; subst. unfold see. rewrite Hg. split; [exact C|].
    destruct Hs as [->| ->]; auto. }
  destruct e as [from_peer wire| |]; cbn [recv_step] in E.
  2: { injection E as <- <- <-. apply Hnone; [exact Hev|reflexivity|reflexivity|].
       destruct (p_ctimeout P <? now - cr_time cl); auto. }
  2: { injection E as <- <- <-. apply Hnone; [exact Hev|reflexivity|reflexivity|auto]. }
  destruct from_peer; cbn [negb] in E.
  2: { destruct (p_decc P wire); injection E as <- <- <-; apply Hnone; auto; exact Hev. }
  destruct g as [x gi]. cbn [client_event fst] in Hev. destruct Hev as [-> Hin].
  pose proof C as (m & _ & _ & _ & _ & _ & _ & _ & _ & HD & _).
  pose proof (proj1 (Forall_forall _ _) HD _ Hin) as HG. unfold data_ok in HG. cbn [fst snd] in *.
  destruct gi as [i|].
  2: { destruct (p_decc P wire) as [p|].
       - destruct (from_bytes p) as [[]| |]; try contradiction; injection E as <- <- <-; apply Hnone; auto.
       - injection E as <- <- <-; apply Hnone; auto. }
  destruct HG as (G1 & G2 & G3). rewrite G3 in E.
  rewrite decode_data in E by (apply N.mod_upper_bound; discriminate).
  unfold cl_write_block in E.
  destruct (write_block (cr_w cl) (i mod 65536) (blk i) io None) as [w1 res] eqn:EW.
  destruct (core_receive P _ _ HP _ _ _ _ _ _ _ _ _ _ _ _ C Hin Hold EW) as [C1 R].
  cbn [see snd]. pose proof (core_win P _ _ HP _ _ _ _ _ _ _ C1) as K.
  assert (Hack : forall j, emitted (p_decs P) (w_written w1) [to_bytes (PAck j)] new ->
     j = w_written w1 mod 65536 -> Core P (p_decc P) (p_decs P) s r w1 data (new ++ acks) (N.max sr i) ss).
  { intros j He ->. apply core_ack_new; assumption. }
  assert (Hnil : plain = [] -> new = []) by (intros ->; inversion HE; reflexivity).
  destruct res as [[c j]|[cc j|cc j|]|].
  - destruct R as (-> & -> & R3 & -> & ->). cbn match in E.
    destruct (negb (cl_size_ok _ _)).
    { injection E as <- <- <-. cbn [cr_w] in *. split; [|exact I].
      destruct sock; cbn [when] in HE; [|inversion HE; subst; exact C1].
      apply core_other_acks; [exact C1|]. eapply error_not_ack; exact HE. }
    set (due := ack_due _ _ _ _) in *.
    destruct (due && negb sock)%bool eqn:Eds.
    { injection E as <- <- <-. rewrite (Hnil eq_refl). split; [exact C1|exact I]. }
    injection E as <- <- <-. cbn [cr_w cr_total] in *. split.
    + destruct due; cbn [when] in HE; [eapply Hack; [exact HE|congruence]|inversion HE; subst; exact C1].
    + rewrite R3. unfold p_bs in *. fold bs in *.
      pose proof (block_short file bs B1 (w_written (cr_w cl) + 1) ltac:(lia) ltac:(unfold p_n in *; lia)) as Hs.
      pose proof (prefix_step file bs B1 (w_written (cr_w cl)) Hk) as Hp.
      change (bs_enc (p_opts P)) with bs.
      destruct (N.ltb_spec (blen (blk (w_written (cr_w cl) + 1))) bs) as [Hlt|Hge].
      * apply Hs in Hlt. split; [exact Hlt|]. rewrite Ht, <- Hp. apply prefix_all; [assumption|].
        fold n in Hlt. rewrite Hlt. apply N.le_refl.
      * split; [|lia]. assert (w_written (cr_w cl) + 1 <> n) by (intros Hx; apply Hs in Hx; lia). lia.
  - destruct R as (R1 & -> & -> & R4 & R5).
    set (due := ack_due _ _ _ _) in *.
    destruct (due && negb sock)%bool eqn:Eds.
    { injection E as <- <- <-. rewrite (Hnil eq_refl). split; [exact C1|exact I]. }
    injection E as <- <- <-. cbn [cr_w cr_total] in *. rewrite R4 in *. split; [|auto].
    destruct due; cbn [when] in HE; [eapply Hack; [exact HE|reflexivity]|inversion HE; subst; exact C1].
  - destruct R as (R1 & -> & -> & R4 & R5).
    set (due := ack_due _ _ _ _) in *.
    destruct (due && negb sock)%bool eqn:Eds.
    { injection E as <- <- <-. rewrite (Hnil eq_refl). split; [exact C1|exact I]. }
    injection E as <- <- <-. cbn [cr_w cr_total] in *. rewrite R4 in *. split; [|auto].
    destruct due; cbn [when] in HE; [eapply Hack; [exact HE|reflexivity]|inversion HE; subst; exact C1].
  - injection E as <- <- <-. cbn [cr_w] in *. rewrite (Hnil eq_refl). split; [exact C1|exact I].
  - destruct R.
Qed.

Lemma dinv_step st st' s : DInv st s -> dstep P st st' -> exists s', DInv st' s'.
Proof.
  intros (C & HO & HT & HF & HS) H. destruct H; cbn in *.
  - destruct (send_inv _ _ _ _ _ _ _ _ _ _ _ _ _ _ _ _ _ _ C HO H0 H1) as (s' & C' & E1 & E2 & E3 & E4).
    exists s'. split; [exact C'|]. cbn. rewrite E1, E2, E3, E4. auto.
  - destruct (read_inv _ _ _ _ _ _ _ _ _ _ _ _ _ C HF HT H H0 H1) as (s' & C' & E1 & E2 & E3 & E4 & E5 & E6).
    exists s'. split; [exact C'|]. cbn. rewrite E1, E2, E3. auto.
  - exists s. split; [|cbn; auto].
    cbn. unfold timeout_client in H. apply core_other_data; [exact C|].
    destruct (_ || _)%bool; [injection H as <-; inversion H0; constructor|].
    destruct (_ <=? _); [discriminate|]. injection H as <-.
    destruct sock; cbn [when] in H0; [eapply error_not_data; exact H0|inversion H0; constructor].
  - destruct HS as [Hk Ht].
    destruct (recv_inv _ _ _ _ _ _ _ _ _ _ _ _ _ _ _ _ _ C Hk Ht H H0 H1 H2) as [C' Hs].
    exists s. split; [exact C'|]. cbn. auto.
Qed.
Lemma dreach_inv st : dreach P st -> exists s, DInv st s.
Proof.
  induction 1 as [st H|st st' _ [s IH] H]; [apply dinv_init; assumption|eapply dinv_step; eassumption].
Qed.

Lemma dinv_safe st s : DInv st s ->
  w_out (cr_w (d_cl st)) = takeN (w_written (cr_w (d_cl st)) * bs) file /\
  (forall t, d_stat st = CDone t -> w_out (cr_w (d_cl st)) = file /\ t = blen file) /\
  (c_finished (d_conn st) = true -> w_out (cr_w (d_cl st)) = file /\ c_transfer (d_conn st) = blen file).
Proof.
  intros (C & HO & HT & HF & HS). destruct (bs_pos P HP) as (B1 & B2 & B3).
  destruct (core_prefix P _ _ HP _ _ _ _ _ _ _ C) as [H1 H2].
  assert (Hall : w_written (cr_w (d_cl st)) = n -> w_out (cr_w (d_cl st)) = file).
  { intros E. rewrite H1, E, prefix_all by (try assumption; apply N.le_refl). apply takeN_all. lia. }
  split; [|split].
  - rewrite H1. unfold prefix_size. destruct (N.min_spec (w_written (cr_w (d_cl st)) * bs) (blen file)) as [[_ ->]|[Hx ->]]; [reflexivity|].
    rewrite !takeN_all by lia. reflexivity.
  - intros t E. rewrite E in HS. destruct HS as [HS1 HS2]. auto.
  - intros E. rewrite E in HF. symmetry in HF. apply N.eqb_eq in HF.
    pose proof (core_win P _ _ HP _ _ _ _ _ _ _ C) as K.
    split; [apply Hall; lia|]. rewrite HT, HF. apply prefix_all; [assumption|apply N.le_refl].
Qed.
End D.
