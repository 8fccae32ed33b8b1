From Verif Require Import Base BaseProofs PacketModel PacketSpec PacketProofs MapperModel MapperProofs ReaderModel
  ReaderSpec BlockLemmas ReaderProofs WriterSpec WriterProofs ConfigModel ConnModel ClientModel SystemModel CoreProofs.

Section U.
Variable P : params.
Hypothesis HP : valid P.
Notation file := (p_file P).
Notation bs := (p_bs P).
Notation n := (p_n P).
Notation blk := (block_of file bs).
Notation pre := (prefix_size file bs).
Notation C := (Core P (p_decs P) (p_decc P)).

Definition SrvOk (c : conn) (wr : writer) : Prop :=
  c_opts c = p_opts P /\
  (c_finished c = true -> w_written wr = n /\ (c_invalid c = None -> c_transfer c = blen file)) /\
  (running c -> w_written wr < n /\ c_transfer c = pre (w_written wr)).
Definition UInv (st : ustate) (s : win) : Prop :=
  C s (cs_r (u_cl st)) (u_writer st) (u_up st) (u_down st) (u_seens st) (u_seenc st) /\
  SrvOk (u_conn st) (u_writer st) /\
  match u_stat st with
  | CRun => conf s < n /\ cs_total (u_cl st) = pre (conf s)
  | CDone t => conf s = n /\ t = blen file
  | CFail => True
  end.

Lemma n_pos' : 1 <= n.
Proof. destruct (bs_pos P HP) as (B & _). apply (nblocks_bounds file bs B). Qed.
Lemma uinv_init st : uinit P st -> exists s, UInv st s.
Proof.
  intros (t & t' & down & up & H1 & H2 & ->). exists (mkWin 0 0 0).
  pose proof n_pos'. split; [apply core_init; assumption|]. unfold SrvOk, running. cbn. rewrite prefix_0.
  repeat split; try lia; discriminate.
Qed.

Lemma usend_inv s wr data acks sr ss cl buflen retry io sock cl' plain stat' new :
  C s (cs_r cl) wr data acks sr ss -> op_bs (p_opts P) + DATA_PACKET_HEADER_SIZE <= buflen ->
  sender_send file cl buflen retry io sock = (cl', plain, stat') ->
  emitted (p_decs P) (reader_cur (cs_r cl')) plain new ->
  exists s', C s' (cs_r cl') wr (new ++ data) acks sr ss /\ conf s' = conf s /\
    cs_total cl' = cs_total cl /\ (stat' = CRun \/ stat' = CFail).
Proof.
  intros HC Hb E HE. unfold sender_send in E. destruct (bs_pos P HP) as (B1 & B2 & B3).
  set (cap := buflen - DATA_PACKET_HEADER_SIZE) in *.
  assert (Hcap : bs <= cap) by (unfold cap, DATA_PACKET_HEADER_SIZE in *; lia).
  destruct (reader_next file (cs_r cl) cap retry (io_bad io)) as [r1 res] eqn:ER.
  destruct (core_next P _ _ HP _ _ _ _ _ _ _ _ _ _ _ _ HC Hcap ER) as (s' & Es & C' & _).
  assert (Hconf : conf s' = conf s).
  { pose proof HC as (m & H1 & _).
    pose proof (spec_next_cases file bs _ cap B1 B2 Hcap (p_kind P) s retry (io_bad io) (proj1 H1)) as CC.
    rewrite Es in CC. apply CC. }
  destruct res as [[bl|]|[|]|].
  - destruct sock as [[|]|]; injection E as <- <- <-; cbn [cs_r cs_total] in *.
    + destruct (core_emit P _ _ HP _ _ _ _ _ _ _ _ _ _ _ _ _ HC Hcap ER HE) as (s'' & Es' & C'').
      rewrite Es in Es'. injection Es' as <-. exists s'. auto.
    + inversion HE; subst. exists s'. auto.
    + inversion HE; subst. exists s'. auto.
  - injection E as <- <- <-. inversion HE; subst. exists s'. auto.
  - injection E as <- <- <-. inversion HE; subst. exists s'. destruct io; auto.
  - injection E as <- <- <-. inversion HE; subst. exists s'. auto.
  - injection E as <- <- <-. inversion HE; subst. exists s'. auto.
Qed.

Lemma urecv_inv s wr data acks sr ss cl e g now cl' stat' :
  C s (cs_r cl) wr data acks sr ss -> conf s < n -> cs_total cl = pre (conf s) ->
  client_event acks e g -> not_too_old P ss g ->
  sender_recv (p_decc P) (p_ctimeout P) cl e now = (cl', stat') ->
  exists s', C s' (cs_r cl') wr data acks sr (see ss g) /\ conf s <= conf s' /\
    match stat' with
    | CRun => conf s' < n /\ cs_total cl' = pre (conf s')
    | CDone t => conf s' = n /\ t = blen file
    | CFail => True
    end /\
    (forall i, snd g = Some i -> stat' <> CFail /\ fst (spec_free (p_kind P) file bs s i) = s').
Proof.
  intros HC Hn Ht Hev Hold E.
  assert (Hnone : snd g = None -> cl' = cl -> (stat' = CRun \/ stat' = CFail) ->
    exists s', C s' (cs_r cl') wr data acks sr (see ss g) /\ conf s <= conf s' /\
    match stat' with
    | CRun => conf s' < n /\ cs_total cl' = pre (conf s')
    | CDone t => conf s' = n /\ t = blen file
    | CFail => True
    end /\ (forall i, snd g = Some i -> stat' <> CFail /\ fst (spec_free (p_kind P) file bs s i) = s')).
  { intros Hg -> Hs. exists s. unfold see. rewrite Hg. split; [exact HC|]. split; [apply N.le_refl|]. split.
    - destruct Hs as [->| ->]; auto.
    - discriminate. }
  destruct e as [from_peer wire| |]; cbn [sender_recv] in E.
  2: { injection E as <- <-. apply Hnone; [exact Hev|reflexivity|]. destruct (p_ctimeout P <? now - cs_time cl); auto. }
  2: { injection E as <- <-. apply Hnone; [exact Hev|reflexivity|auto]. }
  destruct from_peer; cbn [negb] in E.
  2: { destruct (p_decc P wire); injection E as <- <-; apply Hnone; auto; exact Hev. }
  destruct g as [x gi]. cbn [client_event fst] in Hev. destruct Hev as [-> Hin].
  pose proof HC as (m & _ & _ & _ & _ & _ & _ & _ & _ & _ & HA).
  pose proof (proj1 (Forall_forall _ _) HA _ Hin) as HG. unfold ack_ok in HG. cbn [fst snd] in *.
  destruct gi as [i|].
  2: { destruct (p_decc P wire) as [p|].
       - destruct (from_bytes p) as [[]| |]; try contradiction; injection E as <- <-; apply Hnone; auto.
       - injection E as <- <-; apply Hnone; auto. }
  destruct HG as (G1 & G2). rewrite G2 in E.
  rewrite decode_ack in E by (apply N.mod_upper_bound; discriminate).
  destruct (reader_free (cs_r cl) (i mod 65536)) as [r1 freed] eqn:EF.
  destruct (core_acked P _ _ HP _ _ _ _ _ _ _ _ _ _ _ HC Hin Hold EF) as (s' & k & -> & S0 & S1 & S2 & S3 & S4 & S5).
  rewrite S5 in E. injection E as <- <-. exists s'. cbn [cs_r cs_total see snd].
  split; [exact S1|]. split; [exact S4|]. pose proof (core_win P _ _ HP _ _ _ _ _ _ _ S1) as K.
  split.
  - destruct (N.eqb_spec (conf s') n) as [En|En].
    + split; [exact En|]. rewrite Ht, S2, En. apply prefix_all; [apply bs_pos; assumption|apply N.le_refl].
    + split; lia.
  - intros i0 [= <-]. rewrite S0. split; [destruct (conf s' =? n); discriminate|reflexivity].
Qed.

Lemma uwrite_inv s r c wr data acks sr ss g now io sock txt c' wr' plain new :
  C s r wr data acks sr ss -> SrvOk c wr ->
  In g data -> not_too_old P sr g ->
  handle_write (p_decs P) c wr (fst g) now (p_max P) io None sock txt = (c', wr', plain) ->
  emitted (p_decc P) (w_written wr') plain new ->
  C s r wr' data (new ++ acks) (see sr g) ss /\ SrvOk c' wr'.
Proof.
  intros HC HS Hin Hold E HE. destruct (bs_pos P HP) as (B1 & B2 & B3).
  pose proof HS as (HO & HS1 & HS2).
  pose proof HC as (m & _ & _ & _ & _ & _ & _ & _ & _ & HD & _).
  pose proof (proj1 (Forall_forall _ _) HD _ Hin) as HG. unfold data_ok in HG.
  assert (Hinv : forall wr1, w_written wr1 = w_written wr -> SrvOk (set_invalid c now) wr1).
  { intros wr1 Hw. split; [exact HO|]. split.
    - cbn. rewrite Hw. intros Hx. destruct (HS1 Hx) as [Hx1 _]. split; [exact Hx1|discriminate].
    - intros [H _]. discriminate. }
  unfold handle_write in E. destruct g as [x gi]. cbn [fst snd] in *.
  destruct gi as [i|].
  2: { unfold see. cbn [snd]. destruct (p_decs P x) as [p|].
       - destruct (from_bytes p) as [[]| |]; try contradiction; injection E as <- <- <-; inversion HE; subst; auto.
       - injection E as <- <- <-. inversion HE; subst. auto. }
  destruct HG as (G1 & G2 & G3). rewrite G3 in E.
  rewrite decode_data in E by (apply N.mod_upper_bound; discriminate).
  unfold srv_write_block in E.
  destruct (write_block wr (i mod 65536) (blk i) io None) as [w1 res] eqn:EW.
  destruct (core_receive P _ _ HP _ _ _ _ _ _ _ _ _ _ _ _ HC Hin Hold EW) as [C1 R].
  cbn [see snd]. pose proof (core_win P _ _ HP _ _ _ _ _ _ _ C1) as K.
  assert (Hnil : plain = [] -> new = []) by (intros ->; inversion HE; reflexivity).
  destruct res as [[k j]|[cc j|cc j|]|].
  - destruct R as (-> & -> & R3 & -> & ->). cbn match in E.
    assert (HR2 : c_finished c = false).
    { destruct (c_finished c) eqn:Ef; [|reflexivity]. destruct (HS1 eq_refl) as [Hw _]. lia. }
    assert (Hk : w_written wr < n) by lia.
    destruct (negb (size_ok _ _)).
    { injection E as <- <- <-. split.
      - destruct sock; cbn [when] in HE; [|inversion HE; subst; exact C1].
        apply core_other_acks; [exact C1|]. eapply error_not_ack; exact HE.
      - split; [exact HO|]. split; [cbn; rewrite HR2; discriminate|]. intros [H _]. discriminate. }
    set (due := ack_due _ _ _ _) in *.
    injection E as <- <- <-. split.
    + destruct (due && sock)%bool; cbn [when] in HE; [|inversion HE; subst; exact C1].
      apply core_ack_new; [exact C1|]. rewrite R3 in *. exact HE.
    + rewrite HO. change (bs_enc (p_opts P)) with bs.
      pose proof (block_short file bs B1 (w_written wr + 1) ltac:(lia) ltac:(unfold p_n in *; lia)) as Hs.
      pose proof (prefix_step file bs B1 (w_written wr) Hk) as Hp. fold n in Hs.
      set (c1 := if (due && sock)%bool then set_acked c (w_written wr + 1) else c).
      assert (Hc1 : c_opts c1 = p_opts P /\ (c_invalid c1 = None -> c_transfer c1 = pre (w_written wr)) /\ c_finished c1 = false).
      { unfold c1. destruct (due && sock)%bool; cbn; (split; [exact HO|]); (split; [|exact HR2]); intros Hi; apply HS2; split; assumption. }
      destruct Hc1 as (Q1 & Q2 & Q3).
      destruct (N.ltb_spec (blen (blk (w_written wr + 1))) bs) as [Hlt|Hge].
      * apply Hs in Hlt. split; [exact Q1|]. split; [|intros [_ H]; discriminate].
        cbn. rewrite R3. intros _. split; [exact Hlt|]. intros Hi. rewrite (Q2 Hi), <- Hp. apply prefix_all; [assumption|].
        fold n. rewrite Hlt. apply N.le_refl.
      * split; [exact Q1|]. split; [cbn; rewrite Q3; discriminate|]. intros [Hi _]. cbn in Hi |- *. rewrite (Q2 Hi), R3.
        assert (w_written wr + 1 <> n) by (intros Hx; apply Hs in Hx; lia). lia.
  - destruct R as (R1 & -> & -> & R4 & R5). cbn match in E.
    set (due := ack_due _ _ _ _) in *. injection E as <- <- <-. split.
    + destruct (due && sock)%bool; cbn [when] in HE; [|inversion HE; subst; exact C1].
      apply core_ack_new; [exact C1|]. rewrite R4 in *. exact HE.
    + unfold SrvOk, running. rewrite R4. destruct (due && sock)%bool; exact HS.
  - destruct R as (R1 & -> & -> & R4 & R5). cbn match in E.
    set (due := ack_due _ _ _ _) in *. injection E as <- <- <-. split.
    + destruct (due && sock)%bool; cbn [when] in HE; [|inversion HE; subst; exact C1].
      apply core_ack_new; [exact C1|]. rewrite R4 in *. exact HE.
    + unfold SrvOk, running. rewrite R4. destruct (due && sock)%bool; exact HS.
  - injection E as <- <- <-. destruct R as (R1 & R2 & _). split; [|apply Hinv; exact R1].
    destruct sock; cbn [when] in HE; [|inversion HE; subst; exact C1].
    apply core_other_acks; [exact C1|]. eapply error_not_ack; exact HE.
  - destruct R.
Qed.

Lemma uinv_step st st' s : UInv st s -> ustep P st st' -> exists s', UInv st' s'.
Proof.
  intros (HC & HS & HT) H. destruct H; cbn in *.
  - destruct HT as [Hc Ht].
    destruct (usend_inv _ _ _ _ _ _ _ _ _ _ _ _ _ _ _ HC H H0 H1) as (s' & C' & E1 & E2 & E3).
    exists s'. split; [exact C'|]. cbn. split; [exact HS|]. destruct E3 as [->| ->]; [|exact I]. rewrite E1, E2. auto.
  - destruct HT as [Hc Ht].
    destruct (urecv_inv _ _ _ _ _ _ _ _ _ _ _ _ HC Hc Ht H H0 H1) as (s' & C' & E1 & E2 & _).
    exists s'. split; [exact C'|]. cbn. auto.
  - destruct (uwrite_inv _ _ _ _ _ _ _ _ _ _ _ _ _ _ _ _ _ HC HS H H0 H1 H2) as [C' HS'].
    exists s. split; [exact C'|]. cbn. auto.
  - exists s. split; [|cbn; auto].
    cbn. unfold timeout_client in H. apply core_other_acks; [exact HC|].
    destruct (_ || _)%bool; [injection H as <-; inversion H0; constructor|].
    destruct (_ <=? _); [discriminate|]. injection H as <-.
    destruct sock; cbn [when] in H0; [eapply error_not_ack; exact H0|inversion H0; constructor].
Qed.
Lemma ureach_inv st : ureach P st -> exists s, UInv st s.
Proof.
  induction 1 as [st H|st st' _ [s IH] H]; [apply uinv_init; assumption|eapply uinv_step; eassumption].
Qed.
Lemma uinv_safe st s : UInv st s ->
  w_out (u_writer st) = takeN (w_written (u_writer st) * bs) file /\
  (forall t, u_stat st = CDone t -> w_out (u_writer st) = file /\ t = blen file) /\
  (c_finished (u_conn st) = true -> w_out (u_writer st) = file /\
    (c_invalid (u_conn st) = None -> c_transfer (u_conn st) = blen file)).
Proof.
  intros (HC & (HO & HF & HR) & HS). destruct (bs_pos P HP) as (B1 & B2 & B3).
  destruct (core_prefix P _ _ HP _ _ _ _ _ _ _ HC) as [H1 H2].
  assert (Hall : w_written (u_writer st) = n -> w_out (u_writer st) = file).
  { intros E. rewrite H1, E, prefix_all by (try assumption; apply N.le_refl). apply takeN_all. lia. }
  split; [|split].
  - rewrite H1. unfold prefix_size. destruct (N.min_spec (w_written (u_writer st) * bs) (blen file)) as [[_ ->]|[Hx ->]]; [reflexivity|].
    rewrite !takeN_all by lia. reflexivity.
  - intros t E. rewrite E in HS. destruct HS as [HS1 HS2]. split; [|exact HS2].
    pose proof (core_win P _ _ HP _ _ _ _ _ _ _ HC) as K. apply Hall. lia.
  - intros E. destruct (HF E). auto.
Qed.
End U.
