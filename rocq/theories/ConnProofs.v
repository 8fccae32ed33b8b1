From Verif Require Import Base BaseProofs PacketModel MapperModel MapperProofs ReaderModel WriterSpec WriterProofs ConfigModel ConnModel
  ClientModel SystemModel ConnSpec.

Definition CInv (o : options) (max : N) (st : crecv) : Prop :=
  blen (w_out (cr_w st)) = cr_total st /\ cr_total st <= max.

Lemma write_block_out w b d io short w' res : write_block w b d io short = (w', res) ->
  match res with
  | Ok (n, i) => n = blen (w_out w') - blen (w_out w) /\ n <= blen d /\ blen (w_out w') = blen (w_out w) + n /\
                 w_written w' = w_written w + 1 /\ i = w_written w + 1
  | Err (AlreadyWritten c i) | Err (ExpectedBlock c i) =>
      w_out w' = w_out w /\ w_written w' = w_written w /\ i = w_written w /\ c = w_written w mod 65536
  | _ => w_out w' = w_out w /\ w_written w' = w_written w
  end.
Proof.
  unfold write_block. destruct (map_index _ _) as [pi pm].
  destruct (pi <? w_written w + 1); [intros [= <- <-]; rewrite map_block_mod; repeat split|].
  destruct (w_written w + 1 <? pi); [intros [= <- <-]; rewrite map_block_mod; repeat split|].
  destruct io; [intros [= <- <-]; cbn; auto|].
  intros [= <- <-]. cbn. rewrite blen_app. repeat split; try lia.
  destruct short; [rewrite blen_takeN; lia|lia].
Qed.

Lemma recv_size dec o max tmo st e now io short sock txt st' plain s :
  CInv o max st ->
  recv_step dec o max tmo st e now io short sock txt = (st', plain, s) ->
  blen (w_out (cr_w st')) <= max + blen (event_payload dec e) /\
  match s with
  | CRun => CInv o max st'
  | CDone t => t = blen (w_out (cr_w st')) /\ t <= max
  | CFail => True
  end.
Proof.
  intros (I1 & I2) E. destruct e as [fp x| |]; cbn [recv_step event_payload] in *.
  2,3: injection E as <- <- <-; cbn; split; [lia|]; try destruct (_ <? _); unfold CInv; auto.
  unfold payload_of. destruct (dec x) as [p|]; [|injection E as <- <- <-; cbn; split; [lia|exact I]].
  assert (Same : forall q s0, (st, q, s0) = (st', plain, s) -> s0 = CRun \/ s0 = CFail ->
     blen (w_out (cr_w st')) <= max + blen (match from_bytes p with Ok (PData _ d) => d | _ => [] end) /\
     match s with CRun => CInv o max st' | CDone t => t = blen (w_out (cr_w st')) /\ t <= max | CFail => True end).
  { intros q s0 [= <- <- <-] [-> | ->]; (split; [lia|]); unfold CInv; auto. }
  destruct (negb fp); [eapply Same; [exact E|auto]|].
  destruct (from_bytes p) as [[| |b d| | |]| |]; try (eapply Same; [exact E|auto]).
  unfold cl_write_block in E. destruct (write_block (cr_w st) b d io short) as [w1 res] eqn:EW.
  apply write_block_out in EW.
  destruct res as [[k j]|[cc j|cc j|]|].
  - destruct EW as (W1 & W2 & W3 & W4 & W5). cbn match in E. unfold cl_size_ok in E. rewrite Bool.negb_involutive in E.
    destruct (N.ltb_spec max (cr_total st + k)) as [H|H].
    { injection E as <- <- <-. cbn. split; [lia|exact I]. }
    destruct (_ && _)%bool. { injection E as <- <- <-. cbn. split; [lia|exact I]. }
    injection E as <- <- <-. cbn. split; [lia|]. unfold CInv. cbn.
    destruct (_ <? _); split; lia.
  - destruct EW as (W1 & W2 & W3 & W4). cbn match in E.
    destruct (_ && _)%bool; injection E as <- <- <-; unfold CInv; cbn; rewrite W1; (split; [lia|]); auto.
  - destruct EW as (W1 & W2 & W3 & W4). cbn match in E.
    destruct (_ && _)%bool; injection E as <- <- <-; unfold CInv; cbn; rewrite W1; (split; [lia|]); auto.
  - destruct EW as (W1 & W2). injection E as <- <- <-. cbn. rewrite W1. split; [lia|exact I].
  - destruct EW as (W1 & W2). injection E as <- <- <-. cbn. rewrite W1. split; [lia|exact I].
Qed.

Lemma client_run_size dec o max tmo B l : forall st,
  CInv o max st -> Forall (fun x => blen (event_payload dec (fst x)) <= B) l ->
  let '(st', s) := client_run dec o max tmo st l in
  blen (w_out (cr_w st')) <= max + B /\
  match s with
  | CRun => CInv o max st'
  | CDone t => t = blen (w_out (cr_w st')) /\ t <= max
  | CFail => True
  end.
Proof.
  induction l as [|[e v] l IH]; intros st I F; cbn.
  - split; [destruct I; lia|exact I].
  - inversion F as [|? ? F1 F2]; subst. cbn in F1.
    destruct (recv_step _ _ _ _ _ _ _ _ _ _ _) as [[st1 pl] s] eqn:E.
    destruct (recv_size _ _ _ _ _ _ _ _ _ _ _ _ _ _ I E) as [H1 H2].
    destruct s; [apply IH; assumption| |]; (split; [lia|exact H2]).
Qed.

(** Server *)
Definition SInv (max : N) (c : conn) (w : writer) : Prop :=
  (c_invalid c = None -> blen (w_out w) = c_transfer c /\ c_transfer c <= max).
Lemma write_size dec c w x now max io short sock txt c' w' plain :
  SInv max c w -> c_invalid c = None ->
  handle_write dec c w x now max io short sock txt = (c', w', plain) ->
  blen (w_out w') <= max + blen (payload_of dec x) /\ SInv max c' w'.
Proof.
  intros I Hi E. destruct (I Hi) as [I1 I2]. unfold handle_write in E. unfold payload_of.
  destruct (dec x) as [p|]; [|injection E as <- <- <-; split; [cbn; lia|exact I]].
  destruct (from_bytes p) as [[| |b d| | |]| |]; try (injection E as <- <- <-; split; [cbn; lia|]; auto; intros H; discriminate).
  unfold srv_write_block in E. destruct (write_block w b d io short) as [w1 res] eqn:EW.
  apply write_block_out in EW.
  destruct res as [[k j]|[cc j|cc j|]|].
  - destruct EW as (W1 & W2 & W3 & W4 & W5). cbn match in E. unfold size_ok in E. rewrite Bool.negb_involutive in E.
    destruct (N.ltb_spec max (c_transfer c + k)) as [H|H].
    { injection E as <- <- <-. split; [cbn; lia|]. intros X; discriminate. }
    injection E as <- <- <-. split; [lia|]. intros _. destruct (_ && _)%bool, (k <? _); cbn; lia.
  - destruct EW as (W1 & W2 & W3 & W4). injection E as <- <- <-. rewrite W1. split; [lia|].
    unfold SInv. rewrite W1. destruct (_ && _)%bool; cbn; auto.
  - destruct EW as (W1 & W2 & W3 & W4). injection E as <- <- <-. rewrite W1. split; [lia|].
    unfold SInv. rewrite W1. destruct (_ && _)%bool; cbn; auto.
  - destruct EW as (W1 & W2). injection E as <- <- <-. rewrite W1. split; [lia|]. intros H; discriminate.
  - destruct EW as (W1 & W2). injection E as <- <- <-. rewrite W1. split; [lia|]. intros H; discriminate.
Qed.
Lemma server_run_size dec max B l : forall c w,
  SInv max c w -> blen (w_out w) <= max + B -> Forall (fun x => blen (payload_of dec (fst x)) <= B) l ->
  let '(c', w') := server_run dec max c w l in
  blen (w_out w') <= max + B /\ SInv max c' w'.
Proof.
  induction l as [|[x v] l IH]; intros c w I Hb F; cbn; [auto|].
  destruct (over c) eqn:Ho; [auto|].
  inversion F as [|? ? F1 F2]; subst. cbn in F1.
  assert (Hi : c_invalid c = None) by (unfold over in Ho; destruct (c_invalid c); [discriminate|reflexivity]).
  destruct (handle_write _ _ _ _ _ _ _ _ _ _) as [[c1 w1] pl] eqn:E.
  destruct (write_size _ _ _ _ _ _ _ _ _ _ _ _ _ I Hi E) as [H1 H2].
  apply IH; [exact H2|lia|exact F2].
Qed.

(** Window acknowledgements *)
Definition AInv (o : options) (acked written : N) : Prop := acked <= written /\ written < acked + op_window o.
Lemma client_ack_inv dec o max tmo st e now io short sock txt st' plain :
  1 <= op_window o -> AInv o (cr_ack st) (w_written (cr_w st)) ->
  recv_step dec o max tmo st e now io short sock txt = (st', plain, CRun) ->
  AInv o (cr_ack st') (w_written (cr_w st')).
Proof.
  intros Hw I E. destruct e as [fp x| |]; cbn [recv_step] in *.
  2,3: injection E as <- <-; assumption.
  destruct (dec x) as [p|]; [|discriminate].
  destruct (negb fp); [injection E as <- <-; assumption|].
  destruct (from_bytes p) as [[| |b d| | |]| |]; try (injection E as <- <-; assumption); try discriminate.
  unfold cl_write_block in E. destruct (write_block (cr_w st) b d io short) as [w1 res] eqn:EW.
  apply write_block_out in EW. unfold AInv in *.
  destruct res as [[k j]|[cc j|cc j|]|]; [| | |discriminate..].
  - destruct EW as (_ & _ & _ & W4 & ->). cbn match in E.
    destruct (negb _); [discriminate|]. destruct (ack_due o (cr_ack st) (w_written (cr_w st) + 1) (Some k)) eqn:Ed.
    + destruct sock; [|discriminate]. cbn [andb negb] in E. injection E as <- _ _. cbn. lia.
    + cbn [andb] in E. injection E as <- _ _. cbn. unfold ack_due in Ed. lia.
  - destruct EW as (_ & W4 & -> & _). cbn match in E. destruct (ack_due _ _ _ _).
    + destruct sock; [|discriminate]. cbn [andb negb] in E. injection E as <- _. cbn. lia.
    + cbn [andb] in E. injection E as <- _. cbn. lia.
  - destruct EW as (_ & W4 & -> & _). cbn match in E. destruct (ack_due _ _ _ _).
    + destruct sock; [|discriminate]. cbn [andb negb] in E. injection E as <- _. cbn. lia.
    + cbn [andb] in E. injection E as <- _. cbn. lia.
Qed.
Lemma client_run_ack dec o max tmo l : 1 <= op_window o -> forall st,
  AInv o (cr_ack st) (w_written (cr_w st)) ->
  let '(st', s) := client_run dec o max tmo st l in s = CRun -> AInv o (cr_ack st') (w_written (cr_w st')).
Proof.
  intros Hw. induction l as [|[e v] l IH]; intros st I; cbn; [auto|].
  destruct (recv_step _ _ _ _ _ _ _ _ _ _ _) as [[st1 pl] s] eqn:E.
  destruct s; [|discriminate..]. apply IH. eapply client_ack_inv; eassumption.
Qed.
Lemma server_ack_inv dec c w x now max io short txt c' w' plain :
  1 <= op_window (c_opts c) -> AInv (c_opts c) (c_acked c) (w_written w) ->
  handle_write dec c w x now max io short true txt = (c', w', plain) -> c_invalid c' = None ->
  AInv (c_opts c') (c_acked c') (w_written w') /\ c_opts c' = c_opts c.
Proof.
  intros Hw I E Hi. unfold handle_write in E.
  destruct (dec x) as [p|]; [|injection E as <- <- <-; auto].
  destruct (from_bytes p) as [[| |b d| | |]| |]; try (injection E as <- <- <-; auto; discriminate).
  unfold srv_write_block in E. destruct (write_block w b d io short) as [w1 res] eqn:EW.
  apply write_block_out in EW. unfold AInv in *.
  destruct res as [[k j]|[cc j|cc j|]|].
  - destruct EW as (_ & _ & _ & W4 & ->). cbn match in E.
    destruct (negb _); [injection E as <- <- <-; discriminate|].
    injection E as <- <- <-.
    assert (Ho : forall c0 : conn, c_opts (if k <? bs_enc (c_opts c) then set_finished (set_progress c0 now k) else set_progress c0 now k) = c_opts c0
       /\ c_acked (if k <? bs_enc (c_opts c) then set_finished (set_progress c0 now k) else set_progress c0 now k) = c_acked c0)
      by (intros c0; destruct (k <? _); auto).
    destruct (ack_due (c_opts c) (c_acked c) (w_written w + 1) (Some k)) eqn:Ed; cbn [andb];
      rewrite !(proj1 (Ho _)), !(proj2 (Ho _)).
    + cbn. split; [lia|reflexivity].
    + split; [|reflexivity]. unfold ack_due in Ed. lia.
  - destruct EW as (_ & W4 & -> & _). injection E as <- <- <-. rewrite Bool.andb_true_r.
    destruct (ack_due _ _ _ _); cbn; split; try reflexivity; lia.
  - destruct EW as (_ & W4 & -> & _). injection E as <- <- <-. rewrite Bool.andb_true_r.
    destruct (ack_due _ _ _ _); cbn; split; try reflexivity; lia.
  - injection E as <- <- <-. discriminate.
  - injection E as <- <- <-. discriminate.
Qed.

(** Multiplier *)
Lemma send_mult file c r buflen now io sock txt c' r' plain b :
  send_data_block file c r buflen now io sock txt = (c', r', plain, b) ->
  c_mult c' = (if retry_due c now then sat_add (c_mult c) 2 else c_mult c) /\
  c_opts c' = c_opts c /\ c_sent c' = (if b then now else c_sent c) /\ c_transfer c' = c_transfer c.
Proof.
  unfold send_data_block. destruct (reader_next _ _ _ _ _) as [r1 res].
  destruct res as [[bl|]|[|]|]; intros [= <- <- <- <-]; destruct (retry_due c now); try destruct sock; cbn; auto.
Qed.
Lemma read_mult dec c r x now c' r' ok :
  handle_read dec c r x now = (c', r', ok) ->
  c_transfer c <= c_transfer c' /\
  c_mult c' = (if c_transfer c <? c_transfer c' then (if c_mult c <=? 1 then 1 else c_mult c - 1) else c_mult c) /\
  c_opts c' = c_opts c /\ c_sent c' = c_sent c.
Proof.
  assert (Same : c_transfer c <= c_transfer c /\
     c_mult c = (if c_transfer c <? c_transfer c then (if c_mult c <=? 1 then 1 else c_mult c - 1) else c_mult c) /\
     c_opts c = c_opts c /\ c_sent c = c_sent c).
  { replace (c_transfer c <? c_transfer c) with false by lia. repeat split. lia. }
  unfold handle_read. destruct (dec x) as [p|]; [|intros [= <- <- <-]; exact Same].
  destruct (from_bytes p) as [[| | |b| |]| |]; try (intros [= <- <- <-]; exact Same).
  destruct (reader_free r b) as [r1 [k|]]; [|intros [= <- <- <-]; exact Same].
  intros [= <- <- <-]. destruct (N.ltb_spec 0 k) as [H|H].
  - destruct (reader_finished r1); cbn; replace (c_transfer c <? c_transfer c + k) with true by lia;
      (split; [lia|]); (split; [|auto]); destruct (N.leb_spec (c_mult c) 1); destruct (N.ltb_spec 0 (c_mult c - 1)); lia.
  - destruct (reader_finished r1); exact Same.
Qed.
Lemma history_mult file dec l : forall c r, 1 <= c_mult c <= 255 ->
  1 <= c_mult (fst (sender_history file dec c r l)) <= 255.
Proof.
  induction l as [|o l IH]; intros c r H; cbn; [exact H|].
  destruct (sender_op file dec c r o) as [c' r'] eqn:E. apply IH.
  destruct o as [buflen v|x now]; cbn in E.
  - destruct (send_data_block _ _ _ _ _ _ _ _) as [[[c1 r1] pl] b] eqn:ES. injection E as <- <-.
    destruct (send_mult _ _ _ _ _ _ _ _ _ _ _ _ ES) as (-> & _). unfold sat_add. destruct (retry_due _ _); lia.
  - destruct (handle_read _ _ _ _ _) as [[c1 r1] ok] eqn:ES. injection E as <- <-.
    destruct (read_mult _ _ _ _ _ _ _ _ ES) as (_ & -> & _).
    destruct (_ <? _); [|exact H]. destruct (N.leb_spec (c_mult c) 1); lia.
Qed.
(** Without the timer the block after the last one sent is next. *)
Lemma next_no_retry file r cap io r' b : reader_next file r cap false io = (r', Ok (Some b)) ->
  o_index b = reader_cur r + 1 /\ reader_cur r' = reader_cur r + 1 /\ o_block b = (reader_cur r + 1) mod 65536.
Proof.
  destruct r as [s|m|k]; cbn [reader_next reader_cur].
  - unfold single_next. destruct (single_finished s); [discriminate|]. destruct (s_last s); [discriminate|].
    destruct io; [discriminate|]. destruct (_ <=? cap); [|discriminate]. intros [= <- <-]. cbn. rewrite map_block_mod. auto.
  - unfold multi_next. destruct (multi_finished m); [discriminate|]. destruct (find_buf _ _).
    + destruct (_ <=? cap); [|discriminate]. intros [= <- <-]. cbn. rewrite map_block_mod. auto.
    + destruct (_ || _)%bool; [discriminate|]. destruct io; [discriminate|].
      destruct (_ <=? cap); [|discriminate]. intros [= <- <-]. cbn. rewrite map_block_mod. auto.
  - unfold seek_next. destruct (seek_finished k); [discriminate|]. cbn [andb].
    destruct (_ <=? k_read k).
    + destruct io; [discriminate|]. destruct (_ <=? cap); [|discriminate]. intros [= <- <-]. cbn. rewrite map_block_mod. auto.
    + destruct (_ || _)%bool; [discriminate|]. destruct (_ <=? cap); [|discriminate].
      destruct io; [discriminate|]. intros [= <- <-]. cbn. rewrite map_block_mod. auto.
Qed.
Lemma server_run_ack dec max l : forall c w, 1 <= op_window (c_opts c) ->
  Forall (fun x => e_sock (snd x) = true) l ->
  (c_invalid c = None -> AInv (c_opts c) (c_acked c) (w_written w)) ->
  let '(c', w') := server_run dec max c w l in
  c_invalid c' = None -> AInv (c_opts c') (c_acked c') (w_written w') /\ c_opts c' = c_opts c.
Proof.
  induction l as [|[x v] l IH]; intros c w Hw F I; cbn; [auto|].
  destruct (over c) eqn:Ho; [auto|].
  inversion F as [|? ? F1 F2]; subst. cbn in F1. rewrite F1.
  assert (Hi : c_invalid c = None) by (unfold over in Ho; destruct (c_invalid c); [discriminate|reflexivity]).
  destruct (handle_write _ _ _ _ _ _ _ _ _ _) as [[c1 w1] pl] eqn:E.
  pose proof (server_ack_inv _ _ _ _ _ _ _ _ _ _ _ _ Hw (I Hi) E) as H.
  destruct (c_invalid c1) as [t|] eqn:E1.
  - destruct l as [|[y vy] l']; cbn; [congruence|]. unfold over. rewrite E1. cbn. congruence.
  - destruct (H eq_refl) as [H1 H2]. rewrite <- H2 in Hw. specialize (IH c1 w1 Hw F2 (fun _ => H1)).
    destruct (server_run _ _ _ _ _) as [c2 w2]. rewrite H2 in IH. exact IH.
Qed.
