(** C26-C29, C44, C46, C47: properties of one endpoint, for arbitrary incoming datagrams. *)
From Verif Require Import Base BaseProofs PacketModel PacketProofs MapperModel MapperProofs ReaderModel ReaderSpec WriterSpec WriterProofs
  ConfigModel ConnModel ClientModel SystemModel ConnSpec CoreProofs ConnProofs LiveModel PropTransfer.

(** ** C26 size limits *)
Theorem client_size_limit : forall dec o max tmo now B l,
  Forall (fun x => blen (event_payload dec (fst x)) <= B) l ->
  let '(st, s) := client_run dec o max tmo (crecv_new now) l in
  blen (w_out (cr_w st)) <= max + B /\
  (s = CRun -> blen (w_out (cr_w st)) <= max) /\
  (forall t, s = CDone t -> t = blen (w_out (cr_w st)) /\ t <= max).
Proof.
  intros dec o max tmo now B l F.
  assert (I : CInv o max (crecv_new now)) by (split; [reflexivity|cbn; lia]).
  pose proof (client_run_size dec o max tmo B l (crecv_new now) I F) as H.
  destruct (client_run _ _ _ _ _ _) as [st s]. destruct H as [H1 H2]. split; [exact H1|].
  split; [intros ->; destruct H2; lia|]. intros t ->. exact H2.
Qed.
Theorem server_size_limit : forall dec o max now B l,
  Forall (fun x => blen (payload_of dec (fst x)) <= B) l ->
  let '(c, w) := server_run dec max (conn_new o now) writer_new l in
  blen (w_out w) <= max + B /\
  (c_invalid c = None -> blen (w_out w) = c_transfer c /\ blen (w_out w) <= max).
Proof.
  intros dec o max now B l F.
  assert (I : SInv max (conn_new o now) writer_new) by (intros _; cbn; lia).
  pose proof (server_run_size dec max B l _ _ I ltac:(cbn; lia) F) as H.
  destruct (server_run _ _ _ _ _) as [c w]. destruct H as [H1 H2]. split; [exact H1|].
  intros Hi. destruct (H2 Hi). split; [assumption|lia].
Qed.
(** The overrun by one block happens: the block is written before the check. *)
Definition ok_env : env := mkEnv 1 false None true [].
Example size_overrun :
  let o := mkOpts 512 80 None LNone 1 in
  let x := to_bytes (PData 1 (repeat 7 512)) in
  let '(st, s) := client_run Some o 100 1000 (crecv_new 0) [(EvDatagram true x, ok_env)] in
  let '(c, w) := server_run Some 100 (conn_new o 0) writer_new [(x, ok_env)] in
  blen (w_out (cr_w st)) = 512 /\ s = CFail /\ blen (w_out w) = 512 /\ c_invalid c = Some 1.
Proof. vm_compute. repeat split. Qed.

(** ** C27 data as first reply *)
(** 512-byte blocks, no encryption; the first block [d] of the answer arrives.  The client
    reports success except if the block has exactly 508 bytes. *)
Theorem first_packet_outcome : forall o max d now txt,
  op_bs o = 512 -> op_enc o = LNone -> blen d <= 512 -> 516 <= max ->
  let '(st, plain, s) := recv_first o max (crecv_new now) (to_bytes (PData 1 d)) false None true txt in
  w_out (cr_w st) = d /\ s = (if blen d =? 508 then CRun else CDone (blen d + 4)).
Proof.
  intros o max d now txt Ho He Hd Hm. unfold recv_first. rewrite decode_data by lia.
  assert (Hl : blen (to_bytes (PData 1 d)) = blen d + 4).
  { unfold to_bytes. cbn [opcode body_to_bytes]. unfold be16. rewrite !blen_app, !blen_cons, blen_nil. lia. }
  assert (Hb : bs_enc o = 512) by (unfold bs_enc; rewrite He; exact Ho).
  rewrite Hl, Hb. unfold cl_size_ok. replace (max <? blen d + 4) with false by lia. cbn [negb].
  unfold cl_write_block, write_block, crecv_new. cbn [cr_w writer_new w_map w_written w_out cr_ack cr_total cr_time].
  replace (map_index mapper_new 1) with (1, snd (map_index mapper_new 1)) by reflexivity.
  cbn [N.add N.ltb N.compare]. cbv beta iota zeta. cbn.
  destruct (ack_due _ _ _ _); cbn; (split; [reflexivity|]);
    destruct (N.eqb_spec (blen d) 508); destruct (N.eqb_spec (blen d + 4) 512); cbn; try reflexivity; lia.
Qed.
(** Hence every longer file is reported as received after its first block. *)
Theorem first_packet_premature_success : forall o max file now txt,
  op_bs o = 512 -> op_enc o = LNone -> 512 < blen file -> 516 <= max ->
  let '(st, plain, s) := recv_first o max (crecv_new now) (to_bytes (PData 1 (takeN 512 file))) false None true txt in
  s = CDone 516 /\ w_out (cr_w st) <> file.
Proof.
  intros o max file now txt Ho He Hf Hm.
  assert (Hl : blen (takeN 512 file) = 512) by (rewrite blen_takeN; lia).
  pose proof (first_packet_outcome o max (takeN 512 file) now txt Ho He ltac:(lia) Hm) as H.
  destruct (recv_first _ _ _ _ _ _ _ _) as [[st plain] s]. destruct H as [H1 H2]. rewrite Hl in H2. cbn in H2.
  split; [exact H2|]. intros E. rewrite H1 in E. rewrite E in Hl. lia.
Qed.
Example first_packet_case : blen (repeat 7 1000) = 1000 /\ op_enc default_options = LNone /\ op_bs default_options = 512.
Proof. vm_compute. auto. Qed.

(** ** C28 retransmission *)
Theorem multiplier_bounds : forall file dec o now r l,
  1 <= c_mult (fst (sender_history file dec (conn_new o now) r l)) <= 255.
Proof. intros. apply history_mult. cbn. lia. Qed.
Theorem backoff_rule : forall file c r buflen now io sock txt c' r' plain b,
  send_data_block file c r buflen now io sock txt = (c', r', plain, b) ->
  (op_retry (c_opts c) * c_mult c < now - c_sent c -> c_mult c' = N.min 255 (c_mult c + 2)) /\
  (now - c_sent c <= op_retry (c_opts c) * c_mult c ->
     c_mult c' = c_mult c /\
     (* what is sent is the block after the one sent last, never an earlier one *)
     (b = true -> reader_cur r' = reader_cur r + 1 /\
        exists d, plain = [to_bytes (PData ((reader_cur r + 1) mod 65536) d)])) /\
  c_sent c' = (if b then now else c_sent c).
Proof.
  intros file c r buflen now io sock txt c' r' plain b E.
  destruct (send_mult _ _ _ _ _ _ _ _ _ _ _ _ E) as (M & _ & S & _). unfold retry_due in M. split; [|split].
  - intros H. rewrite M. replace (_ <? _) with true by lia. reflexivity.
  - intros H. unfold send_data_block in E. unfold retry_due in E.
    replace (op_retry (c_opts c) * c_mult c <? now - c_sent c) with false in * by lia.
    split; [exact M|]. intros ->. destruct (reader_next file r _ false io) as [r1 res] eqn:ER.
    destruct res as [[bl|]|[|]|]; try (injection E; discriminate).
    destruct (next_no_retry _ _ _ _ _ _ ER) as (N1 & N2 & N3).
    destruct sock; [|injection E; discriminate]. injection E as <- <- <-. cbn [when]. rewrite N3. eauto.
  - exact S.
Qed.
Theorem progress_rule : forall dec c r x now c' r' ok,
  handle_read dec c r x now = (c', r', ok) ->
  (c_transfer c < c_transfer c' -> c_mult c' = N.max 1 (c_mult c - 1)) /\
  (c_transfer c' = c_transfer c -> c_mult c' = c_mult c).
Proof.
  intros dec c r x now c' r' ok E. destruct (read_mult _ _ _ _ _ _ _ _ E) as (T & M & _). split; intros H.
  - rewrite M. replace (_ <? _) with true by lia. destruct (N.leb_spec (c_mult c) 1); lia.
  - rewrite M, H. replace (_ <? _) with false by lia. reflexivity.
Qed.
Example backoff_case : let '(c, r, plain, b) :=
    send_data_block (repeat 7 1100) (conn_new (mkOpts 512 80 None LNone 2) 0) (RM (multi_new 512 2)) 600 81 false true [] in
  c_mult c = 3 /\ c_sent c = 81 /\ b = true.
Proof. vm_compute. auto. Qed.

(** ** C29 dropping connections *)
Theorem connection_dropped_iff : forall c timeout now sock txt,
  let '(drop, plain) := timeout_client c timeout now sock txt in
  (drop = true <-> c_invalid c <> None \/ c_finished c = true \/ timeout < now - c_updated c) /\
  (plain <> [] -> plain = [to_bytes (PError AccessViolation txt)]) /\
  (* a connection that is still going on is told about the timeout *)
  (drop = true -> c_invalid c = None -> c_finished c = false -> sock = true -> plain <> []) /\
  (drop = false -> plain = []).
Proof.
  intros c timeout now sock txt. unfold timeout_client.
  destruct (c_invalid c) as [t|] eqn:Ei; cbn [orb].
  - split; [split; [intros _; left; discriminate|reflexivity]|]. repeat split; congruence.
  - destruct (c_finished c) eqn:Ef.
    + split; [split; [auto|reflexivity]|]. repeat split; congruence.
    + destruct (N.leb_spec (now - c_updated c) timeout).
      * split; [|repeat split; congruence]. split; [discriminate|]. intros [?|[?|?]]; [congruence|discriminate|lia].
      * split; [split; auto|]. destruct sock; cbn; repeat split; congruence.
Qed.
Example connection_dropped_case :
  fst (timeout_client (conn_new default_options 5) 100 105 true []) = false /\
  fst (timeout_client (conn_new default_options 5) 100 106 true []) = true.
Proof. vm_compute. auto. Qed.

(** ** C44 acknowledgements *)
(** Block index [i] arrives when 1..k have been received: [in_order k i] are received
    afterwards, and an acknowledgement of exactly these is sent unless the block was the
    expected one, full, and not the last of a window. *)
Definition ack_expected (o : options) (acked k i : N) (d : bytes) : list bytes :=
  if (i =? k + 1) && (bs_enc o <=? blen d) && (1 <? op_window o) && negb (acked + op_window o =? i)
  then [] else [to_bytes (PAck (in_order k i mod 65536))].
Lemma write_block_in_order w b d : b < 65536 ->
  let k := w_written w in let i := fst (map_index (w_map w) b) in
  exists w1 res, write_block w b d false None = (w1, res) /\ w_written w1 = in_order k i /\
  match res with
  | Ok (n, j) => i = k + 1 /\ j = i /\ n = blen d /\ b = i mod 65536
  | Err (AlreadyWritten c j) | Err (ExpectedBlock c j) => i <> k + 1 /\ j = k /\ c = k mod 65536
  | _ => False
  end.
Proof.
  intros Hb. cbn zeta. pose proof (map_index_mod (w_map w) b Hb) as Hm. unfold write_block, in_order.
  destruct (map_index (w_map w) b) as [i m]. cbn [fst] in *.
  destruct (N.ltb_spec i (w_written w + 1)) as [H1|H1].
  { replace (i =? w_written w + 1) with false by lia. eexists _, _. split; [reflexivity|]. rewrite map_block_mod. cbn. repeat split; lia. }
  destruct (N.ltb_spec (w_written w + 1) i) as [H2|H2].
  { replace (i =? w_written w + 1) with false by lia. eexists _, _. split; [reflexivity|]. rewrite map_block_mod. cbn. repeat split; lia. }
  replace i with (w_written w + 1) in * by lia. rewrite N.eqb_refl. eexists _, _. split; [reflexivity|]. cbn. auto.
Qed.
Lemma ack_due_accepted o a i d : ack_due o a i (Some (blen d)) =
  negb ((bs_enc o <=? blen d) && (1 <? op_window o) && negb (a + op_window o =? i)).
Proof.
  unfold ack_due. destruct (N.leb_spec (op_window o) 1), (N.ltb_spec 1 (op_window o)); try lia;
    destruct (N.ltb_spec (blen d) (bs_enc o)), (N.leb_spec (bs_enc o) (blen d)); try lia;
    destruct (_ =? _); reflexivity.
Qed.
Lemma ack_due_rejected o a i : 0 < bs_enc o -> ack_due o a i None = true.
Proof. intros H. unfold ack_due. replace (0 <? bs_enc o) with true by lia. apply Bool.orb_true_r. Qed.

Theorem client_ack_policy : forall dec o max tmo st x p b d now txt st' plain s,
  0 < bs_enc o -> dec x = Some p -> from_bytes p = Ok (PData b d) -> b < 65536 -> cr_total st + blen d <= max ->
  recv_step dec o max tmo st (EvDatagram true x) now false None true txt = (st', plain, s) ->
  let k := w_written (cr_w st) in
  let i := fst (map_index (w_map (cr_w st)) b) in
  w_written (cr_w st') = in_order k i /\
  plain = ack_expected o (cr_ack st) k i d /\
  cr_ack st' = (match plain with [] => cr_ack st | _ => in_order k i end).
Proof.
  intros dec o max tmo st x p b d now txt st' plain s Hb Hx Hp H16 Hm E. cbn zeta. cbn [recv_step] in E.
  rewrite Hx in E. cbn [negb] in E. rewrite Hp in E. unfold cl_write_block in E.
  destruct (write_block_in_order (cr_w st) b d H16) as (w1 & res & EW & W1 & W2). rewrite EW in E.
  set (i := fst (map_index (w_map (cr_w st)) b)) in *. set (k := w_written (cr_w st)) in *. unfold ack_expected.
  destruct res as [[n j]|[c j|c j|]|]; try contradiction.
  - destruct W2 as (W2 & -> & -> & Hbi). cbn match in E. unfold cl_size_ok in E.
    replace (max <? cr_total st + blen d) with false in E by lia. cbn [negb] in E.
    rewrite ack_due_accepted in E. rewrite Bool.andb_false_r in E.
    assert (Hio : in_order k i = i) by (unfold in_order; rewrite W2, N.eqb_refl; reflexivity).
    rewrite Hio in *. replace (i =? k + 1) with true by lia. rewrite <- Hbi. cbn [andb].
    destruct (_ && _)%bool; cbn [negb when] in E; injection E as <- <- <-; cbn [cr_w cr_ack]; auto.
  - destruct W2 as (W2 & -> & ->). cbn match in E. rewrite ack_due_rejected in E by assumption. cbn [andb negb when] in E.
    assert (Hio : in_order k i = k) by (unfold in_order; replace (i =? k + 1) with false by lia; reflexivity).
    rewrite Hio in *. replace (i =? k + 1) with false by lia. injection E as <- <- <-. cbn [cr_w cr_ack andb]. auto.
  - destruct W2 as (W2 & -> & ->). cbn match in E. rewrite ack_due_rejected in E by assumption. cbn [andb negb when] in E.
    assert (Hio : in_order k i = k) by (unfold in_order; replace (i =? k + 1) with false by lia; reflexivity).
    rewrite Hio in *. replace (i =? k + 1) with false by lia. injection E as <- <- <-. cbn [cr_w cr_ack andb]. auto.
Qed.
Theorem server_ack_policy : forall dec c w x p b d now max txt c' w' plain,
  0 < bs_enc (c_opts c) -> dec x = Some p -> from_bytes p = Ok (PData b d) -> b < 65536 -> c_transfer c + blen d <= max ->
  handle_write dec c w x now max false None true txt = (c', w', plain) ->
  let k := w_written w in
  let i := fst (map_index (w_map w) b) in
  w_written w' = in_order k i /\
  plain = ack_expected (c_opts c) (c_acked c) k i d /\
  c_acked c' = (match plain with [] => c_acked c | _ => in_order k i end).
Proof.
  intros dec c w x p b d now max txt c' w' plain Hb Hx Hp H16 Hm E. cbn zeta. unfold handle_write in E.
  rewrite Hx, Hp in E. unfold srv_write_block in E.
  destruct (write_block_in_order w b d H16) as (w1 & res & EW & W1 & W2). rewrite EW in E.
  set (i := fst (map_index (w_map w) b)) in *. set (k := w_written w) in *. unfold ack_expected.
  destruct res as [[n j]|[cc j|cc j|]|]; try contradiction.
  - destruct W2 as (W2 & -> & -> & Hbi). cbn match in E. unfold size_ok in E.
    replace (max <? c_transfer c + blen d) with false in E by lia. cbn [negb] in E.
    rewrite ack_due_accepted in E. rewrite Bool.andb_true_r in E.
    assert (Hio : in_order k i = i) by (unfold in_order; rewrite W2, N.eqb_refl; reflexivity).
    rewrite Hio in *. replace (i =? k + 1) with true by lia. rewrite <- Hbi. cbn [andb].
    assert (Hack : forall c0 : conn, c_acked (if blen d <? bs_enc (c_opts c) then set_finished (set_progress c0 now (blen d)) else set_progress c0 now (blen d)) = c_acked c0)
      by (intros c0; destruct (blen d <? _); auto).
    destruct (_ && _)%bool; cbn [negb when] in E; injection E as <- <- <-; rewrite Hack; cbn; auto.
  - destruct W2 as (W2 & -> & ->). cbn match in E. rewrite ack_due_rejected in E by assumption. cbn [andb negb when] in E.
    assert (Hio : in_order k i = k) by (unfold in_order; replace (i =? k + 1) with false by lia; reflexivity).
    rewrite Hio in *. replace (i =? k + 1) with false by lia. injection E as <- <- <-. cbn [c_acked set_acked andb]. auto.
  - destruct W2 as (W2 & -> & ->). cbn match in E. rewrite ack_due_rejected in E by assumption. cbn [andb negb when] in E.
    assert (Hio : in_order k i = k) by (unfold in_order; replace (i =? k + 1) with false by lia; reflexivity).
    rewrite Hio in *. replace (i =? k + 1) with false by lia. injection E as <- <- <-. cbn [c_acked set_acked andb]. auto.
Qed.
(** Whatever arrives, fewer blocks than the window are received but unacknowledged. *)
Theorem client_unacked_below_window : forall dec o max tmo now l, 1 <= op_window o ->
  let '(st, s) := client_run dec o max tmo (crecv_new now) l in
  s = CRun -> cr_ack st <= w_written (cr_w st) /\ w_written (cr_w st) < cr_ack st + op_window o.
Proof.
  intros dec o max tmo now l Hw. apply (client_run_ack dec o max tmo l Hw (crecv_new now)). split; cbn; lia.
Qed.
Theorem server_unacked_below_window : forall dec o max now l, 1 <= op_window o ->
  Forall (fun x => e_sock (snd x) = true) l ->
  let '(c, w) := server_run dec max (conn_new o now) writer_new l in
  c_invalid c = None -> c_acked c <= w_written w /\ w_written w < c_acked c + op_window o.
Proof.
  intros dec o max now l Hw F.
  assert (I : c_invalid (conn_new o now) = None -> AInv o (c_acked (conn_new o now)) (w_written writer_new)) by (split; cbn; lia).
  pose proof (server_run_ack dec max l (conn_new o now) writer_new Hw F I) as H.
  destruct (server_run _ _ _ _ _) as [c w]. intros Hi. destruct (H Hi) as [H1 H2]. rewrite H2 in H1. exact H1.
Qed.
Example ack_policy_case :
  let o := mkOpts 512 80 None LNone 3 in
  let x i := (EvDatagram true (to_bytes (PData i (repeat 7 512))), ok_env) in
  let '(st, s) := client_run Some o 100000 1000 (crecv_new 0) [x 1; x 2; x 3; x 4] in
  s = CRun /\ cr_ack st = 3 /\ w_written (cr_w st) = 4.
Proof. vm_compute. auto. Qed.

(** ** C46 datagrams of strangers *)
(** Without encryption (every datagram "decrypts") a datagram of another address has no effect. *)
Theorem stranger_ignored_without_encryption : forall dec o max tmo st x now io short sock txt,
  (forall y, dec y <> None) ->
  recv_step dec o max tmo st (EvDatagram false x) now io short sock txt = (st, [], CRun) /\
  forall cs, sender_recv dec tmo cs (EvDatagram false x) now = (cs, CRun).
Proof.
  intros dec o max tmo st x now io short sock txt Hd. cbn. specialize (Hd x).
  destruct (dec x); [|congruence]. split; [|intros cs]; reflexivity.
Qed.
(** With encryption any datagram that does not decrypt, from any address, ends the transfer
    at any moment. *)
Theorem stranger_aborts_encrypted_download : forall P st x, valid P -> dreach P st -> d_alive st ->
  p_decc P x = None -> exists st', dstep P st st' /\ d_stat st' = CFail.
Proof.
  intros P [c r live cl stat down up sc ss] x _ _ (A1 & A2 & A3) Hx. cbn in *. subst live stat.
  eexists. split; [eapply (d_client P) with (e := EvDatagram false x) (g := (x, None)) (now := 0) (io := false) (sock := true) (txt := []) (new := [])|].
  - reflexivity.
  - exact I.
  - cbn. rewrite Hx. reflexivity.
  - constructor.
  - reflexivity.
Qed.
Theorem stranger_aborts_encrypted_upload : forall P st x, valid P -> ureach P st -> u_alive st ->
  p_decc P x = None -> exists st', ustep P st st' /\ u_stat st' = CFail.
Proof.
  intros P [c w live cl stat down up sc ss] x _ _ (A1 & A2 & A3) Hx. cbn in *. subst live stat.
  eexists. split; [eapply (u_client_receive P) with (e := EvDatagram false x) (g := (x, None)) (now := 0)|].
  - reflexivity.
  - exact I.
  - cbn. rewrite Hx. reflexivity.
  - reflexivity.
Qed.
(** The server, in contrast, ignores datagrams that do not decrypt. *)
Theorem server_ignores_undecryptable : forall dec c r w x now max io short sock txt,
  dec x = None ->
  handle_read dec c r x now = (c, r, Some tt) /\ handle_write dec c w x now max io short sock txt = (c, w, []).
Proof. intros. unfold handle_read, handle_write. rewrite H. auto. Qed.
Definition ex_crypt : params :=
  mkParams (repeat 7 1100) (mkOpts 553 80 None LFull 2) KMulti 5000 1000 1000
    (fun x => match x with 1 :: y => Some y | _ => None end) (fun x => match x with 1 :: y => Some y | _ => None end).
Example stranger_case : valid ex_crypt /\ p_decc ex_crypt [9; 9] = None /\
  exists st, dreach ex_crypt st /\ d_alive st.
Proof.
  split; [unfold valid; vm_compute; repeat split; try discriminate; right; discriminate|]. split; [reflexivity|].
  eexists. split; [apply dreach_init; exists 0, 0, [], []; split; [constructor|]; split; [constructor|reflexivity]|].
  repeat split.
Qed.

(** ** C47 partial writes *)
(** The device takes only [m] bytes of a full block: the client reports success and the
    server ends the transfer as finished, whatever is still missing. *)
Theorem partial_write_ends_transfer : forall dec o max tmo st x p b d m now txt,
  dec x = Some p -> from_bytes p = Ok (PData b d) ->
  fst (map_index (w_map (cr_w st)) b) = w_written (cr_w st) + 1 ->
  m < bs_enc o -> m <= blen d -> cr_total st + m <= max ->
  let '(st', _, s) := recv_step dec o max tmo st (EvDatagram true x) now false (Some m) true txt in
  s = CDone (cr_total st + m) /\ w_out (cr_w st') = w_out (cr_w st) ++ takeN m d.
Proof.
  intros dec o max tmo st x p b d m now txt Hx Hp Hi Hm Hd Ht. cbn [recv_step]. rewrite Hx, Hp. cbn [negb].
  unfold cl_write_block, write_block. destruct (map_index _ _) as [i mm]. cbn [fst] in Hi. subst i.
  rewrite N.ltb_irrefl. cbv beta iota zeta.
  assert (Hl : blen (takeN m d) = m) by (rewrite blen_takeN; lia). rewrite Hl.
  unfold cl_size_ok. replace (max <? cr_total st + m) with false by lia. cbn [negb]. rewrite Bool.andb_false_r.
  replace (m <? bs_enc o) with true by lia. cbn. auto.
Qed.
Theorem partial_write_finishes_server : forall dec c w x p b d m now max txt,
  dec x = Some p -> from_bytes p = Ok (PData b d) ->
  fst (map_index (w_map w) b) = w_written w + 1 ->
  m < bs_enc (c_opts c) -> m <= blen d -> c_transfer c + m <= max ->
  let '(c', w', plain) := handle_write dec c w x now max false (Some m) true txt in
  c_finished c' = true /\ w_out w' = w_out w ++ takeN m d /\ plain = [to_bytes (PAck b)].
Proof.
  intros dec c w x p b d m now max txt Hx Hp Hi Hm Hd Ht. unfold handle_write. rewrite Hx, Hp.
  unfold srv_write_block, write_block. destruct (map_index _ _) as [i mm]. cbn [fst] in Hi. subst i.
  rewrite N.ltb_irrefl. cbv beta iota zeta.
  assert (Hl : blen (takeN m d) = m) by (rewrite blen_takeN; lia). rewrite Hl.
  unfold size_ok. replace (max <? c_transfer c + m) with false by lia. cbn [negb].
  unfold ack_due. replace (m <? bs_enc (c_opts c)) with true by lia. rewrite Bool.orb_true_r. cbn. auto.
Qed.
Example partial_write_case :
  let o := mkOpts 512 80 None LNone 1 in
  let '(st, s) := client_run Some o 100000 1000 (crecv_new 0)
    [(EvDatagram true (to_bytes (PData 1 (repeat 7 512))), mkEnv 1 false (Some 100) true [])] in
  s = CDone 100.
Proof. vm_compute. auto. Qed.

Print Assumptions client_size_limit.
Print Assumptions server_size_limit.
Print Assumptions first_packet_outcome.
Print Assumptions first_packet_premature_success.
Print Assumptions multiplier_bounds.
Print Assumptions backoff_rule.
Print Assumptions progress_rule.
Print Assumptions connection_dropped_iff.
Print Assumptions client_ack_policy.
Print Assumptions server_ack_policy.
Print Assumptions client_unacked_below_window.
Print Assumptions server_unacked_below_window.
Print Assumptions stranger_ignored_without_encryption.
Print Assumptions stranger_aborts_encrypted_download.
Print Assumptions stranger_aborts_encrypted_upload.
Print Assumptions server_ignores_undecryptable.
Print Assumptions partial_write_ends_transfer.
Print Assumptions partial_write_finishes_server.
