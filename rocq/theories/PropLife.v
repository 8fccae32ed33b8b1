(** The life of a server connection (C29): exactly which events count as a sign of life, as the
    end of the transfer, and as its failure. *)
From Verif Require Import Base PacketModel MapperModel MapperProofs ReaderModel ConfigModel ConnModel WriterSpec WriterProofs PacketProofs SystemModel ConnProofs.

(** What decides whether a connection is dropped: the time of the last sign of life, whether it
    has finished, when it failed. *)
Definition life (c : conn) : N * bool * option N := (c_updated c, c_finished c, c_invalid c).

(** Sending a block is no sign of life and never finishes a transfer.  The connection fails
    exactly if the file could not be read; then the peer is told (if the socket works) and
    nothing else is sent. *)
Theorem sending_life : forall file c r buflen now io sock txt c' r' plain b,
  send_data_block file c r buflen now io sock txt = (c', r', plain, b) ->
  (life c' = life c /\ (forall e m, ~ In (to_bytes (PError e m)) plain)) \/
  (life c' = (c_updated c, c_finished c, Some now) /\ b = false /\
   exists e m, plain = if sock then [to_bytes (PError e m)] else []).
Proof.
  intros file c r buflen now io sock txt c' r' plain b E. unfold send_data_block in E.
  destruct (reader_next _ _ _ _ _) as [r1 res].
  assert (L : life (if retry_due c now then set_mult c (sat_add (c_mult c) 2) else c) = life c) by (destruct (retry_due c now); reflexivity).
  assert (L2 : forall e, life (set_invalid (if retry_due c now then set_mult c e else c) now) = (c_updated c, c_finished c, Some now))
    by (intros; destruct (retry_due c now); reflexivity).
  destruct res as [[bl|]|[|]|].
  - left. injection E as <- <- <- <-. split.
    + destruct sock; [|exact L]. unfold life in *. cbn. exact L.
    + intros e m. destruct sock; cbn [when]; [|intros []].
      intros [H|[]]. cbn in H. discriminate.
  - left. injection E as <- <- <- <-. auto.
  - right. injection E as <- <- <- <-. rewrite L2. split; [reflexivity|]. split; [reflexivity|].
    exists AccessViolation, txt. destruct sock; reflexivity.
  - right. injection E as <- <- <- <-. rewrite L2. split; [reflexivity|]. split; [reflexivity|].
    exists Undefined, (s2b "Storage error occurred"). destruct sock; reflexivity.
  - left. injection E as <- <- <- <-. auto.
Qed.

(** A datagram for a connection that sends: an error of the peer fails it at once; an
    acknowledgement is a sign of life exactly if it confirms file bytes, and finishes the
    transfer exactly if everything is confirmed then; anything else changes nothing. *)
Theorem download_events : forall dec c r x now c' r',
  handle_read dec c r x now = (c', r', Some tt) ->
  match match dec x with Some p => from_bytes p | None => Panic end with
  | Ok (PError _ _) => life c' = (c_updated c, c_finished c, Some now) /\ c_transfer c' = c_transfer c /\ r' = r
  | Ok (PAck b) =>
      c_transfer c <= c_transfer c' /\
      life c' = (if c_transfer c <? c_transfer c' then now else c_updated c,
                 c_finished c || reader_finished r', c_invalid c)
  | _ => c' = c /\ r' = r
  end.
Proof.
  intros dec c r x now c' r' E. unfold handle_read in E.
  destruct (dec x) as [p|]; [|injection E as <- <-; auto].
  destruct (from_bytes p) as [[?|?|?|b|?|?]|e|]; try (injection E as <- <-; cbn; auto; fail).
  destruct (reader_free r b) as [r1 [n|]]; [|discriminate].
  injection E as <- <-. destruct (N.ltb_spec 0 n) as [Hn|Hn].
  - destruct (reader_finished r1); cbn; (split; [lia|]); unfold life; cbn;
      replace (c_transfer c <? c_transfer c + n) with true by lia;
      rewrite ?Bool.orb_true_r, ?Bool.orb_false_r; reflexivity.
  - destruct (reader_finished r1); cbn; (split; [lia|]); unfold life; cbn;
      replace (c_transfer c <? c_transfer c) with false by lia;
      rewrite ?Bool.orb_true_r, ?Bool.orb_false_r; reflexivity.
Qed.

(** A datagram for a connection that receives, on a device that takes whole blocks or fails: an error of the peer fails it at once; the
    next block in order is a sign of life unless the device fails or it exceeds the size limit,
    both of which fail the connection, and finishes the transfer exactly if it is short; any
    other block, and anything else, changes nothing. *)
Theorem upload_events : forall dec c w x now max io sock txt c' w' plain,
  handle_write dec c w x now max io None sock txt = (c', w', plain) ->
  match match dec x with Some p => from_bytes p | None => Panic end with
  | Ok (PError _ _) => life c' = (c_updated c, c_finished c, Some now) /\ w' = w /\ plain = []
  | Ok (PData b d) =>
      let i := fst (map_index (w_map w) b) in
      life c' =
        (if negb (i =? w_written w + 1) then life c
         else if io || (max <? c_transfer c + blen d) then (c_updated c, c_finished c, Some now)
         else (now, c_finished c || (blen d <? bs_enc (c_opts c)), c_invalid c)) /\
      c_transfer c' =
        (if (i =? w_written w + 1) && negb io && negb (max <? c_transfer c + blen d)
         then c_transfer c + blen d else c_transfer c)
  | _ => c' = c /\ w' = w /\ plain = []
  end.
Proof.
  intros dec c w x now max io sock txt c' w' plain E. unfold handle_write in E.
  destruct (dec x) as [p|]; [|injection E as <- <- <-; auto].
  destruct (from_bytes p) as [[?|?|b d|?|?|?]|e|]; try (injection E as <- <- <-; cbn; auto; fail).
  unfold srv_write_block in E.
  pose proof (write_block_cases w b d io None) as C. cbn zeta in C |- *.
  destruct (write_block w b d io None) as [w1 res]. destruct C as [_ C].
  set (i := fst (map_index (w_map w) b)) in *.
  destruct res as [[n j]|[cc j|cc j|]|]; [| | | |destruct C].
  - destruct C as (C1 & -> & -> & _ & _ & ->). rewrite C1, N.eqb_refl. cbn [negb orb andb]. cbn match in E.
    unfold size_ok in E. rewrite Bool.negb_involutive in E.
    destruct (N.ltb_spec max (c_transfer c + blen d)); [injection E as <- <- <-; auto|].
    set (due := ack_due _ _ _ _ && sock) in E.
    injection E as <- <- <-. destruct due, (blen d <? bs_enc (c_opts c)); cbn; unfold life; cbn;
      rewrite ?Bool.orb_true_r, ?Bool.orb_false_r; auto.
  - destruct C as (C1 & -> & -> & _). replace (i =? w_written w + 1) with false by lia. cbn [negb andb].
    cbn match in E. set (due := ack_due _ _ _ _ && sock) in E. injection E as <- <- <-. destruct due; auto.
  - destruct C as (C1 & -> & -> & _). replace (i =? w_written w + 1) with false by lia. cbn [negb andb].
    cbn match in E. set (due := ack_due _ _ _ _ && sock) in E. injection E as <- <- <-. destruct due; auto.
  - destruct C as (C1 & -> & _). rewrite C1, N.eqb_refl. cbn match in E. injection E as <- <- <-. auto.
Qed.

(** The hypotheses are met: a block in order is a sign of life, a repeated one is not, an error
    of the peer is a failure. *)
Example life_case :
  let o := mkOpts 512 80 None LNone 1 in
  let d := repeat 7 512 in
  let '(c1, w1, p1) := handle_write (fun x => Some x) (conn_new o 0) writer_new (to_bytes (PData 1 d)) 10 5000 false None true [] in
  let '(c2, w2, p2) := handle_write (fun x => Some x) c1 w1 (to_bytes (PData 1 d)) 20 5000 false None true [] in
  let '(c3, _, _) := handle_write (fun x => Some x) c2 w2 (to_bytes (PError Undefined [])) 30 5000 false None true [] in
  life c1 = (10, false, None) /\ life c2 = (10, false, None) /\ life c3 = (10, false, Some 30).
Proof. vm_compute. auto. Qed.
Example life_case_read :
  let o := mkOpts 512 80 None LNone 1 in
  let file := repeat 7 100 in
  let '(c1, r1, p1, b1) := send_data_block file (conn_new o 0) (RS (single_new 512)) 600 5 false true [] in
  let '(c2, r2, ok2) := handle_read (fun x => Some x) c1 r1 (to_bytes (PAck 1)) 10 in
  let '(c3, r3, _, _) := send_data_block file (conn_new o 0) (RS (single_new 512)) 600 5 true true [] in
  life c1 = (0, false, None) /\ life c2 = (10, true, None) /\ life c3 = (0, false, Some 5).
Proof. vm_compute. auto. Qed.

Print Assumptions sending_life.
Print Assumptions download_events.
Print Assumptions upload_events.
