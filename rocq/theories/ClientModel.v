(** Client side of a running transfer: the main loops of src/client/receiver.rs and
    src/client/sender.rs.  [dec] is the decryption of EncryptionBoundSocket::recv_from
    (src/client/encryption_socket.rs 60-91); unlike on the server a failing decryption is an
    I/O error of kind InvalidData that ends the transfer, whoever sent the datagram. *)
From Verif Require Import Base PacketModel MapperModel ReaderModel ConfigModel ConnModel.

(** What recv_from delivers.  src/client/encryption_socket.rs 65-91. *)
Inductive cev :=
| EvDatagram (from_peer : bool) (wire : bytes)
| EvWouldBlock
| EvSocketError.

(** Outcome of one loop iteration.  src/client/receiver.rs 179-259, src/client/sender.rs 184-338. *)
Inductive cstat := CRun | CDone (total : N) | CFail.

(** src/client/receiver.rs 118-124, 171: block_writer, last_block_ack, total, timeout. *)
Record crecv := mkCR { cr_w : writer; cr_ack : N; cr_total : N; cr_time : N }.
(** src/client/receiver.rs 120-125, 172. *)
Definition crecv_new (now : N) : crecv := mkCR writer_new 0 0 now.

(** src/client/receiver.rs 262-286 write_block *)
Definition cl_write_block (w : writer) (block : N) (data : bytes) (io : bool) (short : option N)
  : writer * option (option N * N * N) :=
  let '(w1, res) := write_block w block data io short in
  (w1, match res with
       | Ok (n, i) => Some (Some n, i, block)
       | Err (ExpectedBlock cur i) => Some (None, i, cur)
       | Err (AlreadyWritten cur i) => Some (None, i, cur)
       | Err WFile => None
       | Panic => None
       end).

(** src/client/receiver.rs 288-306 handle_file_size: is the length acceptable, and the error sent. *)
Definition cl_size_ok (len max : N) : bool := negb (max <? len).

(** src/client/receiver.rs 179-259: one iteration of the receive loop. *)
Definition recv_step (dec : bytes -> option bytes) (o : options) (max timeout : N) (st : crecv)
    (e : cev) (now : N) (io : bool) (short : option N) (sock_ok : bool) (txt : bytes)
  : crecv * list bytes * cstat :=
  match e with
  | EvSocketError => (st, [], CFail)
  | EvWouldBlock => (st, [], if timeout <? now - cr_time st then CFail else CRun)
  | EvDatagram from_peer wire =>
      match dec wire with
      | None => (st, [], CFail)
      | Some p =>
          if negb from_peer then (st, [], CRun)
          else
          match from_bytes p with
          | Ok (PData block data) =>
              let '(w1, res) := cl_write_block (cr_w st) block data io short in
              let st1 := mkCR w1 (cr_ack st) (cr_total st) (cr_time st) in
              match res with
              | None => (st1, [], CFail)
              | Some (written, index, blk) =>
                  if match written with Some n => negb (cl_size_ok (cr_total st + n) max) | None => false end
                  then (st1, when sock_ok [to_bytes (PError DiskFull txt)], CFail)
                  else
                    let due := ack_due o (cr_ack st) index written in
                    if due && negb sock_ok then (st1, [], CFail)
                    else
                      let a := if due then index else cr_ack st in
                      let acks := when due [to_bytes (PAck blk)] in
                      match written with
                      | Some n =>
                          (mkCR w1 a (cr_total st + n) now, acks,
                           if n <? bs_enc o then CDone (cr_total st + n) else CRun)
                      | None => (mkCR w1 a (cr_total st) (cr_time st), acks, CRun)
                      end
              end
          | Ok (PError _ _) => (st, [], CFail)
          | _ => (st, [], CRun)
          end
      end
  end.

(** How the local file behaves when read by the sender.  src/client/sender.rs 201-209. *)
Inductive fio := IoOk | IoWouldBlock | IoFail.
(** src/client/sender.rs 201-209. *)
Definition io_bad (f : fio) : bool := match f with IoOk => false | _ => true end.

(** src/client/sender.rs 149-157: block reader, total_confirmed, timeout, last_sent.  The rate
    control (src/flow_control.rs) only decides when to retry: the [retry] flag below. *)
Record csend := mkCS { cs_r : reader; cs_total : N; cs_time : N }.

(** src/client/sender.rs 182-234: first half of an iteration.  [sock]: None = WouldBlock,
    Some false = error. *)
Definition sender_send (file : bytes) (st : csend) (buflen : N) (retry : bool) (io : fio) (sock : option bool)
  : csend * list bytes * cstat :=
  let '(r1, res) := reader_next file (cs_r st) (buflen - DATA_PACKET_HEADER_SIZE) retry (io_bad io) in
  let st1 := mkCS r1 (cs_total st) (cs_time st) in
  match res with
  | Ok (Some b) =>
      match sock with
      | Some true => (st1, [to_bytes (PData (o_block b) (o_data b))], CRun)
      | None => (st1, [], CRun)
      | Some false => (st1, [], CFail)
      end
  | Ok None => (st1, [], CRun)
  | Err RFile => (st1, [], match io with IoWouldBlock => CRun | _ => CFail end)
  | Err RInvalidBuffer => (st1, [], CFail)
  | Panic => (st1, [], CFail)
  end.

(** src/client/sender.rs 246-338: second half of an iteration; a panic of free_block is a failure. *)
Definition sender_recv (dec : bytes -> option bytes) (timeout : N) (st : csend) (e : cev) (now : N)
  : csend * cstat :=
  match e with
  | EvSocketError => (st, CFail)
  | EvWouldBlock => (st, if timeout <? now - cs_time st then CFail else CRun)
  | EvDatagram from_peer wire =>
      match dec wire with
      | None => (st, CFail)
      | Some p =>
          if negb from_peer then (st, CRun)
          else
          match from_bytes p with
          | Ok (PAck block) =>
              let '(r1, freed) := reader_free (cs_r st) block in
              match freed with
              | None => (mkCS r1 (cs_total st) now, CFail)
              | Some n =>
                  (mkCS r1 (cs_total st + n) now,
                   if reader_finished r1 then CDone (cs_total st + n) else CRun)
              end
          | Ok (PError _ _) => (st, CFail)
          | _ => (st, CRun)
          end
      end
  end.

(** src/client/receiver.rs 126-163: a server that ignores the options answers the request with
    the first data packet; [buf] is that packet as found in the receive buffer. *)
Definition recv_first (o : options) (max : N) (st : crecv) (buf : bytes) (io : bool) (short : option N)
    (sock_ok : bool) (txt : bytes) : crecv * list bytes * cstat :=
  match from_bytes buf with
  | Ok (PData block data) =>
      if negb (cl_size_ok (blen buf) max) then (st, when sock_ok [to_bytes (PError DiskFull txt)], CFail)
      else
      let '(w1, res) := cl_write_block (cr_w st) block data io short in
      match res with
      | None => (mkCR w1 (cr_ack st) (cr_total st) (cr_time st), [], CFail)
      | Some (written, index, blk) =>
          let total := match written with Some n => cr_total st + n | None => cr_total st end in
          let due := ack_due o (cr_ack st) index written in
          if due && negb sock_ok then (mkCR w1 (cr_ack st) total (cr_time st), [], CFail)
          else
            (mkCR w1 (if due then index else cr_ack st) total (cr_time st),
             when due [to_bytes (PAck blk)],
             if negb (blen buf =? bs_enc o) then CDone (blen buf) else CRun)
      end
  | _ => (st, [], CRun)
  end.
