(** Server side of a running transfer: src/server/connection.rs,
    src/server/helpers/{read,write,connection}.rs, src/server/validation.rs 45-59.

    Datagrams are byte strings.  Decryption (Connection::decrypt_packet,
    src/server/connection.rs 70-104) is a parameter [dec]: wire bytes to plaintext, [None]
    when it fails; at level none it is [Some].  The functions return the plaintext
    datagrams handed to Connection::send_bytes (106-158); encryption happens there.
    [sock_ok] tells whether encryption and the socket's send succeed.
    Instants are numbers of milliseconds; [now] is the time of the call.
    Error texts are a parameter [txt]. *)
From Verif Require Import Base PacketModel MapperModel ReaderModel ConfigModel.

(** src/server/connection.rs 39-58 Connection (socket, encryptor, endpoint and metrics left out). *)
Record conn := mkConn {
  c_opts : options; c_updated : N; c_acked : N; c_sent : N;
  c_transfer : N; c_mult : N; c_finished : bool; c_invalid : option N }.

(** Fields as set by src/server/connection_builder.rs 186-210, 301-322 for a new connection. *)
Definition conn_new (o : options) (now : N) : conn := mkConn o now 0 now 0 1 false None.

(** Record update; src/server/connection.rs 39-59. *)
Definition set_mult (c : conn) (m : N) : conn :=
  mkConn (c_opts c) (c_updated c) (c_acked c) (c_sent c) (c_transfer c) m (c_finished c) (c_invalid c).
(** Record update; src/server/connection.rs 39-59. *)
Definition set_sent (c : conn) (t : N) : conn :=
  mkConn (c_opts c) (c_updated c) (c_acked c) t (c_transfer c) (c_mult c) (c_finished c) (c_invalid c).
(** Record update; src/server/connection.rs 39-59. *)
Definition set_invalid (c : conn) (t : N) : conn :=
  mkConn (c_opts c) (c_updated c) (c_acked c) (c_sent c) (c_transfer c) (c_mult c) (c_finished c) (Some t).
(** Record update; src/server/connection.rs 39-59. *)
Definition set_finished (c : conn) : conn :=
  mkConn (c_opts c) (c_updated c) (c_acked c) (c_sent c) (c_transfer c) (c_mult c) true (c_invalid c).
(** Record update; src/server/connection.rs 39-59. *)
Definition set_acked (c : conn) (i : N) : conn :=
  mkConn (c_opts c) (c_updated c) i (c_sent c) (c_transfer c) (c_mult c) (c_finished c) (c_invalid c).
(** Record update; src/server/connection.rs 39-59. *)
Definition set_progress (c : conn) (t n : N) : conn :=
  mkConn (c_opts c) t (c_acked c) (c_sent c) (c_transfer c + n) (c_mult c) (c_finished c) (c_invalid c).

(** NonZeroU8::saturating_add. *)
Definition sat_add (a b : N) : N := N.min 255 (a + b).

(** Helper: what leaves when the socket works (src/server/connection.rs 106-159). *)
Definition when (b : bool) (l : list bytes) : list bytes := if b then l else [].

(** read.rs 31-45: the retry decision.  Duration::mul_f32 is taken to be exact. *)
Definition retry_due (c : conn) (now : N) : bool :=
  op_retry (c_opts c) * c_mult c <? now - c_sent c.

(** src/server/helpers/read.rs 25-85 send_data_block.  [buflen] is the length of the send
    buffer on entry.  prepend_data_header plus truncate (lines 74-80) produce the encoding
    of the data packet. *)
Definition send_data_block (file : bytes) (c : conn) (r : reader) (buflen now : N)
    (io sock_ok : bool) (txt : bytes) : conn * reader * list bytes * bool :=
  let retry := retry_due c now in
  let c1 := if retry then set_mult c (sat_add (c_mult c) 2) else c in
  let len := N.max buflen (DATA_PACKET_HEADER_SIZE + op_bs (c_opts c)) in
  let '(r1, res) := reader_next file r (len - DATA_PACKET_HEADER_SIZE) retry io in
  match res with
  | Ok (Some b) =>
      (if sock_ok then set_sent c1 now else c1, r1,
       when sock_ok [to_bytes (PData (o_block b) (o_data b))], sock_ok)
  | Ok None => (c1, r1, [], false)
  | Err RInvalidBuffer =>
      (set_invalid c1 now, r1,
       when sock_ok [to_bytes (PError Undefined (s2b "Storage error occurred"))], false)
  | Err RFile => (set_invalid c1 now, r1, when sock_ok [to_bytes (PError AccessViolation txt)], false)
  | Panic => (c1, r1, [], false)
  end.

(** src/server/helpers/read.rs 87-145 handle_read.  The third component is [None] if
    free_block panics.  Simplification: the check of the packet type (97-104) before decoding
    is contained in the match on the decoded packet. *)
Definition handle_read (dec : bytes -> option bytes) (c : conn) (r : reader) (wire : bytes) (now : N)
  : conn * reader * option unit :=
  match dec wire with
  | None => (c, r, Some tt)
  | Some p =>
      match from_bytes p with
      | Ok (PAck block) =>
          let '(r1, freed) := reader_free r block in
          match freed with
          | None => (c, r1, None)
          | Some n =>
              let c1 := if 0 <? n
                        then set_mult (set_progress c now n) (if 0 <? c_mult c - 1 then c_mult c - 1 else 1)
                        else c in
              (if reader_finished r1 then set_finished c1 else c1, r1, Some tt)
          end
      | Ok (PError _ _) => (set_invalid c now, r, Some tt)
      | _ => (c, r, Some tt)
      end
  end.

(** src/server/validation.rs 45-59 handle_file_size: true = within the limit. *)
Definition size_ok (received max : N) : bool := negb (max <? received).

(** src/server/helpers/write.rs 129-162 write_block: (bytes written, index, block to
    acknowledge); [None] is a storage error. *)
Definition srv_write_block (w : writer) (block : N) (data : bytes) (io : bool) (short : option N)
  : writer * option (option N * N * N) :=
  let '(w1, res) := write_block w block data io short in
  (w1, match res with
       | Ok (n, i) => Some (Some n, i, block)
       | Err (ExpectedBlock cur i) => Some (None, i, cur)
       | Err (AlreadyWritten cur i) => Some (None, i, cur)
       | Err WFile => None
       | Panic => None
       end).

(** The acknowledgement rule, write.rs 93-96 (and client/receiver.rs 233-236, 133-136). *)
Definition ack_due (o : options) (last index : N) (written : option N) : bool :=
  (op_window o <=? 1) || (last + op_window o =? index)
  || (match written with Some n => n | None => 0 end <? bs_enc o).

(** src/server/helpers/write.rs 23-127 handle_write. *)
Definition handle_write (dec : bytes -> option bytes) (c : conn) (w : writer) (wire : bytes)
    (now max : N) (io : bool) (short : option N) (sock_ok : bool) (txt : bytes)
  : conn * writer * list bytes :=
  match dec wire with
  | None => (c, w, [])
  | Some p =>
      match from_bytes p with
      | Ok (PData block data) =>
          let '(w1, res) := srv_write_block w block data io short in
          match res with
          | None => (set_invalid c now, w1, when sock_ok [to_bytes (PError AccessViolation txt)])
          | Some (written, index, blk) =>
              if match written with Some n => negb (size_ok (c_transfer c + n) max) | None => false end
              then (set_invalid c now, w1, when sock_ok [to_bytes (PError DiskFull txt)])
              else
                let due := ack_due (c_opts c) (c_acked c) index written in
                let c1 := if due && sock_ok then set_acked c index else c in
                let c2 := match written with
                          | Some n =>
                              let c' := set_progress c1 now n in
                              if n <? bs_enc (c_opts c) then set_finished c' else c'
                          | None => c1
                          end in
                (c2, w1, when (due && sock_ok) [to_bytes (PAck blk)])
          end
      | Ok (PError _ _) => (set_invalid c now, w, [])
      | _ => (c, w, [])
      end
  end.

(** src/server/helpers/connection.rs 135-164 timeout_client: should the connection be
    dropped, and what is sent. *)
Definition timeout_client (c : conn) (timeout now : N) (sock_ok : bool) (txt : bytes) : bool * list bytes :=
  if match c_invalid c with Some _ => true | None => false end || c_finished c then (true, [])
  else if now - c_updated c <=? timeout then (false, [])
  else (true, when sock_ok [to_bytes (PError AccessViolation txt)]).
