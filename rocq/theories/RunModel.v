(** The two client functions as a whole, and what they do to the files of the machine they run on:
    src/client/receiver.rs 48-259 receive_file and src/client/sender.rs 53-338 send_file, with
    create_writer and create_reader of std-binary/src/io.rs 32-53 and the optional encryption of the
    local file (std-binary/src/encryption_io.rs 23-56).

    A run is a sequence of turns of their loops.  Left out: log output, metrics, the rate control of
    send_file (FlowModel; here only its decision to send again, an input). *)
From Verif Require Import Base PacketModel MapperModel ReaderModel ConfigModel CryptoModel ExtModel PathModel ConnModel
  ConnSpec ClientModel HandshakeModel ClientWaitModel StreamModel WorldModel FsModel FsServerModel DiskModel.
From Verif Require CliModel.

(** What the two functions are started with: the arguments (CliModel.client_start), what create_initial_keys
    and create_encryptor_with_auth_keys draw, the nonce drawn for the local file (encryption_io.rs 45), and
    the texts of errors. *)
Record run_cfg := mkRun {
  ru_c : crypto; ru_start : CliModel.client_start; ru_eph : bytes; ru_hs : bytes; ru_iv : bytes;
  ru_txt : list ext -> bytes }.
(** std-binary/src/receiver.rs 23-103, std-binary/src/sender.rs 27-106: the options of the command line. *)
Definition ru_opts (g : run_cfg) : options := CliModel.cl_opts (ru_start g).

(** core::net::SocketAddr: equality, and equality of the IP address.  src/client/connection.rs 202-208. *)
Definition same_ip (a b : CliModel.addr) : bool :=
  Bool.eqb (CliModel.ad_v6 a) (CliModel.ad_v6 b) && beq (CliModel.ad_host a) (CliModel.ad_host b).
(** src/client/connection.rs 89, src/client/receiver.rs 182-188, src/client/sender.rs 263-267. *)
Definition same_addr (a b : CliModel.addr) : bool := same_ip a b && (CliModel.ad_port a =? CliModel.ad_port b).

(** What Socket::recv_from returns.  src/client/encryption_socket.rs 65-91. *)
Inductive rev_ := RvFrom (src : CliModel.addr) (wire : bytes) | RvBlock | RvError.
(** The surroundings of a turn: what arrives, the time, whether the local file fails or takes only a
    part of a write, whether the socket sends, the text of an error packet.
    No code of its own; used by src/client/receiver.rs 48-259. *)
Record rin := mkRin { ri_ev : rev_; ri_now : N; ri_io : bool; ri_short : option N; ri_sock : bool; ri_text : bytes }.

(** ** The start: receiver.rs 69-95, sender.rs 92-135. *)
(** The configuration of the wait for the first answer, the client's keys, the options asked for.
    [size]: file_size of the options (sender.rs 87-90). *)
Definition run_ask (g : run_cfg) (write : bool) (o : options) : option (wcfg * option client_keys * exts) :=
  let st := ru_start g in
  match create_max_buffer (op_bs o) with
  | Ok n =>
      let '(s, keys, o1) := create_initial_socket (ru_c g) (CliModel.cl_cfg st) o (ru_eph g) (ru_hs g) in
      match create_extensions (ru_c g) o1 keys with
      | Ok ex => Some (mkWC (ru_c g) (CliModel.cl_cfg st) s write o1 (CliModel.cl_timeout st) n (ru_txt g), keys, ex)
      | _ => None
      end
  | _ => None
  end.
(** connection.rs 200-211: one turn of the wait, with addresses. *)
Definition wait_ev (g : run_cfg) (e : rev_) : wev :=
  match e with
  | RvFrom src wire => WvFrom (same_ip src (CliModel.cl_endpoint (ru_start g))) (same_addr src (CliModel.cl_endpoint (ru_start g))) wire
  | RvBlock => WvBlock
  | RvError => WvError
  end.
(** Where an answer came from: connection.rs 85, 103. *)
Definition answerer (g : run_cfg) (e : rev_) : CliModel.addr :=
  match e with RvFrom src _ => src | _ => CliModel.cl_endpoint (ru_start g) end.
(** The packet that asks for the file.
    src/client/receiver.rs 82-101, src/client/sender.rs 101-120, src/client/connection.rs 69-88. *)
Definition asking (g : run_cfg) (write : bool) (used : exts) : bytes :=
  let r := mkReq (CliModel.cl_remote (ru_start g)) used in to_bytes (if write then PWrite r else PRead r).
(** encryption_socket_builder.rs 58-87; receiver.rs 108-114, 255, sender.rs 125-131, 319-322: the client's
    side of the agreed transfer, and the key that is reported in the end. *)
Definition agreed (g : run_cfg) (wc : wcfg) (keys : option client_keys) (q : qdone) : cside :=
  mkCside (configure_socket (ru_c g) (wc_sock wc) keys (q_opts q) (q_keys q)) (q_opts q)
    (CliModel.cl_max_size (ru_start g)) (CliModel.cl_timeout (ru_start g)).
(** src/client/receiver.rs 253, src/client/sender.rs 325-328. *)
Definition auth_key (q : qdone) : option bytes :=
  match q_keys q with Some p => kp_auth p | None => None end.

(** Packets are handed to the socket, which encrypts them (CryptoModel.client_send), for an address.
    src/client/encryption_socket.rs 93-134. *)
Record sent := mkSent { sn_sock : csock; sn_to : CliModel.addr; sn_plain : bytes }.
(** src/client/encryption_socket.rs 93-134. *)
Definition sends (s : csock) (to : CliModel.addr) (l : list bytes) : list sent := map (mkSent s to) l.

(** ** receive_file *)
(** io.rs 32-42 create_writer: File::create opens for writing, creating the file or emptying it. *)
Definition create_writer (f : fs) (path : bytes) : fs * option N :=
  match open_path false f (parse_path path) with
  | (f', Some (_, id)) => (set_data f' id [], Some id)
  | (f', None) => (f', None)
  end.
(** The local file: its number, the place the handle has reached, and the decrypting writer if there is
    one (encryption_io.rs 23-36). *)
Record sink := mkSink { sk_id : N; sk_pos : N; sk_stream : option swritr }.
(** Write::write on it.
    std::fs::File as used in std-binary/src/io.rs 33-43; src/writers/encrypted_stream_writer.rs 40-100. *)
Definition sink_write (c : crypto) (f : fs) (s : sink) (data : bytes) (io : bool) (short : option N)
  : fs * sink * res unit N :=
  let put (part : bytes) := set_data f (sk_id s) (write_at (f_data f (sk_id s)) (sk_pos s) part) in
  match sk_stream s with
  | None =>
      if io then (f, s, Err tt)
      else
        let part := match short with Some n => takeN n data | None => data end in
        (put part, mkSink (sk_id s) (sk_pos s + blen part) None, Ok (blen part))
  | Some w =>
      let '(w', r) := sw_write c w data io short in
      let part := dropN (blen (sw_out w)) (sw_out w') in
      (put part, mkSink (sk_id s) (sk_pos s + blen part) (Some w'),
       match r with Ok n => Ok n | Err _ => Err tt | Panic => Panic end)
  end.
(** single_block_writer.rs 30-58: the data of a packet reach the file only if it is the next block. *)
Definition for_file (w : writer) (p : bytes) : option bytes :=
  match from_bytes p with
  | Ok (PData block data) => match snd (write_block w block data false None) with Ok _ => Some data | _ => None end
  | _ => None
  end.
(** What the file is handed, and how it answers: [io] and [short] as ReaderModel.write_block has them.
    src/client/receiver.rs 262-285. *)
Definition store (c : crypto) (f : fs) (s : sink) (data : option bytes) (i : rin) : fs * sink * bool * option N :=
  match data with
  | None => (f, s, ri_io i, None)
  | Some d =>
      let '(f', s', r) := sink_write c f s d (ri_io i) (ri_short i) in
      match r with
      | Ok n => (f', s', false, if n =? blen d then None else Some n)
      | _ => (f', s', true, None)
      end
  end.

(** Where a run is: asking; receiving (the agreed parameters, the address that answered, the key to report, the
    local file, the loop's variables); the result.  src/client/receiver.rs 48-259. *)
Inductive rphase :=
| RAsk (w : wstate)
| RGet (k : cside) (from : CliModel.addr) (key : option bytes) (s : sink) (st : crecv)
| RDone (total : N) (key : option bytes)
| RFailed.
(** src/client/receiver.rs 48-259 with the files of the machine. *)
Record rprog := mkRP { rp_fs : fs; rp_ph : rphase }.

(** receiver.rs 116-177: the server has accepted. *)
Definition receive_accepted (g : run_cfg) (k : cside) (key : option bytes) (from : CliModel.addr) (q : qdone) (f : fs) (i : rin)
  : rprog * list sent :=
  match create_writer f (CliModel.cl_local (ru_start g)) with
  | (f1, None) => (mkRP f1 RFailed, [])
  | (f1, Some id) =>
      let s0 := mkSink id 0 (option_map sw_new (CliModel.cl_file_key (ru_start g))) in
      let '(f2, s1, (st, plain, stat)) :=
        match q_data q with
        | Some p =>
            let data := if cl_size_ok (blen p) (k_max k) then for_file writer_new p else None in
            let '(f2, s1, io, short) := store (ru_c g) f1 s0 data i in
            (f2, s1, recv_first (k_opts k) (k_max k) (crecv_new (ri_now i)) p io short (ri_sock i) (ri_text i))
        | None => (f1, s0, (crecv_new (ri_now i), [], CRun))
        end in
      let out := sends (k_sock k) from plain in
      match stat with
      | CDone total => (mkRP f2 (RDone total None), out)
      | CFail => (mkRP f2 RFailed, out)
      | CRun =>
          if match op_size (k_opts k) with Some n => cl_size_ok n (k_max k) | None => true end then
            let acks := when (q_ack q) [to_bytes (PAck 0)] in
            if q_ack q && negb (ri_sock i) then (mkRP f2 RFailed, out)
            else (mkRP f2 (RGet k from key s1 (mkCR (cr_w st) (cr_ack st) (cr_total st) (ri_now i))), out ++ sends (k_sock k) from acks)
          else (mkRP f2 RFailed, out ++ sends (k_sock k) from (when (ri_sock i) [to_bytes (PError DiskFull (ri_text i))]))
      end
  end.

(** receiver.rs 179-259: one iteration; EvDatagram's flag: sent from the address that answered. *)
Definition get_ev (from : CliModel.addr) (e : rev_) : cev :=
  match e with
  | RvFrom src wire => EvDatagram (same_addr src from) wire
  | RvBlock => EvWouldBlock
  | RvError => EvSocketError
  end.
(** src/client/receiver.rs 205-225: the data of a block that is to be stored. *)
Definition get_data (dec : bytes -> option bytes) (w : writer) (e : cev) : option bytes :=
  match e with
  | EvDatagram true wire => match dec wire with Some p => for_file w p | None => None end
  | _ => None
  end.

(** One turn of receive_file: the run afterwards, the packets handed to the socket.
    src/client/receiver.rs 84-170 (asking, first packet), 179-259 (receiving). *)
Definition receive_turn (g : run_cfg) (wc : wcfg) (keys : option client_keys) (p : rprog) (i : rin)
  : rprog * list sent :=
  let f := rp_fs p in
  match rp_ph p with
  | RAsk w =>
      let ask := sends (wc_sock wc) (CliModel.cl_endpoint (ru_start g)) (when (ri_sock i) [asking g false (ws_used w)]) in
      match wait_turn wc w (mkWI (ri_sock i) (wait_ev g (ri_ev i)) (ri_now i)) with
      | WoWaiting w' => (mkRP f (RAsk w'), ask)
      | WoDone q _ =>
          match ri_ev i with
          | RvFrom src _ =>
              let '(p', out) := receive_accepted g (agreed g wc keys q) (auth_key q) src q f i in (p', ask ++ out)
          | _ => (mkRP f RFailed, ask)
          end
      | WoRefuse e => (mkRP f RFailed, ask ++ sends (wc_sock wc) (answerer g (ri_ev i)) [to_bytes e])
      | WoFail | WoTimeout | WoPanic => (mkRP f RFailed, ask)
      end
  | RGet k from key s st =>
      let dec := client_dec (ru_c g) (k_sock k) (op_bs (k_opts k)) in
      let e := get_ev from (ri_ev i) in
      let '(f', s', io, short) := store (ru_c g) f s (get_data dec (cr_w st) e) i in
      let '(st', plain, stat) :=
        recv_step dec (k_opts k) (k_max k) (k_timeout k) st e (ri_now i) io short (ri_sock i) (ri_text i) in
      (mkRP f' (match stat with
                | CRun => RGet k from key s' st'
                | CDone total => RDone total key
                | CFail => RFailed
                end), sends (k_sock k) from plain)
  | RDone _ _ | RFailed => (p, [])
  end.

(** ** send_file *)
(** io.rs 44-53 create_reader: File::open; a directory can be opened, but not read. *)
Definition create_reader (f : fs) (path : bytes) : option source :=
  match realpath f (parse_path path) with
  | Some q => if f_perm f q then match at_ f q with Some (NFile id) => Some (SFile id) | Some NDir => Some SDir | _ => None end else None
  | None => None
  end.
(** sender.rs 86-90: the size is announced unless it is 0; with encryption of the local file it is unknown
    (encryption_io.rs 49-51). *)
Definition send_opts (g : run_cfg) (size : option N) : options :=
  match size with Some n => if 0 <? n then set_size (ru_opts g) (Some n) else ru_opts g | None => ru_opts g end.
(** What is read from the local file: its contents, or what the encrypting reader makes of them when it is
    read in blocks of [len] bytes ([fuel]: number of blocks; StreamModel).
    src/readers/encrypted_stream_reader.rs 40-90. *)
Fixpoint sealed_blocks (fuel : nat) (c : crypto) (file : bytes) (len : N) (s : sreadr) : bytes :=
  match fuel with
  | O => []
  | S n => match sr_read c file s len false None with
           | (s', Ok b) => b ++ (if blen b <? len then [] else sealed_blocks n c file len s')
           | _ => []
           end
  end.
(** std-binary/src/sender.rs 27-106, std-binary/src/encryption_io.rs 38-55. *)
Definition read_as (g : run_cfg) (file : bytes) (len : N) : bytes :=
  match CliModel.cl_file_key (ru_start g) with
  | None => file
  | Some key => sealed_blocks (S (S (List.length file))) (ru_c g) file len (sr_new key (ru_iv g))
  end.

(** Where a run is.  src/client/sender.rs 55-338. *)
Inductive uphase :=
| UAsk (src : source) (w : wstate)
| USend (k : cside) (from : CliModel.addr) (key : option bytes) (src : source) (st : csend)
| UDone (total : N) (key : option bytes)
| UFailed.
(** sender.rs 80-113: the start: the keys, the file, the options.  The local file is opened before anything is
    sent; [dirsize]: the size a directory has. *)
Definition send_start (g : run_cfg) (f : fs) (dirsize now : N) : option (wcfg * option client_keys * uphase) :=
  match create_reader f (CliModel.cl_local (ru_start g)) with
  | None => None
  | Some src =>
      let size := match CliModel.cl_file_key (ru_start g) with Some _ => None | None => Some (source_size f dirsize src) end in
      match run_ask g true (send_opts g size) with
      | None => None
      | Some (wc, keys, ex) => Some (wc, keys, UAsk src (wait_init wc ex now))
      end
  end.
(** src/client/receiver.rs 48-101, std-binary/src/receiver.rs 23-103. *)
Definition receive_start (g : run_cfg) (now : N) : option (wcfg * option client_keys * rphase) :=
  match run_ask g false (ru_opts g) with
  | None => None
  | Some (wc, keys, ex) => Some (wc, keys, RAsk (wait_init wc ex now))
  end.

(** sender.rs 342-366 block_reader. *)
Definition file_reader (o : options) (prefer_seek : bool) : reader :=
  if (op_window o =? 1) && negb prefer_seek then RS (single_new (bs_enc o))
  else if prefer_seek then RK (seek_new (bs_enc o) (op_window o))
  else RM (multi_new (bs_enc o) (op_window o)).
(** multiple_block_seek_reader.rs 49-56, 77-81: a block is read again, which needs Seek::seek. *)
Definition reads_again (r : reader) (retry : bool) : bool :=
  match r with RK k => (retry && (k_conf k <? k_read k)) || (k_cur k <? k_read k) | _ => false end.
(** How reading goes: directories cannot be read (EISDIR), the encrypting reader cannot seek
    (encrypted_stream_reader.rs 90-95). *)
Definition read_io (g : run_cfg) (src : source) (r : reader) (retry : bool) (io : fio) : fio :=
  match src, CliModel.cl_file_key (ru_start g) with
  | SDir, _ => IoFail
  | _, Some _ => if reads_again r retry then IoFail else io
  | _, None => io
  end.

(** The surroundings of a turn of send_file: is it time to send again, the local file, sending (None:
    WouldBlock), what arrives, the time.  No code of its own; used by src/client/sender.rs 184-338. *)
Record sin := mkSin { si_retry : bool; si_io : fio; si_sock : option bool; si_ev : rev_; si_now : N }.

(** sender.rs 132-180: the server has accepted. *)
Definition send_accepted (k : cside) (from : CliModel.addr) (key : option bytes) (src : source) (seek ack sock : bool) (now : N)
  : uphase * list sent :=
  if ack && negb sock then (UFailed, [])
  else (USend k from key src (mkCS (file_reader (k_opts k) seek) 0 now), sends (k_sock k) from (when ack [to_bytes (PAck 0)])).

(** One turn of send_file: it reads the local files, and changes none.
    src/client/sender.rs 96-151 (asking), 184-338 (sending). *)
Definition send_turn (g : run_cfg) (wc : wcfg) (keys : option client_keys) (f : fs) (p : uphase) (i : sin)
  : uphase * list sent :=
  match p with
  | UAsk src w =>
      let sock := match si_sock i with Some true => true | _ => false end in
      let ask := sends (wc_sock wc) (CliModel.cl_endpoint (ru_start g)) (when sock [asking g true (ws_used w)]) in
      match wait_turn wc w (mkWI sock (wait_ev g (si_ev i)) (si_now i)) with
      | WoWaiting w' => (UAsk src w', ask)
      | WoDone q _ =>
          match si_ev i with
          | RvFrom from _ =>
              let '(p', out) := send_accepted (agreed g wc keys q) from (auth_key q) src
                                  (CliModel.cl_seek (ru_start g)) (q_ack q) sock (si_now i) in (p', ask ++ out)
          | _ => (UFailed, ask)
          end
      | WoRefuse e => (UFailed, ask ++ sends (wc_sock wc) (answerer g (si_ev i)) [to_bytes e])
      | WoFail | WoTimeout | WoPanic => (UFailed, ask)
      end
  | USend k from key src st =>
      let file := read_as g (content f (Some (Reads src))) (bs_enc (k_opts k)) in
      let buflen := N.max (op_bs (k_opts k) + DATA_PACKET_HEADER_SIZE) MIN_BUFFER_SIZE in
      let '(st1, plain, stat1) :=
        sender_send file st buflen (si_retry i) (read_io g src (cs_r st) (si_retry i) (si_io i)) (si_sock i) in
      match stat1 with
      | CRun =>
          let '(st2, stat2) := sender_recv (client_dec (ru_c g) (k_sock k) (op_bs (k_opts k))) (k_timeout k) st1
                                 (get_ev from (si_ev i)) (si_now i) in
          (match stat2 with
           | CRun => USend k from key src st2
           | CDone total => UDone total key
           | CFail => UFailed
           end, sends (k_sock k) from plain)
      | _ => (UFailed, sends (k_sock k) from plain)
      end
  | UDone _ _ | UFailed => (p, [])
  end.
