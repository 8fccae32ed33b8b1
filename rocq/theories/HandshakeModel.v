(** The first exchange of a transfer: src/server/connection_builder.rs,
    src/server/helpers/connection.rs 36-133 and the body of the accept loops
    (src/server/multi_thread.rs 143-202, src/server/single_thread.rs 263-330);
    src/client/encryption_socket_builder.rs and src/client/connection.rs 50-170. *)
From Verif Require Import Base PacketModel ReaderModel ConfigModel Base64Model CryptoModel ExtModel PathModel.

(** src/config.rs 9-65. *)
Definition MIN_BUFFER_SIZE : N := 516.
(** src/config.rs 16. *)
Definition MAX_BUFFER_SIZE : N := 1429.

(** src/buffer.rs 127-134 create_max_buffer: the length of the buffer; the u16 addition
    overflows only for block sizes for which the assertion fails anyway (a panic). *)
Definition create_max_buffer (bs : N) : res unit N :=
  let n := N.max (bs + DATA_PACKET_HEADER_SIZE) MIN_BUFFER_SIZE in
  if n <=? MAX_BUFFER_SIZE then Ok n else Panic.

(** ** Server *)

(** What the surroundings contribute to one request: the ephemeral secret and the nonce drawn,
    create_reader / create_writer ([None]: fails; the size is only used by readers),
    create_bound_socket, the socket's send and the texts of errors (src/error.rs 222-246). *)
Record henv := mkHenv {
  h_eph : bytes; h_nonce : bytes; h_open : bytes -> option (option N);
  h_bind : bool; h_send : bool; h_text : ext_err -> bytes }.

(** connection_builder.rs 70-114 from_new_connection: the request's bytes, the handshake key,
    the initial options. *)
Definition from_new_connection (c : crypto) (cfg : scfg) (buf : bytes) : bytes * option bytes * options :=
  match sc_key cfg with
  | None => (buf, None, default_options)
  | Some sk =>
      match parse_initial buf with
      | None => (buf, None, default_options)
      | Some p =>
          let key := c_dh c (c_scalar c sk) (snd p) in
          match dec_initial c key p with
          | Ok data => (data, Some key, set_enc default_options LFull)
          | _ => (buf, None, default_options)
          end
      end
  end.

(** connection_builder.rs 336-379 reply_with_error: the datagram sent, if any.  Here the
    expected size is the usable block size without the header. *)
Definition reply_with_error (c : crypto) (cfg : scfg) (o : options) (hs : option bytes) (env : henv)
    (p : packet) : option bytes :=
  if sc_err_auth cfg then None
  else match hs with
       | Some k => match enc_packet c k (h_nonce env) (to_bytes p) (bs_enc o) with
                   | Ok w => Some w
                   | _ => None
                   end
       | None => Some (to_bytes p)
       end.

(** src/server/readers_available.rs: which kinds are available (single, multi, seek).  Lines 2-55. *)
Record avail := mkAv { av_single : bool; av_multi : bool; av_seek : bool }.
(** readers_available.rs 10-19 ReadersAvailable::all (feature seek). *)
Definition av_all : avail := mkAv true true true.

(** connection_builder.rs 381-423 block_reader (feature seek). *)
Definition block_reader (o : options) (av : avail) (prefer_seek : bool) : option reader :=
  if prefer_seek && av_seek av then Some (RK (seek_new (bs_enc o) (op_window o)))
  else if (op_window o =? 1) && av_single av then Some (RS (single_new (bs_enc o)))
  else if av_multi av then Some (RM (multi_new (bs_enc o) (op_window o)))
  else if av_seek av then Some (RK (seek_new (bs_enc o) (op_window o)))
  else None.

(** src/server/connection.rs 106-127 send_packet: the datagram; [buflen] is the length of the
    buffer handed in.  to_buffer succeeds iff the encoding fits (theorem to_buffer_exact). *)
Definition send_packet (c : crypto) (o : options) (key : option bytes) (buflen : N) (env : henv)
    (p : packet) : option bytes :=
  if blen (to_bytes p) <=? N.max buflen (DATA_PACKET_HEADER_SIZE + op_bs o) then
    match server_encrypt c o key (opcode p =? T_DATA) (h_nonce env) (to_bytes p) with
    | Ok w => if h_send env then Some w else None
    | _ => None
    end
  else None.

(** An established transfer: file opened, options, encryptor key, the block reader.
    src/server/connection_builder.rs 136-334: what build_reader and build_writer return. *)
Record est := mkEst {
  es_write : bool; es_path : bytes; es_opts : options; es_key : option bytes; es_reader : option reader }.

(** Outcome of a datagram from a peer without connection; replies are datagrams.
    src/server/single_thread.rs 256-347, src/server/multi_thread.rs 149-213. *)
Inductive sout :=
| SPanic
| SRefused (reply : option bytes)
| SAccepted (e : est) (reply : option bytes).

(** helpers/connection.rs 68-133 accept_connection; [buflen]: length of the receive buffer. *)
Definition accept_connection (c : crypto) (env : henv) (buflen : N) (e : est) (used : exts)
    (keys : option session_keys) : sout :=
  let final := match keys with
               | Some k => mkEst (es_write e) (es_path e) (es_opts e)
                             (Some (c_dh c (sk_secret k) (sk_remote k))) (es_reader e)
               | None => e
               end in
  let answer p := match send_packet c (es_opts e) (es_key e) buflen env p with
                  | Some w => SAccepted final (Some w)
                  | None => SRefused None
                  end in
  if 0 <? ext_len used then answer (POack used)
  else if es_write e then answer (PAck 0)
  else SAccepted final None.

(** connection_builder.rs 166-177, 251-264: the file cannot be opened; the requested name is
    cut to 100 bytes for the message. *)
Definition open_failed (c : crypto) (cfg : scfg) (o : options) (hs : option bytes) (env : henv)
    (what name : bytes) : sout :=
  match ensure_size name 100 with
  | Ok n => SRefused (reply_with_error c cfg o hs env (PError DiskFull (what ++ n)))
  | _ => SPanic
  end.

(** connection_builder.rs 136-216 build_writer followed by accept_connection. *)
Definition build_writer (c : crypto) (cfg : scfg) (env : henv) (buflen : N) (hs : option bytes)
    (name : bytes) (used : exts) (o : options) (keys : option session_keys) : sout :=
  match validate_request_options (sc_max_size cfg) name (op_size o) with
  | Panic => SPanic
  | Err e => SRefused (Some (to_bytes e))
  | Ok path =>
      match h_open env path with
      | None => open_failed c cfg o hs env (s2b "Unable to write file ") name
      | Some _ =>
          if h_bind env
          then accept_connection c env buflen (mkEst true path o hs None) used keys
          else SRefused None
      end
  end.

(** connection_builder.rs 266-281: the size option is answered with the size of the file. *)
Definition answer_size (size : option N) (used : exts) : exts :=
  match ext_get used TransferSize, size with
  | Some _, Some s => if 0 <? s then ext_insert used TransferSize (show_num s) else used
  | Some _, None => ext_remove used TransferSize
  | None, _ => used
  end.

(** connection_builder.rs 218-334 build_reader followed by accept_connection. *)
Definition build_reader (c : crypto) (cfg : scfg) (env : henv) (av : avail) (buflen : N) (hs : option bytes)
    (name : bytes) (used : exts) (o : options) (keys : option session_keys) : sout :=
  match validate_request_options (sc_max_size cfg) name (op_size o) with
  | Panic => SPanic
  | Err e => SRefused (Some (to_bytes e))
  | Ok path =>
      match h_open env path with
      | None => open_failed c cfg o hs env (s2b "Unable to read file ") name
      | Some size =>
          let o := set_size o size in
          let used := answer_size size used in
          if h_bind env then
            match block_reader o av (sc_seek cfg) with
            | Some r => accept_connection c env buflen (mkEst false path o hs (Some r)) used keys
            | None => SRefused (reply_with_error c cfg o hs env
                                  (PError DiskFull (s2b "Server resources busy")))
            end
          else SRefused None
      end
  end.

(** multi_thread.rs 143-202: one datagram from a peer without connection (helpers/connection.rs
    36-66 handle_packet, connection_builder.rs 116-134 with_request).  A failing with_request
    leaves the builder's options as they were. *)
Definition server_new (c : crypto) (cfg : scfg) (env : henv) (av : avail) (datagram : bytes) : sout :=
  let '(buf, hs, o0) := from_new_connection c cfg datagram in
  let serve (write : bool) (r : request) :=
    match server_parse c cfg (sc_max_window cfg) (h_eph env) (rq_exts r) o0 with
    | Panic => SPanic
    | Err e => SRefused (reply_with_error c cfg o0 hs env (PError IllegalOperation (h_text env e)))
    | Ok (used, o, keys) =>
        if write then build_writer c cfg env (blen buf) hs (rq_name r) used o keys
        else build_reader c cfg env av (blen buf) hs (rq_name r) used o keys
    end in
  match from_bytes buf with
  | Ok (PWrite r) => serve true r
  | Ok (PRead r) => serve false r
  | _ => SRefused None
  end.

(** multi_thread.rs 92, 112-116: the receive buffer cuts longer datagrams. *)
Definition server_receive (cfg : scfg) (d : bytes) : res unit bytes :=
  match create_max_buffer (sc_max_bs cfg) with
  | Ok n => Ok (takeN n d)
  | Err e => Err e
  | Panic => Panic
  end.

(** ** Client *)

(** src/client/config.rs 9-19 ClientConfig, the fields used here. *)
Record ccfg := mkCcfg { cc_key : option bytes; cc_remote : option bytes; cc_port_change : bool }.

(** encryption_socket_builder.rs 17-56 create_initial_socket.  [eph] is the secret drawn by
    create_initial_keys, [hs] the one drawn by create_encryptor_with_auth_keys. *)
Definition create_initial_socket (c : crypto) (cfg : ccfg) (o : options) (eph hs : bytes)
  : csock * option client_keys * options :=
  if level_eqb (op_enc o) LNone then (mkSock None LNone None (op_bs o), None, o)
  else
    let keys := mkCK eph (cc_key cfg) in
    match cc_remote cfg with
    | Some vk =>
        let o := match op_enc o with LProtocol => set_enc o LFull | _ => o end in
        (mkSock (Some (c_dh c hs (c_mont c vk))) (op_enc o) (Some (c_pub c hs)) (op_bs o), Some keys, o)
    | None => (mkSock None LNone None (op_bs o), Some keys, o)
    end.

(** client/connection.rs 29-35 QueryResult: first data packet, send an ack, options, keys. *)
Record qdone := mkQ { q_data : option bytes; q_ack : bool; q_opts : options; q_keys : option key_pair }.
(** src/client/connection.rs 98-168. *)
Inductive qres :=
| QRetry                          (* again, without options *)
| QFail (reply : option packet)   (* give up; maybe an error packet is sent first *)
| QDone (d : qdone).

(** config.rs 88-97 with_block_size. *)
Definition with_block_size (o : options) (b : N) : options := set_bs o b.

(** client/connection.rs 88-167: what is done with the first reply [p] (decrypted); [same_port]:
    it came from the configured endpoint; [used]: the options of the last request.  The error
    text of validate_extensions (extensions.rs 40-48) is [txt]. *)
Definition query_step (c : crypto) (cfg : ccfg) (write : bool) (initial : bool) (o : options) (used : exts)
    (same_port : bool) (txt : list ext -> bytes) (p : bytes) : qres :=
  if negb same_port && negb (cc_port_change cfg) then QFail None
  else match from_bytes p with
  | Ok (POack se) =>
      match unasked se used with
      | [] =>
          match client_parse c se o with
          | Ok (o2, kp) =>
              let expected := match cc_key cfg, cc_remote cfg with
                              | Some _, Some vk => Some vk
                              | _, _ => None
                              end in
              if negb (level_eqb (op_enc o2) LNone) &&
                 match expected with
                 | None => false
                 | Some vk => match kp with
                              | Some (mkKP (Some a) _) => negb (beq a vk)
                              | _ => true
                              end
                 end
              then QFail None
              else QDone (mkQ None true o2 kp)
          | _ => QFail None
          end
      | names => QFail (Some (PError IllegalOperation (txt names)))
      end
  | Ok (PAck _) =>
      if write then QDone (mkQ None false (with_block_size o DEFAULT_DATA_BLOCK_SIZE) None) else QFail None
  | Ok (PData _ _) =>
      if write then QFail None
      else QDone (mkQ (Some p) false (with_block_size o DEFAULT_DATA_BLOCK_SIZE) None)
  | Ok (PError code _) =>
      if match code with IllegalOperation | Undefined => true | _ => false end
         && initial && level_eqb (op_enc o) LNone
      then QRetry else QFail None
  | _ => QFail None
  end.

(** encryption_socket_builder.rs 58-87 configure_socket. *)
Definition configure_socket (c : crypto) (s : csock) (keys : option client_keys) (o : options)
    (kp : option key_pair) : csock :=
  let s := match op_enc o, keys, kp with
           | (LProtocol | LData | LFull), Some k, Some p =>
               mkSock (Some (c_dh c (ck_secret k) (kp_session p))) (op_enc o)
                 (Some (c_pub c (ck_secret k))) (cs_bs s)
           | _, _, _ => s
           end in
  mkSock (cs_key s) (cs_level s) (cs_pk s) (bs_enc o).

(** client/sender.rs 92-135, client/receiver.rs 69-95, client/connection.rs 64-86: the request
    datagram of a client. *)
Definition client_request (c : crypto) (cfg : ccfg) (o : options) (eph hs nonce : bytes) (write : bool)
    (name : bytes) : res unit (bytes * csock * option client_keys * options * exts) :=
  match create_max_buffer (op_bs o) with
  | Ok _ =>
      let '(s, keys, o1) := create_initial_socket c cfg o eph hs in
      match create_extensions c o1 keys with
      | Ok ex =>
          let r := mkReq name ex in
          match client_send c s nonce (to_bytes (if write then PWrite r else PRead r)) with
          | Ok d => Ok (d, s, keys, o1, ex)
          | Err e => Err e
          | Panic => Panic
          end
      | _ => Panic
      end
  | _ => Panic
  end.

(** client/sender.rs 92, client/receiver.rs 69, client/connection.rs 80: the client's receive
    buffer for the first reply (the panic is excluded by [client_request]). *)
Definition client_receive (o : options) (d : bytes) : res unit bytes :=
  match create_max_buffer (op_bs o) with
  | Ok n => Ok (takeN n d)
  | Err e => Err e
  | Panic => Panic
  end.
