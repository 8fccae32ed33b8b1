(** The programs' start-up: from the command line to the configuration of the client and the server
    (std-binary/src/cli.rs, config.rs, sender.rs, receiver.rs, socket.rs 32-60 and
    encryption_io.rs 57-80).  Default features (alloc, encryption, seek), not Windows.  The syntax of
    the command line is not modelled: a record of arguments is what clap hands over. *)
From Verif Require Import Base Base64Model KeyFileModel PathModel ConfigModel CryptoModel ExtModel HandshakeModel FsModel.

(** The surroundings: addresses of a text "host:port" ([None]: it cannot be resolved), the content
    of the file with a name ([None]: it cannot be opened or read).
    core::net::SocketAddr; std-binary/src/socket.rs 32-60. *)
Record addr := mkAddr { ad_v6 : bool; ad_host : bytes; ad_port : N }.
(** No code of its own; used by std-binary/src/socket.rs 32-60, std-binary/src/encryption_io.rs 57-80. *)
Record host := mkHost { ho_resolve : bytes -> option (list addr); ho_file : bytes -> option bytes }.

(** std::net::ToSocketAddrs, used in std-binary/src/socket.rs 32-60. *)
Definition COLON : N := 58.
(** std::net::ToSocketAddrs for str: a text without a colon is no address.
    Called in std-binary/src/socket.rs 32-60, std-binary/src/sender.rs 27-106, std-binary/src/receiver.rs 23-103. *)
Definition to_socket_addrs (h : host) (s : bytes) : option (list addr) :=
  if existsb (N.eqb COLON) s then ho_resolve h s else None.
(** std-binary/src/socket.rs 32-42. *)
Definition first_addr (h : host) (s : bytes) : option addr :=
  match to_socket_addrs h s with Some (a :: _) => Some a | _ => None end.

(** str::trim_end (encryption_io.rs 73). *)
Definition trim_end (l : bytes) : bytes := rev (trim_rev (rev l)).
(** BufRead::read_line: up to and with the first newline.  Called in std-binary/src/encryption_io.rs 57-80. *)
Fixpoint read_line (f : bytes) : bytes :=
  match f with
  | [] => []
  | b :: f' => if b =? NL then [b] else b :: read_line f'
  end.
(** encryption_io.rs 57-80 read_private_value_or_file: a text that is a key is taken as the key,
    otherwise it names a file with the key in its first line (which must be UTF-8, as read_line
    stores it in a String).  decode_signing_key (src/encryption.rs 365-367) is decode::<32>, as
    decode_public_key. *)
Definition read_private (h : host) (s : bytes) : option bytes :=
  match decode_public_key s with
  | Some k => Some k
  | None =>
      match ho_file h s with
      | Some f =>
          let line := read_line f in
          if utf8 line then decode_public_key (trim_end line) else None
      | None => None
      end
  end.
(** .as_deref().map(read_private_value_or_file).transpose(): [None] is an error.
    In std-binary/src/config.rs 22-88, 91-160. *)
Definition opt_private (h : host) (s : option bytes) : option (option bytes) :=
  match s with
  | None => Some None
  | Some t => match read_private h t with Some k => Some (Some k) | None => None end
  end.

(** [as u16]. *)
Definition as_u16 (n : N) : N := n mod 65536.
(** clap value_parser ranges of std-binary/src/cli.rs 28-184. *)
Definition in_range (lo hi n : N) : bool := (lo <=? n) && (n <=? hi).

(** src/config.rs 12, 37-40 (with alloc). *)
Definition MAX_BLOCK : N := 1425.
(** src/config.rs 36. *)
Definition MAX_CLIENTS : N := 5000.
(** src/config.rs 38. *)
Definition MAX_WINDOW : N := 1000.

(** ** Server *)

(** cli.rs 98-184 ServerCliConfig. *)
Record server_args := mkSA {
  sa_listen : bytes; sa_dir : bytes; sa_overwrite : bool; sa_max_conn : N; sa_max_window : N;
  sa_timeout : N; sa_max_size : N; sa_max_bs : N; sa_auth : option bytes; sa_key : option bytes;
  sa_full : option bool; sa_port_change : option bool; sa_seek : bool; sa_list : option bytes;
  sa_depth : N; sa_err_auth : option bool }.
(** cli.rs 109-132: the ranges clap insists on (inclusive). *)
Definition server_args_ok (a : server_args) : bool :=
  in_range 1 MAX_CLIENTS (sa_max_conn a) && in_range 1 MAX_WINDOW (sa_max_window a) &&
  in_range DEFAULT_DATA_BLOCK_SIZE MAX_BLOCK (sa_max_bs a).

(** src/server/config.rs 8-26 ServerConfig: the part used by the connections, the part used to open
    files, the listening address, max_connections and require_server_port_change. *)
Record server_start := mkSS {
  ss_listen : addr; ss_cfg : scfg; ss_files : fcfg; ss_max_conn : N; ss_port_change : bool }.

(** config.rs 24-35 and 131-135: read_authorized_keys of the file. *)
Definition opt_keys (ok : bytes -> bool) (h : host) (p : option bytes) : option (option (list bytes)) :=
  match p with
  | None => Some None
  | Some p =>
      match ho_file h p with
      | None => None
      | Some f => match read_authorized_keys ok f with Some ks => Some (Some ks) | None => None end
      end
  end.

(** config.rs 89-160 ServerCliConfig::try_into; [None]: the program ends with an error. *)
Definition server_config (ok : bytes -> bool) (h : host) (a : server_args) : option server_start :=
  match first_addr h (sa_listen a) with
  | None => None
  | Some listen =>
      let full := match sa_full a with
                  | Some b => b
                  | None => match sa_auth a with Some _ => true | None => false end
                  end in
      match opt_private h (sa_key a) with
      | None => None
      | Some key =>
          match opt_keys ok h (sa_auth a) with
          | None => None
          | Some auth =>
              Some (mkSS listen
                (mkScfg (as_u16 (sa_max_bs a)) (as_u16 (sa_max_window a)) (sa_timeout a) (sa_max_size a)
                   auth key full (match sa_err_auth a with Some b => b | None => full end) (sa_seek a))
                (mkFcfg (sa_dir a) (sa_overwrite a) (sa_list a) (sa_depth a))
                (as_u16 (sa_max_conn a))
                (match sa_port_change a with Some b => b | None => false end))
          end
      end
  end.

(** ** Client *)

(** cli.rs 27-96 ClientCliConfig. *)
Record client_args := mkCA {
  ca_endpoint : bytes; ca_listen : option bytes; ca_timeout : N; ca_bs : N; ca_window : N;
  ca_retry : N; ca_max_size : N; ca_level : bytes; ca_key : option bytes; ca_server_key : option bytes;
  ca_known : option bytes; ca_port_change : bool; ca_file_key : option bytes }.
(** cli.rs 43-54: the ranges clap insists on. *)
Definition client_args_ok (a : client_args) : bool :=
  in_range DEFAULT_DATA_BLOCK_SIZE MAX_BLOCK (ca_bs a) && in_range 1 MAX_WINDOW (ca_window a) &&
  (DEFAULT_RETRY_PACKET_TIMEOUT <=? ca_retry a) && (ca_retry a <? 255 * 1000).

(** std::path::Path::file_name: the last component if it is a name.
    Called in std-binary/src/sender.rs 27-106, std-binary/src/receiver.rs 23-103. *)
Definition file_name (p : bytes) : option bytes :=
  match rev (components p) with Normal s :: _ => Some s | _ => None end.

(** socket.rs 43-60 obtain_listen_socket_based_on_endpoint. *)
Definition unspecified (v6 : bool) : addr := mkAddr v6 [] 0.
(** std-binary/src/sender.rs 27-106, std-binary/src/receiver.rs 23-103, std-binary/src/socket.rs 44-60. *)
Definition listen_addr (h : host) (a : client_args) : option addr :=
  match ca_listen a with
  | Some l => first_addr h l
  | None => match first_addr h (ca_endpoint a) with Some e => Some (unspecified (ad_v6 e)) | None => None end
  end.

(** config.rs 46-60: the endpoint, with the default port. *)
Definition endpoint_text (e : bytes) : bytes :=
  if existsb (N.eqb COLON) e then e else e ++ s2b ":69".

(** What the transfer is started with: src/client/config.rs 9-19 ClientConfig and the other
    arguments of send_file / receive_file. *)
Record client_start := mkCS {
  cl_listen : addr; cl_endpoint : addr; cl_timeout : N; cl_max_size : N; cl_cfg : ccfg; cl_seek : bool;
  cl_file_key : option bytes; cl_local : bytes; cl_remote : bytes; cl_opts : options }.

(** config.rs 24-35: the server's key (KeyFileModel.remote_key); a known hosts file that cannot be
    opened is an error. *)
Definition client_remote_key (ok : bytes -> bool) (h : host) (a : client_args) : option (option bytes) :=
  let r f := match remote_key ok (ca_server_key a) f (ca_endpoint a) with Ok k => Some k | _ => None end in
  match ca_server_key a, ca_known a with
  | None, Some p => match ho_file h p with Some f => r (Some f) | None => None end
  | _, _ => r None
  end.

(** config.rs 22-86 ClientCliConfig::try_into. *)
Definition client_config (ok : bytes -> bool) (h : host) (a : client_args)
  : option (option bytes * option bytes * addr * option bytes) :=
  match client_remote_key ok h a with
  | None => None
  | Some remote =>
      match opt_private h (ca_key a) with
      | None => None
      | Some key =>
          match first_addr h (endpoint_text (ca_endpoint a)) with
          | None => None
          | Some e =>
              match opt_private h (ca_file_key a) with
              | None => None
              | Some fk => Some (remote, key, e, fk)
              end
          end
      end
  end.

(** sender.rs 27-89 start_send ([write] = true) and receiver.rs 25-86 start_receive, up to the
    call of send_file / receive_file; [bound]: the socket could be created.  [given]: the path of
    the argument FILE; [other]: the optional path. *)
Definition client_begin (ok : bytes -> bool) (h : host) (bound write : bool) (a : client_args)
    (given : bytes) (other : option bytes) (seek : bool) : option client_start :=
  match listen_addr h a with
  | None => None
  | Some listen =>
      if negb bound then None else
      match level_parse (ca_level a) with
      | None => None
      | Some level =>
          let o := mkOpts (as_u16 (ca_bs a)) (ca_retry a) (if write then None else Some 0) level (as_u16 (ca_window a)) in
          match (match other with Some p => Some p | None => file_name given end) with
          | None => None
          | Some second =>
              match client_config ok h a with
              | None => None
              | Some (remote, key, e, fk) =>
                  Some (mkCS listen e (ca_timeout a) (ca_max_size a) (mkCcfg key remote (ca_port_change a))
                    (write && seek) fk (if write then given else second) (if write then second else given) o)
              end
          end
      end
  end.
