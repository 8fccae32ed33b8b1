(** A server with its files: the first datagram of a client (HandshakeModel.server_new) together with
    what it does to the file system (FsModel). *)
From Verif Require Import Base PacketModel ReaderModel ConfigModel CryptoModel ExtModel PathModel HandshakeModel FsModel.

(** multi_thread.rs 143-202, connection_builder.rs 70-177, 218-264: the file a datagram makes the server
    open (true: for an upload), which is decided before anything else depends on the file. *)
Definition file_request (c : crypto) (cfg : scfg) (eph d : bytes) : option (bool * bytes) :=
  let '(buf, _, o0) := from_new_connection c cfg d in
  let want (write : bool) (r : request) :=
    match server_parse c cfg (sc_max_window cfg) eph (rq_exts r) o0 with
    | Ok (_, o, _) =>
        match validate_request_options (sc_max_size cfg) (rq_name r) (op_size o) with
        | Ok path => Some (write, path)
        | _ => None
        end
    | _ => None
    end in
  match from_bytes buf with
  | Ok (PWrite r) => want true r
  | Ok (PRead r) => want false r
  | _ => None
  end.
(** The size that create_server_reader reports (io.rs 52, 216): the length of the file or of the
    listing; [dirsize] is what the system reports for a directory. *)
Definition source_size (f : fs) (dirsize : N) (s : source) : N :=
  match s with SFile id => blen (f_data f id) | SDir => dirsize | SList t => blen t end.
(** Helper: what create_server_reader or create_server_writer (std-binary/src/io.rs 56-131) answers. *)
Definition with_open (env : henv) (o : option (option N)) : henv :=
  mkHenv (h_eph env) (h_nonce env) (fun _ => o) (h_bind env) (h_send env) (h_text env).
(** The file a connection uses.  std-binary/src/io.rs 56-131. *)
Inductive opened := Reads (s : source) | Writes (id : N).
(** multi_thread.rs 143-202 with create_server_reader and create_server_writer (std-binary/src/main.rs 168-182). *)
Definition file_server (c : crypto) (cfg : scfg) (g : fcfg) (dirsize : N) (f : fs) (env : henv) (av : avail) (d : bytes)
  : fs * sout * option opened :=
  match file_request c cfg (h_eph env) d with
  | None => (f, server_new c cfg (with_open env None) av d, None)
  | Some (true, path) =>
      let '(f', r) := create_server_writer f g path in
      (f', server_new c cfg (with_open env (option_map (fun _ => None) r)) av d, option_map Writes r)
  | Some (false, path) =>
      let r := create_server_reader f g path in
      (f, server_new c cfg (with_open env (option_map (fun s => Some (source_size f dirsize s)) r)) av d, option_map Reads r)
  end.
