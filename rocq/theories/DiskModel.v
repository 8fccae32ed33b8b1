(** A server and the disk it works on: which file every connection has open, and what is in the
    files while several connections - and other programs - use them at the same time.

    ServerModel gives each connection its own file contents; here all share the files of one file
    system (FsModel).  Files are read when a block is read (ReaderModel), written at the place the
    connection's own file handle has reached, and opened, created or emptied when a request is
    looked at. *)
From Verif Require Import Base PacketModel ReaderModel ConfigModel CryptoModel ExtModel PathModel ConnModel
  ConnSpec HandshakeModel ServerModel ServerSpec WorldModel FsModel FsServerModel.

(** std::fs::File as a writer: every handle has its own position, which write moves on; writing
    behind the end fills the gap with zeros, writing nothing does nothing (POSIX write).
    Under std-binary/src/io.rs 91-131. *)
Definition write_at (old : bytes) (pos : N) (data : bytes) : bytes :=
  match data with
  | [] => old
  | _ => takeN pos old ++ repeat 0 (N.to_nat (pos - blen old)) ++ data ++ dropN (pos + blen data) old
  end.

(** What an open file contains now.  A directory can be opened but not read.
    No code of its own: the composition of src/server/{single,multi}_thread.rs with the files of std-binary/src/io.rs 56-131. *)
Definition content (f : fs) (o : option opened) : bytes :=
  match o with
  | Some (Reads (SFile id)) | Some (Writes id) => f_data f id
  | Some (Reads (SList t)) => t
  | _ => []
  end.

(** multi_thread.rs 143-202, connection_builder.rs 70-264, std-binary/src/io.rs 56-140: the file a
    request opens, as in FsServerModel.file_server: the disk afterwards, what the opening function
    returns (the size), the file. *)
Definition open_request (c : crypto) (cfg : scfg) (fg : fcfg) (dirsize : N) (f : fs) (eph d : bytes)
  : fs * option (option N) * option opened :=
  match file_request c cfg eph d with
  | None => (f, None, None)
  | Some (true, path) =>
      let '(f', r) := create_server_writer f fg path in (f', option_map (fun _ => None) r, option_map Writes r)
  | Some (false, path) =>
      let r := create_server_reader f fg path in
      (f, option_map (fun s => Some (source_size f dirsize s)) r, option_map Reads r)
  end.
(** The surroundings of a turn in which the request gets this answer from the file system.
    No code of its own: the composition of src/server/{single,multi}_thread.rs with the files of std-binary/src/io.rs 56-131. *)
Definition with_files (i : input) (q : option (option N)) (data : bytes) : input :=
  mkIn (i_now i) (i_clean i) (i_buflen i) (i_send1 i) (i_send2 i) (i_rx i) (i_main i) (i_env i)
    (with_open (i_henv i) q) (i_av i) (fun _ => data).

(** A connection's reader reads what is in the file at that time (Read::read on the open file).
    No code of its own: the composition of src/server/{single,multi}_thread.rs with the files of std-binary/src/io.rs 56-131. *)
Definition set_file (data : bytes) (e : entry) : entry :=
  mkE (en_conn e) (en_key e) (match en_work e with WRead _ r => WRead data r | WWrite p w => WWrite p w end).

(** single_block_writer.rs 56: what a datagram of client [a] makes the server write. *)
Definition written (f : fs) (o : option opened) (e e' : option entry) : fs :=
  match o, e, e' with
  | Some (Writes id), Some (mkE _ _ (WWrite _ w)), Some (mkE _ _ (WWrite _ w')) =>
      set_data f id (write_at (f_data f id) (blen (w_out w)) (dropN (blen (w_out w)) (w_out w')))
  | _, _, _ => f
  end.

(** The server, the disk, the file each connection has open.
    No code of its own: the composition of src/server/{single,multi}_thread.rs with the files of std-binary/src/io.rs 56-131. *)
Record disk (S : Type) := mkDk { dk_srv : S; dk_fs : fs; dk_open : addr -> option opened }.
Arguments mkDk {S}. Arguments dk_srv {S}. Arguments dk_fs {S}. Arguments dk_open {S}.

(** The two servers as far as needed here: what they do, of which [main] is a datagram on the main
    socket with the surroundings [input]; whether they look at a request ([looked]: no connection of that
    address, limit not reached); the connections; and the effect of changed files on the readers.
    No code of its own: the composition of src/server/{single,multi}_thread.rs with the files of std-binary/src/io.rs 56-131. *)
Record server (S : Type) := mkSrv {
  sv_phase : S -> took -> S -> outs -> Prop;
  sv_main : S -> addr -> bytes -> input -> S -> outs -> Prop;
  sv_looked : S -> addr -> bool;
  sv_view : S -> addr -> option entry;
  sv_load : (addr -> bytes) -> S -> S }.
Arguments mkSrv {S}. Arguments sv_phase {S}. Arguments sv_main {S}. Arguments sv_looked {S}.
Arguments sv_view {S}. Arguments sv_load {S}.

(** single_thread.rs 143-395. *)
Definition load_table (fl : addr -> bytes) (t : table) : table := map (fun x => (fst x, set_file (fl (fst x)) (snd x))) t.
(** No code of its own: the composition of src/server/{single,multi}_thread.rs with the files of std-binary/src/io.rs 56-131. *)
Definition single_server (c : crypto) (g : srvcfg) : server sstate :=
  mkSrv (sphase c g)
    (fun s a d i s' o => taken s i = TookMain a d /\ step_recv c g s i = Some (s', o))
    (fun s a => negb (has_entry (s_clients s) a) && negb (g_max_conn g <=? N.of_nat (length (s_clients s))))
    sview
    (fun fl s => mkS (load_table fl (s_clients s)) (s_send s) (s_recv s) (s_wait s) (s_cleaned s) (s_sockid s)).

(** multi_thread.rs 111-322. *)
Definition load_handles (fl : addr -> bytes) (h : handles) : handles :=
  map (fun x => (fst x, mkT (th_live (snd x)) (set_file (fl (fst x)) (th_entry (snd x))))) h.
(** No code of its own: the composition of src/server/{single,multi}_thread.rs with the files of std-binary/src/io.rs 56-131. *)
Definition multi_server (c : crypto) (g : srvcfg) : server mstate :=
  mkSrv (mphase c g)
    (fun m a d i m' o => main_turn c g m (MData a d) i = Some (m', o))
    (fun m a => let h := filter (fun x => th_live (snd x)) (m_handles m) in
       match find_handle h a with Some _ => false | None => negb (g_max_conn g <=? N.of_nat (length h)) end)
    mview
    (fun fl m => mkM (load_handles fl (m_handles m)) (m_sockid m)).

Section Disk.
Context {S : Type} (sv : server S) (c : crypto) (g : srvcfg) (fg : fcfg) (dirsize : N).

(** The files as the connections find them.
    No code of its own: the composition of src/server/{single,multi}_thread.rs with the files of std-binary/src/io.rs 56-131. *)
Definition loaded (st : disk S) : S :=
  sv_load sv (fun a => content (dk_fs st) (dk_open st a)) (dk_srv st).
(** No code of its own: the composition of src/server/{single,multi}_thread.rs with the files of std-binary/src/io.rs 56-131. *)
Definition dview (st : disk S) (a : addr) : option entry := sv_view sv (loaded st) a.
(** Dropping a connection closes its file.
    No code of its own: the composition of src/server/{single,multi}_thread.rs with the files of std-binary/src/io.rs 56-131. *)
Definition still_open (s : S) (op : addr -> option opened) : addr -> option opened :=
  fun a => match sv_view sv s a with Some _ => op a | None => None end.

(** One phase of the server: requests that are looked at open a file (even if they are refused in the
    end), datagrams of connections that store a file write to it, everything else leaves the disk as it
    is.
    No code of its own: the composition of src/server/{single,multi}_thread.rs with the files of std-binary/src/io.rs 56-131. *)
Inductive dkstep : disk S -> took -> disk S -> outs -> Prop :=
| dk_phase st t s' o :
    sv_phase sv (loaded st) t s' o ->
    (forall b d, t = TookMain b d -> sv_looked sv (dk_srv st) b = false) ->
    dkstep st t
      (mkDk s' (match t with
                | TookClient b _ _ => written (dk_fs st) (dk_open st b) (dview st b) (sv_view sv s' b)
                | _ => dk_fs st
                end) (still_open s' (dk_open st))) o
| dk_ask st b d i f' q r s' o :
    sv_looked sv (dk_srv st) b = true ->
    open_request c (g_cfg g) fg dirsize (dk_fs st) (h_eph (i_henv i)) (recv_cut g d) = (f', q, r) ->
    sv_main sv (loaded st) b d (with_files i q (content f' r)) s' o ->
    dkstep st (TookMain b d)
      (mkDk s' f' (still_open s' (fun a => if a =? b then r else dk_open st a))) o.
(** Other programs may change the disk in any way at any time (new files get new numbers).
    No code of its own: the composition of src/server/{single,multi}_thread.rs with the files of std-binary/src/io.rs 56-131. *)
Inductive dkany : disk S -> took -> disk S -> outs -> Prop :=
| dk_step st t st' o : dkstep st t st' o -> dkany st t st' o
| dk_other st f' : f_next (dk_fs st) <= f_next f' -> dkany st TookNothing (mkDk (dk_srv st) f' (dk_open st)) [].


(** Runs with the states they went through (the last first).
    No code of its own: the composition of src/server/{single,multi}_thread.rs with the files of std-binary/src/io.rs 56-131. *)
Inductive dkrun (step : disk S -> took -> disk S -> outs -> Prop) (st0 : disk S) : list (disk S) -> disk S -> Prop :=
| dkrun_init : dkrun step st0 [] st0
| dkrun_step h st t st' o : dkrun step st0 h st -> step st t st' o -> dkrun step st0 (st :: h) st'.
(** Everything that can happen to a server started on some disk, other programs included.
    No code of its own: the composition of src/server/{single,multi}_thread.rs with the files of std-binary/src/io.rs 56-131. *)
Inductive dkreach (init : S -> Prop) : disk S -> Prop :=
| dkreach_init s f : init s -> dkreach init (mkDk s f (fun _ => None))
| dkreach_step st t st' o : dkreach init st -> dkany st t st' o -> dkreach init st'.
End Disk.

(** The two servers, how they start, and what they receive into (ServerModel).
    No code of its own: the composition of src/server/{single,multi}_thread.rs with the files of std-binary/src/io.rs 56-131. *)
Inductive one_of (c : crypto) (g : srvcfg) : forall S, server S -> (S -> Prop) -> (entry -> bytes -> bytes) -> Prop :=
| one_single : one_of c g sstate (single_server c g) (fun s => exists now, s = s_init now) (fun _ d => recv_cut g d)
| one_multi : one_of c g mstate (multi_server c g) (fun m => m = m_init) thread_cut.
