(** The two servers: src/server/single_thread.rs (one loop for all clients) and
    src/server/multi_thread.rs (one thread for each client).

    Peer addresses (SocketAddr) are numbers in the order of the addresses: with the feature
    alloc the table of clients is a BTreeMap (src/lib.rs 69-73), iterated in this order.  The
    table used without alloc (heapless FnvIndexMap of capacity MAX_CLIENTS) is not modelled.
    Metrics, logging and epoll registration are left out. *)
From Verif Require Import Base PacketModel MapperModel ReaderModel ConfigModel CryptoModel ExtModel PathModel ConnModel
  HandshakeModel ConnSpec.

(** core::net::SocketAddr, used for src/server/single_thread.rs 146-416 and src/server/multi_thread.rs 111-239; only equality and order matter. *)
Definition addr := N.

(** src/server/connection.rs 33-37 ClientType with the reader or writer; the content of the
    file a reader reads; the path a writer writes to. *)
Inductive work := WRead (file : bytes) (r : reader) | WWrite (path : bytes) (w : writer).
(** A client in the table: connection, the key of its encryptor, its work.
    src/server/connection.rs 29-59 (ClientType, Connection). *)
Record entry := mkE { en_conn : conn; en_key : option bytes; en_work : work }.
(** src/server/single_thread.rs 129: the map of clients (BTreeMap, src/lib.rs 69-73). *)
Definition table := list (addr * entry).

(** Record update; src/server/connection.rs 39-59. *)
Definition set_conn (e : entry) (c : conn) : entry := mkE c (en_key e) (en_work e).

(** BTreeMap::contains_key, insert (at a vacant entry).  src/server/single_thread.rs 210, 239-255. *)
Fixpoint find_entry (t : table) (a : addr) : option entry :=
  match t with
  | [] => None
  | (b, e) :: t' => if a =? b then Some e else find_entry t' a
  end.
(** BTreeMap::contains_key in src/server/single_thread.rs 210. *)
Definition has_entry (t : table) (a : addr) : bool := match find_entry t a with Some _ => true | None => false end.
(** VacantEntry::insert in src/server/single_thread.rs 400-406. *)
Fixpoint insert_entry (t : table) (a : addr) (e : entry) : table :=
  match t with
  | [] => [(a, e)]
  | (b, x) :: t' => if a <? b then (a, e) :: (b, x) :: t' else (b, x) :: insert_entry t' a e
  end.
(** get_mut and assignment.  src/server/single_thread.rs 239-255, 419-466. *)
Fixpoint update_entry (t : table) (a : addr) (e : entry) : table :=
  match t with
  | [] => []
  | (b, x) :: t' => if a =? b then (b, e) :: t' else (b, x) :: update_entry t' a e
  end.

(** What leaves the server: plaintext packets handed to a connection (encrypted by
    Connection::send_bytes) and the datagrams of the first exchange.
    src/server/connection.rs 106-159, src/server/connection_builder.rs 336-379. *)
Inductive out := OPlain (p : bytes) | OWire (d : bytes).
(** As above, with the address sent to; src/server/connection.rs 106-159. *)
Definition outs := list (addr * out).
(** src/server/connection.rs 128-159. *)
Definition plains (a : addr) (l : list bytes) : outs := map (fun p => (a, OPlain p)) l.

(** Decryption as done by handle_read / handle_write (helpers/read.rs 94, helpers/write.rs 34). *)
Definition entry_decrypt (c : crypto) (e : entry) (wire : bytes) : res unit bytes :=
  server_decrypt c (op_enc (c_opts (en_conn e))) (en_key e) wire.
(** src/server/connection.rs 70-104: false when it fails. *)
Definition entry_dec (c : crypto) (e : entry) (wire : bytes) : option bytes :=
  match entry_decrypt c e wire with Ok p => Some p | _ => None end.

(** One datagram for a client: handle_read or handle_write (single_thread.rs 230-245,
    multi_thread.rs 282, 314-321).  [None]: panic. *)
Definition handle_client (c : crypto) (max : N) (e : entry) (wire : bytes) (v : env) : option (entry * list bytes) :=
  match entry_decrypt c e wire with
  | Panic => None
  | _ =>
      match en_work e with
      | WRead file r =>
          let '(k, r', ok) := handle_read (entry_dec c e) (en_conn e) r wire (e_now v) in
          match ok with Some _ => Some (mkE k (en_key e) (WRead file r'), []) | None => None end
      | WWrite path w =>
          let '(k, w', plain) :=
            handle_write (entry_dec c e) (en_conn e) w wire (e_now v) max (e_io v) (e_short v) (e_sock v) (e_txt v) in
          Some (mkE k (en_key e) (WWrite path w'), plain)
      end
  end.

(** send_data_block for a client that reads; [buflen]: length of the shared send buffer.
    src/server/single_thread.rs 419-466, src/server/helpers/read.rs 25-85. *)
Definition send_client (buflen : N) (e : entry) (v : env) : entry * list bytes * bool :=
  match en_work e with
  | WRead file r =>
      let '(k, r', plain, ok) := send_data_block file (en_conn e) r buflen (e_now v) (e_io v) (e_sock v) (e_txt v) in
      (mkE k (en_key e) (WRead file r'), plain, ok)
  | WWrite _ _ => (e, [], false)
  end.

(** The connection and reader or writer of an accepted request: connection_builder.rs 186-210,
    301-322; [file path] is the content of the file opened. *)
Definition new_entry (x : est) (now : N) (file : bytes -> bytes) : entry :=
  mkE (conn_new (es_opts x) now) (es_key x)
      (match es_reader x with
       | Some r => WRead (file (es_path x)) r
       | None => WWrite (es_path x) writer_new
       end).

(** src/server/wait_control.rs.  Lines 3-16. *)
Record wait := mkWait { wt_idle : N; wt_sending : bool; wt_receiving : bool }.
(** lines 10-16 *)
Definition wait_new : wait := mkWait 0 false false.
(** lines 18-26 *)
Definition wait_sending (w : wait) (sent : bool) : wait :=
  if sent then mkWait 0 true (wt_receiving w) else mkWait ((wt_idle w + 1) mod 256) false (wt_receiving w).
(** lines 28-31 *)
Definition wait_receiver_idle (w : wait) : wait := mkWait ((wt_idle w + 1) mod 256) (wt_sending w) false.
(** lines 33-36 *)
Definition wait_receiving (w : wait) : wait := mkWait 0 (wt_sending w) true.
(** lines 38-46; milliseconds; [None]: do not wait. *)
Definition wait_for (w : wait) (clients : N) : option N :=
  if clients =? 0 then Some 500
  else if negb (wt_sending w) && negb (wt_receiving w) then Some (wt_idle w)
  else None.

(** Socket ids: NonZeroU32 checked_add(1), else 1 (single_thread.rs 257-260). *)
Definition next_socket_id (i : N) : N := if i + 1 <=? 4294967295 then i + 1 else 1.

(** ** The single threaded server *)
(** src/server/single_thread.rs 113-144: the variables of the loop. *)
Record sstate := mkS {
  s_clients : table; s_send : N; s_recv : N; s_wait : wait; s_cleaned : N; s_sockid : N }.
(** single_thread.rs 109-119 *)
Definition s_init (now : N) : sstate := mkS [] 0 0 wait_new now 1.

(** What the main socket's recv_from returns (181-202). *)
Inductive mainev := MData (from : addr) (d : bytes) | MWouldBlock | MError.

(** What the surroundings contribute to one turn of the loop: clocks, sockets, files.
    No code of its own; used by src/server/single_thread.rs 146-416. *)
Record input := mkIn {
  i_now : N; i_clean : addr -> env;
  i_buflen : N; i_send1 : addr -> env; i_send2 : addr -> env;
  i_rx : addr -> option bytes;   (* notified, and recv gives a datagram *)
  i_main : mainev; i_env : env;
  i_henv : henv; i_av : avail; i_file : bytes -> bytes }.

(** Configuration: ServerConfig and its max_connections, max_file_size (config.rs 14-17). *)
Record srvcfg := mkSC { g_cfg : scfg; g_max_conn : N }.
(** src/server/config.rs 9-26 request_timeout. *)
Definition g_timeout (g : srvcfg) : N := sc_timeout (g_cfg g).
(** src/server/config.rs 9-26 max_file_size. *)
Definition g_max_size (g : srvcfg) : N := sc_max_size (g_cfg g).

(** Lines 105, 144: datagrams longer than the receive buffer are cut. *)
Definition recv_cut (g : srvcfg) (d : bytes) : bytes :=
  takeN (N.max (sc_max_bs (g_cfg g) + DATA_PACKET_HEADER_SIZE) MIN_BUFFER_SIZE) d.

(** Lines 146-151: every two seconds the connections that are over are removed. *)
Fixpoint retain (t : table) (timeout : N) (v : addr -> env) : table * outs :=
  match t with
  | [] => ([], [])
  | (a, e) :: t' =>
      let '(drop, plain) := timeout_client (en_conn e) timeout (e_now (v a)) (e_sock (v a)) (e_txt (v a)) in
      let '(t1, o) := retain t' timeout v in
      (if drop then t1 else (a, e) :: t1, plains a plain ++ o)
  end.
(** src/server/single_thread.rs 149-154: every two seconds the clients are looked through. *)
Definition step_clean (g : srvcfg) (s : sstate) (i : input) : sstate * outs :=
  if 2000 <? i_now i - s_cleaned s then
    let '(t, o) := retain (s_clients s) (g_timeout g) (i_clean i) in
    (mkS t (s_send s) (s_recv s) (s_wait s) (i_now i) (s_sockid s), o)
  else (s, []).

(** Lines 427-430: the clients send_data_blocks goes over. *)
Definition active (e : entry) : bool :=
  match en_work e with
  | WRead _ _ => negb (match c_invalid (en_conn e) with Some _ => true | None => false end || c_finished (en_conn e))
  | WWrite _ _ => false
  end.
(** Lines 425-436 and 438-451: filter, enumerate, skip or take ([try]), find_map. *)
Fixpoint pass (buflen : N) (try : N -> bool) (v : addr -> env) (k : N) (t : table) : table * outs * option N :=
  match t with
  | [] => ([], [], None)
  | (a, e) :: t' =>
      if active e then
        if try k then
          let '(e1, plain, ok) := send_client buflen e (v a) in
          if ok then ((a, e1) :: t', plains a plain, Some (k + 1))
          else let '(t1, o, r) := pass buflen try v (k + 1) t' in ((a, e1) :: t1, plains a plain ++ o, r)
        else let '(t1, o, r) := pass buflen try v (k + 1) t' in ((a, e) :: t1, o, r)
      else let '(t1, o, r) := pass buflen try v k t' in ((a, e) :: t1, o, r)
  end.
(** Lines 419-458 send_data_blocks. *)
Definition send_data_blocks (t : table) (next : N) (i : input) : table * outs * bool * N :=
  let '(t1, o1, r1) := pass (i_buflen i) (fun k => next <=? k) (i_send1 i) 0 t in
  match r1 with
  | Some n => (t1, o1, true, n)
  | None =>
      let '(t2, o2, r2) := pass (i_buflen i) (fun k => k <? next) (i_send2 i) 0 t1 in
      match r2 with
      | Some n => (t2, o1 ++ o2, true, n)
      | None => (t2, o1 ++ o2, false, next)
      end
  end.
(** Lines 155-159. *)
Definition step_send (s : sstate) (i : input) : sstate * outs :=
  let '(t, o, sent, next) := send_data_blocks (s_clients s) (s_send s) i in
  (mkS t next (s_recv s) (wait_sending (s_wait s) sent) (s_cleaned s) (s_sockid s), o).

(** Lines 168-191: the first client from the cursor on whose socket has a datagram; the
    cursor afterwards. *)
Fixpoint scan (rx : addr -> option bytes) (skip cursor : N) (t : table) : option (addr * bytes) * N :=
  match t with
  | [] => (None, cursor)
  | (a, _) :: t' =>
      if 0 <? skip then scan rx (skip - 1) cursor t'
      else match rx a with
           | Some d => (Some (a, d), cursor + 1)
           | None => scan rx 0 (cursor + 1) t'
           end
  end.

(** Lines 247-385: a datagram from an unknown peer. *)
Definition new_client (c : crypto) (g : srvcfg) (s : sstate) (a : addr) (d : bytes) (i : input) : option (sstate * outs) :=
  if g_max_conn g <=? N.of_nat (length (s_clients s)) then Some (s, [])
  else
    match server_new c (g_cfg g) (i_henv i) (i_av i) d with
    | SPanic => None
    | SRefused reply => Some (s, match reply with Some w => [(a, OWire w)] | None => [] end)
    | SAccepted x reply =>
        Some (mkS (insert_entry (s_clients s) a (new_entry x (e_now (i_env i)) (i_file i)))
                  (s_send s) (s_recv s) (s_wait s) (s_cleaned s) (next_socket_id (s_sockid s)),
              match reply with Some w => [(a, OWire w)] | None => [] end)
    end.

(** Lines 229-246: a datagram from a known peer. *)
Definition known_client (c : crypto) (g : srvcfg) (s : sstate) (a : addr) (e : entry) (d : bytes) (v : env)
  : option (sstate * outs) :=
  match handle_client c (g_max_size g) e d v with
  | None => None
  | Some (e', plain) =>
      Some (mkS (update_entry (s_clients s) a e') (s_send s) (s_recv s) (s_wait s) (s_cleaned s) (s_sockid s),
            plains a plain)
  end.

(** Record update; src/server/single_thread.rs 113-144. *)
Definition set_recv (s : sstate) (n : N) (w : wait) : sstate :=
  mkS (s_clients s) (s_send s) n w (s_cleaned s) (s_sockid s).

(** Lines 168-385; [None]: the server stops (panic, or an error of the main socket). *)
Definition step_recv (c : crypto) (g : srvcfg) (s : sstate) (i : input) : option (sstate * outs) :=
  let '(found, cursor) := scan (i_rx i) (s_recv s) (s_recv s) (s_clients s) in
  match found with
  | Some (a, d) =>
      let s1 := set_recv s cursor (wait_receiving (s_wait s)) in
      match find_entry (s_clients s) a with
      | Some e => known_client c g s1 a e (recv_cut g d) (i_env i)
      | None => None
      end
  | None =>
      match i_main i with
      | MData from d =>
          if has_entry (s_clients s) from then Some (set_recv s 0 (s_wait s), [])
          else new_client c g (set_recv s 0 (wait_receiving (s_wait s))) from (recv_cut g d) i
      | MWouldBlock => Some (set_recv s 0 (wait_receiver_idle (s_wait s)), [])
      | MError => None
      end
  end.

(** One turn of the loop, lines 143-395. *)
Definition server_step (c : crypto) (g : srvcfg) (s : sstate) (i : input) : option (sstate * outs) :=
  let '(s1, o1) := step_clean g s i in
  let '(s2, o2) := step_send s1 i in
  match step_recv c g s2 i with
  | Some (s3, o3) => Some (s3, o1 ++ o2 ++ o3)
  | None => None
  end.

(** src/server/single_thread.rs 146-416: the states at the beginning of a turn. *)
Inductive sreach (c : crypto) (g : srvcfg) : sstate -> Prop :=
| sreach_init now : sreach c g (s_init now)
| sreach_step s i s' o : sreach c g s -> server_step c g s i = Some (s', o) -> sreach c g s'.

(** ** The multi threaded server *)
(** The entry of the table of handles and the thread behind it.  src/server/multi_thread.rs 109, 217-236, 241-328. *)
Record thread := mkT { th_live : bool; th_entry : entry }.
(** src/server/multi_thread.rs 109, 330-333: the map of join handles. *)
Definition handles := list (addr * thread).
(** src/server/multi_thread.rs 92-109: the variables of the accepting loop, and its threads. *)
Record mstate := mkM { m_handles : handles; m_sockid : N }.
(** src/server/multi_thread.rs 92-109. *)
Definition m_init : mstate := mkM [] 1.

(** BTreeMap::contains_key in src/server/multi_thread.rs 133. *)
Fixpoint find_handle (t : handles) (a : addr) : option thread :=
  match t with
  | [] => None
  | (b, e) :: t' => if a =? b then Some e else find_handle t' a
  end.
(** BTreeMap::insert in src/server/multi_thread.rs 236. *)
Fixpoint insert_handle (t : handles) (a : addr) (e : thread) : handles :=
  match t with
  | [] => [(a, e)]
  | (b, x) :: t' => if a <? b then (a, e) :: (b, x) :: t' else (b, x) :: insert_handle t' a e
  end.
(** No code of its own: a thread (src/server/multi_thread.rs 257-326) changes its own state. *)
Fixpoint update_handle (t : handles) (a : addr) (e : thread) : handles :=
  match t with
  | [] => []
  | (b, x) :: t' => if a =? b then (b, e) :: t' else (b, x) :: update_handle t' a e
  end.

(** What a thread's recv returns.  src/server/multi_thread.rs 257-326, src/server/connection.rs 62-68. *)
Inductive threadev := TData (d : bytes) | TWouldBlock | TError.
(** multi_thread.rs 252-254, 301-303: buffers of the threads fit the negotiated block size. *)
Definition thread_cut (e : entry) (d : bytes) : bytes :=
  takeN (N.max (op_bs (c_opts (en_conn e)) + DATA_PACKET_HEADER_SIZE) MIN_BUFFER_SIZE) d.

(** One turn of the loop of spawn_reader (256-283) or spawn_writer (305-322): the thread and
    what it sends.  A panic ends the thread only. *)
Definition thread_turn (c : crypto) (g : srvcfg) (e : entry) (buflen : N) (v1 v2 v3 : env) (ev : threadev)
  : thread * list bytes :=
  let '(drop, plain) := timeout_client (en_conn e) (g_timeout g) (e_now v1) (e_sock v1) (e_txt v1) in
  if drop then (mkT false e, plain)
  else
    let '(e1, plain1, _) := send_client buflen e v2 in
    match ev with
    | TWouldBlock => (mkT true e1, plain1)
    | TError => (mkT false e1, plain1)
    | TData d =>
        match handle_client c (g_max_size g) e1 (thread_cut e d) v3 with
        | None => (mkT false e1, plain1)
        | Some (e2, plain2) => (mkT true e2, plain1 ++ plain2)
        end
    end.

(** multi_thread.rs 111-239, one turn of the accepting loop. *)
Definition main_turn (c : crypto) (g : srvcfg) (m : mstate) (ev : mainev) (i : input) : option (mstate * outs) :=
  let h := filter (fun x => th_live (snd x)) (m_handles m) in
  match ev with
  | MWouldBlock => Some (mkM h (m_sockid m), [])
  | MError => None
  | MData from d =>
      match find_handle h from with
      | Some _ => Some (mkM h (m_sockid m), [])
      | None =>
          if g_max_conn g <=? N.of_nat (length h) then Some (mkM h (m_sockid m), [])
          else
            match server_new c (g_cfg g) (i_henv i) (i_av i) (recv_cut g d) with
            | SPanic => None
            | SRefused reply => Some (mkM h (m_sockid m), match reply with Some w => [(from, OWire w)] | None => [] end)
            | SAccepted x reply =>
                Some (mkM (insert_handle h from (mkT true (new_entry x (e_now (i_env i)) (i_file i))))
                          (next_socket_id (m_sockid m)),
                      match reply with Some w => [(from, OWire w)] | None => [] end)
            end
      end
  end.

(** The accepting loop and the threads run in any interleaving.  src/server/multi_thread.rs 111-239, 257-326. *)
Inductive mstep (c : crypto) (g : srvcfg) : mstate -> mstate -> outs -> Prop :=
| m_main m ev i m' o : main_turn c g m ev i = Some (m', o) -> mstep c g m m' o
| m_thread m a e buflen v1 v2 v3 ev t plain :
    find_handle (m_handles m) a = Some (mkT true e) ->
    thread_turn c g e buflen v1 v2 v3 ev = (t, plain) ->
    mstep c g m (mkM (update_handle (m_handles m) a t) (m_sockid m)) (plains a plain).
(** src/server/multi_thread.rs 111-239, 257-326. *)
Inductive mreach (c : crypto) (g : srvcfg) : mstate -> Prop :=
| mreach_init : mreach c g m_init
| mreach_step m m' o : mreach c g m -> mstep c g m m' o -> mreach c g m'.
