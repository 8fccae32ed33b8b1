(** How the single threaded server learns that datagrams have arrived: the sockets of the connections are
    registered with the poller of the main socket (std-binary/src/socket.rs), which tells once that a socket is
    readable and has to be asked again afterwards.

    The operating system's part is Linux' epoll with EPOLLONESHOT, as the crate polling uses it: a list of
    ready sockets in the order in which they became ready; a wait takes at most as many as there is room for
    in the event list from its front, and those are then no longer watched until they are armed again. *)
From Verif Require Import Base PacketModel ConfigModel CryptoModel ExtModel ConnModel ConnSpec HandshakeModel ServerModel ServerSpec.

Record poll := mkPoll {
  po_ids : addr -> N;             (* socket id of the connection of a client; the main socket has id 0 *)
  po_armed : N -> bool;           (* epoll watches the socket *)
  po_ready : list N;              (* epoll's ready list *)
  po_noted : N -> bool;           (* UdpUnboundSocket::notified, socket.rs 141-149 *)
  po_queue : addr -> list bytes   (* datagrams waiting in the socket of a connection *) }.
(** src/server/single_thread.rs 122-127: the identifier of the main socket (std-binary/src/socket.rs 62-102). *)
Definition MAIN : N := 0.

(** Helper: a function changed at one argument (the maps of std-binary/src/socket.rs 142-150). *)
Definition upd {A} (f : N -> A) (k : N) (v : A) : N -> A := fun x => if x =? k then v else f x.
(** Helper: membership (HashSet::contains, std-binary/src/socket.rs 192-195). *)
Definition mem (x : N) (l : list N) : bool := existsb (N.eqb x) l.
(** A socket goes to the end of the ready list, unless it is in there.
    No code of its own: the operating system under std-binary/src/socket.rs 153-221. *)
Definition enlist (l : list N) (id : N) : list N := if mem id l then l else l ++ [id].

(** Single threaded server: single_thread.rs 113 (capacity of the event list), socket.rs 62-103. *)
Definition poll_new : poll := mkPoll (fun _ => 1) (fun id => id =? MAIN) [] (fun _ => false) (fun _ => []).

(** A datagram for the connection of [a] arrives (the kernel calls ep_poll_callback).
    No code of its own: the operating system under std-binary/src/socket.rs 153-221. *)
Definition arrive (p : poll) (a : addr) (d : bytes) : poll :=
  let id := po_ids p a in
  mkPoll (po_ids p) (po_armed p) (if po_armed p id then enlist (po_ready p) id else po_ready p) (po_noted p)
    (upd (po_queue p) a (po_queue p a ++ [d])).
(** The main socket becomes readable.
    No code of its own: the operating system under std-binary/src/socket.rs 153-221. *)
Definition main_readable (p : poll) : poll :=
  mkPoll (po_ids p) (po_armed p) (if po_armed p MAIN then enlist (po_ready p) MAIN else po_ready p) (po_noted p) (po_queue p).

(** socket.rs 205-221 modify_interest; [more]: the socket has datagrams waiting. *)
Definition modify_interest (p : poll) (id : N) (more : bool) : poll :=
  mkPoll (po_ids p) (upd (po_armed p) id true) (if more then enlist (po_ready p) id else po_ready p)
    (upd (po_noted p) id false) (po_queue p).
(** socket.rs 196-203 add_interest, for the new connection of [a]: its socket is empty. *)
Definition add_interest (p : poll) (a : addr) (id : N) : poll :=
  mkPoll (upd (po_ids p) a id) (upd (po_armed p) id true) (po_ready p) (po_noted p) (upd (po_queue p) a []).
(** Poller::wait with room for [cap] events, and socket.rs 163 (extending the set notified).  The kernel drops
    the main socket from the list if there is nothing to read any more ([gone]). *)
Definition wait_events (p : poll) (cap : N) (gone : bool) : poll :=
  let l := if gone then filter (fun x => negb (x =? MAIN)) (po_ready p) else po_ready p in
  let e := firstn (N.to_nat cap) l in
  mkPoll (po_ids p) (fun id => po_armed p id && negb (mem id e)) (skipn (N.to_nat cap) l)
    (fun id => po_noted p id || mem id e) (po_queue p).
(** Closing a socket takes it off epoll's lists.
    No code of its own: the operating system under std-binary/src/socket.rs 236-280. *)
Definition close_others (p : poll) (t : table) : poll :=
  let open id := (id =? MAIN) || existsb (fun x => po_ids p (fst x) =? id) t in
  mkPoll (po_ids p) (fun id => po_armed p id && open id) (filter open (po_ready p)) (po_noted p) (po_queue p).

(** What a turn finds in the sockets of the connections: those in the set notified are read
    (single_thread.rs 168-191); [fails]: the system reports an error instead of the datagram. *)
Definition heard (p : poll) (fails : addr -> bool) (a : addr) : option bytes :=
  if po_noted p (po_ids p a) && negb (fails a) then hd_error (po_queue p a) else None.

(** The surroundings of the poll of a turn: whether the main socket is readable before and is drained
    afterwards, and what arrives while the server waits (None: on the main socket).
    No code of its own; used by std-binary/src/socket.rs 153-173. *)
Record during := mkDuring { du_main : bool; du_gone : bool; du_arrive : list (option (addr * bytes)) }.
(** No code of its own; used by std-binary/src/socket.rs 153-173. *)
Definition arrivals (t : table) (p : poll) (l : list (option (addr * bytes))) : poll :=
  fold_left (fun p x => match x with
                        | Some (a, d) => if has_entry t a then arrive p a d else p
                        | None => main_readable p
                        end) l p.
(** The receiving phase (single_thread.rs 168-202) in state [s] with table [s_clients s]: either a
    connection's datagram is read and its socket armed again, or the main socket is asked
    (socket.rs 152-176). *)
Definition poll_recv (cap : N) (s : sstate) (p : poll) (i : input) (w : during) : poll :=
  match fst (scan (i_rx i) (s_recv s) (s_recv s) (s_clients s)) with
  | Some (a, _) =>
      let q := tl (po_queue p a) in
      modify_interest (mkPoll (po_ids p) (po_armed p) (po_ready p) (po_noted p) (upd (po_queue p) a q)) (po_ids p a)
        (match q with [] => false | _ => true end)
  | None => wait_events (arrivals (s_clients s) (modify_interest p MAIN (du_main w)) (du_arrive w)) cap (du_gone w)
  end.
(** connection_builder.rs 191-195, 292-296 with single_thread.rs 254-260: an accepted client's socket has the
    next id. *)
Definition poll_new_client (s s' : sstate) (p : poll) (i : input) : poll :=
  match i_main i with
  | MData a _ => if has_entry (s_clients s) a then p else if has_entry (s_clients s') a then add_interest p a (s_sockid s') else p
  | _ => p
  end.

(** src/server/single_thread.rs 117-146 and std-binary/src/socket.rs 142-150. *)
Record pstate := mkPs { ps_srv : sstate; ps_poll : poll }.
(** The state in which a turn reaches the receiving phase (lines 143-166). *)
Definition middle (g : srvcfg) (s : sstate) (i : input) : sstate := fst (step_send (fst (step_clean g s i)) i).
(** A turn of the loop (single_thread.rs 143-395). *)
Inductive pturn (c : crypto) (g : srvcfg) : pstate -> input -> (addr -> bool) -> pstate -> Prop :=
| pt_turn st i fails w s' o :
    let m := middle g (ps_srv st) i in
    let p1 := close_others (ps_poll st) (s_clients m) in
    (forall a, i_rx i a = heard p1 fails a) ->
    server_step c g (ps_srv st) i = Some (s', o) ->
    let p2 := poll_recv (g_max_conn g) m p1 i w in
    pturn c g st i fails (mkPs s' (match fst (scan (i_rx i) (s_recv m) (s_recv m) (s_clients m)) with
                                   | Some _ => p2
                                   | None => poll_new_client m s' p2 i
                                   end)).
(** Between the turns datagrams arrive.  No code of its own: the network. *)
Inductive parrive : pstate -> pstate -> Prop :=
| pa_client st a d : has_entry (s_clients (ps_srv st)) a = true ->
    parrive st (mkPs (ps_srv st) (arrive (ps_poll st) a d))
| pa_main st : parrive st (mkPs (ps_srv st) (main_readable (ps_poll st))).
(** All that can happen before the socket ids (u32) have been used up. *)
Inductive preach (c : crypto) (g : srvcfg) : pstate -> Prop :=
| preach_init now : preach c g (mkPs (s_init now) poll_new)
| preach_arrive st st' : preach c g st -> parrive st st' -> preach c g st'
| preach_turn st i fails st' : preach c g st -> pturn c g st i fails st' ->
    s_sockid (ps_srv st) <= s_sockid (ps_srv st') -> preach c g st'.
