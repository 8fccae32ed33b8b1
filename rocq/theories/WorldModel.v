(** One client, a server that serves many, the network between them, with the encryption of
    packets included: SystemModel's client and network around the whole servers of ServerModel.

    The turns of the servers are split into their phases (clean-up, sending, receiving; for a
    thread: time limit, sending, receiving), which may follow each other in any order: that allows
    every sequence of turns and more. *)
From Verif Require Import Base PacketModel MapperModel ReaderModel ReaderSpec ConfigModel CryptoModel ExtModel PathModel ConnModel
  ClientModel ConnSpec HandshakeModel ServerModel ServerSpec SystemModel.

(** What a phase takes from the network: nothing, a datagram of the client at [a] from the socket
    of its connection (with what the surroundings do meanwhile), or a datagram from the main socket.
    No code of its own: the network and the composition of src/server/{single,multi}_thread.rs with src/client/{receiver,sender}.rs. *)
Inductive took := TookNothing | TookClient (a : addr) (d : bytes) (v : env) | TookMain (a : addr) (d : bytes).

(** src/server/single_thread.rs 104-420: the phases of a turn, see ServerModel.server_step. *)
Definition taken (s : sstate) (i : input) : took :=
  match fst (scan (i_rx i) (s_recv s) (s_recv s) (s_clients s)) with
  | Some (a, d) => TookClient a d (i_env i)
  | None => match i_main i with MData a d => TookMain a d | _ => TookNothing end
  end.
(** No code of its own: the network and the composition of src/server/{single,multi}_thread.rs with src/client/{receiver,sender}.rs. *)
Inductive sphase (c : crypto) (g : srvcfg) : sstate -> took -> sstate -> outs -> Prop :=
| sp_clean s i s' o : step_clean g s i = (s', o) -> sphase c g s TookNothing s' o
| sp_send s i s' o : step_send s i = (s', o) -> sphase c g s TookNothing s' o
| sp_receive s i s' o : step_recv c g s i = Some (s', o) -> sphase c g s (taken s i) s' o.

(** src/server/multi_thread.rs 84-330: a turn of the main loop; the phases of the turn of a thread, see
    ServerModel.thread_turn.  A thread ends with the time limit, an error of its socket, or a panic. *)
Inductive mphase (c : crypto) (g : srvcfg) : mstate -> took -> mstate -> outs -> Prop :=
| mp_main m ev i m' o : main_turn c g m ev i = Some (m', o) ->
    mphase c g m (match ev with MData a d => TookMain a d | _ => TookNothing end) m' o
| mp_end m a e v plain : find_handle (m_handles m) a = Some (mkT true e) ->
    timeout_client (en_conn e) (g_timeout g) (e_now v) (e_sock v) (e_txt v) = (true, plain) ->
    mphase c g m TookNothing (mkM (update_handle (m_handles m) a (mkT false e)) (m_sockid m)) (plains a plain)
| mp_send m a e buflen v v' plain0 e' plain ok : find_handle (m_handles m) a = Some (mkT true e) ->
    timeout_client (en_conn e) (g_timeout g) (e_now v) (e_sock v) (e_txt v) = (false, plain0) ->
    send_client buflen e v' = (e', plain, ok) ->
    mphase c g m TookNothing (mkM (update_handle (m_handles m) a (mkT true e')) (m_sockid m)) (plains a plain)
| mp_error m a e : find_handle (m_handles m) a = Some (mkT true e) ->
    mphase c g m TookNothing (mkM (update_handle (m_handles m) a (mkT false e)) (m_sockid m)) []
| mp_receive m a e d v e' plain : find_handle (m_handles m) a = Some (mkT true e) ->
    handle_client c (g_max_size g) e (thread_cut e d) v = Some (e', plain) ->
    mphase c g m (TookClient a d v) (mkM (update_handle (m_handles m) a (mkT true e')) (m_sockid m)) (plains a plain)
| mp_panic m a e d v : find_handle (m_handles m) a = Some (mkT true e) ->
    handle_client c (g_max_size g) e (thread_cut e d) v = None ->
    mphase c g m (TookClient a d v) (mkM (update_handle (m_handles m) a (mkT false e)) (m_sockid m)) [].

(** The connection of the client at [a].
    No code of its own: the network and the composition of src/server/{single,multi}_thread.rs with src/client/{receiver,sender}.rs. *)
Definition sview (s : sstate) (a : addr) : option entry := find_entry (s_clients s) a.
(** No code of its own: the network and the composition of src/server/{single,multi}_thread.rs with src/client/{receiver,sender}.rs. *)
Definition mview (m : mstate) (a : addr) : option entry := live_entry (m_handles m) a.

(** Servers reachable by phases.
    No code of its own: the network and the composition of src/server/{single,multi}_thread.rs with src/client/{receiver,sender}.rs. *)
Inductive spreach (c : crypto) (g : srvcfg) : sstate -> Prop :=
| spreach_init now : spreach c g (s_init now)
| spreach_step s t s' o : spreach c g s -> sphase c g s t s' o -> spreach c g s'.
(** No code of its own: the network and the composition of src/server/{single,multi}_thread.rs with src/client/{receiver,sender}.rs. *)
Inductive mpreach (c : crypto) (g : srvcfg) : mstate -> Prop :=
| mpreach_init : mpreach c g m_init
| mpreach_step m t m' o : mpreach c g m -> mphase c g m t m' o -> mpreach c g m'.

(** Does the phase take a datagram of the client at [a] from its connection's socket?.
    No code of its own: the network and the composition of src/server/{single,multi}_thread.rs with src/client/{receiver,sender}.rs. *)
Definition hears (a : addr) (t : took) : bool :=
  match t with TookClient b _ _ => b =? a | _ => false end.

(** Ghost mark for what a connection has just sent: the block sent last, or the last one stored.
    No code of its own: the network and the composition of src/server/{single,multi}_thread.rs with src/client/{receiver,sender}.rs. *)
Definition entry_mark (e : option entry) : N :=
  match e with
  | Some e => match en_work e with WRead _ r => reader_cur r | WWrite _ w => w_written w end
  | None => 0
  end.

(** Texts of error packets are short: everything but data fits the smallest buffer (516 bytes). *)
Definition short (p : bytes) : Prop := has_type T_DATA p = false -> blen p <= MIN_BUFFER_SIZE.

(** Connection::send_bytes (src/server/connection.rs 106-158): each plaintext is encrypted with the
    keys of the connection, under some nonce.  Once a connection exists nothing else is sent. *)
Definition server_sealed (c : crypto) (e : entry) (i : N) (o : list out) (new : list dgram) : Prop :=
  Forall2 (fun x d => match x with
    | OPlain p => short p /\ snd d = ghost p i /\ exists n, blen n = ENCRYPTION_NONCE_SIZE /\
        server_encrypt c (c_opts (en_conn e)) (en_key e) (has_type T_DATA p) n p = Ok (fst d)
    | OWire _ => False
    end) o new.

(** EncryptionBoundSocket::send_to (src/client/encryption_socket.rs 93-140). *)
Definition client_sealed (c : crypto) (s : csock) (i : N) (plain : list bytes) (new : list dgram) : Prop :=
  Forall2 (fun p d => short p /\ snd d = ghost p i /\ exists n, blen n = ENCRYPTION_NONCE_SIZE /\
    client_send c s n p = Ok (fst d)) plain new.

(** The client receives into a buffer for the agreed block size (src/client/receiver.rs 174,
    src/client/sender.rs 178), and decrypts (encryption_socket.rs 60-91). *)
Definition client_dec (c : crypto) (s : csock) (bs : N) (wire : bytes) : option bytes :=
  match client_recv c s (takeN (N.max (bs + DATA_PACKET_HEADER_SIZE) MIN_BUFFER_SIZE) wire) with
  | Ok p => Some p
  | _ => None
  end.

(** A client's side of an agreed transfer: socket, options, size limit, time limit.
    src/client/receiver.rs 48-178, src/client/sender.rs 55-182. *)
Record cside := mkCside { k_sock : csock; k_opts : options; k_max : N; k_timeout : N }.

(** How old a delivered datagram may be, see SystemModel.not_too_old; [n] is the number of blocks.
    No code of its own: the network and the composition of src/server/{single,multi}_thread.rs with src/client/{receiver,sender}.rs. *)
Definition fresh_enough (n seen : N) (d : dgram) : Prop :=
  match snd d with Some i => n <= 55535 \/ seen <= i + 10000 | None => True end.

Section W.
Context {S : Type} (step : S -> took -> S -> outs -> Prop) (view : S -> addr -> option entry).
Variables (c : crypto) (a : addr) (k : cside).

(** [over]: ghost, the connection of this transfer has ended; whatever the server does for the
    address afterwards comes from another socket, for the client a stranger.
    No code of its own: the network and the composition of src/server/{single,multi}_thread.rs with src/client/{receiver,sender}.rs. *)
Record dworld := mkDW {
  dw_srv : S; dw_over : bool; dw_cl : crecv; dw_stat : cstat; dw_down : list dgram; dw_up : list dgram;
  dw_sc : N; dw_ss : N }.
(** No code of its own: the network and the composition of src/server/{single,multi}_thread.rs with src/client/{receiver,sender}.rs. *)
Definition ended (e : option entry) : bool := match e with Some _ => false | None => true end.

(** Download of a file of [n] blocks.
    No code of its own: the network and the composition of src/server/{single,multi}_thread.rs with src/client/{receiver,sender}.rs. *)
Inductive dwstep (n : N) : dworld -> dworld -> Prop :=
| dw_server s t s' o e new cl stat down up sc ss :
    step s t s' o -> hears a t = false -> view s a = Some e ->
    server_sealed c e (entry_mark (view s' a)) (sent_to a o) new ->
    dwstep n (mkDW s false cl stat down up sc ss) (mkDW s' (ended (view s' a)) cl stat (new ++ down) up sc ss)
| dw_server_receives s x v s' o e new cl stat down up sc ss :
    step s (TookClient a (fst x) v) s' o -> In x up -> fresh_enough n ss x -> view s a = Some e ->
    server_sealed c e (entry_mark (view s' a)) (sent_to a o) new ->
    dwstep n (mkDW s false cl stat down up sc ss)
             (mkDW s' (ended (view s' a)) cl stat (new ++ down) up sc (see ss x))
| dw_server_later s t s' o cl stat down up sc ss :
    step s t s' o ->
    dwstep n (mkDW s true cl stat down up sc ss) (mkDW s' true cl stat down up sc ss)
| dw_client s over cl down up sc ss e x v cl' plain stat' new :
    client_event down e x -> fresh_enough n sc x -> e_short v = None ->
    recv_step (client_dec c (k_sock k) (op_bs (k_opts k))) (k_opts k) (k_max k) (k_timeout k) cl e
      (e_now v) (e_io v) (e_short v) (e_sock v) (e_txt v) = (cl', plain, stat') ->
    client_sealed c (k_sock k) (w_written (cr_w cl')) plain new ->
    dwstep n (mkDW s over cl CRun down up sc ss) (mkDW s over cl' stat' down (new ++ up) (see sc x) ss).
(** No code of its own: the network and the composition of src/server/{single,multi}_thread.rs with src/client/{receiver,sender}.rs. *)
Inductive dwreach (n : N) (W0 : dworld) : dworld -> Prop :=
| dwr_init : dwreach n W0 W0
| dwr_step W W' : dwreach n W0 W -> dwstep n W W' -> dwreach n W0 W'.

(** Upload of [file], of [n] blocks.  [uw_kept]: the file stored by the server, which stays when
    the connection ends.
    No code of its own: the network and the composition of src/server/{single,multi}_thread.rs with src/client/{receiver,sender}.rs. *)
Record uworld := mkUW {
  uw_srv : S; uw_over : bool; uw_kept : bytes; uw_cl : csend; uw_stat : cstat;
  uw_down : list dgram; uw_up : list dgram; uw_sc : N; uw_ss : N }.
(** No code of its own: the network and the composition of src/server/{single,multi}_thread.rs with src/client/{receiver,sender}.rs. *)
Definition keep (old : bytes) (e : option entry) : bytes :=
  match e with
  | Some e => match en_work e with WWrite _ w => w_out w | WRead _ _ => old end
  | None => old
  end.
(** No code of its own: the network and the composition of src/server/{single,multi}_thread.rs with src/client/{receiver,sender}.rs. *)
Inductive uwstep (file : bytes) (n : N) : uworld -> uworld -> Prop :=
| uw_server s t s' o e new kept cl stat down up sc ss :
    step s t s' o -> hears a t = false -> view s a = Some e ->
    server_sealed c e (entry_mark (view s' a)) (sent_to a o) new ->
    uwstep file n (mkUW s false kept cl stat down up sc ss) (mkUW s' (ended (view s' a)) (keep kept (view s' a)) cl stat (new ++ down) up sc ss)
| uw_server_receives s x v s' o e new kept cl stat down up sc ss :
    step s (TookClient a (fst x) v) s' o -> e_short v = None -> In x up -> fresh_enough n ss x -> view s a = Some e ->
    server_sealed c e (entry_mark (view s' a)) (sent_to a o) new ->
    uwstep file n (mkUW s false kept cl stat down up sc ss)
             (mkUW s' (ended (view s' a)) (keep kept (view s' a)) cl stat (new ++ down) up sc (see ss x))
| uw_server_later s t s' o kept cl stat down up sc ss :
    step s t s' o ->
    uwstep file n (mkUW s true kept cl stat down up sc ss) (mkUW s' true kept cl stat down up sc ss)
| uw_client_sends s over kept cl down up sc ss buflen retry io sock cl' plain stat' new :
    op_bs (k_opts k) + DATA_PACKET_HEADER_SIZE <= buflen ->
    sender_send file cl buflen retry io sock = (cl', plain, stat') ->
    client_sealed c (k_sock k) (reader_cur (cs_r cl')) plain new ->
    uwstep file n (mkUW s over kept cl CRun down up sc ss) (mkUW s over kept cl' stat' down (new ++ up) sc ss)
| uw_client_receives s over kept cl down up sc ss e x now cl' stat' :
    client_event down e x -> fresh_enough n sc x ->
    sender_recv (client_dec c (k_sock k) (op_bs (k_opts k))) (k_timeout k) cl e now = (cl', stat') ->
    uwstep file n (mkUW s over kept cl CRun down up sc ss) (mkUW s over kept cl' stat' down up (see sc x) ss).
(** No code of its own: the network and the composition of src/server/{single,multi}_thread.rs with src/client/{receiver,sender}.rs. *)
Inductive uwreach (file : bytes) (n : N) (W0 : uworld) : uworld -> Prop :=
| uwr_init : uwreach file n W0 W0
| uwr_step W W' : uwreach file n W0 W -> uwstep file n W W' -> uwreach file n W0 W'.
End W.
Arguments mkDW {S}. Arguments mkUW {S}.
Arguments dw_cl {S}. Arguments dw_stat {S}. Arguments dw_srv {S}. Arguments dw_over {S}. Arguments dw_down {S}. Arguments dw_up {S}. Arguments dw_sc {S}. Arguments dw_ss {S}.
Arguments uw_cl {S}. Arguments uw_stat {S}. Arguments uw_srv {S}. Arguments uw_over {S}. Arguments uw_kept {S}. Arguments uw_down {S}. Arguments uw_up {S}. Arguments uw_sc {S}. Arguments uw_ss {S}.
