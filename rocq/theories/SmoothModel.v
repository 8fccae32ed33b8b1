(** A server, a client's command and a network that does no harm: every datagram that is sent arrives once
    and in the order of sending, the machines work, and nobody sleeps longer than the other side waits.

    The turns are those of the programs: src/server/single_thread.rs 143-395, src/server/multi_thread.rs
    111-239, 256-283, 305-322, src/client/receiver.rs 48-259, src/client/sender.rs 53-338 (see ServerModel and
    RunModel).  They follow each other in any order. *)
From Verif Require Import Base PacketModel MapperModel ReaderModel ConfigModel CryptoModel ExtModel PathModel ConnModel
  ClientModel ConnSpec HandshakeModel ClientWaitModel ServerModel ServerSpec WorldModel FsModel FsServerModel DiskModel RunModel.
From Verif Require CliModel.

(** A machine that works: the disk neither fails nor takes less than it is given, the socket sends.
    No code of its own: the network and the composition of src/server/{single,multi}_thread.rs with src/client/{receiver,sender}.rs. *)
Definition fine (t : N) (v : env) : Prop := e_now v = t /\ e_io v = false /\ e_short v = None /\ e_sock v = true.

(** One turn of the single threaded server (single_thread.rs 143-395, ServerModel.server_step) at time [t], while
    [rx] is the datagram that is next on the socket of client [a].  The main socket has nothing, or a request
    that [a] has repeated.  [got]: the datagram has been taken from the socket. *)
Definition single_turn (c : crypto) (sg : srvcfg) (a : addr) (t : N) (rx : option bytes) (s : sstate) (got : bool) (s' : sstate) (o : outs) : Prop :=
  exists i s1 o1 s2 o2 o3,
    step_clean sg s i = (s1, o1) /\ step_send s1 i = (s2, o2) /\ step_recv c sg s2 i = Some (s', o3) /\
    o = o1 ++ o2 ++ o3 /\ got = hears a (taken s2 i) /\
    i_now i = t /\ (forall b, fine t (i_clean i b) /\ fine t (i_send1 i b) /\ fine t (i_send2 i b)) /\ fine t (i_env i) /\
    i_rx i a = rx /\ (i_main i = MWouldBlock \/ exists d, i_main i = MData a d /\ has_entry (s_clients s2) a = true).

(** What else happens in the multi threaded server: turns of the accepting loop (multi_thread.rs 111-239) and of the
    threads of other clients, in any number. *)
Inductive others (c : crypto) (sg : srvcfg) (a : addr) : mstate -> mstate -> outs -> Prop :=
| ot_none m : others c sg a m m []
| ot_main m ev i m1 o1 m2 o2 : main_turn c sg m ev i = Some (m1, o1) -> others c sg a m1 m2 o2 -> others c sg a m m2 (o1 ++ o2)
| ot_thread m b e buflen v1 v2 v3 ev t plain m2 o2 : b <> a -> find_handle (m_handles m) b = Some (mkT true e) ->
    thread_turn c sg e buflen v1 v2 v3 ev = (t, plain) ->
    others c sg a (mkM (update_handle (m_handles m) b t) (m_sockid m)) m2 o2 -> others c sg a m m2 (plains b plain ++ o2).
(** One turn of the thread of client [a] (multi_thread.rs 256-283, 305-322), after anything else. *)
Definition multi_turn (c : crypto) (sg : srvcfg) (a : addr) (t : N) (rx : option bytes) (m : mstate) (got : bool) (m' : mstate) (o : outs) : Prop :=
  exists m1 o1 e buflen v1 v2 v3 th plain,
    others c sg a m m1 o1 /\ find_handle (m_handles m1) a = Some (mkT true e) /\
    fine t v1 /\ fine t v2 /\ fine t v3 /\
    thread_turn c sg e buflen v1 v2 v3 (match rx with Some d => TData d | None => TWouldBlock end) = (th, plain) /\
    m' = mkM (update_handle (m_handles m1) a th) (m_sockid m1) /\ o = o1 ++ plains a plain /\
    got = match rx with Some _ => negb (fst (timeout_client (en_conn e) (g_timeout sg) t true (e_txt v1))) | None => false end.

(** The server takes its turns in time: neither has the client been silent for longer than the time limit, nor is
    it time to send blocks again (src/server/helpers/read.rs 25-39, src/server/helpers/connection.rs 135-160). *)
Definition prompt (sg : srvcfg) (e : entry) (t : N) : Prop :=
  t - c_updated (en_conn e) <= g_timeout sg /\
  match en_work e with WRead _ _ => retry_due (en_conn e) t = false | WWrite _ _ => True end.

(** What a connection sends (src/server/connection.rs 129-158), and a command to the address [peer]
    (src/client/encryption_socket.rs 93-140), as it is on the network. *)
Definition server_seals (c : crypto) (e : entry) (l : list out) (ws : list bytes) : Prop :=
  Forall2 (fun x w => exists p nonce, x = OPlain p /\ blen nonce = ENCRYPTION_NONCE_SIZE /\
    server_encrypt c (c_opts (en_conn e)) (en_key e) (has_type T_DATA p) nonce p = Ok w) l ws.
(** No code of its own: the network and the composition of src/server/{single,multi}_thread.rs with src/client/{receiver,sender}.rs. *)
Definition client_seals (c : crypto) (peer : CliModel.addr) (l : list sent) (ws : list bytes) : Prop :=
  Forall2 (fun x w => exists nonce, blen nonce = ENCRYPTION_NONCE_SIZE /\ client_send c (sn_sock x) nonce (sn_plain x) = Ok w)
    (filter (fun x => same_addr (sn_to x) peer) l) ws.

(** One turn of a command, with what arrives (for `send` it is not time to send again, sender.rs 198-200): the next datagram of the server's socket, or nothing. *)
Definition arrival (peer : CliModel.addr) (d : option bytes) : rev_ := match d with Some w => RvFrom peer w | None => RvBlock end.
(** No code of its own: the network and the composition of src/server/{single,multi}_thread.rs with src/client/{receiver,sender}.rs. *)
Definition receive_act (g : run_cfg) (wc : wcfg) (keys : option client_keys) (peer : CliModel.addr) (p : rprog) (d : option bytes) (now : N)
    (p' : rprog) (out : list sent) : Prop :=
  exists i, ri_ev i = arrival peer d /\ ri_now i = now /\ ri_io i = false /\ ri_short i = None /\ ri_sock i = true /\
    receive_turn g wc keys p i = (p', out).
(** No code of its own: the network and the composition of src/server/{single,multi}_thread.rs with src/client/{receiver,sender}.rs. *)
Definition send_act (g : run_cfg) (wc : wcfg) (keys : option client_keys) (peer : CliModel.addr) (f : fs) (p : uphase) (d : option bytes) (now : N)
    (p' : uphase) (out : list sent) : Prop :=
  exists i, si_ev i = arrival peer d /\ si_now i = now /\ si_io i = IoOk /\ si_retry i = false /\ si_sock i = Some true /\
    send_turn g wc keys f p i = (p', out).
(** The server has not been silent for longer than the command's time limit (receiver.rs 186-196, sender.rs 272-279,
    connection.rs 200-211). *)
Definition receive_patient (wc : wcfg) (p : rprog) (now : N) : Prop :=
  match rp_ph p with
  | RAsk w => now - ws_start w <= wc_timeout wc
  | RGet k _ _ _ st => now - cr_time st <= k_timeout k
  | _ => True
  end.
(** No code of its own: the network and the composition of src/server/{single,multi}_thread.rs with src/client/{receiver,sender}.rs. *)
Definition send_patient (wc : wcfg) (p : uphase) (now : N) : Prop :=
  match p with
  | UAsk _ w => now - ws_start w <= wc_timeout wc
  | USend k _ _ _ st => now - cs_time st <= k_timeout k
  | _ => True
  end.
(** No code of its own: the network and the composition of src/server/{single,multi}_thread.rs with src/client/{receiver,sender}.rs. *)
Definition receive_busy (p : rprog) : bool := match rp_ph p with RAsk _ | RGet _ _ _ _ _ => true | _ => false end.
(** No code of its own: the network and the composition of src/server/{single,multi}_thread.rs with src/client/{receiver,sender}.rs. *)
Definition send_busy (p : uphase) : bool := match p with UAsk _ _ | USend _ _ _ _ _ => true | _ => false end.

(** Server, command, and the datagrams on their way, oldest first; [sm_kept]: the file that the server stores, see WorldModel.keep.
    No code of its own: the network and the composition of src/server/{single,multi}_thread.rs with src/client/{receiver,sender}.rs. *)
Record smooth (S P : Type) := mkSm { sm_srv : S; sm_kept : bytes; sm_prog : P; sm_down : list bytes; sm_up : list bytes }.
Arguments mkSm {S P}. Arguments sm_srv {S P}. Arguments sm_kept {S P}. Arguments sm_prog {S P}. Arguments sm_down {S P}. Arguments sm_up {S P}.

Section W.
Context {S P : Type} (turn : N -> option bytes -> S -> bool -> S -> outs -> Prop) (view : S -> addr -> option entry).
Variables (act : P -> option bytes -> N -> P -> list sent -> Prop) (patient : P -> N -> Prop) (busy : P -> bool).
Variables (c : crypto) (sg : srvcfg) (a : addr) (peer : CliModel.addr).
(** [ck]: the times at which turns take place. *)
Variable ck : N -> Prop.

(** A turn of the server; nothing if it has ended the connection.
    No code of its own: the network and the composition of src/server/{single,multi}_thread.rs with src/client/{receiver,sender}.rs. *)
Inductive sturn : smooth S P -> smooth S P -> Prop :=
| st_over s kept p down up : view s a = None -> sturn (mkSm s kept p down up) (mkSm s kept p down up)
| st_turn s kept p down up t e got s' o ws :
    ck t -> view s a = Some e -> prompt sg e t -> turn t (hd_error up) s got s' o -> server_seals c e (sent_to a o) ws ->
    sturn (mkSm s kept p down up) (mkSm s' (keep kept (view s' a)) p (down ++ ws) (if got then tl up else up)).
(** A turn of the command.
    No code of its own: the network and the composition of src/server/{single,multi}_thread.rs with src/client/{receiver,sender}.rs. *)
Inductive cturn : smooth S P -> smooth S P -> Prop :=
| ct_turn s kept p down up t p' out ws :
    ck t -> (down = [] -> patient p t) -> act p (hd_error down) t p' out -> client_seals c peer out ws ->
    cturn (mkSm s kept p down up) (mkSm s kept p' (tl down) (up ++ ws)).

(** Turns in any order, until the command ends.  [k] counts the rounds: a round is a turn of the server followed by one of
    the command (with any turns of the server in between, and any turns of the command between rounds).  [b]: the server has
    taken a turn in the present round.
    No code of its own: the network and the composition of src/server/{single,multi}_thread.rs with src/client/{receiver,sender}.rs. *)
Inductive turns (W0 : smooth S P) : N -> bool -> smooth S P -> Prop :=
| tu_start : turns W0 0 false W0
| tu_server k b W W' : turns W0 k b W -> busy (sm_prog W) = true -> sturn W W' -> turns W0 k true W'
| tu_client k b W W' : turns W0 k b W -> busy (sm_prog W) = true -> cturn W W' -> turns W0 (if b then k + 1 else k) false W'.
End W.
