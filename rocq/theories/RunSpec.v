(** What is said about whole client runs. *)
From Verif Require Import Base PacketModel MapperModel ReaderModel ConfigModel CryptoModel ExtModel PathModel ConnModel
  ConnSpec ClientModel HandshakeModel ClientWaitModel StreamModel SystemModel ServerModel ServerSpec WorldModel FsModel FsServerModel DiskModel
  PacketSpec AgreeProofs PropAgree StoreSpec RunModel.
From Verif Require CliModel.

(** The file a path leads to. *)
Definition local_file (f : fs) (path : bytes) : option N :=
  match realpath f (parse_path path) with
  | Some q => match at_ f q with Some (NFile id) => Some id | _ => None end
  | None => None
  end.
(** Other programs leave the file that [path] leads to, and where it leads, alone. *)
Definition keeps (path : bytes) (f f' : fs) : Prop :=
  local_file f' path = local_file f path /\ forall id, local_file f path = Some id -> f_data f' id = f_data f id.

(** A run that nothing but the network influences. *)
Definition receive_run (g : run_cfg) (wc : wcfg) (keys : option client_keys) (p : rprog) (l : list rin) : rprog :=
  fold_left (fun p i => fst (receive_turn g wc keys p i)) l p.
Definition send_run (g : run_cfg) (wc : wcfg) (keys : option client_keys) (f : fs) (p : uphase) (l : list sin) : uphase :=
  fold_left (fun p i => fst (send_turn g wc keys f p i)) l p.
(** Nothing arrived in the turn, the request was sent. *)
Definition quiet (i : rin) : Prop := ri_ev i = RvBlock.
Definition squiet (i : sin) : Prop := si_ev i = RvBlock.

(** A command is waiting for the first answer: since its start only requests have been sent and nothing has
    arrived.  [d] is one of the requests, as it is on the network. *)
Definition request_of (g : run_cfg) (wc : wcfg) (write : bool) (ex : exts) (d : bytes) : Prop :=
  exists nonce, blen nonce = 24 /\ client_send (ru_c g) (wc_sock wc) nonce (asking g write ex) = Ok d.
(** The answer [w] is one that the client agrees to (for receive: an answer with options, not the first block of a server
    that knows none); [k]: what is agreed. *)
Definition agrees (g : run_cfg) (wc : wcfg) (keys : option client_keys) (write : bool) (ex : exts) (w : bytes) (k : cside) : Prop :=
  exists p q sp, client_recv (ru_c g) (wc_sock wc) (takeN (wc_buf wc) w) = Ok p /\
    query_step (ru_c g) (wc_cfg wc) write true (wc_opts wc) ex sp (ru_txt g) p = QDone q /\
    (q_ack q = true \/ write = true /\ 1 <= op_window (wc_opts wc) <= 65535) /\ k = agreed g wc keys q.

(** The packets that were sent to [peer], sealed (WorldModel.client_sealed), with ghost marks (SystemModel.ghost). *)
Definition all_sealed (c : crypto) (peer : CliModel.addr) (mark : bytes -> option N) (out : list sent) (new : list dgram) : Prop :=
  Forall2 (fun x d => short (sn_plain x) /\ snd d = mark (sn_plain x) /\ exists n, blen n = ENCRYPTION_NONCE_SIZE /\
    client_send c (sn_sock x) n (sn_plain x) = Ok (fst d)) (filter (fun x => same_addr (sn_to x) peer) out) new.
(** Ghost marks: the number of blocks stored after a turn, the block sent in a turn. *)
Definition rmark (g : run_cfg) (p : rprog) (i : rin) (plain : bytes) : option N :=
  match rp_ph p with
  | RGet k from _ s st =>
      let data := get_data (client_dec (ru_c g) (k_sock k) (op_bs (k_opts k))) (cr_w st) (get_ev from (ri_ev i)) in
      let '(_, _, failed, _) := store (ru_c g) (rp_fs p) s data i in
      ghost plain (w_written (cr_w st) + match data with Some _ => if failed then 0 else 1 | None => 0 end)
  | _ => ghost plain 0
  end.
Definition umark (g : run_cfg) (f : fs) (p : uphase) (i : sin) (plain : bytes) : option N :=
  match p with
  | USend k _ _ src st =>
      ghost plain (reader_cur (cs_r (fst (fst (sender_send (read_as g (content f (Some (Reads src))) (bs_enc (k_opts k))) st
        (N.max (op_bs (k_opts k) + DATA_PACKET_HEADER_SIZE) MIN_BUFFER_SIZE) (si_retry i)
        (read_io g src (cs_r st) (si_retry i) (si_io i)) (si_sock i))))))
  | _ => None
  end.

(** The worlds of WorldModel with whole runs in the place of the clients' loops, and the disks of the clients'
    machines, which other programs use too.  [peer] is the address of the server's socket for this
    client, [w] the server's answer. *)
Section W.
Context {S : Type} (step : S -> took -> S -> outs -> Prop) (view : S -> ServerModel.addr -> option entry).
Variables (g : run_cfg) (wc : wcfg) (keys : option client_keys) (a : ServerModel.addr) (peer : CliModel.addr) (w : bytes).
Notation c := (ru_c g).
Notation path := (CliModel.cl_local (ru_start g)).

(** What may arrive: while the client waits for the answer nothing else (an error of the socket may be
    reported); afterwards, from the server's socket, what it has sent, and from elsewhere anything. *)
Definition transfer_event (down : list dgram) (e : rev_) (x : dgram) : Prop :=
  match e with
  | RvFrom src wire => src = peer /\ fst x = wire /\ In x down \/ src <> peer /\ snd x = None
  | _ => snd x = None
  end.
Definition answer_only (e : rev_) : Prop := match e with RvFrom src wire => src = peer /\ wire = w | _ => True end.
Definition rheard (p : rprog) (down : list dgram) (e : rev_) (x : dgram) : Prop :=
  match rp_ph p with
  | RAsk _ => answer_only e /\ snd x = None
  | RGet _ _ _ _ _ => transfer_event down e x
  | _ => snd x = None
  end.
Definition uheard (p : uphase) (down : list dgram) (e : rev_) (x : dgram) : Prop :=
  match p with
  | UAsk _ _ => answer_only e /\ snd x = None
  | USend _ _ _ _ _ => transfer_event down e x
  | _ => snd x = None
  end.

Record rworld := mkRW {
  rw_srv : S; rw_over : bool; rw_prog : rprog; rw_down : list dgram; rw_up : list dgram; rw_sc : N; rw_ss : N }.
Inductive rwstep (n : N) : rworld -> rworld -> Prop :=
| rw_server s t s' o e new p down up sc ss :
    step s t s' o -> hears a t = false -> view s a = Some e ->
    server_sealed c e (entry_mark (view s' a)) (sent_to a o) new ->
    rwstep n (mkRW s false p down up sc ss) (mkRW s' (ended (view s' a)) p (new ++ down) up sc ss)
| rw_server_receives s x v s' o e new p down up sc ss :
    step s (TookClient a (fst x) v) s' o -> In x up -> fresh_enough n ss x -> view s a = Some e ->
    server_sealed c e (entry_mark (view s' a)) (sent_to a o) new ->
    rwstep n (mkRW s false p down up sc ss) (mkRW s' (ended (view s' a)) p (new ++ down) up sc (see ss x))
| rw_server_later s t s' o p down up sc ss :
    step s t s' o -> rwstep n (mkRW s true p down up sc ss) (mkRW s' true p down up sc ss)
| rw_client s over p down up sc ss i x p' out new :
    rheard p down (ri_ev i) x -> fresh_enough n sc x -> ri_short i = None ->
    receive_turn g wc keys p i = (p', out) -> all_sealed c peer (rmark g p i) out new ->
    rwstep n (mkRW s over p down up sc ss) (mkRW s over p' down (new ++ up) (see sc x) ss)
| rw_other s over f f' ph down up sc ss :
    keeps path f f' -> rwstep n (mkRW s over (mkRP f ph) down up sc ss) (mkRW s over (mkRP f' ph) down up sc ss).
Inductive rwreach (n : N) (W0 : rworld) : rworld -> Prop :=
| rwr_init : rwreach n W0 W0
| rwr_step W W' : rwreach n W0 W -> rwstep n W W' -> rwreach n W0 W'.

(** [sv_kept]: the file stored by the server, as in WorldModel. *)
Record sworld := mkSW_ {
  sv_srv : S; sv_over : bool; sv_kept : bytes; sv_fs : fs; sv_prog : uphase;
  sv_down : list dgram; sv_up : list dgram; sv_sc : N; sv_ss : N }.
Inductive swstep (src : source) (n : N) : sworld -> sworld -> Prop :=
| sw_server s t s' o e new kept f p down up sc ss :
    step s t s' o -> hears a t = false -> view s a = Some e ->
    server_sealed c e (entry_mark (view s' a)) (sent_to a o) new ->
    swstep src n (mkSW_ s false kept f p down up sc ss) (mkSW_ s' (ended (view s' a)) (keep kept (view s' a)) f p (new ++ down) up sc ss)
| sw_server_receives s x v s' o e new kept f p down up sc ss :
    step s (TookClient a (fst x) v) s' o -> e_short v = None -> In x up -> fresh_enough n ss x -> view s a = Some e ->
    server_sealed c e (entry_mark (view s' a)) (sent_to a o) new ->
    swstep src n (mkSW_ s false kept f p down up sc ss)
      (mkSW_ s' (ended (view s' a)) (keep kept (view s' a)) f p (new ++ down) up sc (see ss x))
| sw_server_later s t s' o kept f p down up sc ss :
    step s t s' o -> swstep src n (mkSW_ s true kept f p down up sc ss) (mkSW_ s' true kept f p down up sc ss)
| sw_client s over kept f p down up sc ss i x p' out new :
    uheard p down (si_ev i) x -> fresh_enough n sc x ->
    send_turn g wc keys f p i = (p', out) -> all_sealed c peer (umark g f p i) out new ->
    swstep src n (mkSW_ s over kept f p down up sc ss) (mkSW_ s over kept f p' down (new ++ up) (see sc x) ss)
| sw_other s over kept f f' p down up sc ss :
    content f' (Some (Reads src)) = content f (Some (Reads src)) ->
    swstep src n (mkSW_ s over kept f p down up sc ss) (mkSW_ s over kept f' p down up sc ss).
Inductive swreach (src : source) (n : N) (W0 : sworld) : sworld -> Prop :=
| swr_init : swreach src n W0 W0
| swr_step W W' : swreach src n W0 W -> swstep src n W W' -> swreach src n W0 W'.
End W.
Arguments mkRW {S}. Arguments rw_srv {S}. Arguments rw_over {S}. Arguments rw_prog {S}. Arguments rw_down {S}. Arguments rw_up {S}. Arguments rw_sc {S}. Arguments rw_ss {S}.
Arguments mkSW_ {S}. Arguments sv_srv {S}. Arguments sv_over {S}. Arguments sv_kept {S}. Arguments sv_fs {S}. Arguments sv_prog {S}. Arguments sv_down {S}. Arguments sv_up {S}. Arguments sv_sc {S}. Arguments sv_ss {S}.

(** ** The server's side *)
Section A.
Context {S : Type} (sv : server S) (c : crypto) (sg : srvcfg) (fg : fcfg) (dirsize : N).
(** The server takes the request [d] of client [a], opens the file [r] for it, and answers [w]
    (StoreSpec.begins without the client). *)
Definition answers (wr : bool) (st : disk S) (a : ServerModel.addr) (d name : bytes) (st' : disk S) (r : opened) (e : entry) (w : bytes) : Prop :=
  exists i f' q s1 o,
    blen (h_nonce (i_henv i)) = 24 /\ (forall n, q = Some (Some n) -> n <= U64_MAX) /\
    sv_looked sv (dk_srv st) a = true /\
    file_request c (g_cfg sg) (h_eph (i_henv i)) (recv_cut sg d) = Some (wr, name) /\
    open_request c (g_cfg sg) fg dirsize (dk_fs st) (h_eph (i_henv i)) (recv_cut sg d) = (f', q, Some r) /\
    sv_main sv (loaded sv st) a d (with_files i q (content f' (Some r))) s1 o /\
    sent_to a o = [OWire w] /\ sv_view sv s1 a = Some e /\
    st' = mkDk s1 f' (still_open sv s1 (fun b => if b =? a then Some r else dk_open st b)).
End A.

(** A request that arrives whole and can be understood: the name can be transported, the client has the
    server's key if it has any, a request in clear is not by accident a sealed packet. *)
Definition understood (g : run_cfg) (wc : wcfg) (cfg : scfg) (d : bytes) : Prop :=
  good_string (CliModel.cl_remote (ru_start g)) /\ right_key (ru_c g) cfg (CliModel.cl_cfg (ru_start g)) /\
  unambiguous (ru_c g) cfg (wc_sock wc) d /\ server_receive cfg d = Ok d.

(** The command has been started and waits: nothing has arrived so far. *)
Definition receive_waiting (g : run_cfg) (f : fs) (wc : wcfg) (keys : option client_keys) (ex : exts) (p : rprog) : Prop :=
  run_ask g false (ru_opts g) = Some (wc, keys, ex) /\
  exists now l, Forall quiet l /\ p = receive_run g wc keys (mkRP f (RAsk (wait_init wc ex now))) l.
Definition send_waiting (g : run_cfg) (f : fs) (dirsize : N) (src : source) (wc : wcfg) (keys : option client_keys) (ex : exts) (p : uphase) : Prop :=
  exists now l, Forall squiet l /\ send_start g f dirsize now = Some (wc, keys, UAsk src (wait_init wc ex now)) /\
    p = send_run g wc keys f (UAsk src (wait_init wc ex now)) l.
(** A connection with these options and this key leaves the datagram [d] aside: it cannot be decrypted, or it is neither
    an acknowledgement nor data nor an error. *)
Definition ignored (c : crypto) (o : options) (key : option bytes) (d : bytes) : Prop :=
  match server_decrypt c (op_enc o) key d with
  | Ok p => match from_bytes p with Ok (PData _ _) | Ok (PAck _) | Ok (PError _ _) => False | _ => True end
  | Err _ => True
  | Panic => False
  end.
(** The server's socket for the client is on the host the command was given.  If it is on the port the command was given
    too (the server without --require-server-port-change), then the requests the command repeats may reach the new
    connection, where they are left aside. *)
Definition answers_at (g : run_cfg) (wc : wcfg) (write : bool) (ex : exts) (ign : bytes -> Prop) (peer : CliModel.addr) : Prop :=
  same_ip peer (CliModel.cl_endpoint (ru_start g)) = true /\
  (same_addr (CliModel.cl_endpoint (ru_start g)) peer = true -> forall d, request_of g wc write ex d -> ign d).

(** Everything a run sends. *)
Fixpoint receive_sent (g : run_cfg) (wc : wcfg) (keys : option client_keys) (p : rprog) (l : list rin) : list sent :=
  match l with
  | [] => []
  | i :: l => let '(p', out) := receive_turn g wc keys p i in out ++ receive_sent g wc keys p' l
  end.
Fixpoint send_sent (g : run_cfg) (wc : wcfg) (keys : option client_keys) (f : fs) (p : uphase) (l : list sin) : list sent :=
  match l with
  | [] => []
  | i :: l => let '(p', out) := send_turn g wc keys f p i in out ++ send_sent g wc keys f p' l
  end.
(** Nothing but the file [id], to which [path] leads, differs; if it is new, so is one name. *)
Definition only_local (path : bytes) (f f' : fs) (id : N) : Prop :=
  local_file f' path = Some id /\ (forall j, j <> id -> f_data f' j = f_data f j) /\
  (local_file f path = Some id /\ (forall q, at_ f' q = at_ f q) \/
   local_file f path = None /\ id = f_next f /\
   exists d n, at_ f (d ++ [n]) = None /\ at_ f' (d ++ [n]) = Some (NFile id) /\ (forall q, q <> d ++ [n] -> at_ f' q = at_ f q)).
