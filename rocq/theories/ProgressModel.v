(** Progress of a transfer on a server with other clients: WorldModel's runs in which exchanges are
    counted.  An exchange is: the receiver is handed the first block the sender has no
    acknowledgement for, and, if the receiver answers, its answer reaches the sender.  Anything may
    happen in between: other clients, losses, duplicates, delays, retries, attempts that fail. *)
From Verif Require Import Base PacketModel MapperModel ReaderModel ReaderSpec ConfigModel CryptoModel ExtModel PathModel ConnModel
  ClientModel ConnSpec HandshakeModel ServerModel ServerSpec SystemModel WorldModel.

Section P.
Context {S : Type} (step : S -> took -> S -> outs -> Prop) (view : S -> addr -> option entry).
Variables (c : crypto) (a : addr) (k : cside).

(** Download of [file].  [bs] is the agreed block size (plaintext, without what encryption adds), [m] counts exchanges; the
    second index is the answer still on its way.  Receiver: src/client/receiver.rs 168-300; sender:
    src/server/connection.rs 160-330.  The sender's count of acknowledged bytes (Connection.transfer)
    tells which block is the first unacknowledged one. *)
Inductive dhanded (bs : N) : @dworld S -> list dgram -> dworld -> Prop :=
| dhanded_intro s cl down up sc ss e x i now txt cl' plain stat' new :
    (* the sender is not finished and has [i - 1] blocks acknowledged *)
    view s a = Some e -> c_finished (en_conn e) = false -> 1 <= i -> c_transfer (en_conn e) = (i - 1) * bs ->
    (* block [i] reaches the receiver, whose disk and socket work *)
    In (x, Some i) down ->
    recv_step (client_dec c (k_sock k) (op_bs (k_opts k))) (k_opts k) (k_max k) (k_timeout k) cl (EvDatagram true x)
      now false None true txt = (cl', plain, stat') ->
    client_sealed c (k_sock k) (w_written (cr_w cl')) plain new ->
    dhanded bs (mkDW s false cl CRun down up sc ss) new (mkDW s false cl' stat' down (new ++ up) (see sc (x, Some i)) ss).
(** No code of its own: runs of WorldModel. *)
Inductive dexchanges (bs n : N) (W0 : @dworld S) : N -> option dgram -> dworld -> Prop :=
| dx_start : dexchanges bs n W0 0 None W0
| dx_any m w W W' : dexchanges bs n W0 m w W -> dwstep step view c a k n W W' -> dexchanges bs n W0 m w W'
| dx_lost m x W : dexchanges bs n W0 m (Some x) W -> dexchanges bs n W0 m None W
| dx_handed m W new W' :
    dexchanges bs n W0 m None W -> dhanded bs W new W' ->
    dexchanges bs n W0 (match new with [] => m + 1 | _ => m end) (hd_error new) W'
| dx_answered m s cl stat down up sc ss e x v s' o e' new :
    dexchanges bs n W0 m (Some x) (mkDW s false cl stat down up sc ss) ->
    step s (TookClient a (fst x) v) s' o -> In x up -> fresh_enough n ss x -> view s a = Some e -> view s' a = Some e' ->
    server_sealed c e (entry_mark (view s' a)) (sent_to a o) new ->
    dexchanges bs n W0 (m + 1) None (mkDW s' false cl stat (new ++ down) up sc (see ss x)).

(** Upload.  Sender: src/client/sender.rs 168-290 ([cs_total]: bytes acknowledged); receiver:
    src/server/connection.rs 160-330. *)
Inductive uhanded (bs : N) : @uworld S -> list dgram -> uworld -> Prop :=
| uhanded_intro s kept cl down up sc ss e x i v s' o e' new :
    1 <= i -> cs_total cl = (i - 1) * bs -> In (x, Some i) up ->
    (* the connection is alive, the server's disk and socket work *)
    view s a = Some e -> c_finished (en_conn e) = false -> c_invalid (en_conn e) = None ->
    step s (TookClient a x v) s' o -> e_io v = false -> e_short v = None -> e_sock v = true -> view s' a = Some e' ->
    server_sealed c e (entry_mark (view s' a)) (sent_to a o) new ->
    uhanded bs (mkUW s false kept cl CRun down up sc ss) new
      (mkUW s' false (keep kept (view s' a)) cl CRun (new ++ down) up sc (see ss (x, Some i))).
(** No code of its own: runs of WorldModel. *)
Inductive uanswered (n : N) (x : dgram) : @uworld S -> uworld -> Prop :=
| uanswered_intro s over kept cl down up sc ss now cl' stat' :
    In x down -> fresh_enough n sc x ->
    sender_recv (client_dec c (k_sock k) (op_bs (k_opts k))) (k_timeout k) cl (EvDatagram true (fst x)) now = (cl', stat') ->
    uanswered n x (mkUW s over kept cl CRun down up sc ss) (mkUW s over kept cl' stat' down up (see sc x) ss).
(** No code of its own: runs of WorldModel. *)
Inductive uexchanges (file : bytes) (bs n : N) (W0 : @uworld S) : N -> option dgram -> uworld -> Prop :=
| ux_start : uexchanges file bs n W0 0 None W0
| ux_any m w W W' : uexchanges file bs n W0 m w W -> uwstep step view c a k file n W W' -> uexchanges file bs n W0 m w W'
| ux_lost m x W : uexchanges file bs n W0 m (Some x) W -> uexchanges file bs n W0 m None W
| ux_handed m W new W' :
    uexchanges file bs n W0 m None W -> uhanded bs W new W' ->
    uexchanges file bs n W0 (match new with [] => m + 1 | _ => m end) (hd_error new) W'
| ux_answered m W x W' :
    uexchanges file bs n W0 m (Some x) W -> uanswered n x W W' -> uexchanges file bs n W0 (m + 1) None W'.
End P.

(** Turns of the single threaded server (src/server/single_thread.rs 104-420) in which the client at
    [a] gets no block although the connection [e] is due for one (its retry time has passed, disk
    and socket would work) and [L] is the list of clients downloading; nothing of [a] is taken. *)
Definition due (e : entry) (v : env) : Prop := retry_due (en_conn e) (e_now v) = true /\ e_io v = false /\ e_sock v = true.
(** No code of its own: runs of WorldModel. *)
Inductive neglected (c : crypto) (g : srvcfg) (L : list addr) (a : addr) (e : entry) : sstate -> list input -> Prop :=
| neglected_nil s : neglected c g L a e s []
| neglected_cons s i s1 o1 s2 o2 s3 o3 is :
    step_clean g s i = (s1, o1) -> map fst (filter (fun x => active (snd x)) (s_clients s1)) = L ->
    due e (i_send1 i a) -> due e (i_send2 i a) ->
    step_send s1 i = (s2, o2) -> sent_to a o2 = [] ->
    step_recv c g s2 i = Some (s3, o3) -> hears a (taken s2 i) = false -> neglected c g L a e s3 is ->
    neglected c g L a e s (i :: is).
