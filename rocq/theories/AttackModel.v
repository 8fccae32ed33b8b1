(** WorldModel's worlds with an attacker on the line.

    The attacker sees every datagram, knows everything but the session key, and hands either side
    any bytes at any time under the other's address.  The one thing it cannot do is the idealised
    strength of the AEAD cipher: bytes that open under the session key hold a plaintext that the
    client or the server has sealed under that key in this session.  Both directions use the same
    key (src/client/encryption_socket.rs 60-140, src/server/connection.rs 106-158), so this
    includes handing a side its own packets back. *)
From Verif Require Import Base PacketModel MapperModel ReaderModel ReaderSpec ConfigModel CryptoModel ExtModel PathModel ConnModel
  ClientModel ConnSpec HandshakeModel ServerModel ServerSpec SystemModel WorldModel.

(** Where bytes [y] come from that a side opening datagrams with [dec] is handed: they do not open; or
    they open to what that side itself has sealed ([mine]); or to what the other side has sealed
    ([theirs]), which counts as a delivery of that datagram and must not be too late for a block
    number of 16 bits.  The last argument: the newest mark delivered so far, afterwards. *)
Inductive origin (dec : bytes -> option bytes) (n seen : N) (mine theirs : list dgram) (y : bytes) : N -> Prop :=
| or_garbage : dec y = None -> origin dec n seen mine theirs y seen
| or_reflected x p : In x mine -> dec y = Some p -> dec (fst x) = Some p -> origin dec n seen mine theirs y seen
| or_replayed x p : In x theirs -> dec y = Some p -> dec (fst x) = Some p -> fresh_enough n seen x ->
    origin dec n seen mine theirs y (see seen x).

Section A.
Context {S : Type} (step : S -> took -> S -> outs -> Prop) (view : S -> addr -> option entry)
  (cut : entry -> bytes -> bytes).
Variables (c : crypto) (a : addr) (k : cside).

(** Download under attack.  No code of its own: the attacker, runs of WorldModel. *)
Inductive dastep (n : N) : @dworld S -> @dworld S -> Prop :=
| da_honest W W' : dwstep step view c a k n W W' -> dastep n W W'
| da_client s over cl down up sc ss y sc' v cl' plain stat' new :
    origin (client_dec c (k_sock k) (op_bs (k_opts k))) n sc up down y sc' -> e_short v = None ->
    recv_step (client_dec c (k_sock k) (op_bs (k_opts k))) (k_opts k) (k_max k) (k_timeout k) cl (EvDatagram true y)
      (e_now v) (e_io v) (e_short v) (e_sock v) (e_txt v) = (cl', plain, stat') ->
    client_sealed c (k_sock k) (w_written (cr_w cl')) plain new ->
    dastep n (mkDW s over cl CRun down up sc ss) (mkDW s over cl' stat' down (new ++ up) sc' ss)
| da_server s y v s' o e new cl stat down up sc ss ss' :
    step s (TookClient a y v) s' o -> view s a = Some e ->
    origin (fun y => entry_dec c e (cut e y)) n ss down up y ss' ->
    server_sealed c e (entry_mark (view s' a)) (sent_to a o) new ->
    dastep n (mkDW s false cl stat down up sc ss)
             (mkDW s' (ended (view s' a)) cl stat (new ++ down) up sc ss').
(** No code of its own: the attacker, runs of WorldModel. *)
Inductive dareach (n : N) (W0 : @dworld S) : @dworld S -> Prop :=
| dar_init : dareach n W0 W0
| dar_step W W' : dareach n W0 W -> dastep n W W' -> dareach n W0 W'.

(** Upload under attack.  No code of its own: the attacker, runs of WorldModel. *)
Inductive uastep (file : bytes) (n : N) : @uworld S -> @uworld S -> Prop :=
| ua_honest W W' : uwstep step view c a k file n W W' -> uastep file n W W'
| ua_client s over kept cl down up sc ss y sc' now cl' stat' :
    origin (client_dec c (k_sock k) (op_bs (k_opts k))) n sc up down y sc' ->
    sender_recv (client_dec c (k_sock k) (op_bs (k_opts k))) (k_timeout k) cl (EvDatagram true y) now = (cl', stat') ->
    uastep file n (mkUW s over kept cl CRun down up sc ss) (mkUW s over kept cl' stat' down up sc' ss)
| ua_server s y v s' o e new kept cl stat down up sc ss ss' :
    step s (TookClient a y v) s' o -> e_short v = None -> view s a = Some e ->
    origin (fun y => entry_dec c e (cut e y)) n ss down up y ss' ->
    server_sealed c e (entry_mark (view s' a)) (sent_to a o) new ->
    uastep file n (mkUW s false kept cl stat down up sc ss)
             (mkUW s' (ended (view s' a)) (keep kept (view s' a)) cl stat (new ++ down) up sc ss').
(** No code of its own: the attacker, runs of WorldModel. *)
Inductive uareach (file : bytes) (n : N) (W0 : @uworld S) : @uworld S -> Prop :=
| uar_init : uareach file n W0 W0
| uar_step W W' : uareach file n W0 W -> uastep file n W W' -> uareach file n W0 W'.
End A.

(** What a side opens and then does not take for a data block, or for an acknowledgement.
    No code of its own: the attacker, runs of WorldModel. *)
Definition no_data (dec : bytes -> option bytes) (d : dgram) : Prop :=
  forall p b x, dec (fst d) = Some p -> from_bytes p <> Ok (PData b x).
(** No code of its own: the attacker, runs of WorldModel. *)
Definition no_ack (dec : bytes -> option bytes) (d : dgram) : Prop :=
  forall p b, dec (fst d) = Some p -> from_bytes p <> Ok (PAck b).

(** Whole packets are sealed: headers and acknowledgements too.
    No code of its own: the attacker, runs of WorldModel. *)
Definition sealed_packets (o : options) : Prop := op_enc o = LProtocol \/ op_enc o = LFull.
