(** A client and a server connected by an unreliable network.

    The network remembers every datagram ever sent in each direction and may deliver any of
    them at any time, any number of times, in any order, or never: loss, duplication, delay and
    reordering.  Each datagram carries a ghost mark: the true index of the data block or
    acknowledgement in it.  The programs never look at it; it is used to state how old a
    delivered datagram may be.

    Server and client run the functions of ConnModel and ClientModel: spawn_reader and
    spawn_writer (src/server/multi_thread.rs 241-330), or the single threaded server, which calls
    the same helpers (src/server/single_thread.rs 104-420), against the loops of
    src/client/{receiver,sender}.rs.  The server sends blocks only while the connection is
    neither finished nor invalid (timeout_client comes first, multi_thread.rs 256; filter,
    single_thread.rs 427-430), but it handles what it receives also after that: the single
    threaded server until it removes the connection, every two seconds.
    Every call may happen at any time with any clock value, and may find the file or the socket
    failing. *)
From Verif Require Import Base PacketModel MapperModel ReaderModel ReaderSpec ConfigModel ConnModel ClientModel.

(** No code of its own: the network and the composition of src/server/helpers/{read,write}.rs with src/client/{receiver,sender}.rs. *)
Definition dgram : Type := bytes * option N.

(** A transfer: the file sent, the options both sides agreed on, the sender's kind of reader,
    the receiver's size limit, the time limits, and how each side decrypts.
    No code of its own: the network and the composition of src/server/helpers/{read,write}.rs with src/client/{receiver,sender}.rs. *)
Record params := mkParams {
  p_file : bytes; p_opts : options; p_kind : kind; p_max : N;
  p_ctimeout : N; p_stimeout : N;
  p_decs : bytes -> option bytes; p_decc : bytes -> option bytes }.
(** No code of its own: the network and the composition of src/server/helpers/{read,write}.rs with src/client/{receiver,sender}.rs. *)
Definition p_bs (P : params) : N := bs_enc (p_opts P).
(** No code of its own: the network and the composition of src/server/helpers/{read,write}.rs with src/client/{receiver,sender}.rs. *)
Definition p_n (P : params) : N := nblocks (p_file P) (p_bs P).

(** Block sizes are u16 and at least 512 (the minimum of the option); the stop-and-wait reader is only
    chosen for window 1; the block mapper can follow the transfer. *)
Definition valid (P : params) : Prop :=
  512 <= op_bs (p_opts P) /\ op_bs (p_opts P) < 65536 /\ 1 <= op_window (p_opts P) /\
  (p_kind P = KSingle -> op_window (p_opts P) = 1) /\
  (p_n P <= 55535 \/ op_window (p_opts P) <= 10000).

(** The block sent last by a reader.  src/readers: the block numbers kept by the three readers. *)
Definition reader_cur (r : reader) : N :=
  match r with RS s => s_read s | RM m => r_read m | RK k => k_cur k end.

(** Ghost mark of a datagram with plaintext [p].
    No code of its own: the network and the composition of src/server/helpers/{read,write}.rs with src/client/{receiver,sender}.rs. *)
Definition ghost (p : bytes) (i : N) : option N :=
  match from_bytes p with Ok (PData _ _) => Some i | Ok (PAck _) => Some i | _ => None end.
(** [new] are wire forms of the plaintexts [plain] for a peer decrypting with [dec].
    No code of its own: the network and the composition of src/server/helpers/{read,write}.rs with src/client/{receiver,sender}.rs. *)
Definition emitted (dec : bytes -> option bytes) (i : N) (plain : list bytes) (new : list dgram) : Prop :=
  Forall2 (fun p d => dec (fst d) = Some p /\ snd d = ghost p i) plain new.
(** How late a datagram may be: not limited for transfers of at most 55535 blocks, else at most
    10000 blocks behind the newest one delivered to the same side. *)
Definition not_too_old (P : params) (seen : N) (d : dgram) : Prop :=
  match snd d with Some i => p_n P <= 55535 \/ seen <= i + 10000 | None => True end.
(** No code of its own: the network and the composition of src/server/helpers/{read,write}.rs with src/client/{receiver,sender}.rs. *)
Definition see (seen : N) (d : dgram) : N :=
  match snd d with Some i => N.max seen i | None => seen end.

(** Datagrams left over from the handshake.
    No code of its own: the network and the composition of src/server/helpers/{read,write}.rs with src/client/{receiver,sender}.rs. *)
Definition stale_for_receiver (dec : bytes -> option bytes) (d : dgram) : Prop :=
  snd d = None /\
  match dec (fst d) with
  | Some p => match from_bytes p with Ok (PData _ _) => False | _ => True end
  | None => True
  end.
(** No code of its own: the network and the composition of src/server/helpers/{read,write}.rs with src/client/{receiver,sender}.rs. *)
Definition stale_for_sender (dec : bytes -> option bytes) (d : dgram) : Prop :=
  (snd d = None /\
   match dec (fst d) with
   | Some p => match from_bytes p with Ok (PAck _) => False | _ => True end
   | None => True
   end) \/
  (snd d = Some 0 /\ dec (fst d) = Some (to_bytes (PAck 0))).

(** What the client's socket may deliver: a datagram of the server, anything from anybody
    else, nothing, or an error.
    No code of its own: the network and the composition of src/server/helpers/{read,write}.rs with src/client/{receiver,sender}.rs. *)
Definition client_event (down : list dgram) (e : cev) (g : dgram) : Prop :=
  match e with
  | EvDatagram true x => fst g = x /\ In g down
  | _ => snd g = None
  end.

(** ** Download: the server sends *)
(** No code of its own: the network and the composition of src/server/helpers/{read,write}.rs with src/client/{receiver,sender}.rs. *)
Record dstate := mkD {
  d_conn : conn; d_reader : reader; d_live : bool;
  d_cl : crecv; d_stat : cstat;
  d_down : list dgram; d_up : list dgram;
  d_seenc : N; d_seens : N }.

(** No code of its own: the network and the composition of src/server/helpers/{read,write}.rs with src/client/{receiver,sender}.rs. *)
Definition dinit (P : params) (st : dstate) : Prop :=
  exists t t' down up,
    Forall (stale_for_receiver (p_decc P)) down /\ Forall (stale_for_sender (p_decs P)) up /\
    st = mkD (conn_new (p_opts P) t) (new_reader (p_kind P) (p_bs P) (op_window (p_opts P))) true
             (crecv_new t') CRun down up 0 0.

(** src/server/connection.rs 39-59: neither finished nor given up. *)
Definition running (c : conn) : Prop := c_invalid c = None /\ c_finished c = false.

(** No code of its own: the network and the composition of src/server/helpers/{read,write}.rs with src/client/{receiver,sender}.rs. *)
Inductive dstep (P : params) : dstate -> dstate -> Prop :=
| d_send c r cl stat down up sc ss buflen now io sock txt c' r' plain b new :
    running c ->
    send_data_block (p_file P) c r buflen now io sock txt = (c', r', plain, b) ->
    emitted (p_decc P) (reader_cur r') plain new ->
    dstep P (mkD c r true cl stat down up sc ss) (mkD c' r' true cl stat (new ++ down) up sc ss)
| d_server_receive c r cl stat down up sc ss g now c' r' ok :
    In g up -> not_too_old P ss g ->
    handle_read (p_decs P) c r (fst g) now = (c', r', ok) ->
    dstep P (mkD c r true cl stat down up sc ss)
            (mkD c' r' (match ok with Some _ => true | None => false end) cl stat down up sc (see ss g))
| d_server_end c r cl stat down up sc ss now sock txt plain new :
    timeout_client c (p_stimeout P) now sock txt = (true, plain) ->
    emitted (p_decc P) 0 plain new ->
    dstep P (mkD c r true cl stat down up sc ss) (mkD c r false cl stat (new ++ down) up sc ss)
| d_client c r live cl down up sc ss e g now io sock txt cl' plain stat' new :
    client_event down e g -> not_too_old P sc g ->
    recv_step (p_decc P) (p_opts P) (p_max P) (p_ctimeout P) cl e now io None sock txt = (cl', plain, stat') ->
    emitted (p_decs P) (w_written (cr_w cl')) plain new ->
    dstep P (mkD c r live cl CRun down up sc ss) (mkD c r live cl' stat' down (new ++ up) (see sc g) ss).

(** No code of its own: the network and the composition of src/server/helpers/{read,write}.rs with src/client/{receiver,sender}.rs. *)
Inductive dreach (P : params) : dstate -> Prop :=
| dreach_init st : dinit P st -> dreach P st
| dreach_step st st' : dreach P st -> dstep P st st' -> dreach P st'.

(** ** Upload: the client sends *)
(** No code of its own: the network and the composition of src/server/helpers/{read,write}.rs with src/client/{receiver,sender}.rs. *)
Record ustate := mkU {
  u_conn : conn; u_writer : writer; u_live : bool;
  u_cl : csend; u_stat : cstat;
  u_down : list dgram; u_up : list dgram;
  u_seenc : N; u_seens : N }.

(** No code of its own: the network and the composition of src/server/helpers/{read,write}.rs with src/client/{receiver,sender}.rs. *)
Definition uinit (P : params) (st : ustate) : Prop :=
  exists t t' down up,
    Forall (stale_for_sender (p_decc P)) down /\ Forall (stale_for_receiver (p_decs P)) up /\
    st = mkU (conn_new (p_opts P) t) writer_new true
             (mkCS (new_reader (p_kind P) (p_bs P) (op_window (p_opts P))) 0 t') CRun down up 0 0.

(** No code of its own: the network and the composition of src/server/helpers/{read,write}.rs with src/client/{receiver,sender}.rs. *)
Inductive ustep (P : params) : ustate -> ustate -> Prop :=
| u_send c w live cl down up sc ss buflen retry io sock cl' plain stat' new :
    op_bs (p_opts P) + DATA_PACKET_HEADER_SIZE <= buflen ->
    sender_send (p_file P) cl buflen retry io sock = (cl', plain, stat') ->
    emitted (p_decs P) (reader_cur (cs_r cl')) plain new ->
    ustep P (mkU c w live cl CRun down up sc ss) (mkU c w live cl' stat' down (new ++ up) sc ss)
| u_client_receive c w live cl down up sc ss e g now cl' stat' :
    client_event down e g -> not_too_old P sc g ->
    sender_recv (p_decc P) (p_ctimeout P) cl e now = (cl', stat') ->
    ustep P (mkU c w live cl CRun down up sc ss) (mkU c w live cl' stat' down up (see sc g) ss)
| u_server_receive c w cl stat down up sc ss g now io sock txt c' w' plain new :
    In g up -> not_too_old P ss g ->
    handle_write (p_decs P) c w (fst g) now (p_max P) io None sock txt = (c', w', plain) ->
    emitted (p_decc P) (w_written w') plain new ->
    ustep P (mkU c w true cl stat down up sc ss) (mkU c' w' true cl stat (new ++ down) up sc (see ss g))
| u_server_end c w cl stat down up sc ss now sock txt plain new :
    timeout_client c (p_stimeout P) now sock txt = (true, plain) ->
    emitted (p_decc P) 0 plain new ->
    ustep P (mkU c w true cl stat down up sc ss) (mkU c w false cl stat (new ++ down) up sc ss).

(** No code of its own: the network and the composition of src/server/helpers/{read,write}.rs with src/client/{receiver,sender}.rs. *)
Inductive ureach (P : params) : ustate -> Prop :=
| ureach_init st : uinit P st -> ureach P st
| ureach_step st st' : ureach P st -> ustep P st st' -> ureach P st'.
