(** Vocabulary for the timing of uploads (PropFlow.v). *)
From Verif Require Import Base PacketModel MapperModel ReaderModel ReaderSpec ConfigModel ConnModel ClientModel FlowModel.

(** 2^(j-9) seconds, in nanoseconds: 1.953125 ms doubled [j] times. *)
Definition lim (j : N) : N := 1953125 * 2 ^ j.
Definition second : N := 1000000000.

(** Every round trip the client measures is at most [m] long: an acknowledgement from the server
    for the block being timed arrives at [t]. *)
Definition sample_le (m : N) (dec : bytes -> option bytes) (st : sloop) (e : cev) (t : N) : Prop :=
  forall wire p, e = EvDatagram true wire -> dec wire = Some p -> from_bytes p = Ok (PAck (r_for (sl_rate st))) ->
    t - r_start (sl_rate st) <= m.

(** The states an upload goes through while it runs; the handshake and all round trips took at
    most [m] each. *)
Inductive upload_loop (m : N) (dec : bytes -> option bytes) (file : bytes) (o : flow_opts) (kd : kind) : sloop -> Prop :=
| ul_start t0 t1 t r : t1 - t0 <= m -> rate_start o t0 t1 = Ok r ->
    upload_loop m dec file o kd (sloop_new (new_reader kd (fo_bs_enc o) (fo_window o)) r t)
| ul_send st buflen io sock t t' st' plain : upload_loop m dec file o kd st -> fo_bs_enc o + DATA_PACKET_HEADER_SIZE <= buflen ->
    loop_send file o st buflen io sock t t' = Ok (st', plain, CRun) -> upload_loop m dec file o kd st'
| ul_recv st e t st' : upload_loop m dec file o kd st -> sample_le m dec st e t ->
    loop_recv dec o st e t = Ok (st', CRun) -> upload_loop m dec file o kd st'.

(** The loop goes on from [st0] at [t0], its turns at most [g] apart, file and socket work, and
    nothing is sent; [t]: the latest turn. *)
Inductive silent (m : N) (dec : bytes -> option bytes) (file : bytes) (o : flow_opts) (st0 : sloop) (t0 g : N) : N -> sloop -> Prop :=
| si_start : silent m dec file o st0 t0 g t0 st0
| si_turn t st buflen u u' st' : silent m dec file o st0 t0 g t st -> t <= u <= t + g -> fo_bs_enc o + DATA_PACKET_HEADER_SIZE <= buflen ->
    loop_send file o st buflen IoOk (Some true) u u' = Ok (st', [], CRun) -> silent m dec file o st0 t0 g u st'
| si_event t st e u st' : silent m dec file o st0 t0 g t st -> t <= u -> sample_le m dec st e u ->
    loop_recv dec o st e u = Ok (st', CRun) -> silent m dec file o st0 t0 g t st'.

(** No acknowledgement arrives. *)
Definition no_ack (dec : bytes -> option bytes) (e : cev) : Prop :=
  forall wire p b, e = EvDatagram true wire -> dec wire = Some p -> from_bytes p <> Ok (PAck b).
(** The loop from its start until [until], as long as no acknowledgement arrives; [out]: what was
    sent. *)
Inductive unanswered (dec : bytes -> option bytes) (file : bytes) (o : flow_opts) (st0 : sloop) (until : N)
  : sloop -> list bytes -> Prop :=
| un_start : unanswered dec file o st0 until st0 []
| un_send st out buflen io sock t t' st' plain : unanswered dec file o st0 until st out ->
    fo_bs_enc o + DATA_PACKET_HEADER_SIZE <= buflen -> sl_last_sent st <= t <= t' -> t <= until ->
    loop_send file o st buflen io sock t t' = Ok (st', plain, CRun) -> unanswered dec file o st0 until st' (out ++ plain)
| un_recv st out e t st' : unanswered dec file o st0 until st out -> no_ack dec e ->
    loop_recv dec o st e t = Ok (st', CRun) -> unanswered dec file o st0 until st' out.

(** The packet carrying block [k]. *)
Definition block_packet (file : bytes) (bs k : N) : bytes := to_bytes (PData (k mod 65536) (block_of file bs k)).

(** The same options in a debug (true) or release (false) build. *)
Definition build (o : flow_opts) (chk : bool) : flow_opts :=
  mkFO (fo_bs o) (fo_bs_enc o) (fo_window o) (fo_retry o) (fo_timeout o) chk.

(** The loop with the time of the last datagram sent (at first, of its start). *)
Inductive upload_clock (m : N) (dec : bytes -> option bytes) (file : bytes) (o : flow_opts) (kd : kind) : sloop -> N -> Prop :=
| uc_start t0 t1 t r : t1 - t0 <= m -> rate_start o t0 t1 = Ok r ->
    upload_clock m dec file o kd (sloop_new (new_reader kd (fo_bs_enc o) (fo_window o)) r t) t
| uc_send st last buflen io sock t t' st' plain : upload_clock m dec file o kd st last ->
    fo_bs_enc o + DATA_PACKET_HEADER_SIZE <= buflen ->
    loop_send file o st buflen io sock t t' = Ok (st', plain, CRun) ->
    upload_clock m dec file o kd st' (match plain with [] => last | _ => t' end)
| uc_recv st last e t st' : upload_clock m dec file o kd st last -> sample_le m dec st e t ->
    loop_recv dec o st e t = Ok (st', CRun) -> upload_clock m dec file o kd st' last.
