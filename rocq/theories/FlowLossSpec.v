(** Vocabulary for what lost datagrams do to the timing of uploads (PropFlowLoss.v). *)
From Verif Require Import Base PacketModel ReaderModel ReaderSpec ConfigModel ConnModel ClientModel FlowModel.

(** An upload that goes on without an end of its own until [now], together with what it has sent and when.  The
    network is fast: the handshake takes at most [m], and an acknowledgement from the server arrives at most [m]
    after the client has sent the block that it acknowledges - or never; turns are at most [g] apart. *)
Inductive answered_within (m g : N) (dec : bytes -> option bytes) (file : bytes) (o : flow_opts) (kd : kind)
  : sloop -> N -> list (bytes * N) -> Prop :=
| aw_start t0 t1 r : t1 - t0 <= m -> rate_start o t0 t1 = Ok r ->
    answered_within m g dec file o kd (sloop_new (new_reader kd (fo_bs_enc o) (fo_window o)) r t1) t1 []
| aw_send st now sent buflen t st' plain : answered_within m g dec file o kd st now sent ->
    now <= t <= now + g -> fo_bs_enc o + DATA_PACKET_HEADER_SIZE <= buflen ->
    loop_send file o st buflen IoOk (Some true) t t = Ok (st', plain, CRun) ->
    answered_within m g dec file o kd st' t (map (fun p => (p, t)) plain ++ sent)
| aw_recv st now sent e t st' : answered_within m g dec file o kd st now sent ->
    now <= t <= now + g ->
    (forall wire p b, e = EvDatagram true wire -> dec wire = Some p -> from_bytes p = Ok (PAck b) ->
       exists data s, In (to_bytes (PData b data), s) sent /\ s <= t <= s + m) ->
    loop_recv dec o st e t = Ok (st', CRun) ->
    answered_within m g dec file o kd st' t sent.
(** How often [p] was sent. *)
Definition times_sent (p : bytes) (sent : list (bytes * N)) : nat := length (filter (fun x => beq (fst x) p) sent).
