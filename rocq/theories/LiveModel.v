(** Fault-free rounds, used to state that a transfer always can complete: the sender's retry
    timer has expired, it sends, that datagram is delivered, and the acknowledgement it causes,
    if any, is delivered.  Rounds may be interleaved with arbitrary other steps of
    SystemModel. *)
From Verif Require Import Base PacketModel ReaderModel ReaderSpec ConfigModel ConnModel ClientModel SystemModel.

(** Every plaintext up to the negotiated size can be put on the wire.  No code of its own: runs of SystemModel. *)
Definition encodable (P : params) (dec : bytes -> option bytes) : Prop :=
  forall p, blen p <= DATA_PACKET_HEADER_SIZE + p_bs P -> exists x, dec x = Some p.

(** No code of its own: runs of SystemModel. *)
Definition d_alive (st : dstate) : Prop :=
  d_live st = true /\ running (d_conn st) /\ d_stat st = CRun.

(** The server receives the datagrams [new] (at most one).  No code of its own: runs of SystemModel. *)
Definition server_gets_acks (P : params) (c : conn) (r : reader) (new : list dgram) (now : N)
  : conn * reader * option unit :=
  match new with
  | g :: _ => handle_read (p_decs P) c r (fst g) now
  | [] => (c, r, Some tt)
  end.
(** No code of its own: runs of SystemModel. *)
Definition see_all (seen : N) (new : list dgram) : N := fold_left see new seen.

(** No code of its own: runs of SystemModel. *)
Inductive dround (P : params) : dstate -> dstate -> Prop :=
| dround_intro c r cl down up sc ss buflen now txt c1 r1 p x now2 txt2 cl2 plain stat2 new now3 c3 r3 :
    running c -> retry_due c now = true ->
    send_data_block (p_file P) c r buflen now false true txt = (c1, r1, [p], true) ->
    p_decc P x = Some p ->
    recv_step (p_decc P) (p_opts P) (p_max P) (p_ctimeout P) cl (EvDatagram true x) now2 false None true txt2
      = (cl2, plain, stat2) ->
    emitted (p_decs P) (w_written (cr_w cl2)) plain new ->
    server_gets_acks P c1 r1 new now3 = (c3, r3, Some tt) ->
    let g := (x, ghost p (reader_cur r1)) in
    dround P (mkD c r true cl CRun down up sc ss)
             (mkD c3 r3 true cl2 stat2 (g :: down) (new ++ up) (see sc g) (see_all ss new)).

(** Runs with a given number of fault-free rounds among arbitrary steps.  No code of its own: runs of SystemModel. *)
Inductive drun (P : params) : nat -> dstate -> Prop :=
| drun_init st : dinit P st -> drun P 0 st
| drun_step k st st' : drun P k st -> dstep P st st' -> drun P k st'
| drun_round k st st' : drun P k st -> dround P st st' -> drun P (S k) st'.
(** No code of its own: runs of SystemModel. *)
Inductive drounds (P : params) : nat -> dstate -> dstate -> Prop :=
| drounds_0 st : drounds P 0 st st
| drounds_S k st st' st'' : dround P st st' -> drounds P k st' st'' -> drounds P (S k) st st''.

(** Upload.  No code of its own: runs of SystemModel. *)
Definition u_alive (st : ustate) : Prop :=
  u_live st = true /\ running (u_conn st) /\ u_stat st = CRun.
(** No code of its own: runs of SystemModel. *)
Definition client_gets_acks (P : params) (cl : csend) (new : list dgram) (now : N) : csend * cstat :=
  match new with
  | g :: _ => sender_recv (p_decc P) (p_ctimeout P) cl (EvDatagram true (fst g)) now
  | [] => (cl, CRun)
  end.
(** No code of its own: runs of SystemModel. *)
Inductive uround (P : params) : ustate -> ustate -> Prop :=
| uround_intro c w cl down up sc ss buflen cl1 p x now txt c2 w2 plain new now3 cl3 stat3 :
    running c -> op_bs (p_opts P) + DATA_PACKET_HEADER_SIZE <= buflen ->
    sender_send (p_file P) cl buflen true IoOk (Some true) = (cl1, [p], CRun) ->
    p_decs P x = Some p ->
    handle_write (p_decs P) c w x now (p_max P) false None true txt = (c2, w2, plain) ->
    emitted (p_decc P) (w_written w2) plain new ->
    client_gets_acks P cl1 new now3 = (cl3, stat3) ->
    let g := (x, ghost p (reader_cur (cs_r cl1))) in
    uround P (mkU c w true cl CRun down up sc ss)
             (mkU c2 w2 true cl3 stat3 (new ++ down) (g :: up) (see_all sc new) (see ss g)).
(** No code of its own: runs of SystemModel. *)
Inductive urun (P : params) : nat -> ustate -> Prop :=
| urun_init st : uinit P st -> urun P 0 st
| urun_step k st st' : urun P k st -> ustep P st st' -> urun P k st'
| urun_round k st st' : urun P k st -> uround P st st' -> urun P (S k) st'.
(** No code of its own: runs of SystemModel. *)
Inductive urounds (P : params) : nat -> ustate -> ustate -> Prop :=
| urounds_0 st : urounds P 0 st st
| urounds_S k st st' st'' : uround P st st' -> urounds P k st' st'' -> urounds P (S k) st st''.
