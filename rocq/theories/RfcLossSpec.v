(** C87, no new code: what a lost datagram costs a client that speaks only RFC 1350. *)
From Verif Require Import Base PacketModel ReaderModel ReaderSpec CryptoModel ConnModel ServerModel ServerSpec SystemModel ClientModel ConnSpec WorldModel ProgressModel RfcSpec.

(** The connection sends this packet whenever its time to retransmit has come ([due] of ProgressModel:
    its interval is over, the file can be read and the socket takes it). *)
Definition resends (e : entry) (p : bytes) : Prop :=
  forall buflen v, due e v -> exists e', send_client buflen e v = (e', [p], true).

(** A part of a server's life in which the connection of address [a] stays, and takes nothing but
    copies of one datagram; the last argument collects everything the server sends to [a]. *)
Inductive hears_only {S : Type} (step : S -> took -> S -> outs -> Prop) (view : S -> addr -> option entry) (a : addr) (d : bytes)
  (s0 : S) : S -> list out -> Prop :=
| ho_start : hears_only step view a d s0 s0 []
| ho_step s l e t s' o : hears_only step view a d s0 s l -> view s a = Some e -> step s t s' o ->
    (hears a t = false \/ exists v, t = TookClient a d v) ->
    hears_only step view a d s0 s' (l ++ sent_to a o).
