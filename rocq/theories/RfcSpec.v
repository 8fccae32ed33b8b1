(** A client written by somebody else: RFC 1350 only, no options, blocks of 512 bytes, one block
    at a time.  It is described from the RFC, with nothing of the model in it; its surroundings are
    those of WorldModel: a server that serves other clients too, and a network that remembers every
    datagram ever sent and may deliver any of them at any time, any number of times, or never. *)
From Verif Require Import Base PacketModel ReaderModel ReaderSpec CryptoModel ConnModel ServerModel ServerSpec SystemModel ClientModel ConnSpec WorldModel.

(** RFC 1350, section 5: the packets. *)
Definition rfc_number (i : N) : bytes := [i mod 65536 / 256; i mod 65536 mod 256].
Definition rfc_request (write : bool) (name : bytes) : bytes :=
  [0; if write then 2 else 1] ++ name ++ [0] ++ s2b "octet" ++ [0].
Definition rfc_data (i : N) (block : bytes) : bytes := [0; 3] ++ rfc_number i ++ block.
Definition rfc_ack (i : N) : bytes := [0; 4] ++ rfc_number i.

(** ** The client that asks for a file *)

(** How many blocks it has got, what it has stored, and whether the short block has come. *)
Record getter := mkG { got_blocks : N; got : bytes; got_all : bool }.
(** A datagram arrives in its buffer of 516 bytes: the block that is due is stored, and is the last one if it
    is short; everything else leaves the file alone. *)
Definition getter_hears (s : getter) (d : bytes) : getter :=
  match takeN 516 d with
  | 0 :: 3 :: h :: l :: block =>
      if negb (got_all s) && (256 * h + l =? (got_blocks s + 1) mod 65536)
      then mkG (got_blocks s + 1) (got s ++ block) (blen block <? 512)
      else s
  | _ => s
  end.

(** ** The client that sends a file *)

(** The number of the packet it is sending: 0 is the request, [i] is block [i] of 512 bytes; past the last
    block it is done. *)
Definition putter_block (file : bytes) (i : N) : bytes := takeN 512 (dropN (512 * (i - 1)) file).
Definition putter_last (file : bytes) : N := blen file / 512 + 1.
(** The acknowledgement of the packet being sent makes it go on; everything else is left aside. *)
Definition putter_hears (file : bytes) (i : N) (d : bytes) : N :=
  match takeN 516 d with
  | [0; 4; h; l] => if (i <=? putter_last file) && (256 * h + l =? i mod 65536) then i + 1 else i
  | _ => i
  end.

Section W.
Context {S : Type} (step : S -> took -> S -> outs -> Prop) (view : S -> addr -> option entry).
Variables (c : crypto) (a : addr) (file : bytes).
Notation n := (blen file / 512 + 1).

(** ** Download *)
Record gworld := mkGW {
  gw_srv : S; gw_over : bool; gw_cl : getter; gw_down : list dgram; gw_up : list dgram; gw_sc : N; gw_ss : N }.
Inductive gwstep : gworld -> gworld -> Prop :=
(* the server does anything but listen to this client; what it sends to it gets into the network *)
| gw_server s t s' o e new cl down up sc ss :
    step s t s' o -> hears a t = false -> view s a = Some e ->
    server_sealed c e (entry_mark (view s' a)) (sent_to a o) new ->
    gwstep (mkGW s false cl down up sc ss) (mkGW s' (ended (view s' a)) cl (new ++ down) up sc ss)
| gw_server_receives s x v s' o e new cl down up sc ss :
    step s (TookClient a (fst x) v) s' o -> In x up -> fresh_enough n ss x -> view s a = Some e ->
    server_sealed c e (entry_mark (view s' a)) (sent_to a o) new ->
    gwstep (mkGW s false cl down up sc ss) (mkGW s' (ended (view s' a)) cl (new ++ down) up sc (see ss x))
| gw_server_later s t s' o cl down up sc ss :
    step s t s' o -> gwstep (mkGW s true cl down up sc ss) (mkGW s' true cl down up sc ss)
(* the client gets a datagram of the server *)
| gw_hears s over cl down up sc ss x :
    In x down -> fresh_enough n sc x ->
    gwstep (mkGW s over cl down up sc ss) (mkGW s over (getter_hears cl (fst x)) down up (see sc x) ss)
(* the client acknowledges the last block it has got: at once, again after a while, or when a block
   comes again *)
| gw_acks s over cl down up sc ss :
    1 <= got_blocks cl ->
    gwstep (mkGW s over cl down up sc ss)
      (mkGW s over cl down ((rfc_ack (got_blocks cl), Some (got_blocks cl)) :: up) sc ss).
Inductive gwreach (W0 : gworld) : gworld -> Prop :=
| gwreach_init : gwreach W0 W0
| gwreach_step W W' : gwreach W0 W -> gwstep W W' -> gwreach W0 W'.

(** ** Upload *)
Record pworld := mkPW {
  pw_srv : S; pw_over : bool; pw_kept : bytes; pw_cl : N; pw_down : list dgram; pw_up : list dgram; pw_sc : N; pw_ss : N }.
Inductive pwstep : pworld -> pworld -> Prop :=
| pw_server s t s' o e new kept cl down up sc ss :
    step s t s' o -> hears a t = false -> view s a = Some e ->
    server_sealed c e (entry_mark (view s' a)) (sent_to a o) new ->
    pwstep (mkPW s false kept cl down up sc ss) (mkPW s' (ended (view s' a)) (keep kept (view s' a)) cl (new ++ down) up sc ss)
| pw_server_receives s x v s' o e new kept cl down up sc ss :
    step s (TookClient a (fst x) v) s' o -> e_short v = None -> In x up -> fresh_enough n ss x -> view s a = Some e ->
    server_sealed c e (entry_mark (view s' a)) (sent_to a o) new ->
    pwstep (mkPW s false kept cl down up sc ss)
      (mkPW s' (ended (view s' a)) (keep kept (view s' a)) cl (new ++ down) up sc (see ss x))
| pw_server_later s t s' o kept cl down up sc ss :
    step s t s' o -> pwstep (mkPW s true kept cl down up sc ss) (mkPW s' true kept cl down up sc ss)
| pw_hears s over kept cl down up sc ss x :
    In x down -> fresh_enough n sc x ->
    pwstep (mkPW s over kept cl down up sc ss) (mkPW s over kept (putter_hears file cl (fst x)) down up (see sc x) ss)
(* the client sends the block it is at: at once, again after a while, or when an acknowledgement comes again *)
| pw_sends s over kept cl down up sc ss :
    1 <= cl -> cl <= putter_last file ->
    pwstep (mkPW s over kept cl down up sc ss)
      (mkPW s over kept cl down ((rfc_data cl (putter_block file cl), Some cl) :: up) sc ss).
Inductive pwreach (W0 : pworld) : pworld -> Prop :=
| pwreach_init : pwreach W0 W0
| pwreach_step W W' : pwreach W0 W -> pwstep W W' -> pwreach W0 W'.
End W.
Arguments mkGW {S}. Arguments mkPW {S}.
Arguments gw_srv {S}. Arguments gw_over {S}. Arguments gw_cl {S}. Arguments gw_down {S}. Arguments gw_up {S}. Arguments gw_sc {S}. Arguments gw_ss {S}.
Arguments pw_srv {S}. Arguments pw_over {S}. Arguments pw_kept {S}. Arguments pw_cl {S}. Arguments pw_down {S}. Arguments pw_up {S}. Arguments pw_sc {S}. Arguments pw_ss {S}.
