(** C85: an RFC 1350 client and the server taking turns while nothing goes wrong.  The worlds, turns and
    [goes_well] are those of C77 (SmoothModel, SmoothSpec); only the program on the client's side is
    replaced by the two programs of RfcSpec, which know nothing of options, windows or encryption. *)
From Verif Require Import Base PacketModel ReaderModel ConfigModel CryptoModel HandshakeModel ServerModel ClientModel RunModel RfcSpec SmoothModel.
From Verif Require CliModel.

(** A socket that sends what it is given. *)
Definition plain_sock : csock := mkSock None LNone None 512.
(** One turn of the program that fetches a file: it reads the datagram that arrived, if one did, and
    acknowledges the block it has just added to its file, if it added one. *)
Definition getter_act (peer : CliModel.addr) (p : getter) (d : option bytes) (now : N) (p' : getter) (out : list sent) : Prop :=
  p' = (match d with Some w => getter_hears p w | None => p end) /\
  out = sends plain_sock peer (if got_blocks p' =? got_blocks p then [] else [rfc_ack (got_blocks p')]).
(** One turn of the program that stores [file]: an acknowledgement of the block it is on lets it go on to
    the next one, which it then sends, unless the file is at its end. *)
Definition putter_act (file : bytes) (peer : CliModel.addr) (p : N) (d : option bytes) (now : N) (p' : N) (out : list sent) : Prop :=
  p' = (match d with Some w => putter_hears file p w | None => p end) /\
  out = sends plain_sock peer
    (if (p' =? p) || negb (p' <=? putter_last file) then [] else [rfc_data p' (putter_block file p')]).
(** Neither program has a timer of its own. *)
Definition no_timer {P : Type} (p : P) (now : N) : Prop := True.
(** Still at work. *)
Definition getting (p : getter) : bool := negb (got_all p).
Definition putting (file : bytes) (p : N) : bool := p <=? putter_last file.
(** The transfer is complete. *)
Definition fetched {S} (file : bytes) (W : smooth S getter) : Prop := got_all (sm_prog W) = true /\ got (sm_prog W) = file.
Definition stored {S} (file : bytes) (W : smooth S N) : Prop := putter_last file < sm_prog W /\ sm_kept W = file.
