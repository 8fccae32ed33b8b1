(** Histories of one endpoint fed with arbitrary datagrams, for the per-connection properties. *)
From Verif Require Import Base PacketModel MapperModel ReaderModel ConfigModel ConnModel ClientModel.

(** Surroundings of one call: clock, failing device, partial write, socket state, error text. *)
Record env := mkEnv { e_now : N; e_io : bool; e_short : option N; e_sock : bool; e_txt : bytes }.

(** A downloading client gets the events [l]; it stops when the transfer ends. *)
Fixpoint client_run (dec : bytes -> option bytes) (o : options) (max timeout : N) (st : crecv)
    (l : list (cev * env)) : crecv * cstat :=
  match l with
  | [] => (st, CRun)
  | (e, v) :: l' =>
      let '(st1, _, s) := recv_step dec o max timeout st e (e_now v) (e_io v) (e_short v) (e_sock v) (e_txt v) in
      match s with CRun => client_run dec o max timeout st1 l' | _ => (st1, s) end
  end.
(** A server connection receiving an upload gets the datagrams [l]. *)
Definition over (c : conn) : bool :=
  match c_invalid c with Some _ => true | None => false end || c_finished c.
Fixpoint server_run (dec : bytes -> option bytes) (max : N) (c : conn) (w : writer)
    (l : list (bytes * env)) : conn * writer :=
  match l with
  | [] => (c, w)
  | (x, v) :: l' =>
      if over c then (c, w)
      else
        let '(c1, w1, _) := handle_write dec c w x (e_now v) max (e_io v) (e_short v) (e_sock v) (e_txt v) in
        server_run dec max c1 w1 l'
  end.
(** Payload carried by a datagram. *)
Definition payload_of (dec : bytes -> option bytes) (x : bytes) : bytes :=
  match dec x with
  | Some p => match from_bytes p with Ok (PData _ d) => d | _ => [] end
  | None => []
  end.
Definition event_payload (dec : bytes -> option bytes) (e : cev) : bytes :=
  match e with EvDatagram _ x => payload_of dec x | _ => [] end.

(** A server connection sending a file: timer driven sends and received datagrams. *)
Inductive sop :=
| SSend (buflen : N) (v : env)
| SRecv (x : bytes) (now : N).
Definition sender_op (file : bytes) (dec : bytes -> option bytes) (c : conn) (r : reader) (o : sop) : conn * reader :=
  match o with
  | SSend buflen v =>
      let '(c', r', _, _) := send_data_block file c r buflen (e_now v) (e_io v) (e_sock v) (e_txt v) in (c', r')
  | SRecv x now => let '(c', r', _) := handle_read dec c r x now in (c', r')
  end.
Fixpoint sender_history (file : bytes) (dec : bytes -> option bytes) (c : conn) (r : reader) (l : list sop) : conn * reader :=
  match l with
  | [] => (c, r)
  | o :: l' => let '(c', r') := sender_op file dec c r o in sender_history file dec c' r' l'
  end.
