(** What is said about commands while nothing goes wrong. *)
From Verif Require Import Base PacketModel ReaderModel ConfigModel CryptoModel ExtModel ConnModel HandshakeModel ClientWaitModel ServerModel ServerSpec WorldModel FsModel RunModel RunSpec SmoothModel.
From Verif Require CliModel.

(** The client accepts the address the server answers from (without --allow-server-port-change only the one it was given). *)
Definition answers_from (g : run_cfg) (wc : wcfg) (write : bool) (ex : exts) (ign : bytes -> Prop) (peer : CliModel.addr) : Prop :=
  answers_at g wc write ex ign peer /\
  (same_addr (CliModel.cl_endpoint (ru_start g)) peer = true \/ cc_port_change (wc_cfg wc) = true).
(** Requests that the command has repeated before the answer arrived, and that are on their way to the connection
    (only if the ports are the same). *)
Definition repeats (g : run_cfg) (wc : wcfg) (write : bool) (ex : exts) (peer : CliModel.addr) (early : list bytes) : Prop :=
  Forall (request_of g wc write ex) early /\ (same_addr (CliModel.cl_endpoint (ru_start g)) peer = false -> early = []).

(** `receive` has ended with success, and the local file is [F]. *)
Definition received (g : run_cfg) (F : bytes) (p : rprog) : Prop :=
  exists total key lid, rp_ph p = RDone total key /\ total = blen F /\
    local_file (rp_fs p) (CliModel.cl_local (ru_start g)) = Some lid /\ f_data (rp_fs p) lid = F.
(** `send` has ended with success, and the server has stored [F]. *)
Definition delivered {S} (F : bytes) (W : smooth S uphase) : Prop :=
  exists total key, sm_prog W = UDone total key /\ total = blen F /\ sm_kept W = F.

Section W.
Context {S P : Type} (turn : N -> option bytes -> S -> bool -> S -> outs -> Prop) (view : S -> addr -> option entry).
Variables (act : P -> option bytes -> N -> P -> list sent -> Prop) (patient : P -> N -> Prop) (busy : P -> bool).
Variables (c : crypto) (sg : srvcfg) (a : addr) (peer : CliModel.addr).

(** The command has not ended, and either side, when it gets to run in time, can take its turn: it neither fails nor stops. *)
Definition under_way (ck : N -> Prop) (W : smooth S P) : Prop :=
  busy (sm_prog W) = true /\
  (forall t, ck t -> (forall e, view (sm_srv W) a = Some e -> prompt sg e t) -> exists W', sturn turn view c sg a ck W W') /\
  (forall t, ck t -> (sm_down W = [] -> patient (sm_prog W) t) -> exists W', cturn act patient c peer ck W W').

(** However the turns follow each other, the command ends after at most [bound] rounds, and then well; and it does end
    well in some order of turns (all of them at time [now]). *)
Definition goes_well (good : smooth S P -> Prop) (bound now : N) (W0 : smooth S P) : Prop :=
  (forall ck k b W, turns turn view act patient busy c sg a peer ck W0 k b W ->
     k <= bound /\ (good W \/ under_way ck W)) /\
  exists k b W, turns turn view act patient busy c sg a peer (fun t => t = now) W0 k b W /\ good W.
End W.
