(** C79: what is said about the files of the server's machine. *)
From Verif Require Import Base PacketModel ReaderModel ConfigModel CryptoModel ExtModel PathModel ConnModel
  ConnSpec HandshakeModel ClientWaitModel ServerModel ServerSpec WorldModel FsModel FsServerModel DiskModel DiskSpec StoreSpec RunModel RunSpec SmoothModel SmoothSpec ArriveModel.

(** Nobody but the server on behalf of the client changes the file [id]. *)
Definition sparing {S} (id : N) (step : disk S -> took -> disk S -> outs -> Prop) (st : disk S) (t : took) (st' : disk S) (o : outs) : Prop :=
  step st t st' o /\ f_data (dk_fs st') id = f_data (dk_fs st) id.
(** Nor where the path [name] below the served directory leads. *)
Definition minding {S} (fg : fcfg) (id : N) (name : bytes) (step : disk S -> took -> disk S -> outs -> Prop) (st : disk S) (t : took) (st' : disk S) (o : outs) : Prop :=
  step st t st' o /\ f_data (dk_fs st') id = f_data (dk_fs st) id /\ leads (dk_fs st') fg name = leads (dk_fs st) fg name.

(** The server's machine takes the request [d] of client [a] with the surroundings [i], opens the file [r] and answers [w]
    (RunSpec.answers). *)
Definition takes {S} (sv : server S) (c : crypto) (sg : srvcfg) (fg : fcfg) (ds : N) (i : input) (wr : bool) (st : disk S) (a : addr) (d name : bytes)
    (st' : disk S) (r : opened) (e : entry) (w : bytes) : Prop :=
  exists f' q s1 o,
    sv_looked sv (dk_srv st) a = true /\
    file_request c (g_cfg sg) (h_eph (i_henv i)) (recv_cut sg d) = Some (wr, name) /\
    open_request c (g_cfg sg) fg ds (dk_fs st) (h_eph (i_henv i)) (recv_cut sg d) = (f', q, Some r) /\
    sv_main sv (loaded sv st) a d (with_files i q (content f' (Some r))) s1 o /\
    sent_to a o = [OWire w] /\ sv_view sv s1 a = Some e /\
    st' = mkDk s1 f' (still_open sv s1 (fun b => if b =? a then Some r else dk_open st b)).

(** `send` has ended with success, and on the server's disk the path [name] leads to a file with the contents [F]. *)
Definition arrived {S} (fg : fcfg) (name F : bytes) (W : smooth (disk S) uphase) : Prop :=
  (exists total key, sm_prog W = UDone total key /\ total = blen F) /\
  exists id, leads (dk_fs (sm_srv W)) fg name = Some id /\ f_data (dk_fs (sm_srv W)) id = F.
