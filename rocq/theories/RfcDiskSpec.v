(** C86: clients of RFC 1350 and the files of the server's machine. *)
From Verif Require Import Base PacketModel ReaderModel ConfigModel CryptoModel ExtModel PathModel ConnModel
  ConnSpec HandshakeModel ServerModel ServerSpec WorldModel FsModel FsServerModel DiskModel StoreSpec SmoothModel RfcSpec RfcSmoothSpec.
From Verif Require CliModel.

(** The server of this command line serves clients that have no keys. *)
Definition open_to_all (sa : CliModel.server_args) : Prop := CliModel.sa_auth sa = None /\ CliModel.sa_full sa <> Some true.

(** The server's machine takes the request [d] of client [a] with the surroundings [i] and opens the file [r]; it answers a
    request to store a file with the acknowledgement of block 0, and a request to fetch one not at all (the first block
    of the file will be the answer). *)
Definition plain_takes {S} (sv : server S) (c : crypto) (sg : srvcfg) (fg : fcfg) (ds : N) (i : input) (wr : bool) (st : disk S) (a : addr) (d name : bytes)
    (st' : disk S) (r : opened) : Prop :=
  exists f' q s1 o e,
    sv_looked sv (dk_srv st) a = true /\
    file_request c (g_cfg sg) (h_eph (i_henv i)) (recv_cut sg d) = Some (wr, name) /\
    open_request c (g_cfg sg) fg ds (dk_fs st) (h_eph (i_henv i)) (recv_cut sg d) = (f', q, Some r) /\
    sv_main sv (loaded sv st) a d (with_files i q (content f' (Some r))) s1 o /\
    sent_to a o = (if wr then [OWire (rfc_ack 0)] else []) /\ sv_view sv s1 a = Some e /\
    st' = mkDk s1 f' (still_open sv s1 (fun b => if b =? a then Some r else dk_open st b)).

(** The client has seen its last block acknowledged, and on the server's disk the path [name] leads to a file with the contents [F]. *)
Definition stored_on {S} (fg : fcfg) (name F : bytes) (W : smooth (disk S) N) : Prop :=
  putter_last F < sm_prog W /\
  exists id, leads (dk_fs (sm_srv W)) fg name = Some id /\ f_data (dk_fs (sm_srv W)) id = F.
