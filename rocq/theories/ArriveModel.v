(** SmoothModel's servers with the disk of their machine (DiskModel): what a turn does to the files. *)
From Verif Require Import Base PacketModel ReaderModel ConfigModel CryptoModel ExtModel PathModel ConnModel
  ConnSpec HandshakeModel ServerModel ServerSpec WorldModel FsModel FsServerModel DiskModel SmoothModel.

(** One turn of the thread of client [a] (multi_thread.rs 256-283, 305-322): SmoothModel.multi_turn without the others. *)
Definition thread_own (c : crypto) (sg : srvcfg) (a : addr) (t : N) (rx : option bytes) (m : mstate) (got : bool) (m' : mstate) (o : outs) : Prop :=
  exists e buflen v1 v2 v3 th plain,
    find_handle (m_handles m) a = Some (mkT true e) /\ fine t v1 /\ fine t v2 /\ fine t v3 /\
    thread_turn c sg e buflen v1 v2 v3 (match rx with Some d => TData d | None => TWouldBlock end) = (th, plain) /\
    m' = mkM (update_handle (m_handles m) a th) (m_sockid m) /\ o = plains a plain /\
    got = match rx with Some _ => negb (fst (timeout_client (en_conn e) (g_timeout sg) t true (e_txt v1))) | None => false end.

Section W.
Context {S : Type} (sv : server S).
(** [own]: a turn of the server that serves client [a]; [step]: what else happens on the server's machine. *)
Variables (own : N -> option bytes -> S -> bool -> S -> outs -> Prop) (step : disk S -> took -> disk S -> outs -> Prop) (a : addr).

(** Anything else, any number of times: nothing is received from [a] or sent to it, its connection stays as it is.
    No code of its own: the composition of src/server/{single,multi}_thread.rs with the files of std-binary/src/io.rs 56-131. *)
Inductive meantime : disk S -> disk S -> outs -> Prop :=
| mt_none st : meantime st st []
| mt_step st t st1 o1 st2 o2 : step st t st1 o1 -> hears a t = false -> sent_to a o1 = [] -> sv_view sv (dk_srv st1) a = dview sv st a ->
    meantime st1 st2 o2 -> meantime st st2 (o1 ++ o2).
(** A turn that serves [a]: its reader reads what is in the file, its writer writes to the file what it was given (DiskModel.written).
    No code of its own: the composition of src/server/{single,multi}_thread.rs with the files of std-binary/src/io.rs 56-131. *)
Definition disk_turn (t : N) (rx : option bytes) (st : disk S) (got : bool) (st' : disk S) (o : outs) : Prop :=
  exists st1 o1 s' o2, meantime st st1 o1 /\ own t rx (loaded sv st1) got s' o2 /\ o = o1 ++ o2 /\
    st' = mkDk s' (if got then written (dk_fs st1) (dk_open st1 a) (dview sv st1 a) (sv_view sv s' a) else dk_fs st1) (still_open sv s' (dk_open st1)).
End W.

(** What else happens on the machine of a server without other clients: other programs change files (new files get new numbers).
    No code of its own: the composition of src/server/{single,multi}_thread.rs with the files of std-binary/src/io.rs 56-131. *)
Definition programs {S} (st : disk S) (t : took) (st' : disk S) (o : outs) : Prop :=
  exists f', f_next (dk_fs st) <= f_next f' /\ t = TookNothing /\ st' = mkDk (dk_srv st) f' (dk_open st) /\ o = [].
