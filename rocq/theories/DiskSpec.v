(** What is said about files that several transfers use. *)
From Verif Require Import Base PacketModel ReaderModel ConfigModel CryptoModel ExtModel PathModel ConnModel
  ConnSpec HandshakeModel ServerModel ServerSpec WorldModel FsModel FsServerModel DiskModel.

Definition prefix (u F : bytes) : Prop := exists r, F = u ++ r.

Section Spec.
Context {S : Type} (sv : server S) (c : crypto) (g : srvcfg) (fg : fcfg) (dirsize : N).
Notation dkstep := (dkstep sv c g fg dirsize).
Notation dkany := (dkany sv c g fg dirsize).

(** Client [a] stores into the file [id]; [w] is what it has stored so far. *)
Definition writes (a : addr) (st : disk S) (id : N) (w : writer) : Prop :=
  exists e p, sv_view sv (dk_srv st) a = Some e /\ en_work e = WWrite p w /\ dk_open st a = Some (Writes id).

(** Nobody changes the contents of what client [a] reads while it has it open. *)
Definition unchanged (a : addr) (src : source) (st : disk S) (t : took) (st' : disk S) (o : outs) : Prop :=
  dkany st t st' o /\
  (dk_open st a = Some (Reads src) -> content (dk_fs st') (Some (Reads src)) = content (dk_fs st) (Some (Reads src))).

(** Nobody but client [a] changes the file [id], and [a] does not open it again. *)
Definition alone (a : addr) (id : N) (st : disk S) (t : took) (st' : disk S) (o : outs) : Prop :=
  dkany st t st' o /\
  (hears a t = false -> f_data (dk_fs st') id = f_data (dk_fs st) id) /\
  (dk_open st' a = Some (Writes id) -> dk_open st a = Some (Writes id)).

(** The server's own steps, and those of other programs that leave the file [id] alone. *)
Inductive spare (id : N) : disk S -> took -> disk S -> outs -> Prop :=
| spare_own st t st' o : dkstep st t st' o -> spare id st t st' o
| spare_other st f' : f_next (dk_fs st) <= f_next f' -> f_data f' id = f_data (dk_fs st) id ->
    spare id st TookNothing (mkDk (dk_srv st) f' (dk_open st)) [].


(** The file is not emptied (again), nor shortened otherwise. *)
Definition not_cut (id : N) (st : disk S) (t : took) (st' : disk S) (o : outs) : Prop :=
  dkstep st t st' o /\ blen (f_data (dk_fs st) id) <= blen (f_data (dk_fs st') id).
End Spec.
