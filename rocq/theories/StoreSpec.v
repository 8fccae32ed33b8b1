(** What is said about a file that one client uploads and another downloads later. *)
From Verif Require Import Base PacketModel ReaderModel ConfigModel CryptoModel ExtModel PathModel ConnModel
  ConnSpec HandshakeModel HandshakeProofs PropWorld ServerModel ServerSpec WorldModel FsModel FsServerModel DiskModel DiskSpec.

(** The file that the path [name] (below the served directory) leads to. *)
Definition leads (f : fs) (fg : fcfg) (name : bytes) : option N :=
  match realpath f (join (parse_path (fc_dir fg)) (parse_path name)) with
  | Some q => match at_ f q with Some (NFile id) => Some id | _ => None end
  | None => None
  end.
(** [name] is that of a directory listing. *)
Definition listing (fg : fcfg) (name : bytes) : bool :=
  match fc_list fg with Some l => ends_with (join (parse_path (fc_dir fg)) (parse_path name)) (parse_path l) | None => false end.

Section Spec.
Context {S : Type} (sv : server S) (c : crypto) (g : srvcfg) (fg : fcfg) (dirsize : N).
Notation dkstep := (dkstep sv c g fg dirsize).
Notation dkany := (dkany sv c g fg dirsize).

(** A transfer begins: in the state [st] the server looks at the request [d] that [a] has made (for an
    upload if [wr]) with the path [name], opens [r], and answers; it is then in the state [st'] and has the
    connection [e]; [k] is the client's side after it has received the answer. *)
Definition begins (wr : bool) (st : disk S) (a : addr) (d name : bytes) (st' : disk S) (r : opened) (e : entry) (k : cside) : Prop :=
  exists i f' q s1 o w,
    sv_looked sv (dk_srv st) a = true /\
    file_request c (g_cfg g) (h_eph (i_henv i)) (recv_cut g d) = Some (wr, name) /\
    open_request c (g_cfg g) fg dirsize (dk_fs st) (h_eph (i_henv i)) (recv_cut g d) = (f', q, Some r) /\
    sv_main sv (loaded sv st) a d (with_files i q (content f' (Some r))) s1 o /\
    sent_to a o = [OWire w] /\ sv_view sv s1 a = Some e /\
    st' = mkDk s1 f' (still_open sv s1 (fun b => if b =? a then Some r else dk_open st b)) /\
    negotiates c (g_cfg g) (with_open (i_henv i) q) wr d w k.

(** Neither the file [id] nor where the name leads is changed by anyone. *)
Definition tended (id : N) (name : bytes) (st : disk S) (t : took) (st' : disk S) (o : outs) : Prop :=
  dkany st t st' o /\ f_data (dk_fs st') id = f_data (dk_fs st) id /\ leads (dk_fs st') fg name = leads (dk_fs st) fg name.
(** The same for an upload of client [a] to [id]. *)
Definition stores (a : addr) (id : N) (name : bytes) (st : disk S) (t : took) (st' : disk S) (o : outs) : Prop :=
  alone sv c g fg dirsize a id st t st' o /\ leads (dk_fs st') fg name = leads (dk_fs st) fg name.
(** The server does anything, other programs do anything but change the file [id] or where the name leads. *)
Inductive undisturbed (id : N) (name : bytes) : disk S -> took -> disk S -> outs -> Prop :=
| und_own st t st' o : dkstep st t st' o -> undisturbed id name st t st' o
| und_other st f' : f_next (dk_fs st) <= f_next f' -> f_data f' id = f_data (dk_fs st) id -> leads f' fg name = leads (dk_fs st) fg name ->
    undisturbed id name st TookNothing (mkDk (dk_srv st) f' (dk_open st)) [].

(** Later: any number of steps, the server may also stop at any time and be started again. *)
Inductive later (init : S -> Prop) (step : disk S -> took -> disk S -> outs -> Prop) (st0 : disk S) : disk S -> Prop :=
| later_now : later init step st0 st0
| later_step st t st' o : later init step st0 st -> step st t st' o -> later init step st0 st'
| later_restart st s : later init step st0 st -> init s -> later init step st0 (mkDk s (dk_fs st) (fun _ => None)).
End Spec.
