(** Independent vocabulary for the packet properties. *)
From Verif Require Import Base PacketModel.

(** A string field that can be transported: valid UTF-8 without NUL. *)
Definition good_string (s : bytes) : Prop := utf8 s = true /\ ~ In 0 s.

(** Every option value present is transportable. *)
Definition good_exts (m : exts) : Prop :=
  forall e v, ext_get m e = Some v -> good_string v.

(** A packet value a Rust program can hold and the format can transport. *)
Definition good_packet (p : packet) : Prop :=
  match p with
  | PRead r | PWrite r => good_string (rq_name r) /\ good_exts (rq_exts r)
  | PData b _ | PAck b => b < 65536
  | PError _ m => good_string m
  | POack m => good_exts m
  end.

(** RFC 1350 / 2347 layout, written down independently of the encoder:
    [wire p l] says that the byte string [l] is the standard encoding of [p]. *)
Definition nul_str (s : bytes) : bytes := s ++ [0].
Definition opt_pairs (ps : list (bytes * bytes)) : bytes :=
  concat (map (fun nv => nul_str (fst nv) ++ nul_str (snd nv)) ps).

(** The option table: names (lower or upper case) and what they denote. *)
Definition option_names : list (string * ext) :=
  [ ("blksize", BlockSize); ("BLKSIZE", BlockSize);
    ("timeout", Timeout); ("TIMEOUT", Timeout);
    ("tsize", TransferSize); ("TSIZE", TransferSize);
    ("enclevel", EncLevel); ("ENCLEVEL", EncLevel);
    ("windowsize", WindowSize); ("WINDOWSIZE", WindowSize);
    ("spubk", SessionPublicKey); ("SPUBK", SessionPublicKey);
    ("apubk", AuthPublicKey); ("APUBK", AuthPublicKey);
    ("sig", Signature); ("SIG", Signature) ]%string.
Definition denotes (name : bytes) (e : ext) : Prop :=
  exists s, In (s, e) option_names /\ name = s2b s.

(** [lists m ps]: the pairs [ps] carry exactly the options of [m], one pair each. *)
Definition lists (m : exts) (ps : list (bytes * bytes)) : Prop :=
  NoDup (map fst ps) /\
  (forall e v, ext_get m e = Some v -> exists n, denotes n e /\ In (n, v) ps) /\
  (forall n v, In (n, v) ps -> exists e, denotes n e /\ ext_get m e = Some v).

Inductive wire : packet -> bytes -> Prop :=
| W_rrq name m ps : lists m ps ->
    wire (PRead (mkReq name m))
         ([0; 1] ++ nul_str name ++ nul_str (s2b "octet") ++ opt_pairs ps)
| W_wrq name m ps : lists m ps ->
    wire (PWrite (mkReq name m))
         ([0; 2] ++ nul_str name ++ nul_str (s2b "octet") ++ opt_pairs ps)
| W_data hi lo d : hi < 256 -> lo < 256 -> wire (PData (256 * hi + lo) d) ([0; 3; hi; lo] ++ d)
| W_ack hi lo : hi < 256 -> lo < 256 -> wire (PAck (256 * hi + lo)) [0; 4; hi; lo]
| W_err c n m :
    In (c, n) [(Undefined, 0); (FileNotFound, 1); (AccessViolation, 2); (DiskFull, 3);
               (IllegalOperation, 4); (UnknownId, 5); (FileAlreadyExists, 6);
               (NotSuchUser, 7)] ->
    wire (PError c m) ([0; 5; 0; n] ++ nul_str m)
| W_oack m ps : lists m ps -> wire (POack m) ([0; 6] ++ opt_pairs ps).

(** Value of the last pair whose name denotes [e] ([None] if there is none). *)
Inductive last_value (e : ext) : list (bytes * bytes) -> option bytes -> Prop :=
| LV_none ps : (forall n v, In (n, v) ps -> ~ denotes n e) -> last_value e ps None
| LV_some ps1 n v ps2 : denotes n e ->
    (forall n' v', In (n', v') ps2 -> ~ denotes n' e) ->
    last_value e (ps1 ++ (n, v) :: ps2) (Some v).

(** All eight options occur among the pairs. *)
Definition complete (ps : list (bytes * bytes)) : Prop :=
  forall e, exists n v, In (n, v) ps /\ denotes n e.

(** The reading of an option area [l] as a non-empty list of pairs: everything, or
    up to the pair that completes the set of eight options. *)
Definition reads_options (l : bytes) (ps : list (bytes * bytes)) : Prop :=
  ps <> [] /\
  (forall n v, In (n, v) ps -> good_string n /\ good_string v) /\
  exists rest, l = opt_pairs ps ++ rest /\ (rest = [] \/ complete ps) /\
  (forall ps1 x ps2, ps = ps1 ++ x :: ps2 -> ~ complete ps1).
