(** `send` and `receive` with a file encryption key (--encryption-key): what is read from, and written to, the local disk. *)
From Verif Require Import Base PacketModel ReaderModel ConfigModel CryptoModel StreamModel StreamSpec FsModel RunModel RunSpec.
From Verif Require CliModel.

(** `receive` has ended with success: the [total] it reports is the size of the transferred data [F], and the local file is [D]. *)
Definition unsealed (g : run_cfg) (F D : bytes) (p : rprog) : Prop :=
  exists total key lid, rp_ph p = RDone total key /\ total = blen F /\
    local_file (rp_fs p) (CliModel.cl_local (ru_start g)) = Some lid /\ f_data (rp_fs p) lid = D.
(** [D] is what the command's local file becomes when the blocks of [F] are written to it in order:
    without a key [F] itself, with a key what the decrypting writer makes of it. *)
Definition opens (g : run_cfg) (F : bytes) (bs : N) (D : bytes) : Prop :=
  match CliModel.cl_file_key (ru_start g) with
  | None => D = F
  | Some key => exists u, StreamSpec.writes (ru_c g) (sw_new key) (blocks_of F bs) u /\ sw_out u = D
  end.
