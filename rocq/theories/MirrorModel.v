(** Directory synchronisation (std-binary/src/sync.rs) and the uploads it starts, put together. *)
From Verif Require Import Base PathModel SyncModel.
From Verif Require CliModel.

(** sync.rs 114-126: the thread started for a file that was closed: start_send with the arguments of the command line, the local
    and the remote name, create_reader, and no preference for seeking. *)
Definition sync_begin (ok : bytes -> bool) (h : CliModel.host) (bound : bool) (ca : CliModel.client_args) (u : upload) : option CliModel.client_start :=
  CliModel.client_begin ok h bound true ca (up_local u) (Some (up_remote u)) false.
