(** C78: from the two command lines to the file.  What is assumed about the programs and their machines. *)
From Verif Require Import Base PacketModel PacketSpec ReaderModel ConfigModel CryptoModel ExtModel PathModel ConnModel HandshakeModel ClientWaitModel AgreeProofs PropAgree
  ServerModel FsModel RunModel RunSpec.
From Verif Require CliModel.

(** The keys and levels of the two command lines fit together: a server key the client was given is that of the server;
    the level "full" needs one; a server that requires encryption has clients with its key and the level "full" or
    "protocol"; a server with a list of keys has clients with one of them, and with encryption. *)
Definition keys_fit (c : crypto) (sa : CliModel.server_args) (ss : CliModel.server_start) (ca : CliModel.client_args) (cs : CliModel.client_start) : Prop :=
  right_key c (CliModel.ss_cfg ss) (CliModel.cl_cfg cs) /\
  (CliModel.ca_level ca = s2b "full" -> cc_remote (CliModel.cl_cfg cs) <> None) /\
  (CliModel.sa_full sa = Some true \/ CliModel.sa_full sa = None /\ CliModel.sa_auth sa <> None ->
     cc_remote (CliModel.cl_cfg cs) <> None /\ (CliModel.ca_level ca = s2b "full" \/ CliModel.ca_level ca = s2b "protocol")) /\
  (CliModel.sa_auth sa <> None -> CliModel.ca_level ca <> s2b "none" /\
     exists k ks, cc_key (CliModel.cl_cfg cs) = Some k /\ sc_auth (CliModel.ss_cfg ss) = Some ks /\ In (c_vk c k) ks).
(** The server as it was started. *)
Definition server_of (ss : CliModel.server_start) : srvcfg := mkSC (CliModel.ss_cfg ss) (CliModel.ss_max_conn ss).
(** The datagram [d] is the request of the command; its path can be transported, it fits into the server's buffer, and
    (if it is in the clear) it is not by accident a sealed packet. *)
Definition asks_with (g : run_cfg) (cfg : scfg) (wc : wcfg) (write : bool) (ex : exts) (d : bytes) : Prop :=
  request_of g wc write ex d /\ good_string (CliModel.cl_remote (ru_start g)) /\ unambiguous (ru_c g) cfg (wc_sock wc) d /\ server_receive cfg d = Ok d.
(** The server's machine can do its part: a socket for the client, the answer, a nonce, memory for the reader. *)
Definition able (i : input) : Prop :=
  h_bind (i_henv i) = true /\ h_send (i_henv i) = true /\ blen (h_nonce (i_henv i)) = 24 /\ av_multi (i_av i) = true.
