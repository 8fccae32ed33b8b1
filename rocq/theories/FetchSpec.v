(** C80: what is said about fetching a file that was sent before. *)
From Verif Require Import Base PacketModel ReaderModel ConfigModel CryptoModel ExtModel PathModel ConnModel
  ConnSpec HandshakeModel ClientWaitModel ReaderSpec ServerModel ServerSpec WorldModel FsModel FsServerModel DiskModel DiskSpec StoreSpec RunModel RunSpec
  SmoothModel SmoothSpec WholeSpec ArriveModel ArriveSpec.
From Verif Require CliModel.

Section F.
Context {S : Type} (sv : server S).
(** [own]: a turn that serves the given client; [rest]: what else happens on the server's machine; [free]: the server can take this
    request; [cut]: what the server receives into. *)
Variables (own : addr -> N -> option bytes -> S -> bool -> S -> outs -> Prop) (rest : disk S -> took -> disk S -> outs -> Prop)
  (free : S -> addr -> bytes -> input -> Prop) (cut : entry -> bytes -> bytes).

(** Whoever now starts `receive` for the path [path], with a command line that fits the server's, gets the contents [F] into the local
    file: the request is granted, and the command ends, with success, and with that file - provided that no datagram is lost, both
    programs get to run in time, and no other program changes the file [id] meanwhile. *)
Definition fetches (c : crypto) (sa : CliModel.server_args) (ss : CliModel.server_start) (ds id : N) (path F : bytes) (st : disk S) : Prop :=
  forall h bound ca given other seek cs eph hs iv txt f0 wc keys ex p0 d a i,
  let g := mkRun c cs eph hs iv txt in let sg := server_of ss in let fg := CliModel.ss_files ss in
  (* the command *)
  CliModel.client_args_ok ca = true -> CliModel.client_begin (c_vk_ok c) h bound false ca given other seek = Some cs ->
  keys_fit c sa ss ca cs -> CliModel.ca_file_key ca = None ->
  receive_waiting g f0 wc keys ex p0 -> rp_ph p0 <> RFailed -> asks_with g (CliModel.ss_cfg ss) wc false ex d ->
  normalize None (CliModel.cl_remote cs) = Some path ->
  (* the server and its disk *)
  free (dk_srv st) a d i -> able i -> create_server_reader (dk_fs st) fg path <> None ->
  (* the client's machine *)
  (exists f1 lid, create_writer f0 (CliModel.cl_local cs) = (f1, Some lid)) -> blen F <= CliModel.ca_max_size ca ->
  exists st1 e w k, takes sv c sg fg ds i false st a d path st1 (Reads (SFile id)) e w /\ agrees g wc keys false ex w k /\ 512 <= op_bs (k_opts k) /\
    forall peer early,
      answers_from g wc false ex (fun y => ignored c (c_opts (en_conn e)) (en_key e) (cut e y)) peer -> repeats g wc false ex peer early ->
      goes_well (disk_turn sv (own a) rest a) (dview sv) (receive_act g wc keys peer) (receive_patient wc) receive_busy c sg a peer
        (fun W => received g F (sm_prog W)) (4 * nblocks F (bs_enc (k_opts k)) + 6 + 2 * N.of_nat (length early)) (e_now (i_env i)) (mkSm st1 [] p0 [w] early).
End F.

(** The server can take the request: the single threaded one has no client, and the request is what it receives next; the multi threaded one has
    no connection to this address, and fewer than it may have. *)
Definition single_free (s : sstate) (a : addr) (d : bytes) (i : input) : Prop := s_clients s = [] /\ taken s i = TookMain a d.
Definition multi_free (sg : srvcfg) (m : mstate) (a : addr) (d : bytes) (i : input) : Prop :=
  mview m a = None /\ N.of_nat (length (filter (fun y => th_live (snd y)) (m_handles m))) < g_max_conn sg.
