(** Concrete instances for C86: a server started with the default command line; a client of RFC 1350 fetches "/d//f" and another stores "new/g". *)
From Verif Require Import Base BaseProofs PacketModel PacketSpec MapperModel ReaderModel ReaderSpec BlockLemmas ConfigModel CryptoModel CryptoSpec CryptoProofs ExtModel PathModel ConnModel
  ConnSpec ClientModel HandshakeModel ClientWaitModel PropHandshake AgreeProofs PropAgree SystemModel ServerModel ServerSpec PropServer WorldModel PropWorld WorldCases
  FsModel FsSpec PropFs FsServerModel DiskModel DiskSpec DiskCases StoreSpec RunModel RunSpec RunCases SmoothModel SmoothSpec PropSmooth WholeSpec PropWhole WholeCases ArriveModel ArriveSpec PropArrive
  ArriveCases RfcSpec RfcSmoothSpec RfcDiskSpec PropRfcDisk.
From Verif Require CliModel PropCli.

Definition rk_peer : CliModel.addr := CliModel.mkAddr false [127; 0; 0; 1] 69.
Definition rk_get : bytes := s2b "/d//f".
Definition rk_put : bytes := s2b "new/g".
Lemma rk_clear d : AgreeProofs.in_clear toy (g_cfg ar_sg) d.
Proof. intros p key (sk & ct & tag & nonce & pk & padded & K & _). discriminate K. Qed.
Lemma rk_open : open_to_all wh_sa.
Proof. split; [reflexivity|discriminate]. Qed.
(** The file has 3000 bytes: six blocks, at most 25 rounds. *)
Lemma rk_bound : 4 * (blen wh_file / 512 + 1) + 1 = 25.
Proof. vm_compute. reflexivity. Qed.
Lemma rk_file : f_data (dk_fs ar_st0) 0 = wh_file.
Proof. reflexivity. Qed.
Example plain_fetch_arrives_case : exists st1,
  plain_takes (single_server toy ar_sg) toy ar_sg ar_fg 0 (wh_i 60 (rfc_request false rk_get)) false ar_st0 60 (rfc_request false rk_get) (s2b "d/f") st1 (Reads (SFile 0)) /\
  goes_well (disk_turn (single_server toy ar_sg) (single_turn toy ar_sg 60) (sparing 0 programs) 60) (dview (single_server toy ar_sg))
    (getter_act rk_peer) no_timer getting toy ar_sg 60 rk_peer (fetched wh_file) 25 20 (mkSm st1 [] (mkG 0 [] false) [] []).
Proof.
  rewrite <- rk_bound.
  refine (plain_fetch_arrives_single toy PropCli.ex_host wh_sa wh_ss rk_get (s2b "d/f") 0 0 60 ar_st0 (wh_i 60 (rfc_request false rk_get)) rk_peer toy_ok eq_refl wh_ss_ok rk_open _ _ (rk_clear _) eq_refl _ (wh_able _ _) _ _ wr_reader).
  - vm_compute. repeat split; try lia; repeat constructor; lia.
  - cbv; discriminate.
  - reflexivity.
  - reflexivity.
  - vm_compute. reflexivity.
Qed.
Example plain_store_arrives_case : exists st1,
  plain_takes (multi_server toy ar_sg) toy ar_sg ar_fg 0 (wh_i 60 (rfc_request true rk_put)) true ar_m0 60 (rfc_request true rk_put) (s2b "new/g") st1 (Writes 0) /\
  goes_well (disk_turn (multi_server toy ar_sg) (thread_own toy ar_sg 60) (minding ar_fg 0 (s2b "new/g") (dkany (multi_server toy ar_sg) toy ar_sg ar_fg 0)) 60) (dview (multi_server toy ar_sg))
    (putter_act wh_file rk_peer) no_timer (putting wh_file) toy ar_sg 60 rk_peer (stored_on ar_fg (s2b "new/g") wh_file) 25 20 (mkSm st1 [] 0 [rfc_ack 0] []).
Proof.
  rewrite <- rk_bound. pose proof ws_writer as HW.
  destruct (create_server_writer ws_fs (CliModel.ss_files wh_ss) (s2b "new/g")) as [f' [id|]] eqn:W; [|discriminate HW]. apply (f_equal (fun o => match o with Some b => b | None => false end)) in HW.
  cbn [snd option_map] in HW. apply N.eqb_eq in HW as ->.
  refine (plain_store_arrives_multi toy PropCli.ex_host wh_sa wh_ss rk_put (s2b "new/g") 0 wh_file f' 0 60 ar_m0 (wh_i 60 (rfc_request true rk_put)) rk_peer toy_ok eq_refl wh_ss_ok rk_open _ _ (rk_clear _) _ _ eq_refl _ (wh_able _ _) _ _ ws_consistent W).
  - vm_compute. repeat split; try lia; repeat constructor; lia.
  - cbv; discriminate.
  - vm_compute. discriminate.
  - apply dkreach_init. reflexivity.
  - vm_compute. reflexivity.
  - reflexivity.
  - vm_compute. reflexivity.
Qed.
