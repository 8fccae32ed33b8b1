(** Clients of RFC 1350 that complete their transfers: 700 bytes, that is two blocks, from and to both servers. *)
From Verif Require Import Base BaseProofs PacketModel PacketSpec ReaderModel ConfigModel CryptoModel CryptoSpec CryptoProofs ExtModel ConnModel ClientModel HandshakeModel PropCrypto
  AgreeProofs PropAgree PropExt PropHandshake ServerModel ServerSpec WorldModel WorldProofs PropWorld WorldCases RunModel SmoothModel SmoothSpec RfcSpec RfcProofs PropRfc RfcCases RfcSmoothSpec PropRfcSmooth FsServerModel PropServes.
From Verif Require CliModel.

Definition rs_peer : CliModel.addr := CliModel.mkAddr false [127; 0; 0; 1] 69.
Definition rs_in : input := rf_in 10 wc_quiet (MData 10 rf_rrq).
Definition rs_s1 : sstate := Eval vm_compute in wc_st (step_recv toy rf_g (s_init 0) rs_in).
Definition rs_o1 : outs := Eval vm_compute in wc_out (step_recv toy rf_g (s_init 0) rs_in).
Lemma rs_step : step_recv toy rf_g (s_init 0) rs_in = Some (rs_s1, rs_o1).
Proof. vm_compute. reflexivity. Qed.
Lemma rs_bound : 4 * (blen rf_file / 512 + 1) + 1 = 9.
Proof. vm_compute. reflexivity. Qed.
(** The transfers do take place: there is an order of turns in which the file arrives. *)
Example plain_fetch_goes_well_case :
  s_clients (s_init 0) = [] /\ taken (s_init 0) rs_in = TookMain 10 (rfc_request false rf_name) /\
  (exists e r, sview rs_s1 10 = Some e /\ en_work e = WRead rf_file r) /\
  goes_well (single_turn toy rf_g 10) sview (getter_act rs_peer) no_timer getting toy rf_g 10 rs_peer (fetched rf_file) 9 10 (mkSm rs_s1 [] (mkG 0 [] false) [] []).
Proof.
  split; [reflexivity|]. split; [vm_compute; reflexivity|].
  assert (WK : exists e r, sview rs_s1 10 = Some e /\ en_work e = WRead rf_file r) by (apply work_read; [discriminate|vm_compute; reflexivity]).
  split; [exact WK|]. destruct WK as (e & r & V & WK). rewrite <- rs_bound.
  refine (plain_fetch_goes_well_single toy rf_g 10 (s_init 0) rs_in rs_s1 rs_o1 rf_name e rf_file r rs_peer toy_ok _ _ rf_good _ (rf_clear _) eq_refl _ rs_step V WK);
    try (cbv; discriminate). vm_compute. reflexivity.
Qed.
Example plain_store_goes_well_case :
  goes_well (single_turn toy rf_g 50) sview (putter_act rf_file rs_peer) no_timer (putting rf_file) toy rf_g 50 rs_peer (stored rf_file) 9 5 (mkSm rf_s0 [] 0 [rfc_ack 0] []).
Proof.
  destruct plain_upload_case as (C1 & C2 & C3 & C4 & C5 & (e & w & V & WK) & _). rewrite <- rs_bound.
  refine (proj2 (plain_store_goes_well_single toy rf_g 50 (s_init 0) _ rf_s0 rf_so0 rf_name e _ w rf_file rs_peer toy_ok _ _ rf_good _ C1 eq_refl C3 C4 V WK _));
    cbv; discriminate.
Qed.
(** On the multi threaded server the client at 50 is storing a file while the client at 10 fetches one. *)
Example plain_goes_well_multi_case :
  goes_well (multi_turn toy rf_g 10) mview (getter_act rs_peer) no_timer getting toy rf_g 10 rs_peer (fetched rf_file) 9 10 (mkSm rf_m1 [] (mkG 0 [] false) [] []) /\
  goes_well (multi_turn toy rf_g 50) mview (putter_act rf_file rs_peer) no_timer (putting rf_file) toy rf_g 50 rs_peer (stored rf_file) 9 5 (mkSm rf_m0 [] 0 [rfc_ack 0] []).
Proof.
  rewrite <- rs_bound. split.
  - destruct plain_download_multi_case as (C1 & _ & C3 & C4 & (e & r & V & WK) & _).
    refine (plain_fetch_goes_well_multi toy rf_g 10 rf_m0 _ rf_m1 rf_mo1 rf_name e rf_file r rs_peer toy_ok _ _ rf_good _ (rf_clear _) C1 C3 C4 V WK); cbv; discriminate.
  - destruct plain_upload_multi_case as (C1 & C2 & C3 & (e & w & V & WK) & _).
    refine (proj2 (plain_store_goes_well_multi toy rf_g 50 m_init _ rf_m0 rf_mo0 rf_name e _ w rf_file rs_peer toy_ok _ _ rf_good _ (rf_clear _) _ C1 C2 V WK _));
      try (cbv; discriminate). constructor.
Qed.
(** The requests of RfcCases name dir/f, and that is what the connections work on. *)
Example connection_serves_request_case :
  file_request toy (g_cfg rf_g) (h_eph (i_henv rs_in)) (recv_cut rf_g rf_rrq) = Some (false, s2b "dir/f") /\
  file_request toy (g_cfg rf_g) (h_eph (i_henv rs_in)) (recv_cut rf_g rf_wrq) = Some (true, s2b "dir/f") /\
  (exists e, sview rs_s1 10 = Some e /\ serves_request toy rf_g rs_in (recv_cut rf_g rf_rrq) e /\ exists r, en_work e = WRead (i_file rs_in (s2b "dir/f")) r) /\
  (exists e, mview rf_m0 50 = Some e /\ serves_request toy rf_g (rf_in 5 wc_quiet MWouldBlock) (recv_cut rf_g rf_wrq) e /\ exists w, en_work e = WWrite (s2b "dir/f") w).
Proof.
  do 2 (split; [vm_compute; reflexivity|]). split.
  - destruct plain_fetch_goes_well_case as (_ & TK & (e & r & V & WK) & _). exists e. split; [exact V|]. rewrite <- rf_rrq_eq in TK.
    split; [eapply connection_serves_request_single; [exact TK|reflexivity|exact rs_step|exact V]|]. exists r. exact WK.
  - destruct plain_upload_multi_case as (C1 & C2 & C3 & (e & w & V & WK) & _). rewrite <- rf_wrq_eq in C2. exists e. split; [exact V|].
    split; [eapply connection_serves_request_multi; [constructor|exact C1|exact C2|exact V]|]. exists w. exact WK.
Qed.
