(** C77: cases.  The commands of RunCases, with both servers: a file of two blocks. *)
From Verif Require Import Base BaseProofs PacketModel PacketSpec MapperModel ReaderModel ReaderSpec BlockLemmas ConfigModel CryptoModel CryptoSpec CryptoProofs ExtModel PathModel ConnModel
  ConnSpec ClientModel HandshakeModel ClientWaitModel PropHandshake AgreeProofs PropAgree SystemModel ServerModel ServerSpec PropServer WorldModel PropWorld WorldCases
  FsModel FsSpec FsServerModel DiskModel PropDisk DiskCases StoreCases RunModel RunSpec RunProofs RunB PropRun RunCases SmoothModel SmoothSpec PropSmooth.
From Verif Require CliModel.

Definition sm_fits_port (g : run_cfg) (wc : wcfg) (write : bool) (ex : exts) (peer : CliModel.addr) (early : list bytes) : Prop :=
  (same_ip peer (CliModel.cl_endpoint (ru_start g)) = true /\
   (same_addr (CliModel.cl_endpoint (ru_start g)) peer = false /\ cc_port_change (wc_cfg wc) = true \/ same_addr (CliModel.cl_endpoint (ru_start g)) peer = true)) /\
  repeats g wc write ex peer early.
Lemma sm_own g wc write ex fk local remote : g = rn_g fk local remote -> cc_port_change (wc_cfg wc) = true -> sm_fits_port g wc write ex rn_peer [].
Proof. intros -> E. split; [split; [reflexivity|left; split; [reflexivity|exact E]]|split; [constructor|reflexivity]]. Qed.
Lemma sm_same g wc write ex fk local remote d : g = rn_g fk local remote -> request_of g wc write ex d -> sm_fits_port g wc write ex rn_home [d].
Proof. intros -> R. split; [split; [reflexivity|right; reflexivity]|split; [constructor; [exact R|constructor]|discriminate]]. Qed.
Definition no_key (x : option entry) : bool := match x with Some e => negb (is_some (en_key e)) | None => false end.
Lemma no_key_none x e : no_key x = true -> x = Some e -> en_key e = None.
Proof. intros H ->. cbn in H. destruct (en_key e); [discriminate|reflexivity]. Qed.

(** ** receive *)
Definition sm_i : input := with_files (rn_i2 None) (Some (Some 600)) rn_file.
Definition sm_step := step_recv toy rn_sg (s_init 0) sm_i.
Definition sm_w : bytes := wc_reply (sent_to 60 (wc_out sm_step)).
Definition sm_k : cside := rn_k (rn_gr None) false 0 rn_e0 sm_w.
Definition sm_mstep := main_turn toy rn_sg m_init (MData 60 (rn_d2 None)) sm_i.
Lemma sm_seen :
  (is_some sm_step, taken (s_init 0) sm_i, (beq sm_w [], length (sent_to 60 (wc_out sm_step))), is_some (sview (wc_st sm_step) 60), wc_work (sview (wc_st sm_step) 60)) =
    (true, TookMain 60 (rn_d2 None), (false, 1%nat), true, rn_file).
Proof. vm_compute. reflexivity. Qed.
Lemma sm_mseen :
  (is_some sm_mstep, sent_to 60 (wc_mout sm_mstep), is_some (mview (wc_mst sm_mstep) 60), wc_work (mview (wc_mst sm_mstep) 60)) =
    (true, [OWire sm_w], true, rn_file).
Proof. vm_compute. reflexivity. Qed.
Lemma sm_clear e : sview (wc_st sm_step) 60 = Some e -> en_key e = None.
Proof. apply no_key_none. vm_compute. reflexivity. Qed.
Lemma sm_mclear e : mview (wc_mst sm_mstep) 60 = Some e -> en_key e = None.
Proof. apply no_key_none. vm_compute. reflexivity. Qed.
Lemma sm_agreed : (option_map q_ack (rn_q (rn_gr None) false 0 rn_e0 sm_w), k_max sm_k, op_size (k_opts sm_k), op_window (k_opts sm_k), nblocks rn_file (bs_enc (k_opts sm_k))) =
  (Some true, 100000, Some 600, 1, 2).
Proof. vm_compute. reflexivity. Qed.
Lemma sm_writer : option_map (fun _ => tt) (snd (create_writer rn_b (s2b "/b"))) = Some tt.
Proof. vm_compute. reflexivity. Qed.
Lemma sm_create : exists f1 lid, create_writer rn_b (CliModel.cl_local (ru_start (rn_gr None))) = (f1, Some lid).
Proof.
  change (CliModel.cl_local (ru_start (rn_gr None))) with (s2b "/b"). pose proof sm_writer as H. destruct (create_writer rn_b (s2b "/b")) as [f1 [lid|]]; [eauto|discriminate].
Qed.
Lemma sm_open p n : h_open (i_henv sm_i) p = Some (Some n) -> n <= U64_MAX.
Proof. unfold sm_i, with_files, with_open. cbn [i_henv h_open]. intros [= <-]. unfold U64_MAX. lia. Qed.
Lemma sm_busy : rp_ph (rn_rp None) <> RFailed.
Proof. vm_compute. discriminate. Qed.
Lemma sm_fits d : d = rn_d2 None \/ d = rn_d None -> blen d <= 516.
Proof. intros [-> | ->]; vm_compute; discriminate. Qed.
Lemma sm_nonempty : rn_file <> [].
Proof. intros X. apply (f_equal blen) in X. vm_compute in X. discriminate X. Qed.
Lemma receive_goes_well_single_any peer early : sm_fits_port (rn_gr None) (rn_wr None) false rn_e0 peer early ->
  goes_well (single_turn toy rn_sg 60) sview (receive_act (rn_gr None) (rn_wr None) None peer) (receive_patient (rn_wr None)) receive_busy toy rn_sg 60 peer
    (fun W => received (rn_gr None) rn_file (sm_prog W)) (4 * 2 + 6 + 2 * N.of_nat (length early)) 120 (mkSm (wc_st sm_step) [] (rn_rp None) [sm_w] early).
Proof.
  intros [SA SR].
  pose proof sm_seen as H. apply pair5_inv in H as (H1 & H2 & H3 & H4 & H5). apply pair_inv in H3 as [H6 H7].
  pose proof sm_agreed as H. apply pair5_inv in H as (G1 & G2 & G3 & G4 & G5).
  destruct (work_read _ _ sm_nonempty H5) as (e & r & VE & WE).
  rewrite <- G5.
  apply (receive_goes_well_single (rn_gr None) rn_sg 60 (s_init 0) sm_i (wc_st sm_step) (wc_out sm_step) (rn_d2 None) sm_w e rn_file r sm_k (rn_wr None) None rn_e0 rn_b (rn_rp None) peer early).
  - exact toy_ok.
  - cbv; discriminate.
  - cbv; discriminate.
  - reflexivity.
  - exact H2.
  - exact (wc_got _ H1).
  - apply one_reply. change (wc_reply (sent_to 60 (wc_out sm_step))) with sm_w. rewrite H6, H7. reflexivity.
  - exact VE.
  - exact WE.
  - reflexivity.
  - exact sm_open.
  - apply rn_receive_waiting.
  - exact sm_busy.
  - apply rn_request2.
  - eapply rn_understood; [reflexivity|apply rn_good; auto|apply sm_fits; auto].
  - eapply rn_agrees; [reflexivity|exact G1].
  - destruct SA as (P1 & P2). split; [split; [exact P1|]|destruct P2 as [[_ P2]|P2]; auto]. intros _ d R. apply (repeated_request_ignored _ _ _ _ _ _ _ _ R); [unfold MIN_BUFFER_SIZE; lia|left; reflexivity|left; exact (sm_clear e VE)].
  - exact SR.
  - reflexivity.
  - exact sm_create.
  - rewrite G2. cbv; discriminate.
  - rewrite G3, G2. cbv; discriminate.
  - right. rewrite G4. cbv; discriminate.
Qed.
(** The server answers from a port of its own, or from the one the command was given: there a repeated request is on its way. *)
Example receive_goes_well_single_case :
  goes_well (single_turn toy rn_sg 60) sview (receive_act (rn_gr None) (rn_wr None) None rn_peer) (receive_patient (rn_wr None)) receive_busy toy rn_sg 60 rn_peer
    (fun W => received (rn_gr None) rn_file (sm_prog W)) 14 120 (mkSm (wc_st sm_step) [] (rn_rp None) [sm_w] []).
Proof. apply (receive_goes_well_single_any rn_peer []). eapply (sm_own _ _ _ _ None); reflexivity. Qed.
Example receive_goes_well_single_same_port :
  goes_well (single_turn toy rn_sg 60) sview (receive_act (rn_gr None) (rn_wr None) None rn_home) (receive_patient (rn_wr None)) receive_busy toy rn_sg 60 rn_home
    (fun W => received (rn_gr None) rn_file (sm_prog W)) 16 120 (mkSm (wc_st sm_step) [] (rn_rp None) [sm_w] [rn_d2 None]).
Proof. apply (receive_goes_well_single_any rn_home [_]). eapply (sm_same _ _ _ _ None); [reflexivity|apply rn_request2]. Qed.
Lemma receive_goes_well_multi_any peer early : sm_fits_port (rn_gr None) (rn_wr None) false rn_e0 peer early ->
  goes_well (multi_turn toy rn_sg 60) mview (receive_act (rn_gr None) (rn_wr None) None peer) (receive_patient (rn_wr None)) receive_busy toy rn_sg 60 peer
    (fun W => received (rn_gr None) rn_file (sm_prog W)) (4 * 2 + 6 + 2 * N.of_nat (length early)) 120 (mkSm (wc_mst sm_mstep) [] (rn_rp None) [sm_w] early).
Proof.
  intros [SA SR].
  pose proof sm_mseen as H. apply pair4_inv in H as (H1 & H2 & H4 & H5).
  pose proof sm_agreed as H. apply pair5_inv in H as (G1 & G2 & G3 & G4 & G5).
  destruct (work_read _ _ sm_nonempty H5) as (e & r & VE & WE).
  rewrite <- G5.
  apply (receive_goes_well_multi (rn_gr None) rn_sg 60 m_init sm_i (wc_mst sm_mstep) (wc_mout sm_mstep) (rn_d2 None) sm_w e rn_file r sm_k (rn_wr None) None rn_e0 rn_b (rn_rp None) peer early).
  - exact toy_ok.
  - cbv; discriminate.
  - cbv; discriminate.
  - constructor.
  - reflexivity.
  - change (sm_mstep = Some (wc_mst sm_mstep, wc_mout sm_mstep)). destruct sm_mstep as [[? ?]|]; [reflexivity|discriminate H1].
  - exact H2.
  - exact VE.
  - exact WE.
  - reflexivity.
  - exact sm_open.
  - apply rn_receive_waiting.
  - exact sm_busy.
  - apply rn_request2.
  - eapply rn_understood; [reflexivity|apply rn_good; auto|apply sm_fits; auto].
  - eapply rn_agrees; [reflexivity|exact G1].
  - destruct SA as (P1 & P2). split; [split; [exact P1|]|destruct P2 as [[_ P2]|P2]; auto]. intros _ d R. apply (repeated_request_ignored _ _ _ _ _ _ _ _ R); [unfold MIN_BUFFER_SIZE; lia|left; reflexivity|left; exact (sm_mclear e VE)].
  - exact SR.
  - reflexivity.
  - exact sm_create.
  - rewrite G2. cbv; discriminate.
  - rewrite G3, G2. cbv; discriminate.
  - right. rewrite G4. cbv; discriminate.
Qed.
(** The server answers from a port of its own, or from the one the command was given: there a repeated request is on its way. *)
Example receive_goes_well_multi_case :
  goes_well (multi_turn toy rn_sg 60) mview (receive_act (rn_gr None) (rn_wr None) None rn_peer) (receive_patient (rn_wr None)) receive_busy toy rn_sg 60 rn_peer
    (fun W => received (rn_gr None) rn_file (sm_prog W)) 14 120 (mkSm (wc_mst sm_mstep) [] (rn_rp None) [sm_w] []).
Proof. apply (receive_goes_well_multi_any rn_peer []). eapply (sm_own _ _ _ _ None); reflexivity. Qed.
Example receive_goes_well_multi_same_port :
  goes_well (multi_turn toy rn_sg 60) mview (receive_act (rn_gr None) (rn_wr None) None rn_home) (receive_patient (rn_wr None)) receive_busy toy rn_sg 60 rn_home
    (fun W => received (rn_gr None) rn_file (sm_prog W)) 16 120 (mkSm (wc_mst sm_mstep) [] (rn_rp None) [sm_w] [rn_d2 None]).
Proof. apply (receive_goes_well_multi_any rn_home [_]). eapply (sm_same _ _ _ _ None); [reflexivity|apply rn_request2]. Qed.

(** ** send *)
Definition su_i : input := with_files (rn_i None) (Some None) [].
Definition su_step := step_recv toy rn_sg (s_init 0) su_i.
Definition su_w : bytes := wc_reply (sent_to 50 (wc_out su_step)).
Definition su_k : cside := rn_k (rn_gs None) true 600 rn_e1 su_w.
Definition su_mstep := main_turn toy rn_sg m_init (MData 50 (rn_d None)) su_i.
Lemma su_seen :
  (is_some su_step, taken (s_init 0) su_i, (beq su_w [], length (sent_to 50 (wc_out su_step))), is_some (sview (wc_st su_step) 50), wc_path (sview (wc_st su_step) 50)) =
    (true, TookMain 50 (rn_d None), (false, 1%nat), true, s2b "f").
Proof. vm_compute. reflexivity. Qed.
Lemma su_mseen :
  (is_some su_mstep, sent_to 50 (wc_mout su_mstep), is_some (mview (wc_mst su_mstep) 50), wc_path (mview (wc_mst su_mstep) 50)) =
    (true, [OWire su_w], true, s2b "f").
Proof. vm_compute. reflexivity. Qed.
Lemma su_clear e : sview (wc_st su_step) 50 = Some e -> en_key e = None.
Proof. apply no_key_none. vm_compute. reflexivity. Qed.
Lemma su_mclear e : mview (wc_mst su_mstep) 50 = Some e -> en_key e = None.
Proof. apply no_key_none. vm_compute. reflexivity. Qed.
Lemma su_agreed : (option_map q_ack (rn_q (rn_gs None) true 600 rn_e1 su_w), op_window (k_opts su_k), nblocks rn_file (bs_enc (k_opts su_k)), beq (content rn_a (Some (Reads (SFile 0)))) rn_file) =
  (Some true, 1, 2, true).
Proof. vm_compute. reflexivity. Qed.
Lemma su_open p n : h_open (i_henv su_i) p = Some (Some n) -> n <= U64_MAX.
Proof. unfold su_i, with_files, with_open. cbn [i_henv h_open]. discriminate. Qed.
Lemma su_busy : rn_sp None <> UFailed.
Proof. vm_compute. discriminate. Qed.
Lemma su_name : s2b "f" <> [].
Proof. intros X. vm_compute in X. discriminate X. Qed.
Lemma send_goes_well_single_any peer early : sm_fits_port (rn_gs None) (rn_wc (rn_gs None) true 600) true rn_e1 peer early ->
  goes_well (single_turn toy rn_sg 50) sview (send_act (rn_gs None) (rn_wc (rn_gs None) true 600) None peer rn_a) (send_patient (rn_wc (rn_gs None) true 600)) send_busy toy rn_sg 50 peer
    (delivered rn_file) (4 * 2 + 6 + 2 * N.of_nat (length early)) 20 (mkSm (wc_st su_step) [] (rn_sp None) [su_w] early).
Proof.
  intros [SA SR].
  pose proof su_seen as H. apply pair5_inv in H as (H1 & H2 & H3 & H4 & H5). apply pair_inv in H3 as [H6 H7].
  pose proof su_agreed as H. apply pair4_inv in H as (G1 & G2 & G3 & G4). apply beq_eq in G4.
  destruct (work_write _ _ su_name H5) as (e & wr & VE & WE).
  rewrite <- G3, <- G4.
  apply (send_goes_well_single (rn_gs None) rn_sg 50 (s_init 0) su_i (wc_st su_step) (wc_out su_step) (rn_d None) su_w e (s2b "f") wr su_k (rn_wc (rn_gs None) true 600) None rn_e1 rn_a 0 (SFile 0) (rn_sp None) peer early).
  - exact toy_ok.
  - cbv; discriminate.
  - cbv; discriminate.
  - reflexivity.
  - exact H2.
  - exact (wc_got _ H1).
  - apply one_reply. change (wc_reply (sent_to 50 (wc_out su_step))) with su_w. rewrite H6, H7. reflexivity.
  - exact VE.
  - exact WE.
  - reflexivity.
  - exact su_open.
  - exact (rn_send_waiting None).
  - exact su_busy.
  - exact (rn_request None).
  - eapply rn_understood; [reflexivity|apply rn_good; auto|apply sm_fits; auto].
  - eapply rn_agrees; [reflexivity|exact G1].
  - destruct SA as (P1 & P2). split; [split; [exact P1|]|destruct P2 as [[_ P2]|P2]; auto]. intros _ d R. apply (repeated_request_ignored _ _ _ _ _ _ _ _ R); [unfold MIN_BUFFER_SIZE; lia|left; reflexivity|left; exact (su_clear e VE)].
  - exact SR.
  - reflexivity.
  - discriminate.
  - rewrite G4. cbv; discriminate.
  - right. rewrite G2. cbv; discriminate.
Qed.
(** The server answers from a port of its own, or from the one the command was given: there a repeated request is on its way. *)
Example send_goes_well_single_case :
  goes_well (single_turn toy rn_sg 50) sview (send_act (rn_gs None) (rn_wc (rn_gs None) true 600) None rn_peer rn_a) (send_patient (rn_wc (rn_gs None) true 600)) send_busy toy rn_sg 50 rn_peer
    (delivered rn_file) 14 20 (mkSm (wc_st su_step) [] (rn_sp None) [su_w] []).
Proof. apply (send_goes_well_single_any rn_peer []). eapply (sm_own _ _ _ _ None); reflexivity. Qed.
Example send_goes_well_single_same_port :
  goes_well (single_turn toy rn_sg 50) sview (send_act (rn_gs None) (rn_wc (rn_gs None) true 600) None rn_home rn_a) (send_patient (rn_wc (rn_gs None) true 600)) send_busy toy rn_sg 50 rn_home
    (delivered rn_file) 16 20 (mkSm (wc_st su_step) [] (rn_sp None) [su_w] [rn_d None]).
Proof. apply (send_goes_well_single_any rn_home [_]). eapply (sm_same _ _ _ _ None); [reflexivity|exact (rn_request None)]. Qed.
Lemma send_goes_well_multi_any peer early : sm_fits_port (rn_gs None) (rn_wc (rn_gs None) true 600) true rn_e1 peer early ->
  goes_well (multi_turn toy rn_sg 50) mview (send_act (rn_gs None) (rn_wc (rn_gs None) true 600) None peer rn_a) (send_patient (rn_wc (rn_gs None) true 600)) send_busy toy rn_sg 50 peer
    (delivered rn_file) (4 * 2 + 6 + 2 * N.of_nat (length early)) 20 (mkSm (wc_mst su_mstep) [] (rn_sp None) [su_w] early).
Proof.
  intros [SA SR].
  pose proof su_mseen as H. apply pair4_inv in H as (H1 & H2 & H4 & H5).
  pose proof su_agreed as H. apply pair4_inv in H as (G1 & G2 & G3 & G4). apply beq_eq in G4.
  destruct (work_write _ _ su_name H5) as (e & wr & VE & WE).
  rewrite <- G3, <- G4.
  apply (send_goes_well_multi (rn_gs None) rn_sg 50 m_init su_i (wc_mst su_mstep) (wc_mout su_mstep) (rn_d None) su_w e (s2b "f") wr su_k (rn_wc (rn_gs None) true 600) None rn_e1 rn_a 0 (SFile 0) (rn_sp None) peer early).
  - exact toy_ok.
  - cbv; discriminate.
  - cbv; discriminate.
  - constructor.
  - reflexivity.
  - change (su_mstep = Some (wc_mst su_mstep, wc_mout su_mstep)). destruct su_mstep as [[? ?]|]; [reflexivity|discriminate H1].
  - exact H2.
  - exact VE.
  - exact WE.
  - reflexivity.
  - exact su_open.
  - exact (rn_send_waiting None).
  - exact su_busy.
  - exact (rn_request None).
  - eapply rn_understood; [reflexivity|apply rn_good; auto|apply sm_fits; auto].
  - eapply rn_agrees; [reflexivity|exact G1].
  - destruct SA as (P1 & P2). split; [split; [exact P1|]|destruct P2 as [[_ P2]|P2]; auto]. intros _ d R. apply (repeated_request_ignored _ _ _ _ _ _ _ _ R); [unfold MIN_BUFFER_SIZE; lia|left; reflexivity|left; exact (su_mclear e VE)].
  - exact SR.
  - reflexivity.
  - discriminate.
  - rewrite G4. cbv; discriminate.
  - right. rewrite G2. cbv; discriminate.
Qed.
(** The server answers from a port of its own, or from the one the command was given: there a repeated request is on its way. *)
Example send_goes_well_multi_case :
  goes_well (multi_turn toy rn_sg 50) mview (send_act (rn_gs None) (rn_wc (rn_gs None) true 600) None rn_peer rn_a) (send_patient (rn_wc (rn_gs None) true 600)) send_busy toy rn_sg 50 rn_peer
    (delivered rn_file) 14 20 (mkSm (wc_mst su_mstep) [] (rn_sp None) [su_w] []).
Proof. apply (send_goes_well_multi_any rn_peer []). eapply (sm_own _ _ _ _ None); reflexivity. Qed.
Example send_goes_well_multi_same_port :
  goes_well (multi_turn toy rn_sg 50) mview (send_act (rn_gs None) (rn_wc (rn_gs None) true 600) None rn_home rn_a) (send_patient (rn_wc (rn_gs None) true 600)) send_busy toy rn_sg 50 rn_home
    (delivered rn_file) 16 20 (mkSm (wc_mst su_mstep) [] (rn_sp None) [su_w] [rn_d None]).
Proof. apply (send_goes_well_multi_any rn_home [_]). eapply (sm_same _ _ _ _ None); [reflexivity|exact (rn_request None)]. Qed.
Print Assumptions receive_goes_well_single.
Print Assumptions receive_goes_well_multi.
Print Assumptions send_goes_well_single.
Print Assumptions send_goes_well_multi.
Print Assumptions repeated_request_ignored.
