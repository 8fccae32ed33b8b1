(** Concrete cases for C87: the worlds of RfcCases at a moment when datagrams have been lost. *)
From Verif Require Import Base BaseProofs PacketModel PacketSpec MapperModel ReaderModel ReaderSpec ConfigModel Base64Model CryptoModel CryptoSpec CryptoProofs ExtModel ExtSpec
  PathModel ConnModel ClientModel ConnSpec HandshakeModel PropCrypto PropExt PropHandshake AgreeProofs PropAgree SystemModel
  ServerModel ServerSpec ServerProofs PropServer WorldModel WorldProofs WorldB PropWorld WorldCases ProgressModel RfcSpec RfcProofs PropRfc RfcCases RfcLossSpec PropRfcLoss.

(** Block 1 has come; its acknowledgement has been sent and is lost. *)
Definition rl_gev : list (@rev sev) := [VDo (SSend (rf_in 11 wc_quiet MWouldBlock)); VHears 0; VSends; rf_idle 20].
Definition rl_GW : @gworld sstate := Eval vm_compute in gw_final sview (sexec toy rf_g) toy 10 rf_file rf_GW0 rl_gev.
Lemma rl_GW_eq : rl_GW = gw_final sview (sexec toy rf_g) toy 10 rf_file rf_GW0 rl_gev.
Proof. vm_compute. reflexivity. Qed.
Lemma rl_GW_reach : gwreach (sphase toy rf_g) sview toy 10 rf_file rf_GW0 rl_GW.
Proof. rewrite rl_GW_eq. exact (gw_final_reach (sphase toy rf_g) sview (sexec toy rf_g) (sexec_ok toy rf_g) toy 10 _ _ _). Qed.
Example plain_download_recovers_case :
  gwreach (sphase toy rf_g) sview toy 10 rf_file rf_GW0 rl_GW /\ gw_over rl_GW = false /\ got_blocks (gw_cl rl_GW) = 1 /\
  option_map (fun e => c_finished (en_conn e)) (sview (gw_srv rl_GW) 10) = Some false.
Proof. split; [exact rl_GW_reach|]. do 2 (split; [vm_compute; reflexivity|]). vm_compute; reflexivity. Qed.
(** The first block has been stored; the acknowledgement of it is lost. *)
Definition rl_pev : list (@rev sev) := [VHears 0; VSends; VServer (rf_took 50 20) 0].
Definition rl_PW : @pworld sstate := Eval vm_compute in pw_final sview (sexec toy rf_g) toy 50 rf_file rf_PW0 rl_pev.
Lemma rl_PW_eq : rl_PW = pw_final sview (sexec toy rf_g) toy 50 rf_file rf_PW0 rl_pev.
Proof. vm_compute. reflexivity. Qed.
Lemma rl_PW_reach : pwreach (sphase toy rf_g) sview toy 50 rf_file rf_PW0 rl_PW.
Proof. rewrite rl_PW_eq. exact (pw_final_reach (sphase toy rf_g) sview (sexec toy rf_g) (sexec_ok toy rf_g) toy 50 _ _ _). Qed.
Example plain_upload_recovers_case :
  pwreach (sphase toy rf_g) sview toy 50 rf_file rf_PW0 rl_PW /\ pw_over rl_PW = false /\ pw_cl rl_PW = 1 /\ putter_last rf_file = 2 /\
  blen (pw_kept rl_PW) = 512 /\ blen rf_file <= g_max_size rf_g /\
  option_map (fun e => c_invalid (en_conn e)) (sview (pw_srv rl_PW) 50) = Some None.
Proof. split; [exact rl_PW_reach|]. do 4 (split; [vm_compute; reflexivity|]). split; [vm_compute; discriminate|]. vm_compute; reflexivity. Qed.
(** The same moments with the multi threaded server. *)
Definition rl_MGW : @gworld mstate := Eval vm_compute in
  gw_final mview (mexec toy rf_g 10) toy 10 rf_file rf_MGW0 [VDo (TSend 1404 (wc_e 11)); VHears 0; VSends].
Lemma rl_MGW_eq : rl_MGW = gw_final mview (mexec toy rf_g 10) toy 10 rf_file rf_MGW0 [VDo (TSend 1404 (wc_e 11)); VHears 0; VSends].
Proof. vm_compute. reflexivity. Qed.
Definition rl_MPW : @pworld mstate := Eval vm_compute in
  pw_final mview (mexec toy rf_g 50) toy 50 rf_file rf_MPW0 [VHears 0; VSends; VServer (rf_mtook 20) 0].
Lemma rl_MPW_eq : rl_MPW = pw_final mview (mexec toy rf_g 50) toy 50 rf_file rf_MPW0 [VHears 0; VSends; VServer (rf_mtook 20) 0].
Proof. vm_compute. reflexivity. Qed.
Example plain_recovers_multi_case :
  gwreach (mphase toy rf_g) mview toy 10 rf_file rf_MGW0 rl_MGW /\ gw_over rl_MGW = false /\ got_blocks (gw_cl rl_MGW) = 1 /\
  option_map (fun e => c_finished (en_conn e)) (mview (gw_srv rl_MGW) 10) = Some false /\
  pwreach (mphase toy rf_g) mview toy 50 rf_file rf_MPW0 rl_MPW /\ pw_over rl_MPW = false /\ pw_cl rl_MPW = 1 /\ blen (pw_kept rl_MPW) = 512 /\
  option_map (fun e => c_invalid (en_conn e)) (mview (pw_srv rl_MPW) 50) = Some None.
Proof.
  split; [rewrite rl_MGW_eq; exact (gw_final_reach (mphase toy rf_g) mview (mexec toy rf_g 10) (mexec_ok toy rf_g 10) toy 10 _ _ _)|].
  do 3 (split; [vm_compute; reflexivity|]).
  split; [rewrite rl_MPW_eq; exact (pw_final_reach (mphase toy rf_g) mview (mexec toy rf_g 50) (mexec_ok toy rf_g 50) toy 50 _ _ _)|].
  do 3 (split; [vm_compute; reflexivity|]). vm_compute; reflexivity.
Qed.
(** The request of the client at 50 comes again, once the server has taken it; nothing is sent. *)
Definition rl_some {A : Type} (o : option A) : bool := match o with Some _ => true | None => false end.
Definition rl_again : input := rf_in 20 (fun x => if x =? 50 then Some rf_wrq else None) MWouldBlock.
Example first_ack_case : exists s l e,
  hears_only (sphase toy rf_g) sview 50 (rfc_request true rf_name) rf_s0 s l /\ sview s 50 = Some e /\ l = [] /\
  taken rf_s0 rl_again = TookClient 50 (rfc_request true rf_name) (i_env rl_again).
Proof.
  destruct (step_recv toy rf_g rf_s0 rl_again) as [[s o]|] eqn:E.
  2:{ exfalso. assert (H : rl_some (step_recv toy rf_g rf_s0 rl_again) = true) by (vm_compute; reflexivity). rewrite E in H. discriminate. }
  assert (TK : taken rf_s0 rl_again = TookClient 50 (rfc_request true rf_name) (i_env rl_again)) by (rewrite <- rf_wrq_eq; vm_compute; reflexivity).
  assert (V : rl_some (sview rf_s0 50) = true) by (vm_compute; reflexivity).
  destruct (sview rf_s0 50) as [e0|] eqn:V0; [|discriminate].
  assert (SN : option_map (fun p => (rl_some (sview (fst p) 50), sent_to 50 (snd p))) (step_recv toy rf_g rf_s0 rl_again) = Some (true, [])) by (vm_compute; reflexivity).
  rewrite E in SN. cbn [option_map fst snd] in SN. injection SN as S1 S2. destruct (sview s 50) as [e|] eqn:VS; [|discriminate].
  exists s, ([] ++ sent_to 50 o), e. split; [|split; [exact VS|split; [exact S2|exact TK]]].
  eapply ho_step; [constructor|exact V0|apply sp_receive; exact E|right; eexists; exact TK].
Qed.
