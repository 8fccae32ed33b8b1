(** A concrete case for C70: one client uploads "dir/g" (DiskCases.v, while another one downloads and a
    third one wants to upload the same file), the server is restarted, that third client tries again in
    vain, and a fourth one downloads "./dir//g". *)
From Verif Require Import Base BaseProofs PacketModel PacketSpec MapperModel ReaderModel ReaderSpec ConfigModel Base64Model CryptoModel CryptoSpec CryptoProofs ExtModel ExtSpec
  PathModel ConnModel ClientModel ConnSpec HandshakeModel PropCrypto PropExt PropHandshake AgreeProofs PropAgree SystemModel
  ServerModel ServerSpec ServerProofs PropServer WorldModel WorldProofs WorldB PropWorld WorldCases FsModel FsSpec PropFs FsServerModel
  DiskModel DiskSpec DiskProofs DiskB DiskC PropDisk DiskCases StoreSpec StoreProofs PropStore.

Lemma nexec_ok fg id name st x t st' o : dexec_own toy wc_g fg 0 st x = Some (t, st', o) -> undisturbed dsv toy wc_g fg 0 id name st t st' o.
Proof. intros H. apply und_own. eapply dexec_step. exact H. Qed.
Lemma mk_fs {S} (s : S) f o : dk_fs (mkDk s f o) = f.
Proof. reflexivity. Qed.
Lemma dc_consistent : consistent dc_fs.
Proof.
  split; [constructor|]. intros p id. destruct p as [|a p]; [discriminate|]. unfold at_, dc_fs, ex_look. cbn [f_tree f_next].
  destruct (find _ _) as [[q n]|] eqn:F; [|discriminate]. intros [= ->]. apply find_some in F as [F _].
  unfold dc_tree in F. cbn [In] in F. repeat (destruct F as [F|F]; [first [discriminate F | injection F as <- <-; reflexivity]|]). destruct F.
Qed.
Lemma uw_consistent fg a k file n W0 W : consistent (dk_fs (uw_srv W0)) ->
  uwreach (dkstep dsv toy wc_g fg 0) (dview dsv) toy a k file n W0 W -> consistent (dk_fs (uw_srv W)).
Proof.
  intros C0 R. induction R as [|W W' R IH ST]; [exact C0|]. destruct ST; cbn [uw_srv] in *; try exact IH;
    (eapply (consistent_step toy wc_g fg 0 dsv); eassumption).
Qed.
Lemma drun_consistent fg : forall l h st, consistent (dk_fs st) -> consistent (dk_fs (snd (drun (dexec_own toy wc_g fg 0) h st l))).
Proof.
  induction l as [|x l IH]; intros h st C; cbn [drun]; [exact C|]. destruct (dexec_own toy wc_g fg 0 st x) as [[[t st'] o]|] eqn:E; [|exact C].
  apply IH. eapply (consistent_step toy wc_g fg 0 dsv); [eapply dexec_step; exact E|exact C].
Qed.

(** The upload. *)
Definition sc_name : bytes := s2b "dir/g".
Lemma du_consistent : consistent (dk_fs du_st).
Proof.
  assert (H : consistent (dk_fs dc_st0)) by (unfold dc_st0; rewrite mk_fs; exact dc_consistent).
  unfold du_st, dc_st. cbn [drun dexec]. destruct (dexec_own toy wc_g (dc_g false) 0 dc_st0 (DRecv dc_i0)) as [[[t st'] o]|] eqn:E; [|exact H].
  cbn [snd]. eapply (consistent_step toy wc_g (dc_g false) 0 dsv); [eapply dexec_step; exact E|exact H].
Qed.
Definition sc_e : option entry := Eval vm_compute in sv_view dsv du_s1 50.
Definition sc_entry (e : option entry) : entry := match e with Some e => e | None => mkE (conn_new ex_o 0) None (WWrite [] writer_new) end.
Lemma du_begins : begins dsv toy wc_g (dc_g false) 0 true du_st 50 dc_up sc_name du_st1 (Writes 1) (sc_entry sc_e) du_k.
Proof.
  exists du_i0, du_f, (Some None), du_s1, du_o1, du_w. split; [vm_compute; reflexivity|]. split; [vm_compute; reflexivity|].
  split; [pose proof du_or_eq as H; unfold du_or in H; exact H|]. split; [split; [vm_compute; reflexivity|pose proof du_step_eq as H; unfold du_step, du_i in H; exact H]|]. split; [vm_compute; reflexivity|]. split; [vm_compute; reflexivity|].
  split; [reflexivity|]. exact du_negotiates.
Qed.
Definition sc_W : @uworld (disk sstate) := uw_final (dview dsv) (dexec_own toy wc_g (dc_g false) 0) toy 50 du_k wc_file du_n du_W0 du_evs.
Lemma sc_W_reach : uwreach (undisturbed dsv toy wc_g (dc_g false) 0 1 sc_name) (dview dsv) toy 50 du_k wc_file du_n du_W0 sc_W.
Proof. apply (uw_final_reach _ _ _ (nexec_ok (dc_g false) 1 sc_name)). Qed.
(** Restart, a refused upload. *)
Definition sc_st2 : disk sstate := mkDk (s_init 100) (dk_fs (uw_srv sc_W)) (fun _ => None).
Definition sc_run := drun (dexec_own toy wc_g (dc_g false) 0) [] sc_st2 [DRecv (dc_ask 110 51 dc_up)].
Definition sc_st3 : disk sstate := snd sc_run.
Lemma sc_later : later dc_init (undisturbed dsv toy wc_g (dc_g false) 0 1 sc_name) sc_st2 sc_st3.
Proof.
  unfold sc_st3, sc_run. cbn [drun]. destruct (dexec_own _ _ _ _ sc_st2 _) as [[[t st'] o]|] eqn:E; [|constructor].
  eapply later_step; [constructor|]. cbn [snd]. eapply nexec_ok. exact E.
Qed.
Lemma du_st1_consistent : consistent (dk_fs du_st1).
Proof.
  pose proof du_begins as (i & f' & q & s1 & o & w & LK & FR & OR & MN & SO & V & E1 & HN).
  assert (ST : dkstep dsv toy wc_g (dc_g false) 0 du_st (TookMain 50 dc_up) du_st1 o) by (rewrite E1; eapply dk_ask; eassumption).
  exact (consistent_step _ _ _ _ _ _ _ _ _ ST du_consistent).
Qed.
Lemma sc_W_own : uwreach (dkstep dsv toy wc_g (dc_g false) 0) (dview dsv) toy 50 du_k wc_file du_n du_W0 sc_W.
Proof. apply (uw_final_reach _ _ _ (dexec_step toy wc_g (dc_g false) 0)). Qed.
Lemma sc_W_consistent : consistent (dk_fs (uw_srv sc_W)).
Proof. exact (uw_consistent (dc_g false) 50 du_k wc_file du_n du_W0 sc_W du_st1_consistent sc_W_own). Qed.
Lemma sc_consistent : consistent (dk_fs sc_st3).
Proof.
  assert (C2 : consistent (dk_fs sc_st2)) by (unfold sc_st2; rewrite mk_fs; exact sc_W_consistent).
  exact (drun_consistent (dc_g false) [DRecv (dc_ask 110 51 dc_up)] [] sc_st2 C2).
Qed.
(** The download. *)
Definition sc_req := client_request toy ex_cc dc_o [1; 2] [3; 4] (repeat 5 24) false (s2b "./dir//g").
Definition sc_d : bytes := Eval vm_compute in wc_dg sc_req.
Definition sc_i0 : input := dc_ask 120 12 sc_d.
Definition sc_or := open_request toy (g_cfg wc_g) (dc_g false) 0 (dk_fs sc_st3) (h_eph (i_henv sc_i0)) (recv_cut wc_g sc_d).
Definition sc_rf : fs := fst (fst sc_or).
Lemma sc_asked : (snd (fst sc_or), snd sc_or, sv_looked dsv (dk_srv sc_st3) 12, uw_stat sc_W, length (fst sc_run)) =
  (Some (Some 1500), Some (Reads (SFile 1)), true, CDone 1500, 1%nat).
Proof. vm_compute. reflexivity. Qed.
Lemma sc_or_eq : sc_or = (sc_rf, Some (Some 1500), Some (Reads (SFile 1))).
Proof. destruct (pair5_inv _ _ _ _ _ _ _ _ _ _ sc_asked) as (H1 & H2 & _). exact (triple _ _ _ H1 H2). Qed.
Definition sc_i : input := with_files sc_i0 (Some (Some 1500)) (content sc_rf (Some (Reads (SFile 1)))).
Definition sc_step := step_recv toy wc_g (loaded dsv sc_st3) sc_i.
Definition sc_s1 : sstate := Eval vm_compute in wc_st sc_step.
Definition sc_o1 : outs := Eval vm_compute in wc_out sc_step.
Lemma sc_step_eq : sc_step = Some (sc_s1, sc_o1).
Proof. vm_compute. reflexivity. Qed.
Definition sc_w : bytes := Eval vm_compute in wc_reply (sent_to 12 sc_o1).
Definition sc_k : cside := Eval vm_compute in wc_client false sc_w sc_req.
Definition sc_st4 : disk sstate := mkDk sc_s1 sc_rf (still_open dsv sc_s1 (fun b => if b =? 12 then Some (Reads (SFile 1)) else dk_open sc_st3 b)).
Lemma sc_negotiates : negotiates toy (g_cfg wc_g) (with_open (i_henv sc_i0) (Some (Some 1500))) false sc_d sc_w sc_k.
Proof.
  apply (negotiates_intro toy ex_cfg _ false sc_d sc_w sc_k ex_cc dc_o [1; 2] [3; 4] (repeat 5 24) (s2b "./dir//g")).
  - vm_compute. repeat split; discriminate.
  - reflexivity.
  - reflexivity.
  - vm_compute. repeat split; try lia; repeat constructor; lia.
  - intros path n [= <-]. unfold U64_MAX. lia.
  - intros vk [= <-]; exists [7]; auto.
  - vm_compute. reflexivity.
Qed.
Definition sc_e2 : option entry := Eval vm_compute in sv_view dsv sc_s1 12.
Lemma sc_begins : begins dsv toy wc_g (dc_g false) 0 false sc_st3 12 sc_d sc_name sc_st4 (Reads (SFile 1)) (sc_entry sc_e2) sc_k.
Proof.
  destruct (pair5_inv _ _ _ _ _ _ _ _ _ _ sc_asked) as (_ & _ & LK & _ & _).
  exists sc_i0, sc_rf, (Some (Some 1500)), sc_s1, sc_o1, sc_w. split; [exact LK|]. clear LK. split; [vm_compute; reflexivity|].
  split; [pose proof sc_or_eq as H; unfold sc_or in H; exact H|]. split; [split; [vm_compute; reflexivity|pose proof sc_step_eq as H; unfold sc_step, sc_i in H; exact H]|]. split; [vm_compute; reflexivity|]. split; [vm_compute; reflexivity|].
  split; [reflexivity|]. exact sc_negotiates.
Qed.
Definition sc_n : N := Eval vm_compute in nblocks wc_file (bs_enc (k_opts sc_k)).
Definition sc_D0 : @dworld (disk sstate) := mkDW sc_st4 false (crecv_new 0) CRun [] [] 0 0.
Definition sc_evs : list (@wev dev) :=
  [WDo (DSend (wc_in 121 wc_quiet MWouldBlock)); WDo (DSend (wc_in 123 wc_quiet MWouldBlock)); WDo (DRecv (dc_ask 124 51 dc_up));
   WClient 0 (wc_e 130); WClient 1 (wc_e 131); WClient 0 (wc_e 132); WServer (fun d => DRecv (dc_from 140 12 d)) 0].
Definition sc_D : @dworld (disk sstate) := dw_final (dview dsv) (dexec_own toy wc_g (dc_g false) 0) toy 12 sc_k sc_n sc_D0 sc_evs.
Lemma sc_D_reach : dwreach (undisturbed dsv toy wc_g (dc_g false) 0 1 sc_name) (dview dsv) toy 12 sc_k sc_n sc_D0 sc_D.
Proof. apply (dw_final_reach _ _ _ (nexec_ok (dc_g false) 1 sc_name)). Qed.
(** Every hypothesis of the theorem is met, and both clients report success. *)
Lemma sc_D_ends : (dw_stat sc_D, w_out (cr_w (dw_cl sc_D)), leads (dk_fs (dw_srv sc_D)) (dc_g false) sc_name) = (CDone 1500, wc_file, Some 1).
Proof. vm_compute. reflexivity. Qed.
Example store_and_retrieve_case :
  one_of toy wc_g sstate dsv dc_init (fun _ d => recv_cut wc_g d) /\ crypto_ok toy /\
  dkreach dsv toy wc_g (dc_g false) 0 dc_init du_st /\ consistent (dk_fs du_st) /\
  begins dsv toy wc_g (dc_g false) 0 true du_st 50 dc_up sc_name du_st1 (Writes 1) (sc_entry sc_e) du_k /\
  uwreach (undisturbed dsv toy wc_g (dc_g false) 0 1 sc_name) (dview dsv) toy 50 du_k wc_file du_n du_W0 sc_W /\
  uw_stat sc_W = CDone 1500 /\
  (exists s, dc_init s /\ sc_st2 = mkDk s (dk_fs (uw_srv sc_W)) (fun _ => None)) /\
  later dc_init (undisturbed dsv toy wc_g (dc_g false) 0 1 sc_name) sc_st2 sc_st3 /\ length (fst sc_run) = 1%nat /\ consistent (dk_fs sc_st3) /\
  listing (dc_g false) sc_name = false /\
  begins dsv toy wc_g (dc_g false) 0 false sc_st3 12 sc_d sc_name sc_st4 (Reads (SFile 1)) (sc_entry sc_e2) sc_k /\
  dwreach (undisturbed dsv toy wc_g (dc_g false) 0 1 sc_name) (dview dsv) toy 12 sc_k sc_n sc_D0 sc_D /\
  dw_stat sc_D = CDone 1500 /\ w_out (cr_w (dw_cl sc_D)) = wc_file /\
  leads (dk_fs (dw_srv sc_D)) (dc_g false) sc_name = Some 1.
Proof.
  split; [apply one_single|]. split; [exact toy_ok|]. split; [exact du_reach|]. split; [exact du_consistent|]. split; [exact du_begins|].
  destruct (pair5_inv _ _ _ _ _ _ _ _ _ _ sc_asked) as (_ & _ & _ & WS & RL).
  destruct (pair3_inv _ _ _ _ _ _ sc_D_ends) as (E1 & E2 & E3).
  split; [exact sc_W_reach|]. split; [exact WS|]. split; [exists (s_init 100); split; [exists 100; reflexivity|reflexivity]|].
  split; [exact sc_later|]. split; [exact RL|]. split; [exact sc_consistent|]. split; [reflexivity|]. split; [exact sc_begins|].
  split; [exact sc_D_reach|]. split; [exact E1|]. split; [exact E2|exact E3].
Qed.
(** The same through the theorem: whatever the run had been. *)
Example store_and_retrieve_applies : forall total, dw_stat sc_D = CDone total -> w_out (cr_w (dw_cl sc_D)) = wc_file /\ total = 1500.
Proof.
  eapply (store_and_retrieve_exclusive toy wc_g (dc_g false) 0 sstate dsv dc_init (fun _ d => recv_cut wc_g d) du_st 50 dc_up sc_name du_st1 1 (sc_entry sc_e) du_k
    false wc_file 0 [] [] sc_W 1500 sc_st2 sc_st3 12 sc_d sc_st4 (Reads (SFile 1)) (sc_entry sc_e2) sc_k 0 [] [] sc_D).
  - apply one_single.
  - exact toy_ok.
  - vm_compute. discriminate.
  - vm_compute. discriminate.
  - reflexivity.
  - exact du_reach.
  - exact du_consistent.
  - exact du_begins.
  - left. vm_compute. discriminate.
  - constructor.
  - constructor.
  - exact sc_W_reach.
  - exact (proj1 (proj2 (proj2 (proj2 (pair5_inv _ _ _ _ _ _ _ _ _ _ sc_asked))))).
  - right. exists (s_init 100). split; [exists 100; reflexivity|reflexivity].
  - exact sc_later.
  - exact sc_consistent.
  - reflexivity.
  - exact sc_begins.
  - left. vm_compute. discriminate.
  - constructor.
  - constructor.
  - exact sc_D_reach.
Qed.
