(** Concrete runs on a shared disk: transfers of different files side by side, two uploads into one
    file, a file cut short while it is downloaded. *)
From Verif Require Import Base BaseProofs PacketModel PacketSpec MapperModel ReaderModel ReaderSpec ConfigModel Base64Model CryptoModel CryptoSpec CryptoProofs ExtModel ExtSpec
  PathModel ConnModel ClientModel ConnSpec HandshakeModel PropCrypto PropExt PropHandshake AgreeProofs PropAgree SystemModel
  ServerModel ServerSpec ServerProofs PropServer WorldModel WorldProofs WorldB PropWorld WorldCases FsModel PropFs FsServerModel
  DiskModel DiskSpec DiskProofs DiskB DiskC PropDisk.

Section Exec.
Variables (c : crypto) (g : srvcfg) (fg : fcfg) (ds : N).
Notation sv := (single_server c g).
Inductive dev := DSend (i : input) | DRecv (i : input) | DOther (f : fs).
(** The server sends or receives. *)
Definition dexec_own (st : disk sstate) (x : dev) : option (took * disk sstate * outs) :=
  let s := loaded sv st in
  match x with
  | DSend i => let '(s', o) := step_send s i in Some (TookNothing, mkDk s' (dk_fs st) (still_open sv s' (dk_open st)), o)
  | DRecv i =>
      match taken s i with
      | TookNothing => match step_recv c g s i with
                       | Some (s', o) => Some (TookNothing, mkDk s' (dk_fs st) (still_open sv s' (dk_open st)), o)
                       | None => None
                       end
      | TookClient b d v => match step_recv c g s i with
                            | Some (s', o) => Some (TookClient b d v, mkDk s' (written (dk_fs st) (dk_open st b) (dview sv st b) (sv_view sv s' b)) (still_open sv s' (dk_open st)), o)
                            | None => None
                            end
      | TookMain b d =>
          if sv_looked sv (dk_srv st) b then
            match open_request c (g_cfg g) fg ds (dk_fs st) (h_eph (i_henv i)) (recv_cut g d) with
            | (f', q, r) =>
                match step_recv c g s (with_files i q (content f' r)) with
                | Some (s', o) => Some (TookMain b d, mkDk s' f' (still_open sv s' (fun a => if a =? b then r else dk_open st a)), o)
                | None => None
                end
            end
          else None
      end
  | DOther f => None
  end.
Lemma dexec_step st x t st' o : dexec_own st x = Some (t, st', o) -> dkstep sv c g fg ds st t st' o.
Proof.
  unfold dexec_own. destruct x as [i|i|f]; [| |discriminate].
  - destruct (step_send _ i) as [s' o1] eqn:E. intros [= <- <- <-]. apply (dk_phase sv c g fg ds st TookNothing s' o1); [|discriminate].
    exact (sp_send c g _ i s' o1 E).
  - pose proof (fun s' o E => sp_receive c g (loaded sv st) i s' o E) as SP. destruct (taken (loaded sv st) i) as [|b d v|b d] eqn:T.
    + destruct (step_recv c g _ i) as [[s' o1]|]; [|discriminate]. intros [= <- <- <-].
      apply (dk_phase sv c g fg ds st TookNothing s' o1); [apply SP; reflexivity|discriminate].
    + destruct (step_recv c g _ i) as [[s' o1]|]; [|discriminate]. intros [= <- <- <-].
      apply (dk_phase sv c g fg ds st (TookClient b d v) s' o1); [apply SP; reflexivity|discriminate].
    + destruct (sv_looked sv (dk_srv st) b) eqn:LK; [|discriminate]. destruct (open_request _ _ _ _ _ _ _) as [[f' q] r] eqn:OR.
      destruct (step_recv c g _ (with_files i q _)) as [[s' o1]|] eqn:E; [|discriminate]. intros [= <- <- <-].
      eapply dk_ask; [exact LK|exact OR|]. split; [exact T|exact E].
Qed.
(** Also another program may do something. *)
Definition dexec (st : disk sstate) (x : dev) : option (took * disk sstate * outs) :=
  match x with
  | DOther f => if f_next (dk_fs st) <=? f_next f then Some (TookNothing, mkDk (dk_srv st) f (dk_open st), []) else None
  | _ => dexec_own st x
  end.
Lemma dexec_any st x t st' o : dexec st x = Some (t, st', o) -> dkany sv c g fg ds st t st' o.
Proof.
  destruct x as [i|i|f]; cbn [dexec]; [intros H; apply dk_step; eapply dexec_step; exact H..|].
  destruct (N.leb_spec (f_next (dk_fs st)) (f_next f)); [|discriminate]. intros [= <- <- <-]. apply dk_other. assumption.
Qed.
Definition rexec (src : source) (st : disk sstate) (x : dev) : option (took * disk sstate * outs) :=
  match dexec st x with
  | Some (t, st', o) => if beq (content (dk_fs st') (Some (Reads src))) (content (dk_fs st) (Some (Reads src))) then Some (t, st', o) else None
  | None => None
  end.
Lemma rexec_ok a src st x t st' o : rexec src st x = Some (t, st', o) -> unchanged sv c g fg ds a src st t st' o.
Proof.
  unfold rexec. destruct (dexec st x) as [[[t1 s1] o1]|] eqn:E; [|discriminate]. destruct (beq _ _) eqn:B; [|discriminate].
  intros [= <- <- <-]. split; [eapply dexec_any; exact E|]. intros _. apply beq_eq. exact B.
Qed.
Definition opens_id (o : option opened) (id : N) : bool := match o with Some (Writes i) => i =? id | _ => false end.
Lemma opens_id_ok o id : opens_id o id = true <-> o = Some (Writes id).
Proof.
  unfold opens_id. destruct o as [[s|i]|]; [split; discriminate| |split; discriminate]. rewrite N.eqb_eq. split; [intros ->; reflexivity|intros [= ->]; reflexivity].
Qed.
Definition aexec (a : addr) (id : N) (st : disk sstate) (x : dev) : option (took * disk sstate * outs) :=
  match dexec st x with
  | Some (t, st', o) =>
      if (hears a t || beq (f_data (dk_fs st') id) (f_data (dk_fs st) id)) && (negb (opens_id (dk_open st' a) id) || opens_id (dk_open st a) id)
      then Some (t, st', o) else None
  | None => None
  end.
Lemma aexec_ok a id st x t st' o : aexec a id st x = Some (t, st', o) -> alone sv c g fg ds a id st t st' o.
Proof.
  unfold aexec. destruct (dexec st x) as [[[t1 s1] o1]|] eqn:E; [|discriminate]. destruct (_ && _)%bool eqn:B; [|discriminate].
  intros [= <- <- <-]. apply Bool.andb_true_iff in B as [B1 B2]. split; [eapply dexec_any; exact E|]. split.
  - intros H. rewrite H in B1. apply beq_eq. exact B1.
  - intros H. apply opens_id_ok in H. rewrite H in B2. apply opens_id_ok. exact B2.
Qed.
Definition oexec (id : N) (st : disk sstate) (x : dev) : option (took * disk sstate * outs) :=
  match x with
  | DOther f => if (f_next (dk_fs st) <=? f_next f) && beq (f_data f id) (f_data (dk_fs st) id) then Some (TookNothing, mkDk (dk_srv st) f (dk_open st), []) else None
  | _ => dexec_own st x
  end.
Lemma oexec_ok id st x t st' o : oexec id st x = Some (t, st', o) -> spare sv c g fg ds id st t st' o.
Proof.
  destruct x as [i|i|f]; cbn [oexec]; [intros H; apply spare_own; eapply dexec_step; exact H..|].
  destruct (_ && _)%bool eqn:B; [|discriminate]. apply Bool.andb_true_iff in B as [B1 B2]. intros [= <- <- <-].
  apply spare_other; [apply N.leb_le; exact B1|apply beq_eq; exact B2].
Qed.
Definition cexec (id : N) (st : disk sstate) (x : dev) : option (took * disk sstate * outs) :=
  match dexec_own st x with
  | Some (t, st', o) => if blen (f_data (dk_fs st) id) <=? blen (f_data (dk_fs st') id) then Some (t, st', o) else None
  | None => None
  end.
Lemma cexec_ok id st x t st' o : cexec id st x = Some (t, st', o) -> not_cut sv c g fg ds id st t st' o.
Proof.
  unfold cexec. destruct (dexec_own st x) as [[[t1 s1] o1]|] eqn:E; [|discriminate].
  destruct (N.leb_spec (blen (f_data (dk_fs st) id)) (blen (f_data (dk_fs s1) id))) as [B|B]; [|discriminate].
  intros [= <- <- <-]. split; [eapply dexec_step; exact E|exact B].
Qed.
Fixpoint drun (ex : disk sstate -> dev -> option (took * disk sstate * outs)) (h : list (disk sstate)) (st : disk sstate) (l : list dev)
  : list (disk sstate) * disk sstate :=
  match l with
  | [] => (h, st)
  | x :: l => match ex st x with Some (_, st', _) => drun ex (st :: h) st' l | None => (h, st) end
  end.
Lemma drun_ok ex (step : disk sstate -> took -> disk sstate -> outs -> Prop) st0 : (forall st x t st' o, ex st x = Some (t, st', o) -> step st t st' o) ->
  forall l h st, dkrun step st0 h st -> dkrun step st0 (fst (drun ex h st l)) (snd (drun ex h st l)).
Proof.
  intros H. induction l as [|x l IH]; intros h st R; cbn [drun]; [exact R|]. destruct (ex st x) as [[[t st'] o]|] eqn:E; [|exact R].
  apply IH. eapply dkrun_step; [exact R|eapply H; exact E].
Qed.
Lemma drun_reach init h st l : dkreach sv c g fg ds init st -> dkreach sv c g fg ds init (snd (drun dexec h st l)).
Proof.
  revert h st. induction l as [|x l IH]; intros h st R; cbn [drun]; [exact R|]. destruct (dexec st x) as [[[t st'] o]|] eqn:E; [|exact R].
  apply IH. eapply dkreach_step; [exact R|eapply dexec_any; exact E].
Qed.
End Exec.

(** ** A disk with one file, /srv/dir/f *)
Definition dc_tree : list (place * node) :=
  [([s2b "srv"], NDir); ([s2b "srv"; s2b "dir"], NDir); ([s2b "srv"; s2b "dir"; s2b "f"], NFile 0)].
Definition dc_fs : fs := mkFs (ex_look dc_tree) (fun i => if i =? 0 then wc_file else []) 1 [] (fun _ => true) (ex_children dc_tree).
Definition dc_st0 : disk sstate := mkDk (s_init 0) dc_fs (fun _ => None).
Definition dc_g (ow : bool) : fcfg := mkFcfg (s2b "/srv") ow None 3.
Definition dsv := single_server toy wc_g.
Definition dc_init (s : sstate) : Prop := exists now, s = s_init now.
Lemma dc_reach0 fg : dkreach dsv toy wc_g fg 0 dc_init dc_st0.
Proof. constructor. exists 0. reflexivity. Qed.
Lemma triple {A B C} (x : A * B * C) y z : snd (fst x) = y -> snd x = z -> x = (fst (fst x), y, z).
Proof. destruct x as [[a b] d]. cbn. intros <- <-. reflexivity. Qed.
(** Several facts about one run are shown with one evaluation of it. *)
Lemma pair_inv {A B} (a c : A) (b d : B) : (a, b) = (c, d) -> a = c /\ b = d.
Proof. intros [= -> ->]. auto. Qed.
Lemma pair3_inv {A B C} (a d : A) (b e : B) (c f : C) : (a, b, c) = (d, e, f) -> a = d /\ b = e /\ c = f.
Proof. intros [= -> -> ->]. auto. Qed.
Lemma pair4_inv {A B C D} (a a' : A) (b b' : B) (c c' : C) (d d' : D) : (a, b, c, d) = (a', b', c', d') -> a = a' /\ b = b' /\ c = c' /\ d = d'.
Proof. intros [= -> -> -> ->]. auto. Qed.
Lemma pair5_inv {A B C D E} (a a' : A) (b b' : B) (c c' : C) (d d' : D) (e e' : E) : (a, b, c, d, e) = (a', b', c', d', e') -> a = a' /\ b = b' /\ c = c' /\ d = d' /\ e = e'.
Proof. intros [= -> -> -> -> ->]. auto. Qed.
Definition is_some {A} (x : option A) : bool := match x with Some _ => true | None => false end.
Lemma wc_got x : is_some x = true -> x = Some (wc_st x, wc_out x).
Proof. destruct x as [[s o]|]; [reflexivity|discriminate]. Qed.
Definition dc_ask (now : N) (a : addr) (d : bytes) : input := wc_in now wc_quiet (MData a d).
Definition dc_from (now : N) (a : addr) (d : bytes) : input := wc_in now (fun b => if b =? a then Some d else None) MWouldBlock.
(** The other client (address 50) uploads "dir/g". *)
Definition dc_upreq := client_request toy ex_cc ex_o [1; 2] [3; 4] (repeat 5 24) true (s2b "dir/g").
Definition dc_up : bytes := Eval vm_compute in wc_dg dc_upreq.
Definition dc_st (ow : bool) (st : disk sstate) (l : list dev) : disk sstate := snd (drun (dexec toy wc_g (dc_g ow) 0) [] st l).
Definition dc_st1 : disk sstate := dc_st false dc_st0 [DRecv (dc_ask 5 50 dc_up)].
Lemma dc_reach1 : dkreach dsv toy wc_g (dc_g false) 0 dc_init dc_st1.
Proof. apply drun_reach. apply dc_reach0. Qed.
(** What it asked for is there, empty. *)
Example dc_opened :
  map fst (s_clients (dk_srv dc_st1)) = [50] /\ dk_open dc_st1 50 = Some (Writes 1) /\
  at_ (dk_fs dc_st1) [s2b "srv"; s2b "dir"; s2b "g"] = Some (NFile 1) /\ f_data (dk_fs dc_st1) 1 = [] /\ f_data (dk_fs dc_st1) 0 = wc_file.
Proof. apply pair5_inv. vm_compute. reflexivity. Qed.
(** The client at address 10 downloads "dir/f". *)
Definition dc_o : options := mkOpts 1000 2000 (Some 0) LProtocol 4.
Definition dc_req := client_request toy ex_cc dc_o [1; 2] [3; 4] (repeat 5 24) false (s2b "dir/f").
Definition dc_d : bytes := Eval vm_compute in wc_dg dc_req.
Definition dc_i0 : input := dc_ask 10 10 dc_d.
Definition dc_or := open_request toy (g_cfg wc_g) (dc_g false) 0 (dk_fs dc_st1) (h_eph (i_henv dc_i0)) (recv_cut wc_g dc_d).
Definition dc_rf : fs := fst (fst dc_or).
Lemma dc_or_eq : dc_or = (dc_rf, Some (Some 1500), Some (Reads (SFile 0))).
Proof. apply triple; vm_compute; reflexivity. Qed.
Definition dc_i : input := with_files dc_i0 (Some (Some 1500)) (content dc_rf (Some (Reads (SFile 0)))).
Definition dc_step := step_recv toy wc_g (loaded dsv dc_st1) dc_i.
Definition dc_s1 : sstate := Eval vm_compute in wc_st dc_step.
Definition dc_o1 : outs := Eval vm_compute in wc_out dc_step.
Lemma dc_step_eq : dc_step = Some (dc_s1, dc_o1).
Proof. vm_compute. reflexivity. Qed.
Definition dc_w : bytes := Eval vm_compute in wc_reply (sent_to 10 dc_o1).
Definition dc_k : cside := Eval vm_compute in wc_client false dc_w dc_req.
Definition dc_st2 : disk sstate := mkDk dc_s1 dc_rf (still_open dsv dc_s1 (fun b => if b =? 10 then Some (Reads (SFile 0)) else dk_open dc_st1 b)).
Lemma dc_negotiates : negotiates toy (g_cfg wc_g) (with_open (i_henv dc_i0) (Some (Some 1500))) false dc_d dc_w dc_k.
Proof.
  apply (negotiates_intro toy ex_cfg _ false dc_d dc_w dc_k ex_cc dc_o [1; 2] [3; 4] (repeat 5 24) (s2b "dir/f")).
  - vm_compute. repeat split; discriminate.
  - reflexivity.
  - reflexivity.
  - vm_compute. repeat split; try lia; repeat constructor; lia.
  - intros path n [= <-]. unfold U64_MAX. lia.
  - intros vk [= <-]; exists [7]; auto.
  - vm_compute. reflexivity.
Qed.
(** What the uploading client sends: the first block of a file of 1500 bytes, the whole of a file of five. *)
Definition dc_up_k (w : bytes) : cside := wc_client true w dc_upreq.
Definition dc_block (k : cside) (file : bytes) : bytes :=
  let '(_, plain, _) := sender_send file (mkCS (client_reader (k_opts k) false) 0 0) (op_bs (k_opts k) + DATA_PACKET_HEADER_SIZE) false IoOk (Some true) in
  match plain with [p] => match seal_client toy (k_sock k) 0 p with Some y => fst y | None => [] end | _ => [] end.
Definition dc_upw : bytes := Eval vm_compute in wc_reply (sent_to 50 (wc_out (step_recv toy wc_g (s_init 0) (wc_in 5 wc_quiet (MData 50 dc_up))))).
Definition dc_upk : cside := Eval vm_compute in dc_up_k dc_upw.
Definition dc_data1 : bytes := Eval vm_compute in dc_block dc_upk (repeat 9 1500).
Definition dc_data5 : bytes := Eval vm_compute in dc_block dc_upk (repeat 5 5).
Definition dc_n : N := Eval vm_compute in nblocks wc_file (bs_enc (k_opts dc_k)).
Definition dc_W0 : @dworld (disk sstate) := mkDW dc_st2 false (crecv_new 0) CRun [] [] 0 0.
Definition dc_ack (now : N) (d : bytes) : dev := DRecv (dc_from now 10 d).
Definition dc_evs : list (@wev dev) :=
  [WDo (DSend (wc_in 11 wc_quiet MWouldBlock)); WDo (DRecv (dc_from 12 50 dc_data1)); WDo (DSend (wc_in 13 wc_quiet MWouldBlock));
   WClient 0 (wc_e 20); WClient 1 (wc_e 21); WClient 0 (wc_e 22); WDo (DRecv (wc_in 29 wc_quiet MWouldBlock)); WServer (dc_ack 30) 0].
Definition dc_Wf : @dworld (disk sstate) := dw_final (dview dsv) (rexec toy wc_g (dc_g false) 0 (SFile 0)) toy 10 dc_k dc_n dc_W0 dc_evs.
Lemma dc_reachf : dwreach (unchanged dsv toy wc_g (dc_g false) 0 10 (SFile 0)) (dview dsv) toy 10 dc_k dc_n dc_W0 dc_Wf.
Proof. unfold dc_Wf. apply (dw_final_reach _ _ _ (rexec_ok toy wc_g (dc_g false) 0 10 (SFile 0))). Qed.
Example shared_download_case :
  one_of toy wc_g sstate dsv dc_init (fun _ d => recv_cut wc_g d) /\ dkreach dsv toy wc_g (dc_g false) 0 dc_init dc_st1 /\
  sv_looked dsv (dk_srv dc_st1) 10 = true /\ dc_or = (dc_rf, Some (Some 1500), Some (Reads (SFile 0))) /\
  sv_main dsv (loaded dsv dc_st1) 10 dc_d dc_i dc_s1 dc_o1 /\ sent_to 10 dc_o1 = [OWire dc_w] /\ is_some (sv_view dsv dc_s1 10) = true /\
  negotiates toy (g_cfg wc_g) (with_open (i_henv dc_i0) (Some (Some 1500))) false dc_d dc_w dc_k /\
  dwreach (unchanged dsv toy wc_g (dc_g false) 0 10 (SFile 0)) (dview dsv) toy 10 dc_k dc_n dc_W0 dc_Wf /\
  dw_stat dc_Wf = CDone 1500 /\ w_out (cr_w (dw_cl dc_Wf)) = wc_file /\
  (* the other client's block has been stored meanwhile *)
  f_data (dk_fs (dw_srv dc_Wf)) 1 = repeat 9 (N.to_nat (bs_enc (k_opts dc_upk))) /\
  option_map (fun e => c_finished (en_conn e)) (dview dsv (dw_srv dc_Wf) 10) = Some true.
Proof.
  split; [apply one_single|]. split; [apply dc_reach1|]. split; [vm_compute; reflexivity|]. split; [apply dc_or_eq|].
  split; [split; [vm_compute; reflexivity|exact dc_step_eq]|]. do 2 (split; [vm_compute; reflexivity|]). split; [exact dc_negotiates|].
  split; [exact dc_reachf|]. apply pair4_inv. vm_compute. reflexivity.
Qed.

(** ** The upload of "dir/g", while another client downloads and a third one wants to upload the same file *)
Definition du_st : disk sstate := dc_st false dc_st0 [DRecv dc_i0].
Lemma du_reach : dkreach dsv toy wc_g (dc_g false) 0 dc_init du_st.
Proof. apply drun_reach. apply dc_reach0. Qed.
Definition du_i0 : input := dc_ask 11 50 dc_up.
Definition du_or := open_request toy (g_cfg wc_g) (dc_g false) 0 (dk_fs du_st) (h_eph (i_henv du_i0)) (recv_cut wc_g dc_up).
Definition du_f : fs := fst (fst du_or).
Lemma du_or_eq : du_or = (du_f, Some None, Some (Writes 1)).
Proof. apply triple; vm_compute; reflexivity. Qed.
Definition du_i : input := with_files du_i0 (Some None) (f_data du_f 1).
Definition du_step := step_recv toy wc_g (loaded dsv du_st) du_i.
Definition du_s1 : sstate := Eval vm_compute in wc_st du_step.
Definition du_o1 : outs := Eval vm_compute in wc_out du_step.
Lemma du_step_eq : du_step = Some (du_s1, du_o1).
Proof. vm_compute. reflexivity. Qed.
Definition du_w : bytes := Eval vm_compute in wc_reply (sent_to 50 du_o1).
Definition du_k : cside := Eval vm_compute in wc_client true du_w dc_upreq.
Definition du_st1 : disk sstate := mkDk du_s1 du_f (still_open dsv du_s1 (fun b => if b =? 50 then Some (Writes 1) else dk_open du_st b)).
Lemma du_negotiates : negotiates toy (g_cfg wc_g) (with_open (i_henv du_i0) (Some None)) true dc_up du_w du_k.
Proof.
  apply (negotiates_intro toy ex_cfg _ true dc_up du_w du_k ex_cc ex_o [1; 2] [3; 4] (repeat 5 24) (s2b "dir/g")).
  - vm_compute. repeat split; discriminate.
  - reflexivity.
  - reflexivity.
  - vm_compute. repeat split; try lia; repeat constructor; lia.
  - intros path n H. discriminate H.
  - intros vk [= <-]; exists [7]; auto.
  - vm_compute. reflexivity.
Qed.
Definition du_W0 : @uworld (disk sstate) := mkUW du_st1 false [] (mkCS (client_reader (k_opts du_k) false) 0 0) CRun [] [] 0 0.
Definition du_data (now : N) (d : bytes) : dev := DRecv (dc_from now 50 d).
Definition du_idle (now : N) : @wev dev := WDo (DRecv (wc_in now wc_quiet MWouldBlock)).
Definition du_evs : list (@wev dev) :=
  [WClientSends; WClientSends; WServer (du_data 20) 0; WDo (DRecv (dc_ask 20 51 dc_up)); WDo (DSend (wc_in 21 wc_quiet MWouldBlock)); WServer (du_data 21) 1;
   du_idle 21; WServer (du_data 22) 0; WClient 0 (wc_e 30)].
Definition du_n : N := Eval vm_compute in nblocks wc_file (bs_enc (k_opts du_k)).
Definition du_Wf : @uworld (disk sstate) := uw_final (dview dsv) (oexec toy wc_g (dc_g false) 0 1) toy 50 du_k wc_file du_n du_W0 du_evs.
Definition du_Wa : @uworld (disk sstate) := uw_final (dview dsv) (aexec toy wc_g (dc_g false) 0 50 1) toy 50 du_k wc_file du_n du_W0 du_evs.
Definition du_out (x : option entry) : option bytes := match x with Some e => match en_work e with WWrite _ w => Some (w_out w) | _ => None end | None => None end.
Lemma du_writes st f : du_out (sv_view dsv (dk_srv st) 50) = Some f -> dk_open st 50 = Some (Writes 1) -> exists w, writes dsv 50 st 1 w /\ w_out w = f.
Proof.
  unfold du_out. intros X5 X4. destruct (sv_view dsv _ 50) as [e|] eqn:V; [|discriminate]. destruct (en_work e) as [|p w] eqn:EW; [discriminate|].
  injection X5 as <-. exists w. split; [exists e, p; auto|reflexivity].
Qed.
Lemma du_Wf_ends : (uw_stat du_Wf, f_data (dk_fs (uw_srv du_Wf)) 1, map fst (s_clients (dk_srv (uw_srv du_Wf))), dk_open (uw_srv du_Wf) 50,
     du_out (sv_view dsv (dk_srv (uw_srv du_Wf)) 50)) = (CDone 1500, wc_file, [10; 50], Some (Writes 1), Some wc_file).
Proof. vm_compute. reflexivity. Qed.
Lemma du_Wa_ends : (uw_stat du_Wa, f_data (dk_fs (uw_srv du_Wa)) 1) = (CDone 1500, wc_file).
Proof. vm_compute. reflexivity. Qed.
Example shared_upload_case :
  dkreach dsv toy wc_g (dc_g false) 0 dc_init du_st /\ sv_looked dsv (dk_srv du_st) 50 = true /\
  du_or = (du_f, Some None, Some (Writes 1)) /\
  sv_main dsv (loaded dsv du_st) 50 dc_up du_i du_s1 du_o1 /\ sent_to 50 du_o1 = [OWire du_w] /\ is_some (sv_view dsv du_s1 50) = true /\
  negotiates toy (g_cfg wc_g) (with_open (i_henv du_i0) (Some None)) true dc_up du_w du_k /\
  uwreach (spare dsv toy wc_g (dc_g false) 0 1) (dview dsv) toy 50 du_k wc_file du_n du_W0 du_Wf /\
  uwreach (alone dsv toy wc_g (dc_g false) 0 50 1) (dview dsv) toy 50 du_k wc_file du_n du_W0 du_Wa /\
  uw_stat du_Wf = CDone 1500 /\ f_data (dk_fs (uw_srv du_Wf)) 1 = wc_file /\ uw_stat du_Wa = CDone 1500 /\ f_data (dk_fs (uw_srv du_Wa)) 1 = wc_file /\
  map fst (s_clients (dk_srv (uw_srv du_Wf))) = [10; 50] /\
  exists w, writes dsv 50 (uw_srv du_Wf) 1 w /\ w_out w = wc_file.
Proof.
  split; [exact du_reach|]. split; [vm_compute; reflexivity|]. split; [exact du_or_eq|].
  split; [split; [vm_compute; reflexivity|exact du_step_eq]|]. do 2 (split; [vm_compute; reflexivity|]). split; [exact du_negotiates|].
  split; [apply (uw_final_reach _ _ _ (oexec_ok toy wc_g (dc_g false) 0 1))|].
  split; [apply (uw_final_reach _ _ _ (aexec_ok toy wc_g (dc_g false) 0 50 1))|].
  pose proof du_Wf_ends as X. apply pair5_inv in X as (X1 & X2 & X3 & X4 & X5).
  pose proof du_Wa_ends as Y.
  apply pair_inv in Y as (Y1 & Y2). split; [exact X1|]. split; [exact X2|]. split; [exact Y1|]. split; [exact Y2|]. split; [exact X3|]. clear Y1 Y2.
  exact (du_writes _ _ X5 X4).
Qed.

(** ** What the conditions are for *)
(** Two clients upload different files under one name, on a server that may overwrite: the second finishes,
    its connection reports success, and the file contains something else. *)
Definition dm_st : disk sstate :=
  dc_st true dc_st0 [DRecv (dc_ask 5 50 dc_up); DRecv (dc_ask 6 51 dc_up); DRecv (dc_from 7 50 dc_data1); DRecv (dc_from 8 51 dc_data5)].
Example uploads_mix :
  dkreach dsv toy wc_g (dc_g true) 0 dc_init dm_st /\
  dk_open dm_st 50 = Some (Writes 1) /\ dk_open dm_st 51 = Some (Writes 1) /\
  option_map (fun e => (c_finished (en_conn e), match en_work e with WWrite _ w => w_out w | _ => [] end)) (sv_view dsv (dk_srv dm_st) 51) = Some (true, repeat 5 5) /\
  f_data (dk_fs dm_st) 1 = repeat 5 5 ++ repeat 9 (N.to_nat (bs_enc (k_opts dc_upk) - 5)).
Proof. split; [apply drun_reach; apply dc_reach0|]. apply pair4_inv. vm_compute. reflexivity. Qed.
(** A file that another program shortens while it is downloaded: the client takes what it gets for the
    whole file. *)
Definition dm_short : fs := set_data dc_rf 0 (repeat 7 1000).
Definition dm_Wf : @dworld (disk sstate) := dw_final (dview dsv) (dexec toy wc_g (dc_g false) 0) toy 10 dc_k dc_n dc_W0
  [WDo (DSend (wc_in 11 wc_quiet MWouldBlock)); WDo (DOther dm_short); WDo (DSend (wc_in 13 wc_quiet MWouldBlock));
   WClient 1 (wc_e 21); WClient 0 (wc_e 22)].
Example shortened_file :
  dwreach (dkany dsv toy wc_g (dc_g false) 0) (dview dsv) toy 10 dc_k dc_n dc_W0 dm_Wf /\
  dw_stat dm_Wf = CDone 1000 /\ w_out (cr_w (dw_cl dm_Wf)) = repeat 7 1000 /\ op_size (k_opts dc_k) = Some 1500.
Proof.
  split; [apply (dw_final_reach _ _ _ (dexec_any toy wc_g (dc_g false) 0))|]. apply pair3_inv. vm_compute. reflexivity.
Qed.
(** An upload started again by a second client, while the blocks of the first one still arrive. *)
Definition ds_sends (k : cside) (file : bytes) : list bytes :=
  let '(c1, p1, _) := sender_send file (mkCS (client_reader (k_opts k) false) 0 0) (op_bs (k_opts k) + DATA_PACKET_HEADER_SIZE) false IoOk (Some true) in
  let '(_, p2, _) := sender_send file c1 (op_bs (k_opts k) + DATA_PACKET_HEADER_SIZE) false IoOk (Some true) in
  map (fun p => match seal_client toy (k_sock k) 0 p with Some y => fst y | None => [] end) (p1 ++ p2).
Definition ds_data2 : bytes := Eval vm_compute in nth 1 (ds_sends dc_upk (repeat 9 1500)) [].
Definition ds_st0 : disk sstate := dc_st true dc_st0 [DRecv (dc_ask 5 50 dc_up); DRecv (dc_from 7 50 dc_data1); DRecv (dc_ask 8 51 dc_up)].
Definition ds_evs : list dev := [DRecv (dc_from 9 50 ds_data2); DRecv (dc_from 10 51 dc_data1); DRecv (wc_in 10 wc_quiet MWouldBlock); DRecv (dc_from 11 51 ds_data2)].
Definition ds_run := drun (cexec toy wc_g (dc_g true) 0 1) [] ds_st0 ds_evs.
Definition prefixb (u F : bytes) : bool := beq (takeN (blen u) F) u.
Lemma prefixb_ok u F : prefixb u F = true -> prefix u F.
Proof.
  intros H. apply beq_eq in H. exists (skipn (N.to_nat (blen u)) F). rewrite <- H at 1. unfold takeN. symmetry. apply firstn_skipn.
Qed.
Definition all_prefixes (F : bytes) (l : list (disk sstate)) : bool :=
  forallb (fun st => forallb (fun x => match en_work (snd x) with WWrite _ w => prefixb (w_out w) F | _ => true end) (s_clients (dk_srv st))) l.
Lemma all_prefixes_ok F l : all_prefixes F l = true -> forall st b id w, In st l -> writes dsv b st id w -> prefix (w_out w) F.
Proof.
  intros H st b id w HI (e & p & V & EW & _). unfold all_prefixes in H. rewrite forallb_forall in H. specialize (H _ HI). rewrite forallb_forall in H.
  specialize (H _ (find_in _ _ _ V)). cbn [snd] in H. rewrite EW in H. apply prefixb_ok. exact H.
Qed.
Example same_uploads_case :
  dkreach dsv toy wc_g (dc_g true) 0 dc_init ds_st0 /\ f_data (dk_fs ds_st0) 1 = [] /\
  map (fun x => (fst x, match en_work (snd x) with WWrite _ w => blen (w_out w) | _ => 0 end)) (s_clients (dk_srv ds_st0)) = [(50, bs_enc (k_opts dc_upk)); (51, 0)] /\
  dkrun (not_cut dsv toy wc_g (dc_g true) 0 1) ds_st0 (fst ds_run) (snd ds_run) /\ length (fst ds_run) = 4%nat /\
  (forall st1 b w1, In st1 (snd ds_run :: fst ds_run) -> writes dsv b st1 1 w1 -> prefix (w_out w1) (repeat 9 1500)) /\
  option_map (fun e => match en_work e with WWrite _ w => w_out w | _ => [] end) (sv_view dsv (dk_srv (snd ds_run)) 51) = Some (repeat 9 1500) /\
  f_data (dk_fs (snd ds_run)) 1 = repeat 9 1500.
Proof.
  split; [apply drun_reach; apply dc_reach0|].
  assert (X : (f_data (dk_fs ds_st0) 1, map (fun x => (fst x, match en_work (snd x) with WWrite _ w => blen (w_out w) | _ => 0 end)) (s_clients (dk_srv ds_st0)),
    (length (fst ds_run), all_prefixes (repeat 9 1500) (snd ds_run :: fst ds_run)),
    option_map (fun e => match en_work e with WWrite _ w => w_out w | _ => [] end) (sv_view dsv (dk_srv (snd ds_run)) 51), f_data (dk_fs (snd ds_run)) 1) =
    ([], [(50, bs_enc (k_opts dc_upk)); (51, 0)], (4%nat, true), Some (repeat 9 1500), repeat 9 1500)) by (vm_compute; reflexivity).
  apply pair5_inv in X as (X1 & X2 & X3 & X4 & X5). apply pair_inv in X3 as [X3 AP]. do 2 (split; [assumption|]).
  split; [apply (drun_ok _ _ ds_st0 (cexec_ok toy wc_g (dc_g true) 0 1)); constructor|]. split; [exact X3|].
  split; [intros st1 b w1 HI; apply (all_prefixes_ok _ _ AP st1 b 1 w1 HI)|].
  split; assumption.
Qed.
