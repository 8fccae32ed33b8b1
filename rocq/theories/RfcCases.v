(** Concrete worlds with clients of RFC 1350: a file of 700 bytes, that is two blocks, from and to both servers, which
    are also serving another client; blocks and acknowledgements arrive twice. *)
From Verif Require Import Base BaseProofs PacketModel PacketSpec MapperModel ReaderModel ReaderSpec ConfigModel Base64Model CryptoModel CryptoSpec CryptoProofs ExtModel ExtSpec
  PathModel ConnModel ClientModel ConnSpec HandshakeModel PropCrypto PropExt PropHandshake AgreeProofs PropAgree SystemModel
  ServerModel ServerSpec ServerProofs PropServer WorldModel WorldProofs WorldB PropWorld WorldCases RfcSpec RfcProofs PropRfc.

Section Run.
Context {S E : Type} (step : S -> took -> S -> outs -> Prop) (view : S -> addr -> option entry)
  (exec : S -> E -> option (took * S * outs)).
Hypothesis exec_ok : forall s x t s' o, exec s x = Some (t, s', o) -> step s t s' o.
Variables (c : crypto) (a : addr).
(** The server does something; it receives the [j]-th datagram sent to it; the client receives the
    [j]-th datagram sent to it; it sends. *)
Inductive rev := VDo (x : E) | VServer (x : bytes -> E) (j : nat) | VHears (j : nat) | VSends.
Definition gw_do (file : bytes) (W : @gworld S) (x : rev) : option (@gworld S) :=
  match x with
  | VDo x =>
      if gw_over W then None else
      match srv_do view exec c a (gw_srv W) x with
      | Some (t, s', new) =>
          if hears a t then None
          else Some (mkGW s' (ended (view s' a)) (gw_cl W) (new ++ gw_down W) (gw_up W) (gw_sc W) (gw_ss W))
      | None => None
      end
  | VServer x j =>
      if gw_over W then None else
      match nth_error (gw_up W) j with
      | Some y =>
          match srv_do view exec c a (gw_srv W) (x (fst y)) with
          | Some (t, s', new) =>
              if own_b a t y && fresh_b (gw_ss W) y
              then Some (mkGW s' (ended (view s' a)) (gw_cl W) (new ++ gw_down W) (gw_up W) (gw_sc W) (see (gw_ss W) y))
              else None
          | None => None
          end
      | None => None
      end
  | VHears j =>
      match nth_error (gw_down W) j with
      | Some y =>
          if fresh_b (gw_sc W) y
          then Some (mkGW (gw_srv W) (gw_over W) (getter_hears (gw_cl W) (fst y)) (gw_down W) (gw_up W) (see (gw_sc W) y) (gw_ss W))
          else None
      | None => None
      end
  | VSends =>
      if 1 <=? got_blocks (gw_cl W)
      then Some (mkGW (gw_srv W) (gw_over W) (gw_cl W) (gw_down W)
             ((rfc_ack (got_blocks (gw_cl W)), Some (got_blocks (gw_cl W))) :: gw_up W) (gw_sc W) (gw_ss W))
      else None
  end.
Lemma gw_do_step file W x W' : gw_do file W x = Some W' -> gwstep step view c a file W W'.
Proof.
  destruct W as [s over cl down up sc ss]. destruct x as [x|x j|j|]; cbn [gw_do gw_srv gw_over gw_cl gw_down gw_up gw_sc gw_ss].
  - destruct over; [discriminate|]. destruct (srv_do view exec c a s x) as [[[t s'] new]|] eqn:D; [|discriminate].
    destruct (hears a t) eqn:HT; [discriminate|]. intros [= <-].
    destruct (srv_do_ok step view exec exec_ok c a _ _ _ _ _ D) as (e & o & V & ST & SL). eapply gw_server; eassumption.
  - destruct over; [discriminate|]. destruct (nth_error up j) as [y|] eqn:NT; [|discriminate].
    destruct (srv_do view exec c a s (x (fst y))) as [[[t s'] new]|] eqn:D; [|discriminate].
    destruct (own_b a t y && fresh_b ss y)%bool eqn:CK; [|discriminate]. intros [= <-].
    apply Bool.andb_true_iff in CK as [OB FR]. destruct (own_check a _ _ OB) as (v & -> & _).
    destruct (srv_do_ok step view exec exec_ok c a _ _ _ _ _ D) as (e & o & V & ST & SL).
    eapply gw_server_receives; [exact ST|eapply nth_error_In; exact NT|apply fresh_check; exact FR|exact V|exact SL].
  - destruct (nth_error down j) as [y|] eqn:NT; [|discriminate]. destruct (fresh_b sc y) eqn:FR; [|discriminate]. intros [= <-].
    eapply gw_hears; [eapply nth_error_In; exact NT|apply fresh_check; exact FR].
  - destruct (1 <=? got_blocks cl) eqn:LE; [|discriminate]. intros [= <-]. apply gw_acks. apply N.leb_le. exact LE.
Qed.
Fixpoint gw_run (file : bytes) (W : @gworld S) (l : list rev) : option (@gworld S) :=
  match l with [] => Some W | x :: l' => match gw_do file W x with Some W' => gw_run file W' l' | None => None end end.
Definition gw_final (file : bytes) (W0 : @gworld S) (l : list rev) : @gworld S :=
  match gw_run file W0 l with Some W => W | None => W0 end.
Lemma gw_run_reach file W0 W l W' : gwreach step view c a file W0 W -> gw_run file W l = Some W' -> gwreach step view c a file W0 W'.
Proof.
  revert W. induction l as [|x l IH]; cbn [gw_run]; intros W R H; [injection H as <-; exact R|].
  destruct (gw_do file W x) as [W1|] eqn:E1; [|discriminate]. eapply IH; [|exact H]. eapply gwreach_step; [exact R|eapply gw_do_step; exact E1].
Qed.
Lemma gw_final_reach file W0 l : gwreach step view c a file W0 (gw_final file W0 l).
Proof.
  unfold gw_final. destruct (gw_run file W0 l) as [W|] eqn:H; [|constructor]. eapply gw_run_reach; [constructor|exact H].
Qed.

Definition pw_do (file : bytes) (W : @pworld S) (x : rev) : option (@pworld S) :=
  match x with
  | VDo x =>
      if pw_over W then None else
      match srv_do view exec c a (pw_srv W) x with
      | Some (t, s', new) =>
          if hears a t then None
          else Some (mkPW s' (ended (view s' a)) (keep (pw_kept W) (view s' a)) (pw_cl W) (new ++ pw_down W) (pw_up W) (pw_sc W) (pw_ss W))
      | None => None
      end
  | VServer x j =>
      if pw_over W then None else
      match nth_error (pw_up W) j with
      | Some y =>
          match srv_do view exec c a (pw_srv W) (x (fst y)) with
          | Some (t, s', new) =>
              if own_b a t y && fresh_b (pw_ss W) y
              then Some (mkPW s' (ended (view s' a)) (keep (pw_kept W) (view s' a)) (pw_cl W) (new ++ pw_down W) (pw_up W) (pw_sc W) (see (pw_ss W) y))
              else None
          | None => None
          end
      | None => None
      end
  | VHears j =>
      match nth_error (pw_down W) j with
      | Some y =>
          if fresh_b (pw_sc W) y
          then Some (mkPW (pw_srv W) (pw_over W) (pw_kept W) (putter_hears file (pw_cl W) (fst y)) (pw_down W) (pw_up W) (see (pw_sc W) y) (pw_ss W))
          else None
      | None => None
      end
  | VSends =>
      if (1 <=? pw_cl W) && (pw_cl W <=? putter_last file)
      then Some (mkPW (pw_srv W) (pw_over W) (pw_kept W) (pw_cl W) (pw_down W)
             ((rfc_data (pw_cl W) (putter_block file (pw_cl W)), Some (pw_cl W)) :: pw_up W) (pw_sc W) (pw_ss W))
      else None
  end.
Lemma pw_do_step file W x W' : pw_do file W x = Some W' -> pwstep step view c a file W W'.
Proof.
  destruct W as [s over kept cl down up sc ss]. destruct x as [x|x j|j|]; cbn [pw_do pw_srv pw_over pw_kept pw_cl pw_down pw_up pw_sc pw_ss].
  - destruct over; [discriminate|]. destruct (srv_do view exec c a s x) as [[[t s'] new]|] eqn:D; [|discriminate].
    destruct (hears a t) eqn:HT; [discriminate|]. intros [= <-].
    destruct (srv_do_ok step view exec exec_ok c a _ _ _ _ _ D) as (e & o & V & ST & SL). eapply pw_server; eassumption.
  - destruct over; [discriminate|]. destruct (nth_error up j) as [y|] eqn:NT; [|discriminate].
    destruct (srv_do view exec c a s (x (fst y))) as [[[t s'] new]|] eqn:D; [|discriminate].
    destruct (own_b a t y && fresh_b ss y)%bool eqn:CK; [|discriminate]. intros [= <-].
    apply Bool.andb_true_iff in CK as [OB FR]. destruct (own_check a _ _ OB) as (v & -> & SH).
    destruct (srv_do_ok step view exec exec_ok c a _ _ _ _ _ D) as (e & o & V & ST & SL).
    eapply pw_server_receives; [exact ST|exact SH|eapply nth_error_In; exact NT|apply fresh_check; exact FR|exact V|exact SL].
  - destruct (nth_error down j) as [y|] eqn:NT; [|discriminate]. destruct (fresh_b sc y) eqn:FR; [|discriminate]. intros [= <-].
    eapply pw_hears; [eapply nth_error_In; exact NT|apply fresh_check; exact FR].
  - destruct ((1 <=? cl) && (cl <=? putter_last file))%bool eqn:LE; [|discriminate]. intros [= <-].
    apply Bool.andb_true_iff in LE as [L1 L2]. apply pw_sends; apply N.leb_le; assumption.
Qed.
Fixpoint pw_run (file : bytes) (W : @pworld S) (l : list rev) : option (@pworld S) :=
  match l with [] => Some W | x :: l' => match pw_do file W x with Some W' => pw_run file W' l' | None => None end end.
Definition pw_final (file : bytes) (W0 : @pworld S) (l : list rev) : @pworld S :=
  match pw_run file W0 l with Some W => W | None => W0 end.
Lemma pw_run_reach file W0 W l W' : pwreach step view c a file W0 W -> pw_run file W l = Some W' -> pwreach step view c a file W0 W'.
Proof.
  revert W. induction l as [|x l IH]; cbn [pw_run]; intros W R H; [injection H as <-; exact R|].
  destruct (pw_do file W x) as [W1|] eqn:E1; [|discriminate]. eapply IH; [|exact H]. eapply pwreach_step; [exact R|eapply pw_do_step; exact E1].
Qed.
Lemma pw_final_reach file W0 l : pwreach step view c a file W0 (pw_final file W0 l).
Proof.
  unfold pw_final. destruct (pw_run file W0 l) as [W|] eqn:H; [|constructor]. eapply pw_run_reach; [constructor|exact H].
Qed.
End Run.

(** ** The servers: the client at 50 is uploading, the client at 10 asks for a file *)
Definition rf_g : srvcfg := mkSC (mkScfg 1400 8 5000 1000000 None None false false false) 4.
Definition rf_file : bytes := repeat 7 700.
Definition rf_in (now : N) (rx : addr -> option bytes) (m : mainev) : input :=
  mkIn now (fun _ => wc_e now) 1404 (fun _ => wc_e now) (fun _ => wc_e now) rx m (wc_e now) ex_env av_all (fun _ => rf_file).
Definition rf_name : bytes := s2b "dir/../f".
Definition rf_rrq : bytes := Eval vm_compute in rfc_request false rf_name.
Definition rf_wrq : bytes := Eval vm_compute in rfc_request true rf_name.
Lemma rf_rrq_eq : rf_rrq = rfc_request false rf_name. Proof. vm_compute. reflexivity. Qed.
Lemma rf_wrq_eq : rf_wrq = rfc_request true rf_name. Proof. vm_compute. reflexivity. Qed.
Lemma rf_good : good_string rf_name.
Proof. vm_compute. repeat split; try lia; repeat constructor; lia. Qed.
Lemma rf_clear d : in_clear toy (g_cfg rf_g) d.
Proof. intros p key (sk & ct & tag & nonce & pk & padded & K & _). discriminate K. Qed.
Example plain_request_case : forall wr, exists path x,
  validate_request_options (sc_max_size (g_cfg rf_g)) rf_name None = Ok path /\
  server_new toy (g_cfg rf_g) ex_env av_all (rfc_request wr rf_name) = SAccepted x (if wr then Some (rfc_ack 0) else None) /\
  es_write x = wr /\ es_path x = path /\ op_bs (es_opts x) = 512.
Proof.
  intros wr. exists (s2b "dir/f").
  assert (V : validate_request_options (sc_max_size (g_cfg rf_g)) rf_name None = Ok (s2b "dir/f")) by (vm_compute; reflexivity).
  destruct (plain_request_taken toy (g_cfg rf_g) ex_env wr rf_name _ None toy_ok rf_good (rf_clear _) eq_refl eq_refl V eq_refl eq_refl eq_refl)
    as (x & H1 & H2 & H3 & H4 & _). exists x. auto.
Qed.

Definition rf_s0 : sstate := Eval vm_compute in wc_st (step_recv toy rf_g (s_init 0) (rf_in 5 wc_quiet (MData 50 rf_wrq))).
Lemma rf_s0_eq : rf_s0 = wc_st (step_recv toy rf_g (s_init 0) (rf_in 5 wc_quiet (MData 50 rf_wrq))).
Proof. vm_compute. reflexivity. Qed.
Definition rf_so0 : outs := Eval vm_compute in wc_out (step_recv toy rf_g (s_init 0) (rf_in 5 wc_quiet (MData 50 rf_wrq))).
Lemma rf_so0_eq : rf_so0 = wc_out (step_recv toy rf_g (s_init 0) (rf_in 5 wc_quiet (MData 50 rf_wrq))).
Proof. vm_compute. reflexivity. Qed.
Lemma rf_s0_reach : spreach toy rf_g rf_s0.
Proof.
  rewrite rf_s0_eq. unfold wc_st. destruct (step_recv _ _ _ _) as [[s o]|] eqn:E; [|constructor].
  eapply spreach_step; [constructor|apply sp_receive; exact E].
Qed.
Definition rf_s1 : sstate := Eval vm_compute in wc_st (step_recv toy rf_g rf_s0 (rf_in 10 wc_quiet (MData 10 rf_rrq))).
Lemma rf_s1_eq : rf_s1 = wc_st (step_recv toy rf_g rf_s0 (rf_in 10 wc_quiet (MData 10 rf_rrq))).
Proof. vm_compute. reflexivity. Qed.
Definition rf_so1 : outs := Eval vm_compute in wc_out (step_recv toy rf_g rf_s0 (rf_in 10 wc_quiet (MData 10 rf_rrq))).
Lemma rf_so1_eq : rf_so1 = wc_out (step_recv toy rf_g rf_s0 (rf_in 10 wc_quiet (MData 10 rf_rrq))).
Proof. vm_compute. reflexivity. Qed.
Definition rf_took (b : addr) (now : N) (d : bytes) : sev := SRecv (rf_in now (fun x => if x =? b then Some d else None) MWouldBlock).
(** A turn in which only the main socket is looked at: each connection is looked at once before that. *)
Definition rf_idle (now : N) : @rev sev := VDo (SRecv (rf_in now wc_quiet MWouldBlock)).
(** Block 1 arrives twice and its acknowledgement is sent and arrives twice; block 2 is the last one. *)
Definition rf_gev : list (@rev sev) :=
  [VDo (SSend (rf_in 11 wc_quiet MWouldBlock)); VHears 0; VSends; VHears 0; VSends; VServer (rf_took 10 20) 0; rf_idle 20; VServer (rf_took 10 21) 1;
   VDo (SSend (rf_in 22 wc_quiet MWouldBlock)); VHears 0; VSends; rf_idle 23; VServer (rf_took 10 30) 0].
Definition rf_GW0 : @gworld sstate := mkGW rf_s1 false (mkG 0 [] false) [] [] 0 0.
Definition rf_GW : @gworld sstate := Eval vm_compute in gw_final sview (sexec toy rf_g) toy 10 rf_file rf_GW0 rf_gev.
Lemma rf_GW_eq : rf_GW = gw_final sview (sexec toy rf_g) toy 10 rf_file rf_GW0 rf_gev.
Proof. vm_compute. reflexivity. Qed.
Lemma rf_GW_reach : gwreach (sphase toy rf_g) sview toy 10 rf_file rf_GW0 rf_GW.
Proof. rewrite rf_GW_eq. exact (gw_final_reach (sphase toy rf_g) sview (sexec toy rf_g) (sexec_ok toy rf_g) toy 10 _ _ _). Qed.
Example plain_download_case :
  crypto_ok toy /\ good_string rf_name /\ in_clear toy (g_cfg rf_g) (rfc_request false rf_name) /\
  spreach toy rf_g rf_s0 /\ map fst (s_clients rf_s0) = [50] /\ sview rf_s0 10 = None /\
  taken rf_s0 (rf_in 10 wc_quiet (MData 10 rf_rrq)) = TookMain 10 (rfc_request false rf_name) /\
  step_recv toy rf_g rf_s0 (rf_in 10 wc_quiet (MData 10 rf_rrq)) = Some (rf_s1, rf_so1) /\
  (exists e r, sview rf_s1 10 = Some e /\ en_work e = WRead rf_file r) /\
  gwreach (sphase toy rf_g) sview toy 10 rf_file rf_GW0 rf_GW /\
  got_blocks (gw_cl rf_GW) = 2 /\ got_all (gw_cl rf_GW) = true /\ blen (got (gw_cl rf_GW)) = 700 /\ gw_over rf_GW = false /\
  option_map (fun e => c_finished (en_conn e)) (sview (gw_srv rf_GW) 10) = Some true.
Proof.
  split; [exact toy_ok|]. split; [exact rf_good|]. split; [apply rf_clear|]. split; [exact rf_s0_reach|].
  do 4 (split; [vm_compute; reflexivity|]). split; [apply work_read; [discriminate|vm_compute; reflexivity]|].
  split; [exact rf_GW_reach|]. do 4 (split; [vm_compute; reflexivity|]). vm_compute; reflexivity.
Qed.
(** The client at 50 sends its file: block 1 is lost and sent again, the acknowledgement of block 1 arrives twice. *)
Definition rf_pev : list (@rev sev) :=
  [VHears 0; VSends; VSends; VServer (rf_took 50 20) 0; rf_idle 20; VServer (rf_took 50 21) 1; VHears 0; VSends; VHears 0; rf_idle 22; VServer (rf_took 50 30) 0; VHears 0].
Definition rf_PW0 : @pworld sstate := mkPW rf_s0 false [] 0 [(rfc_ack 0, Some 0)] [] 0 0.
Definition rf_PW : @pworld sstate := Eval vm_compute in pw_final sview (sexec toy rf_g) toy 50 rf_file rf_PW0 rf_pev.
Lemma rf_PW_eq : rf_PW = pw_final sview (sexec toy rf_g) toy 50 rf_file rf_PW0 rf_pev.
Proof. vm_compute. reflexivity. Qed.
Lemma rf_PW_reach : pwreach (sphase toy rf_g) sview toy 50 rf_file rf_PW0 rf_PW.
Proof. rewrite rf_PW_eq. exact (pw_final_reach (sphase toy rf_g) sview (sexec toy rf_g) (sexec_ok toy rf_g) toy 50 _ _ _). Qed.
Example plain_upload_case :
  in_clear toy (g_cfg rf_g) (rfc_request true rf_name) /\
  sview (s_init 0) 50 = None /\ taken (s_init 0) (rf_in 5 wc_quiet (MData 50 rf_wrq)) = TookMain 50 (rfc_request true rf_name) /\
  step_recv toy rf_g (s_init 0) (rf_in 5 wc_quiet (MData 50 rf_wrq)) = Some (rf_s0, rf_so0) /\ sent_to 50 rf_so0 = [OWire (rfc_ack 0)] /\
  (exists e w, sview rf_s0 50 = Some e /\ en_work e = WWrite (s2b "dir/f") w) /\
  pwreach (sphase toy rf_g) sview toy 50 rf_file rf_PW0 rf_PW /\
  pw_cl rf_PW = 3 /\ putter_last rf_file = 2 /\ pw_kept rf_PW = rf_file /\ pw_over rf_PW = false /\
  option_map (fun e => c_finished (en_conn e)) (sview (pw_srv rf_PW) 50) = Some true.
Proof.
  split; [apply rf_clear|]. do 4 (split; [vm_compute; reflexivity|]). split; [apply work_write; [discriminate|vm_compute; reflexivity]|].
  split; [exact rf_PW_reach|]. do 4 (split; [vm_compute; reflexivity|]). vm_compute; reflexivity.
Qed.

(** ** The multi threaded server *)
Definition rf_m0 : mstate := Eval vm_compute in wc_mst (main_turn toy rf_g m_init (MData 50 rf_wrq) (rf_in 5 wc_quiet MWouldBlock)).
Lemma rf_m0_eq : rf_m0 = wc_mst (main_turn toy rf_g m_init (MData 50 rf_wrq) (rf_in 5 wc_quiet MWouldBlock)).
Proof. vm_compute. reflexivity. Qed.
Definition rf_mo0 : outs := Eval vm_compute in wc_mout (main_turn toy rf_g m_init (MData 50 rf_wrq) (rf_in 5 wc_quiet MWouldBlock)).
Lemma rf_mo0_eq : rf_mo0 = wc_mout (main_turn toy rf_g m_init (MData 50 rf_wrq) (rf_in 5 wc_quiet MWouldBlock)).
Proof. vm_compute. reflexivity. Qed.
Lemma rf_m0_reach : mpreach toy rf_g rf_m0.
Proof.
  rewrite rf_m0_eq. unfold wc_mst. destruct (main_turn _ _ _ _ _) as [[s o]|] eqn:E; [|constructor].
  eapply mpreach_step; [constructor|eapply mp_main; exact E].
Qed.
Definition rf_m1 : mstate := Eval vm_compute in wc_mst (main_turn toy rf_g rf_m0 (MData 10 rf_rrq) (rf_in 10 wc_quiet MWouldBlock)).
Lemma rf_m1_eq : rf_m1 = wc_mst (main_turn toy rf_g rf_m0 (MData 10 rf_rrq) (rf_in 10 wc_quiet MWouldBlock)).
Proof. vm_compute. reflexivity. Qed.
Definition rf_mo1 : outs := Eval vm_compute in wc_mout (main_turn toy rf_g rf_m0 (MData 10 rf_rrq) (rf_in 10 wc_quiet MWouldBlock)).
Lemma rf_mo1_eq : rf_mo1 = wc_mout (main_turn toy rf_g rf_m0 (MData 10 rf_rrq) (rf_in 10 wc_quiet MWouldBlock)).
Proof. vm_compute. reflexivity. Qed.
Definition rf_mtook (now : N) (d : bytes) : tev := TRecv d (wc_e now).
Definition rf_mgev : list (@rev tev) :=
  [VDo (TSend 1404 (wc_e 11)); VHears 0; VSends; VHears 0; VSends; VServer (rf_mtook 20) 0; VServer (rf_mtook 21) 1;
   VDo (TSend 1404 (wc_e 22)); VHears 0; VSends; VServer (rf_mtook 30) 0].
Definition rf_MGW0 : @gworld mstate := mkGW rf_m1 false (mkG 0 [] false) [] [] 0 0.
Definition rf_MGW : @gworld mstate := Eval vm_compute in gw_final mview (mexec toy rf_g 10) toy 10 rf_file rf_MGW0 rf_mgev.
Lemma rf_MGW_eq : rf_MGW = gw_final mview (mexec toy rf_g 10) toy 10 rf_file rf_MGW0 rf_mgev.
Proof. vm_compute. reflexivity. Qed.
Lemma rf_MGW_reach : gwreach (mphase toy rf_g) mview toy 10 rf_file rf_MGW0 rf_MGW.
Proof. rewrite rf_MGW_eq. exact (gw_final_reach (mphase toy rf_g) mview (mexec toy rf_g 10) (mexec_ok toy rf_g 10) toy 10 _ _ _). Qed.
Example plain_download_multi_case :
  mpreach toy rf_g rf_m0 /\ map fst (m_handles rf_m0) = [50] /\ mview rf_m0 10 = None /\
  main_turn toy rf_g rf_m0 (MData 10 (rfc_request false rf_name)) (rf_in 10 wc_quiet MWouldBlock) = Some (rf_m1, rf_mo1) /\
  (exists e r, mview rf_m1 10 = Some e /\ en_work e = WRead rf_file r) /\
  gwreach (mphase toy rf_g) mview toy 10 rf_file rf_MGW0 rf_MGW /\
  got_blocks (gw_cl rf_MGW) = 2 /\ got_all (gw_cl rf_MGW) = true /\ blen (got (gw_cl rf_MGW)) = 700 /\ gw_over rf_MGW = false /\
  option_map (fun e => c_finished (en_conn e)) (mview (gw_srv rf_MGW) 10) = Some true.
Proof.
  split; [exact rf_m0_reach|]. do 3 (split; [vm_compute; reflexivity|]). split; [apply work_read; [discriminate|vm_compute; reflexivity]|].
  split; [exact rf_MGW_reach|]. do 4 (split; [vm_compute; reflexivity|]). vm_compute; reflexivity.
Qed.
Definition rf_mpev : list (@rev tev) :=
  [VHears 0; VSends; VSends; VServer (rf_mtook 20) 0; VServer (rf_mtook 21) 1; VHears 0; VSends; VHears 0; VServer (rf_mtook 30) 0; VHears 0].
Definition rf_MPW0 : @pworld mstate := mkPW rf_m0 false [] 0 [(rfc_ack 0, Some 0)] [] 0 0.
Definition rf_MPW : @pworld mstate := Eval vm_compute in pw_final mview (mexec toy rf_g 50) toy 50 rf_file rf_MPW0 rf_mpev.
Lemma rf_MPW_eq : rf_MPW = pw_final mview (mexec toy rf_g 50) toy 50 rf_file rf_MPW0 rf_mpev.
Proof. vm_compute. reflexivity. Qed.
Lemma rf_MPW_reach : pwreach (mphase toy rf_g) mview toy 50 rf_file rf_MPW0 rf_MPW.
Proof. rewrite rf_MPW_eq. exact (pw_final_reach (mphase toy rf_g) mview (mexec toy rf_g 50) (mexec_ok toy rf_g 50) toy 50 _ _ _). Qed.
Example plain_upload_multi_case :
  mview m_init 50 = None /\
  main_turn toy rf_g m_init (MData 50 (rfc_request true rf_name)) (rf_in 5 wc_quiet MWouldBlock) = Some (rf_m0, rf_mo0) /\
  sent_to 50 rf_mo0 = [OWire (rfc_ack 0)] /\
  (exists e w, mview rf_m0 50 = Some e /\ en_work e = WWrite (s2b "dir/f") w) /\
  pwreach (mphase toy rf_g) mview toy 50 rf_file rf_MPW0 rf_MPW /\
  pw_cl rf_MPW = 3 /\ pw_kept rf_MPW = rf_file /\ pw_over rf_MPW = false /\
  option_map (fun e => c_finished (en_conn e)) (mview (pw_srv rf_MPW) 50) = Some true.
Proof.
  do 3 (split; [vm_compute; reflexivity|]). split; [apply work_write; [discriminate|vm_compute; reflexivity]|].
  split; [exact rf_MPW_reach|]. do 3 (split; [vm_compute; reflexivity|]). vm_compute; reflexivity.
Qed.
