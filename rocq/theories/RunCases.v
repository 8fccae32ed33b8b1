(** C71, C72, C73: cases.  A file of two blocks is sent to a server, the server is restarted, the file is received on
    another machine; once as it is, once encrypted. *)
From Verif Require Import Base BaseProofs PacketModel PacketSpec MapperModel ReaderModel ReaderSpec BlockLemmas ConfigModel CryptoModel CryptoSpec CryptoProofs ExtModel PathModel ConnModel
  ConnSpec ClientModel HandshakeModel ClientWaitModel StreamModel StreamSpec PropStream PropExt PropHandshake AgreeProofs PropAgree SystemModel ServerModel ServerSpec PropServer WorldModel PropWorld WorldCases
  FsModel FsSpec FsProofs PropFs FsServerModel DiskModel DiskSpec PropDisk DiskCases StoreSpec StoreProofs PropStore StoreCases RunModel RunSpec RunProofs RunB RunC PropRun PropLocal.
From Verif Require CliModel.

Section Run.
Context {S E : Type} (step : S -> took -> S -> outs -> Prop) (view : S -> ServerModel.addr -> option entry)
  (exec : S -> E -> option (took * S * outs)).
Hypothesis exec_ok : forall s x t s' o, exec s x = Some (t, s', o) -> step s t s' o.
Variables (g : run_cfg) (wc : wcfg) (keys : option client_keys) (a : ServerModel.addr) (peer : CliModel.addr) (w : bytes).
Notation c := (ru_c g).
(** The server does something, or receives the [j]-th datagram sent to it; the command hears nothing, or the answer or the [j]-th
    datagram sent to it. *)
Inductive rev' := EDo (x : E) | EServer (x : bytes -> E) (j : nat) | EClient (j : option nat) (now : N).
Definition seal_run (mark : bytes -> option N) (x : sent) : option dgram :=
  if fits (sn_plain x) then match client_send c (sn_sock x) wc_nonce (sn_plain x) with Ok d => Some (d, mark (sn_plain x)) | _ => None end else None.
Lemma seal_run_ok mark out new : sealed_all (seal_run mark) (filter (fun x => same_addr (sn_to x) peer) out) = Some new -> all_sealed c peer mark out new.
Proof.
  intros H. unfold all_sealed. eapply sealed_all_ok; [|exact H]. intros x y. unfold seal_run. destruct (fits _) eqn:F; [|discriminate].
  destruct (client_send _ _ _ _) as [d| |] eqn:EE; try discriminate. intros [= <-]. split; [apply fits_short; exact F|]. split; [reflexivity|].
  exists wc_nonce. split; [reflexivity|exact EE].
Qed.
Definition nothing : dgram := ([], None).
Definition hear (asks gets : bool) (down : list dgram) (j : option nat) : option (rev_ * dgram) :=
  match j with
  | None => Some (RvBlock, nothing)
  | Some j =>
      if asks then Some (RvFrom peer w, nothing)
      else match gets, nth_error down j with true, Some y => Some (RvFrom peer (fst y), y) | _, _ => None end
  end.
Definition rasks (p : rprog) : bool := match rp_ph p with RAsk _ => true | _ => false end.
Definition rgets (p : rprog) : bool := match rp_ph p with RGet _ _ _ _ _ => true | _ => false end.
Lemma hear_ok p down j e x : hear (rasks p) (rgets p) down j = Some (e, x) -> rheard peer w p down e x.
Proof.
  unfold hear, rheard, rasks, rgets. destruct j as [j|]; [|intros [= <- <-]; destruct (rp_ph p); cbn; auto].
  destruct (rp_ph p); try discriminate; [intros [= <- <-]; cbn; auto|].
  destruct (nth_error down j) as [y|] eqn:NT; [|discriminate]. intros [= <- <-].
  left. split; [reflexivity|]. split; [reflexivity|eapply nth_error_In; exact NT].
Qed.
Definition rw_do (n : N) (W : @rworld S) (x : rev') : option (@rworld S) :=
  match x with
  | EDo x =>
      if rw_over W then None else
      match srv_do view exec c a (rw_srv W) x with
      | Some (t, s', new) =>
          if hears a t then None
          else Some (mkRW s' (ended (view s' a)) (rw_prog W) (new ++ rw_down W) (rw_up W) (rw_sc W) (rw_ss W))
      | None => None
      end
  | EServer x j =>
      if rw_over W then None else
      match nth_error (rw_up W) j with
      | Some y =>
          match srv_do view exec c a (rw_srv W) (x (fst y)) with
          | Some (t, s', new) =>
              if own_b a t y && fresh_b (rw_ss W) y
              then Some (mkRW s' (ended (view s' a)) (rw_prog W) (new ++ rw_down W) (rw_up W) (rw_sc W) (see (rw_ss W) y))
              else None
          | None => None
          end
      | None => None
      end
  | EClient j now =>
      match hear (rasks (rw_prog W)) (rgets (rw_prog W)) (rw_down W) j with
      | Some (e, y) =>
          let i := mkRin e now false None true [] in
          if fresh_b (rw_sc W) y then
            let '(p', out) := receive_turn g wc keys (rw_prog W) i in
            match sealed_all (seal_run (rmark g (rw_prog W) i)) (filter (fun x => same_addr (sn_to x) peer) out) with
            | Some new => Some (mkRW (rw_srv W) (rw_over W) p' (rw_down W) (new ++ rw_up W) (see (rw_sc W) y) (rw_ss W))
            | None => None
            end
          else None
      | None => None
      end
  end.
Lemma rw_do_step n W x W' : rw_do n W x = Some W' -> rwstep step view g wc keys a peer w n W W'.
Proof.
  destruct W as [s over p down up sc ss]. destruct x as [x|x j|j now]; cbn [rw_do rw_srv rw_over rw_prog rw_down rw_up rw_sc rw_ss].
  - destruct over; [discriminate|]. destruct (srv_do view exec c a s x) as [[[t s'] new]|] eqn:D; [|discriminate].
    destruct (hears a t) eqn:HT; [discriminate|]. intros [= <-].
    destruct (srv_do_ok step view exec exec_ok c a _ _ _ _ _ D) as (e & o & V & ST & SL). eapply rw_server; eassumption.
  - destruct over; [discriminate|]. destruct (nth_error up j) as [y|] eqn:NT; [|discriminate].
    destruct (srv_do view exec c a s (x (fst y))) as [[[t s'] new]|] eqn:D; [|discriminate].
    destruct (own_b a t y && fresh_b ss y)%bool eqn:CK; [|discriminate]. intros [= <-].
    apply Bool.andb_true_iff in CK as [OB FR]. destruct (own_check a _ _ OB) as (v & -> & _).
    destruct (srv_do_ok step view exec exec_ok c a _ _ _ _ _ D) as (e & o & V & ST & SL).
    eapply rw_server_receives; [exact ST|eapply nth_error_In; exact NT|apply fresh_check; exact FR|exact V|exact SL].
  - destruct (hear _ _ _ _) as [[e y]|] eqn:HE; [|discriminate]. destruct (fresh_b sc y) eqn:FR; [|discriminate].
    destruct (receive_turn _ _ _ _ _) as [p' out] eqn:RT. destruct (sealed_all _ _) as [new|] eqn:SL; [|discriminate]. intros [= <-].
    eapply rw_client with (i := mkRin e now false None true []) (x := y); [apply (hear_ok _ _ _ _ _ HE)|apply fresh_check; exact FR|reflexivity|exact RT|apply seal_run_ok; exact SL].
Qed.
Fixpoint rw_run (n : N) (W : @rworld S) (l : list rev') : option (@rworld S) :=
  match l with [] => Some W | x :: l' => match rw_do n W x with Some W' => rw_run n W' l' | None => None end end.
Lemma rw_run_reach n W0 l W' : forall W, rwreach step view g wc keys a peer w n W0 W -> rw_run n W l = Some W' -> rwreach step view g wc keys a peer w n W0 W'.
Proof.
  induction l as [|x l IH]; cbn [rw_run]; intros W R H; [injection H as <-; exact R|].
  destruct (rw_do n W x) as [W1|] eqn:E1; [|discriminate]. eapply IH; [|exact H]. eapply rwr_step; [exact R|eapply rw_do_step; exact E1].
Qed.
Definition rw_final (n : N) (W0 : @rworld S) (l : list rev') : @rworld S := match rw_run n W0 l with Some W => W | None => W0 end.
Lemma rw_final_reach n W0 l : rwreach step view g wc keys a peer w n W0 (rw_final n W0 l).
Proof.
  unfold rw_final. destruct (rw_run n W0 l) as [W|] eqn:H; [|constructor]. eapply rw_run_reach; [constructor|exact H].
Qed.

Definition uasks (p : uphase) : bool := match p with UAsk _ _ => true | _ => false end.
Definition ugets (p : uphase) : bool := match p with USend _ _ _ _ _ => true | _ => false end.
Lemma uhear_ok p down j e x : hear (uasks p) (ugets p) down j = Some (e, x) -> uheard peer w p down e x.
Proof.
  unfold hear, uheard, uasks, ugets. destruct j as [j|]; [|intros [= <- <-]; destruct p; cbn; auto].
  destruct p; try discriminate; [intros [= <- <-]; cbn; auto|].
  destruct (nth_error down j) as [y|] eqn:NT; [|discriminate]. intros [= <- <-].
  left. split; [reflexivity|]. split; [reflexivity|eapply nth_error_In; exact NT].
Qed.
Definition sw_do (n : N) (W : @sworld S) (x : rev') : option (@sworld S) :=
  match x with
  | EDo x =>
      if sv_over W then None else
      match srv_do view exec c a (sv_srv W) x with
      | Some (t, s', new) =>
          if hears a t then None
          else Some (mkSW_ s' (ended (view s' a)) (keep (sv_kept W) (view s' a)) (sv_fs W) (sv_prog W) (new ++ sv_down W) (sv_up W) (sv_sc W) (sv_ss W))
      | None => None
      end
  | EServer x j =>
      if sv_over W then None else
      match nth_error (sv_up W) j with
      | Some y =>
          match srv_do view exec c a (sv_srv W) (x (fst y)) with
          | Some (t, s', new) =>
              if own_b a t y && fresh_b (sv_ss W) y
              then Some (mkSW_ s' (ended (view s' a)) (keep (sv_kept W) (view s' a)) (sv_fs W) (sv_prog W) (new ++ sv_down W) (sv_up W) (sv_sc W) (see (sv_ss W) y))
              else None
          | None => None
          end
      | None => None
      end
  | EClient j now =>
      match hear (uasks (sv_prog W)) (ugets (sv_prog W)) (sv_down W) j with
      | Some (e, y) =>
          let i := mkSin false IoOk (Some true) e now in
          if fresh_b (sv_sc W) y then
            let '(p', out) := send_turn g wc keys (sv_fs W) (sv_prog W) i in
            match sealed_all (seal_run (umark g (sv_fs W) (sv_prog W) i)) (filter (fun x => same_addr (sn_to x) peer) out) with
            | Some new => Some (mkSW_ (sv_srv W) (sv_over W) (sv_kept W) (sv_fs W) p' (sv_down W) (new ++ sv_up W) (see (sv_sc W) y) (sv_ss W))
            | None => None
            end
          else None
      | None => None
      end
  end.
Lemma sw_do_step src n W x W' : sw_do n W x = Some W' -> swstep step view g wc keys a peer w src n W W'.
Proof.
  destruct W as [s over kept f p down up sc ss]. destruct x as [x|x j|j now]; cbn [sw_do sv_srv sv_over sv_kept sv_fs sv_prog sv_down sv_up sv_sc sv_ss].
  - destruct over; [discriminate|]. destruct (srv_do view exec c a s x) as [[[t s'] new]|] eqn:D; [|discriminate].
    destruct (hears a t) eqn:HT; [discriminate|]. intros [= <-].
    destruct (srv_do_ok step view exec exec_ok c a _ _ _ _ _ D) as (e & o & V & ST & SL). eapply sw_server; eassumption.
  - destruct over; [discriminate|]. destruct (nth_error up j) as [y|] eqn:NT; [|discriminate].
    destruct (srv_do view exec c a s (x (fst y))) as [[[t s'] new]|] eqn:D; [|discriminate].
    destruct (own_b a t y && fresh_b ss y)%bool eqn:CK; [|discriminate]. intros [= <-].
    apply Bool.andb_true_iff in CK as [OB FR]. destruct (own_check a _ _ OB) as (v & -> & SH).
    destruct (srv_do_ok step view exec exec_ok c a _ _ _ _ _ D) as (e & o & V & ST & SL).
    eapply sw_server_receives; [exact ST|exact SH|eapply nth_error_In; exact NT|apply fresh_check; exact FR|exact V|exact SL].
  - destruct (hear _ _ _ _) as [[e y]|] eqn:HE; [|discriminate]. destruct (fresh_b sc y) eqn:FR; [|discriminate].
    destruct (send_turn _ _ _ _ _ _) as [p' out] eqn:RT. destruct (sealed_all _ _) as [new|] eqn:SL; [|discriminate]. intros [= <-].
    eapply sw_client with (i := mkSin false IoOk (Some true) e now) (x := y); [apply (uhear_ok _ _ _ _ _ HE)|apply fresh_check; exact FR|exact RT|apply seal_run_ok; exact SL].
Qed.
Fixpoint sw_run (n : N) (W : @sworld S) (l : list rev') : option (@sworld S) :=
  match l with [] => Some W | x :: l' => match sw_do n W x with Some W' => sw_run n W' l' | None => None end end.
Lemma sw_run_reach src n W0 l W' : forall W, swreach step view g wc keys a peer w src n W0 W -> sw_run n W l = Some W' -> swreach step view g wc keys a peer w src n W0 W'.
Proof.
  induction l as [|x l IH]; cbn [sw_run]; intros W R H; [injection H as <-; exact R|].
  destruct (sw_do n W x) as [W1|] eqn:E1; [|discriminate]. eapply IH; [|exact H]. eapply swr_step; [exact R|eapply sw_do_step; exact E1].
Qed.
Definition sw_final (n : N) (W0 : @sworld S) (l : list rev') : @sworld S := match sw_run n W0 l with Some W => W | None => W0 end.
Lemma sw_final_reach src n W0 l : swreach step view g wc keys a peer w src n W0 (sw_final n W0 l).
Proof.
  unfold sw_final. destruct (sw_run n W0 l) as [W|] eqn:H; [|constructor]. eapply sw_run_reach; [constructor|exact H].
Qed.
End Run.

(** *** The machines *)
Definition rn_cfg : scfg := mkScfg 512 1 5000 100000 None None false false false.
Definition rn_sg : srvcfg := mkSC rn_cfg 10.
Definition rn_fg : fcfg := mkFcfg (s2b "/srv") false None 3.
Notation rn_sv := (single_server toy rn_sg).
Definition rn_srv : fs := mkFs (ex_look [([s2b "srv"], NDir)]) (fun _ => []) 0 [] (fun _ => true) (ex_children [([s2b "srv"], NDir)]).
Definition rn_file : bytes := repeat 7 600.
Definition rn_a : fs := let t := [([s2b "a"], NFile 0)] in mkFs (ex_look t) (fun _ => rn_file) 1 [] (fun _ => true) (ex_children t).
(** The other machine has an older file there. *)
Definition rn_b : fs := let t := [([s2b "b"], NFile 0)] in mkFs (ex_look t) (fun _ => [1; 2; 3]) 1 [] (fun _ => true) (ex_children t).
Definition rn_home : CliModel.addr := CliModel.mkAddr false (s2b "h") 69.
Definition rn_peer : CliModel.addr := CliModel.mkAddr false (s2b "h") 4000.
Definition rn_o (size : N) : options := mkOpts 512 2000 (Some size) LNone 1.
Definition rn_cc : ccfg := mkCcfg None None true.
Definition rn_g (fk : option bytes) (local remote : bytes) : run_cfg :=
  mkRun toy (CliModel.mkCS rn_home rn_home 5000 100000 rn_cc false fk local remote (rn_o 0)) [1; 2] [3; 4] (repeat 6 19) (fun _ => []).
Definition rn_sock : csock := mkSock None LNone None 512.
Definition rn_wc (g : run_cfg) (write : bool) (size : N) : wcfg := mkWC toy rn_cc rn_sock write (rn_o size) 5000 516 (ru_txt g).
Definition rn_exts (size : N) : exts := match create_extensions toy (rn_o size) None with Ok e => e | _ => exts_empty end.
Definition rn_e0 : exts := Eval vm_compute in rn_exts 0.
Definition rn_e1 : exts := Eval vm_compute in rn_exts 600.
Lemma rn_ask0 fk local remote write : run_ask (rn_g fk local remote) write (rn_o 0) = Some (rn_wc (rn_g fk local remote) write 0, None, rn_e0).
Proof. reflexivity. Qed.
Lemma rn_ask1 fk local remote write : run_ask (rn_g fk local remote) write (rn_o 600) = Some (rn_wc (rn_g fk local remote) write 600, None, rn_e1).
Proof. reflexivity. Qed.

(** *** The command [send] *)
Definition rn_size (fk : option bytes) : N := match fk with Some _ => 0 | None => 600 end.
Definition rn_ex (fk : option bytes) : exts := match fk with Some _ => rn_e0 | None => rn_e1 end.
Definition rn_gs (fk : option bytes) : run_cfg := rn_g fk (s2b "/a") (s2b "./f").
Definition rn_sp (fk : option bytes) : uphase := send_run (rn_gs fk) (rn_wc (rn_gs fk) true (rn_size fk)) None rn_a
  (UAsk (SFile 0) (wait_init (rn_wc (rn_gs fk) true (rn_size fk)) (rn_ex fk) 0)) [mkSin false IoOk (Some true) RvBlock 10].
Lemma rn_send_waiting fk : send_waiting (rn_gs fk) rn_a 0 (SFile 0) (rn_wc (rn_gs fk) true (rn_size fk)) None (rn_ex fk) (rn_sp fk).
Proof.
  exists 0, [mkSin false IoOk (Some true) RvBlock 10]. split; [repeat constructor|]. split; [|reflexivity].
  unfold send_start. change (create_reader rn_a (CliModel.cl_local (ru_start (rn_gs fk)))) with (Some (SFile 0)).
  cbn beta iota. destruct fk as [fk|]; cbn [rn_gs rn_g ru_start CliModel.cl_file_key].
  - change (send_opts _ None) with (rn_o 0). unfold rn_gs. rewrite rn_ask0. reflexivity.
  - change (send_opts _ _) with (rn_o 600). unfold rn_gs. rewrite rn_ask1. reflexivity.
Qed.
Definition rn_d (fk : option bytes) : bytes := asking (rn_gs fk) true (rn_ex fk).
Lemma rn_request fk : request_of (rn_gs fk) (rn_wc (rn_gs fk) true (rn_size fk)) true (rn_ex fk) (rn_d fk).
Proof. exists (repeat 1 24). split; reflexivity. Qed.

Lemma rn_understood g fk local remote write size d : g = rn_g fk local remote -> good_string remote -> blen d <= 516 -> understood g (rn_wc g write size) rn_cfg d.
Proof.
  intros -> GS BL. split; [exact GS|]. split; [intros vk H; discriminate H|]. split.
  - intros _ p key. unfold sealed_initial. cbn [sc_key rn_cfg]. firstorder discriminate.
  - unfold server_receive. change (Ok (takeN 516 d) = @Ok unit bytes d). rewrite takeN_all by exact BL. reflexivity.
Qed.
Definition rn_st0 : disk sstate := mkDk (s_init 0) rn_srv (fun _ => None).
Definition rn_init (s : sstate) : Prop := exists now, s = s_init now.
Lemma rn_reach0 : dkreach rn_sv toy rn_sg rn_fg 0 rn_init rn_st0.
Proof. constructor. exists 0. reflexivity. Qed.
Lemma rn_consistent0 : consistent (dk_fs rn_st0).
Proof.
  split; [constructor|]. intros p id. destruct p as [|a p]; [discriminate|]. unfold at_, rn_st0, rn_srv, ex_look. cbn [dk_fs f_tree f_next].
  cbn [find fst]. destruct (place_eqb _ _); discriminate.
Qed.
Definition rn_i (fk : option bytes) : input := dc_ask 20 50 (rn_d fk).
Definition rn_or (fk : option bytes) := open_request toy rn_cfg rn_fg 0 rn_srv (h_eph (i_henv (rn_i fk))) (recv_cut rn_sg (rn_d fk)).
Definition rn_f1 (fk : option bytes) : fs := fst (fst (rn_or fk)).
Definition rn_step (fk : option bytes) := step_recv toy rn_sg (loaded rn_sv rn_st0) (with_files (rn_i fk) (Some None) (content (rn_f1 fk) (Some (Writes 0)))).
Definition rn_s1 (fk : option bytes) : sstate := wc_st (rn_step fk).
Definition rn_o1 (fk : option bytes) : outs := wc_out (rn_step fk).
Definition rn_w (fk : option bytes) : bytes := wc_reply (sent_to 50 (rn_o1 fk)).
Definition rn_e (fk : option bytes) : entry := sc_entry (sv_view rn_sv (rn_s1 fk) 50).
Definition rn_st1 (fk : option bytes) : disk sstate :=
  mkDk (rn_s1 fk) (rn_f1 fk) (still_open rn_sv (rn_s1 fk) (fun b => if b =? 50 then Some (Writes 0) else None)).
Definition rn_fk : bytes := repeat 4 32.
(** What the two uploads have in common. *)
Definition rn_accepted (fk : option bytes) :=
  (snd (fst (rn_or fk)), snd (rn_or fk), (is_some (rn_step fk), file_request toy rn_cfg (h_eph (i_henv (rn_i fk))) (recv_cut rn_sg (rn_d fk))), taken (loaded rn_sv rn_st0) (rn_i fk),
   (beq (rn_w fk) [], length (sent_to 50 (rn_o1 fk)), is_some (sv_view rn_sv (rn_s1 fk) 50))).

Lemma one_reply l : (beq (wc_reply l) [], length l) = (false, 1%nat) -> l = [OWire (wc_reply l)].
Proof. destruct l as [|[p|w] [|x l]]; cbn; intros H; try discriminate H. reflexivity. Qed.
Lemma some_entry x : is_some x = true -> x = Some (sc_entry x).
Proof. destruct x; [reflexivity|discriminate]. Qed.
Lemma rn_answers fk : rn_accepted fk = (Some None, Some (Writes 0), (true, Some (true, s2b "f")), TookMain 50 (rn_d fk), (false, 1%nat, true)) ->
  answers rn_sv toy rn_sg rn_fg 0 true rn_st0 50 (rn_d fk) (s2b "f") (rn_st1 fk) (Writes 0) (rn_e fk) (rn_w fk).
Proof.
  unfold rn_accepted. intros H. apply pair5_inv in H as (H1 & H2 & H3 & H4 & H5). apply pair_inv in H3 as [H3 H6]. apply pair3_inv in H5 as (H7 & H8 & H9).
  exists (rn_i fk), (rn_f1 fk), (Some None), (rn_s1 fk), (rn_o1 fk). split; [reflexivity|]. split; [intros n X; discriminate X|]. split; [reflexivity|].
  split; [exact H6|]. split; [exact (triple _ _ _ H1 H2)|]. split; [split; [exact H4|exact (wc_got _ H3)]|].
  split; [apply one_reply; unfold rn_w in H7; rewrite H7, H8; reflexivity|]. split; [exact (some_entry _ H9)|reflexivity].
Qed.
Definition rn_q (g : run_cfg) (write : bool) (size : N) (ex : exts) (w : bytes) : option qdone :=
  match query_step toy rn_cc write true (rn_o size) ex false (ru_txt g) (takeN 516 w) with QDone q => Some q | _ => None end.
Definition rn_qd (x : option qdone) : qdone := match x with Some q => q | None => mkQ None false (rn_o 0) None end.
Definition rn_k (g : run_cfg) (write : bool) (size : N) (ex : exts) (w : bytes) : cside := agreed g (rn_wc g write size) None (rn_qd (rn_q g write size ex w)).
Lemma rn_agrees g fk local remote write size ex w : g = rn_g fk local remote -> option_map q_ack (rn_q g write size ex w) = Some true ->
  agrees g (rn_wc g write size) None write ex w (rn_k g write size ex w).
Proof.
  intros -> H. unfold rn_k. destruct (rn_q _ _ _ _ _) as [q|] eqn:E; [|discriminate]. injection H as H. unfold rn_q in E.
  exists (takeN 516 w), q, false. split; [reflexivity|]. split; [|split; [left; exact H|reflexivity]].
  change (query_step toy rn_cc write true (rn_o size) ex false (ru_txt (rn_g fk local remote)) (takeN 516 w) = QDone q).
  destruct (query_step _ _ _ _ _ _ _ _ _); try discriminate. injection E as <-. reflexivity.
Qed.
Lemma rn_own_port fk local remote wc write ex ign : answers_at (rn_g fk local remote) wc write ex ign rn_peer.
Proof. split; [reflexivity|discriminate]. Qed.
(** The server while it stores, and while it has stored. *)
Definition opt_eqb (x y : option N) : bool := match x, y with Some a, Some b => a =? b | None, None => true | _, _ => false end.
Definition sexec_ (a : ServerModel.addr) (id : N) (name : bytes) (st : disk sstate) (x : dev) : option (took * disk sstate * outs) :=
  match x with DOther _ => None | _ =>
  match aexec toy rn_sg rn_fg 0 a id st x with
  | Some (t, st', o) => if opt_eqb (leads (dk_fs st') rn_fg name) (leads (dk_fs st) rn_fg name) then Some (t, st', o) else None
  | None => None
  end end.
Definition texec (id : N) (name : bytes) (st : disk sstate) (x : dev) : option (took * disk sstate * outs) :=
  match dexec toy rn_sg rn_fg 0 st x with
  | Some (t, st', o) => if beq (f_data (dk_fs st') id) (f_data (dk_fs st) id) && opt_eqb (leads (dk_fs st') rn_fg name) (leads (dk_fs st) rn_fg name) then Some (t, st', o) else None
  | None => None
  end.
Lemma lead_eq x y : opt_eqb x y = true -> x = y.
Proof. destruct x, y; cbn; try discriminate; [|reflexivity]. intros H. apply N.eqb_eq in H as ->. reflexivity. Qed.
Lemma sexec_ok_ a id name st x t st' o : sexec_ a id name st x = Some (t, st', o) -> stores rn_sv toy rn_sg rn_fg 0 a id name st t st' o.
Proof.
  intros H. assert (X : match aexec toy rn_sg rn_fg 0 a id st x with
    | Some (t, st', o) => if opt_eqb (leads (dk_fs st') rn_fg name) (leads (dk_fs st) rn_fg name) then Some (t, st', o) else None
    | None => None end = Some (t, st', o)) by (destruct x; [exact H|exact H|discriminate H]). clear H. revert X.
  destruct (aexec _ _ _ _ _ _ _ _) as [[[t1 s1] o1]|] eqn:E; [|discriminate]. destruct (opt_eqb _ _) eqn:B; [|discriminate].
  intros [= <- <- <-]. split; [eapply aexec_ok; exact E|apply lead_eq; exact B].
Qed.
Lemma sexec_own a id name st x t st' o : sexec_ a id name st x = Some (t, st', o) -> dkstep rn_sv toy rn_sg rn_fg 0 st t st' o.
Proof.
  intros H. apply (dexec_step toy rn_sg rn_fg 0 st x). destruct x as [i|i|f]; [| |discriminate H]; unfold sexec_, aexec in H; cbn [dexec] in H;
    destruct (dexec_own _ _ _ _ _ _) as [[[t1 s1] o1]|]; try discriminate H; destruct (_ && _)%bool; try discriminate H; destruct (opt_eqb _ _); try discriminate H; exact H.
Qed.
Lemma texec_ok id name st x t st' o : texec id name st x = Some (t, st', o) -> tended rn_sv toy rn_sg rn_fg 0 id name st t st' o.
Proof.
  unfold texec. destruct (dexec _ _ _ _ _ _) as [[[t1 s1] o1]|] eqn:E; [|discriminate]. destruct (_ && _)%bool eqn:B; [|discriminate].
  intros [= <- <- <-]. apply Bool.andb_true_iff in B as [B1 B2]. split; [eapply dexec_any; exact E|]. split; [apply beq_eq; exact B1|apply lead_eq; exact B2].
Qed.
Definition rn_ks (fk : option bytes) : cside := rn_k (rn_gs fk) true (rn_size fk) (rn_ex fk) (rn_w fk).
Definition rn_stored (fk : option bytes) : bytes := read_as (rn_gs fk) rn_file 512.
Definition rn_n (fk : option bytes) : N := nblocks (rn_stored fk) 512.
Definition rn_from (b : ServerModel.addr) (now : N) (d : bytes) : dev := DRecv (dc_from now b d).
Definition rn_idle (now : N) : dev := DRecv (wc_in now wc_quiet MWouldBlock).
Definition rn_W0 (fk : option bytes) : @sworld (disk sstate) := mkSW_ (rn_st1 fk) false [] rn_a (rn_sp fk) [] [] 0 0.
Definition rn_W (fk : option bytes) : @sworld (disk sstate) :=
  sw_final (dview rn_sv) (sexec_ 50 0 (s2b "f")) (rn_gs fk) (rn_wc (rn_gs fk) true (rn_size fk)) None 50 rn_peer (rn_w fk) (rn_n fk) (rn_W0 fk)
    [EClient (Some 0%nat) 30; EClient None 31; EServer (rn_from 50 32) 0; EDo (rn_idle 33); EClient (Some 0%nat) 34; EClient None 35; EServer (rn_from 50 36) 0;
     EClient (Some 0%nat) 37].

(** *** The server is restarted; the command [receive] *)
Definition rn_st2 (fk : option bytes) : disk sstate := mkDk (s_init 100) (dk_fs (sv_srv (rn_W fk))) (fun _ => None).
Definition rn_gr (fk : option bytes) : run_cfg := rn_g fk (s2b "/b") (s2b ".//f").
Definition rn_wr (fk : option bytes) : wcfg := rn_wc (rn_gr fk) false 0.
Definition rn_rp (fk : option bytes) : rprog := receive_run (rn_gr fk) (rn_wr fk) None (mkRP rn_b (RAsk (wait_init (rn_wr fk) rn_e0 0))) [mkRin RvBlock 5 false None true []].
Lemma rn_receive_waiting fk : receive_waiting (rn_gr fk) rn_b (rn_wr fk) None rn_e0 (rn_rp fk).
Proof.
  split; [exact (rn_ask0 fk (s2b "/b") (s2b ".//f") false)|]. exists 0, [mkRin RvBlock 5 false None true []]. split; [repeat constructor|reflexivity].
Qed.
Definition rn_d2 (fk : option bytes) : bytes := asking (rn_gr fk) false rn_e0.
Lemma rn_request2 fk : request_of (rn_gr fk) (rn_wr fk) false rn_e0 (rn_d2 fk).
Proof. exists (repeat 1 24). split; reflexivity. Qed.
Definition rn_i2 (fk : option bytes) : input := dc_ask 120 60 (rn_d2 fk).
Definition rn_or2 (fk : option bytes) := open_request toy rn_cfg rn_fg 0 (dk_fs (rn_st2 fk)) (h_eph (i_henv (rn_i2 fk))) (recv_cut rn_sg (rn_d2 fk)).
Definition rn_f2 (fk : option bytes) : fs := fst (fst (rn_or2 fk)).
Definition rn_len (fk : option bytes) : N := match fk with Some _ => 653 | None => 600 end.
Definition rn_step2 (fk : option bytes) := step_recv toy rn_sg (loaded rn_sv (rn_st2 fk)) (with_files (rn_i2 fk) (Some (Some (rn_len fk))) (content (rn_f2 fk) (Some (Reads (SFile 0))))).
Definition rn_s2 (fk : option bytes) : sstate := wc_st (rn_step2 fk).
Definition rn_o2 (fk : option bytes) : outs := wc_out (rn_step2 fk).
Definition rn_w2 (fk : option bytes) : bytes := wc_reply (sent_to 60 (rn_o2 fk)).
Definition rn_e2 (fk : option bytes) : entry := sc_entry (sv_view rn_sv (rn_s2 fk) 60).
Definition rn_st3 (fk : option bytes) : disk sstate :=
  mkDk (rn_s2 fk) (rn_f2 fk) (still_open rn_sv (rn_s2 fk) (fun b => if b =? 60 then Some (Reads (SFile 0)) else None)).
Definition rn_kr (fk : option bytes) : cside := rn_k (rn_gr fk) false 0 rn_e0 (rn_w2 fk).
Definition rn_V0 (fk : option bytes) : @rworld (disk sstate) := mkRW (rn_st3 fk) false (rn_rp fk) [] [] 0 0.
Definition rn_V (fk : option bytes) : @rworld (disk sstate) :=
  rw_final (dview rn_sv) (texec 0 (s2b "f")) (rn_gr fk) (rn_wr fk) None 60 rn_home (rn_w2 fk) (rn_n fk) (rn_V0 fk)
    [EClient None 129; EClient (Some 0%nat) 130; EDo (DSend (wc_in 131 wc_quiet MWouldBlock)); EClient (Some 0%nat) 132; EDo (rn_idle 133); EServer (rn_from 60 133) 1; EDo (rn_idle 133); EServer (rn_from 60 134) 0;
     EDo (DSend (wc_in 135 wc_quiet MWouldBlock)); EClient (Some 0%nat) 136].
(** Everything that is to be seen in the two runs. *)
Definition rn_seen (fk : option bytes) :=
  let W := rn_W fk in let V := rn_V fk in
  (rn_accepted fk, (option_map q_ack (rn_q (rn_gs fk) true (rn_size fk) (rn_ex fk) (rn_w fk)), bs_enc (k_opts (rn_ks fk)), op_window (k_opts (rn_ks fk)), rn_n fk),
   (sv_prog W, f_data (dk_fs (sv_srv W)) 0, snd (fst (rn_or2 fk)), snd (rn_or2 fk), (is_some (rn_step2 fk),
   (file_request toy rn_cfg (h_eph (i_henv (rn_i2 fk))) (recv_cut rn_sg (rn_d2 fk)), taken (loaded rn_sv (rn_st2 fk)) (rn_i2 fk)),
   (beq (rn_w2 fk) [], length (sent_to 60 (rn_o2 fk)), is_some (sv_view rn_sv (rn_s2 fk) 60)), bs_enc (k_opts (rn_kr fk)), op_window (k_opts (rn_kr fk)))),
   option_map q_ack (rn_q (rn_gr fk) false 0 rn_e0 (rn_w2 fk)),
   (rp_ph (rw_prog V), local_file (rp_fs (rw_prog V)) (s2b "/b"), f_data (rp_fs (rw_prog V)) 0, leads (dk_fs (rw_srv V)) rn_fg (s2b "f"))).

Definition rn_expected (fk : option bytes) :=
  ((Some (@None N), Some (Writes 0), (true, Some (true, s2b "f")), TookMain 50 (rn_d fk), (false, 1%nat, true)), (Some true, 512, 1, 2),
   (UDone (rn_len fk) (@None bytes), rn_stored fk, Some (Some (rn_len fk)), Some (Reads (SFile 0)), (true,
   (Some (false, s2b "f"), TookMain 60 (rn_d2 fk)), (false, 1%nat, true), 512, 1)), Some true, (RDone (rn_len fk) None, Some 0, rn_file, Some 0)).
Lemma rn_plain : rn_seen None = rn_expected None.
Proof. vm_compute. reflexivity. Qed.
Lemma rn_sealed : rn_seen (Some rn_fk) = rn_expected (Some rn_fk).
Proof. vm_compute. reflexivity. Qed.

Lemma seen_inv fk : rn_seen fk = rn_expected fk ->
  (rn_accepted fk = (Some None, Some (Writes 0), (true, Some (true, s2b "f")), TookMain 50 (rn_d fk), (false, 1%nat, true)) /\
   option_map q_ack (rn_q (rn_gs fk) true (rn_size fk) (rn_ex fk) (rn_w fk)) = Some true /\ bs_enc (k_opts (rn_ks fk)) = 512 /\ op_window (k_opts (rn_ks fk)) = 1 /\ rn_n fk = 2) /\
  (sv_prog (rn_W fk) = UDone (rn_len fk) None /\ f_data (dk_fs (sv_srv (rn_W fk))) 0 = rn_stored fk) /\
  (snd (fst (rn_or2 fk)) = Some (Some (rn_len fk)) /\ snd (rn_or2 fk) = Some (Reads (SFile 0)) /\ is_some (rn_step2 fk) = true /\
   file_request toy rn_cfg (h_eph (i_henv (rn_i2 fk))) (recv_cut rn_sg (rn_d2 fk)) = Some (false, s2b "f") /\
   taken (loaded rn_sv (rn_st2 fk)) (rn_i2 fk) = TookMain 60 (rn_d2 fk) /\
   beq (rn_w2 fk) [] = false /\ length (sent_to 60 (rn_o2 fk)) = 1%nat /\ is_some (sv_view rn_sv (rn_s2 fk) 60) = true /\
   bs_enc (k_opts (rn_kr fk)) = 512 /\ op_window (k_opts (rn_kr fk)) = 1 /\ option_map q_ack (rn_q (rn_gr fk) false 0 rn_e0 (rn_w2 fk)) = Some true) /\
  (rp_ph (rw_prog (rn_V fk)) = RDone (rn_len fk) None /\ local_file (rp_fs (rw_prog (rn_V fk))) (s2b "/b") = Some 0 /\
   f_data (rp_fs (rw_prog (rn_V fk))) 0 = rn_file /\ leads (dk_fs (rw_srv (rn_V fk))) rn_fg (s2b "f") = Some 0).
Proof.
  unfold rn_seen, rn_expected. cbn zeta. intros H. apply pair5_inv in H as (H1 & H2 & H3 & H4 & H5).
  apply pair4_inv in H2 as (H6 & H7 & H8 & H9). apply pair5_inv in H3 as (H10 & H11 & H12 & H13 & H14).
  apply pair5_inv in H14 as (H15 & H16 & H17 & H18 & H19). apply pair_inv in H16 as [H20 H21]. apply pair3_inv in H17 as (H22 & H23 & H24).
  apply pair4_inv in H5 as (H25 & H26 & H27 & H28).
  repeat split; assumption.
Qed.

(** *** The hypotheses *)
(** The second answer comes from the port the command was given, where a repeated request is left aside. *)
Lemma rn_e2_clear fk : is_some (sv_view rn_sv (rn_s2 fk) 60) = true -> en_key (rn_e2 fk) = None.
Proof. intros _. destruct fk; vm_compute; reflexivity. Qed.
Lemma rn_same_port fk : is_some (sv_view rn_sv (rn_s2 fk) 60) = true ->
  answers_at (rn_gr fk) (rn_wr fk) false rn_e0 (fun y => ignored toy (c_opts (en_conn (rn_e2 fk))) (en_key (rn_e2 fk)) (recv_cut rn_sg y)) rn_home.
Proof.
  intros V. split; [reflexivity|]. intros _ d R. apply (repeated_request_ignored _ _ _ _ _ _ _ _ R); [unfold MIN_BUFFER_SIZE; lia|left; reflexivity|left; exact (rn_e2_clear fk V)].
Qed.
Lemma rn_st2_consistent fk : rn_seen fk = rn_expected fk -> consistent (dk_fs (rn_st2 fk)).
Proof.
  intros H. destruct (seen_inv _ H) as ((HA & _) & _). pose proof (rn_answers _ HA) as (i & f' & q & s1 & o & _ & _ & LK & FR & OR & MN & SO & V & E1).
  assert (C1 : consistent (dk_fs (rn_st1 fk))).
  { apply (consistent_step toy rn_sg rn_fg 0 rn_sv rn_st0 (TookMain 50 (rn_d fk)) (rn_st1 fk) o); [rewrite E1; eapply dk_ask; eassumption|exact rn_consistent0]. }
  unfold rn_st2. rewrite mk_fs. clear - C1. unfold rn_W.
  match goal with |- context [sw_final ?v ?x ?g ?wc ?k ?a ?p ?w ?n ?W0 ?l] =>
    pose proof (sw_final_reach (dkstep rn_sv toy rn_sg rn_fg 0) v x (sexec_own 50 0 (s2b "f")) g wc k a p w (SFile 0) n W0 l) as R;
    set (W := sw_final v x g wc k a p w n W0 l) in * end. clearbody W.
  assert (C0 : consistent (dk_fs (sv_srv (rn_W0 fk)))) by exact C1. clear C1.
  induction R as [|X Y R IH ST]; [exact C0|]. destruct ST; cbn [sv_srv] in *; try exact IH;
    (eapply (consistent_step toy rn_sg rn_fg 0 rn_sv); eassumption).
Qed.
Lemma rn_answers2 fk : rn_seen fk = rn_expected fk ->
  answers rn_sv toy rn_sg rn_fg 0 false (rn_st2 fk) 60 (rn_d2 fk) (s2b "f") (rn_st3 fk) (Reads (SFile 0)) (rn_e2 fk) (rn_w2 fk).
Proof.
  intros H. destruct (seen_inv _ H) as (_ & _ & (H1 & H2 & H3 & H4 & H5 & H6 & H7 & H8 & _) & _).
  exists (rn_i2 fk), (rn_f2 fk), (Some (Some (rn_len fk))), (rn_s2 fk), (rn_o2 fk). split; [reflexivity|].
  split; [intros n [= <-]; destruct fk; unfold rn_len, U64_MAX; lia|]. split; [reflexivity|].
  split; [exact H4|]. split; [exact (triple _ _ _ H1 H2)|]. split; [split; [exact H5|exact (wc_got _ H3)]|].
  split; [apply one_reply; unfold rn_w2 in H6; rewrite H6, H7; reflexivity|]. split; [exact (some_entry _ H8)|reflexivity].
Qed.
Lemma rn_short fk : blen (rn_d fk) <= 516 /\ blen (rn_d2 fk) <= 516.
Proof. destruct fk; vm_compute; split; discriminate. Qed.
Lemma rn_good s : s = s2b "./f" \/ s = s2b ".//f" -> good_string s.
Proof. intros [-> | ->]; vm_compute; repeat split; try lia; repeat constructor; lia. Qed.
Lemma rn_understood1 fk : understood (rn_gs fk) (rn_wc (rn_gs fk) true (rn_size fk)) rn_cfg (rn_d fk).
Proof. apply (rn_understood (rn_gs fk) fk (s2b "/a") (s2b "./f")); [reflexivity|apply rn_good; auto|exact (proj1 (rn_short fk))]. Qed.
Lemma rn_understood2 fk : understood (rn_gr fk) (rn_wr fk) rn_cfg (rn_d2 fk).
Proof. apply (rn_understood (rn_gr fk) fk (s2b "/b") (s2b ".//f")); [reflexivity|apply rn_good; auto|exact (proj2 (rn_short fk))]. Qed.
Lemma rn_W_reach fk n : n = rn_n fk ->
  swreach (stores rn_sv toy rn_sg rn_fg 0 50 0 (s2b "f")) (dview rn_sv) (rn_gs fk) (rn_wc (rn_gs fk) true (rn_size fk)) None 50 rn_peer (rn_w fk) (SFile 0) n (rn_W0 fk) (rn_W fk).
Proof. intros ->. unfold rn_W. apply (sw_final_reach _ _ _ (sexec_ok_ 50 0 (s2b "f"))). Qed.
Lemma rn_V_reach fk n : n = rn_n fk ->
  rwreach (tended rn_sv toy rn_sg rn_fg 0 0 (s2b "f")) (dview rn_sv) (rn_gr fk) (rn_wr fk) None 60 rn_home (rn_w2 fk) n (rn_V0 fk) (rn_V fk).
Proof. intros ->. unfold rn_V. apply (rw_final_reach _ _ _ (texec_ok 0 (s2b "f"))). Qed.
Lemma rn_later fk : later rn_init (tended rn_sv toy rn_sg rn_fg 0 0 (s2b "f")) (sv_srv (rn_W fk)) (rn_st2 fk).
Proof. unfold rn_st2. apply later_restart; [apply later_now|exists 100; reflexivity]. Qed.

(** *** The file that was sent is received, through the theorem *)
Example sent_then_received_applies :
  sv_prog (rn_W None) = UDone 600 None /\ rp_ph (rw_prog (rn_V None)) = RDone 600 None /\
  exists lid, local_file (rp_fs (rw_prog (rn_V None))) (s2b "/b") = Some lid /\ f_data (rp_fs (rw_prog (rn_V None))) lid = rn_file.
Proof.
  destruct (seen_inv None rn_plain) as ((A1 & A2 & A3 & A4 & A5) & (B1 & B2) & (C1 & C2 & C3 & C4 & C5 & C6 & C7 & C8 & C9 & C10 & C11) & (D1 & D2 & D3 & D4)).
  split; [exact B1|]. split; [exact D1|].
  refine (proj2 (sent_then_received (rn_gs None) (rn_gr None) rn_sg rn_fg 0 sstate rn_sv rn_init (fun _ d => recv_cut rn_sg d) rn_st0 50 (rn_d None) (s2b "f") 0 (rn_st1 None)
    (rn_e None) (rn_w None) (rn_ks None) (rn_wc (rn_gs None) true 600) None rn_e1 rn_a (SFile 0) (rn_sp None) rn_peer [] [] (rn_W None) 600 None
    (rn_st2 None) 60 (rn_d2 None) (rn_st3 None) (Reads (SFile 0)) (rn_e2 None) (rn_w2 None) (rn_kr None) (rn_wr None) None rn_e0 rn_b (rn_rp None) rn_home [] [] (rn_V None)
    _ _ _ _ _ _ _ _ _ _ _ _ _ _ _ _ _ _ _ _ _ _ _ _ _ _ _ _ _ _ _ _ _ 600 None D1)).
  - apply one_single.
  - exact toy_ok.
  - vm_compute. discriminate.
  - vm_compute. discriminate.
  - exact rn_reach0.
  - exact rn_consistent0.
  - exact (rn_send_waiting None).
  - exact (rn_request None).
  - exact (rn_understood1 None).
  - exact (rn_answers None A1).
  - exact (rn_agrees (rn_gs None) None (s2b "/a") (s2b "./f") true 600 rn_e1 (rn_w None) eq_refl A2).
  - apply rn_own_port.
  - reflexivity.
  - right. rewrite A4. lia.
  - constructor.
  - constructor.
  - apply (rn_W_reach None). rewrite A3. reflexivity.
  - exact B1.
  - exact (rn_later None).
  - exact (rn_st2_consistent None rn_plain).
  - reflexivity.
  - reflexivity.
  - exact (rn_receive_waiting None).
  - exact (rn_request2 None).
  - exact (rn_understood2 None).
  - exact (rn_answers2 None rn_plain).
  - exact (rn_agrees (rn_gr None) None (s2b "/b") (s2b ".//f") false 0 rn_e0 (rn_w2 None) eq_refl C11).
  - exact (rn_same_port None C8).
  - reflexivity.
  - right. rewrite C10. lia.
  - constructor.
  - constructor.
  - apply (rn_V_reach None). rewrite C9. reflexivity.
Qed.

(** The same with an encrypted file: the server has had 653 bytes that are not the file. *)
Lemma rn_seal_reads : reads toy rn_file 512 (sr_new rn_fk (ru_iv (rn_gs (Some rn_fk)))) (blocks_of (rn_stored (Some rn_fk)) 512).
Proof.
  assert (HL : 37 <= 512 <= 1425) by lia. assert (HM : (blen rn_file + 21) / (512 - 16) <= 4294967295) by (vm_compute; discriminate).
  destruct (file_encryption_transparent toy rn_fk (ru_iv (rn_gs (Some rn_fk))) rn_file 512 toy_ok eq_refl HL HM) as (stored & R & _).
  unfold rn_stored. rewrite (read_as_stored (rn_gs (Some rn_fk)) rn_fk rn_file 512 stored eq_refl toy_ok eq_refl HL HM R). exact R.
Qed.
Example sent_then_received_encrypted_applies : let fk := Some rn_fk in
  sv_prog (rn_W fk) = UDone 653 None /\ rp_ph (rw_prog (rn_V fk)) = RDone 653 None /\ blen (f_data (dk_fs (sv_srv (rn_W fk))) 0) = 653 /\
  exists lid, local_file (rp_fs (rw_prog (rn_V fk))) (s2b "/b") = Some lid /\ f_data (rp_fs (rw_prog (rn_V fk))) lid = rn_file.
Proof.
  cbn zeta. set (fk := Some rn_fk).
  destruct (seen_inv fk rn_sealed) as ((A1 & A2 & A3 & A4 & A5) & (B1 & B2) & (C1 & C2 & C3 & C4 & C5 & C6 & C7 & C8 & C9 & C10 & C11) & (D1 & D2 & D3 & D4)).
  split; [exact B1|]. split; [exact D1|]. split; [rewrite B2; vm_compute; reflexivity|].
  refine (proj2 (sent_then_received_encrypted (rn_gs fk) (rn_gr fk) rn_sg rn_fg 0 sstate rn_sv rn_init (fun _ d => recv_cut rn_sg d) rn_st0 50 (rn_d fk) (s2b "f") 0 (rn_st1 fk)
    (rn_e fk) (rn_w fk) (rn_ks fk) (rn_wc (rn_gs fk) true 0) None rn_e0 rn_a (SFile 0) (rn_sp fk) rn_peer [] [] (rn_W fk) 653 None rn_fk (rn_stored fk)
    (rn_st2 fk) 60 (rn_d2 fk) (rn_st3 fk) (Reads (SFile 0)) (rn_e2 fk) (rn_w2 fk) (rn_kr fk) (rn_wr fk) None rn_e0 rn_b (rn_rp fk) rn_home [] [] (rn_V fk)
    _ _ _ _ _ _ _ _ _ _ _ _ _ _ _ _ _ _ _ _ _ _ _ _ _ _ _ _ _ _ _ _ _ _ _ _ _ 653 None D1)).
  - apply one_single.
  - exact toy_ok.
  - vm_compute. discriminate.
  - vm_compute. discriminate.
  - exact rn_reach0.
  - exact rn_consistent0.
  - exact (rn_send_waiting fk).
  - exact (rn_request fk).
  - exact (rn_understood1 fk).
  - exact (rn_answers fk A1).
  - exact (rn_agrees (rn_gs fk) fk (s2b "/a") (s2b "./f") true 0 rn_e0 (rn_w fk) eq_refl A2).
  - apply rn_own_port.
  - reflexivity.
  - reflexivity.
  - rewrite A3. vm_compute. discriminate.
  - rewrite A3. exact rn_seal_reads.
  - right. rewrite A4. lia.
  - constructor.
  - constructor.
  - apply (rn_W_reach fk). rewrite A3. reflexivity.
  - exact B1.
  - exact (rn_later fk).
  - exact (rn_st2_consistent fk rn_sealed).
  - reflexivity.
  - reflexivity.
  - exact (rn_receive_waiting fk).
  - exact (rn_request2 fk).
  - exact (rn_understood2 fk).
  - exact (rn_answers2 fk rn_sealed).
  - exact (rn_agrees (rn_gr fk) fk (s2b "/b") (s2b ".//f") false 0 rn_e0 (rn_w2 fk) eq_refl C11).
  - exact (rn_same_port fk C8).
  - reflexivity.
  - rewrite A3, C9. reflexivity.
  - right. rewrite C10. lia.
  - constructor.
  - constructor.
  - apply (rn_V_reach fk). rewrite A3. reflexivity.
Qed.

(** *** C71 *)
(** A run in which another host also answers; the local path leads to a file of 3 bytes. *)
Definition rl_in (e : rev_) (now : N) : rin := mkRin e now false None true [].
Definition rl_other : CliModel.addr := CliModel.mkAddr false (s2b "x") 4000.
Definition rl_w : bytes := Eval vm_compute in rn_w2 None.
Definition rl_p0 (f : fs) (g : run_cfg) : rprog := mkRP f (RAsk (wait_init (rn_wc g false 0) rn_e0 0)).
Definition rl_1 : list rin := [rl_in RvBlock 5; rl_in (RvFrom rl_other rl_w) 6; rl_in (RvFrom rn_peer rl_w) 7].
Definition rl_2 : list rin :=
  [rl_in (RvFrom rn_peer (to_bytes (PData 1 (repeat 7 512)))) 8; rl_in (RvFrom rl_other (to_bytes (PData 2 [1]))) 9; rl_in (RvFrom rn_peer (to_bytes (PData 2 (repeat 7 88)))) 10].
Definition rl_p (l : list rin) : rprog := receive_run (rn_gr None) (rn_wr None) None (rl_p0 rn_b (rn_gr None)) l.
Definition rl_is_get (p : rprog) : bool := match rp_ph p with RGet _ _ _ _ _ => true | _ => false end.
(** Nothing happens before the right host answers; then the file is emptied, and in the end it is received. *)
Example receive_is_local_case :
  f_data (rp_fs (rl_p (firstn 2 rl_1))) 0 = [1; 2; 3] /\ rl_is_get (rl_p rl_1) = true /\ f_data (rp_fs (rl_p rl_1)) 0 = [] /\
  rp_ph (rl_p (rl_1 ++ rl_2)) = RDone 600 None /\ f_data (rp_fs (rl_p (rl_1 ++ rl_2))) 0 = rn_file /\
  length (receive_sent (rn_gr None) (rn_wr None) None (rl_p0 rn_b (rn_gr None)) (rl_1 ++ rl_2)) = 6%nat.
Proof. vm_compute. repeat split; reflexivity. Qed.
(** Where there is no file one is created. *)
Example receive_creates_case :
  let p := receive_run (rn_gr None) (rn_wr None) None (rl_p0 rn_srv (rn_gr None)) (rl_1 ++ rl_2) in
  local_file rn_srv (s2b "/b") = None /\ local_file (rp_fs p) (s2b "/b") = Some 0 /\ f_data (rp_fs p) 0 = rn_file.
Proof. vm_compute. repeat split; reflexivity. Qed.
Example receive_reports_size_applies : exists id,
  local_file (rp_fs (rl_p (rl_1 ++ rl_2))) (s2b "/b") = Some id /\ 600 = blen (f_data (rp_fs (rl_p (rl_1 ++ rl_2))) id) /\ 600 <= 100000.
Proof.
  destruct (rp_ph (rl_p rl_1)) as [|k from key s st| |] eqn:E; try (exfalso; pose proof (proj1 (proj2 receive_is_local_case)) as X; unfold rl_is_get in X; rewrite E in X; discriminate X).
  pose proof (receive_reports_size (rn_gr None) (rn_wr None) None rn_b rn_e0 0 rl_1 rl_2 k from key s st eq_refl) as H. cbn zeta in H.
  specialize (H ltac:(repeat constructor) E). fold (rl_p0 rn_b (rn_gr None)) in H.
  assert (A : receive_run (rn_gr None) (rn_wr None) None (receive_run (rn_gr None) (rn_wr None) None (rl_p0 rn_b (rn_gr None)) rl_1) rl_2 = rl_p (rl_1 ++ rl_2))
    by (unfold rl_p, receive_run; rewrite fold_left_app; reflexivity).
  change (mkRP rn_b (RAsk (wait_init (rn_wr None) rn_e0 0))) with (rl_p0 rn_b (rn_gr None)) in H. rewrite A in H.
  rewrite (proj1 (proj2 (proj2 (proj2 receive_is_local_case)))) in H. exact H.
Qed.
(** With a limit of 500 bytes the command fails, and the older file is gone. *)
Definition rl_g : run_cfg :=
  mkRun toy (CliModel.mkCS rn_home rn_home 5000 500 rn_cc false None (s2b "/b") (s2b ".//f") (rn_o 0)) [1; 2] [3; 4] (repeat 6 19) (fun _ => []).
Definition rl_f1 : fs := Eval cbv [create_writer] in fst (create_writer rn_b (s2b "/b")).
Definition rl_ask : wstate := wait_init (rn_wc rl_g false 0) rn_e0 0.
Example oversized_applies :
  let p' := fst (receive_turn rl_g (rn_wc rl_g false 0) None (mkRP rn_b (RAsk rl_ask)) (rl_in (RvFrom rn_peer rl_w) 7)) in
  f_data rn_b 0 = [1; 2; 3] /\ rp_ph p' = RFailed /\ local_file (rp_fs p') (s2b "/b") = Some 0 /\ f_data (rp_fs p') 0 = [].
Proof.
  cbn zeta. split; [reflexivity|].
  destruct (create_writer rn_b (s2b "/b")) as [f1 o] eqn:CW. assert (o = Some 0) as -> by (change o with (snd (f1, o)); rewrite <- CW; reflexivity).
  destruct (rn_q rl_g false 0 rn_e0 rl_w) as [q|] eqn:EQ; [|exfalso; revert EQ; vm_compute; discriminate].
  refine (oversized_answer_empties_local_file rl_g (rn_wc rl_g false 0) None rn_e0 rn_b rl_ask (rl_in (RvFrom rn_peer rl_w) 7) rn_peer rl_w 600 0 f1
    eq_refl eq_refl eq_refl eq_refl eq_refl eq_refl eq_refl eq_refl eq_refl _ _ CW eq_refl); [|reflexivity].
  exists (takeN 516 rl_w), q. split; [reflexivity|].
  assert (X : option_map q_ack (rn_q rl_g false 0 rn_e0 rl_w) = Some true /\ option_map (fun q => op_size (q_opts q)) (rn_q rl_g false 0 rn_e0 rl_w) = Some (Some 600)) by (vm_compute; split; reflexivity).
  rewrite EQ in X. destruct X as [X1 X2]. injection X1 as X1. injection X2 as X2. split; [|split; assumption].
  unfold rn_q in EQ. change (query_step toy rn_cc false true (rn_o 0) rn_e0 false (ru_txt rl_g) (takeN 516 rl_w) = QDone q).
  destruct (query_step _ _ _ _ _ _ _ _ _); try discriminate. injection EQ as <-. reflexivity.
Qed.
Example send_is_local_case :
  length (send_sent (rn_gs None) (rn_wc (rn_gs None) true 600) None rn_a (UAsk (SFile 0) (wait_init (rn_wc (rn_gs None) true 600) rn_e1 0))
    [mkSin false IoOk (Some true) RvBlock 1; mkSin false IoOk (Some true) (RvFrom rl_other (rn_w None)) 2; mkSin false IoOk (Some true) (RvFrom rn_peer (rn_w None)) 3; mkSin false IoOk (Some true) RvBlock 4]) = 5%nat /\
  create_reader rn_a (s2b "/zz") = None.
Proof. vm_compute. split; reflexivity. Qed.

Print Assumptions received_file.
Print Assumptions sent_file.
Print Assumptions sent_then_received.
Print Assumptions sent_encrypted.
Print Assumptions received_decrypted.
Print Assumptions sent_then_received_encrypted.
Print Assumptions receive_is_local.
Print Assumptions send_is_local.
Print Assumptions receive_reports_size.
Print Assumptions oversized_answer_empties_local_file.
Print Assumptions sent_then_received_applies.
Print Assumptions sent_then_received_encrypted_applies.
