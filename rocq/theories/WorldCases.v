(** Concrete worlds: two clients of a server that requires full encryption and authorised keys;
    one of them downloads a file of two blocks, which arrive in the wrong order, and one uploads. *)
From Verif Require Import Base BaseProofs PacketModel PacketSpec MapperModel ReaderModel ReaderSpec ConfigModel Base64Model CryptoModel CryptoSpec CryptoProofs ExtModel ExtSpec
  PathModel ConnModel ClientModel ConnSpec HandshakeModel PropCrypto PropExt PropHandshake AgreeProofs PropAgree SystemModel
  ServerModel ServerSpec ServerProofs PropServer WorldModel WorldProofs WorldB PropWorld.

(** ** Running worlds *)
Definition wc_nonce : bytes := repeat 1 24.
Definition sealed_all {A} (f : A -> option dgram) (l : list A) : option (list dgram) :=
  fold_right (fun x r => match f x, r with Some y, Some r => Some (y :: r) | _, _ => None end) (Some []) l.
Lemma sealed_all_ok {A} (f : A -> option dgram) (R : A -> dgram -> Prop) l r :
  (forall x y, f x = Some y -> R x y) -> sealed_all f l = Some r -> Forall2 R l r.
Proof.
  intros H. revert r. induction l as [|x l IH]; cbn; intros r E; [injection E as <-; constructor|].
  destruct (f x) as [y|] eqn:EF; [|discriminate]. destruct (fold_right _ _ l) as [r0|] eqn:ER; [|discriminate].
  injection E as <-. constructor; [auto|]. apply IH. exact ER.
Qed.
Definition fits (p : bytes) : bool := has_type T_DATA p || (blen p <=? MIN_BUFFER_SIZE).
Lemma fits_short p : fits p = true -> short p.
Proof. unfold fits, short. intros H E. rewrite E in H. apply N.leb_le. exact H. Qed.
Definition seal_server (c : crypto) (e : entry) (i : N) (x : out) : option dgram :=
  match x with
  | OPlain p => if fits p then match server_encrypt c (c_opts (en_conn e)) (en_key e) (has_type T_DATA p) wc_nonce p with
                               | Ok w => Some (w, ghost p i) | _ => None end else None
  | OWire _ => None
  end.
Lemma seal_server_ok c e i o new : sealed_all (seal_server c e i) o = Some new -> server_sealed c e i o new.
Proof.
  intros H. unfold server_sealed. eapply sealed_all_ok; [|exact H]. intros [p|d] y E; cbn in E; [|discriminate].
  destruct (fits p) eqn:F; [|discriminate]. destruct (server_encrypt _ _ _ _ _ _) as [w| |] eqn:EE; try discriminate. injection E as <-.
  split; [apply fits_short; exact F|]. split; [reflexivity|]. exists wc_nonce. split; [reflexivity|exact EE].
Qed.
Definition seal_client (c : crypto) (s : csock) (i : N) (p : bytes) : option dgram :=
  if fits p then match client_send c s wc_nonce p with Ok w => Some (w, ghost p i) | _ => None end else None.
Lemma seal_client_ok c s i o new : sealed_all (seal_client c s i) o = Some new -> client_sealed c s i o new.
Proof.
  intros H. unfold client_sealed. eapply sealed_all_ok; [|exact H]. intros p y E. unfold seal_client in E.
  destruct (fits p) eqn:F; [|discriminate]. destruct (client_send _ _ _ _) as [w| |] eqn:EE; try discriminate. injection E as <-.
  split; [apply fits_short; exact F|]. split; [reflexivity|]. exists wc_nonce. split; [reflexivity|exact EE].
Qed.

Section Run.
Context {S E : Type} (step : S -> took -> S -> outs -> Prop) (view : S -> addr -> option entry)
  (exec : S -> E -> option (took * S * outs)).
Hypothesis exec_ok : forall s x t s' o, exec s x = Some (t, s', o) -> step s t s' o.
Variables (c : crypto) (a : addr) (k : cside).
(** Events: the server does something; it receives the [j]-th datagram sent to it; the client
    receives the [j]-th datagram sent to it; it sends. *)
Inductive wev := WDo (x : E) | WServer (x : bytes -> E) (j : nat) | WClient (j : nat) (v : env) | WClientSends.
Definition fresh_b (seen : N) (y : dgram) : bool := match snd y with Some m => seen <=? m + 10000 | None => true end.
Lemma fresh_check n seen (y : dgram) : fresh_b seen y = true -> fresh_enough n seen y.
Proof. unfold fresh_enough, fresh_b. destruct (snd y) as [m|]; [|auto]. intros H. right. apply N.leb_le. exact H. Qed.
Definition own_b (t : took) (y : dgram) : bool :=
  match t with TookClient b d v => (b =? a) && beq d (fst y) && match e_short v with None => true | Some _ => false end | _ => false end.
Lemma own_check t y : own_b t y = true -> exists v, t = TookClient a (fst y) v /\ e_short v = None.
Proof.
  unfold own_b. destruct t as [|b d v|b d]; try discriminate. intros H. apply Bool.andb_true_iff in H as [H SH]. apply Bool.andb_true_iff in H as [H1 H2].
  apply N.eqb_eq in H1 as ->. apply beq_eq in H2 as ->. exists v. destruct (e_short v); [discriminate|auto].
Qed.
(** The server's part of an event: what it took, its new state, its new datagrams. *)
Definition srv_do (s : S) (x : E) : option (took * S * list dgram) :=
  match view s a, exec s x with
  | Some e, Some (t, s', o) =>
      match sealed_all (seal_server c e (entry_mark (view s' a))) (sent_to a o) with
      | Some new => Some (t, s', new)
      | None => None
      end
  | _, _ => None
  end.
Lemma srv_do_ok s x t s' new : srv_do s x = Some (t, s', new) ->
  exists e o, view s a = Some e /\ step s t s' o /\ server_sealed c e (entry_mark (view s' a)) (sent_to a o) new.
Proof.
  unfold srv_do. destruct (view s a) as [e|] eqn:V; [|discriminate]. destruct (exec s x) as [[[t0 s0] o]|] eqn:EX; [|discriminate].
  destruct (sealed_all _ _) as [new0|] eqn:SL; [|discriminate]. intros [= <- <- <-]. exists e, o.
  split; [reflexivity|]. split; [apply (exec_ok _ _ _ _ _ EX)|apply seal_server_ok; exact SL].
Qed.
Definition dw_do (n : N) (W : @dworld S) (x : wev) : option (@dworld S) :=
  match x with
  | WDo x =>
      if dw_over W then None else
      match srv_do (dw_srv W) x with
      | Some (t, s', new) =>
          if hears a t then None
          else Some (mkDW s' (ended (view s' a)) (dw_cl W) (dw_stat W) (new ++ dw_down W) (dw_up W) (dw_sc W) (dw_ss W))
      | None => None
      end
  | WServer x j =>
      if dw_over W then None else
      match nth_error (dw_up W) j with
      | Some y =>
          match srv_do (dw_srv W) (x (fst y)) with
          | Some (t, s', new) =>
              if own_b t y && fresh_b (dw_ss W) y
              then Some (mkDW s' (ended (view s' a)) (dw_cl W) (dw_stat W) (new ++ dw_down W) (dw_up W) (dw_sc W) (see (dw_ss W) y))
              else None
          | None => None
          end
      | None => None
      end
  | WClient j v =>
      match dw_stat W, nth_error (dw_down W) j, e_short v with
      | CRun, Some y, None =>
          if fresh_b (dw_sc W) y then
            let '(cl', plain, stat') := recv_step (client_dec c (k_sock k) (op_bs (k_opts k))) (k_opts k) (k_max k) (k_timeout k)
              (dw_cl W) (EvDatagram true (fst y)) (e_now v) (e_io v) (e_short v) (e_sock v) (e_txt v) in
            match sealed_all (seal_client c (k_sock k) (w_written (cr_w cl'))) plain with
            | Some new => Some (mkDW (dw_srv W) (dw_over W) cl' stat' (dw_down W) (new ++ dw_up W) (see (dw_sc W) y) (dw_ss W))
            | None => None
            end
          else None
      | _, _, _ => None
      end
  | WClientSends => None
  end.
Lemma dw_do_step n W x W' : dw_do n W x = Some W' -> dwstep step view c a k n W W'.
Proof.
  destruct W as [s over cl stat down up sc ss]. destruct x as [x|x j|j v|]; cbn [dw_do dw_srv dw_over dw_cl dw_stat dw_down dw_up dw_sc dw_ss].
  - destruct over; [discriminate|]. destruct (srv_do s x) as [[[t s'] new]|] eqn:D; [|discriminate].
    destruct (hears a t) eqn:HT; [discriminate|]. intros [= <-].
    destruct (srv_do_ok _ _ _ _ _ D) as (e & o & V & ST & SL). eapply dw_server; eassumption.
  - destruct over; [discriminate|]. destruct (nth_error up j) as [y|] eqn:NT; [|discriminate].
    destruct (srv_do s (x (fst y))) as [[[t s'] new]|] eqn:D; [|discriminate].
    destruct (own_b t y && fresh_b ss y)%bool eqn:CK; [|discriminate]. intros [= <-].
    apply Bool.andb_true_iff in CK as [OB FR]. destruct (own_check _ _ OB) as (v & -> & _).
    destruct (srv_do_ok _ _ _ _ _ D) as (e & o & V & ST & SL).
    eapply dw_server_receives; [exact ST|eapply nth_error_In; exact NT|apply fresh_check; exact FR|exact V|exact SL].
  - destruct stat; try discriminate. destruct (nth_error down j) as [y|] eqn:NT; [|discriminate].
    destruct (e_short v) as [|] eqn:SH; [discriminate|]. destruct (fresh_b sc y) eqn:FR; [|discriminate].
    destruct (recv_step _ _ _ _ _ _ _ _ _ _ _) as [[cl' plain] stat'] eqn:RS. destruct (sealed_all _ _) as [new|] eqn:SL; [|discriminate]. intros [= <-].
    eapply dw_client with (e := EvDatagram true (fst y)) (x := y) (v := v); [exact (conj eq_refl (nth_error_In _ _ NT))|apply fresh_check; exact FR|exact SH| |apply seal_client_ok; exact SL].
    rewrite SH. exact RS.
  - discriminate.
Qed.
Fixpoint dw_run (n : N) (W : @dworld S) (l : list wev) : option (@dworld S) :=
  match l with [] => Some W | x :: l' => match dw_do n W x with Some W' => dw_run n W' l' | None => None end end.
Lemma dw_run_reach n W0 W l W' : dwreach step view c a k n W0 W -> dw_run n W l = Some W' -> dwreach step view c a k n W0 W'.
Proof.
  revert W. induction l as [|x l IH]; cbn [dw_run]; intros W R H; [injection H as <-; exact R|].
  destruct (dw_do n W x) as [W1|] eqn:E1; [|discriminate]. eapply IH; [|exact H]. eapply dwr_step; [exact R|eapply dw_do_step; exact E1].
Qed.
Definition dw_final (n : N) (W0 : @dworld S) (l : list wev) : @dworld S :=
  match dw_run n W0 l with Some W => W | None => W0 end.
Lemma dw_final_reach n W0 l : dwreach step view c a k n W0 (dw_final n W0 l).
Proof.
  unfold dw_final. destruct (dw_run n W0 l) as [W|] eqn:H; [|constructor]. eapply dw_run_reach; [constructor|exact H].
Qed.

(** Uploads. *)
Definition uw_do (file : bytes) (n : N) (W : @uworld S) (x : wev) : option (@uworld S) :=
  match x with
  | WDo x =>
      if uw_over W then None else
      match srv_do (uw_srv W) x with
      | Some (t, s', new) =>
          if hears a t then None
          else Some (mkUW s' (ended (view s' a)) (keep (uw_kept W) (view s' a)) (uw_cl W) (uw_stat W) (new ++ uw_down W) (uw_up W) (uw_sc W) (uw_ss W))
      | None => None
      end
  | WServer x j =>
      if uw_over W then None else
      match nth_error (uw_up W) j with
      | Some y =>
          match srv_do (uw_srv W) (x (fst y)) with
          | Some (t, s', new) =>
              if own_b t y && fresh_b (uw_ss W) y
              then Some (mkUW s' (ended (view s' a)) (keep (uw_kept W) (view s' a)) (uw_cl W) (uw_stat W) (new ++ uw_down W) (uw_up W) (uw_sc W) (see (uw_ss W) y))
              else None
          | None => None
          end
      | None => None
      end
  | WClient j v =>
      match uw_stat W, nth_error (uw_down W) j with
      | CRun, Some y =>
          if fresh_b (uw_sc W) y then
            let '(cl', stat') := sender_recv (client_dec c (k_sock k) (op_bs (k_opts k))) (k_timeout k) (uw_cl W) (EvDatagram true (fst y)) (e_now v) in
            Some (mkUW (uw_srv W) (uw_over W) (uw_kept W) cl' stat' (uw_down W) (uw_up W) (see (uw_sc W) y) (uw_ss W))
          else None
      | _, _ => None
      end
  | WClientSends =>
      match uw_stat W with
      | CRun =>
          let '(cl', plain, stat') := sender_send file (uw_cl W) (op_bs (k_opts k) + DATA_PACKET_HEADER_SIZE) false IoOk (Some true) in
          match sealed_all (seal_client c (k_sock k) (reader_cur (cs_r cl'))) plain with
          | Some new => Some (mkUW (uw_srv W) (uw_over W) (uw_kept W) cl' stat' (uw_down W) (new ++ uw_up W) (uw_sc W) (uw_ss W))
          | None => None
          end
      | _ => None
      end
  end.
Lemma uw_do_step file n W x W' : uw_do file n W x = Some W' -> uwstep step view c a k file n W W'.
Proof.
  destruct W as [s over kept cl stat down up sc ss]. destruct x as [x|x j|j v|]; cbn [uw_do uw_srv uw_over uw_kept uw_cl uw_stat uw_down uw_up uw_sc uw_ss].
  - destruct over; [discriminate|]. destruct (srv_do s x) as [[[t s'] new]|] eqn:D; [|discriminate].
    destruct (hears a t) eqn:HT; [discriminate|]. intros [= <-].
    destruct (srv_do_ok _ _ _ _ _ D) as (e & o & V & ST & SL). eapply uw_server; eassumption.
  - destruct over; [discriminate|]. destruct (nth_error up j) as [y|] eqn:NT; [|discriminate].
    destruct (srv_do s (x (fst y))) as [[[t s'] new]|] eqn:D; [|discriminate].
    destruct (own_b t y && fresh_b ss y)%bool eqn:CK; [|discriminate]. intros [= <-].
    apply Bool.andb_true_iff in CK as [OB FR]. destruct (own_check _ _ OB) as (v & -> & SH).
    destruct (srv_do_ok _ _ _ _ _ D) as (e & o & V & ST & SL).
    eapply uw_server_receives; [exact ST|exact SH|eapply nth_error_In; exact NT|apply fresh_check; exact FR|exact V|exact SL].
  - destruct stat; try discriminate. destruct (nth_error down j) as [y|] eqn:NT; [|discriminate].
    destruct (fresh_b sc y) eqn:FR; [|discriminate].
    destruct (sender_recv _ _ _ _ _) as [cl' stat'] eqn:RS. intros [= <-].
    eapply uw_client_receives with (e := EvDatagram true (fst y)) (x := y); [exact (conj eq_refl (nth_error_In _ _ NT))|apply fresh_check; exact FR|exact RS].
  - destruct stat; try discriminate. destruct (sender_send _ _ _ _ _ _) as [[cl' plain] stat'] eqn:SS.
    destruct (sealed_all _ _) as [new|] eqn:SL; [|discriminate]. intros [= <-].
    eapply uw_client_sends; [|exact SS|apply seal_client_ok; exact SL]. apply N.le_refl.
Qed.
Fixpoint uw_run (file : bytes) (n : N) (W : @uworld S) (l : list wev) : option (@uworld S) :=
  match l with [] => Some W | x :: l' => match uw_do file n W x with Some W' => uw_run file n W' l' | None => None end end.
Lemma uw_run_reach file n W0 W l W' : uwreach step view c a k file n W0 W -> uw_run file n W l = Some W' -> uwreach step view c a k file n W0 W'.
Proof.
  revert W. induction l as [|x l IH]; cbn [uw_run]; intros W R H; [injection H as <-; exact R|].
  destruct (uw_do file n W x) as [W1|] eqn:E1; [|discriminate]. eapply IH; [|exact H]. eapply uwr_step; [exact R|eapply uw_do_step; exact E1].
Qed.
Definition uw_final (file : bytes) (n : N) (W0 : @uworld S) (l : list wev) : @uworld S :=
  match uw_run file n W0 l with Some W => W | None => W0 end.
Lemma uw_final_reach file n W0 l : uwreach step view c a k file n W0 (uw_final file n W0 l).
Proof.
  unfold uw_final. destruct (uw_run file n W0 l) as [W|] eqn:H; [|constructor]. eapply uw_run_reach; [constructor|exact H].
Qed.
End Run.

(** The single threaded server: it sends, or receives from the client at [a] or on the main socket. *)
Inductive sev := SSend (i : input) | SRecv (i : input).
Definition sexec (c : crypto) (g : srvcfg) (s : sstate) (x : sev) : option (took * sstate * outs) :=
  match x with
  | SSend i => let '(s', o) := step_send s i in Some (TookNothing, s', o)
  | SRecv i => match step_recv c g s i with Some (s', o) => Some (taken s i, s', o) | None => None end
  end.
Lemma sexec_ok c g s x t s' o : sexec c g s x = Some (t, s', o) -> sphase c g s t s' o.
Proof.
  destruct x as [i|i]; cbn.
  - destruct (step_send s i) as [s1 o1] eqn:E1. intros [= <- <- <-]. eapply sp_send. exact E1.
  - destruct (step_recv c g s i) as [[s1 o1]|] eqn:E1; [|discriminate]. intros [= <- <- <-]. apply sp_receive. exact E1.
Qed.
(** The multi threaded server: the thread of [a] sends, or receives [d]. *)
Inductive tev := TSend (buflen : N) (v : env) | TRecv (d : bytes) (v : env).
Definition mexec (c : crypto) (g : srvcfg) (a : addr) (m : mstate) (x : tev) : option (took * mstate * outs) :=
  match find_handle (m_handles m) a with
  | Some (mkT true e) =>
      match x with
      | TSend buflen v =>
          match timeout_client (en_conn e) (g_timeout g) (e_now v) (e_sock v) (e_txt v) with
          | (false, _) => let '(e', plain, _) := send_client buflen e v in
              Some (TookNothing, mkM (update_handle (m_handles m) a (mkT true e')) (m_sockid m), plains a plain)
          | _ => None
          end
      | TRecv d v =>
          match handle_client c (g_max_size g) e (thread_cut e d) v with
          | Some (e', plain) => Some (TookClient a d v, mkM (update_handle (m_handles m) a (mkT true e')) (m_sockid m), plains a plain)
          | None => None
          end
      end
  | _ => None
  end.
Lemma mexec_ok c g a m x t m' o : mexec c g a m x = Some (t, m', o) -> mphase c g m t m' o.
Proof.
  unfold mexec. destruct (find_handle (m_handles m) a) as [[[] e]|] eqn:F; try discriminate. destruct x as [buflen v|d v].
  - destruct (timeout_client _ _ _ _ _) as [[] p0] eqn:T; [discriminate|].
    destruct (send_client buflen e v) as [[e' plain] ok] eqn:SC. intros [= <- <- <-]. eapply mp_send; eassumption.
  - destruct (handle_client _ _ _ _ _) as [[e' plain]|] eqn:H; [|discriminate]. intros [= <- <- <-]. eapply mp_receive; eassumption.
Qed.

(** ** The handshake by computation *)
Lemma negotiates_intro c cfg env write d w k cc o eph hs nonce name :
  match client_request c cc o eph hs nonce write name with
  | Ok (d', s, keys, o1, ex) =>
      d' = d /\ cs_key s <> None /\ cs_level s = LFull /\
      match client_receive o w with
      | Ok w' => match client_recv c s w' with
                 | Ok p => match query_step c cc write true o1 ex true (fun _ => []) p with
                           | QDone q => q_ack q = true /\ k_opts k = q_opts q /\ k_sock k = configure_socket c s keys (q_opts q) (q_keys q)
                           | _ => False
                           end
                 | _ => False
                 end
      | _ => False
      end
  | _ => False
  end ->
  blen nonce = 24 -> blen (h_nonce env) = 24 -> good_string name ->
  (forall path n, h_open env path = Some (Some n) -> n <= U64_MAX) ->
  right_key c cfg cc -> server_receive cfg d = Ok d -> negotiates c cfg env write d w k.
Proof.
  intros H H1 H2 H3 H4 H5 H6. destruct (client_request _ _ _ _ _ _ _ _) as [[[[[d' s] keys] o1] ex]| |] eqn:E; try contradiction.
  destruct H as (-> & KN & LV & H). destruct (client_receive o w) as [w'| |] eqn:E1; try contradiction.
  destruct (client_recv c s w') as [p| |] eqn:E2; try contradiction.
  destruct (query_step _ _ _ _ _ _ _ _ _) as [|?|q] eqn:E3; try contradiction. destruct H as (QA & K1 & K2).
  exists cc, o, eph, hs, nonce, name, s, keys, o1, ex, w', p, true, (fun _ => []), q. do 4 (split; [assumption|]).
  split; [exact E|]. split; [exact H5|]. split; [intros [X|X]; congruence|]. auto 10.
Qed.

(** ** The download *)
Definition wc_st (x : option (sstate * outs)) : sstate := match x with Some (s, _) => s | None => s_init 0 end.
Definition wc_out (x : option (sstate * outs)) : outs := match x with Some (_, o) => o | None => [] end.
Definition wc_reply (l : list out) : bytes := match l with [OWire w] => w | _ => [] end.
Definition wc_dg (x : res unit (bytes * csock * option client_keys * options * exts)) : bytes := match x with Ok (d, _, _, _, _) => d | _ => [] end.
Definition wc_client (write : bool) (w : bytes) (x : res unit (bytes * csock * option client_keys * options * exts)) : cside :=
  match x with
  | Ok (_, s, keys, o1, ex) =>
      match client_recv toy s w with
      | Ok p => match query_step toy ex_cc write true o1 ex true (fun _ => []) p with
                | QDone q => mkCside (configure_socket toy s keys (q_opts q) (q_keys q)) (q_opts q) 5000 1000
                | _ => mkCside s o1 0 0
                end
      | _ => mkCside s o1 0 0
      end
  | _ => mkCside (mkSock None LNone None 0) default_options 0 0
  end.
Definition wc_g : srvcfg := mkSC ex_cfg 10.
Definition wc_e (now : N) : env := mkEnv now false None true [].
Definition wc_file : bytes := repeat 7 1500.
Definition wc_in (now : N) (rx : addr -> option bytes) (m : mainev) : input :=
  mkIn now (fun _ => wc_e now) 1404 (fun _ => wc_e now) (fun _ => wc_e now) rx m (wc_e now) ex_env av_all (fun _ => wc_file).
Definition wc_quiet : addr -> option bytes := fun _ => None.
(** The other client: an encrypted upload from address 50. *)
Definition wc_other : bytes := Eval vm_compute in wc_dg ex_req.
Lemma wc_other_eq : wc_other = wc_dg ex_req.
Proof. vm_compute. reflexivity. Qed.
Definition wc_s0 : sstate := Eval vm_compute in wc_st (step_recv toy wc_g (s_init 0) (wc_in 5 wc_quiet (MData 50 wc_other))).
Lemma wc_s0_eq : wc_s0 = wc_st (step_recv toy wc_g (s_init 0) (wc_in 5 wc_quiet (MData 50 wc_other))).
Proof. vm_compute. reflexivity. Qed.
Lemma wc_s0_reach : spreach toy wc_g wc_s0.
Proof.
  rewrite wc_s0_eq. unfold wc_st. destruct (step_recv _ _ _ _) as [[s o]|] eqn:E; [|constructor].
  eapply spreach_step; [constructor|apply sp_receive; exact E].
Qed.
Definition wc_req := client_request toy ex_cc ex_o [1; 2] [3; 4] (repeat 5 24) false (s2b "dir/f").
Definition wc_d : bytes := Eval vm_compute in wc_dg wc_req.
Lemma wc_d_eq : wc_d = wc_dg wc_req.
Proof. vm_compute. reflexivity. Qed.
Definition wc_i : input := wc_in 10 wc_quiet (MData 10 wc_d).
Definition wc_s1 : sstate := Eval vm_compute in wc_st (step_recv toy wc_g wc_s0 wc_i).
Lemma wc_s1_eq : wc_s1 = wc_st (step_recv toy wc_g wc_s0 wc_i).
Proof. vm_compute. reflexivity. Qed.
Definition wc_o1 : outs := Eval vm_compute in wc_out (step_recv toy wc_g wc_s0 wc_i).
Lemma wc_o1_eq : wc_o1 = wc_out (step_recv toy wc_g wc_s0 wc_i).
Proof. vm_compute. reflexivity. Qed.
Definition wc_w : bytes := Eval vm_compute in wc_reply (sent_to 10 wc_o1).
Lemma wc_w_eq : wc_w = wc_reply (sent_to 10 wc_o1).
Proof. vm_compute. reflexivity. Qed.
Definition wc_k : cside := Eval vm_compute in wc_client false wc_w wc_req.
Lemma wc_k_eq : wc_k = wc_client false wc_w wc_req.
Proof. vm_compute. reflexivity. Qed.
Definition wc_n : N := Eval vm_compute in nblocks wc_file (bs_enc (k_opts wc_k)).
Lemma wc_n_eq : wc_n = nblocks wc_file (bs_enc (k_opts wc_k)).
Proof. vm_compute. reflexivity. Qed.
Definition wc_W0 : @dworld sstate := mkDW wc_s1 false (crecv_new 0) CRun [] [] 0 0.
(** Both blocks are sent; the second arrives first and once more at the end; the acknowledgement
    reaches the server. *)
Definition wc_ack (now : N) (d : bytes) : sev := SRecv (wc_in now (fun b => if b =? 10 then Some d else None) MWouldBlock).
Definition wc_Wf : @dworld sstate := Eval vm_compute in dw_final sview (sexec toy wc_g) toy 10 wc_k wc_n wc_W0
    [WDo (SSend (wc_in 11 wc_quiet MWouldBlock)); WDo (SSend (wc_in 12 wc_quiet MWouldBlock)); WClient 0 (wc_e 20); WClient 1 (wc_e 21);
     WClient 0 (wc_e 22); WServer (wc_ack 30) 0].
Lemma wc_Wf_eq : wc_Wf = dw_final sview (sexec toy wc_g) toy 10 wc_k wc_n wc_W0
    [WDo (SSend (wc_in 11 wc_quiet MWouldBlock)); WDo (SSend (wc_in 12 wc_quiet MWouldBlock)); WClient 0 (wc_e 20); WClient 1 (wc_e 21);
     WClient 0 (wc_e 22); WServer (wc_ack 30) 0].
Proof. vm_compute. reflexivity. Qed.
Definition wc_work (x : option entry) : bytes := match x with Some (mkE _ _ (WRead f _)) => f | _ => [] end.
Lemma work_read x f : f <> [] -> wc_work x = f -> exists e r, x = Some e /\ en_work e = WRead f r.
Proof. intros N. destruct x as [[cn ky [f' r|p w]]|]; cbn; intros E; try congruence. subst f'. exists (mkE cn ky (WRead f r)), r. auto. Qed.

Lemma wc_negotiates : negotiates toy (g_cfg wc_g) (i_henv wc_i) false wc_d wc_w wc_k.
Proof.
  apply (negotiates_intro toy ex_cfg ex_env false wc_d wc_w wc_k ex_cc ex_o [1; 2] [3; 4] (repeat 5 24) (s2b "dir/f")).
  - vm_compute. repeat split; discriminate.
  - reflexivity.
  - reflexivity.
  - vm_compute. repeat split; try lia; repeat constructor; lia.
  - intros path n H. cbn in H. discriminate.
  - intros vk [= <-]; exists [7]; auto.
  - vm_compute. reflexivity.
Qed.
Lemma wc_reach : dwreach (sphase toy wc_g) sview toy 10 wc_k wc_n wc_W0 wc_Wf.
Proof. rewrite wc_Wf_eq. exact (dw_final_reach (sphase toy wc_g) sview (sexec toy wc_g) (sexec_ok toy wc_g) toy 10 wc_k _ _ _). Qed.
Example busy_download_case :
  crypto_ok toy /\ spreach toy wc_g wc_s0 /\ map fst (s_clients wc_s0) = [50] /\ sview wc_s0 10 = None /\
  taken wc_s0 wc_i = TookMain 10 wc_d /\ step_recv toy wc_g wc_s0 wc_i = Some (wc_s1, wc_o1) /\ sent_to 10 wc_o1 = [OWire wc_w] /\
  (exists e r, sview wc_s1 10 = Some e /\ en_work e = WRead wc_file r) /\
  negotiates toy (g_cfg wc_g) (i_henv wc_i) false wc_d wc_w wc_k /\
  op_enc (k_opts wc_k) = LFull /\ wc_n = 2 /\
  dwreach (sphase toy wc_g) sview toy 10 wc_k wc_n wc_W0 wc_Wf /\
  dw_stat wc_Wf = CDone 1500 /\ w_out (cr_w (dw_cl wc_Wf)) = wc_file /\ dw_over wc_Wf = false /\
  option_map (fun e => c_finished (en_conn e)) (sview (dw_srv wc_Wf) 10) = Some true.
Proof.
  split; [exact toy_ok|]. split; [exact wc_s0_reach|]. do 5 (split; [vm_compute; reflexivity|]).
  split; [apply work_read; [discriminate|vm_compute; reflexivity]|]. split; [exact wc_negotiates|].
  do 2 (split; [vm_compute; reflexivity|]). split; [exact wc_reach|].
  do 3 (split; [vm_compute; reflexivity|]). vm_compute; reflexivity.
Qed.

(** The same download from the multi threaded server. *)
Definition wc_mst (x : option (mstate * outs)) : mstate := match x with Some (s, _) => s | None => m_init end.
Definition wc_mout (x : option (mstate * outs)) : outs := match x with Some (_, o) => o | None => [] end.
Definition wc_m0 : mstate := Eval vm_compute in wc_mst (main_turn toy wc_g m_init (MData 50 wc_other) (wc_in 5 wc_quiet MWouldBlock)).
Lemma wc_m0_eq : wc_m0 = wc_mst (main_turn toy wc_g m_init (MData 50 wc_other) (wc_in 5 wc_quiet MWouldBlock)).
Proof. vm_compute. reflexivity. Qed.
Lemma wc_m0_reach : mpreach toy wc_g wc_m0.
Proof.
  rewrite wc_m0_eq. unfold wc_mst. destruct (main_turn _ _ _ _ _) as [[s o]|] eqn:E; [|constructor].
  eapply mpreach_step; [constructor|eapply mp_main; exact E].
Qed.
Definition wc_m1 : mstate := Eval vm_compute in wc_mst (main_turn toy wc_g wc_m0 (MData 10 wc_d) wc_i).
Lemma wc_m1_eq : wc_m1 = wc_mst (main_turn toy wc_g wc_m0 (MData 10 wc_d) wc_i).
Proof. vm_compute. reflexivity. Qed.
Definition wc_mo1 : outs := Eval vm_compute in wc_mout (main_turn toy wc_g wc_m0 (MData 10 wc_d) wc_i).
Lemma wc_mo1_eq : wc_mo1 = wc_mout (main_turn toy wc_g wc_m0 (MData 10 wc_d) wc_i).
Proof. vm_compute. reflexivity. Qed.
Definition wc_M0 : @dworld mstate := mkDW wc_m1 false (crecv_new 0) CRun [] [] 0 0.
Definition wc_Mf : @dworld mstate := Eval vm_compute in dw_final mview (mexec toy wc_g 10) toy 10 wc_k wc_n wc_M0
    [WDo (TSend 1404 (wc_e 11)); WDo (TSend 1404 (wc_e 12)); WClient 0 (wc_e 20); WClient 1 (wc_e 21);
     WClient 0 (wc_e 22); WServer (fun d => TRecv d (wc_e 30)) 0].
Lemma wc_Mf_eq : wc_Mf = dw_final mview (mexec toy wc_g 10) toy 10 wc_k wc_n wc_M0
    [WDo (TSend 1404 (wc_e 11)); WDo (TSend 1404 (wc_e 12)); WClient 0 (wc_e 20); WClient 1 (wc_e 21);
     WClient 0 (wc_e 22); WServer (fun d => TRecv d (wc_e 30)) 0].
Proof. vm_compute. reflexivity. Qed.
Lemma wc_mreach : dwreach (mphase toy wc_g) mview toy 10 wc_k wc_n wc_M0 wc_Mf.
Proof. rewrite wc_Mf_eq. exact (dw_final_reach (mphase toy wc_g) mview (mexec toy wc_g 10) (mexec_ok toy wc_g 10) toy 10 wc_k _ _ _). Qed.
Example busy_multi_download_case :
  crypto_ok toy /\ mpreach toy wc_g wc_m0 /\ map fst (m_handles wc_m0) = [50] /\ mview wc_m0 10 = None /\
  main_turn toy wc_g wc_m0 (MData 10 wc_d) wc_i = Some (wc_m1, wc_mo1) /\ sent_to 10 wc_mo1 = [OWire wc_w] /\
  (exists e r, mview wc_m1 10 = Some e /\ en_work e = WRead wc_file r) /\
  negotiates toy (g_cfg wc_g) (i_henv wc_i) false wc_d wc_w wc_k /\
  dwreach (mphase toy wc_g) mview toy 10 wc_k wc_n wc_M0 wc_Mf /\
  dw_stat wc_Mf = CDone 1500 /\ w_out (cr_w (dw_cl wc_Mf)) = wc_file /\ dw_over wc_Mf = false /\
  option_map (fun e => c_finished (en_conn e)) (mview (dw_srv wc_Mf) 10) = Some true.
Proof.
  split; [exact toy_ok|]. split; [exact wc_m0_reach|]. do 4 (split; [vm_compute; reflexivity|]).
  split; [apply work_read; [discriminate|vm_compute; reflexivity]|]. split; [exact wc_negotiates|].
  split; [exact wc_mreach|]. do 3 (split; [vm_compute; reflexivity|]). vm_compute; reflexivity.
Qed.

(** ** The upload: the client at 50, to both servers. *)
Definition wu_w : bytes := Eval vm_compute in wc_reply (sent_to 50 (wc_out (step_recv toy wc_g (s_init 0) (wc_in 5 wc_quiet (MData 50 wc_other))))).
Lemma wu_w_eq : wu_w = wc_reply (sent_to 50 (wc_out (step_recv toy wc_g (s_init 0) (wc_in 5 wc_quiet (MData 50 wc_other))))).
Proof. vm_compute. reflexivity. Qed.
Definition wu_k : cside := Eval vm_compute in wc_client true wu_w ex_req.
Lemma wu_k_eq : wu_k = wc_client true wu_w ex_req.
Proof. vm_compute. reflexivity. Qed.
Definition wu_i : input := wc_in 5 wc_quiet (MData 50 wc_other).
Definition wu_o1 : outs := Eval vm_compute in wc_out (step_recv toy wc_g (s_init 0) wu_i).
Lemma wu_o1_eq : wu_o1 = wc_out (step_recv toy wc_g (s_init 0) wu_i).
Proof. vm_compute. reflexivity. Qed.
Lemma wu_negotiates : negotiates toy (g_cfg wc_g) (i_henv wu_i) true wc_other wu_w wu_k.
Proof.
  apply (negotiates_intro toy ex_cfg ex_env true wc_other wu_w wu_k ex_cc ex_o [1; 2] [3; 4] (repeat 5 24) (s2b "dir/../f")).
  - vm_compute. repeat split; discriminate.
  - reflexivity.
  - reflexivity.
  - vm_compute. repeat split; try lia; repeat constructor; lia.
  - intros path n H. cbn in H. discriminate.
  - intros vk [= <-]; exists [7]; auto.
  - vm_compute. reflexivity.
Qed.
Definition wu_n : N := Eval vm_compute in nblocks wc_file (bs_enc (k_opts wu_k)).
Lemma wu_n_eq : wu_n = nblocks wc_file (bs_enc (k_opts wu_k)).
Proof. vm_compute. reflexivity. Qed.
Definition wu_W0 : @uworld sstate := mkUW wc_s0 false [] (mkCS (client_reader (k_opts wu_k) false) 0 0) CRun [] [] 0 0.
Definition wu_data (now : N) (d : bytes) : sev := SRecv (wc_in now (fun b => if b =? 50 then Some d else None) MWouldBlock).
(** A turn in which only the main socket is looked at: each connection is looked at once before that. *)
Definition wu_idle (now : N) : wev := WDo (SRecv (wc_in now wc_quiet MWouldBlock)).
(** Both blocks are sent; the second arrives first and is refused, then the first, then the second
    again; the acknowledgement of the last one completes the upload. *)
Definition wu_Wf : @uworld sstate := Eval vm_compute in uw_final sview (sexec toy wc_g) toy 50 wu_k wc_file wu_n wu_W0
    [WClientSends; WClientSends; WServer (wu_data 20) 0; wu_idle 20; WServer (wu_data 21) 1; wu_idle 21; WServer (wu_data 22) 0; WClient 0 (wc_e 30)].
Lemma wu_Wf_eq : wu_Wf = uw_final sview (sexec toy wc_g) toy 50 wu_k wc_file wu_n wu_W0
    [WClientSends; WClientSends; WServer (wu_data 20) 0; wu_idle 20; WServer (wu_data 21) 1; wu_idle 21; WServer (wu_data 22) 0; WClient 0 (wc_e 30)].
Proof. vm_compute. reflexivity. Qed.
Lemma wu_reach : uwreach (sphase toy wc_g) sview toy 50 wu_k wc_file wu_n wu_W0 wu_Wf.
Proof. rewrite wu_Wf_eq. exact (uw_final_reach (sphase toy wc_g) sview (sexec toy wc_g) (sexec_ok toy wc_g) toy 50 wu_k _ _ _ _). Qed.
Definition wc_path (x : option entry) : bytes := match x with Some (mkE _ _ (WWrite f _)) => f | _ => [] end.
Lemma work_write x f : f <> [] -> wc_path x = f -> exists e w, x = Some e /\ en_work e = WWrite f w.
Proof. intros N. destruct x as [[cn ky [f' r|p w]]|]; cbn; intros E; try congruence. subst p. exists (mkE cn ky (WWrite f w)), w. auto. Qed.
Example busy_upload_case :
  sview (s_init 0) 50 = None /\ taken (s_init 0) wu_i = TookMain 50 wc_other /\
  step_recv toy wc_g (s_init 0) wu_i = Some (wc_s0, wu_o1) /\ sent_to 50 wu_o1 = [OWire wu_w] /\
  (exists e w, sview wc_s0 50 = Some e /\ en_work e = WWrite (s2b "dir/f") w) /\
  negotiates toy (g_cfg wc_g) (i_henv wu_i) true wc_other wu_w wu_k /\ op_enc (k_opts wu_k) = LFull /\ wu_n = 2 /\
  uwreach (sphase toy wc_g) sview toy 50 wu_k wc_file wu_n wu_W0 wu_Wf /\
  uw_stat wu_Wf = CDone 1500 /\ uw_kept wu_Wf = wc_file /\ uw_over wu_Wf = false /\
  option_map (fun e => c_finished (en_conn e)) (sview (uw_srv wu_Wf) 50) = Some true.
Proof.
  do 4 (split; [vm_compute; reflexivity|]).
  split; [apply work_write; [discriminate|vm_compute; reflexivity]|]. split; [exact wu_negotiates|].
  do 2 (split; [vm_compute; reflexivity|]). split; [exact wu_reach|].
  do 3 (split; [vm_compute; reflexivity|]). vm_compute; reflexivity.
Qed.
Definition wu_M0 : @uworld mstate := mkUW wc_m0 false [] (mkCS (client_reader (k_opts wu_k) false) 0 0) CRun [] [] 0 0.
Definition wu_mo : outs := Eval vm_compute in wc_mout (main_turn toy wc_g m_init (MData 50 wc_other) (wc_in 5 wc_quiet MWouldBlock)).
Lemma wu_mo_eq : wu_mo = wc_mout (main_turn toy wc_g m_init (MData 50 wc_other) (wc_in 5 wc_quiet MWouldBlock)).
Proof. vm_compute. reflexivity. Qed.
Definition wu_mdata (now : N) (d : bytes) : tev := TRecv d (wc_e now).
Definition wu_Mf : @uworld mstate := Eval vm_compute in uw_final mview (mexec toy wc_g 50) toy 50 wu_k wc_file wu_n wu_M0
    [WClientSends; WClientSends; WServer (wu_mdata 20) 0; WServer (wu_mdata 21) 1; WServer (wu_mdata 22) 0; WClient 0 (wc_e 30)].
Lemma wu_Mf_eq : wu_Mf = uw_final mview (mexec toy wc_g 50) toy 50 wu_k wc_file wu_n wu_M0
    [WClientSends; WClientSends; WServer (wu_mdata 20) 0; WServer (wu_mdata 21) 1; WServer (wu_mdata 22) 0; WClient 0 (wc_e 30)].
Proof. vm_compute. reflexivity. Qed.
Lemma wu_mreach : uwreach (mphase toy wc_g) mview toy 50 wu_k wc_file wu_n wu_M0 wu_Mf.
Proof. rewrite wu_Mf_eq. exact (uw_final_reach (mphase toy wc_g) mview (mexec toy wc_g 50) (mexec_ok toy wc_g 50) toy 50 wu_k _ _ _ _). Qed.
Example busy_multi_upload_case :
  mview m_init 50 = None /\
  main_turn toy wc_g m_init (MData 50 wc_other) (wc_in 5 wc_quiet MWouldBlock) = Some (wc_m0, wu_mo) /\ sent_to 50 wu_mo = [OWire wu_w] /\
  (exists e w, mview wc_m0 50 = Some e /\ en_work e = WWrite (s2b "dir/f") w) /\
  uwreach (mphase toy wc_g) mview toy 50 wu_k wc_file wu_n wu_M0 wu_Mf /\
  uw_stat wu_Mf = CDone 1500 /\ uw_kept wu_Mf = wc_file.
Proof.
  do 3 (split; [vm_compute; reflexivity|]).
  split; [apply work_write; [discriminate|vm_compute; reflexivity]|].
  split; [exact wu_mreach|]. split; [vm_compute; reflexivity|]. vm_compute; reflexivity.
Qed.
