(** How long the commands last (C74). *)
From Verif Require Import Base BaseProofs PacketModel PacketSpec PacketProofs MapperModel ReaderModel ReaderSpec ReaderProofs ConfigModel CryptoModel ExtModel ExtProofs PathModel ConnModel
  ConnSpec ClientModel HandshakeModel ClientWaitModel StreamModel WorldModel FsModel FsServerModel DiskModel CryptoSpec PropGiveUp PropHandshake RunModel RunSpec RunB.
From Verif Require CliModel.

(** A clock: turns happen at the times given (the flag: nothing was there to be received), never more than [P]
    milliseconds after the last time that nothing was there to be received, first after the start.  ([P] is the wait
    for a datagram and one turn, unless datagrams arrive faster than they are taken.) *)
Fixpoint woken (P last now : N) (l : list (N * bool)) : Prop :=
  match l with
  | [] => True
  | (t, idle) :: l => now <= t /\ t <= last + P /\ woken P (if idle then t else last) t l
  end.
Definition idle (e : rev_) : bool := match e with RvBlock => true | _ => false end.
Definition rclock (i : rin) : N * bool := (ri_now i, idle (ri_ev i)).
Definition sclock (i : sin) : N * bool := (si_now i, idle (si_ev i)).
(** The time of the last turn. *)
Definition time_after (t0 : N) (l : list (N * bool)) : N := fst (last l (t0, false)).
(** Nothing comes from the host the command was given. *)
Definition silent (g : run_cfg) (e : rev_) : Prop :=
  match e with RvFrom src _ => same_ip src (CliModel.cl_endpoint (ru_start g)) = false | _ => True end.
Definition receive_over (p : rprog) : Prop := match rp_ph p with RDone _ _ | RFailed => True | _ => False end.
Definition send_over (p : uphase) : Prop := match p with UDone _ _ | UFailed => True | _ => False end.

Lemma last_any {A} (x : A) l d d' : List.last (x :: l) d = List.last (x :: l) d'.
Proof. revert x. induction l as [|y l IH]; intros x; [reflexivity|]. exact (IH y). Qed.
Lemma time_after_cons t0 x l : time_after t0 (x :: l) = time_after (fst x) l.
Proof. unfold time_after. destruct l as [|y l]; [reflexivity|]. change (List.last (x :: y :: l) (t0, false)) with (List.last (y :: l) (t0, false)). f_equal. apply last_any. Qed.
Fixpoint last_idle (last : N) (l : list (N * bool)) : N :=
  match l with [] => last | (t, b) :: l => last_idle (if b then t else last) l end.
Lemma woken_app P l1 : forall last now l2, woken P last now (l1 ++ l2) ->
  woken P last now l1 /\ woken P (last_idle last l1) (time_after now l1) l2.
Proof.
  induction l1 as [|[t b] l1 IH]; intros last now l2; cbn [app woken last_idle]; [auto|].
  intros (A & B & H). apply IH in H as [H1 H2]. rewrite time_after_cons. auto.
Qed.
Lemma woken_sorted P l : forall last now, woken P last now l -> now <= time_after now l /\ forall x, In x l -> fst x <= time_after now l.
Proof.
  induction l as [|[t b] l IH]; intros last now; cbn [woken]; [split; [unfold time_after; cbn; lia|intros x []]|].
  intros (A & B & H). apply IH in H as [H1 H2]. rewrite time_after_cons. cbn [fst]. split; [lia|]. intros x [<-|IX]; [exact H1|auto].
Qed.
Lemma woken_last P l : forall last now, now <= last + P -> woken P last now l -> time_after now l <= last_idle last l + P.
Proof.
  induction l as [|[t b] l IH]; intros last now H; cbn [woken last_idle]; [intros _; exact H|].
  intros (A & B & W). rewrite time_after_cons. cbn [fst]. apply IH; [destruct b; lia|exact W].
Qed.

(** ** What an accepted answer settles *)
Lemma qdone_bs c cfg write initial o used sp txt p q : query_step c cfg write initial o used sp txt p = QDone q -> 471 <= bs_enc (q_opts q).
Proof.
  assert (B : forall o', 512 <= op_bs o' -> 471 <= bs_enc o') by (intros [bs r sz en w]; unfold bs_enc; cbn [op_bs]; cbn [op_enc]; unfold ENCRYPTION_TAG_SIZE, ENCRYPTION_PADDING_SIZE, ENCRYPTION_NONCE_SIZE; destruct en; cbn [level_eqb]; lia).
  intros H. apply B. unfold query_step in H.
  destruct (_ && _)%bool; [discriminate|].
  destruct (from_bytes p) as [pk| |]; try discriminate.
  destruct pk as [r|r|b x|b|code m|se]; try discriminate.
  { destruct write; [discriminate|]. injection H as <-. destruct o; cbv; discriminate. }
  { destruct write; [|discriminate]. injection H as <-. destruct o; cbv; discriminate. }
  { destruct (_ && _ && _)%bool; discriminate. }
  destruct (unasked se used) as [|x xs] eqn:UA; [|discriminate].
  destruct (client_parse c se o) as [[o2 kp]| |] eqn:CP; try discriminate.
  cbv zeta in H. destruct (_ && _)%bool eqn:EX in H; [discriminate|]. injection H as <-.
  cbn [q_opts]. unfold client_parse, bind in CP.
  destruct (cl_block se o) as [o3| |] eqn:E1; try discriminate.
  destruct (cl_window se o3) as [o4| |] eqn:E2; try discriminate.
  destruct (ExtModel.cl_timeout se o4) as [o5| |] eqn:E3; try discriminate.
  destruct (cl_tsize se o5) as [o6| |] eqn:E4; try discriminate.
  apply cl_block_ok in E1. apply cl_window_ok in E2. apply cl_timeout_ok in E3. apply cl_tsize_ok in E4. apply cl_enc_ok in CP.
  destruct E1 as [S1 E1], E2 as [S2 _], E3 as [S3 _], E4 as [S4 _], CP as [S5 _].
  assert (BB : op_bs o2 = op_bs o3) by (rewrite S5, S4, S3, S2; reflexivity). rewrite BB.
  destruct E1 as [[_ ->]|[_ E1]]; lia.
Qed.
Lemma qretry_initial c cfg write initial o used sp txt p : query_step c cfg write initial o used sp txt p = QRetry -> initial = true.
Proof.
  unfold query_step. destruct (_ && _)%bool; [discriminate|].
  destruct (from_bytes p) as [[r|r|b x|b|code m|se]| |]; try discriminate.
  - destruct write; discriminate.
  - destruct write; discriminate.
  - destruct (match code with IllegalOperation | Undefined => true | _ => false end), initial; cbn; try discriminate; auto.
  - destruct (unasked se used); [|discriminate]. destruct (client_parse c se o) as [[o2 kp]| |]; try discriminate. cbv zeta. destruct (_ && _)%bool; discriminate.
Qed.
Lemma same_ip_trans a b c : same_ip a b = true -> same_ip b c = true -> same_ip a c = true.
Proof.
  unfold same_ip. rewrite !Bool.andb_true_iff. intros [A1 A2] [B1 B2]. apply Bool.eqb_prop in A1, B1. apply beq_eq in A2, B2.
  rewrite A1, B1, A2, B2. split; [apply Bool.eqb_reflx|apply beq_eq; reflexivity].
Qed.
Lemma run_ask_timeout g write o wc keys ex : run_ask g write o = Some (wc, keys, ex) -> wc_timeout wc = CliModel.cl_timeout (ru_start g).
Proof.
  unfold run_ask. destruct (create_max_buffer (op_bs o)) as [n| |]; try discriminate.
  destruct (create_initial_socket _ _ _ _ _) as [[s ks] o1]. destruct (create_extensions _ _ _) as [e| |] eqn:CE; try discriminate.
  intros [= <- <- <-]. reflexivity.
Qed.

Section End.
Variables (g : run_cfg) (wc : wcfg) (keys : option client_keys) (P t0 : N).
Notation T := (CliModel.cl_timeout (ru_start g)).
Notation d := (T + P).
Notation max := (CliModel.cl_max_size (ru_start g)).
Notation home := (CliModel.cl_endpoint (ru_start g)).
Hypothesis HT : wc_timeout wc = T.

(** ** The wait *)
(** [last]: the last time nothing was there, [now]: the time of the last turn. *)
Definition waits (last now : N) (w : wstate) : Prop :=
  last <= ws_start w + T /\ ws_start w <= now /\ ws_start w <= t0 + (if ws_initial w then 0 else d).
Lemma waits_now last now w t : waits last now w -> t <= last + P -> t <= ws_start w + d /\ t <= t0 + 2 * d.
Proof. intros (A & B & C) H. destruct (ws_initial w); lia. Qed.
Lemma wait_step last now w t sock e w' : waits last now w -> now <= t -> t <= last + P ->
  wait_turn wc w (mkWI sock (wait_ev g e) t) = WoWaiting w' -> waits (if idle e then t else last) t w'.
Proof.
  intros WA N1 N2 H. pose proof (waits_now _ _ _ _ WA N2) as [M1 M2]. destruct WA as (A & B & C).
  unfold wait_turn in H. cbn [wi_sock wi_ev wi_now] in H. destruct sock; [|discriminate]. cbn [negb] in H.
  destruct e as [src wire| |]; cbn [wait_ev idle] in *.
  - destruct (client_recv _ _ _) as [p| |]; try discriminate. destruct (same_ip src home).
    + destruct (query_step _ _ _ _ _ _ _ _ _) as [|[r|]|q] eqn:Q; try discriminate. apply qretry_initial in Q.
      injection H as <-. unfold waits. cbn [ws_start ws_initial]. rewrite Q in C. lia.
    + injection H as <-. unfold waits. cbn [ws_start ws_initial]. lia.
  - rewrite HT in H. destruct (N.ltb_spec T (t - ws_start w)); [discriminate|]. injection H as <-. unfold waits. cbn [ws_start ws_initial]. lia.
  - discriminate.
Qed.
Lemma wait_silent w t sock e w' : silent g e -> wait_turn wc w (mkWI sock (wait_ev g e) t) = WoWaiting w' -> ws_start w' = ws_start w.
Proof.
  intros SI H. unfold wait_turn in H. cbn [wi_sock wi_ev wi_now] in H. destruct sock; [|discriminate]. cbn [negb] in H.
  destruct e as [src wire| |]; cbn [wait_ev silent] in *.
  - destruct (client_recv _ _ _) as [p| |]; try discriminate. rewrite SI in H. injection H as <-. reflexivity.
  - rewrite HT in H. destruct (N.ltb_spec T (t - ws_start w)); [discriminate|]. injection H as <-. reflexivity.
  - discriminate.
Qed.
Lemma wait_done w t sock e q port : wait_turn wc w (mkWI sock (wait_ev g e) t) = WoDone q port ->
  471 <= bs_enc (q_opts q) /\ exists src wire, e = RvFrom src wire /\ same_ip src home = true.
Proof.
  intros H. unfold wait_turn in H. cbn [wi_sock wi_ev wi_now] in H. destruct sock; [|discriminate]. cbn [negb] in H.
  destruct e as [src wire| |]; cbn [wait_ev] in *; [|destruct (_ <? _); discriminate|discriminate].
  destruct (client_recv _ _ _) as [p| |]; try discriminate. destruct (same_ip src home) eqn:SI; [|discriminate].
  destruct (query_step _ _ _ _ _ _ _ _ _) as [|[r|]|q'] eqn:Q; try discriminate. injection H as <- <-. split; [eapply qdone_bs; exact Q|eauto].
Qed.

(** ** receive *)
Definition rbase (p : rprog) : option N :=
  match rp_ph p with RAsk w => Some (ws_start w) | RGet _ _ _ _ st => Some (cr_time st) | _ => None end.
Definition rinv (last now : N) (p : rprog) : Prop :=
  match rp_ph p with
  | RAsk w => waits last now w
  | RGet k from _ _ st =>
      last <= cr_time st + T /\ cr_time st <= now /\ k_max k = max /\ k_timeout k = T /\ same_ip from home = true /\
      471 <= bs_enc (k_opts k) /\
      exists n, cr_time st <= t0 + (2 + n) * d /\ n * 471 <= cr_total st /\ (n = 0 \/ cr_total st <= max)
  | _ => True
  end.
Lemma recv_step_time dec o mx timeout st e now io sh so txt st' out : recv_step dec o mx timeout st e now io sh so txt = (st', out, CRun) ->
  cr_time st' = cr_time st /\ cr_total st' = cr_total st \/
  (exists wire, e = EvDatagram true wire) /\ cr_time st' = now /\ exists m, bs_enc o <= m /\ cr_total st' = cr_total st + m /\ cr_total st + m <= mx.
Proof.
  unfold recv_step. destruct e as [b wire| |]; [|destruct (_ <? _); [discriminate|]; intros [= <- <-]; auto|discriminate].
  destruct (dec wire) as [p|]; [|discriminate]. destruct b; cbn [negb]; [|intros [= <- <-]; auto].
  destruct (from_bytes p) as [[r|r|b x|b|c m|se]| |]; try discriminate; try (intros [= <- <-]; auto).
  destruct (cl_write_block _ _ _ _ _) as [w1 [[[[n|] i] blk]|]]; [| |discriminate].
  - unfold cl_size_ok. rewrite Bool.negb_involutive. destruct (N.ltb_spec mx (cr_total st + n)); [discriminate|].
    destruct (_ && _)%bool; [discriminate|]. destruct (N.ltb_spec n (bs_enc o)); [discriminate|]. intros [= <- <-]. right.
    split; [eauto|]. split; [reflexivity|]. exists n. cbn. auto.
  - destruct (_ && _)%bool; [discriminate|]. intros [= <- <-]. auto.
Qed.
Lemma recv_block_time dec o mx timeout st now io sh so txt st' out : recv_step dec o mx timeout st EvWouldBlock now io sh so txt = (st', out, CRun) ->
  st' = st /\ now <= cr_time st + timeout.
Proof. cbn. destruct (N.ltb_spec timeout (now - cr_time st)); [discriminate|]. intros [= <- <-]. split; [reflexivity|lia]. Qed.
Lemma rinv_now last now p t b : rinv last now p -> rbase p = Some b -> t <= last + P -> t <= b + d /\ t <= t0 + (3 + max / 471) * d.
Proof.
  unfold rinv, rbase. destruct (rp_ph p) as [w|k from key s st| |]; intros I [= <-] H.
  - destruct (waits_now _ _ _ _ I H) as [A B]. split; [exact A|]. etransitivity; [exact B|]. nia.
  - destruct I as (A & B & _ & _ & _ & _ & n & C & D & E). split; [lia|].
    assert (n <= max / 471) by (destruct E as [->|E]; [lia|apply N.div_le_lower_bound; lia]). nia.
Qed.
Lemma receive_turn_inv last now p i : rinv last now p -> now <= ri_now i -> ri_now i <= last + P ->
  let p' := fst (receive_turn g wc keys p i) in
  rinv (if idle (ri_ev i) then ri_now i else last) (ri_now i) p' /\
  (silent g (ri_ev i) -> forall b', rbase p' = Some b' -> rbase p = Some b') /\
  (rbase p = None -> rbase p' = None).
Proof.
  intros I N1 N2. destruct p as [f ph]. unfold receive_turn, rbase. cbn [rp_fs rp_ph] in *. destruct ph as [w|k from key s st|tot key|].
  - unfold rinv in I. cbn [rp_ph] in I. pose proof (waits_now _ _ _ _ I N2) as [_ M].
    destruct (wait_turn wc w _) as [w'| | |e| |q port] eqn:WT; cbn [fst rp_ph rinv]; try (split; [exact Logic.I|]; split; [discriminate|discriminate]).
    { split; [unfold rinv; cbn; eapply wait_step; eassumption|]. split; [|discriminate]. intros SI b' [= <-]. rewrite (wait_silent _ _ _ _ _ SI WT). reflexivity. }
    destruct (wait_done _ _ _ _ _ _ WT) as (BS & src & wire & EV & SI). rewrite EV.
    destruct (receive_accepted _ _ _ _ _ _ _) as [p' out] eqn:RA. cbn [fst].
    split; [|split; [cbn [silent]; congruence|discriminate]].
    unfold receive_accepted in RA. destruct (create_writer _ _) as [f1 [id|]]; [|injection RA as <- <-; exact Logic.I].
    match type of RA with (match ?m with _ => _ end) = _ => destruct m as [[f2 s1] [[st plain] stat]] end.
    destruct stat; [|injection RA as <- <-; exact Logic.I|injection RA as <- <-; exact Logic.I].
    destruct (match op_size _ with Some _ => _ | None => true end); [|injection RA as <- <-; exact Logic.I].
    destruct (q_ack q && _)%bool; [injection RA as <- <-; exact Logic.I|]. injection RA as <- <-.
    unfold rinv. cbn [rp_ph cr_time cr_total idle agreed k_max k_timeout k_opts].
    destruct I as (A & B & _). split; [lia|]. split; [lia|]. split; [reflexivity|]. split; [reflexivity|]. split; [exact SI|]. split; [exact BS|].
    exists 0. split; [lia|]. split; [lia|]. left; reflexivity.
  - pose proof (rinv_now _ _ _ _ _ I eq_refl N2) as [M _]. unfold rinv in I. cbn [rp_ph] in I.
    destruct I as (A & B & KM & KT & SI & BS & n & C & D & E).
    destruct (store _ _ _ _ _) as [[[f' s'] io] short].
    destruct (recv_step _ _ _ _ _ _ _ _ _ _ _) as [[st' plain] stat] eqn:RS. cbn [fst].
    destruct stat; [|split; [exact Logic.I|split; discriminate]|split; [exact Logic.I|split; discriminate]].
    pose proof (recv_step_time _ _ _ _ _ _ _ _ _ _ _ _ _ RS) as TI. unfold rinv. cbn [rp_ph].
    split; [|split; [|discriminate]].
    + rewrite KM in TI. split; [|split; [|auto 6]]; cycle 2.
      { do 4 (split; [assumption|]). destruct TI as [[-> ->]|(_ & -> & m & LM & -> & MX)]; [exists n; auto|].
        exists (n + 1). split; [nia|]. split; [nia|]. right; exact MX. }
      * destruct (ri_ev i) as [src wire| |]; cbn [idle get_ev] in *; [| |discriminate].
        { destruct TI as [[-> _]|(_ & -> & _)]; lia. }
        apply recv_block_time in RS as [-> RS]. rewrite KT in RS. exact RS.
      * destruct TI as [[-> _]|(_ & -> & _)]; lia.
    + intros SL b' [= <-]. destruct TI as [[-> _]|((wire & EV) & _)]; [reflexivity|]. exfalso.
      destruct (ri_ev i) as [src wire'| |]; try discriminate. cbn [get_ev silent] in *. injection EV as EV _.
      unfold same_addr in EV. apply Bool.andb_true_iff in EV as [EV _]. rewrite (same_ip_trans _ _ _ EV SI) in SL. discriminate.
  - cbn [fst rp_ph]. split; [exact Logic.I|]. split; discriminate || auto.
  - cbn [fst rp_ph]. split; [exact Logic.I|]. split; discriminate || auto.
Qed.
Lemma receive_run_inv l : forall last now p, rinv last now p -> woken P last now (map rclock l) ->
  let p' := receive_run g wc keys p l in
  rinv (last_idle last (map rclock l)) (time_after now (map rclock l)) p' /\
  (rbase p = None -> rbase p' = None) /\
  (forall b', rbase p' = Some b' -> forall i, In i l -> ri_now i <= t0 + (3 + max / 471) * d) /\
  (Forall (fun i => silent g (ri_ev i)) l -> forall b', rbase p' = Some b' -> rbase p = Some b' /\ forall i, In i l -> ri_now i <= b' + d).
Proof.
  induction l as [|i l IH]; intros last now p I W; cbn [map woken rclock] in W.
  { cbn. split; [exact I|]. split; [auto|]. split; [intros _ _ _ []|]. intros _ b' H. split; [exact H|intros _ []]. }
  destruct W as (N1 & N2 & W). pose proof (receive_turn_inv _ _ _ _ I N1 N2) as (I1 & SL1 & O1).
  specialize (IH _ _ _ I1 W) as (J1 & J2 & J3 & J4). unfold receive_run. cbn [fold_left].
  fold (receive_run g wc keys (fst (receive_turn g wc keys p i)) l). cbn [map rclock last_idle].
  rewrite time_after_cons. cbn [fst].
  split; [exact J1|]. split; [auto|]. split.
  - intros b' HB j [<-|IJ]; [|eauto].
    destruct (rbase p) as [b|] eqn:BB; [|exfalso; rewrite (J2 (O1 eq_refl)) in HB; discriminate].
    apply (rinv_now _ _ _ _ _ I BB N2).
  - intros FS b' HB. inversion FS as [|? ? F1 F2]; subst. destruct (J4 F2 _ HB) as [J5 J6]. split; [auto|].
    intros j [<-|IJ]; [|auto]. apply (rinv_now _ _ _ _ _ I (SL1 F1 _ J5) N2).
Qed.

(** ** send *)
Definition ubase (p : uphase) : option N :=
  match p with UAsk _ w => Some (ws_start w) | USend _ _ _ _ st => Some (cs_time st) | _ => None end.
Definition uinv (last now : N) (p : uphase) : Prop :=
  match p with
  | UAsk _ w => waits last now w
  | USend k from _ _ st => last <= cs_time st + T /\ cs_time st <= now /\ k_timeout k = T /\ same_ip from home = true
  | _ => True
  end.
Lemma sender_send_time file st bl retry io sock st' out : sender_send file st bl retry io sock = (st', out, CRun) -> cs_time st' = cs_time st.
Proof.
  unfold sender_send. destruct (reader_next _ _ _ _ _) as [r1 res].
  destruct res as [[b|]|[|]|]; try discriminate; [destruct sock as [[]|]| |destruct io]; try discriminate; intros [= <- <-]; reflexivity.
Qed.
Lemma sender_recv_time dec timeout st e now st' : sender_recv dec timeout st e now = (st', CRun) ->
  cs_time st' = cs_time st /\ (e = EvWouldBlock -> now <= cs_time st + timeout) \/ (exists wire, e = EvDatagram true wire) /\ cs_time st' = now.
Proof.
  unfold sender_recv. destruct e as [b wire| |]; [|destruct (N.ltb_spec timeout (now - cs_time st)); [discriminate|]; intros [= <-]; left; split; [reflexivity|lia]|discriminate].
  destruct (dec wire) as [p|]; [|discriminate]. destruct b; cbn [negb]; [|intros [= <-]; left; split; [reflexivity|discriminate]].
  destruct (from_bytes p) as [[r|r|b x|b|c m|se]| |]; try discriminate; try (intros [= <-]; left; split; [reflexivity|discriminate]).
  destruct (reader_free _ _) as [r1 [n|]]; [|discriminate]. destruct (reader_finished r1); [discriminate|]. intros [= <-]. right. eauto.
Qed.
Lemma uinv_now last now p t b : uinv last now p -> ubase p = Some b -> t <= last + P -> t <= b + d.
Proof.
  unfold uinv, ubase. destruct p as [src w|k from key src st| |]; intros I [= <-] H; [apply (waits_now _ _ _ _ I H)|]. lia.
Qed.
Lemma send_turn_inv f last now p i : uinv last now p -> now <= si_now i -> si_now i <= last + P ->
  let p' := fst (send_turn g wc keys f p i) in
  uinv (if idle (si_ev i) then si_now i else last) (si_now i) p' /\
  (silent g (si_ev i) -> forall b', ubase p' = Some b' -> ubase p = Some b') /\
  (ubase p = None -> ubase p' = None).
Proof.
  intros I N1 N2. unfold send_turn, ubase. destruct p as [src w|k from key src st|tot key|].
  - unfold uinv in I.
    destruct (wait_turn wc w _) as [w'| | |e| |q port] eqn:WT; cbn [fst uinv]; try (split; [exact Logic.I|]; split; [discriminate|discriminate]).
    { split; [eapply wait_step; eassumption|]. split; [|discriminate]. intros SI b' [= <-]. rewrite (wait_silent _ _ _ _ _ SI WT). reflexivity. }
    destruct (wait_done _ _ _ _ _ _ WT) as (BS & src' & wire & EV & SI). rewrite EV.
    unfold send_accepted. destruct (_ && _)%bool; cbn [fst]; [split; [exact Logic.I|split; discriminate]|].
    split; [|split; [cbn [silent]; congruence|discriminate]]. cbn [uinv cs_time idle agreed k_timeout]. destruct I as (A & B & _).
    split; [lia|]. split; [lia|]. auto.
  - pose proof (uinv_now _ _ _ _ _ I eq_refl N2) as M. unfold uinv in I. destruct I as (A & B & KT & SI).
    destruct (sender_send _ _ _ _ _ _) as [[st1 plain] stat1] eqn:SS.
    destruct stat1; [|split; [exact Logic.I|split; discriminate]|split; [exact Logic.I|split; discriminate]].
    apply sender_send_time in SS.
    destruct (sender_recv _ _ _ _ _) as [st2 stat2] eqn:SR. cbn [fst].
    destruct stat2; [|split; [exact Logic.I|split; discriminate]|split; [exact Logic.I|split; discriminate]].
    apply sender_recv_time in SR. rewrite SS, KT in SR. cbn [uinv]. split; [|split; [|discriminate]].
    + split; [|split; [|auto]].
      * destruct (si_ev i) as [src' wire| |]; cbn [idle get_ev] in *.
        -- destruct SR as [[-> _]|[_ ->]]; lia.
        -- destruct SR as [[-> H]|[(wire & H) _]]; [apply H; reflexivity|discriminate].
        -- destruct SR as [[-> _]|[_ ->]]; lia.
      * destruct SR as [[-> _]|[_ ->]]; lia.
    + intros SL b' [= <-]. destruct SR as [[-> _]|((wire & EV) & _)]; [reflexivity|]. exfalso.
      destruct (si_ev i) as [src' wire'| |]; try discriminate. cbn [get_ev silent] in *. injection EV as EV _.
      unfold same_addr in EV. apply Bool.andb_true_iff in EV as [EV _]. rewrite (same_ip_trans _ _ _ EV SI) in SL. discriminate.
  - cbn [fst]. split; [exact Logic.I|]. split; discriminate || auto.
  - cbn [fst]. split; [exact Logic.I|]. split; discriminate || auto.
Qed.
Lemma send_run_inv f l : forall last now p, uinv last now p -> woken P last now (map sclock l) ->
  let p' := send_run g wc keys f p l in
  uinv (last_idle last (map sclock l)) (time_after now (map sclock l)) p' /\
  (Forall (fun i => silent g (si_ev i)) l -> forall b', ubase p' = Some b' -> ubase p = Some b' /\ forall i, In i l -> si_now i <= b' + d).
Proof.
  induction l as [|i l IH]; intros last now p I W; cbn [map woken sclock] in W.
  { cbn. split; [exact I|]. intros _ b' H. split; [exact H|intros _ []]. }
  destruct W as (N1 & N2 & W). pose proof (send_turn_inv f _ _ _ _ I N1 N2) as (I1 & SL1 & O1).
  specialize (IH _ _ _ I1 W) as (J1 & J4). unfold send_run. cbn [fold_left].
  fold (send_run g wc keys f (fst (send_turn g wc keys f p i)) l). cbn [map sclock last_idle].
  rewrite time_after_cons. cbn [fst]. split; [exact J1|].
  intros FS b' HB. inversion FS as [|? ? F1 F2]; subst. destruct (J4 F2 _ HB) as [J5 J6]. split; [auto|].
  intros j [<-|IJ]; [|auto]. apply (uinv_now _ _ _ _ _ I (SL1 F1 _ J5) N2).
Qed.
End End.

(** ** C74 *)
(** A [receive] that is woken up at least every [P] milliseconds is over after a time that depends on the
    timeout and the size limit only, whatever arrives. *)
Theorem receive_ends : forall g wc keys ex f P t0 l,
  run_ask g false (ru_opts g) = Some (wc, keys, ex) -> woken P t0 t0 (map rclock l) ->
  (exists i, In i l /\ t0 + (3 + CliModel.cl_max_size (ru_start g) / 471) * (CliModel.cl_timeout (ru_start g) + P) < ri_now i) ->
  receive_over (receive_run g wc keys (mkRP f (RAsk (wait_init wc ex t0))) l).
Proof.
  intros g wc keys ex f P t0 l RA W (i & II & LT).
  assert (I0 : rinv g P t0 t0 t0 (mkRP f (RAsk (wait_init wc ex t0)))) by (unfold rinv, waits; cbn; lia).
  pose proof (receive_run_inv g wc keys P t0 (run_ask_timeout _ _ _ _ _ _ RA) l _ _ _ I0 W) as (_ & _ & J & _).
  unfold receive_over, rbase in *. destruct (rp_ph _); try exact I; specialize (J _ eq_refl i II); lia.
Qed.

Lemma receive_run_app g wc keys p l1 l2 : receive_run g wc keys p (l1 ++ l2) = receive_run g wc keys (receive_run g wc keys p l1) l2.
Proof. apply fold_left_app. Qed.
Lemma send_run_app g wc keys f p l1 l2 : send_run g wc keys f p (l1 ++ l2) = send_run g wc keys f (send_run g wc keys f p l1) l2.
Proof. apply fold_left_app. Qed.

(** Both commands are over when nothing has come from the host for the timeout and [P]; and until an answer is
    accepted neither lasts longer than twice that. *)
Theorem receive_silence_ends : forall g wc keys ex f P t0 l,
  run_ask g false (ru_opts g) = Some (wc, keys, ex) -> woken P t0 t0 (map rclock l) ->
  let p := receive_run g wc keys (mkRP f (RAsk (wait_init wc ex t0))) l in
  let d := CliModel.cl_timeout (ru_start g) + P in
  (forall l1 l2, l = l1 ++ l2 -> Forall (fun i => silent g (ri_ev i)) l2 ->
    (exists i, In i l2 /\ time_after t0 (map rclock l1) + d < ri_now i) -> receive_over p) /\
  (forall w, rp_ph p = RAsk w -> time_after t0 (map rclock l) <= t0 + 2 * d).
Proof.
  intros g wc keys ex f P t0 l RA W p d. subst p d. pose proof (run_ask_timeout _ _ _ _ _ _ RA) as HT.
  assert (I0 : rinv g P t0 t0 t0 (mkRP f (RAsk (wait_init wc ex t0)))) by (unfold rinv, waits; cbn; lia). split.
  - intros l1 l2 -> SL (i & II & LT). rewrite map_app in W. apply woken_app in W as [W1 W2]. rewrite receive_run_app.
    pose proof (receive_run_inv g wc keys P t0 HT l1 _ _ _ I0 W1) as (I1 & _).
    remember (receive_run g wc keys _ l1) as p1 eqn:E1.
    pose proof (receive_run_inv g wc keys P t0 HT l2 _ _ _ I1 W2) as (_ & _ & _ & J). specialize (J SL).
    assert (B : forall b, rbase p1 = Some b -> b <= time_after t0 (map rclock l1)).
    { intros b. unfold rbase. unfold rinv in I1. destruct (rp_ph p1); intros [= <-]; [|]; apply I1. }
    unfold receive_over. remember (receive_run g wc keys p1 l2) as p2 eqn:E2. unfold rbase in J at 1.
    destruct (rp_ph p2); try exact I; destruct (J _ eq_refl) as [J1 J2]; specialize (J2 _ II); specialize (B _ J1); lia.
  - intros w PH. pose proof (receive_run_inv g wc keys P t0 HT l _ _ _ I0 W) as (I1 & _). unfold rinv in I1. rewrite PH in I1.
    eapply waits_now; [exact HT|exact I1|]. apply woken_last; [lia|exact W].
Qed.
Theorem send_silence_ends : forall g wc keys f dirsize P t0 start l,
  send_start g f dirsize t0 = Some (wc, keys, start) -> woken P t0 t0 (map sclock l) ->
  let p := send_run g wc keys f start l in
  let d := CliModel.cl_timeout (ru_start g) + P in
  (forall l1 l2, l = l1 ++ l2 -> Forall (fun i => silent g (si_ev i)) l2 ->
    (exists i, In i l2 /\ time_after t0 (map sclock l1) + d < si_now i) -> send_over p) /\
  (forall src w, p = UAsk src w -> time_after t0 (map sclock l) <= t0 + 2 * d).
Proof.
  intros g wc keys f dirsize P t0 start l SS W p d. subst p d.
  assert (HT : wc_timeout wc = CliModel.cl_timeout (ru_start g) /\ exists src ex, start = UAsk src (wait_init wc ex t0)).
  { unfold send_start in SS. destruct (create_reader _ _) as [src|]; [|discriminate].
    match type of SS with match run_ask g true ?o with _ => _ end = _ => destruct (run_ask g true o) as [[[wc1 keys1] ex1]|] eqn:RA; [|discriminate] end.
    injection SS as <- <- <-. split; [eapply run_ask_timeout; exact RA|eauto]. }
  destruct HT as [HT (src & ex & ->)].
  assert (I0 : uinv g P t0 t0 t0 (UAsk src (wait_init wc ex t0))) by (unfold uinv, waits; cbn; lia). split.
  - intros l1 l2 -> SL (i & II & LT). rewrite map_app in W. apply woken_app in W as [W1 W2]. rewrite send_run_app.
    pose proof (send_run_inv g wc keys P t0 HT f l1 _ _ _ I0 W1) as (I1 & _).
    remember (send_run g wc keys f _ l1) as p1 eqn:E1.
    pose proof (send_run_inv g wc keys P t0 HT f l2 _ _ _ I1 W2) as (_ & J). specialize (J SL).
    assert (B : forall b, ubase p1 = Some b -> b <= time_after t0 (map sclock l1)).
    { intros b. unfold ubase. unfold uinv in I1. destruct p1; intros [= <-]; [|]; apply I1. }
    unfold send_over. remember (send_run g wc keys f p1 l2) as p2 eqn:E2. unfold ubase in J at 1.
    destruct p2; try exact I; destruct (J _ eq_refl) as [J1 J2]; specialize (J2 _ II); specialize (B _ J1); lia.
  - intros src' w PH. pose proof (send_run_inv g wc keys P t0 HT f l _ _ _ I0 W) as (I1 & _). rewrite PH in I1.
    eapply waits_now; [exact HT|exact I1|]. apply woken_last; [lia|exact W].
Qed.

(** But there is no such bound for [send]: a server that acknowledges nothing but "block 0", again and again, holds it
    for ever, whatever the options and whenever it sends again. *)
Definition kind_for (o : options) (seek : bool) : kind :=
  if (op_window o =? 1) && negb seek then KSingle else if seek then KSeek else KMulti.
Lemma file_reader_kind o seek : file_reader o seek = new_reader (kind_for o seek) (bs_enc o) (op_window o).
Proof. unfold file_reader, kind_for. destruct (_ && _)%bool; [reflexivity|]. destruct seek; reflexivity. Qed.
Theorem acknowledging_nothing_holds_send : forall g wc keys f k from key src now seek wire l,
  CliModel.cl_file_key (ru_start g) = None -> src <> SDir -> 512 <= op_bs (k_opts k) < 65536 ->
  client_dec (ru_c g) (k_sock k) (op_bs (k_opts k)) wire = Some (to_bytes (PAck 0)) ->
  Forall (fun i => si_ev i = RvFrom from wire /\ si_io i = IoOk /\ si_sock i <> Some false) l ->
  exists r, send_run g wc keys f (USend k from key src (mkCS (file_reader (k_opts k) seek) 0 now)) l =
    USend k from key src (mkCS r 0 (time_after now (map sclock l))).
Proof.
  intros g wc keys f k from key src now seek wire l FK SD [B1 B2] DE. rewrite file_reader_kind.
  assert (B3 : 0 < bs_enc (k_opts k) /\ bs_enc (k_opts k) <= op_bs (k_opts k)).
  { revert B1 B2. destruct (k_opts k) as [bs r sz en w]. unfold bs_enc, ENCRYPTION_TAG_SIZE, ENCRYPTION_PADDING_SIZE, ENCRYPTION_NONCE_SIZE. cbn [op_bs op_enc]. destruct en; lia. }
  destruct B3 as [B3 B4].
  set (file := content f (Some (Reads src))). set (kd := kind_for (k_opts k) seek). set (bs := bs_enc (k_opts k)) in *. set (w := op_window (k_opts k)).
  assert (S0 : exists s, Sim file bs w kd (new_reader kd bs w) mapper_new s /\ conf s = 0).
  { exists (mkWin 0 0 0). split; [apply sim_init with (cap := bs); subst bs; lia|reflexivity]. }
  revert S0. generalize (new_reader kd bs w) as r. intros r S0 FL. revert r now S0.
  induction FL as [|i l (EV & IO & SO) FL IH]; intros r now (s & S & C); [exists r; reflexivity|].
  cbn [map]. rewrite time_after_cons. cbn [fst sclock].
  set (bl := N.max (op_bs (k_opts k) + DATA_PACKET_HEADER_SIZE) MIN_BUFFER_SIZE).
  assert (CAP : bs <= bl - DATA_PACKET_HEADER_SIZE) by (subst bl; unfold DATA_PACKET_HEADER_SIZE, MIN_BUFFER_SIZE; lia).
  destruct (sim_next file bs w (bl - DATA_PACKET_HEADER_SIZE) B3 ltac:(lia) CAP kd r mapper_new s (si_retry i) false S) as [N1 N2].
  assert (N3 : conf (fst (spec_next kd file bs w s (si_retry i) false)) = 0 /\
    match snd (spec_next kd file bs w s (si_retry i) false) with Ok _ => True | _ => False end).
  { unfold spec_next. destruct (conf s =? _); [exact (conj C I)|]. destruct (_ && _)%bool; [destruct kd; exact (conj C I)|].
    destruct (cur s <? hi s); [destruct kd; exact (conj C I)|]. destruct (_ || _)%bool; exact (conj C I). }
  destruct N3 as [N3 N4]. rewrite <- N1 in N4.
  remember (fst (spec_next kd file bs w s (si_retry i) false)) as s1 eqn:E1.
  assert (ST : send_turn g wc keys f (USend k from key src (mkCS r 0 now)) i = send_turn g wc keys f (USend k from key src (mkCS r 0 now)) i) by reflexivity.
  unfold send_turn in ST at 2. cbn [cs_r cs_total cs_time] in ST.
  assert (RA : read_as g (content f (Some (Reads src))) (bs_enc (k_opts k)) = file) by (unfold read_as; rewrite FK; reflexivity).
  assert (RI : io_bad (read_io g src r (si_retry i) (si_io i)) = false) by (unfold read_io; rewrite FK, IO; destruct src; reflexivity || congruence).
  rewrite RA in ST. fold bl in ST. unfold sender_send in ST. cbn [cs_r cs_total cs_time] in ST. rewrite RI in ST.
  destruct (reader_next file r _ _ _) as [r1 res]. cbn [fst snd] in *.
  destruct (sim_free file bs w bs B3 ltac:(lia) ltac:(lia) kd r1 mapper_new s1 0 N2 ltac:(right; cbn; lia)) as [F1 F2].
  change (fst (map_index mapper_new 0)) with 0 in F1, F2. change (snd (map_index mapper_new 0)) with mapper_new in F2.
  assert (F3 : spec_free kd file bs s1 0 = (s1, 0)).
  { unfold spec_free. rewrite N.min_0_l. destruct kd.
    - destruct (N.eqb_spec 0 (hi s1)) as [Z|Z]; [rewrite <- Z|reflexivity]. rewrite N3. reflexivity.
    - rewrite N3. reflexivity.
    - rewrite N3. reflexivity. }
  rewrite F3 in F1, F2. cbn [fst snd] in F1, F2.
  pose proof (sim_finished file bs w bs B3 ltac:(lia) ltac:(lia) kd _ _ _ F2) as F4.
  assert (F5 : spec_finished file bs s1 = false) by (unfold spec_finished, nblocks; rewrite N3; apply N.eqb_neq; generalize (blen file / bs); intros; lia).
  rewrite F5 in F4. destruct (reader_free r1 0) as [r2 n2] eqn:RF. cbn [fst snd] in *. subst n2.
  assert (SR : forall st1, cs_r st1 = r1 -> cs_total st1 = 0 ->
    sender_recv (client_dec (ru_c g) (k_sock k) (op_bs (k_opts k))) (k_timeout k) st1 (get_ev from (si_ev i)) (si_now i) = (mkCS r2 0 (si_now i), CRun)).
  { intros st1 Q1 Q2. rewrite EV. cbn [get_ev]. unfold same_addr, same_ip. rewrite Bool.eqb_reflx, N.eqb_refl. replace (beq _ _) with true by (symmetry; apply beq_eq; reflexivity).
    cbn [andb sender_recv]. rewrite DE. cbn [negb]. assert (AK : from_bytes (to_bytes (PAck 0)) = Ok (PAck 0)) by reflexivity. rewrite AK. cbv iota beta.
    rewrite Q1, RF, Q2. cbv iota beta. rewrite F4. reflexivity. }
  assert (R2 : fst (send_turn g wc keys f (USend k from key src (mkCS r 0 now)) i) = USend k from key src (mkCS r2 0 (si_now i))).
  { rewrite ST. destruct res as [[b|]|x|]; try contradiction.
    - destruct (si_sock i) as [[]|]; [| congruence |]; cbv iota beta; rewrite SR by reflexivity; reflexivity.
    - cbv iota beta; rewrite SR by reflexivity; reflexivity. }
  unfold send_run. cbn [fold_left]. rewrite R2. apply IH. exists s1. auto.
Qed.

(** ** Cases *)
Definition en_home : CliModel.addr := CliModel.mkAddr false (s2b "h") 69.
Definition en_peer : CliModel.addr := CliModel.mkAddr false (s2b "h") 4000.
Definition en_o : options := mkOpts 512 2000 (Some 0) LNone 1.
Definition en_g : run_cfg :=
  mkRun toy (CliModel.mkCS en_home en_home 5000 2000 (mkCcfg None None true) false None (s2b "/a") (s2b "f") en_o) [1; 2] [3; 4] [] (fun _ => []).
Definition en_fs : fs := let t := [([s2b "a"], NFile 0)] in
  mkFs (fun p => match find (fun x => match x with (q, _) => if list_eq_dec (list_eq_dec N.eq_dec) p q then true else false end) t with Some (_, n) => Some n | None => None end)
    (fun _ => repeat 7 600) 1 [] (fun _ => true) (fun _ => [s2b "a"]).
Definition en_oack : bytes := match create_extensions toy en_o None with Ok e => to_bytes (POack e) | _ => [] end.
(** The client is woken every second; the server answers after 3 seconds, sends a block at 7, another one at 12
    seconds and then the last one again and again, every half second. *)
Definition en_in (e : rev_) (t : N) : rin := mkRin e t false None true [].
Definition en_quiet (l : list N) : list rin := map (fun s => en_in RvBlock (1000 * s)) l.
Definition en_early : list rin :=
  en_quiet [1; 2; 3] ++ [en_in (RvFrom en_peer en_oack) 3000] ++ en_quiet [4; 5; 6; 7] ++
  [en_in (RvFrom en_peer (to_bytes (PData 1 (repeat 7 512)))) 7000] ++ en_quiet [8; 9; 10; 11; 12] ++
  [en_in (RvFrom en_peer (to_bytes (PData 2 (repeat 8 512)))) 12000].
Definition en_late (n : nat) : list rin :=
  flat_map (fun k => [en_in RvBlock (12000 + 1000 * N.of_nat k); en_in (RvFrom en_peer (to_bytes (PData 2 (repeat 8 512)))) (12500 + 1000 * N.of_nat k)]) (seq 1 n).
Definition en_receive (l : list rin) : option rprog :=
  match run_ask en_g false (ru_opts en_g) with Some (wc, keys, ex) => Some (receive_run en_g wc keys (mkRP en_fs (RAsk (wait_init wc ex 0))) l) | None => None end.
Fixpoint woken_b (P last now : N) (l : list (N * bool)) : bool :=
  match l with [] => true | (t, b) :: l => (now <=? t) && (t <=? last + P) && woken_b P (if b then t else last) t l end.
Lemma woken_check P l : forall last now, woken_b P last now l = true -> woken P last now l.
Proof.
  induction l as [|[t b] l IH]; intros last now; cbn [woken_b woken]; [auto|].
  rewrite !Bool.andb_true_iff. intros [[A B] C]. apply N.leb_le in A, B. auto.
Qed.
Definition en_phase (p : option rprog) : N :=
  match p with Some q => match rp_ph q with RAsk _ => 1 | RGet _ _ _ _ _ => 2 | RDone _ _ => 3 | RFailed => 4 end | None => 0 end.
(** It still waits after 2 seconds, has given up after 18 seconds, although the server never is silent; the bound of
    receive_ends is 7 times 6 seconds. *)
Example receive_ends_case :
  woken 1000 0 0 (map rclock (en_early ++ en_late 31)) /\
  en_phase (en_receive (en_quiet [1; 2])) = 1 /\ en_phase (en_receive (en_early ++ en_late 5)) = 2 /\ en_phase (en_receive (en_early ++ en_late 6)) = 4 /\
  (exists i, In i (en_early ++ en_late 31) /\ 0 + (3 + CliModel.cl_max_size (ru_start en_g) / 471) * (CliModel.cl_timeout (ru_start en_g) + 1000) < ri_now i) /\
  exists p, en_receive (en_early ++ en_late 31) = Some p /\ receive_over p.
Proof.
  split; [apply woken_check; vm_compute; reflexivity|].
  assert (E1 : en_phase (en_receive (en_quiet [1; 2])) = 1) by (vm_compute; reflexivity).
  assert (E2 : en_phase (en_receive (en_early ++ en_late 5)) = 2) by (vm_compute; reflexivity).
  assert (E3 : en_phase (en_receive (en_early ++ en_late 6)) = 4) by (vm_compute; reflexivity).
  do 3 (split; [assumption|]).
  assert (EX : exists i, In i (en_early ++ en_late 31) /\ 0 + (3 + CliModel.cl_max_size (ru_start en_g) / 471) * (CliModel.cl_timeout (ru_start en_g) + 1000) < ri_now i).
  { exists (en_in RvBlock 43000). split; [apply in_or_app; right; unfold en_late; apply in_flat_map; exists 31%nat; split; [apply in_seq; lia|left; reflexivity]|vm_compute; reflexivity]. }
  split; [exact EX|].
  assert (RA : run_ask en_g false (ru_opts en_g) <> None) by (vm_compute; discriminate).
  unfold en_receive. destruct (run_ask en_g false (ru_opts en_g)) as [[[wc keys] ex]|] eqn:R; [|congruence].
  eexists. split; [reflexivity|]. eapply receive_ends; [exact R| |exact EX]. apply woken_check. vm_compute. reflexivity.
Qed.
(** The same server, silent after 12 seconds: the commands are over 6 seconds later at the latest. *)
Example receive_silence_case :
  woken 1000 0 0 (map rclock (en_early ++ en_quiet [13; 14; 15; 16; 17; 18; 19])) /\
  time_after 0 (map rclock en_early) = 12000 /\ Forall (fun i => silent en_g (ri_ev i)) (en_quiet [13; 14; 15; 16; 17; 18; 19]) /\
  en_phase (en_receive (en_early ++ en_quiet [13; 14; 15; 16; 17])) = 2 /\
  exists p, en_receive (en_early ++ en_quiet [13; 14; 15; 16; 17; 18; 19]) = Some p /\ receive_over p.
Proof.
  assert (W : woken 1000 0 0 (map rclock (en_early ++ en_quiet [13; 14; 15; 16; 17; 18; 19]))) by (apply woken_check; vm_compute; reflexivity).
  assert (TA : time_after 0 (map rclock en_early) = 12000) by (vm_compute; reflexivity).
  assert (SI : Forall (fun i => silent en_g (ri_ev i)) (en_quiet [13; 14; 15; 16; 17; 18; 19])) by (repeat (constructor; [exact I|]); constructor).
  split; [exact W|]. split; [exact TA|]. split; [exact SI|]. split; [vm_compute; reflexivity|].
  assert (RA : run_ask en_g false (ru_opts en_g) <> None) by (vm_compute; discriminate).
  unfold en_receive. destruct (run_ask en_g false (ru_opts en_g)) as [[[wc keys] ex]|] eqn:R; [|congruence].
  eexists. split; [reflexivity|]. eapply (proj1 (receive_silence_ends _ _ _ _ _ _ _ _ R W)); [reflexivity|exact SI|].
  exists (en_in RvBlock 19000). split; [do 6 right; left; reflexivity|]. rewrite TA. reflexivity.
Qed.
(** A server that accepts an upload and then acknowledges block 0 every 3 seconds: after 20 times, a minute, the
    command still sends; when the server falls silent, it is over. *)
Definition en_sin (e : rev_) (t : N) : sin := mkSin false IoOk (Some true) e t.
Definition en_acks (n : nat) : list sin :=
  flat_map (fun k => [en_sin RvBlock (3000 * N.of_nat k); en_sin (RvFrom en_peer (to_bytes (PAck 0))) (3000 * N.of_nat k)]) (seq 2 n).
Definition en_send (l : list sin) : option uphase :=
  match send_start en_g en_fs 0 0 with Some (wc, keys, p) => Some (send_run en_g wc keys en_fs p l) | None => None end.
Definition en_uphase (p : option uphase) : N :=
  match p with Some (UAsk _ _) => 1 | Some (USend _ _ _ _ _) => 2 | Some (UDone _ _) => 3 | Some UFailed => 4 | None => 0 end.
Definition en_oack_up : bytes := match create_extensions toy (set_size en_o (Some 600)) None with Ok e => to_bytes (POack e) | _ => [] end.
Definition en_accepted (rest : list sin) : list sin := [en_sin RvBlock 1000; en_sin (RvFrom en_peer en_oack_up) 3000] ++ rest.
Example send_held_case :
  let late := [en_sin RvBlock 65000; en_sin RvBlock 68000; en_sin RvBlock 71000] in
  en_uphase (en_send (en_accepted (en_acks 20))) = 2 /\
  woken 5000 0 0 (map sclock (en_accepted (en_acks 20) ++ late)) /\
  en_uphase (en_send (en_accepted (en_acks 20) ++ late)) = 4.
Proof.
  intros late. split; [vm_compute; reflexivity|]. split; [apply woken_check; vm_compute; reflexivity|vm_compute; reflexivity].
Qed.
(** ... and the hypotheses of acknowledging_nothing_holds_send are those of such a transfer. *)
Example send_held_hypotheses : forall wc keys n, let k := mkCside (mkSock None LNone None 512) en_o 2000 5000 in
  exists r, send_run en_g wc keys en_fs (USend k en_peer None (SFile 0) (mkCS (file_reader en_o false) 0 0))
    (map (fun t => mkSin (N.odd t) IoOk (Some true) (RvFrom en_peer (to_bytes (PAck 0))) (4000 * t)) (map N.of_nat (seq 1 n))) =
    USend k en_peer None (SFile 0) (mkCS r 0 (4000 * N.of_nat n)).
Proof.
  intros wc keys n k.
  pose proof (acknowledging_nothing_holds_send en_g wc keys en_fs k en_peer None (SFile 0) 0 false (to_bytes (PAck 0))
    (map (fun t => mkSin (N.odd t) IoOk (Some true) (RvFrom en_peer (to_bytes (PAck 0))) (4000 * t)) (map N.of_nat (seq 1 n)))
    eq_refl ltac:(discriminate) ltac:(cbn; lia) eq_refl) as H.
  destruct H as [r H]; [apply Forall_forall; intros x IN; apply in_map_iff in IN as (t & <- & _); cbn; split; [reflexivity|split; [reflexivity|discriminate]]|].
  exists r. etransitivity; [exact H|]. do 2 f_equal. clear. rewrite !map_map.
  destruct n as [|n]; [reflexivity|]. rewrite seq_S, map_app. cbn [map]. unfold time_after. rewrite last_last. cbn [fst sclock si_now]. reflexivity.
Qed.
Print Assumptions receive_ends.
Print Assumptions receive_silence_ends.
Print Assumptions send_silence_ends.
Print Assumptions acknowledging_nothing_holds_send.
