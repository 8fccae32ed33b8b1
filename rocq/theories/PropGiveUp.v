(** When a running client transfer ends without success (C56). *)
From Verif Require Import Base BaseProofs PacketModel PacketProofs MapperModel MapperProofs ReaderModel ReaderSpec ReaderProofs ConfigModel ConnModel ClientModel ConnSpec WriterSpec WriterProofs SystemModel ConnProofs.

(** Histories of a download that still runs, newest first: when the client woke up, and how many
    blocks it has stored since the start. *)
Inductive download_history (dec : bytes -> option bytes) (o : options) (max timeout start : N) : list (N * N) -> crecv -> Prop :=
| dh_start : download_history dec o max timeout start [(start, 0)] (crecv_new start)
| dh_step h st e v st' plain :
    download_history dec o max timeout start h st ->
    recv_step dec o max timeout st e (e_now v) (e_io v) (e_short v) (e_sock v) (e_txt v) = (st', plain, CRun) ->
    download_history dec o max timeout start ((e_now v, w_written (cr_w st')) :: h) st'.
(** The time at which the number of stored blocks last changed. *)
Fixpoint last_change (h : list (N * N)) : N :=
  match h with
  | [] => 0
  | (t, n) :: h' => match h' with (_, m) :: _ => if n =? m then last_change h' else t | [] => t end
  end.

(** Histories of an upload that still runs, newest first: when the client received an
    acknowledgement of the server, first the start. *)
Definition is_ack (dec : bytes -> option bytes) (e : cev) : bool :=
  match e with
  | EvDatagram true wire => match dec wire with Some p => match from_bytes p with Ok (PAck _) => true | _ => false end | None => false end
  | _ => false
  end.
Inductive upload_history (dec : bytes -> option bytes) (file : bytes) (kd : kind) (bs w timeout start : N) : list N -> csend -> Prop :=
| uh_start : upload_history dec file kd bs w timeout start [start] (mkCS (new_reader kd bs w) 0 start)
| uh_send h st buflen retry io sock st' plain :
    upload_history dec file kd bs w timeout start h st -> bs + DATA_PACKET_HEADER_SIZE <= buflen ->
    sender_send file st buflen retry io sock = (st', plain, CRun) ->
    upload_history dec file kd bs w timeout start h st'
| uh_recv h st e now st' :
    upload_history dec file kd bs w timeout start h st ->
    sender_recv dec timeout st e now = (st', CRun) ->
    upload_history dec file kd bs w timeout start (if is_ack dec e then now :: h else h) st'.

Lemma write_block_count w b d io sh w' r : write_block w b d io sh = (w', r) ->
  match r with
  | Ok (n, i) => w_written w' = w_written w + 1 /\ n <= blen d /\ io = false
  | Err WFile => w_written w' = w_written w /\ io = true
  | Panic => False
  | _ => w_written w' = w_written w
  end.
Proof.
  unfold write_block. destruct (map_index _ _) as [i m].
  destruct (i <? _); [intros [= <- <-]; reflexivity|]. destruct (_ <? i); [intros [= <- <-]; reflexivity|].
  destruct io; intros [= <- <-]; cbn [w_written]; [auto|]. split; [reflexivity|]. split; [|reflexivity].
  destruct sh as [k|]; [|lia]. rewrite blen_takeN. lia.
Qed.
Lemma history_time dec o max timeout start h st : download_history dec o max timeout start h st ->
  cr_time st = last_change h /\ exists t h', h = (t, w_written (cr_w st)) :: h'.
Proof.
  induction 1 as [|h st e v st' plain H [IT (t0 & h0 & IH)] E]; [split; [reflexivity|exists start, []; reflexivity]|].
  split; [|eauto]. subst h. cbn [last_change]. unfold recv_step in E.
  destruct e as [p wire| |]; [|injection E as <- <- E; rewrite N.eqb_refl; exact IT|discriminate].
  destruct (dec wire) as [x|]; [|discriminate].
  destruct (negb p); [injection E as <- <-; rewrite N.eqb_refl; exact IT|].
  destruct (from_bytes x) as [[?|?|b d|?|?|?]|?|]; try discriminate; try (injection E as <- <-; rewrite N.eqb_refl; exact IT).
  unfold cl_write_block in E. destruct (write_block _ _ _ _ _) as [w1 res] eqn:WB. apply write_block_count in WB.
  destruct res as [[n i]|[c i|c i|]|]; try discriminate.
  - destruct WB as (W1 & _). destruct (negb _); [discriminate|]. destruct (_ && _)%bool; [discriminate|].
    destruct (n <? bs_enc o); [discriminate|]. injection E as <- <-. cbn [cr_time cr_w]. rewrite W1.
    destruct (N.eqb_spec (w_written (cr_w st) + 1) (w_written (cr_w st))); [lia|reflexivity].
  - destruct (_ && _)%bool; [discriminate|]. injection E as <- <-. cbn [cr_time cr_w]. rewrite WB, N.eqb_refl. exact IT.
  - destruct (_ && _)%bool; [discriminate|]. injection E as <- <-. cbn [cr_time cr_w]. rewrite WB, N.eqb_refl. exact IT.
Qed.

(** A download gives up exactly when it wakes up without a datagram and no new block has been
    stored for longer than the request timeout. *)
Theorem download_gives_up : forall dec o max timeout start h st v,
  download_history dec o max timeout start h st ->
  forall st' plain stat,
  recv_step dec o max timeout st EvWouldBlock (e_now v) (e_io v) (e_short v) (e_sock v) (e_txt v) = (st', plain, stat) ->
  st' = st /\ plain = [] /\ (stat = CFail <-> timeout < e_now v - last_change h) /\ (stat = CRun <-> e_now v - last_change h <= timeout).
Proof.
  intros dec o max timeout start h st v H st' plain stat E. apply history_time in H as [HT _]. cbn in E. injection E as <- <- <-.
  rewrite HT. destruct (N.ltb_spec timeout (e_now v - last_change h)); (do 2 (split; [reflexivity|])); split; split; intros; congruence || lia.
Qed.

(** An upload gives up exactly when it wakes up without a datagram and no acknowledgement of the
    server has arrived for longer than the request timeout. *)
Lemma upload_time dec file kd bs w timeout start h st : upload_history dec file kd bs w timeout start h st -> exists h', h = cs_time st :: h'.
Proof.
  induction 1 as [|h st bl retry io sock st' plain H (h' & IH) HB E|h st e now st' H (h' & IH) E]; [exists []; reflexivity| |].
  - exists h'. rewrite IH. f_equal. unfold sender_send in E. destruct (reader_next _ _ _ _ _) as [r1 res].
    destruct res as [[b|]|[|]|]; try discriminate; [destruct sock as [[]|]| |destruct io]; try discriminate; injection E as <- <-; reflexivity.
  - unfold sender_recv in E. destruct e as [p wire| |]; [|cbn [is_ack]; injection E as <- E; eauto|discriminate].
    cbn [is_ack]. destruct (dec wire) as [x|]; [|discriminate].
    destruct p; cbn [negb] in E; [|injection E as <-; eauto].
    destruct (from_bytes x) as [[?|?|?|b|?|?]|?|]; try discriminate; try (injection E as <-; eauto).
    destruct (reader_free _ _) as [r1 [n|]]; [|discriminate]. destruct (reader_finished r1); [discriminate|]. injection E as <-. cbn. eauto.
Qed.
Theorem upload_gives_up : forall dec file kd bs w timeout start last h st now st' stat,
  upload_history dec file kd bs w timeout start (last :: h) st ->
  sender_recv dec timeout st EvWouldBlock now = (st', stat) ->
  st' = st /\ (stat = CFail <-> timeout < now - last) /\ (stat = CRun <-> now - last <= timeout).
Proof.
  intros dec file kd bs w timeout start last h st now st' stat H E. apply upload_time in H as (h' & [= -> ->]). cbn in E. injection E as <- <-.
  destruct (N.ltb_spec timeout (now - cs_time st)); (split; [reflexivity|]); split; split; intros; congruence || lia.
Qed.

(** Why a running download fails: *)
Theorem download_fails_only : forall dec o max timeout st e v st' plain,
  recv_step dec o max timeout st e (e_now v) (e_io v) (e_short v) (e_sock v) (e_txt v) = (st', plain, CFail) ->
  match e with
  | EvSocketError => True
  | EvWouldBlock => timeout < e_now v - cr_time st
  | EvDatagram peer wire =>
      dec wire = None \/
      exists p, dec wire = Some p /\ peer = true /\
        match from_bytes p with
        | Ok (PError _ _) => True
        | Ok (PData b d) => e_io v = true (* the file cannot be written *) \/ max < cr_total st + blen d (* too large *) \/
                            e_sock v = false (* the acknowledgement cannot be sent *)
        | _ => False
        end
  end.
Proof.
  intros dec o max timeout st e v st' plain E. unfold recv_step in E. destruct e as [p wire| |]; [| |exact I].
  2:{ destruct (N.ltb_spec timeout (e_now v - cr_time st)); [assumption|discriminate]. }
  destruct (dec wire) as [x|]; [|auto]. destruct p; cbn [negb] in E; [|discriminate]. right. exists x. split; [reflexivity|]. split; [reflexivity|].
  destruct (from_bytes x) as [[?|?|b d|?|?|?]|?|]; try discriminate; [|exact I].
  unfold cl_write_block in E. destruct (write_block _ _ _ _ _) as [w1 res] eqn:WB. apply write_block_count in WB.
  destruct res as [[n i]|[c i|c i|]|].
  - destruct WB as (_ & WN & _). unfold cl_size_ok in E. rewrite Bool.negb_involutive in E.
    destruct (N.ltb_spec max (cr_total st + n)); [right; left; lia|].
    destruct (e_sock v); [|auto]. rewrite Bool.andb_false_r in E. destruct (n <? bs_enc o); discriminate.
  - destruct (e_sock v); [|auto]. rewrite Bool.andb_false_r in E. discriminate.
  - destruct (e_sock v); [|auto]. rewrite Bool.andb_false_r in E. discriminate.
  - destruct WB; auto.
  - destruct WB.
Qed.

(** Conversely, each of these ends a download (a block that is too large, or whose
    acknowledgement cannot be sent: C26, C44): *)
Theorem download_fails_on : forall dec o max timeout st e v st' plain stat,
  recv_step dec o max timeout st e (e_now v) (e_io v) (e_short v) (e_sock v) (e_txt v) = (st', plain, stat) ->
  match e with
  | EvSocketError => True
  | EvWouldBlock => timeout < e_now v - cr_time st
  | EvDatagram peer wire => dec wire = None \/ exists p c m, dec wire = Some p /\ peer = true /\ from_bytes p = Ok (PError c m)
  end -> st' = st /\ plain = [] /\ stat = CFail.
Proof.
  intros dec o max timeout st e v st' plain stat E H. unfold recv_step in E. destruct e as [p wire| |].
  - destruct H as [H|(x & c & m & H & -> & D)]; rewrite H in E; [injection E as <- <- <-; auto|]. cbn [negb] in E. rewrite D in E.
    injection E as <- <- <-; auto.
  - destruct (N.ltb_spec timeout (e_now v - cr_time st)); [injection E as <- <- <-; auto|lia].
  - injection E as <- <- <-; auto.
Qed.

(** Why a running upload fails; in particular no history of acknowledgements, whoever sent them,
    makes it panic. *)
Lemma upload_sim dec file kd bs w timeout start h st : 0 < bs -> bs < 65536 ->
  upload_history dec file kd bs w timeout start h st ->
  exists m s, Sim file bs w kd (cs_r st) m s /\ conf s < nblocks file bs.
Proof.
  intros B1 B2. induction 1 as [|h st bl retry io sock st' plain H (m & s & S & C) HB E|h st e now st' H (m & s & S & C) E].
  - exists mapper_new, (mkWin 0 0 0). split; [apply sim_init with (cap := bs); lia|]. cbn [conf]. unfold nblocks. generalize (blen file / bs). intros; lia.
  - unfold sender_send in E. unfold DATA_PACKET_HEADER_SIZE in *.
    destruct (sim_next file bs w (bl - 4) B1 B2 ltac:(lia) kd (cs_r st) m s retry (io_bad io) S) as [N1 N2].
    destruct (reader_next _ _ _ _ _) as [r1 res]. cbn [fst snd] in *.
    assert (CS : conf (fst (spec_next kd file bs w s retry (io_bad io))) = conf s).
    { unfold spec_next. destruct (conf s =? _); [reflexivity|]. destruct (retry && _)%bool; [destruct kd, (io_bad io); reflexivity|].
      destruct (cur s <? hi s); [destruct kd, (io_bad io); reflexivity|]. destruct (_ || _)%bool; [reflexivity|]. destruct (io_bad io); reflexivity. }
    exists m, (fst (spec_next kd file bs w s retry (io_bad io))). rewrite CS. split; [|exact C].
    destruct res as [[b|]|[|]|]; try discriminate; [destruct sock as [[]|]| |destruct io]; try discriminate; injection E as <- <-; exact N2.
  - unfold sender_recv in E. destruct e as [p wire| |]; [|injection E as <- E; eauto|discriminate].
    destruct (dec wire) as [x|]; [|discriminate]. destruct p; cbn [negb] in E; [|injection E as <-; eauto].
    destruct (from_bytes x) as [[?|?|?|b|?|?]|?|]; try discriminate; try (injection E as <-; eauto).
    destruct (sim_free file bs w bs B1 B2 ltac:(lia) kd (cs_r st) m s b S ltac:(auto)) as [N1 N2].
    destruct (reader_free _ _) as [r1 [k|]]; [|discriminate]. cbn [fst snd] in *.
    pose proof (sim_finished file bs w bs B1 B2 ltac:(lia) kd r1 _ _ N2) as F.
    destruct (reader_finished r1); [discriminate|]. injection E as <-. cbn [cs_r].
    eexists _, _. split; [exact N2|]. destruct N2 as [(W1 & W2 & W3 & _) _]. unfold spec_finished in F.
    revert F W1 W2 W3. generalize (fst (spec_free kd file bs s (fst (map_index m b)))). intros s' F W1 W2 W3.
    symmetry in F. apply N.eqb_neq in F. lia.
Qed.
Theorem upload_fails_only : forall dec file kd bs w timeout start last h st, 0 < bs -> bs < 65536 ->
  upload_history dec file kd bs w timeout start (last :: h) st ->
  (forall buflen retry io sock st' plain, bs + DATA_PACKET_HEADER_SIZE <= buflen ->
    sender_send file st buflen retry io sock = (st', plain, CFail) -> io = IoFail \/ sock = Some false) /\
  (forall e now st', sender_recv dec timeout st e now = (st', CFail) ->
    match e with
    | EvSocketError => True
    | EvWouldBlock => timeout < now - last
    | EvDatagram peer wire =>
        dec wire = None \/ exists p c m, dec wire = Some p /\ peer = true /\ from_bytes p = Ok (PError c m)
    end).
Proof.
  intros dec file kd bs w timeout start last h st B1 B2 H.
  pose proof (upload_sim _ _ _ _ _ _ _ _ _ B1 B2 H) as (m & s & S & C). apply upload_time in H as (h' & [= HT _]). split.
  - intros bl retry io sock st' plain HB E. unfold sender_send in E. unfold DATA_PACKET_HEADER_SIZE in *.
    destruct (sim_next file bs w (bl - 4) B1 B2 ltac:(lia) kd (cs_r st) m s retry (io_bad io) S) as [N1 _].
    destruct (reader_next _ _ _ _ _) as [r1 res]. cbn [fst snd] in *.
    destruct res as [[b|]|[|]|]; try discriminate.
    + destruct sock as [[]|]; try discriminate. auto.
    + destruct io; try discriminate; [|auto]. exfalso. revert N1. cbn [io_bad]. unfold spec_next.
      destruct (conf s =? _); [discriminate|]. destruct (retry && _)%bool; [destruct kd; discriminate|].
      destruct (cur s <? hi s); [destruct kd; discriminate|]. destruct (_ || _)%bool; discriminate.
    + exfalso. revert N1. unfold spec_next. 
      destruct (conf s =? _); [discriminate|]. destruct (retry && _)%bool; [destruct kd, (io_bad io); discriminate|].
      destruct (cur s <? hi s); [destruct kd, (io_bad io); discriminate|]. destruct (_ || _)%bool; [discriminate|]. destruct (io_bad io); discriminate.
    + exfalso. revert N1. unfold spec_next. 
      destruct (conf s =? _); [discriminate|]. destruct (retry && _)%bool; [destruct kd, (io_bad io); discriminate|].
      destruct (cur s <? hi s); [destruct kd, (io_bad io); discriminate|]. destruct (_ || _)%bool; [discriminate|]. destruct (io_bad io); discriminate.
  - intros e now st' E. unfold sender_recv in E. destruct e as [p wire| |]; [| |exact I].
    2:{ rewrite HT. destruct (N.ltb_spec timeout (now - cs_time st)); [assumption|discriminate]. }
    destruct (dec wire) as [x|]; [|auto]. destruct p; cbn [negb] in E; [|discriminate].
    destruct (from_bytes x) as [[?|?|?|b|c msg|?]|?|] eqn:D; try discriminate.
    + exfalso. destruct (sim_free file bs w bs B1 B2 ltac:(lia) kd (cs_r st) m s b S ltac:(auto)) as [N1 _].
      destruct (reader_free _ _) as [r1 [k|]]; cbn in N1; [|discriminate]. destruct (reader_finished r1); discriminate.
    + right. exists x, c, msg. auto.
Qed.
Theorem upload_fails_on : forall dec timeout st e now st' stat,
  sender_recv dec timeout st e now = (st', stat) ->
  match e with
  | EvSocketError => True
  | EvWouldBlock => timeout < now - cs_time st
  | EvDatagram peer wire => dec wire = None \/ exists p c m, dec wire = Some p /\ peer = true /\ from_bytes p = Ok (PError c m)
  end -> st' = st /\ stat = CFail.
Proof.
  intros dec timeout st e now st' stat E H. unfold sender_recv in E. destruct e as [p wire| |].
  - destruct H as [H|(x & c & m & H & -> & D)]; rewrite H in E; [injection E as <- <-; auto|]. cbn [negb] in E. rewrite D in E.
    injection E as <- <-; auto.
  - destruct (N.ltb_spec timeout (now - cs_time st)); [injection E as <- <-; auto|lia].
  - injection E as <- <-; auto.
Qed.

(** Datagrams of strangers (without encryption any datagram, with it one that was sealed for this
    client) keep a download waiting for ever: the time limit is looked at only when nothing arrives. *)
Theorem download_postponed : forall dec o max timeout start wire p times,
  dec wire = Some p ->
  download_history dec o max timeout start (map (fun t => (t, 0)) times ++ [(start, 0)]) (crecv_new start).
Proof.
  intros dec o max timeout start wire p times D. induction times as [|t times IH]; cbn [map app]; [constructor|].
  apply (dh_step dec o max timeout start _ (crecv_new start) (EvDatagram false wire) (mkEnv t false None true []) (crecv_new start) []); [exact IH|].
  cbn. rewrite D. reflexivity.
Qed.
Theorem upload_postponed : forall dec file kd bs w timeout start wire p, dec wire = Some p ->
  upload_history dec file kd bs w timeout start [start] (mkCS (new_reader kd bs w) 0 start) /\
  forall now, sender_recv dec timeout (mkCS (new_reader kd bs w) 0 start) (EvDatagram false wire) now = (mkCS (new_reader kd bs w) 0 start, CRun).
Proof. intros. split; [constructor|]. intros now. cbn. rewrite H. reflexivity. Qed.

(** ** Cases.  A download with a time limit of 100: a block is stored at 50, the same block again at 120;
    at 150 the client still waits, at 151 it gives up (without the repeated block as well). *)
Definition gu_dec : bytes -> option bytes := fun x => Some x.
Definition gu_o : options := mkOpts 4 10 None LNone 2.
Definition gu_env (now : N) : env := mkEnv now false None true [].
Definition gu_step (st : crecv) (now b : N) (d : bytes) : crecv * list bytes * cstat :=
  recv_step gu_dec gu_o 1000 100 st (EvDatagram true (to_bytes (PData b d))) now false None true [].
Definition gu_st1 : crecv := fst (fst (gu_step (crecv_new 0) 50 1 [1; 2; 3; 4])).
Definition gu_st2 : crecv := fst (fst (gu_step gu_st1 120 1 [1; 2; 3; 4])).
Definition gu_wait (now : N) : cstat := snd (recv_step gu_dec gu_o 1000 100 gu_st2 EvWouldBlock now false None true []).
Example download_gives_up_case :
  download_history gu_dec gu_o 1000 100 0 [(120, 1); (50, 1); (0, 0)] gu_st2 /\ gu_wait 150 = CRun /\ gu_wait 151 = CFail.
Proof.
  split; [|split; vm_compute; reflexivity].
  eapply (dh_step gu_dec gu_o 1000 100 0 [(50, 1); (0, 0)] gu_st1 (EvDatagram true (to_bytes (PData 1 [1; 2; 3; 4]))) (gu_env 120) gu_st2); [|vm_compute; reflexivity].
  eapply (dh_step gu_dec gu_o 1000 100 0 [(0, 0)] (crecv_new 0) (EvDatagram true (to_bytes (PData 1 [1; 2; 3; 4]))) (gu_env 50) gu_st1); [|vm_compute; reflexivity].
  constructor.
Qed.
(** An upload of 6 bytes in blocks of 4: block 1 is sent and acknowledged at 50 and again at 120; it gives up
    at 221 (here the repeated acknowledgement counts). *)
Definition gu_file : bytes := [1; 2; 3; 4; 5; 6].
Definition gu_s0 : csend := mkCS (new_reader KMulti 4 2) 0 0.
Definition gu_s1 : csend := fst (fst (sender_send gu_file gu_s0 8 false IoOk (Some true))).
Definition gu_s2 : csend := fst (sender_recv gu_dec 100 gu_s1 (EvDatagram true (to_bytes (PAck 1))) 50).
Definition gu_s3 : csend := fst (sender_recv gu_dec 100 gu_s2 (EvDatagram true (to_bytes (PAck 1))) 120).
Example upload_gives_up_case :
  upload_history gu_dec gu_file KMulti 4 2 100 0 [120; 50; 0] gu_s3 /\
  snd (sender_recv gu_dec 100 gu_s3 EvWouldBlock 220) = CRun /\ snd (sender_recv gu_dec 100 gu_s3 EvWouldBlock 221) = CFail.
Proof.
  split; [|split; vm_compute; reflexivity].
  apply (uh_recv gu_dec gu_file KMulti 4 2 100 0 [50; 0] gu_s2 (EvDatagram true (to_bytes (PAck 1))) 120); [|vm_compute; reflexivity].
  apply (uh_recv gu_dec gu_file KMulti 4 2 100 0 [0] gu_s1 (EvDatagram true (to_bytes (PAck 1))) 50); [|vm_compute; reflexivity].
  eapply (uh_send gu_dec gu_file KMulti 4 2 100 0 [0] gu_s0 8 false IoOk (Some true)); [constructor|vm_compute; discriminate|vm_compute; reflexivity].
Qed.
(** The failures have cases, too: a full disk, a file that is too large, a failing socket. *)
Example download_fails_case :
  snd (recv_step gu_dec gu_o 1000 100 gu_st2 (EvDatagram true (to_bytes (PData 2 [5]))) 130 true None true []) = CFail /\
  snd (recv_step gu_dec gu_o 4 100 gu_st2 (EvDatagram true (to_bytes (PData 2 [5]))) 130 false None true []) = CFail /\
  snd (recv_step gu_dec gu_o 1000 100 gu_st2 (EvDatagram true (to_bytes (PData 2 [5]))) 130 false None false []) = CFail /\
  snd (recv_step gu_dec gu_o 1000 100 gu_st2 (EvDatagram true (to_bytes (PData 2 [5]))) 130 false None true []) = CDone 5.
Proof. do 3 (split; [vm_compute; reflexivity|]). vm_compute; reflexivity. Qed.
Print Assumptions download_gives_up. Print Assumptions upload_gives_up. Print Assumptions download_fails_only.
Print Assumptions download_fails_on. Print Assumptions upload_fails_only. Print Assumptions upload_fails_on.
Print Assumptions download_postponed. Print Assumptions upload_postponed.
