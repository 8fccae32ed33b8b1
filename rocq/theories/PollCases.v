(** Runs of the single threaded server with its poller: the hypotheses of PropPoll.v are met. *)
From Verif Require Import Base BaseProofs PacketModel ConfigModel CryptoModel ExtModel ConnModel ConnSpec HandshakeModel ServerModel ServerSpec
  ServerProofs PropServer PropFair CryptoSpec PollModel PollProofs PropPoll ServerCases.

(** Something arrives, or the server does a turn. *)
Inductive ev := EvIn (x : option (addr * bytes)) | EvTurn (i : input) (w : during).
Definition no_fail : addr -> bool := fun _ => false.
Definition pstep (g : srvcfg) (st : pstate) (e : ev) : option pstate :=
  match e with
  | EvIn (Some (a, d)) => if has_entry (s_clients (ps_srv st)) a then Some (mkPs (ps_srv st) (arrive (ps_poll st) a d)) else None
  | EvIn None => Some (mkPs (ps_srv st) (main_readable (ps_poll st)))
  | EvTurn i w => match pgo toy g st i no_fail w with
                  | Some st' => if s_sockid (ps_srv st) <=? s_sockid (ps_srv st') then Some st' else None
                  | None => None
                  end
  end.
Fixpoint prun (g : srvcfg) (st : pstate) (l : list ev) : option pstate :=
  match l with [] => Some st | e :: l' => match pstep g st e with Some st' => prun g st' l' | None => None end end.
Lemma prun_reach g : forall l st st', preach toy g st -> prun g st l = Some st' -> preach toy g st'.
Proof.
  induction l as [|e l IH]; cbn [prun]; intros st st' R E; [injection E as <-; exact R|].
  destruct (pstep g st e) as [st1|] eqn:E1; [|discriminate]. apply (IH st1); [|exact E]. clear E IH. destruct e as [[[a d]|]|i w]; cbn [pstep] in E1.
  - destruct (has_entry _ a) eqn:HE; [|discriminate]. injection E1 as <-. eapply preach_arrive; [exact R|constructor; exact HE].
  - injection E1 as <-. eapply preach_arrive; [exact R|constructor].
  - destruct (pgo _ _ _ _ _ _) as [st2|] eqn:EP; [|discriminate]. apply pgo_turn in EP.
    destruct (N.leb_spec (s_sockid (ps_srv st)) (s_sockid (ps_srv st2))); [|discriminate]. injection E1 as <-.
    eapply preach_turn; eassumption.
Qed.
(** The turns of a run all leave [a]'s datagram where it is. *)
Definition same_list (l m : list N) : bool := if list_eq_dec N.eq_dec l m then true else false.
Definition skips (g : srvcfg) (n : N) (a : addr) (st : pstate) (e : ev) : bool :=
  match e with
  | EvIn _ => true
  | EvTurn i w =>
      let i' := rx_of g st i no_fail in
      let m := middle g (ps_srv st) i' in
      (N.of_nat (length (s_clients (ps_srv st))) <=? n) && same_list (addrs (s_clients m)) (addrs (s_clients (ps_srv st))) &&
      match fst (scan (i_rx i') (s_recv m) (s_recv m) (s_clients m)) with Some (b, _) => negb (a =? b) | None => true end
  end.
Fixpoint over (g : srvcfg) (n : N) (a : addr) (st : pstate) (l : list ev) : option N :=
  match l with
  | [] => if N.of_nat (length (s_clients (ps_srv st))) <=? n then Some 0 else None
  | e :: l' =>
      if skips g n a st e then
        match pstep g st e with
        | Some st' => match over g n a st' l' with
                      | Some k => Some (match e with EvIn _ => k | EvTurn _ _ => k + 1 end)
                      | None => None
                      end
        | None => None
        end
      else None
  end.
Lemma same_list_eq l m : same_list l m = true -> l = m.
Proof. unfold same_list. destruct (list_eq_dec N.eq_dec l m); [auto|discriminate]. Qed.
Lemma over_sound g n a : forall l st k, over g n a st l = Some k -> passed_over toy g n a st k.
Proof.
  induction l as [|e l IH]; cbn [over]; intros st k E.
  - destruct (N.leb_spec (N.of_nat (length (s_clients (ps_srv st)))) n); [|discriminate]. injection E as <-. constructor. assumption.
  - destruct (skips g n a st e) eqn:SK; [|discriminate]. destruct (pstep g st e) as [st1|] eqn:E1; [|discriminate].
    destruct (over g n a st1 l) as [k1|] eqn:EO; [|discriminate]. apply IH in EO. injection E as <-. destruct e as [[[b d]|]|i w]; cbn [pstep] in E1.
    + destruct (has_entry _ b) eqn:HE; [|discriminate]. injection E1 as <-. eapply over_arrive; [constructor; exact HE|exact EO].
    + injection E1 as <-. eapply over_arrive; [constructor|exact EO].
    + destruct (pgo _ _ _ _ _ _) as [st2|] eqn:EP; [|discriminate]. apply pgo_turn in EP.
      destruct (N.leb_spec (s_sockid (ps_srv st)) (s_sockid (ps_srv st2))); [|discriminate]. injection E1 as <-.
      cbn [skips] in SK. apply Bool.andb_true_iff in SK as [SK S3]. apply Bool.andb_true_iff in SK as [S1 S2].
      eapply over_turn; [exact EP|assumption|apply N.leb_le; exact S1|apply same_list_eq; exact S2|reflexivity| |exact EO].
      unfold takes. intros [d H1]. rewrite H1 in S3. rewrite N.eqb_refl in S3. discriminate.
Qed.

Definition pc_w : during := mkDuring false false [].
Definition pc_turn (now : N) (m : mainev) (w : during) : ev := EvTurn (sv_in now sv_quiet m) w.
Definition pc_get (x : option pstate) : pstate := match x with Some st => st | None => mkPs (s_init 0) poll_new end.
Definition pc_data (k : N) : bytes := to_bytes (PData k (repeat 7 512)).
(** At most two connections; clients 10 and 20 upload.  Then a third client knocks, and datagrams of both
    arrive: three sockets are ready, but there is only room for two events. *)
Definition pc_start : list ev :=
  [ pc_turn 10 (MData 10 (sv_write "a")) pc_w; pc_turn 11 (MData 20 (sv_write "b")) pc_w;
    EvIn None; EvIn (Some (10, pc_data 1)); EvIn (Some (20, pc_data 1)) ].
Definition pc_st : pstate := pc_get (prun (sv_g 2) (mkPs (s_init 0) poll_new) pc_start).
(** The client at 20 is passed over in four turns and read in the fifth. *)
Definition pc_wait : list ev :=
  [ pc_turn 12 (MData 30 (sv_write "c")) pc_w; pc_turn 13 MWouldBlock pc_w;
    pc_turn 14 MWouldBlock (mkDuring false false [Some (10, pc_data 2)]); pc_turn 15 MWouldBlock pc_w ].
Example heard_in_time_case :
  preach toy (sv_g 2) pc_st /\ pending pc_st 20 /\ po_ready (ps_poll pc_st) = [0; 2; 3] /\
  passed_over toy (sv_g 2) 2 20 pc_st 4 /\
  (let st := pc_get (prun (sv_g 2) pc_st pc_wait) in
   po_queue (ps_poll st) 20 = [pc_data 1] /\
   po_queue (ps_poll (pc_get (prun (sv_g 2) st [pc_turn 16 MWouldBlock pc_w]))) 20 = []).
Proof.
  split; [|split; [|split; [|split]]].
  - unfold pc_st. assert (H : match prun (sv_g 2) (mkPs (s_init 0) poll_new) pc_start with Some _ => true | None => false end = true) by (vm_compute; reflexivity).
    destruct (prun (sv_g 2) (mkPs (s_init 0) poll_new) pc_start) as [st|] eqn:E; [|discriminate].
    cbn [pc_get]. eapply prun_reach; [constructor|exact E].
  - split; [vm_compute; auto|vm_compute; discriminate].
  - vm_compute. reflexivity.
  - apply (over_sound _ _ _ pc_wait). vm_compute. reflexivity.
  - split; vm_compute; reflexivity.
Qed.
(** Asleep with everything read: nothing is pending, all sockets are watched; a datagram arriving then is
    announced at once. *)
Example wake_up_case :
  let st := pc_get (prun (sv_g 2) pc_st (pc_wait ++ [pc_turn 16 MWouldBlock pc_w; pc_turn 17 MWouldBlock pc_w; pc_turn 18 MWouldBlock pc_w])) in
  po_ready (ps_poll st) = [] /\ po_armed (ps_poll st) 2 = true /\ po_armed (ps_poll st) 3 = true /\
  wait_for (s_wait (ps_srv st)) 2 <> None /\
  po_ready (ps_poll (pc_get (prun (sv_g 2) st [EvIn (Some (20, pc_data 2))]))) = [3].
Proof. vm_compute. repeat split; try reflexivity. discriminate. Qed.
(** The set of ids known to be readable never forgets the id of a connection that was removed while its
    datagram waited: the set grows without bound in a long running server. *)
Example stale_ids_are_kept :
  let st := pc_get (prun (sv_g 2) pc_st [pc_turn 12 MWouldBlock pc_w; pc_turn 6012 MWouldBlock pc_w]) in
  s_clients (ps_srv st) = [] /\ po_noted (ps_poll st) 2 = true.
Proof. vm_compute. auto. Qed.
Print Assumptions no_lost_wakeup.
Print Assumptions never_sleeps_on_data.
Print Assumptions heard_in_time.
