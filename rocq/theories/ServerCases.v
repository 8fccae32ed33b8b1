(** Concrete runs of the two servers: the hypotheses of the theorems of PropServer.v and
    PropFair.v are met by servers with several clients. *)
From Verif Require Import Base BaseProofs PacketModel MapperModel ReaderModel ReaderSpec ConfigModel CryptoModel CryptoSpec ExtModel Base64Model PathModel ConnModel
  HandshakeModel ConnSpec ServerModel ServerSpec ServerProofs PropCrypto PropServer PropFair.

Definition sv_g (n : N) : srvcfg := mkSC (mkScfg 1400 8 5000 1000000 None None false false false) n.
Definition sv_e (now : N) : env := mkEnv now false None true [].
Definition sv_henv : henv := mkHenv [9; 9] (repeat 1 24) (fun _ => Some None) true true (fun _ => []).
Definition sv_in (now : N) (rx : addr -> option bytes) (m : mainev) : input :=
  mkIn now (fun _ => sv_e now) 1404 (fun _ => sv_e now) (fun _ => sv_e now) rx m (sv_e now) sv_henv av_all
    (fun p => repeat 7 600 ++ p).
Definition sv_quiet : addr -> option bytes := fun _ => None.
Definition sv_read (f : string) : bytes := to_bytes (PRead (mkReq (s2b f) exts_empty)).
Definition sv_write (f : string) : bytes := to_bytes (PWrite (mkReq (s2b f) exts_empty)).
Definition sv_ack (k : N) : bytes := to_bytes (PAck k).

Fixpoint sv_run (c : crypto) (g : srvcfg) (s : sstate) (l : list input) : option (sstate * outs) :=
  match l with
  | [] => Some (s, [])
  | i :: l' => match server_step c g s i with
               | Some (s', o) => match sv_run c g s' l' with Some (s2, o2) => Some (s2, o ++ o2) | None => None end
               | None => None
               end
  end.
Lemma sv_run_reach c g s l s' o : sreach c g s -> sv_run c g s l = Some (s', o) -> sreach c g s'.
Proof.
  revert s o. induction l as [|i l IH]; cbn; intros s o R E; [injection E as <- _; exact R|].
  destruct (server_step c g s i) as [[s1 o1]|] eqn:E1; [|discriminate].
  destruct (sv_run c g s1 l) as [[s2 o2]|] eqn:E2; [|discriminate]. injection E as <- _.
  eapply IH; [eapply sreach_step; eassumption|exact E2].
Qed.

(** Three readers and a writer connect; a fifth client finds the server full and gets no answer. *)
Definition sv_four : list input :=
  [ sv_in 10 sv_quiet (MData 30 (sv_read "c")); sv_in 11 sv_quiet (MData 10 (sv_read "a"));
    sv_in 12 sv_quiet (MData 20 (sv_read "b")); sv_in 13 sv_quiet (MData 15 (sv_write "w"));
    sv_in 14 sv_quiet (MData 40 (sv_read "d")); sv_in 15 sv_quiet (MData 10 (sv_read "a")) ].
Definition sv_get (x : option (sstate * outs)) : sstate := match x with Some (s, _) => s | None => s_init 0 end.
Definition sv_out (x : option (sstate * outs)) : outs := match x with Some (_, o) => o | None => [] end.
Definition sv_s4 : sstate := sv_get (sv_run toy (sv_g 4) (s_init 0) sv_four).
Lemma sv_s4_reach : sreach toy (sv_g 4) sv_s4.
Proof.
  unfold sv_s4. destruct (sv_run toy (sv_g 4) (s_init 0) sv_four) as [[s o]|] eqn:E; cbn.
  - eapply sv_run_reach; [constructor|exact E].
  - constructor.
Qed.
Example connection_limit_case :
  sreach toy (sv_g 4) sv_s4 /\ map fst (s_clients sv_s4) = [10; 15; 20; 30] /\ g_max_conn (sv_g 4) = 4 /\
  sent_to 40 (sv_out (sv_run toy (sv_g 4) (s_init 0) sv_four)) = [] /\
  sent_to 15 (sv_out (sv_run toy (sv_g 4) (s_init 0) sv_four)) = [OWire (sv_ack 0)].
Proof. split; [exact sv_s4_reach|]. repeat split; vm_compute; reflexivity. Qed.

(** Two readers at 10 and 20 with acknowledgements waiting: both are served block after block,
    each gets its own file. *)
Definition sv_two_in : list input :=
  [ sv_in 10 sv_quiet (MData 20 (sv_read "b")); sv_in 11 sv_quiet (MData 10 (sv_read "a")) ].
Definition sv_two : sstate := sv_get (sv_run toy (sv_g 4) (s_init 0) sv_two_in).
Lemma sv_get_reach g l : sreach toy g (sv_get (sv_run toy g (s_init 0) l)).
Proof.
  destruct (sv_run toy g (s_init 0) l) as [[s o]|] eqn:E; cbn; [|constructor].
  eapply sv_run_reach; [constructor|exact E].
Qed.
Example isolation_case :
  let x := sv_run toy (sv_g 4) sv_two
    [ sv_in 20 sv_quiet MWouldBlock; sv_in 21 (fun a => if a =? 20 then Some (sv_ack 1) else None) MWouldBlock;
      sv_in 22 (fun a => if a =? 10 then Some (sv_ack 1) else None) MWouldBlock;
      sv_in 23 (fun a => if a =? 10 then Some (sv_ack 1) else None) MWouldBlock; sv_in 24 sv_quiet MWouldBlock ] in
  sent_to 10 (sv_out x) = [OPlain (to_bytes (PData 1 (repeat 7 512))); OPlain (to_bytes (PData 2 (repeat 7 88 ++ s2b "a")))] /\
  sent_to 20 (sv_out x) = [OPlain (to_bytes (PData 2 (repeat 7 88 ++ s2b "b")))].
Proof. vm_compute. auto. Qed.

(** Nothing is sent to [a], so it is not served. *)
Lemma not_served t next i a :
  (let '(_, o, _, _) := send_data_blocks t next i in sent_to a o) = [] ->
  (forall e, find_entry t a = Some e -> forall v, v = i_send1 i a \/ v = i_send2 i a ->
     snd (fst (send_client (i_buflen i) e v)) <> []) ->
  ~ served t next i a.
Proof.
  unfold served. destruct (send_data_blocks t next i) as [[[t' o] b] n]. intros H0 H1 (e & e' & plain & v & HF & HV & HS & _ & HO).
  specialize (H1 e HF v HV). rewrite HS in H1. cbn in H1. rewrite H0 in HO. destruct plain; [congruence|discriminate].
Qed.

(** Fairness: both readers at 10 and 20 ready (20 because its retry is due), the cursor at 1: the
    one at 10 waits one turn, the most the theorem allows, and then is served. *)
Definition sv_i1 : input := sv_in 200 sv_quiet MWouldBlock.
Example fairness_bound_reached :
  active_addrs (s_clients sv_two) = [10; 20] /\ sreach toy (sv_g 4) sv_two /\
  waiting toy (sv_g 4) [10; 20] 10 sv_two [sv_i1] /\
  sent_to 10 (sv_out (sv_run toy (sv_g 4) sv_two [sv_i1; sv_i1])) = [OPlain (to_bytes (PData 1 (repeat 7 512)))].
Proof.
  split; [vm_compute; reflexivity|]. split; [apply sv_get_reach|].
  split; [|vm_compute; reflexivity].
  eapply waiting_cons.
  - vm_compute. reflexivity.
  - vm_compute. reflexivity.
  - eexists. split; [vm_compute; reflexivity|]. split; vm_compute; reflexivity.
  - apply not_served; [vm_compute; reflexivity|]. intros e HF v HV. vm_compute in HF. injection HF as <-.
    destruct HV as [-> | ->]; vm_compute; discriminate.
  - vm_compute. reflexivity.
  - constructor.
Qed.

(** The bound needs the clients to stay the same: newcomers with lower addresses move the others
    behind the cursor, and the reader at 20 is served turn after turn while the one at 10 waits. *)
Definition sv_read8 (f : string) : bytes :=
  to_bytes (PRead (mkReq (s2b f) (ext_insert exts_empty WindowSize (s2b "8")))).
Definition sv_long (now : N) (m : mainev) : input :=
  mkIn now (fun _ => sv_e now) 1404 (fun _ => sv_e now) (fun _ => sv_e now) sv_quiet m (sv_e now) sv_henv av_all
    (fun p => repeat 7 4000 ++ p).
Example newcomers_delay_others :
  let x := sv_run toy (sv_g 100) (s_init 0)
    [ sv_long 10 (MData 20 (sv_read8 "b")); sv_long 11 (MData 10 (sv_read8 "a")); sv_long 12 (MData 5 (sv_read8 "x"));
      sv_long 13 (MData 4 (sv_read8 "x")); sv_long 14 (MData 3 (sv_read8 "x")); sv_long 15 (MData 2 (sv_read8 "x")) ] in
  length (sent_to 20 (sv_out x)) = 6%nat /\ length (sent_to 10 (sv_out x)) = 1%nat (* its oack *) /\
  map fst (s_clients (sv_get x)) = [2; 3; 4; 5; 10; 20].
Proof. vm_compute. auto. Qed.

(** Receiving: datagrams of 10 and 20 waiting all the time; both connections are heard, then the
    main socket is asked. *)
Definition sv_busy (now : N) : input :=
  sv_in now (fun a => if (a =? 10) || (a =? 20) then Some (sv_ack 0) else None) (MData 5 (sv_write "w")).
Example main_socket_bound_reached :
  deaf toy (sv_g 4) sv_two [sv_busy 20; sv_busy 21] /\
  map fst (s_clients (sv_get (sv_run toy (sv_g 4) sv_two [sv_busy 20; sv_busy 21; sv_busy 22]))) = [5; 10; 20].
Proof.
  split; [|vm_compute; reflexivity].
  eapply deaf_cons; [vm_compute; discriminate|vm_compute; reflexivity|].
  eapply deaf_cons; [vm_compute; discriminate|vm_compute; reflexivity|]. constructor.
Qed.
Example receiving_bound_case :
  exists s, sreach toy (sv_g 4) s /\ unheard toy (sv_g 4) [10; 20] 10 s [sv_busy 21].
Proof.
  exists (sv_get (sv_run toy (sv_g 4) (s_init 0) (sv_two_in ++ [sv_busy 20]))). split.
  - apply sv_get_reach.
  - eapply unheard_cons; [vm_compute; reflexivity|vm_compute; discriminate| |vm_compute; reflexivity|constructor].
    intros [d H]. vm_compute in H. discriminate.
Qed.

(** Cleaning up: more than two seconds later the client that was not heard of for longer than the
    timeout is gone, and told so; the other one stays. *)
Example clean_up_case :
  let s := sv_get (sv_run toy (sv_g 4) sv_two [sv_in 1000 (fun a => if a =? 20 then Some (sv_ack 1) else None) MWouldBlock]) in
  let i := sv_in 5500 sv_quiet MWouldBlock in
  let '(s1, o) := step_clean (sv_g 4) s i in
  map fst (s_clients s) = [10; 20] /\ map fst (s_clients s1) = [20] /\ length (sent_to 10 o) = 1%nat.
Proof. vm_compute. auto. Qed.

(** One bad datagram: a connected client with data encryption sends 40 bytes.  The decryption panics
    (see PropCrypto): the single threaded server stops for everybody, in the multi threaded one
    only this client's thread ends. *)
Definition sv_enc_read : bytes :=
  to_bytes (PRead (mkReq (s2b "f")
    (ext_insert (ext_insert exts_empty EncLevel (s2b "data")) SessionPublicKey (encode_key (c_pub toy [1; 2]))))).
Definition sv_gk : srvcfg := mkSC (mkScfg 1400 8 5000 1000000 None (Some [7]) false false false) 4.
Definition sv_enc : sstate := sv_get (sv_run toy sv_gk (s_init 0)
  [ sv_in 10 sv_quiet (MData 20 sv_enc_read); sv_in 11 sv_quiet (MData 10 (sv_read "a")) ]).
Definition sv_bad : bytes := [0; 3; 0; 1] ++ repeat 0 36.
Example bad_datagram_stops_single_thread :
  map fst (s_clients sv_enc) = [10; 20] /\
  server_step toy sv_gk sv_enc (sv_in 12 (fun a => if a =? 20 then Some sv_bad else None) MWouldBlock) = None /\
  forall e, find_entry (s_clients sv_enc) 20 = Some e ->
    th_live (fst (thread_turn toy sv_gk e 1404 (sv_e 12) (sv_e 12) (sv_e 12) (TData sv_bad))) = false.
Proof.
  split; [vm_compute; reflexivity|]. split; [vm_compute; reflexivity|]. intros e H. vm_compute in H. injection H as <-.
  vm_compute. reflexivity.
Qed.

(** Multi threaded: two clients, one thread works and one ended; the handle of the ended one is
    still there until the accepting loop's next turn, which admits a third client although the
    limit is two. *)
Example multi_thread_case :
  exists m m' o t, mreach toy (sv_g 2) m /\ map fst (m_handles m) = [10; 20] /\
    find_handle (m_handles m) 20 = Some t /\ th_live t = false /\
    mstep toy (sv_g 2) m m' o /\ map fst (m_handles m') = [5; 10] /\ sent_to 5 o = [OWire (sv_ack 0)].
Proof.
  assert (H : exists m, mreach toy (sv_g 2) m /\ map fst (m_handles m) = [10; 20] /\
    exists t, find_handle (m_handles m) 20 = Some t /\ th_live t = false /\ m_sockid m = 3 /\
    filter (fun x => th_live (snd x)) (m_handles m) = filter (fun x => fst x =? 10) (m_handles m)).
  { assert (S1 : exists m1 o1, main_turn toy (sv_g 2) m_init (MData 20 (sv_write "b")) (sv_in 10 sv_quiet MWouldBlock) = Some (m1, o1)
      /\ exists m2 o2, main_turn toy (sv_g 2) m1 (MData 10 (sv_write "a")) (sv_in 11 sv_quiet MWouldBlock) = Some (m2, o2) /\
         exists e, find_handle (m_handles m2) 20 = Some (mkT true e) /\ m_sockid m2 = 3 /\
           map fst (m_handles m2) = [10; 20] /\
           filter (fun x => th_live (snd x)) (update_handle (m_handles m2) 20 (mkT false e)) =
           filter (fun x => fst x =? 10) (update_handle (m_handles m2) 20 (mkT false e)) /\
           map fst (update_handle (m_handles m2) 20 (mkT false e)) = [10; 20] /\
           find_handle (update_handle (m_handles m2) 20 (mkT false e)) 20 = Some (mkT false e) /\
           fst (thread_turn toy (sv_g 2) e 516 (sv_e 6000) (sv_e 6000) (sv_e 6000) TWouldBlock) = mkT false e).
    { do 2 eexists. split; [vm_compute; reflexivity|]. do 2 eexists. split; [vm_compute; reflexivity|].
      eexists. repeat (split; [vm_compute; reflexivity|]). vm_compute. reflexivity. }
    destruct S1 as (m1 & o1 & E1 & m2 & o2 & E2 & e & F & Hid & _ & HFl & HA & HF2 & HT).
    destruct (thread_turn toy (sv_g 2) e 516 (sv_e 6000) (sv_e 6000) (sv_e 6000) TWouldBlock) as [t plain] eqn:ET. cbn [fst] in HT. subst t.
    exists (mkM (update_handle (m_handles m2) 20 (mkT false e)) (m_sockid m2)). split.
    - eapply mreach_step; [|eapply m_thread; eassumption].
      eapply mreach_step; [eapply mreach_step; [constructor|eapply m_main; exact E1]|eapply m_main; exact E2].
    - cbn [m_handles m_sockid]. split; [exact HA|]. eexists. split; [exact HF2|]. auto. }
  destruct H as (m & R & HA & t & HF & HL & Hid & HFl).
  assert (exists x, filter (fun x => th_live (snd x)) (m_handles m) = [x] /\ fst x = 10).
  { rewrite HFl. destruct (m_handles m) as [|[a1 x1] [|[a2 x2] [|]]]; try discriminate. cbn in HA. injection HA as -> ->.
    cbn. eauto. }
  destruct H as ([a x] & Hx & Ha). cbn in Ha. subst a.
  exists m. destruct (main_turn toy (sv_g 2) m (MData 5 (sv_write "c")) (sv_in 6001 sv_quiet MWouldBlock)) as [[m' o]|] eqn:E.
  - exists m', o, t. split; [exact R|]. split; [exact HA|]. split; [exact HF|]. split; [exact HL|].
    split; [eapply m_main; exact E|]. unfold main_turn in E. rewrite Hx in E.
    change (find_handle [(10, x)] 5) with (@None thread) in E. cbn iota beta in E.
    replace (g_max_conn (sv_g 2) <=? N.of_nat (length [(10, x)])) with false in E by reflexivity.
    destruct (server_new _ _ _ _ _) as [|r|es r] eqn:EN; [vm_compute in EN; discriminate..|].
    injection E as <- <-. vm_compute in EN. injection EN as <- <-. split; reflexivity.
  - exfalso. unfold main_turn in E. rewrite Hx in E.
    change (find_handle [(10, x)] 5) with (@None thread) in E. cbn iota beta in E.
    replace (g_max_conn (sv_g 2) <=? N.of_nat (length [(10, x)])) with false in E by reflexivity.
    destruct (server_new _ _ _ _ _) as [|r|es r] eqn:EN; [vm_compute in EN; discriminate..|]. discriminate.
Qed.
