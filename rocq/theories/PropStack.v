(** C66: the server built without alloc, whose readers live in pools of fixed size. *)
From Verif Require Import Base BaseProofs PacketModel MapperModel ReaderModel ReaderSpec ConfigModel CryptoModel CryptoSpec ExtModel PathModel ConnModel
  HandshakeModel HandshakeProofs ConnSpec ServerModel ServerSpec ServerProofs PropServer StackModel StackSpec StackProofs.

Record Zinv (g : srvcfg) (s : zstate) (u : table) : Prop := mkZinv {
  zi_rel : Rel (z_pools s) (z_clients s) u;
  zi_nd : NoDup (map fst (z_clients s));
  zi_own : Owned (z_pools s) (handles_of (z_clients s));
  zi_within : within (z_pools s);
  zi_cap : (length (z_clients s) <= 128)%nat;
  zi_max : N.of_nat (length (z_clients s)) <= g_max_conn g }.
Definition toS (s : zstate) (u : table) : sstate := mkS u (z_send s) (z_recv s) (z_wait s) (z_cleaned s) (z_sockid s).

Lemma client_find g s u a : Zinv g s u -> client_of s a = find_entry u a.
Proof.
  intros I. unfold client_of. pose proof (Rel_find _ _ _ a (zi_rel _ _ _ I)) as H.
  destruct (pfind (z_clients s) a) as [e|]; [|symmetry; exact H]. destruct H as (x & -> & V). exact V.
Qed.
Lemma Rel_nd P t u : Rel P t u -> NoDup (map fst t) -> NoDup (addrs u).
Proof. intros R. rewrite (Rel_addrs _ _ _ R). auto. Qed.

Lemma z_clean_ok g s u i : Zinv g s u ->
  exists s1 u1 o, z_clean g s i = (s1, o) /\ step_clean g (toS s u) i = (toS s1 u1, o) /\ Zinv g s1 u1.
Proof.
  intros I. unfold z_clean, step_clean. cbn [s_cleaned toS]. destruct (2000 <? _).
  - destruct (z_retain_ok (g_timeout g) (i_clean i) (z_clients s) (z_pools s) u [] (zi_rel _ _ _ I) (zi_own _ _ _ I) (zi_within _ _ _ I))
      as (P' & t' & o & u' & E1 & E2 & E3 & E4 & _ & E6).
    rewrite E1. cbn [s_clients toS]. rewrite E2. do 3 eexists. split; [reflexivity|]. split; [reflexivity|].
    assert (U : exists f, u' = filter f u).
    { destruct (retain_clients_spec _ _ _ _ _ E2 (Rel_nd _ _ _ (zi_rel _ _ _ I) (zi_nd _ _ _ I))) as [-> _]. eexists. reflexivity. }
    destruct U as (f & ->). pose proof (filter_len f u) as FL. pose proof (Rel_length _ _ _ E3) as L1.
    pose proof (Rel_length _ _ _ (zi_rel _ _ _ I)) as L2. pose proof (zi_cap _ _ _ I). pose proof (zi_max _ _ _ I).
    constructor; cbn [z_clients z_pools]; [exact E3| |exact E4|exact E6|lia|lia].
    rewrite (Rel_addrs _ _ _ E3). pose proof (Rel_nd _ _ _ (zi_rel _ _ _ I) (zi_nd _ _ _ I)) as ND.
    clear -ND. unfold addrs in *. induction u as [|x u IH]; cbn; [constructor|]. inversion ND; subst. destruct (f x); [|auto].
    cbn. constructor; [|auto]. intros Hin. apply in_map_iff in Hin as (y & E & Hy). apply filter_In in Hy as [Hy _].
    apply H1. rewrite <- E. apply in_map. exact Hy.
  - do 3 eexists. split; [reflexivity|]. split; [reflexivity|exact I].
Qed.

Lemma keys_length {V} (m m' : imap V) : keys m = keys m' -> length m = length m'.
Proof. unfold keys. intros E. rewrite <- (map_length fst m), E, map_length. reflexivity. Qed.
Lemma same_owned l P P' hs : same_but l P P' -> incl l hs -> (forall h, In h hs -> has P' h) -> Owned P hs -> Owned P' hs.
Proof.
  intros S I H [A B C D E]. constructor.
  - intros h. split; [|intros Hin; apply has_in, H, Hin]. intros Hp. apply A.
    destruct h as [i|i|i]; cbn in Hp |- *; [rewrite <- (sb_s _ _ _ S)|rewrite <- (sb_m _ _ _ S)|rewrite <- (sb_k _ _ _ S)]; exact Hp.
  - exact B.
  - rewrite (sb_s _ _ _ S). exact C.
  - rewrite (sb_m _ _ _ S). exact D.
  - rewrite (sb_k _ _ _ S). exact E.
Qed.
Lemma same_within l P P' : same_but l P P' -> within P -> within P'.
Proof.
  intros S (A & B & C). unfold within.
  rewrite (keys_length _ _ (sb_s _ _ _ S)), (keys_length _ _ (sb_m _ _ _ S)), (keys_length _ _ (sb_k _ _ _ S)). auto.
Qed.
Lemma same_owned' l P P' hs : same_but l P P' -> Owned P hs -> Owned P' hs.
Proof.
  intros S [A B C D E]. constructor.
  - intros h. rewrite <- A. destruct h as [i|i|i]; cbn; [rewrite (sb_s _ _ _ S)|rewrite (sb_m _ _ _ S)|rewrite (sb_k _ _ _ S)]; reflexivity.
  - exact B.
  - rewrite (sb_s _ _ _ S). exact C.
  - rewrite (sb_m _ _ _ S). exact D.
  - rewrite (sb_k _ _ _ S). exact E.
Qed.

Lemma z_send_ok g s u i : Zinv g s u ->
  exists s1 u1 o, z_step_send s i = Some (s1, o) /\ step_send (toS s u) i = (toS s1 u1, o) /\ Zinv g s1 u1 /\
    left_in s1 = left_in s /\ length (z_clients s1) = length (z_clients s).
Proof.
  intros I. unfold z_step_send, step_send, z_send_data_blocks, send_data_blocks. cbn [s_clients s_send toS].
  destruct (z_pass_ok (i_buflen i) (fun k => z_send s <=? k) (i_send1 i) (z_clients s) 0 (z_pools s) u
    (ow_nd _ _ (zi_own _ _ _ I)) (zi_rel _ _ _ I)) as (P1 & t1 & o1 & r1 & u1 & E1 & E2 & E3 & E4 & E5 & E6).
  rewrite E1, E2.
  assert (I1 : forall a b w d e, Zinv g (mkZ t1 P1 a b w d e) u1).
  { intros a b w d e. constructor; cbn [z_clients z_pools]; [exact E3|rewrite E5; apply I|rewrite E4; eapply same_owned'; [exact E6|apply I]
    |eapply same_within; [exact E6|apply I]| |].
    - rewrite <- (map_length fst), E5, map_length. apply I.
    - rewrite <- (map_length fst), E5, map_length. apply I. }
  assert (L1 : forall a b w d e, left_in (mkZ t1 P1 a b w d e) = left_in s).
  { intros a b w d e. unfold left_in. cbn [z_pools].
    rewrite (keys_length _ _ (sb_s _ _ _ E6)), (keys_length _ _ (sb_m _ _ _ E6)), (keys_length _ _ (sb_k _ _ _ E6)). reflexivity. }
  assert (N1 : length t1 = length (z_clients s)) by (rewrite <- (map_length fst), E5, map_length; reflexivity).
  destruct r1 as [n|].
  { do 3 eexists. split; [reflexivity|]. split; [reflexivity|]. split; [apply I1|]. split; [apply L1|exact N1]. }
  assert (ND1 : NoDup (handles_of t1)) by (rewrite E4; apply (ow_nd _ _ (zi_own _ _ _ I))).
  destruct (z_pass_ok (i_buflen i) (fun k => k <? z_send s) (i_send2 i) t1 0 P1 u1 ND1 E3)
    as (P2 & t2 & o2 & r2 & u2 & F1 & F2 & F3 & F4 & F5 & F6).
  rewrite F1, F2.
  assert (I2 : forall a b w d e, Zinv g (mkZ t2 P2 a b w d e) u2).
  { intros a b w d e. constructor; cbn [z_clients z_pools]; [exact F3|rewrite F5, E5; apply I
    |rewrite F4, E4; eapply same_owned'; [exact F6|]; eapply same_owned'; [exact E6|apply I]
    |eapply same_within; [exact F6|]; eapply same_within; [exact E6|apply I]| |].
    - rewrite <- (map_length fst), F5, E5, map_length. apply I.
    - rewrite <- (map_length fst), F5, E5, map_length. apply I. }
  assert (L2 : forall a b w d e, left_in (mkZ t2 P2 a b w d e) = left_in s).
  { intros a b w d e. rewrite <- (L1 a b w d e). unfold left_in. cbn [z_pools].
    rewrite (keys_length _ _ (sb_s _ _ _ F6)), (keys_length _ _ (sb_m _ _ _ F6)), (keys_length _ _ (sb_k _ _ _ F6)). reflexivity. }
  assert (N2 : length t2 = length (z_clients s)) by (rewrite <- (map_length fst), F5, E5, map_length; reflexivity).
  destruct r2 as [n|]; do 3 eexists; (split; [reflexivity|]); (split; [reflexivity|]); (split; [apply I2|]); (split; [apply L2|exact N2]).
Qed.

(** The kinds of readers left: the subtractions never underflow. *)
Lemma from_used_ok s : within (z_pools s) ->
  from_used (length (p_single (z_pools s))) (length (p_multi (z_pools s))) (length (p_seek (z_pools s))) = Some (left_in s).
Proof.
  intros (A & B & C). unfold from_used, sub_checked, left_in, MAX_SINGLE_READERS, MAX_MULTI_READERS, MAX_MULTI_SEEK_READERS.
  rewrite (proj2 (Nat.leb_le _ _) A), (proj2 (Nat.leb_le _ _) B), (proj2 (Nat.leb_le _ _) C).
  assert (Q : forall n m, (0 <? m - n)%nat = (n <? m)%nat) by (intros n m; destruct (Nat.ltb_spec n m), (Nat.ltb_spec 0 (m - n)); lia || reflexivity).
  rewrite !Q. reflexivity.
Qed.
Lemma reader_kind_left c cfg env av d x reply r : server_new c cfg env av d = SAccepted x reply -> es_reader x = Some r ->
  match r with RS _ => av_single av = true | RM _ => av_multi av = true | RK _ => av_seek av = true end.
Proof.
  intros H R. apply server_new_accepted in H. destruct H as [(buf & hs & o0 & q & used & o & keys & size & _ & _ & _ & _ & _ & _ & _ & E & _)].
  destruct (es_write x); [congruence|]. destruct E as [E _]. rewrite R in E. symmetry in E. unfold block_reader in E.
  destruct (sc_seek cfg && av_seek av) eqn:B1; [apply andb_prop in B1 as [_ B1]; injection E as <-; exact B1|].
  destruct ((op_window (es_opts x) =? 1) && av_single av) eqn:B2; [apply andb_prop in B2 as [_ B2]; injection E as <-; exact B2|].
  destruct (av_multi av) eqn:B3; [injection E as <-; reflexivity|].
  destruct (av_seek av) eqn:B4; [injection E as <-; reflexivity|discriminate].
Qed.

Lemma z_scan_scan rx P : forall t u skip cursor, Rel P t u -> z_scan rx skip cursor t = scan rx skip cursor u.
Proof.
  intros t u skip cursor R. revert skip cursor. induction R as [|[a e] [b x] t u [E _] R IH]; intros skip cursor; cbn; [reflexivity|].
  cbn in E. subst b. destruct (0 <? skip); [apply IH|]. destruct (rx a); [reflexivity|apply IH].
Qed.
Lemma find_app u a x b : find_entry (u ++ [(a, x)]) b = match find_entry u b with Some y => Some y | None => if b =? a then Some x else None end.
Proof. induction u as [|[d y] u IH]; cbn; [reflexivity|]. destruct (b =? d); [reflexivity|exact IH]. Qed.

(** What happens with a datagram of an unknown address. *)
Lemma z_new_ok c g s u a d i : Zinv g s u -> pfind (z_clients s) a = None ->
  N.of_nat (length (z_clients s)) < g_max_conn g ->
  match server_new c (g_cfg g) (i_henv i) (left_in s) d with
  | SPanic => z_new_client c g s a d i = None
  | SRefused reply => z_new_client c g s a d i = Some (s, reply_out a reply)
  | SAccepted x reply => exists s', z_new_client c g s a d i = Some (s', reply_out a reply) /\
      if (length (z_clients s) <? 128)%nat
      then Zinv g s' (u ++ [(a, new_entry x (e_now (i_env i)) (i_file i))])
      else Zinv g s' u
  end.
Proof.
  intros I HF Hm. unfold z_new_client. destruct (N.leb_spec (g_max_conn g) (N.of_nat (length (z_clients s)))); [lia|].
  rewrite (from_used_ok s (zi_within _ _ _ I)).
  destruct (server_new c (g_cfg g) (i_henv i) (left_in s) d) as [|reply|x reply] eqn:EN; [reflexivity|reflexivity|].
  cbv zeta. unfold MAX_CLIENTS_STACK. unfold new_entry.
  assert (NDa : forall e, NoDup (map fst (z_clients s ++ [(a, e)]))).
  { intros e. rewrite map_app. cbn. apply (Permutation.Permutation_NoDup (l := a :: map fst (z_clients s))); [apply Permutation.Permutation_cons_append|].
    constructor; [|apply I]. pose proof (Rel_find _ _ _ a (zi_rel _ _ _ I)) as RF. rewrite HF in RF. apply find_none in RF.
    rewrite (Rel_addrs _ _ _ (zi_rel _ _ _ I)). exact RF. }
  destruct (es_reader x) as [r|] eqn:ER.
  - pose proof (reader_kind_left _ _ _ _ _ _ _ _ EN ER) as KL.
    assert (K' : match r with RS _ => (length (p_single (z_pools s)) < 64)%nat | RM _ => (length (p_multi (z_pools s)) < 8)%nat
                 | RK _ => (length (p_seek (z_pools s)) < 64)%nat end).
    { unfold left_in in KL. cbn [av_single av_multi av_seek] in KL. destruct r; apply Nat.ltb_lt in KL; exact KL. }
    destruct (pool_from_ok (z_pools s) (i_file i (es_path x)) r _ (zi_own _ _ _ I) (zi_within _ _ _ I) K') as (P' & h & -> & O' & W' & H' & F' & _).
    assert (R' : Rel P' (z_clients s) u).
    { eapply Rel_frame; [|apply I]. intros k Hk. apply F'. intros ->. pose proof (ow_nd _ _ O') as ND. inversion ND; auto. }
    destruct (Nat.ltb_spec (length (z_clients s)) 128) as [Hlt|Hge].
    + eexists. split; [reflexivity|]. constructor; cbn [z_clients z_pools].
      * apply Forall2_app; [exact R'|]. constructor; [|constructor]. split; [reflexivity|]. cbn [snd view pe_work pe_conn pe_key]. unfold view. cbn. rewrite H'. reflexivity.
      * apply NDa.
      * rewrite handles_app. cbn. eapply Owned_perm; [| |exact O'].
        -- intros k. rewrite in_app_iff. cbn. tauto.
        -- eapply Permutation.Permutation_NoDup; [apply Permutation.Permutation_cons_append|]. exact (ow_nd _ _ O').
      * exact W'.
      * rewrite app_length. cbn. lia.
      * rewrite app_length. cbn. lia.
    + eexists. split; [reflexivity|]. destruct (pool_drop_ok P' h _ O') as (O2 & F2 & L2).
      constructor; cbn [z_clients z_pools]; [|apply I|exact O2|unfold within in *; lia|apply I|apply I].
      eapply Rel_frame; [|exact R']. intros k Hk. apply F2. intros ->. pose proof (ow_nd _ _ O') as ND. inversion ND; auto.
  - destruct (Nat.ltb_spec (length (z_clients s)) 128) as [Hlt|Hge]; (eexists; split; [reflexivity|]).
    + constructor; cbn [z_clients z_pools].
      * apply Forall2_app; [apply I|]. constructor; [|constructor]. split; reflexivity.
      * apply NDa.
      * rewrite handles_app. cbn. rewrite app_nil_r. apply I.
      * apply I.
      * rewrite app_length. cbn. lia.
      * rewrite app_length. cbn. lia.
    + constructor; cbn [z_clients z_pools]; apply I.
Qed.

Lemma z_known_ok c g s u a e d v : Zinv g s u -> pfind (z_clients s) a = Some e ->
  exists x, find_entry u a = Some x /\
    match handle_client c (g_max_size g) x d v with
    | None => z_known c g s a e d v = None
    | Some (x', plain) => exists s', z_known c g s a e d v = Some (s', plains a plain) /\ Zinv g s' (update_entry u a x')
    end.
Proof.
  intros I F. pose proof (Rel_find _ _ _ a (zi_rel _ _ _ I)) as H. rewrite F in H. destruct H as (x & FX & V).
  exists x. split; [exact FX|]. unfold z_known. pose proof (handle_view c (g_max_size g) _ _ _ d v V) as HV.
  destruct (handle_client _ _ _ _ _) as [[x' plain]|]; [|rewrite HV; reflexivity].
  destruct HV as (P' & e' & -> & V' & HO & S'). eexists. split; [reflexivity|].
  destruct (update_view _ _ _ _ _ _ _ _ (ow_nd _ _ (zi_own _ _ _ I)) (zi_rel _ _ _ I) F V' HO S') as [R' HH].
  assert (A : map fst (pupdate (z_clients s) a e') = map fst (z_clients s)).
  { clear. induction (z_clients s) as [|[b y] t IH]; cbn; [reflexivity|]. destruct (a =? b); cbn; congruence. }
  constructor; cbn [z_clients z_pools]; [exact R'|rewrite A; apply I|rewrite HH; eapply same_owned'; [exact S'|apply I]
    |eapply same_within; [exact S'|apply I]| |].
  - rewrite <- (map_length fst), A, map_length. apply I.
  - rewrite <- (map_length fst), A, map_length. apply I.
Qed.
Lemma zinv_set_recv g s u n w : Zinv g s u -> Zinv g (z_set_recv s n w) u.
Proof. intros [A B C D E F]. constructor; assumption. Qed.

(** One turn: what becomes of it, by the table of clients that own their readers. *)
Lemma z_recv_ok c g s u i : Zinv g s u ->
  match z_step_recv c g s i with
  | Some (s', o) => exists u', Zinv g s' u' /\
      forall a, (g_max_conn g <= 128 -> owns c g (with_av i (left_in s)) a (find_entry u a) (find_entry u' a) (sent_to a o))
  | None =>
      i_main i = MError \/
      (exists a d, i_main i = MData a d /\ server_new c (g_cfg g) (i_henv i) (left_in s) (recv_cut g d) = SPanic) \/
      (exists a d x, i_rx i a = Some d /\ find_entry u a = Some x /\
         handle_client c (g_max_size g) x (recv_cut g d) (i_env i) = None)
  end.
Proof.
  intros I. unfold z_step_recv. rewrite (z_scan_scan _ _ _ _ _ _ (zi_rel _ _ _ I)).
  pose proof (Rel_nd _ _ _ (zi_rel _ _ _ I) (zi_nd _ _ _ I)) as NDu.
  destruct (scan (i_rx i) (z_recv s) (z_recv s) u) as [found cursor] eqn:ES. destruct found as [[b d]|].
  - destruct (scan_rx _ _ _ _ _ _ _ ES) as [Hrx Hin].
    assert (F : exists e, pfind (z_clients s) b = Some e).
    { pose proof (Rel_find _ _ _ b (zi_rel _ _ _ I)) as H. destruct (pfind (z_clients s) b) as [e|]; [eauto|].
      exfalso. apply find_none in H. auto. }
    destruct F as (e & F). rewrite F.
    destruct (z_known_ok c g _ u b e (recv_cut g d) (i_env i) (zinv_set_recv g s u cursor (wait_receiving (z_wait s)) I) F) as (x & FX & H).
    destruct (handle_client c (g_max_size g) x (recv_cut g d) (i_env i)) as [[x' plain]|] eqn:EH.
    + destruct H as (s' & -> & I'). eexists. split; [exact I'|]. intros a _. rewrite sent_to_plains, find_update by congruence.
      destruct (N.eqb_spec b a) as [->|Hne].
      * rewrite N.eqb_refl, FX. apply owns_one. exact (own_receive c g (with_av i (left_in s)) a x d x' plain Hrx EH).
      * destruct (N.eqb_spec a b); [congruence|]. constructor.
    + rewrite H. right. right. exists b, d, x. auto.
  - destruct (i_main i) as [from d| |] eqn:EM; [| |left; reflexivity].
    2: { eexists. split; [apply zinv_set_recv; exact I|]. intros a _. constructor. }
    destruct (pfind (z_clients s) from) as [e|] eqn:EF.
    { eexists. split; [apply zinv_set_recv; exact I|]. intros a _. constructor. }
    set (s0 := z_set_recv s 0 (wait_receiving (z_wait s))).
    assert (I0 : Zinv g s0 u) by (apply zinv_set_recv; exact I).
    destruct (N.leb_spec (g_max_conn g) (N.of_nat (length (z_clients s)))) as [Hm|Hm].
    { unfold z_new_client. change (z_clients s0) with (z_clients s). destruct (N.leb_spec (g_max_conn g) (N.of_nat (length (z_clients s)))); [|lia].
      eexists. split; [exact I0|]. intros a _. constructor. }
    pose proof (z_new_ok c g s0 u from (recv_cut g d) i I0 EF Hm) as H. change (left_in s0) with (left_in s) in H.
    assert (FN : find_entry u from = None).
    { pose proof (Rel_find _ _ _ from (zi_rel _ _ _ I)) as X. rewrite EF in X. exact X. }
    destruct (server_new c (g_cfg g) (i_henv i) (left_in s) (recv_cut g d)) as [|reply|x reply] eqn:EN.
    + rewrite H. right. left. exists from, d. auto.
    + rewrite H. eexists. split; [exact I0|]. intros a _. unfold reply_out. rewrite sent_to_wire.
      destruct (N.eqb_spec from a) as [->|]; [|constructor]. rewrite FN. apply owns_one. exact (own_refused c g (with_av i (left_in s)) a d reply EM EN).
    + destruct H as (s' & -> & I'). change (length (z_clients s0)) with (length (z_clients s)) in I'.
      destruct (Nat.ltb_spec (length (z_clients s)) 128) as [Hl|Hl].
      * eexists. split; [exact I'|]. intros a _. unfold reply_out. rewrite sent_to_wire, find_app.
        destruct (N.eqb_spec from a) as [->|Hne].
        -- rewrite FN, N.eqb_refl. apply owns_one. exact (own_connect c g (with_av i (left_in s)) a d x reply EM EN).
        -- destruct (N.eqb_spec a from); [congruence|]. destruct (find_entry u a); constructor.
      * eexists. split; [exact I'|]. intros a Hmc. exfalso. lia.
Qed.

Lemma z_step_ok c g s u i : Zinv g s u ->
  let s1 := fst (z_clean g s i) in
  match z_step c g s i with
  | Some (s', o) => exists u', Zinv g s' u' /\
      forall a, (g_max_conn g <= 128 -> owns c g (with_av i (left_in s1)) a (find_entry u a) (find_entry u' a) (sent_to a o))
  | None =>
      i_main i = MError \/
      (exists a d, i_main i = MData a d /\ server_new c (g_cfg g) (i_henv i) (left_in s1) (recv_cut g d) = SPanic) \/
      (exists a d x o, i_rx i a = Some d /\ owns c g i a (find_entry u a) (Some x) o /\
         handle_client c (g_max_size g) x (recv_cut g d) (i_env i) = None)
  end.
Proof.
  intros I. destruct (z_clean_ok g s u i I) as (s1 & u1 & o1 & E1 & S1 & I1). unfold z_step. rewrite E1. cbn [fst].
  destruct (z_send_ok g s1 u1 i I1) as (s2 & u2 & o2 & E2 & S2 & I2 & L2 & _). rewrite E2. cbv zeta.
  pose proof (Rel_nd _ _ _ (zi_rel _ _ _ I) (zi_nd _ _ _ I)) as ND. pose proof (Rel_nd _ _ _ (zi_rel _ _ _ I1) (zi_nd _ _ _ I1)) as ND1.
  assert (O12 : forall a, owns c g i a (find_entry u a) (find_entry u2 a) (sent_to a (o1 ++ o2))).
  { intros a. rewrite sent_to_app. eapply owns_app.
    - exact (clean_owns c g (toS s u) i (toS s1 u1) o1 a ND S1).
    - exact (send_owns c g (toS s1 u1) i (toS s2 u2) o2 a ND1 S2). }
  assert (O12' : forall a, owns c g (with_av i (left_in s1)) a (find_entry u a) (find_entry u2 a) (sent_to a (o1 ++ o2))).
  { intros a. rewrite sent_to_app. eapply owns_app.
    - exact (clean_owns c g (toS s u) (with_av i (left_in s1)) (toS s1 u1) o1 a ND S1).
    - exact (send_owns c g (toS s1 u1) (with_av i (left_in s1)) (toS s2 u2) o2 a ND1 S2). }
  pose proof (z_recv_ok c g s2 u2 i I2) as H. rewrite L2 in H.
  destruct (z_step_recv c g s2 i) as [[s3 o3]|].
  - destruct H as (u' & I' & H). exists u'. split; [exact I'|]. intros a Hm. rewrite app_assoc, sent_to_app.
    eapply owns_app; [apply O12'|apply H; exact Hm].
  - destruct H as [H|[H|(a & d & x & H1 & H2 & H3)]]; [auto|auto|]. right. right. exists a, d, x, (sent_to a (o1 ++ o2)).
    split; [exact H1|]. split; [rewrite <- H2; apply O12|exact H3].
Qed.
Lemma zreach_inv c g s : zreach c g s -> exists u, Zinv g s u.
Proof.
  induction 1 as [now|s i s' o R (u & I) E].
  - exists []. constructor; cbn; [constructor|constructor| |unfold within; cbn; lia|lia|lia].
    constructor; cbn; try constructor. + destruct h; cbn; tauto. + intros [].
  - pose proof (z_step_ok c g s u i I) as H. cbv zeta in H. rewrite E in H. destruct H as (u' & I' & _). eauto.
Qed.

(** In one turn the client at any address, its reader included, and what is sent to it change
    only by events of its own, as if it owned its reader; the other clients matter only through
    the kinds of readers that are left.  (Limit of connections not above the size of the table.) *)
Theorem pooled_readers_isolated : forall c g s i s' o a, g_max_conn g <= 128 -> zreach c g s -> z_step c g s i = Some (s', o) ->
  owns c g (with_av i (left_in (fst (z_clean g s i)))) a (client_of s a) (client_of s' a) (sent_to a o).
Proof.
  intros c g s i s' o a Hm R E. destruct (zreach_inv c g s R) as (u & I). pose proof (z_step_ok c g s u i I) as H.
  cbv zeta in H. rewrite E in H. destruct H as (u' & I' & H). rewrite (client_find g s u a I), (client_find g s' u' a I'). apply H. exact Hm.
Qed.

(** The server stops only if its main socket fails, or where a server whose clients own their
    readers would: never because a reader is missing from a pool or a count underflows. *)
Theorem pools_never_panic : forall c g s i, zreach c g s -> z_step c g s i = None ->
  i_main i = MError \/
  (exists a d, i_main i = MData a d /\ server_new c (g_cfg g) (i_henv i) (left_in (fst (z_clean g s i))) (recv_cut g d) = SPanic) \/
  (exists a d x o, i_rx i a = Some d /\ owns c g i a (client_of s a) (Some x) o /\
     handle_client c (g_max_size g) x (recv_cut g d) (i_env i) = None).
Proof.
  intros c g s i R E. destruct (zreach_inv c g s R) as (u & I). pose proof (z_step_ok c g s u i I) as H.
  cbv zeta in H. rewrite E in H. destruct H as [H|[H|(a & d & x & o & H1 & H2 & H3)]]; [auto|auto|].
  right. right. exists a, d, x, o. rewrite (client_find g s u a I). auto.
Qed.

(** ** The limits *)
Definition pool_handles (P : pools) : list handle :=
  map HSingle (keys (p_single P)) ++ map HMulti (keys (p_multi P)) ++ map HSeek (keys (p_seek P)).
Lemma pool_handles_in P h : In h (pool_handles P) <-> in_pool P h.
Proof.
  unfold pool_handles. rewrite !in_app_iff, !in_map_iff. destruct h as [i|i|i]; cbn.
  - split; [intros [(j & [= ->] & H)|[(j & E & _)|(j & E & _)]]; [exact H|discriminate|discriminate]|eauto].
  - split; [intros [(j & E & _)|[(j & [= ->] & H)|(j & E & _)]]; [discriminate|exact H|discriminate]|eauto].
  - split; [intros [(j & E & _)|[(j & E & _)|(j & [= ->] & H)]]; [discriminate|discriminate|exact H]|eauto].
Qed.
Lemma NoDup_map_inj {A B} (f : A -> B) l : (forall x y, f x = f y -> x = y) -> NoDup l -> NoDup (map f l).
Proof.
  intros H. induction 1 as [|x l Hni ND IH]; cbn; constructor; [|exact IH]. intros Hin. apply in_map_iff in Hin as (y & E & Hy).
  apply H in E. subst y. auto.
Qed.
Lemma NoDup_app2 {A} (l1 l2 : list A) : NoDup l1 -> NoDup l2 -> (forall x, In x l1 -> In x l2 -> False) -> NoDup (l1 ++ l2).
Proof.
  intros H1 H2 D. induction H1 as [|x l Hni ND IH]; cbn; [exact H2|]. constructor.
  - rewrite in_app_iff. intros [H|H]; [auto|]. apply (D x); [left; reflexivity|exact H].
  - apply IH. intros y Hy. apply D. right. exact Hy.
Qed.
Lemma pool_handles_nd P l : Owned P l -> NoDup (pool_handles P).
Proof.
  intros [_ _ A B C]. unfold pool_handles. apply NoDup_app2; [apply NoDup_map_inj; [congruence|exact A]| |].
  - apply NoDup_app2; [apply NoDup_map_inj; [congruence|exact B]|apply NoDup_map_inj; [congruence|exact C]|].
    intros x H1 H2. apply in_map_iff in H1 as (i & <- & _). apply in_map_iff in H2 as (j & E & _). discriminate.
  - intros x H1 H2. apply in_map_iff in H1 as (i & <- & _). apply in_app_or in H2 as [H2|H2]; apply in_map_iff in H2 as (j & E & _); discriminate.
Qed.
Lemma owned_count P l : Owned P l -> (length (p_single P) + length (p_multi P) + length (p_seek P) = length l)%nat.
Proof.
  intros O. assert (E : length (pool_handles P) = length l).
  { apply Nat.le_antisymm; (apply NoDup_incl_length; [|intros h Hh]).
    - eapply pool_handles_nd; exact O.
    - apply (ow_in _ _ O), pool_handles_in; exact Hh.
    - apply (ow_nd _ _ O).
    - apply pool_handles_in, (ow_in _ _ O). exact Hh. }
  rewrite <- E. unfold pool_handles, keys. rewrite !app_length, !map_length. lia.
Qed.
Lemma handles_readers t : length (handles_of t) = length (filter (fun x => is_reader (snd x)) t).
Proof.
  induction t as [|[a e] t IH]; [reflexivity|]. rewrite handles_cons, app_length, IH. unfold handle_of, is_reader. cbn.
  destruct (pe_work e); reflexivity.
Qed.

(** Each pool holds at most as many readers as it has room for; altogether there are exactly as
    many readers as clients that read, so that nothing is left behind when a client goes; and at
    most 128 clients, and no more than allowed. *)
Theorem pools_within_limits : forall c g s, zreach c g s ->
  (length (p_single (z_pools s)) <= 64)%nat /\ (length (p_multi (z_pools s)) <= 8)%nat /\ (length (p_seek (z_pools s)) <= 64)%nat /\
  (length (p_single (z_pools s)) + length (p_multi (z_pools s)) + length (p_seek (z_pools s)) = readers s)%nat /\
  (length (z_clients s) <= 128)%nat /\ N.of_nat (length (z_clients s)) <= g_max_conn g /\ NoDup (map fst (z_clients s)).
Proof.
  intros c g s R. destruct (zreach_inv c g s R) as (u & I). destruct (zi_within _ _ _ I) as (A & B & C).
  do 3 (split; [assumption|]). split; [rewrite (owned_count _ _ (zi_own _ _ _ I)), handles_readers; reflexivity|].
  split; [apply I|]. split; [apply I|apply I].
Qed.
(** When the last client is gone every pool is empty. *)
Theorem pools_empty_when_idle : forall c g s, zreach c g s -> z_clients s = [] -> z_pools s = pools_new.
Proof.
  intros c g s R E. destruct (pools_within_limits c g s R) as (_ & _ & _ & H & _). unfold readers in H. rewrite E in H. cbn in H.
  destruct (z_pools s) as [a b d]. cbn in H. destruct a; [|discriminate]. destruct b; [|discriminate]. destruct d; [|discriminate]. reflexivity.
Qed.

(** With at most 72 connections a request is never refused for want of a reader: choosing one
    always succeeds for a client that could be let in. *)
Theorem reader_always_available : forall c g s o, zreach c g s -> g_max_conn g <= 72 ->
  N.of_nat (length (z_clients s)) < g_max_conn g -> block_reader o (left_in s) (sc_seek (g_cfg g)) <> None.
Proof.
  intros c g s o R Hm Hc. destruct (pools_within_limits c g s R) as (A & B & C & H & _). unfold readers in H.
  pose proof (filter_len (fun x : addr * pentry => is_reader (snd x)) (z_clients s)) as F. unfold block_reader, left_in. cbn [av_single av_multi av_seek].
  destruct (Nat.ltb_spec (length (p_multi (z_pools s))) 8); [repeat (destruct (_ && _)); discriminate|].
  destruct (Nat.ltb_spec (length (p_seek (z_pools s))) 64); [repeat (destruct (_ && _)); discriminate|]. lia.
Qed.
(** Sharp: window 1 needs all three pools full to be refused, larger windows the second and third. *)
Theorem reader_refused_iff : forall o av seek, block_reader o av seek = None <->
  av_multi av = false /\ av_seek av = false /\ (op_window o = 1 -> av_single av = false).
Proof.
  intros o [s m k] seek. unfold block_reader. cbn. destruct m; cbn.
  - split; [repeat (destruct (_ && _)); discriminate|intros (E & _); discriminate].
  - destruct k; cbn; [split; [repeat (destruct (_ && _)); discriminate|intros (_ & E & _); discriminate]|].
    rewrite andb_false_r. destruct (N.eqb_spec (op_window o) 1) as [E|E]; cbn.
    + destruct s; cbn; [split; [discriminate|intros (_ & _ & H); specialize (H E); discriminate]|tauto].
    + split; [intros _; split; [auto|]; split; [auto|]; intros; contradiction|auto].
Qed.

(** An acceptable request of an unknown address gets its connection, with the kind of reader
    chosen, while there is room. *)
Theorem pooled_admission : forall c g s i a d x reply, zreach c g s ->
  (forall b, i_rx i b = None) -> i_main i = MData a d ->
  let s1 := fst (z_clean g s i) in
  client_of s1 a = None -> (length (z_clients s1) < 128)%nat -> N.of_nat (length (z_clients s1)) < g_max_conn g ->
  server_new c (g_cfg g) (i_henv i) (left_in s1) (recv_cut g d) = SAccepted x reply ->
  exists s' o, z_step c g s i = Some (s', o) /\ client_of s' a = Some (new_entry x (e_now (i_env i)) (i_file i)).
Proof.
  intros c g s i a d x reply R Hrx EM s1 HN Hl Hm EN. destruct (zreach_inv c g s R) as (u & I).
  destruct (z_clean_ok g s u i I) as (s1' & u1 & o1 & E1 & S1 & I1). unfold s1 in *. rewrite E1 in HN, Hl, Hm, EN. cbn [fst] in *.
  unfold z_step. rewrite E1. destruct (z_send_ok g s1' u1 i I1) as (s2 & u2 & o2 & E2 & S2 & I2 & L2 & N2). rewrite E2.
  unfold z_step_recv. rewrite (z_scan_scan _ _ _ _ _ _ (zi_rel _ _ _ I2)).
  assert (SN : fst (scan (i_rx i) (z_recv s2) (z_recv s2) u2) = None).
  { generalize (z_recv s2) at 1. generalize (z_recv s2). clear -Hrx. induction u2 as [|[b e] t IH]; intros cur sk; cbn; [reflexivity|].
    destruct (0 <? sk); [apply IH|]. rewrite Hrx. apply IH. }
  destruct (scan (i_rx i) (z_recv s2) (z_recv s2) u2) as [found cursor]. cbn in SN. subst found. rewrite EM.
  assert (F1 : find_entry u1 a = None) by (rewrite <- (client_find g s1' u1 a I1); exact HN).
  assert (F2 : find_entry u2 a = None).
  { apply find_none. pose proof (step_send_addrs _ _ _ _ S2) as (A & _). cbn [s_clients toS] in A. rewrite A. apply find_none. exact F1. }
  assert (P2 : pfind (z_clients s2) a = None).
  { pose proof (Rel_find _ _ _ a (zi_rel _ _ _ I2)) as H. destruct (pfind (z_clients s2) a); [|reflexivity]. destruct H as (y & H & _). congruence. }
  rewrite P2. set (s0 := z_set_recv s2 0 (wait_receiving (z_wait s2))).
  assert (I0 : Zinv g s0 u2) by (apply zinv_set_recv; exact I2).
  pose proof (z_new_ok c g s0 u2 a (recv_cut g d) i I0 P2) as H. change (left_in s0) with (left_in s2) in H.
  change (length (z_clients s0)) with (length (z_clients s2)) in H. rewrite L2, EN in H. rewrite N2 in H.
  destruct (H Hm) as (s' & -> & I'). destruct (Nat.ltb_spec (length (z_clients s1')) 128); [|lia].
  do 2 eexists. split; [reflexivity|]. rewrite (client_find g _ _ a I'), find_app, F2, N.eqb_refl. reflexivity.
Qed.

(** Room in the table: with a limit above 128 a request is answered as if accepted, but the
    connection is dropped: the table has no room. *)
Theorem beyond_table_dropped : forall c g s i a d x reply, zreach c g s ->
  pfind (z_clients s) a = None -> length (z_clients s) = 128%nat -> 128 < g_max_conn g ->
  server_new c (g_cfg g) (i_henv i) (left_in s) d = SAccepted x reply ->
  exists s', z_new_client c g s a d i = Some (s', reply_out a reply) /\
    (forall b, client_of s' b = client_of s b) /\ readers s' = readers s /\
    (length (p_single (z_pools s')) + length (p_multi (z_pools s')) + length (p_seek (z_pools s')) = readers s)%nat.
Proof.
  intros c g s i a d x reply R F HL Hm EN. destruct (zreach_inv c g s R) as (u & I).
  pose proof (z_new_ok c g s u a d i I F) as H. rewrite HL in H. specialize (H Hm). rewrite EN in H. destruct H as (s' & E & I').
  change (128 <? 128)%nat with false in I'. cbn iota in I'. exists s'. split; [exact E|]. split.
  - intros b. rewrite (client_find g s' u b I'), (client_find g s u b I). reflexivity.
  - assert (C : z_clients s' = z_clients s).
    { unfold z_new_client in E. rewrite HL in E. destruct (N.leb_spec (g_max_conn g) (N.of_nat 128)); [lia|].
      rewrite (from_used_ok s (zi_within _ _ _ I)), EN in E. cbv zeta in E. unfold MAX_CLIENTS_STACK in E.
      change (128 <? 128)%nat with false in E. cbn iota in E.
      destruct (es_reader x); [destruct (pool_from _ _ _) as [[P h]|]|]; injection E as <-; reflexivity. }
    split; [unfold readers; rewrite C; reflexivity|].
    rewrite (owned_count _ _ (zi_own _ _ _ I')), handles_readers, C. reflexivity.
Qed.

(** ** The buffers of the reader for larger windows *)
Inductive rop := ONext (cap : N) (retry io : bool) | OFree (block : N).
Fixpoint reader_run (next : mreader -> N -> bool -> bool -> mreader * nextres) (r : mreader) (l : list rop) : list (nextres + N) :=
  match l with
  | [] => []
  | ONext cap retry io :: l' => let '(r', x) := next r cap retry io in Datatypes.inl x :: reader_run next r' l'
  | OFree b :: l' => let '(r', n) := multi_free r b in Datatypes.inr n :: reader_run next r' l'
  end.
Definition fits (r : mreader) : Prop := N.of_nat (length (r_blocks r)) <= r_max r.
Lemma in_use_all l : free_slot l = None -> in_use l = N.of_nat (length l).
Proof.
  unfold in_use. induction l as [|b l IH]; cbn; [reflexivity|]. destruct (b_index b); [|discriminate]. intros H. specialize (IH H). cbn. lia.
Qed.
Lemma set_slot_length l b : length (set_slot l b) = length l.
Proof. induction l as [|x l IH]; cbn; [reflexivity|]. destruct (b_index x); cbn; congruence. Qed.
Lemma free_slot_app l d : free_slot l = None -> free_slot (l ++ [mkB d None]) = Some d.
Proof. induction l as [|x l IH]; cbn; [reflexivity|]. destruct (b_index x); [exact IH|discriminate]. Qed.
Lemma release_length l i : length (fst (fst (release l i))) = length l.
Proof.
  induction l as [|x l IH]; cbn; [reflexivity|]. destruct (release l i) as [[l1 n] q]. cbn in IH.
  destruct (b_index x) as [j|]; [destruct (j <=? i)|]; cbn; congruence.
Qed.
Lemma multi_next_fits file r cap retry io : fits r -> fits (fst (multi_next file r cap retry io)).
Proof.
  unfold multi_next, fits. intros H. destruct (multi_finished r); [exact H|]. cbv zeta.
  destruct (if retry then min_buf (r_blocks r) else None) as [[i d]|]; [destruct (_ <=? _); exact H|].
  destruct (find_buf (r_blocks r) (r_read r + 1)); [destruct (_ <=? _); exact H|].
  destruct (r_fin r); cbn [orb]; [exact H|]. destruct (N.leb_spec (r_max r) (in_use (r_blocks r))) as [|Hu]; [exact H|].
  assert (Q : N.of_nat (length (match free_slot (r_blocks r) with Some _ => r_blocks r | None => r_blocks r ++ [mkB (repeat 0 (N.to_nat (r_bs r))) None] end)) <= r_max r).
  { destruct (free_slot (r_blocks r)) eqn:ES; [exact H|]. apply in_use_all in ES. rewrite app_length. cbn. lia. }
  destruct io; [exact Q|]. destruct (_ <=? cap); cbn [fst r_blocks r_max]; rewrite set_slot_length; exact Q.
Qed.
Lemma stack_next_same bc file r cap retry io : fits r -> r_max r <= bc ->
  stack_multi_next bc file r cap retry io = multi_next file r cap retry io.
Proof.
  unfold stack_multi_next, multi_next, fits. intros H Hb. destruct (multi_finished r); [reflexivity|]. cbv zeta.
  destruct (if retry then min_buf (r_blocks r) else None) as [[i d]|]; [reflexivity|].
  destruct (find_buf (r_blocks r) (r_read r + 1)); [reflexivity|].
  destruct (r_fin r); cbn [orb]; [reflexivity|]. destruct (N.leb_spec (r_max r) (in_use (r_blocks r))) as [|Hu]; [reflexivity|].
  destruct (free_slot (r_blocks r)) as [d|] eqn:ES.
  - rewrite ES. reflexivity.
  - pose proof (in_use_all _ ES) as HU. destruct (N.ltb_spec (N.of_nat (length (r_blocks r))) bc); [|lia]. cbn [negb].
    rewrite (free_slot_app _ _ ES). reflexivity.
Qed.
(** With windows up to 16 the reader with its sixteen buffers does the same as the one that can
    allocate, whatever is asked of it. *)
Theorem stack_buffers_same : forall file bs window l, window <= 16 ->
  reader_run (stack_multi_next MAX_BLOCKS_STACK file) (multi_new bs window) l = reader_run (multi_next file) (multi_new bs window) l.
Proof.
  intros file bs window l Hw.
  assert (G : forall r, fits r -> r_max r <= 16 -> reader_run (stack_multi_next MAX_BLOCKS_STACK file) r l = reader_run (multi_next file) r l).
  { induction l as [|[cap retry io|b] l IH]; intros r Hf Hm; cbn; [reflexivity| |].
    - rewrite stack_next_same by assumption. pose proof (multi_next_fits file r cap retry io Hf) as Hf'.
      assert (Hm' : r_max (fst (multi_next file r cap retry io)) = r_max r).
      { unfold multi_next. destruct (multi_finished r); [reflexivity|]. cbv zeta.
        destruct (if retry then min_buf (r_blocks r) else None) as [[i d]|]; [destruct (_ <=? _); reflexivity|].
        destruct (find_buf (r_blocks r) (r_read r + 1)); [destruct (_ <=? _); reflexivity|].
        destruct (_ || _); [reflexivity|]. destruct io; [reflexivity|]. destruct (_ <=? cap); reflexivity. }
      destruct (multi_next file r cap retry io) as [r' x]. cbn in Hf', Hm'. f_equal. apply IH; [exact Hf'|lia].
    - unfold multi_free. destruct (map_index (r_map r) b) as [i m]. pose proof (release_length (r_blocks r) i) as RL.
      destruct (release (r_blocks r) i) as [[bl n] q]. cbn in RL. f_equal. apply IH; [|exact Hm].
      unfold fits in *. cbn. rewrite RL. exact Hf. }
  apply G; [unfold fits; cbn; lia|exact Hw].
Qed.

(** ** Cases *)
Definition zv_g (n : N) : srvcfg := mkSC (mkScfg 1400 8 5000 1000000 None None false false false) n.
Definition zv_e (now : N) : env := mkEnv now false None true [].
Definition zv_henv : henv := mkHenv [9; 9] (repeat 1 24) (fun _ => Some None) true true (fun _ => []).
Definition zv_in (now : N) (rx : addr -> option bytes) (m : mainev) : input :=
  mkIn now (fun _ => zv_e now) 1404 (fun _ => zv_e now) (fun _ => zv_e now) rx m (zv_e now) zv_henv av_all
    (fun p => repeat 7 600 ++ p).
Definition zv_quiet : addr -> option bytes := fun _ => None.
Definition zv_read (f : string) : bytes := to_bytes (PRead (mkReq (s2b f) exts_empty)).
Definition zv_write (f : string) : bytes := to_bytes (PWrite (mkReq (s2b f) exts_empty)).
Definition zv_ack (k : N) : bytes := to_bytes (PAck k).
Fixpoint zv_run (c : crypto) (g : srvcfg) (s : zstate) (l : list input) : option (zstate * outs) :=
  match l with
  | [] => Some (s, [])
  | i :: l' => match z_step c g s i with
               | Some (s', o) => match zv_run c g s' l' with Some (s2, o2) => Some (s2, o ++ o2) | None => None end
               | None => None
               end
  end.
Lemma zv_run_reach c g s l s' o : zreach c g s -> zv_run c g s l = Some (s', o) -> zreach c g s'.
Proof.
  revert s o. induction l as [|i l IH]; cbn; intros s o R E; [injection E as <- _; exact R|].
  destruct (z_step c g s i) as [[s1 o1]|] eqn:E1; [|discriminate].
  destruct (zv_run c g s1 l) as [[s2 o2]|] eqn:E2; [|discriminate]. injection E as <- _.
  eapply IH; [eapply zreach_step; eassumption|exact E2].
Qed.
Definition zv_get (x : option (zstate * outs)) : zstate := match x with Some (s, _) => s | None => z_init 0 end.
Definition zv_out (x : option (zstate * outs)) : outs := match x with Some (_, o) => o | None => [] end.
Lemma zv_get_reach g l : zreach toy g (zv_get (zv_run toy g (z_init 0) l)).
Proof.
  destruct (zv_run toy g (z_init 0) l) as [[s o]|] eqn:E; cbn; [|constructor].
  eapply zv_run_reach; [constructor|exact E].
Qed.
(** Three clients read, one writes; the readers have the handles 0, 1, 2 of the first pool. *)
Definition zv_four : list input :=
  [ zv_in 10 zv_quiet (MData 30 (zv_read "c")); zv_in 11 zv_quiet (MData 10 (zv_read "a"));
    zv_in 12 zv_quiet (MData 15 (zv_write "w")); zv_in 13 zv_quiet (MData 20 (zv_read "b")) ].
Definition zv_s4 : zstate := zv_get (zv_run toy (zv_g 20) (z_init 0) zv_four).
Example pools_case :
  zreach toy (zv_g 20) zv_s4 /\ map fst (z_clients zv_s4) = [30; 10; 15; 20] /\
  handles_of (z_clients zv_s4) = [HSingle 0; HSingle 1; HSingle 2] /\ readers zv_s4 = 3%nat /\
  (exists e, client_of zv_s4 20 = Some e /\ en_work e = WRead (repeat 7 600 ++ s2b "b") (RS (single_new 512))).
Proof. split; [apply zv_get_reach|]. vm_compute. repeat split; try reflexivity. eexists. split; reflexivity. Qed.
(** Each client gets its own file, block after block. *)
Example isolated_case :
  let x := zv_run toy (zv_g 20) zv_s4
    [ zv_in 20 zv_quiet MWouldBlock; zv_in 21 (fun a => if a =? 20 then Some (zv_ack 1) else None) MWouldBlock;
      zv_in 22 zv_quiet MWouldBlock ] in
  sent_to 20 (zv_out x) = [OPlain (to_bytes (PData 1 (repeat 7 512))); OPlain (to_bytes (PData 2 (repeat 7 88 ++ s2b "b")))].
Proof. vm_compute. reflexivity. Qed.
(** The client with the handle in the middle leaves (an error packet, then the clean-up); its
    reader is dropped and the next one gets the free index; the others keep theirs. *)
Example reuse_case :
  let s := zv_get (zv_run toy (zv_g 20) zv_s4
    [ zv_in 20 (fun a => if a =? 10 then Some (to_bytes (PError Undefined [])) else None) MWouldBlock;
      zv_in 3000 zv_quiet (MData 50 (zv_read "d")) ]) in
  map fst (z_clients s) = [30; 15; 20; 50] /\ handles_of (z_clients s) = [HSingle 0; HSingle 2; HSingle 1] /\
  map fst (p_single (z_pools s)) = [0; 2; 1].
Proof. vm_compute. auto. Qed.
(** The admission of a further client meets the hypotheses of [pooled_admission]. *)
Example admission_case :
  exists x reply, server_new toy (g_cfg (zv_g 20)) (i_henv (zv_in 14 zv_quiet (MData 60 (zv_read "e"))))
    (left_in (fst (z_clean (zv_g 20) zv_s4 (zv_in 14 zv_quiet (MData 60 (zv_read "e")))))) (recv_cut (zv_g 20) (zv_read "e")) = SAccepted x reply.
Proof. vm_compute. do 2 eexists. reflexivity. Qed.
(** All pools in use: refused; a window of one and the first pool not full: served. *)
Example refused_case :
  block_reader (mkOpts 512 80 None LNone 4) (mkAv true false false) true = None /\
  block_reader (mkOpts 512 80 None LNone 1) (mkAv true false false) true = Some (RS (single_new 512)).
Proof. vm_compute. auto. Qed.
(** Sixteen buffers, a window of 18: the seventeenth block takes the buffer of the sixteenth,
    which is then missing when blocks are sent again. *)
Definition zv_overrun (next : mreader -> N -> bool -> bool -> mreader * nextres) : list (nextres + N) :=
  skipn 17 (reader_run next (multi_new 1 18) (repeat (ONext 1 false false) 17 ++ [OFree 15; ONext 1 true false])).
Example stack_buffers_overrun :
  zv_overrun (multi_next (map N.of_nat (seq 1 30))) =
    [Datatypes.inr 15; Datatypes.inl (Ok (Some (mkBlk 16 16 [16] true)))] /\
  zv_overrun (stack_multi_next 16 (map N.of_nat (seq 1 30))) =
    [Datatypes.inr 15; Datatypes.inl (Ok (Some (mkBlk 17 17 [17] true)))].
Proof. vm_compute. auto. Qed.
Example stack_buffers_case : (* the hypothesis at its bound *)
  reader_run (stack_multi_next 16 (map N.of_nat (seq 1 30))) (multi_new 1 16)
    (repeat (ONext 1 false false) 17 ++ [OFree 15; ONext 1 true false]) =
  map (fun k => Datatypes.inl (Ok (Some (mkBlk k k [k] false)))) (map N.of_nat (seq 1 16)) ++
  [Datatypes.inl (Ok None); Datatypes.inr 15; Datatypes.inl (Ok (Some (mkBlk 16 16 [16] true)))].
Proof. vm_compute. reflexivity. Qed.

Print Assumptions pooled_readers_isolated.
Print Assumptions pools_never_panic.
Print Assumptions pools_within_limits.
Print Assumptions pools_empty_when_idle.
Print Assumptions reader_always_available.
Print Assumptions reader_refused_iff.
Print Assumptions pooled_admission.
Print Assumptions beyond_table_dropped.
Print Assumptions stack_buffers_same.
