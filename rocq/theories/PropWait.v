(** C42: how the client waits for the first answer. *)
From Verif Require Import Base BaseProofs PacketModel ReaderModel ConfigModel CryptoModel CryptoSpec ExtModel Base64Model ConnModel HandshakeModel
  ClientWaitModel PropCrypto.

(** A datagram that does not come from the IP address of the server; one that does. *)
Definition stranger (i : winput) : bool := match wi_ev i with WvFrom false _ _ => true | _ => false end.
Definition server_says (i : winput) : bool := match wi_ev i with WvFrom true _ _ => true | _ => false end.
Definition wire_of (i : winput) : bytes := match wi_ev i with WvFrom _ _ w => w | _ => [] end.
(** The first exchange is not encrypted: level none, or the key of the server is not known
    (encryption_socket_builder.rs 17-56). *)
Definition in_clear (s : csock) : Prop := cs_level s = LNone \/ cs_key s = None.
Lemma in_clear_recv c s b : in_clear s -> client_recv c s b = Ok b.
Proof. unfold client_recv. intros [-> | ->]; [reflexivity|]. destruct (cs_level s); reflexivity. Qed.

(** Outcomes are the same, except for the length of the receive buffer. *)
Definition same_outcome (a b : wout) : Prop :=
  match a, b with
  | WoWaiting x, WoWaiting y =>
      ws_initial x = ws_initial y /\ ws_used x = ws_used y /\ ws_start x = ws_start y /\ ws_retry x = ws_retry y
  | _, _ => a = b
  end.

(** Datagrams from other hosts have no influence, provided they are not shorter than those of the
    server: the outcome is that of the run without them. *)
Theorem strangers_have_no_influence : forall g ex now l D,
  in_clear (wc_sock g) -> D <= wc_buf g ->
  (forall i, In i l -> stranger i = true -> wi_sock i = true /\ D <= blen (wire_of i)) ->
  (forall i, In i l -> server_says i = true -> blen (wire_of i) <= D) ->
  same_outcome (snd (query_run g (wait_init g ex now) l))
               (snd (query_run g (wait_init g ex now) (filter (fun i => negb (stranger i)) l))).
Proof.
  intros g ex now l D HC HB HS HV.
  assert (G : forall l a b, (forall i, In i l -> stranger i = true -> wi_sock i = true /\ D <= blen (wire_of i)) ->
    (forall i, In i l -> server_says i = true -> blen (wire_of i) <= D) ->
    same_outcome (WoWaiting a) (WoWaiting b) -> D <= ws_cap a -> D <= ws_cap b ->
    same_outcome (snd (query_run g a l)) (snd (query_run g b (filter (fun i => negb (stranger i)) l)))).
  { clear l HS HV. induction l as [|i l IH]; intros a b HS HV HE Ha Hb; [exact HE|].
    assert (HS' : forall j, In j l -> stranger j = true -> wi_sock j = true /\ D <= blen (wire_of j)) by (intros; apply HS; [right|]; assumption).
    assert (HV' : forall j, In j l -> server_says j = true -> blen (wire_of j) <= D) by (intros; apply HV; [right|]; assumption).
    specialize (HS i (or_introl eq_refl)). specialize (HV i (or_introl eq_refl)).
    cbn [filter query_run]. unfold wait_turn at 1.
    destruct i as [sk ev t]. unfold stranger, server_says, wire_of in *. cbn [wi_ev wi_sock wi_now] in *.
    destruct ev as [[|] port wire| |]; cbn [negb] in *; cbn [query_run].
    - (* from the server *)
      unfold wait_turn. cbn [wi_ev wi_sock wi_now]. destruct sk; cbn [negb]; [|reflexivity].
      rewrite !in_clear_recv by assumption. specialize (HV eq_refl).
      destruct HE as (E1 & E2 & E3 & E4). rewrite E1, E2.
      rewrite !takeN_all by (eapply N.le_trans; eassumption).
      destruct (query_step _ _ _ _ _ _ _ _ _) as [|[e|]|q]; try reflexivity.
      specialize (IH (mkWS false exts_empty t (op_retry (wc_opts g)) (wc_buf g)) (mkWS false exts_empty t (op_retry (wc_opts g)) (wc_buf g)) HS' HV').
      destruct (query_run g _ l) as [r o] eqn:Q1. destruct (query_run g _ (filter _ l)) as [r' o'] eqn:Q2. cbn [snd] in *.
      apply IH; [cbn; auto|exact HB|exact HB].
    - (* from a stranger *)
      destruct (HS eq_refl) as [-> Hl]. cbn [negb]. rewrite in_clear_recv by assumption.
      destruct HE as (E1 & E2 & E3 & E4).
      specialize (IH (mkWS (ws_initial a) (ws_used a) (ws_start a) (ws_retry a) (blen (takeN (ws_cap a) wire))) b HS' HV').
      destruct (query_run g _ l) as [r o] eqn:Q1. cbn [snd] in *. apply IH; [cbn; auto| |exact Hb].
      cbn [ws_cap]. rewrite blen_takeN. lia.
    - unfold wait_turn. cbn [wi_ev wi_sock wi_now]. destruct sk; cbn [negb]; [|reflexivity].
      destruct HE as (E1 & E2 & E3 & E4). rewrite E1, E2, E3, E4. destruct (_ <? _); [reflexivity|].
      specialize (IH (mkWS (ws_initial b) (ws_used b) (ws_start b) (N.min (wc_timeout g - (t - ws_start b)) (2 * ws_retry b)) (ws_cap a))
                     (mkWS (ws_initial b) (ws_used b) (ws_start b) (N.min (wc_timeout g - (t - ws_start b)) (2 * ws_retry b)) (ws_cap b)) HS' HV').
      destruct (query_run g _ l) as [r o] eqn:Q1. destruct (query_run g _ (filter _ l)) as [r' o'] eqn:Q2. cbn [snd] in *.
      apply IH; [cbn; auto|exact Ha|exact Hb].
    - unfold wait_turn. cbn [wi_ev wi_sock]. destruct sk; reflexivity. }
  apply G; [exact HS|exact HV|cbn; auto|exact HB|exact HB].
Qed.

(** The answer obeyed comes from the server's IP address, from its port unless changes are
    allowed, and all that came from this address before it is at most one error packet, answered
    by asking again without options, which happens only at level none. *)
Theorem answer_from_server : forall g ex now l r q port, query_run g (wait_init g ex now) l = (r, WoDone q port) ->
  (port = true \/ cc_port_change (wc_cfg g) = true) /\
  exists l1 i l2, l = l1 ++ i :: l2 /\ server_says i = true /\ (exists w, wi_ev i = WvFrom true port w) /\
    length r = S (length l1) /\
    match filter server_says l1 with
    | [] => r = repeat ex (length r)
    | [j] => op_enc (wc_opts g) = LNone /\
        (exists code msg, (code = IllegalOperation \/ code = Undefined) /\
           (in_clear (wc_sock g) -> (forall k, In k l1 -> stranger k = false) ->
            from_bytes (takeN (wc_buf g) (wire_of j)) = Ok (PError code msg))) /\
        exists m n, r = repeat ex m ++ repeat exts_empty n
    | _ => False
    end.
Proof.
  assert (A : forall g l st r q port, query_run g st l = (r, WoDone q port) -> ws_initial st = false ->
    (port = true \/ cc_port_change (wc_cfg g) = true) /\
    exists l1 i l2, l = l1 ++ i :: l2 /\ server_says i = true /\ (exists w, wi_ev i = WvFrom true port w) /\
      filter server_says l1 = [] /\ length r = S (length l1) /\ r = repeat (ws_used st) (length r)).
  { intros g l. induction l as [|i l IH]; intros st r q port E HI; [discriminate|]. cbn [query_run] in E.
    unfold wait_turn in E. destruct (wi_sock i); cbn [negb] in E; [|discriminate].
    destruct i as [sk ev t]. cbn [wi_ev wi_now] in E. destruct ev as [ip pt wire| |]; [| |discriminate].
    - destruct (client_recv _ _ _) as [p| |]; [|discriminate..]. destruct ip.
      + unfold query_step in E. destruct (negb pt && negb (cc_port_change (wc_cfg g))) eqn:EP; [discriminate|].
        assert (HP : pt = true \/ cc_port_change (wc_cfg g) = true).
        { destruct pt; [auto|]. destruct (cc_port_change (wc_cfg g)); [auto|discriminate]. }
        assert (HF : forall q0, (r = [ws_used st] /\ port = pt /\ q = q0) -> (port = true \/ cc_port_change (wc_cfg g) = true) /\
          exists l1 i l2, mkWI sk (WvFrom true pt wire) t :: l = l1 ++ i :: l2 /\ server_says i = true /\ (exists w, wi_ev i = WvFrom true port w) /\
            filter server_says l1 = [] /\ length r = S (length l1) /\ r = repeat (ws_used st) (length r)).
        { intros q0 (-> & -> & ->). split; [exact HP|]. exists [], (mkWI sk (WvFrom true pt wire) t), l. cbn. eauto 10. }
        destruct (from_bytes p) as [[rq|rq|b d|b|cd m|se]| |]; try discriminate.
        * destruct (wc_write g); [discriminate|]. injection E as <- <- <-. eapply HF; auto.
        * destruct (wc_write g); [|discriminate]. injection E as <- <- <-. eapply HF; auto.
        * rewrite HI in E. rewrite andb_false_r in E. cbn [andb] in E. discriminate.
        * destruct (unasked _ _); [|discriminate]. destruct (client_parse _ _ _) as [[o2 kp]| |]; [|discriminate..].
          destruct (negb (level_eqb (op_enc o2) LNone) && _); [discriminate|]. injection E as <- <- <-. eapply HF; auto.
      + destruct (query_run g _ l) as [r1 o1] eqn:E1. injection E as <- ->.
        apply IH in E1; [|exact HI]. destruct E1 as (HP & l1 & i & l2 & -> & H1 & H2 & H3 & H4 & H5). split; [exact HP|].
        exists (mkWI sk (WvFrom false pt wire) t :: l1), i, l2. cbn [ws_used length repeat filter] in *.
        split; [reflexivity|]. split; [exact H1|]. split; [exact H2|]. split; [exact H3|]. split; [lia|]. f_equal. exact H5.
    - destruct (_ <? _); [discriminate|]. destruct (query_run g _ l) as [r1 o1] eqn:E1. injection E as <- ->.
      apply IH in E1; [|exact HI]. destruct E1 as (HP & l1 & i & l2 & -> & H1 & H2 & H3 & H4 & H5). split; [exact HP|].
      exists (mkWI sk WvBlock t :: l1), i, l2. cbn [ws_used length repeat filter] in *.
      split; [reflexivity|]. split; [exact H1|]. split; [exact H2|]. split; [exact H3|]. split; [lia|]. f_equal. exact H5. }
  intros g ex now l r q port E.
  assert (B : forall l st r, query_run g st l = (r, WoDone q port) -> ws_initial st = true ->
    (port = true \/ cc_port_change (wc_cfg g) = true) /\
    exists l1 i l2, l = l1 ++ i :: l2 /\ server_says i = true /\ (exists w, wi_ev i = WvFrom true port w) /\
      length r = S (length l1) /\
      match filter server_says l1 with
      | [] => r = repeat (ws_used st) (length r)
      | [j] => op_enc (wc_opts g) = LNone /\
          (exists code msg, (code = IllegalOperation \/ code = Undefined) /\
             (in_clear (wc_sock g) -> (forall k, In k l1 -> stranger k = false) ->
              from_bytes (takeN (ws_cap st) (wire_of j)) = Ok (PError code msg))) /\
          exists m n, r = repeat (ws_used st) m ++ repeat exts_empty n
      | _ => False
      end).
  { clear E r l. induction l as [|i l IH]; intros st r E HI; [discriminate|]. cbn [query_run] in E.
    unfold wait_turn in E. destruct (wi_sock i); cbn [negb] in E; [|discriminate].
    destruct i as [sk ev t]. cbn [wi_ev wi_now] in E. destruct ev as [ip pt wire| |]; [| |discriminate].
    - destruct (client_recv _ _ _) as [p| |] eqn:ER; [|discriminate..]. destruct ip.
      + destruct (query_step _ _ _ _ _ _ _ _ _) as [|[e|]|q0] eqn:EQ; try discriminate.
        * (* asked again *)
          destruct (query_run g _ l) as [r1 o1] eqn:E1. injection E as <- ->.
          apply A in E1; [|reflexivity]. destruct E1 as (HP & l1 & i & l2 & -> & H1 & H2 & H3 & H4 & H5). split; [exact HP|].
          exists (mkWI sk (WvFrom true pt wire) t :: l1), i, l2. cbn [ws_used length repeat filter server_says wi_ev wire_of] in *.
          rewrite H3. split; [reflexivity|]. split; [exact H1|]. split; [exact H2|]. split; [lia|].
          unfold query_step in EQ. destruct (_ && _); [discriminate|].
          destruct (from_bytes p) as [[rq|rq|b d|b|cd m|se]| |] eqn:EF; try discriminate.
          -- destruct (wc_write g); discriminate.
          -- destruct (wc_write g); discriminate.
          -- destruct (_ && level_eqb (op_enc (wc_opts g)) LNone) eqn:EL; [|discriminate].
             apply andb_true_iff in EL as [EL1 EL2]. apply andb_true_iff in EL1 as [EL1 _].
             split; [destruct (op_enc (wc_opts g)); try discriminate; reflexivity|]. split.
             ++ exists cd, m. split; [destruct cd; try discriminate; auto|]. intros HC _.
                rewrite in_clear_recv in ER by exact HC. injection ER as ->. exact EF.
             ++ exists 1%nat, (length r1). cbn [repeat app]. f_equal. exact H5.
          -- destruct (unasked _ _); [|discriminate]. destruct (client_parse _ _ _) as [[o2 kp]| |]; [|discriminate..].
             destruct (negb (level_eqb (op_enc o2) LNone) && _); discriminate.
        * injection E as <- <- <-. split.
          { unfold query_step in EQ. destruct (negb pt && _) eqn:EP; [discriminate|]. destruct pt; [auto|].
            destruct (cc_port_change (wc_cfg g)); [auto|discriminate]. }
          exists [], (mkWI sk (WvFrom true pt wire) t), l. cbn. eauto 10.
      + destruct (query_run g _ l) as [r1 o1] eqn:E1. injection E as <- ->.
        apply IH in E1; [|exact HI]. destruct E1 as (HP & l1 & i & l2 & -> & H1 & H2 & H4 & H5). split; [exact HP|].
        exists (mkWI sk (WvFrom false pt wire) t :: l1), i, l2. cbn [ws_used ws_cap length repeat filter server_says wi_ev] in *.
        split; [reflexivity|]. split; [exact H1|]. split; [exact H2|]. split; [lia|].
        destruct (filter server_says l1) as [|j [|]].
        * cbn [repeat]. f_equal. exact H5.
        * destruct H5 as (L1 & (cd & m & L2 & _) & (a & b & L3)). split; [exact L1|]. split.
          -- exists cd, m. split; [exact L2|]. intros _ HN. specialize (HN _ (or_introl eq_refl)). discriminate.
          -- exists (S a), b. cbn. f_equal. exact L3.
        * exact H5.
    - destruct (_ <? _); [discriminate|]. destruct (query_run g _ l) as [r1 o1] eqn:E1. injection E as <- ->.
      apply IH in E1; [|exact HI]. destruct E1 as (HP & l1 & i & l2 & -> & H1 & H2 & H4 & H5). split; [exact HP|].
      exists (mkWI sk WvBlock t :: l1), i, l2. cbn [ws_used ws_cap length repeat filter server_says wi_ev] in *.
      split; [reflexivity|]. split; [exact H1|]. split; [exact H2|]. split; [lia|].
      destruct (filter server_says l1) as [|j [|]].
      * cbn [repeat]. f_equal. exact H5.
      * destruct H5 as (L1 & (cd & m & L2 & L4) & (a & b & L3)). split; [exact L1|]. split.
        -- exists cd, m. split; [exact L2|]. intros HC HN. apply L4; [exact HC|]. intros k Hk. apply HN. right. exact Hk.
        -- exists (S a), b. cbn. f_equal. exact L3.
      * exact H5. }
  apply B in E; [exact E|reflexivity].
Qed.

(** ** Giving up *)
(** While nothing comes from the server (and nothing from strangers) the wait ends with a timeout
    exactly when a wake up finds the request timeout exceeded. *)
Theorem gives_up : forall g ex now l, (forall i, In i l -> wi_ev i = WvBlock /\ wi_sock i = true) ->
  snd (query_run g (wait_init g ex now) l) = WoTimeout <-> exists i, In i l /\ wc_timeout g < wi_now i - now.
Proof.
  intros g ex now l. change now with (ws_start (wait_init g ex now)) at 2. generalize (wait_init g ex now).
  induction l as [|i l IH]; intros st H.
  - cbn. split; [discriminate|intros (i & [] & _)].
  - destruct (H i (or_introl eq_refl)) as [He Hs]. cbn [query_run]. unfold wait_turn. rewrite He, Hs. cbn [negb].
    destruct (N.ltb_spec (wc_timeout g) (wi_now i - ws_start st)) as [Ht|Ht].
    + split; [intros _; exists i; split; [left; reflexivity|exact Ht]|reflexivity].
    + set (st' := mkWS _ _ _ _ _). specialize (IH st' ltac:(intros j Hj; apply H; right; exact Hj)).
      destruct (query_run g st' l) as [r o]. cbn [snd] in *. rewrite IH. cbn [st' ws_start].
      split; intros (j & Hj & Hlt); exists j; (split; [|exact Hlt]); [right; exact Hj|destruct Hj as [<-|Hj]; [lia|exact Hj]].
Qed.

(** The times at which the receives of a run wake up: each not before the wait asked for is over,
    and later than the one before. *)
Fixpoint punctual (g : wcfg) (st : wstate) (t : N) (l : list winput) : Prop :=
  match l with
  | [] => True
  | i :: l' => t + ws_retry st <= wi_now i /\ t < wi_now i /\
      match wait_turn g st i with WoWaiting st' => punctual g st' (wi_now i) l' | _ => True end
  end.
(** Requests are repeated with exponential back-off: a client still waiting after [n] unanswered
    requests has retry interval * (2^(n-1) - 1) within the request timeout. *)
Theorem requests_bounded : forall g ex now l st,
  (forall i, In i l -> wi_ev i = WvBlock /\ wi_sock i = true) -> punctual g (wait_init g ex now) now l ->
  snd (query_run g (wait_init g ex now) l) = WoWaiting st ->
  op_retry (wc_opts g) * (2 ^ (N.of_nat (length l) - 1) - 1) <= wc_timeout g.
Proof.
  intros g ex now l st HB HP HW. set (r := op_retry (wc_opts g)). set (T := wc_timeout g).
  destruct l as [|i0 l0]; [cbn; lia|].
  assert (G : forall l n s t, (forall i, In i l -> wi_ev i = WvBlock /\ wi_sock i = true) -> punctual g s t l ->
    ws_start s <= t -> t - ws_start s <= T ->
    (r * (2 ^ n - 1) <= t - ws_start s /\ (ws_retry s = r * 2 ^ n \/ ws_retry s = T - (t - ws_start s)) \/
     (t - ws_start s = T /\ 1 <= n /\ r * (2 ^ (n - 1) - 1) <= T)) ->
    snd (query_run g s l) = WoWaiting st ->
    exists m, n + N.of_nat (length l) = m /\ (r * (2 ^ m - 1) <= T \/ 1 <= m /\ r * (2 ^ (m - 1) - 1) <= T)).
  { clear i0 l0 HB HP HW. induction l as [|i l IH]; intros n s t HB HP Hst Ht Inv HW.
    - exists n. cbn [length N.of_nat]. split; [lia|]. destruct Inv as [[H _]|(_ & H1 & H2)]; [left; lia|right; auto].
    - destruct (HB i (or_introl eq_refl)) as [He Hs]. cbn [query_run punctual] in *. unfold wait_turn in *. rewrite He, Hs in *. cbn [negb] in *.
      destruct HP as (P1 & P2 & P3). destruct (N.ltb_spec (wc_timeout g) (wi_now i - ws_start s)) as [Hx|Hx]; [discriminate|].
      set (s' := mkWS (ws_initial s) (ws_used s) (ws_start s) _ (ws_cap s)) in *. fold T in Hx.
      specialize (IH (n + 1) s' (wi_now i) ltac:(intros j Hj; apply HB; right; exact Hj) P3).
      destruct IH as (m & Hm & HR).
      + cbn [s' ws_start]. lia.
      + cbn [s' ws_start]. exact Hx.
      + cbn [s' ws_start ws_retry]. destruct Inv as [[H1 H2]|(H1 & _)]; [|exfalso; lia].
        destruct H2 as [H2|H2].
        * left. rewrite H2 in P1. rewrite H2. replace (2 ^ (n + 1)) with (2 * 2 ^ n) by (rewrite N.pow_add_r; lia).
          assert (1 <= 2 ^ n) by (pose proof (N.pow_nonzero 2 n); lia).
          rewrite N.mul_sub_distr_l in *. split; [lia|].
          destruct (N.min_spec (wc_timeout g - (wi_now i - ws_start s)) (2 * (r * 2 ^ n))) as [[_ ->]|[_ ->]]; [right; reflexivity|left; lia].
        * right. rewrite H2 in P1. split; [lia|]. split; [lia|]. replace (n + 1 - 1) with n by lia. lia.
      + destruct (query_run g s' l) as [rr o]. exact HW.
      + exists m. cbn [length]. split; [lia|exact HR]. }
  destruct (G (i0 :: l0) 0 (wait_init g ex now) now HB HP) as (m & Hm & HR).
  - cbn. lia.
  - cbn. lia.
  - left. cbn [wait_init ws_start ws_retry]. change (2 ^ 0) with 1. split; [lia|]. left. fold r. lia.
  - exact HW.
  - cbn [N.add] in Hm. rewrite Hm. destruct HR as [HR|[_ HR]]; [|exact HR].
    eapply N.le_trans; [|exact HR]. apply N.mul_le_mono_l. apply N.sub_le_mono_r. apply N.pow_le_mono_r; lia.
Qed.
(** No wait is longer than the first one or what is left of the request timeout. *)
Theorem waits_bounded : forall g ex now l r st, query_run g (wait_init g ex now) l = (r, WoWaiting st) ->
  ws_retry st <= N.max (op_retry (wc_opts g)) (wc_timeout g).
Proof.
  intros g ex now l.
  assert (G : forall l s r st, query_run g s l = (r, WoWaiting st) -> ws_retry s <= N.max (op_retry (wc_opts g)) (wc_timeout g) ->
    ws_retry st <= N.max (op_retry (wc_opts g)) (wc_timeout g)).
  { clear l. induction l as [|i l IH]; intros s r st E H; [injection E as _ <-; exact H|]. cbn [query_run] in E.
    destruct (wait_turn g s i) as [s'| | | | |] eqn:EW; try discriminate.
    destruct (query_run g s' l) as [r1 o] eqn:E1. injection E as _ ->. eapply IH; [exact E1|].
    unfold wait_turn in EW. destruct (wi_sock i); cbn [negb] in EW; [|discriminate].
    destruct (wi_ev i) as [ip pt w| |]; [| |discriminate].
    - destruct (client_recv _ _ _); [|discriminate..]. destruct ip.
      + destruct (query_step _ _ _ _ _ _ _ _ _) as [|[e|]|q]; try discriminate. injection EW as <-. cbn. lia.
      + injection EW as <-. exact H.
    - destruct (_ <? _); [discriminate|]. injection EW as <-. cbn. lia. }
  intros r st E. eapply G; [exact E|]. cbn. lia.
Qed.

(** ** What strangers can do *)
(** They are never too late: as long as datagrams of strangers keep coming the client does not
    give up, and it answers each of them with a request to the server. *)
Theorem strangers_postpone_timeout : forall g ex now l, in_clear (wc_sock g) ->
  (forall i, In i l -> stranger i = true /\ wi_sock i = true) ->
  exists st, query_run g (wait_init g ex now) l = (repeat ex (length l), WoWaiting st).
Proof.
  intros g ex now l HC. assert (G : forall l s, (forall i, In i l -> stranger i = true /\ wi_sock i = true) ->
    exists st, query_run g s l = (repeat (ws_used s) (length l), WoWaiting st)).
  { clear l. induction l as [|i l IH]; intros s H; [eexists; reflexivity|].
    destruct (H i (or_introl eq_refl)) as [H1 H2]. cbn [query_run]. unfold wait_turn. rewrite H2. cbn [negb].
    unfold stranger in H1. destruct (wi_ev i) as [[|] pt w| |]; try discriminate. rewrite in_clear_recv by exact HC.
    set (s' := mkWS _ _ _ _ _). destruct (IH s' ltac:(intros; apply H; right; assumption)) as (st & ->). exists st. reflexivity. }
  intros H. apply G. exact H.
Qed.
(** A short datagram of a stranger cuts the server's answer to its own length. *)
Theorem stranger_cuts_answer : forall g ex now w p1 t1 p2 d t2 l, in_clear (wc_sock g) ->
  query_run g (wait_init g ex now) (mkWI true (WvFrom false p1 w) t1 :: mkWI true (WvFrom true p2 d) t2 :: l) =
  let '(r, o) := query_run g (wait_init g ex now) (mkWI true (WvFrom true p2 (takeN (blen w) d)) t2 :: l) in (ex :: r, o).
Proof.
  intros g ex now w p1 t1 p2 d t2 l HC. cbn [query_run]. unfold wait_turn. cbn [wi_sock wi_ev wi_now negb ws_cap wait_init ws_initial ws_used ws_start ws_retry].
  rewrite !in_clear_recv by exact HC. cbn [ws_cap ws_initial ws_used]. rewrite takeN_takeN, blen_takeN.
  destruct (query_step _ _ _ _ _ _ _ _ _) as [|[e|]|q]; reflexivity.
Qed.
(** With an encrypted first exchange any datagram, from wherever, that does not decrypt ends it. *)
Theorem stranger_ends_encrypted : forall g ex now ip port w t l,
  client_recv (wc_crypto g) (wc_sock g) (takeN (wc_buf g) w) = Err tt ->
  snd (query_run g (wait_init g ex now) (mkWI true (WvFrom ip port w) t :: l)) = WoFail.
Proof.
  intros. cbn [query_run]. unfold wait_turn. cbn [wi_sock wi_ev negb ws_cap wait_init]. rewrite H. reflexivity.
Qed.

Print Assumptions strangers_have_no_influence.
Print Assumptions answer_from_server.
Print Assumptions gives_up.
Print Assumptions requests_bounded.
Print Assumptions waits_bounded.
Print Assumptions strangers_postpone_timeout.
Print Assumptions stranger_cuts_answer.
Print Assumptions stranger_ends_encrypted.

(** ** Concrete cases *)
Definition wx_g (write : bool) : wcfg :=
  mkWC toy (mkCcfg None None false) (mkSock None LNone None 1024) write (mkOpts 1024 80 None LNone 1) 1000 1028 (fun _ => []).
Definition wx_ex : exts := ext_insert exts_empty BlockSize (s2b "1024").
Definition wx_oack : bytes := to_bytes (POack wx_ex).
Definition wx_from (ip : bool) (d : bytes) (t : N) : winput := mkWI true (WvFrom ip true d) t.
Definition wx_none (t : N) : winput := mkWI true WvBlock t.
(** A long datagram of a stranger and a silent interval, then the server's answer. *)
Example strangers_case :
  let l := [wx_from false (repeat 9 30) 20; wx_none 100; wx_from true wx_oack 150] in
  (forall i, In i l -> stranger i = true -> wi_sock i = true /\ blen wx_oack <= blen (wire_of i)) /\
  (forall i, In i l -> server_says i = true -> blen (wire_of i) <= blen wx_oack) /\
  in_clear (wc_sock (wx_g false)) /\
  exists q, query_run (wx_g false) (wait_init (wx_g false) wx_ex 10) l = ([wx_ex; wx_ex; wx_ex], WoDone q true) /\ op_bs (q_opts q) = 1024.
Proof.
  cbn zeta. split.
  { intros i [<-|[<-|[<-|[]]]]; cbn; intros H; try discriminate. split; [reflexivity|]. vm_compute. discriminate. }
  split.
  { intros i [<-|[<-|[<-|[]]]]; cbn; intros H; try discriminate. }
  split; [left; reflexivity|]. eexists. split; vm_compute; reflexivity.
Qed.
(** The same answer after a datagram of three bytes from a stranger: the client gives up. *)
Example cut_case :
  snd (query_run (wx_g false) (wait_init (wx_g false) wx_ex 10) [wx_from false [1; 2; 3] 20; wx_from true wx_oack 150]) = WoFail.
Proof. vm_compute. reflexivity. Qed.
(** A server that does not know options: the second request has none, and is answered. *)
Example ask_again_case :
  let l := [wx_from true (to_bytes (PError IllegalOperation (s2b "no"))) 20; wx_none 100; wx_from true (to_bytes (PAck 0)) 150] in
  exists q, query_run (wx_g true) (wait_init (wx_g true) wx_ex 10) l = ([wx_ex; exts_empty; exts_empty], WoDone q true) /\
    op_bs (q_opts q) = 512 /\
  (* but a second error is final *)
  snd (query_run (wx_g true) (wait_init (wx_g true) wx_ex 10)
    [wx_from true (to_bytes (PError IllegalOperation (s2b "no"))) 20; wx_from true (to_bytes (PError IllegalOperation (s2b "no"))) 30]) = WoFail.
Proof. eexists. split; [vm_compute; reflexivity|]. split; vm_compute; reflexivity. Qed.
(** Silence: requests at 0, 80, 240, 560, 1000, 1001; the last wake up finds 1000 ms exceeded. *)
Example silence_case :
  let l := [wx_none 80; wx_none 240; wx_none 560; wx_none 1000; wx_none 1001] in
  punctual (wx_g true) (wait_init (wx_g true) wx_ex 0) 0 l /\
  snd (query_run (wx_g true) (wait_init (wx_g true) wx_ex 0) l) = WoTimeout /\
  (exists st, snd (query_run (wx_g true) (wait_init (wx_g true) wx_ex 0) (firstn 4 l)) = WoWaiting st /\ ws_retry st = 0) /\
  80 * (2 ^ (4 - 1) - 1) <= 1000 < 80 * (2 ^ (5 - 1) - 1).
Proof. vm_compute. repeat split; try discriminate; eauto. Qed.
