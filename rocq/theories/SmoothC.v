(** The turns of the two servers, for one client.  Used by PropSmooth. *)
From Verif Require Import Base BaseProofs PacketModel MapperModel ReaderModel ConfigModel CryptoModel ExtModel PathModel ConnModel
  ClientModel ConnSpec HandshakeModel ClientWaitModel ServerModel ServerSpec ServerProofs PropServer WorldModel WorldB PropWorld FsModel FsServerModel DiskModel RunModel SmoothModel.
From Verif Require CliModel.

Definition quick (t : N) : env := mkEnv t false None true [].
Lemma quick_fine t : fine t (quick t).
Proof. repeat split. Qed.

Record regular {S : Type} (turn : N -> option bytes -> S -> bool -> S -> outs -> Prop) (view : S -> addr -> option entry)
    (ready : S -> bool) (Inv : S -> Prop) (c : crypto) (sg : srvcfg) (a : addr) (cut : entry -> bytes -> bytes) : Prop := {
  rg_run : forall t rx s got s' o e, Inv s -> view s a = Some e -> c_invalid (en_conn e) = None -> c_finished (en_conn e) = false ->
    t - c_updated (en_conn e) <= g_timeout sg -> turn t rx s got s' o ->
    Inv s' /\ exists buflen v e1 p1 ok, fine t v /\ send_client buflen e v = (e1, p1, ok) /\
    (got = false /\ view s' a = Some e1 /\ sent_to a o = map OPlain p1 /\ ready s' = true /\ (ready s = true -> rx = None) \/
     got = true /\ ready s = true /\ exists d v2, rx = Some d /\ fine t v2 /\
       (handle_client c (g_max_size sg) e1 (cut e1 d) v2 = None \/
        exists e2 p2, handle_client c (g_max_size sg) e1 (cut e1 d) v2 = Some (e2, p2) /\ view s' a = Some e2 /\ sent_to a o = map OPlain (p1 ++ p2)));
  rg_end : forall t s got s' o e path w, Inv s -> view s a = Some e -> c_finished (en_conn e) = true -> en_work e = WWrite path w ->
    turn t None s got s' o -> Inv s' /\ got = false /\ sent_to a o = [] /\ (view s' a = Some e \/ view s' a = None);
  rg_able : forall t rx s e, Inv s -> view s a = Some e -> c_invalid (en_conn e) = None -> c_finished (en_conn e) = false ->
    (forall buflen v e1 p1 ok d v2, fine t v -> fine t v2 -> send_client buflen e v = (e1, p1, ok) -> rx = Some d ->
       handle_client c (g_max_size sg) e1 (cut e1 d) v2 <> None) -> exists got s' o, turn t rx s got s' o;
  rg_able_end : forall t s e path w, Inv s -> view s a = Some e -> c_finished (en_conn e) = true -> en_work e = WWrite path w ->
    exists got s' o, turn t None s got s' o }.

(** ** The single threaded server, without other clients *)
Definition sole (a : addr) (s : sstate) : Prop := s_clients s = [] \/ exists e, s_clients s = [(a, e)].
Definition sready (s : sstate) : bool := s_recv s =? 0.
Lemma sole_view a s e : sole a s -> sview s a = Some e -> s_clients s = [(a, e)].
Proof.
  unfold sview. intros [E|(e' & E)] V; rewrite E in *; cbn in V; [discriminate|]. rewrite N.eqb_refl in V. injection V as ->. reflexivity.
Qed.
Lemma sole_at a s e : s_clients s = [(a, e)] -> sview s a = Some e.
Proof. intros E. unfold sview. rewrite E. cbn. rewrite N.eqb_refl. reflexivity. Qed.

Lemma in_time cn t t' sock txt : c_invalid cn = None -> c_finished cn = false -> t' - c_updated cn <= t ->
  timeout_client cn t t' sock txt = (false, []).
Proof. intros E1 E2 E3. unfold timeout_client. rewrite E1, E2. cbn [orb]. destruct (N.leb_spec (t' - c_updated cn) t); [reflexivity|lia]. Qed.

Lemma clean_keeps sg a s i s1 o1 e t : s_clients s = [(a, e)] -> c_invalid (en_conn e) = None -> c_finished (en_conn e) = false ->
  t - c_updated (en_conn e) <= g_timeout sg -> fine t (i_clean i a) -> step_clean sg s i = (s1, o1) ->
  s_clients s1 = [(a, e)] /\ s_recv s1 = s_recv s /\ o1 = [].
Proof.
  intros EC E1 E2 E3 (F1 & F2 & F3 & F4) E. unfold step_clean in E. destruct (2000 <? _); [|injection E as <- <-; auto].
  rewrite EC in E. cbn [retain] in E. rewrite F1, in_time in E by assumption. injection E as <- <-. auto.
Qed.
Lemma send_one a s i s1 o e t : s_clients s = [(a, e)] -> c_invalid (en_conn e) = None -> c_finished (en_conn e) = false ->
  (forall b, fine t (i_send1 i b) /\ fine t (i_send2 i b)) -> step_send s i = (s1, o) ->
  exists v e1 p1 ok, fine t v /\ send_client (i_buflen i) e v = (e1, p1, ok) /\ s_clients s1 = [(a, e1)] /\ s_recv s1 = s_recv s /\ o = plains a p1.
Proof.
  intros EC E1 E2 HF E. destruct (HF a) as [F1 F2]. unfold step_send, send_data_blocks in E. rewrite EC in E. cbn [pass] in E.
  destruct (active e) eqn:AC.
  - destruct (N.leb_spec (s_send s) 0) as [L|L].
    + destruct (send_client (i_buflen i) e (i_send1 i a)) as [[e1 p1] ok] eqn:SC. exists (i_send1 i a), e1, p1, ok.
      split; [exact F1|]. split; [exact SC|]. destruct ok; [injection E as <- <-; auto|]. rewrite app_nil_r in E. cbn [pass] in E.
      assert (Z : (0 <? s_send s) = false) by lia. rewrite Z in E.
      destruct (active e1); cbn [app] in E; rewrite app_nil_r in E; injection E as <- <-; auto.
    + cbn [pass app] in E. rewrite AC in E. replace (0 <? s_send s) with true in E by lia.
      destruct (send_client (i_buflen i) e (i_send2 i a)) as [[e1 p1] ok] eqn:SC. exists (i_send2 i a), e1, p1, ok.
      split; [exact F2|]. split; [exact SC|]. destruct ok; cbn [app] in E; rewrite ?app_nil_r in E; injection E as <- <-; auto.
  - cbn [pass app] in E. rewrite AC in E. cbn [app] in E. injection E as <- <-. exists (i_send1 i a), e, [], false. split; [exact F1|].
    unfold active in AC. unfold send_client. destruct (en_work e); [|auto]. rewrite E1, E2 in AC. discriminate.
Qed.
Lemma scan_one (rx : addr -> option bytes) a e r : scan rx r r [(a, e)] =
  if 0 <? r then (None, r) else match rx a with Some d => (Some (a, d), r + 1) | None => (None, r + 1) end.
Proof. cbn [scan]. destruct (0 <? r); [reflexivity|]. destruct (rx a); reflexivity. Qed.

Lemma scan_quiet l : forall n m, fst (scan (fun _ => None) n m l) = None.
Proof. induction l as [|[b x] l IH]; intros n m; cbn; [reflexivity|]. destruct (0 <? n); apply IH. Qed.

Lemma single_regular c sg a : regular (single_turn c sg a) sview sready (sole a) c sg a (scut sg).
Proof.
  split.
  - intros t rx s got s' o e I V E1 E2 E3 (i & s1 & o1 & s2 & o2 & o3 & T1 & T2 & T3 & -> & -> & T4 & T5 & T6 & T7 & T8).
    pose proof (sole_view _ _ _ I V) as C0.
    destruct (clean_keeps sg a s i s1 o1 e t C0 E1 E2 E3 (proj1 (T5 a)) T1) as (C1 & R1 & ->).
    destruct (send_one a s1 i s2 o2 e t C1 E1 E2 (fun b => proj2 (T5 b)) T2) as (v & e1 & p1 & ok & F1 & SC & C2 & R2 & ->).
    assert (H2 : has_entry (s_clients s2) a = true) by (unfold has_entry; rewrite C2; cbn; rewrite N.eqb_refl; reflexivity).
    assert (SO : forall p, sent_to a ([] ++ plains a p1 ++ p) = map OPlain p1 ++ sent_to a p).
    { intros p. cbn [app]. rewrite sent_to_app, sent_to_plains, N.eqb_refl. reflexivity. }
    unfold taken. unfold step_recv in T3. rewrite C2 in T3 |- *. rewrite scan_one in T3 |- *. rewrite T7 in T3 |- *.
    assert (QU : forall w0, (match i_main i with
        | MData from d => if has_entry [(a, e1)] from then Some (set_recv s2 0 (s_wait s2), []) else new_client c sg (set_recv s2 0 w0) from (recv_cut sg d) i
        | MWouldBlock => Some (set_recv s2 0 (wait_receiver_idle (s_wait s2)), [])
        | MError => None end) = Some (s', o3) -> s_clients s' = [(a, e1)] /\ s_recv s' = 0 /\ o3 = []).
    { intros w0 X. destruct T8 as [T8|(d & T8 & _)]; rewrite T8 in X; [injection X as <- <-; auto|].
      rewrite <- C2 in X. rewrite H2 in X. injection X as <- <-. auto. }
    assert (HM : hears a (match i_main i with MData b d => TookMain b d | _ => TookNothing end) = false) by (destruct (i_main i); reflexivity).
    destruct (N.ltb_spec 0 (s_recv s2)) as [L|L]; [|destruct rx as [d|]]; cbn [fst].
    + destruct (QU _ T3) as (X1 & X2 & ->). split; [right; eauto|]. exists (i_buflen i), v, e1, p1, ok. do 2 (split; [assumption|]). left.
      split; [exact HM|]. split; [apply sole_at; exact X1|]. rewrite SO, app_nil_r. split; [reflexivity|]. unfold sready. rewrite X2. split; [reflexivity|].
      intros H. apply N.eqb_eq in H. lia.
    + cbn [find_entry] in T3. rewrite N.eqb_refl in T3. unfold known_client in T3.
      assert (RS : sready s = true) by (apply N.eqb_eq; lia).
      destruct (handle_client c (g_max_size sg) e1 (recv_cut sg d) (i_env i)) as [[e2 p2]|] eqn:EH; [|discriminate].
      injection T3 as <- <-. cbn [set_recv s_clients]. rewrite C2. cbn [update_entry]. rewrite N.eqb_refl.
      split; [right; eexists; reflexivity|]. exists (i_buflen i), v, e1, p1, ok. do 2 (split; [assumption|]). right.
      split; [cbn [hears]; apply N.eqb_refl|]. split; [exact RS|]. exists d, (i_env i). split; [reflexivity|]. split; [exact T6|]. right.
      exists e2, p2. unfold scut. split; [exact EH|]. split; [apply sole_at; reflexivity|]. rewrite SO, sent_to_plains, N.eqb_refl, map_app. reflexivity.
    + destruct (QU _ T3) as (X1 & X2 & ->). split; [right; eauto|]. exists (i_buflen i), v, e1, p1, ok. do 2 (split; [assumption|]). left.
      split; [exact HM|]. split; [apply sole_at; exact X1|]. rewrite SO, app_nil_r. split; [reflexivity|]. unfold sready. rewrite X2. split; [reflexivity|]. reflexivity.
  - intros t s got s' o e path w I V E1 E2 (i & s1 & o1 & s2 & o2 & o3 & T1 & T2 & T3 & -> & -> & T4 & T5 & T6 & T7 & T8).
    pose proof (sole_view _ _ _ I V) as C0.
    assert (C1 : (s_clients s1 = [(a, e)] \/ s_clients s1 = []) /\ o1 = []).
    { unfold step_clean in T1. destruct (2000 <? _); [|injection T1 as <- <-; auto]. rewrite C0 in T1. cbn [retain] in T1.
      assert (TC : forall x y z, timeout_client (en_conn e) x y z (e_txt (i_clean i a)) = (true, [])).
      { intros. unfold timeout_client. rewrite E1, Bool.orb_true_r. reflexivity. }
      rewrite TC in T1. injection T1 as <- <-. auto. }
    destruct C1 as [C1 ->].
    assert (AC : active e = false) by (unfold active; rewrite E2; reflexivity).
    assert (C2 : s_clients s2 = s_clients s1 /\ o2 = []).
    { unfold step_send, send_data_blocks in T2. destruct C1 as [C1|C1]; rewrite C1 in T2 |- *; cbn [pass app] in T2; rewrite ?AC in T2; cbn [pass app] in T2; rewrite ?AC in T2;
        injection T2 as <- <-; auto. }
    destruct C2 as [C2 ->].
    assert (FI : forall r, fst (scan (i_rx i) r r (s_clients s2)) = None).
    { intros r. rewrite C2. destruct C1 as [-> | ->]; [|reflexivity]. rewrite scan_one, T7. destruct (0 <? r); reflexivity. }
    unfold taken. unfold step_recv in T3. specialize (FI (s_recv s2)). destruct (scan _ _ _ _) as [fo cu]. cbn [fst] in FI |- *. subst fo.
    assert (X : s_clients s' = s_clients s2 /\ o3 = []).
    { destruct T8 as [T8|(d & T8 & H2)]; rewrite T8 in T3; [injection T3 as <- <-; auto|]. rewrite H2 in T3. injection T3 as <- <-. auto. }
    destruct X as [C3 ->]. split; [unfold sole; rewrite C3, C2; destruct C1; eauto|].
    split; [destruct (i_main i); reflexivity|]. split; [reflexivity|]. unfold sview. rewrite C3, C2. destruct C1 as [-> | ->]; cbn; rewrite ?N.eqb_refl; auto.
  - intros t rx s e I V E1 E2 HH. pose proof (sole_view _ _ _ I V) as C0.
    set (i := mkIn t (fun _ => quick t) 0 (fun _ => quick t) (fun _ => quick t) (fun _ => rx) MWouldBlock (quick t) (mkHenv [] [] (fun _ => None) true true (fun _ => [])) av_all (fun _ => [])).
    destruct (step_clean sg s i) as [s1 o1] eqn:T1. destruct (step_send s1 i) as [s2 o2] eqn:T2.
    enough (exists s' o3, step_recv c sg s2 i = Some (s', o3)) as (s' & o3 & T3).
    { exists (hears a (taken s2 i)), s', (o1 ++ o2 ++ o3). exists i, s1, o1, s2, o2, o3. do 5 (split; [first [assumption|reflexivity]|]).
      split; [reflexivity|]. split; [intros b; repeat split|]. split; [apply quick_fine|]. split; [reflexivity|]. left. reflexivity. }
    assert (C1 : s_clients s1 = [] \/ s_clients s1 = [(a, e)]).
    { unfold step_clean in T1. destruct (2000 <? _); [|injection T1 as <- <-; auto]. rewrite C0 in T1. cbn [retain] in T1.
      destruct (timeout_client _ _ _ _ _) as [dr pl]. injection T1 as <- <-. cbn. destruct dr; auto. }
    destruct C1 as [C1|C1].
    + unfold step_send, send_data_blocks in T2. rewrite C1 in T2. cbn [pass app] in T2. injection T2 as <- <-. unfold step_recv. cbn [s_clients scan i_main i]. eauto.
    + destruct (send_one a s1 i s2 o2 e t C1 E1 E2 ltac:(intros; repeat split) T2) as (v & e1 & p1 & ok & F1 & SC & C2 & R2 & ->).
      unfold step_recv. rewrite C2, scan_one. cbn [i_rx i_main i i_env]. destruct (0 <? s_recv s2); [eauto|]. destruct rx as [d|]; [|eauto].
      cbn [find_entry]. rewrite N.eqb_refl. unfold known_client.
      pose proof (HH _ _ _ _ _ d (quick t) F1 (quick_fine t) SC eq_refl) as X. unfold scut in X.
      destruct (handle_client c (g_max_size sg) e1 (recv_cut sg d) (quick t)) as [[e2 p2]|]; [eauto|congruence].
  - intros t s e path w I V E1 E2. pose proof (sole_view _ _ _ I V) as C0.
    set (i := mkIn t (fun _ => quick t) 0 (fun _ => quick t) (fun _ => quick t) (fun _ => None) MWouldBlock (quick t) (mkHenv [] [] (fun _ => None) true true (fun _ => [])) av_all (fun _ => [])).
    destruct (step_clean sg s i) as [s1 o1] eqn:T1. destruct (step_send s1 i) as [s2 o2] eqn:T2.
    assert (X : fst (scan (i_rx i) (s_recv s2) (s_recv s2) (s_clients s2)) = None).
    { apply scan_quiet. }
    exists (hears a (taken s2 i)), (set_recv s2 0 (wait_receiver_idle (s_wait s2))), (o1 ++ o2 ++ []). exists i, s1, o1, s2, o2, [].
    do 2 (split; [assumption|]). split; [|do 2 (split; [reflexivity|]); split; [reflexivity|]; split; [intros b; repeat split|]; split; [apply quick_fine|]; split; [reflexivity|]; left; reflexivity].
    unfold step_recv. destruct (scan _ _ _ _) as [fo cu]. cbn [fst] in X. subst fo. reflexivity.
Qed.

(** ** The multi threaded server *)
Lemma others_keep c sg a m m' o e : others c sg a m m' o -> HandlesOk m -> mview m a = Some e ->
  HandlesOk m' /\ mview m' a = Some e /\ sent_to a o = [].
Proof.
  induction 1 as [m|m ev i m1 o1 m2 o2 E O IH|m b e0 buflen v1 v2 v3 ev t plain m2 o2 NB EF ET O IH]; intros HO V.
  - auto.
  - assert (X : HandlesOk m1 /\ mview m1 a = Some e /\ sent_to a o1 = []).
    { pose proof (sorted_nodup _ HO) as ND. split; [eapply mphase_ok; [exact HO|eapply mp_main; exact E]|].
      unfold mview, main_turn in *. set (h := filter _ (m_handles m)) in *.
      assert (LV : live_entry h a = Some e) by (unfold h; rewrite live_filter; assumption).
      assert (FA : exists t, find_handle h a = Some t) by (unfold live_entry in LV; destruct (find_handle h a); [eauto|discriminate]).
      destruct FA as [th FA]. destruct ev as [from d| |]; [|injection E as <- <-; auto|discriminate].
      destruct (find_handle h from) eqn:EF; [injection E as <- <-; auto|].
      destruct (_ <=? _); [injection E as <- <-; auto|].
      assert (NF : (from =? a) = false) by (destruct (N.eqb_spec from a); [congruence|reflexivity]).
      destruct (server_new _ _ _ _ _) as [|reply|x reply]; [discriminate| |]; injection E as <- <-; cbn [m_handles]; rewrite sent_to_wire, NF; split; auto.
      unfold live_entry in *. rewrite find_insert_handle by exact EF. rewrite N.eqb_sym, NF. exact LV. }
    destruct X as (X1 & X2 & X3). destruct (IH X1 X2) as (Y1 & Y2 & Y3). split; [exact Y1|]. split; [exact Y2|]. rewrite sent_to_app, X3, Y3. reflexivity.
  - assert (NF : (b =? a) = false) by (apply N.eqb_neq; exact NB).
    destruct IH as (Y1 & Y2 & Y3).
    + unfold HandlesOk, sorted in *. cbn [m_handles]. rewrite update_handle_addrs. exact HO.
    + unfold mview in *. cbn [m_handles]. rewrite (live_update _ _ _ _ _ EF), N.eqb_sym, NF. exact V.
    + split; [exact Y1|]. split; [exact Y2|]. rewrite sent_to_app, sent_to_plains, NF, Y3. reflexivity.
Qed.
Lemma live_find h a e : live_entry h a = Some e <-> find_handle h a = Some (mkT true e).
Proof.
  unfold live_entry. destruct (find_handle h a) as [[[] x]|]; split; intros H; try discriminate; injection H as ->; reflexivity.
Qed.
Lemma handles_update m a th : HandlesOk m -> HandlesOk (mkM (update_handle (m_handles m) a th) (m_sockid m)).
Proof. unfold HandlesOk, sorted. cbn [m_handles]. rewrite update_handle_addrs. auto. Qed.

Lemma multi_regular c sg a : regular (multi_turn c sg a) mview (fun _ => true) HandlesOk c sg a thread_cut.
Proof.
  split.
  - intros t rx s got s' o e I V E1 E2 E3 (m1 & o1 & e0 & buflen & v1 & v2 & v3 & th & plain & O & EF & F1 & F2 & F3 & ET & -> & -> & ->).
    destruct (others_keep _ _ _ _ _ _ _ O I V) as (I1 & V1 & S1).
    assert (e0 = e) as -> by (unfold mview in V1; rewrite live_find, EF in V1; congruence).
    split; [apply handles_update; exact I1|]. unfold thread_turn in ET. destruct F1 as (N1 & _ & _ & K1). rewrite N1 in ET. rewrite in_time in * by assumption.
    destruct (send_client buflen e v2) as [[e1 p1] ok] eqn:SC. exists buflen, v2, e1, p1, ok. split; [exact F2|]. split; [exact SC|].
    cbn [fst negb]. unfold mview. cbn [m_handles]. rewrite (live_update _ _ _ _ _ EF), N.eqb_refl, sent_to_app, S1, sent_to_plains, N.eqb_refl. cbn [app].
    destruct rx as [d|].
    + right. do 2 (split; [reflexivity|]). exists d, v3. split; [reflexivity|]. split; [exact F3|].
      assert (EC : thread_cut e d = thread_cut e1 d) by (unfold thread_cut; rewrite (send_client_opts _ _ _ _ _ _ SC); reflexivity). rewrite EC in ET.
      destruct (handle_client c (g_max_size sg) e1 (thread_cut e1 d) v3) as [[e2 p2]|]; [|left; reflexivity].
      injection ET as <- <-. right. exists e2, p2. auto.
    + left. injection ET as <- <-. auto.
  - intros t s got s' o e path w I V E1 E2 (m1 & o1 & e0 & buflen & v1 & v2 & v3 & th & plain & O & EF & F1 & F2 & F3 & ET & -> & -> & ->).
    destruct (others_keep _ _ _ _ _ _ _ O I V) as (I1 & V1 & S1).
    assert (e0 = e) as -> by (unfold mview in V1; rewrite live_find, EF in V1; congruence).
    split; [apply handles_update; exact I1|]. split; [reflexivity|].
    unfold thread_turn, timeout_client in ET. rewrite E1, Bool.orb_true_r in ET. injection ET as <- <-.
    split; [rewrite sent_to_app, S1; reflexivity|]. unfold mview. cbn [m_handles]. rewrite (live_update _ _ _ _ _ EF), N.eqb_refl. right. reflexivity.
  - intros t rx s e I V E1 E2 _.
    destruct (thread_turn c sg e 0 (quick t) (quick t) (quick t) (match rx with Some d => TData d | None => TWouldBlock end)) as [th plain] eqn:ET.
    do 3 eexists. exists s, [], e, 0, (quick t), (quick t), (quick t), th, plain. split; [constructor|]. split; [apply live_find; exact V|].
    do 3 (split; [apply quick_fine|]). split; [exact ET|]. split; [reflexivity|]. split; reflexivity.
  - intros t s e path w I V E1 E2.
    destruct (thread_turn c sg e 0 (quick t) (quick t) (quick t) TWouldBlock) as [th plain] eqn:ET.
    do 3 eexists. exists s, [], e, 0, (quick t), (quick t), (quick t), th, plain. split; [constructor|]. split; [apply live_find; exact V|].
    do 3 (split; [apply quick_fine|]). split; [exact ET|]. split; [reflexivity|]. split; reflexivity.
Qed.

(** ** Rounds *)
Section G.
Context {S P : Type} (turn : N -> option bytes -> S -> bool -> S -> outs -> Prop) (view : S -> addr -> option entry).
Variables (act : P -> option bytes -> N -> P -> list sent -> Prop) (patient : P -> N -> Prop) (busy : P -> bool).
Variables (c : crypto) (sg : srvcfg) (a : addr) (peer : CliModel.addr) (ck : N -> Prop).
Notation sstep := (sturn turn view c sg a ck).
Notation cstep := (cturn act patient c peer ck).
Notation run := (turns turn view act patient busy c sg a peer ck).
Variables (St : smooth S P -> N -> Prop) (Fin Go : smooth S P -> Prop).
Hypothesis ST : forall W W' mu, St W mu -> sstep W W' -> exists mu', St W' mu' /\ (mu' + 1 <= mu \/ mu' <= mu /\ Go W').
Hypothesis CT : forall W W' mu, St W mu -> cstep W W' -> Fin W' \/ exists mu', St W' mu' /\ mu' <= mu /\ (Go W -> mu' + 1 <= mu).
Hypothesis SB : forall W mu, St W mu -> busy (sm_prog W) = true /\ 1 <= mu.
Hypothesis FB : forall W, Fin W -> busy (sm_prog W) = false.

Lemma run_bound W0 mu0 k b W : St W0 mu0 -> run W0 k b W ->
  Fin W /\ k <= mu0 \/ exists mu, St W mu /\ (k + mu + 1 <= mu0 \/ k + mu <= mu0 /\ (b = false \/ Go W)).
Proof.
  intros H0. induction 1 as [|k b W W' R IH B T|k b W W' R IH B T].
  - right. exists mu0. split; [exact H0|]. right. split; [lia|left; reflexivity].
  - destruct IH as [[IH _]|(mu & H & K)]; [rewrite (FB _ IH) in B; discriminate|]. right.
    destruct (ST _ _ _ H T) as (mu' & H' & X). exists mu'. split; [exact H'|]. destruct X as [X|[X1 X2]]; [left; destruct K as [|[]]; lia|].
    destruct K as [K|[K _]]; [left; lia|]. right. split; [lia|right; exact X2].
  - destruct IH as [[IH _]|(mu & H & K)]; [rewrite (FB _ IH) in B; discriminate|]. destruct (SB _ _ H) as [_ P1].
    destruct (CT _ _ _ H T) as [F|(mu' & H' & X1 & X2)].
    + left. split; [exact F|]. destruct b; destruct K as [|[]]; lia.
    + right. exists mu'. split; [exact H'|]. destruct b.
      * right. split; [|left; reflexivity]. destruct K as [K|[K [D|D]]]; [lia|discriminate|specialize (X2 D); lia].
      * right. split; [|left; reflexivity]. destruct K as [K|[K _]]; lia.
Qed.
Hypothesis SA : forall W mu, St W mu -> exists W', sstep W W'.
Hypothesis CA : forall W mu, St W mu -> exists W', cstep W W'.
Lemma run_ends W0 mu0 : St W0 mu0 -> exists k b W, run W0 k b W /\ Fin W.
Proof.
  intros H0.
  assert (X : forall j : nat, (exists k b W, run W0 k b W /\ Fin W) \/ exists W mu, run W0 (N.of_nat j) false W /\ St W mu).
  { induction j as [|j [IH|(W & mu & R & H)]]; [right; exists W0, mu0; split; [constructor|exact H0]|left; exact IH|].
    destruct (SA _ _ H) as [W1 T1]. destruct (ST _ _ _ H T1) as (mu1 & H1 & _). destruct (CA _ _ H1) as [W2 T2].
    pose proof (tu_server _ _ _ _ _ _ _ _ _ _ _ _ _ _ _ R (proj1 (SB _ _ H)) T1) as R1.
    pose proof (tu_client _ _ _ _ _ _ _ _ _ _ _ _ _ _ _ R1 (proj1 (SB _ _ H1)) T2) as R2. cbn [negb] in R2.
    destruct (CT _ _ _ H1 T2) as [F|(mu2 & H2 & _)]; [left; eauto|]. right. exists W2, mu2. split; [|exact H2].
    replace (N.of_nat (Datatypes.S j)) with (N.of_nat j + 1) by lia. exact R2. }
  destruct (X (Datatypes.S (N.to_nat mu0))) as [Y|(W & mu & R & H)]; [exact Y|]. exfalso.
  destruct (run_bound _ _ _ _ _ H0 R) as [[_ Y]|(mu' & _ & [Y|[Y _]])]; lia.
Qed.
End G.
