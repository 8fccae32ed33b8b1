From Verif Require Import Base BaseProofs PacketModel MapperModel ReaderModel ReaderSpec ConfigModel CryptoModel ExtModel PathModel ConnModel
  ClientModel ConnSpec HandshakeModel ServerModel ServerSpec ServerProofs PropServer SystemModel WorldModel.

(** What a phase can do to one client of a server. *)
Inductive pev (c : crypto) (g : srvcfg) (a : addr) (cut : entry -> bytes -> bytes) (e : entry)
  : took -> option entry -> list out -> Prop :=
| pe_same t : hears a t = false -> pev c g a cut e t (Some e) []
| pe_end t v plain : hears a t = false ->
    timeout_client (en_conn e) (g_timeout g) (e_now v) (e_sock v) (e_txt v) = (true, plain) ->
    pev c g a cut e t None (map OPlain plain)
| pe_send t buflen v e' plain ok : hears a t = false -> active e = true ->
    send_client buflen e v = (e', plain, ok) -> pev c g a cut e t (Some e') (map OPlain plain)
| pe_lost t : pev c g a cut e t None []
| pe_receive d v e' plain : handle_client c (g_max_size g) e (cut e d) v = Some (e', plain) ->
    pev c g a cut e (TookClient a d v) (Some e') (map OPlain plain).

(** Positions from the first one tried on stay there. *)
Lemma pass_rank_high buflen next v a : forall t k t' o r, pass buflen (fun k => next <=? k) v k t = (t', o, r) ->
  NoDup (addrs t) -> forall j j', rank t k a = Some j -> next <= j -> rank t' k a = Some j' -> next <= j'.
Proof.
  unfold addrs. induction t as [|[b e] t IH]; cbn; intros k t' o r E ND j j' ER Hj ER'; [discriminate|].
  inversion ND as [|? ? Hni ND']; subst.
  destruct (N.leb_spec next k) as [Hle|Hgt].
  { apply rank_ge in ER'. lia. }
  destruct (active e) eqn:EA.
  - destruct (pass buflen _ v (k + 1) t) as [[t1 o1] r1] eqn:EP. injection E as <- _ _. cbn in ER'. rewrite EA in ER'.
    destruct (a =? b); [congruence|]. eapply IH; eassumption.
  - destruct (pass buflen _ v k t) as [[t1 o1] r1] eqn:EP. injection E as <- _ _. cbn in ER'. rewrite EA in ER'.
    destruct (a =? b); [congruence|]. eapply IH; eassumption.
Qed.

Definition scut (g : srvcfg) (e : entry) (d : bytes) : bytes := recv_cut g d.

Lemma sphase_ok c g s t s' o : TableOk g s -> sphase c g s t s' o -> TableOk g s'.
Proof. intros H P. destruct P; [eapply clean_ok|eapply send_ok|eapply step_recv_ok]; eassumption. Qed.
Lemma spreach_ok c g s : spreach c g s -> TableOk g s.
Proof. induction 1; [split; [constructor|cbn; lia]|]. eapply sphase_ok; eassumption. Qed.

Lemma sphase_pev c g s t s' o a e : TableOk g s -> sphase c g s t s' o -> sview s a = Some e ->
  pev c g a (scut g) e t (sview s' a) (sent_to a o).
Proof.
  intros [SO _] P HV. pose proof (sorted_nodup _ SO) as ND. unfold sview in *. destruct P as [s i s' o E|s i s' o E|s i s' o E].
  - unfold step_clean in E. destruct (2000 <? _).
    2: { injection E as <- <-. rewrite HV. constructor. reflexivity. }
    destruct (retain _ _ _) as [t o1] eqn:ER. apply retain_clients_spec in ER as [-> Ho]; [|exact ND].
    injection E as <- <-. cbn [s_clients]. rewrite Ho, find_filter, HV by exact ND. cbn [fst snd].
    destruct (timeout_client (en_conn e) _ _ _ _) as [drop plain] eqn:ET. cbn [fst snd].
    destruct drop; cbn [negb].
    + eapply pe_end; [reflexivity|exact ET].
    + assert (plain = []) as ->; [|constructor; reflexivity].
      unfold timeout_client in ET. destruct (_ || _)%bool; [discriminate|]. destruct (_ <=? _); [|discriminate].
      injection ET as <-. reflexivity.
  - unfold step_send in E. destruct (send_data_blocks _ _ _) as [[[t o1] b] n] eqn:ES.
    injection E as <- <-. cbn [s_clients]. unfold send_data_blocks in ES.
    destruct (pass _ _ (i_send1 i) 0 (s_clients s)) as [[t1 p1] r1] eqn:E1.
    pose proof (pass_own _ _ _ a _ _ _ _ _ E1 ND) as P1.
    assert (H1 : pev c g a (scut g) e TookNothing (find_entry t1 a) (sent_to a p1)).
    { destruct P1 as [[-> ->]|(e0 & j & e' & plain & ok & EF & Ha & _ & _ & Hs & -> & ->)]; [rewrite HV; constructor; reflexivity|].
      rewrite HV in EF. injection EF as <-. eapply pe_send; [reflexivity|exact Ha|exact Hs]. }
    destruct r1 as [n1|]; [injection ES as <- <- _ _; exact H1|].
    destruct (pass _ _ (i_send2 i) 0 t1) as [[t2 p2] r2] eqn:E2.
    assert (ND1 : NoDup (addrs t1)) by (rewrite (pass_addrs _ _ _ _ _ _ _ _ E1); exact ND).
    pose proof (pass_own _ _ _ a _ _ _ _ _ E2 ND1) as P2.
    assert (H3 : pev c g a (scut g) e TookNothing (find_entry t2 a) (sent_to a (p1 ++ p2))).
    { rewrite sent_to_app. destruct P2 as [[-> ->]|(e0 & j2 & e2 & plain2 & ok2 & EF2 & Ha2 & RK2 & TR2 & Hs2 & -> & ->)].
      { rewrite app_nil_r. exact H1. }
      destruct P1 as [[F1 ->]|(e1 & j & e' & plain & ok & EF & Ha & RK & TR & Hs & _ & _)].
      - rewrite F1, HV in EF2. injection EF2 as <-. eapply pe_send; [reflexivity|exact Ha2|exact Hs2].
      - exfalso. apply N.leb_le in TR. apply N.ltb_lt in TR2.
        pose proof (pass_rank_high _ _ _ a _ _ _ _ _ E1 ND _ _ RK TR RK2). lia. }
    destruct r2; injection ES as <- <- _ _; exact H3.
  - unfold step_recv, taken in *. destruct (scan _ _ _ _) as [found cursor] eqn:EC. cbn [fst].
    destruct found as [[b d]|].
    + destruct (find_entry (s_clients s) b) as [e0|] eqn:EF; [|discriminate]. unfold known_client in E.
      destruct (handle_client _ _ _ _ _) as [[e' plain]|] eqn:EH; [|discriminate]. injection E as <- <-.
      cbn [s_clients set_recv]. rewrite find_update by congruence. rewrite sent_to_plains.
      destruct (N.eqb_spec a b) as [->|Hne].
      * rewrite N.eqb_refl. rewrite HV in EF. injection EF as <-. apply pe_receive. exact EH.
      * destruct (N.eqb_spec b a); [congruence|]. rewrite HV. constructor. cbn [hears]. apply N.eqb_neq. congruence.
    + destruct (i_main i) as [from d| |].
      * unfold has_entry in E. destruct (find_entry (s_clients s) from) as [e0|] eqn:EF.
        { injection E as <- <-. cbn [s_clients set_recv]. rewrite HV. constructor. reflexivity. }
        assert (Hne : from <> a) by congruence.
        unfold new_client in E. cbn [s_clients set_recv] in E. destruct (_ <=? _).
        { injection E as <- <-. cbn [s_clients set_recv]. rewrite HV. constructor. reflexivity. }
        destruct (server_new _ _ _ _ _) as [|reply|x reply]; [discriminate| |]; injection E as <- <-; cbn [s_clients set_recv];
          rewrite sent_to_wire; (destruct (N.eqb_spec from a); [congruence|]).
        { rewrite HV. constructor. reflexivity. }
        rewrite find_insert by exact EF. destruct (N.eqb_spec a from); [congruence|]. rewrite HV. constructor. reflexivity.
      * injection E as <- <-. cbn [s_clients set_recv]. rewrite HV. constructor. reflexivity.
      * discriminate.
Qed.

(** The multi threaded server. *)
Definition HandlesOk (m : mstate) : Prop := sorted (m_handles m).
Lemma mphase_ok c g m t m' o : HandlesOk m -> mphase c g m t m' o -> HandlesOk m'.
Proof.
  unfold HandlesOk. intros S P.
  destruct P as [m ev i m' o E|m a e v plain EF ET|m a e buflen v v' plain0 e' plain ok EF ET ES|m a e EF|m a e d v e' plain EF EH|m a e d v EF EH];
    cbn [m_handles]; try (unfold sorted; rewrite update_handle_addrs; exact S).
  unfold main_turn in E. set (h := filter _ (m_handles m)) in *.
  assert (Sh : sorted h) by (apply sorted_filter; exact S).
  destruct ev as [from d| |]; [|injection E as <- _; exact Sh|discriminate].
  destruct (find_handle h from) eqn:EF; [injection E as <- _; exact Sh|].
  destruct (_ <=? _); [injection E as <- _; exact Sh|].
  destruct (server_new _ _ _ _ _) as [|reply|x reply]; [discriminate|injection E as <- _; exact Sh|].
  injection E as <- _. cbn. apply insert_handle_sorted; assumption.
Qed.
Lemma mpreach_ok c g m : mpreach c g m -> HandlesOk m.
Proof. induction 1; [constructor|]. eapply mphase_ok; eassumption. Qed.

Lemma live_update h b a e t : find_handle h b = Some t -> live_entry (update_handle h b e) a =
  if a =? b then (if th_live e then Some (th_entry e) else None) else live_entry h a.
Proof.
  intros F. unfold live_entry. rewrite find_update_handle by congruence. destruct (a =? b); [|reflexivity].
  destruct e as [[] x]; reflexivity.
Qed.
Lemma live_filter (h : handles) a : NoDup (addrs h) ->
  live_entry (filter (fun x => th_live (snd x)) h) a = live_entry h a.
Proof.
  intros ND. unfold live_entry. rewrite find_filter_live by exact ND.
  destruct (find_handle h a) as [[[] x]|]; reflexivity.
Qed.
Lemma timeout_running cn t now sock txt plain : timeout_client cn t now sock txt = (false, plain) ->
  c_invalid cn = None /\ c_finished cn = false /\ plain = [].
Proof.
  unfold timeout_client. destruct (_ || _)%bool eqn:E; [discriminate|]. destruct (_ <=? _); [|discriminate].
  intros [= <-]. apply Bool.orb_false_iff in E as [E1 E2].
  destruct (c_invalid cn), (c_finished cn); try discriminate; auto.
Qed.

Lemma mphase_pev c g m t m' o a e : HandlesOk m -> mphase c g m t m' o -> mview m a = Some e ->
  pev c g a thread_cut e t (mview m' a) (sent_to a o).
Proof.
  unfold HandlesOk, mview. intros S P HV. pose proof (sorted_nodup _ S) as ND.
  assert (OTHER : forall b, b <> a -> hears a (TookClient b [] (mkEnv 0 false None true [])) = false)
    by (intros b H; cbn [hears]; apply N.eqb_neq; exact H).
  destruct P as [m ev i m' o E|m b e0 v plain EF ET|m b e0 buflen v v' plain0 e' plain ok EF ET ES|m b e0 EF|m b e0 d v e' plain EF EH|m b e0 d v EF EH];
    cbn [m_handles].
  - unfold main_turn in E. set (h := filter _ (m_handles m)) in *.
    assert (LV : live_entry h a = Some e) by (unfold h; rewrite live_filter; assumption).
    destruct ev as [from d| |]; [|injection E as <- <-; cbn [m_handles]; rewrite LV; constructor; reflexivity|discriminate].
    destruct (find_handle h from) eqn:EF; [injection E as <- <-; cbn [m_handles]; rewrite LV; constructor; reflexivity|].
    assert (Hne : from <> a) by (intros ->; unfold live_entry in LV; rewrite EF in LV; discriminate).
    destruct (_ <=? _); [injection E as <- <-; cbn [m_handles]; rewrite LV; constructor; reflexivity|].
    destruct (server_new _ _ _ _ _) as [|reply|x reply]; [discriminate| |]; injection E as <- <-; cbn [m_handles];
      rewrite sent_to_wire; (destruct (N.eqb_spec from a); [congruence|]).
    { rewrite LV; constructor; reflexivity. }
    unfold live_entry. rewrite find_insert_handle by exact EF. destruct (N.eqb_spec a from); [congruence|].
    fold (live_entry h a). rewrite LV. constructor. reflexivity.
  - rewrite (live_update _ _ _ _ _ EF), sent_to_plains. destruct (N.eqb_spec a b) as [->|Hne].
    + rewrite N.eqb_refl. unfold live_entry in HV. rewrite EF in HV. injection HV as <-. cbn [th_live]. eapply pe_end; [reflexivity|exact ET].
    + destruct (N.eqb_spec b a); [congruence|]. rewrite HV. constructor. reflexivity.
  - rewrite (live_update _ _ _ _ _ EF), sent_to_plains. destruct (N.eqb_spec a b) as [->|Hne].
    + rewrite N.eqb_refl. unfold live_entry in HV. rewrite EF in HV. injection HV as <-. cbn [th_live th_entry].
      destruct (timeout_running _ _ _ _ _ _ ET) as (I & F & _). destruct (en_work e0) eqn:EW.
      * eapply pe_send; [reflexivity| |exact ES]. unfold active. rewrite EW, I, F. reflexivity.
      * unfold send_client in ES. rewrite EW in ES. injection ES as <- <- <-. constructor. reflexivity.
    + destruct (N.eqb_spec b a); [congruence|]. rewrite HV. constructor. reflexivity.
  - rewrite (live_update _ _ _ _ _ EF). cbn [sent_to filter map]. destruct (N.eqb_spec a b) as [->|Hne].
    + apply pe_lost.
    + rewrite HV. constructor. reflexivity.
  - rewrite (live_update _ _ _ _ _ EF), sent_to_plains. destruct (N.eqb_spec a b) as [->|Hne].
    + rewrite N.eqb_refl. unfold live_entry in HV. rewrite EF in HV. injection HV as <-. apply pe_receive. exact EH.
    + destruct (N.eqb_spec b a); [congruence|]. rewrite HV. constructor. cbn [hears]. apply N.eqb_neq. congruence.
  - rewrite (live_update _ _ _ _ _ EF). cbn [sent_to filter map]. destruct (N.eqb_spec a b) as [->|Hne].
    + apply pe_lost.
    + rewrite HV. constructor. cbn [hears]. apply N.eqb_neq. congruence.
Qed.
