(** Several uploads into one file: the mixture they leave, equal uploads, uploads that may not overwrite. *)
From Verif Require Import Base BaseProofs PacketModel MapperModel ReaderModel ReaderSpec ConfigModel CryptoModel CryptoSpec ExtModel PathModel ConnModel
  ClientModel SystemModel ConnSpec HandshakeModel HandshakeProofs ServerModel ServerSpec ServerProofs PropServer WorldModel WorldB PropWorld FsModel FsProofs FsServerModel
  DiskModel DiskSpec DiskProofs DiskB.

Section G.
Context {S : Type} (c : crypto) (g : srvcfg) (fg : fcfg) (dirsize : N) (sv : server S) (Inv : S -> Prop) (cut : entry -> bytes -> bytes).
Hypothesis G : good c g sv Inv cut.
Notation dkstep := (dkstep sv c g fg dirsize).
Notation dkany := (dkany sv c g fg dirsize).
Notation view := (sv_view sv).
Notation dview := (dview sv).
Notation writes := (writes sv).
Notation DInv := (DInv sv Inv).
Notation changed := (changed_cases c g fg dirsize sv Inv cut G).

Lemma run_inv st0 h st : DInv st0 -> dkrun dkstep st0 h st -> DInv st.
Proof. intros D R. induction R; [exact D|]. eapply (DInv_step c g fg dirsize sv Inv cut G); eassumption. Qed.

Lemma mix_run st0 h st id p b : DInv st0 -> dkrun dkstep st0 h st -> nth_error (f_data (dk_fs st) id) p = Some b ->
  nth_error (f_data (dk_fs st0) id) p = Some b \/ b = 0 \/
  exists st1 a w, In st1 (st :: h) /\ writes a st1 id w /\ nth_error (w_out w) p = Some b.
Proof.
  intros D R. revert b. induction R as [|h st t st' o R IH P]; intros b H; [auto|].
  assert (IH' : nth_error (f_data (dk_fs st) id) p = Some b -> nth_error (f_data (dk_fs st0) id) p = Some b \/ b = 0 \/
    exists st1 a w, In st1 (st' :: st :: h) /\ writes a st1 id w /\ nth_error (w_out w) p = Some b).
  { intros X. destruct (IH b X) as [Y|[Y|(s1 & a & w & I & Y)]]; [auto|auto|]. right. right. exists s1, a, w. split; [right; exact I|exact Y]. }
  destruct (changed _ _ _ _ id (run_inv _ _ _ D R) P) as [E|[(b0 & d & _ & _ & E)|(b0 & d & v & w & w' & x & _ & W & W' & EX & E)]]; rewrite E in H.
  - apply IH'. exact H.
  - destruct p; discriminate.
  - rewrite write_nth in H. destruct (p <? N.to_nat (blen (w_out w)))%nat eqn:EP.
    + destruct x as [|x0 x]; [apply IH'; exact H|]. destruct (p <? length (f_data (dk_fs st) id))%nat; [apply IH'; exact H|]. injection H as <-. auto.
    + destruct (nth_error x _) as [y|] eqn:EY; [|apply IH'; exact H]. injection H as ->. right. right. exists st', b0, w'.
      split; [left; reflexivity|]. split; [exact W'|]. rewrite EX. apply Nat.ltb_ge in EP. unfold blen in EP. rewrite Nat2N.id in EP.
      rewrite nth_error_app2 by exact EP. unfold blen in EY. rewrite Nat2N.id in EY. exact EY.
Qed.

(** ** Uploads of the same contents *)
Notation not_cut := (not_cut sv c g fg dirsize).
Lemma prefix_nth u F p : prefix u F -> (p < length u)%nat -> nth_error u p = nth_error F p.
Proof. intros [r ->] H. rewrite nth_error_app1 by exact H. reflexivity. Qed.
Lemma prefix_len u F : prefix u F -> (length u <= length F)%nat.
Proof. intros [r ->]. rewrite app_length. lia. Qed.
Lemma not_cut_run id st0 h st : dkrun (not_cut id) st0 h st -> dkrun dkstep st0 h st.
Proof. induction 1 as [|h st t st' o R IH [P _]]; econstructor; eassumption. Qed.
Lemma write_length old pos x : (length (write_at old pos x) <= Nat.max (length old) (N.to_nat pos + length x))%nat.
Proof.
  unfold write_at. destruct x as [|y x]; [lia|]. rewrite !app_length, repeat_length. unfold takeN, dropN, blen.
  rewrite firstn_length, skipn_length. lia.
Qed.
Lemma same_run id F a st0 h st : DInv st0 -> f_data (dk_fs st0) id = [] -> (forall w, writes a st0 id w -> w_out w = []) ->
  dkrun (not_cut id) st0 h st ->
  (forall st1 b w, In st1 (st :: h) -> writes b st1 id w -> prefix (w_out w) F) ->
  (length (f_data (dk_fs st) id) <= length F)%nat /\
  forall w, writes a st id w -> forall p, (p < length (w_out w))%nat -> nth_error (f_data (dk_fs st) id) p = nth_error F p.
Proof.
  intros D E0 A0 R. induction R as [|h st t st' o R IH [P NC]]; intros HP.
  { rewrite E0. split; [cbn; lia|]. intros w W p L. rewrite (A0 _ W) in L. cbn in L. lia. }
  destruct IH as [L1 N1]; [intros st1 b w I; apply HP; right; exact I|].
  pose proof (run_inv _ _ _ D (not_cut_run _ _ _ _ R)) as DS.
  assert (OLD : f_data (dk_fs st') id = f_data (dk_fs st) id -> (forall w', writes a st' id w' -> w_out w' = [] \/ exists w, writes a st id w /\ w_out w' = w_out w) ->
    (length (f_data (dk_fs st') id) <= length F)%nat /\
    forall w, writes a st' id w -> forall p, (p < length (w_out w))%nat -> nth_error (f_data (dk_fs st') id) p = nth_error F p).
  { intros -> HA. split; [exact L1|]. intros w W p L. destruct (HA w W) as [X|(w1 & W1 & X)]; [rewrite X in L; cbn in L; lia|].
    apply (N1 w1 W1). rewrite <- X. exact L. }
  (* what becomes of [a] *)
  assert (AA : forall w', writes a st' id w' -> w_out w' = [] \/ exists w x, writes a st id w /\ w_out w' = w_out w ++ x /\ (hears a t = false -> x = [])).
  { intros w' W'. destruct (view (dk_srv st) a) as [e|] eqn:V.
    - right. assert (WS : exists w, writes a st id w).
      { destruct W' as (e' & p' & V' & EW' & EO'). assert (VD : dview st a = Some (set_file (content (dk_fs st) (dk_open st a)) e)) by (rewrite (dview_eq c g sv Inv cut G), V; reflexivity).
        destruct (dk_pev c g fg dirsize sv Inv cut G _ _ _ _ _ _ DS P VD) as [_ OP]. rewrite OP in EO' by congruence.
        pose proof (proj2 DS a) as K. rewrite V, EO' in K. cbn [kind_ok] in K. destruct (en_work e) as [F0 r0|p0 w0] eqn:EW; [destruct K; congruence|].
        exists w0, e, p0. auto. }
      destruct WS as [w W]. pose proof (writes_view c g sv Inv cut G _ _ _ _ W) as VW. rewrite V in VW.
      destruct (wstep_pev c g fg dirsize sv Inv cut G _ _ _ _ _ _ _ _ DS W (dk_step _ _ _ _ _ _ _ _ _ P) VW) as [_ NX].
      pose proof (writes_view c g sv Inv cut G _ _ _ _ W') as VW'. pose proof W' as (e' & p' & V' & EW' & EO'). rewrite V' in VW'.
      destruct (NX e' VW') as (w2 & (e2 & p2 & V2 & EW2 & _) & (x & EX) & HH). rewrite V' in V2. injection V2 as <-. rewrite EW' in EW2. injection EW2 as <- <-.
      exists w, x. split; [exact W|]. split; [exact EX|]. intros HF. specialize (HH HF). subst w'.
      apply (f_equal (@length N)) in EX. rewrite app_length in EX. destruct x; [reflexivity|cbn in EX; lia].
    - left. destruct W' as (e' & p' & V' & EW' & EO'). destruct (new_kind c g fg dirsize sv Inv cut G _ _ _ _ _ _ DS P V V') as [_ K]. rewrite EW' in K. destruct K as [-> _]. reflexivity. }
  destruct (changed _ _ _ _ id DS P) as [E|[(b0 & d & -> & _ & E)|(b0 & d & v & w & w' & x & -> & W & W' & EX & E)]].
  - (* not changed: [a] has stored nothing new, or what it stored is there already *)
    split; [rewrite E; exact L1|]. intros w' W' p L. rewrite E. destruct (AA w' W') as [X|(w & x & W & EX & HF)]; [rewrite X in L; cbn in L; lia|].
    destruct (hears a t) eqn:HT.
    + pose proof (hears_writes c g fg dirsize sv Inv cut G _ _ _ _ _ _ _ _ DS (dk_step _ _ _ _ _ _ _ _ _ P) HT W W') as HW.
      assert (E2 : f_data (dk_fs st) id = write_at (f_data (dk_fs st) id) (blen (w_out w)) x).
      { rewrite <- E at 1. rewrite HW. cbn. rewrite N.eqb_refl, EX, dropN_app_exact by reflexivity. reflexivity. }
      destruct (Nat.ltb_spec p (length (w_out w))) as [LP|LP]; [apply (N1 w W p LP)|].
      rewrite E2, write_nth. unfold blen. rewrite Nat2N.id. destruct (Nat.ltb_spec p (length (w_out w))); [lia|].
      pose proof (HP st' a w' (or_introl eq_refl) W') as PF. rewrite <- (prefix_nth _ _ _ PF L), EX.
      rewrite nth_error_app2 by exact LP. destruct (nth_error x _) as [y|] eqn:EY; [reflexivity|].
      exfalso. apply nth_error_None in EY. rewrite EX, app_length in L. lia.
    + rewrite (HF eq_refl), app_nil_r in EX. apply (N1 w W). rewrite <- EX. exact L.
  - (* emptied: it was empty already *)
    rewrite E in NC. assert (E' : f_data (dk_fs st) id = []) by (destruct (f_data (dk_fs st) id); [reflexivity|unfold blen in NC; cbn in NC; lia]).
    apply OLD; [congruence|]. intros w' W'. destruct (AA w' W') as [X|(w & x & W & EX & HF)]; [auto|]. right. exists w.
    split; [exact W|]. rewrite (HF eq_refl), app_nil_r in EX. exact EX.
  - pose proof (HP st' b0 w' (or_introl eq_refl) W') as PF. pose proof (prefix_len _ _ PF) as LF. rewrite EX, app_length in LF.
    rewrite E. split.
    { pose proof (write_length (f_data (dk_fs st) id) (blen (w_out w)) x) as WL. unfold blen in WL at 2. rewrite Nat2N.id in WL. lia. }
    intros wa' WA' p L. rewrite write_nth. unfold blen. rewrite Nat2N.id.
    assert (XB : forall y, (length (w_out w) <= p)%nat -> nth_error x (p - length (w_out w)) = Some y -> Some y = nth_error F p).
    { intros y LP EY. rewrite <- (prefix_nth _ _ _ PF); [rewrite EX, nth_error_app2 by exact LP; congruence|].
      rewrite EX, app_length. assert (p - length (w_out w) < length x)%nat by (apply nth_error_Some; congruence). lia. }
    (* the old contents where [a] has stored *)
    assert (OLDP : (exists wa, writes a st id wa /\ (p < length (w_out wa))%nat) -> (p < length (f_data (dk_fs st) id))%nat /\ nth_error (f_data (dk_fs st) id) p = nth_error F p).
    { intros (wa & WA & LA). pose proof (N1 wa WA p LA) as NA. split; [|exact NA]. apply nth_error_Some. rewrite NA. apply nth_error_Some.
      pose proof (HP st a wa (or_intror (or_introl eq_refl)) WA) as PA. apply prefix_len in PA. lia. }
    destruct (AA wa' WA') as [X|(wa & xa & WA & EXA & HF)]; [rewrite X in L; cbn in L; lia|].
    destruct (hears a (TookClient b0 d v)) eqn:HT.
    + cbn [hears] in HT. apply N.eqb_eq in HT. subst b0.
      assert (w = wa /\ w' = wa') as [<- <-].
      { destruct W as (e1 & p1 & V1 & EW1 & _), WA as (e2 & p2 & V2 & EW2 & _), W' as (e3 & p3 & V3 & EW3 & _), WA' as (e4 & p4 & V4 & EW4 & _).
        rewrite V1 in V2. injection V2 as <-. rewrite V3 in V4. injection V4 as <-. split; congruence. }
      destruct (Nat.ltb_spec p (length (w_out w))) as [LP|LP].
      * destruct OLDP as [O1 O2]; [eauto|]. destruct x; [exact O2|]. apply Nat.ltb_lt in O1. rewrite O1. exact O2.
      * destruct (nth_error x _) as [y|] eqn:EY; [apply XB; auto|]. exfalso. apply nth_error_None in EY. rewrite EX, app_length in L. lia.
    + rewrite (HF eq_refl), app_nil_r in EXA. rewrite EXA in L. destruct OLDP as [O1 O2]; [eauto|].
      destruct (Nat.ltb_spec p (length (w_out w))) as [LP|LP].
      * destruct x; [exact O2|]. apply Nat.ltb_lt in O1. rewrite O1. exact O2.
      * destruct (nth_error x _) as [y|] eqn:EY; [apply XB; auto|exact O2].
Qed.

(** ** Uploads that may not overwrite *)
Hypothesis O : fc_overwrite fg = false.
Definition apart (st : disk S) : Prop :=
  (forall b id, dk_open st b = Some (Writes id) -> id < f_next (dk_fs st)) /\
  (forall b b' id, dk_open st b = Some (Writes id) -> dk_open st b' = Some (Writes id) -> b = b').
Lemma written_next f o e e' : f_next (written f o e e') = f_next f.
Proof. unfold written. destruct o as [[]|]; try reflexivity. destruct e as [[cn ky []]|]; try reflexivity. destruct e' as [[cn' ky' []]|]; reflexivity. Qed.
Lemma next_step st t st' o : dkany st t st' o -> f_next (dk_fs st) <= f_next (dk_fs st').
Proof.
  intros P. destruct P as [st t st' o P|st f' FN]; [|exact FN]. destruct P as [st t s' o P L|st b d i f' q r s' o L E M]; cbn [dk_fs].
  - destruct t; [lia|rewrite written_next; lia|lia].
  - destruct (request_exclusive _ _ _ _ _ _ _ _ _ _ E O) as [X _]. exact X.
Qed.
Lemma open_step st t st' o b id : dkany st t st' o -> dk_open st' b = Some (Writes id) ->
  dk_open st b = Some (Writes id) \/ (f_next (dk_fs st) <= id < f_next (dk_fs st') /\ forall b', dk_open st' b' = Some (Writes id) -> b' = b \/ dk_open st b' = Some (Writes id)).
Proof.
  intros P. destruct P as [st t st' o P|st f' FN]; [|auto]. destruct P as [st t s' o P L|st b0 d i f' q r s' o L E M]; cbn [dk_open dk_fs]; unfold still_open.
  - destruct (view s' b); [auto|discriminate].
  - destruct (view s' b); [|discriminate]. destruct (N.eqb_spec b b0) as [->|NE]; [|auto]. intros ->.
    destruct (request_exclusive _ _ _ _ _ _ _ _ _ _ E O) as (_ & _ & R). right. split; [apply R; reflexivity|].
    intros b'. destruct (view s' b'); [|discriminate]. destruct (N.eqb_spec b' b0); auto.
Qed.
Lemma apart_step st t st' o : apart st -> dkany st t st' o -> apart st'.
Proof.
  intros [A1 A2] P. pose proof (next_step _ _ _ _ P) as NX. split.
  - intros b id H. destruct (open_step _ _ _ _ _ _ P H) as [X|[X _]]; [apply A1 in X; lia|lia].
  - intros b b' id H H'. destruct (open_step _ _ _ _ _ _ P H) as [X|[X Y]].
    + destruct (open_step _ _ _ _ _ _ P H') as [X'|[X' Y']]; [eapply A2; eassumption|]. apply A1 in X. lia.
    + destruct (Y _ H') as [->|Z]; [reflexivity|]. apply A1 in Z. lia.
Qed.

Notation spare := (spare sv c g fg dirsize).
Lemma spare_any id st t st' o : spare id st t st' o -> dkany st t st' o.
Proof. intros [st0 t0 st1 o0 P|st0 f' FN EF]; [apply dk_step; exact P|apply dk_other; exact FN]. Qed.

(** Nobody but [a] stores into [id]. *)
Definition mine (a : addr) (id : N) (st : disk S) : Prop :=
  DInv st /\ apart st /\ id < f_next (dk_fs st) /\ forall b, dk_open st b = Some (Writes id) -> b = a.
Lemma mine_step a id st t st' o : mine a id st -> spare id st t st' o ->
  mine a id st' /\ alone sv c g fg dirsize a id st t st' o.
Proof.
  intros (D & A & L & M) P. pose proof (spare_any _ _ _ _ _ P) as PA. pose proof (next_step _ _ _ _ PA) as NX.
  assert (OPN : forall b, dk_open st' b = Some (Writes id) -> dk_open st b = Some (Writes id)).
  { intros b H. destruct (open_step _ _ _ _ _ _ PA H) as [X|[X _]]; [exact X|lia]. }
  split.
  - split; [eapply (DInv_any c g fg dirsize sv Inv cut G); eassumption|]. split; [eapply apart_step; eassumption|]. split; [lia|]. intros b H. apply M, OPN, H.
  - split; [exact PA|]. split; [|apply OPN]. intros HN. destruct P as [st t st' o P|st f' FN EF]; [|exact EF].
    destruct P as [st t s' o P LK|st b d i f' q r s' o LK E MM]; cbn [dk_fs].
    + destruct t as [|b d v|b d]; try reflexivity. unfold written. destruct (dk_open st b) as [[|id']|] eqn:EO; try reflexivity.
      destruct (dview st b) as [[cn ky []]|]; try reflexivity. destruct (view s' b) as [[cn' ky' []]|]; try reflexivity.
      cbn. destruct (N.eqb_spec id id') as [->|]; [|reflexivity]. apply M in EO. subst b. cbn in HN. rewrite N.eqb_refl in HN. discriminate.
    + destruct (request_exclusive _ _ _ _ _ _ _ _ _ _ E O) as (_ & X & _). apply X. exact L.
Qed.
Lemma mine_run a id k file n W0 W : mine a id (uw_srv W0) -> uwreach (spare id) dview c a k file n W0 W ->
  uwreach (alone sv c g fg dirsize a id) dview c a k file n W0 W.
Proof.
  intros M0 R. assert (X : uwreach (alone sv c g fg dirsize a id) dview c a k file n W0 W /\ mine a id (uw_srv W)); [|apply X].
  induction R as [|W W' R [IH M] ST]; [split; [constructor|exact M0]|].
  destruct ST; cbn [uw_srv] in *; try (match goal with H : spare _ _ _ _ _ |- _ => destruct (mine_step _ _ _ _ _ _ M H) as [M' U] end);
    (split; [|assumption]); (eapply uwr_step; [exact IH|]).
  - eapply uw_server; eassumption.
  - eapply uw_server_receives; eassumption.
  - eapply uw_server_later; eassumption.
  - eapply uw_client_sends; eassumption.
  - eapply uw_client_receives; eassumption.
Qed.
End G.
