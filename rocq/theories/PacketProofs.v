(** Lemmas about PacketModel.v. *)
From Verif Require Import Base BaseProofs PacketModel PacketSpec.
From Coq Require FinFun.
Ltac Zify.zify_post_hook ::= Z.div_mod_to_equations.

(** ** Option maps *)
Lemma ext_eq_dec (a b : ext) : {a = b} + {a <> b}.
Proof. decide equality. Defined.

Lemma ext_get_put_eq m e v : ext_get (ext_put m e v) e = v.
Proof. destruct m, e; reflexivity. Qed.
Lemma ext_get_put_neq m e e' v : e <> e' -> ext_get (ext_put m e v) e' = ext_get m e'.
Proof. destruct m, e, e'; intros; try reflexivity; congruence. Qed.
Lemma ext_get_insert_eq m e v : ext_get (ext_insert m e v) e = Some v.
Proof. apply ext_get_put_eq. Qed.
Lemma ext_get_insert_neq m e e' v : e <> e' -> ext_get (ext_insert m e v) e' = ext_get m e'.
Proof. apply ext_get_put_neq. Qed.
Lemma exts_ext m m' : (forall e, ext_get m e = ext_get m' e) -> m = m'.
Proof.
  intros H. destruct m as [a b c d f g h i], m' as [a' b' c' d' f' g' h' i'].
  pose proof (H BlockSize); pose proof (H Timeout); pose proof (H TransferSize);
  pose proof (H EncLevel); pose proof (H WindowSize); pose proof (H SessionPublicKey);
  pose proof (H AuthPublicKey); pose proof (H Signature). cbn in *. congruence.
Qed.
Lemma ext_get_empty e : ext_get exts_empty e = None.
Proof. destruct e; reflexivity. Qed.
Lemma ext_list_in m e v : In (e, v) (ext_list m) <-> ext_get m e = Some v.
Proof.
  unfold ext_list. rewrite in_flat_map. split.
  - intros (e' & _ & H). destruct (ext_get m e') eqn:E; [|destruct H].
    destruct H as [H|[]]. congruence.
  - intros H. exists e. split; [destruct e; cbn; tauto|]. rewrite H. left; reflexivity.
Qed.
Lemma ext_len_le m : ext_len m <= 8.
Proof.
  destruct m as [a b c d f g h i]. unfold ext_len, ext_list. cbn.
  destruct a, b, c, d, f, g, h, i; cbn; lia.
Qed.
Lemma ext_len_full m : ext_len m = 8 <-> (forall e, ext_get m e <> None).
Proof.
  destruct m as [a b c d f g h i]. unfold ext_len, ext_list. cbn. split.
  - intros H e. destruct a, b, c, d, f, g, h, i; cbn in H; try lia; destruct e; cbn; congruence.
  - intros H. pose proof (H BlockSize); pose proof (H Timeout); pose proof (H TransferSize);
      pose proof (H EncLevel); pose proof (H WindowSize); pose proof (H SessionPublicKey);
      pose proof (H AuthPublicKey); pose proof (H Signature). cbn in *.
    destruct a, b, c, d, f, g, h, i; try congruence. reflexivity.
Qed.
Lemma ext_len_0 m : ext_list m = [] <-> m = exts_empty.
Proof.
  split; [|intros ->; reflexivity].
  destruct m as [a b c d f g h i]. unfold ext_list. cbn.
  destruct a, b, c, d, f, g, h, i; cbn; intros H; try discriminate. reflexivity.
Qed.

(** ** Option names *)
Lemma ext_parse_spec name e : ext_parse name = Some e <-> denotes name e.
Proof.
  unfold denotes. split.
  - unfold ext_parse. intros H.
    repeat match type of H with
    | (if ?b then _ else _) = _ => destruct b eqn:?E
    end; try discriminate; injection H as <-;
    match goal with
    | E : (beq name ?x || beq name ?y)%bool = true |- _ =>
        apply orb_true_iff in E; rewrite !beq_eq in E; destruct E as [->| ->]
    end; eexists; (split; [|reflexivity]); cbn; tauto.
  - intros (s & Hin & ->). cbn in Hin.
    repeat (destruct Hin as [Hin|Hin]; [injection Hin as <- <-; reflexivity|]). destruct Hin.
Qed.
Lemma ext_parse_name e : ext_parse (ext_name e) = Some e.
Proof. destruct e; reflexivity. Qed.
Lemma denotes_fun n e e' : denotes n e -> denotes n e' -> e = e'.
Proof. rewrite <- !ext_parse_spec. congruence. Qed.
Lemma ext_name_good e : good_string (ext_name e).
Proof. destruct e; split; try reflexivity; cbn; intuition discriminate. Qed.
Lemma ext_name_denotes e : denotes (ext_name e) e.
Proof. apply ext_parse_spec, ext_parse_name. Qed.
Lemma ext_name_inj e e' : ext_name e = ext_name e' -> e = e'.
Proof. intros H. eapply denotes_fun; [apply ext_name_denotes|rewrite H; apply ext_name_denotes]. Qed.

(** ** The option loop *)
Definition store (m : exts) (nv : bytes * bytes) : exts := oack_store m (fst nv) (snd nv).
Definition good_pair (nv : bytes * bytes) : Prop := good_string (fst nv) /\ good_string (snd nv).

Lemma opt_pairs_cons n v ps : opt_pairs ((n, v) :: ps) = n ++ 0 :: v ++ 0 :: opt_pairs ps.
Proof. unfold opt_pairs, nul_str. cbn. rewrite <- !app_assoc. reflexivity. Qed.
Lemma opt_pairs_app a b : opt_pairs (a ++ b) = opt_pairs a ++ opt_pairs b.
Proof. unfold opt_pairs. rewrite map_app, concat_app. reflexivity. Qed.

Lemma oack_pair_ok l n v next :
  oack_pair l = Ok (n, v, next) <-> l = n ++ 0 :: v ++ 0 :: next /\ good_string n /\ good_string v.
Proof.
  unfold oack_pair, good_string. split.
  - intros H. destruct (split_nul l) as [[a r]|] eqn:E1; [|discriminate].
    destruct (utf8 a) eqn:U1; [|discriminate].
    destruct (split_nul r) as [[b r']|] eqn:E2; [|discriminate].
    destruct (utf8 b) eqn:U2; [|discriminate]. injection H as <- <- <-.
    apply split_nul_inv in E1 as [-> ?]. apply split_nul_inv in E2 as [-> ?]. tauto.
  - intros (-> & [U1 N1] & [U2 N2]). rewrite split_nul_app by assumption. rewrite U1.
    rewrite split_nul_app by assumption. rewrite U2. reflexivity.
Qed.
Lemma oack_pair_no_panic l : oack_pair l <> Panic.
Proof.
  unfold oack_pair. destruct (split_nul l) as [[a r]|]; [|discriminate].
  destruct (utf8 a); [|discriminate]. destruct (split_nul r) as [[b r']|]; [|discriminate].
  destruct (utf8 b); discriminate.
Qed.
Lemma oack_loop_no_panic fuel l m : (length l < fuel)%nat -> oack_loop fuel l m <> Panic.
Proof.
  revert l m; induction fuel as [|f IH]; intros l m Hf; [lia|].
  cbn [oack_loop]. destruct (ext_len m <? 8); [|discriminate].
  destruct (oack_pair l) as [[[n v] next]|e|] eqn:E; try discriminate.
  - apply oack_pair_ok in E as (-> & _).
    destruct next as [|b next]; [discriminate|]. apply IH.
    rewrite app_length in Hf. cbn [length] in Hf. rewrite app_length in Hf.
    cbn [length] in Hf |- *. lia.
  - exfalso; apply (oack_pair_no_panic l); assumption.
Qed.

(** What the loop returns, in terms of the list of pairs it consumed. *)
Definition consumed (l : bytes) (m : exts) (ps : list (bytes * bytes)) : Prop :=
  Forall good_pair ps /\
  exists rest, l = opt_pairs ps ++ rest /\
    (ps <> [] -> rest = [] \/ 8 <= ext_len (fold_left store ps m)) /\
    (ps = [] -> 8 <= ext_len m) /\
    (forall ps1 x ps2, ps = ps1 ++ x :: ps2 -> ext_len (fold_left store ps1 m) < 8).

Lemma oack_loop_spec fuel l m m' : (length l < fuel)%nat ->
  (oack_loop fuel l m = Ok m' <-> exists ps, consumed l m ps /\ m' = fold_left store ps m).
Proof.
  revert l m m'; induction fuel as [|f IH]; intros l m m' Hf; [lia|].
  cbn [oack_loop]. destruct (ext_len m <? 8) eqn:E8.
  - assert (Hlt : ext_len m < 8) by lia. split.
    + destruct (oack_pair l) as [[[n v] next]|e|] eqn:E; try discriminate.
      apply oack_pair_ok in E as (-> & Gn & Gv).
      destruct next as [|b next].
      * intros H. injection H as <-. exists [(n, v)]. split; [|reflexivity].
        split; [constructor; [split; assumption|constructor]|]. exists [].
        split; [rewrite opt_pairs_cons; cbn; rewrite app_nil_r; reflexivity|].
        split; [left; reflexivity|]. split; [discriminate|].
        intros ps1 x ps2 Hp. destruct ps1 as [|y ps1]; [exact Hlt|].
        injection Hp as _ Hp. destruct ps1; discriminate.
      * rewrite IH. 2:{ rewrite app_length in Hf. cbn [length] in Hf.
          rewrite app_length in Hf. cbn [length] in Hf |- *. lia. }
        intros (ps & (Hg & rest & Hl & Hr & Hr0 & Hpre) & ->).
        exists ((n, v) :: ps). split; [|reflexivity].
        split; [constructor; [split; assumption | assumption]|]. exists rest.
        split; [rewrite opt_pairs_cons, Hl, <- !app_assoc; cbn; rewrite <- app_assoc; reflexivity|].
        split; [|split; [discriminate|]].
        -- intros _. destruct ps as [|y ps].
           ++ right. apply Hr0; reflexivity.
           ++ apply Hr. discriminate.
        -- intros ps1 x ps2 Hp. destruct ps1 as [|y ps1]; [exact Hlt|].
           injection Hp as <- Hp. cbn [fold_left]. eapply Hpre; eassumption.
    + intros (ps & (Hg & rest & Hl & Hr & Hr0 & Hpre) & ->).
      destruct ps as [|[n v] ps]; [specialize (Hr0 eq_refl); lia|].
      inversion Hg as [|? ? [Gn Gv] Hg']; subst. cbn [fst snd] in *.
      assert (E : oack_pair (opt_pairs ((n, v) :: ps) ++ rest) = Ok (n, v, opt_pairs ps ++ rest)).
      { apply oack_pair_ok. split; [|tauto].
        rewrite opt_pairs_cons, <- !app_assoc. cbn. rewrite <- app_assoc. reflexivity. }
      rewrite E. destruct (opt_pairs ps ++ rest) as [|b next] eqn:En.
      * assert (ps = []).
        { destruct ps as [|[n' v'] ps]; [reflexivity|]. rewrite opt_pairs_cons in En.
          destruct n'; discriminate. }
        subst ps. reflexivity.
      * rewrite <- En. apply IH.
        { rewrite app_length in *. rewrite opt_pairs_cons in Hf.
          rewrite !app_length in Hf. cbn [length] in Hf. rewrite app_length in Hf.
          cbn [length] in Hf. lia. }
        exists ps. split; [|reflexivity]. split; [assumption|]. exists rest.
        split; [reflexivity|]. split; [|split].
        -- intros _. apply Hr. discriminate.
        -- intros ->. cbn in En. destruct (Hr ltac:(discriminate)) as [->|H]; [discriminate|].
           exact H.
        -- intros ps1 x ps2 Hp. apply (Hpre ((n, v) :: ps1) x ps2). rewrite Hp. reflexivity.
  - assert (Hge : 8 <= ext_len m) by lia. split.
    + intros H. injection H as <-. exists []. split; [|reflexivity].
      split; [constructor|]. exists l. cbn. split; [reflexivity|].
      split; [congruence|]. split; [auto|]. intros [|] ? ?; discriminate.
    + intros (ps & (Hg & rest & Hl & Hr & Hr0 & Hpre) & ->).
      destruct ps as [|x ps]; [reflexivity|].
      specialize (Hpre [] x ps eq_refl). cbn in Hpre. lia.
Qed.

Lemma last_value_inv e ps o : last_value e ps o ->
  (o = None /\ forall n v, In (n, v) ps -> ~ denotes n e) \/
  (exists ps1 n v ps2, ps = ps1 ++ (n, v) :: ps2 /\ o = Some v /\ denotes n e /\
     forall n' v', In (n', v') ps2 -> ~ denotes n' e).
Proof.
  intros H. destruct H as [ps Hno|ps1 n v ps2 Hd Hno]; [left; auto|].
  right. exists ps1, n, v, ps2. auto.
Qed.
Lemma fold_store_last e ps :
  last_value e ps (ext_get (fold_left store ps exts_empty) e).
Proof.
  assert (G : forall m,
    (last_value e ps (ext_get (fold_left store ps m) e) /\
       exists n v, In (n, v) ps /\ denotes n e) \/
    ((forall n v, In (n, v) ps -> ~ denotes n e) /\
     ext_get (fold_left store ps m) e = ext_get m e)).
  { induction ps as [|[n v] ps IH] using rev_ind; intros m.
    - right. split; [intros ? ? []|reflexivity].
    - rewrite fold_left_app. cbn [fold_left].
      assert (D : denotes n e \/ ~ denotes n e).
      { rewrite <- ext_parse_spec. destruct (ext_parse n) as [e'|]; [|right; discriminate].
        destruct (ext_eq_dec e' e); [left|right]; congruence. }
      destruct D as [D|D].
      + left. unfold store at 1, oack_store. cbn [fst snd].
        pose proof D as D'. apply ext_parse_spec in D'. rewrite D'.
        rewrite ext_get_insert_eq. split.
        * apply (LV_some e ps n v []); [assumption|]. intros ? ? [].
        * exists n, v. split; [apply in_or_app; right; left; reflexivity|assumption].
      + assert (Hst : ext_get (store (fold_left store ps m) (n, v)) e
                      = ext_get (fold_left store ps m) e).
        { unfold store at 1, oack_store. cbn [fst snd].
          destruct (ext_parse n) as [e'|] eqn:P; [|reflexivity].
          apply ext_parse_spec in P. apply ext_get_insert_neq. intros ->. tauto. }
        rewrite Hst. destruct (IH m) as [[H (n' & v' & Hin & Hd)]|[H1 H2]].
        * left. split.
          -- apply last_value_inv in H as [[_ Hno]|(ps1 & n0 & v0 & ps2 & Heq1 & Heq2 & Hd0 & Hno)].
             ++ exfalso. apply (Hno n' v'); assumption.
             ++ rewrite Heq2, Heq1, <- app_assoc. cbn [app]. apply LV_some; [assumption|].
                intros n1 v1 Hin1. apply in_app_or in Hin1 as [Hin1|[Hin1|[]]].
                ** eapply Hno; eassumption.
                ** injection Hin1 as <- <-. assumption.
          -- exists n', v'. split; [apply in_or_app; left; assumption|assumption].
        * right. split; [|assumption]. intros n1 v1 Hin1.
          apply in_app_or in Hin1 as [Hin1|[Hin1|[]]]; [eapply H1; eassumption|].
          injection Hin1 as <- <-. assumption. }
  destruct (G exts_empty) as [[H _]|[H1 H2]]; [assumption|].
  rewrite H2, ext_get_empty. constructor. assumption.
Qed.

Lemma last_value_fun e ps a b : last_value e ps a -> last_value e ps b -> a = b.
Proof.
  intros Ha Hb.
  assert (K : forall (ps1 : list (bytes * bytes)) (n v : bytes) ps2 ps1' (n' v' : bytes) ps2',
    ps1 ++ (n, v) :: ps2 = ps1' ++ (n', v') :: ps2' ->
    denotes n e -> denotes n' e ->
    (forall x y, In (x, y) ps2 -> ~ denotes x e) ->
    (forall x y, In (x, y) ps2' -> ~ denotes x e) -> v = v').
  { induction ps1 as [|z ps1 IH]; intros n v ps2 [|z' ps1'] n' v' ps2' Heq Hn Hn' H2 H2';
      cbn in Heq.
    - congruence.
    - injection Heq as <- Heq. exfalso. eapply H2; [|exact Hn'].
      rewrite Heq. apply in_or_app. right. left. reflexivity.
    - injection Heq as -> Heq. exfalso. eapply H2'; [|exact Hn].
      rewrite <- Heq. apply in_or_app. right. left. reflexivity.
    - injection Heq as _ Heq. eapply IH; eassumption. }
  apply last_value_inv in Ha as [[-> Hno]|(p1 & n & v & p2 & -> & -> & Hd & Hno)];
  apply last_value_inv in Hb as [[-> Hno']|(p1' & n' & v' & p2' & Q1' & -> & Hd' & Hno')].
  - reflexivity.
  - exfalso. eapply Hno; [|exact Hd']. rewrite Q1'. apply in_or_app. right. left. reflexivity.
  - exfalso. eapply Hno'; [|exact Hd]. apply in_or_app. right. left. reflexivity.
  - f_equal. eapply K; eassumption.
Qed.

Lemma fold_store_full ps : 8 <= ext_len (fold_left store ps exts_empty) <-> complete ps.
Proof.
  pose proof (ext_len_le (fold_left store ps exts_empty)).
  assert (E : 8 <= ext_len (fold_left store ps exts_empty) <->
              ext_len (fold_left store ps exts_empty) = 8) by lia.
  rewrite E, ext_len_full. unfold complete. split.
  - intros Hn e. specialize (Hn e). pose proof (fold_store_last e ps) as L.
    apply last_value_inv in L as [[L _]|(ps1 & n & v & ps2 & -> & _ & Hd & _)]; [congruence|].
    exists n, v. split; [apply in_or_app; right; left; reflexivity|assumption].
  - intros Hc e Hn. pose proof (fold_store_last e ps) as L. rewrite Hn in L.
    apply last_value_inv in L as [[_ Hno]|(? & ? & ? & ? & _ & L & _)]; [|discriminate]. destruct (Hc e) as (n & v & Hin & Hd). eapply Hno; eassumption.
Qed.

Lemma oack_from_bytes_spec l m :
  oack_from_bytes l = Ok m <->
  exists ps, reads_options l ps /\ (forall e, last_value e ps (ext_get m e)).
Proof.
  unfold oack_from_bytes. rewrite oack_loop_spec by lia. split.
  - intros (ps & (Hg & rest & Hl & Hr & Hr0 & Hpre) & ->). exists ps.
    assert (Hne : ps <> []).
    { intros ->. specialize (Hr0 eq_refl). cbn in Hr0. lia. }
    split; [|intros e; apply fold_store_last].
    split; [assumption|]. split.
    + intros n v Hin. rewrite Forall_forall in Hg. exact (Hg (n, v) Hin).
    + exists rest. split; [assumption|]. rewrite <- fold_store_full. split; [auto|].
      intros ps1 x ps2 Hp. rewrite <- fold_store_full. specialize (Hpre ps1 x ps2 Hp). lia.
  - intros (ps & (Hne & Hg & rest & Hl & Hr & Hpre) & Hm). exists ps. split.
    + split; [apply Forall_forall; intros [n v] Hin; exact (Hg n v Hin)|].
      exists rest. split; [assumption|]. rewrite fold_store_full. split; [auto|].
      split; [congruence|]. intros ps1 x ps2 Hp. specialize (Hpre ps1 x ps2 Hp).
      rewrite <- fold_store_full in Hpre. lia.
    + apply exts_ext. intros e. eapply last_value_fun; [apply Hm|apply fold_store_last].
Qed.
Lemma oack_from_bytes_no_panic l : oack_from_bytes l <> Panic.
Proof. apply oack_loop_no_panic. lia. Qed.

(** ** Decoding any list of the options of a map *)
Lemma lists_last m ps : lists m ps -> forall ps1 ps2, ps = ps1 ++ ps2 ->
  (ps2 = [] \/ complete ps1) -> forall e, last_value e ps1 (ext_get m e).
Proof.
  intros (_ & H1 & H2) ps1 ps2 Hp Hc e.
  pose proof (fold_store_last e ps1) as L.
  set (g := ext_get (fold_left store ps1 exts_empty) e) in *. clearbody g.
  assert (Heq : g = ext_get m e); [|rewrite <- Heq; exact L].
  apply last_value_inv in L as [[-> Hno]|(q1 & n & v & q2 & -> & -> & Hd & Hno)].
  - destruct (ext_get m e) as [v|] eqn:E; [|reflexivity]. exfalso.
    destruct Hc as [->|Hc].
    + destruct (H1 e v E) as (n & Hd & Hin). rewrite Hp, app_nil_r in Hin. eapply Hno; eassumption.
    + destruct (Hc e) as (n & v' & Hin & Hd). eapply Hno; eassumption.
  - destruct (H2 n v) as (e' & Hd' & Hg).
    { rewrite Hp. apply in_or_app. left. apply in_or_app. right. left. reflexivity. }
    rewrite (denotes_fun _ _ _ Hd Hd'). congruence.
Qed.

Lemma complete_dec ps : {complete ps} + {~ complete ps}.
Proof.
  destruct (8 <=? ext_len (fold_left store ps exts_empty)) eqn:E.
  - left. apply fold_store_full. lia.
  - right. rewrite <- fold_store_full. lia.
Defined.
(** The shortest prefix that is complete, or everything. *)
Lemma cut ps : exists ps1 ps2, ps = ps1 ++ ps2 /\ (ps2 = [] \/ complete ps1) /\
  (forall a x b, ps1 = a ++ x :: b -> ~ complete a).
Proof.
  assert (G : forall done todo, (forall a x b, done = a ++ x :: b -> ~ complete a) ->
    exists ps1 ps2, done ++ todo = ps1 ++ ps2 /\ (ps2 = [] \/ complete ps1) /\
    (forall a x b, ps1 = a ++ x :: b -> ~ complete a)).
  { intros done todo; revert done; induction todo as [|x todo IH]; intros done Hd.
    - exists done, []. split; [reflexivity|]. split; [left; reflexivity|assumption].
    - destruct (complete_dec done) as [C|C].
      + exists done, (x :: todo). split; [reflexivity|]. split; [right; assumption|assumption].
      + replace (done ++ x :: todo) with ((done ++ [x]) ++ todo) by (rewrite <- app_assoc; reflexivity).
        apply IH. intros a y b Heq.
        destruct b as [|z b] using rev_ind.
        * apply app_inj_tail in Heq as [-> _]. assumption.
        * clear IHb. rewrite app_comm_cons, app_assoc in Heq. apply app_inj_tail in Heq as [-> _].
          eapply Hd. reflexivity. }
  apply (G [] ps). intros [|] ? ?; discriminate.
Qed.

Lemma lists_decode m ps : lists m ps -> good_exts m -> ps <> [] ->
  oack_from_bytes (opt_pairs ps) = Ok m.
Proof.
  intros HL Hg Hne. apply oack_from_bytes_spec.
  destruct (cut ps) as (ps1 & ps2 & Hp & Hc & Hpre). exists ps1. split.
  - split; [|split].
    + intros ->. destruct Hc as [->|Hc]; [apply Hne; assumption|].
      destruct (Hc BlockSize) as (? & ? & [] & _).
    + intros n v Hin. destruct HL as (_ & _ & H2).
      destruct (H2 n v) as (e & Hd & Hm); [rewrite Hp; apply in_or_app; left; assumption|].
      split; [|eapply Hg; eassumption].
      destruct Hd as (s & Hs & ->). cbn in Hs.
      repeat (destruct Hs as [Hs|Hs]; [injection Hs as <- <-; split;
        [reflexivity | cbn; intuition discriminate] |]). destruct Hs.
    + exists (opt_pairs ps2). split; [rewrite Hp; apply opt_pairs_app|].
      split; [|assumption]. destruct Hc as [->|Hc]; [left; reflexivity|right; assumption].
  - intros e. eapply lists_last; eassumption.
Qed.

Lemma oack_to_bytes_pairs m :
  oack_to_bytes m = opt_pairs (map (fun ev => (ext_name (fst ev), snd ev)) (ext_list m)).
Proof.
  unfold oack_to_bytes, opt_pairs, nul_str. induction (ext_list m) as [|[e v] l IH]; [reflexivity|].
  cbn [flat_map map concat fst snd]. rewrite IH, <- !app_assoc. reflexivity.
Qed.
Lemma ext_list_keys_nodup m : NoDup (map fst (ext_list m)).
Proof.
  destruct m as [a b c d f g h i]. unfold ext_list. cbn.
  destruct a, b, c, d, f, g, h, i; cbn;
    repeat (constructor; [cbn; intuition discriminate|]); constructor.
Qed.
Lemma encoded_lists m : lists m (map (fun ev => (ext_name (fst ev), snd ev)) (ext_list m)).
Proof.
  split; [|split].
  - rewrite map_map. cbn [fst].
    replace (map (fun x => ext_name (fst x)) (ext_list m))
      with (map ext_name (map fst (ext_list m))) by (rewrite map_map; reflexivity).
    apply Coq.Logic.FinFun.Injective_map_NoDup; [exact ext_name_inj|apply ext_list_keys_nodup].
  - intros e v H. exists (ext_name e). split; [apply ext_name_denotes|].
    apply in_map_iff. exists (e, v). split; [reflexivity|]. apply ext_list_in. assumption.
  - intros n v H. apply in_map_iff in H as ([e v'] & Heq & Hin). injection Heq as <- <-.
    exists e. split; [apply ext_name_denotes|]. apply ext_list_in. assumption.
Qed.

(** ** Whole packets *)
Lemma from_bytes_no_panic l : from_bytes l <> Panic.
Proof.
  unfold from_bytes, try_from. destruct l as [|a [|b l]]; try discriminate.
  generalize (un16 a b) as op; intros op. generalize (dropN 2 (a :: b :: l)) as r; intros r.
  assert (Hreq : request_from_bytes r <> Panic).
  { unfold request_from_bytes. destruct (split_nul r) as [[n r1]|]; [|discriminate].
    destruct (utf8 n); [|discriminate]. destruct (split_nul r1) as [[n' r2]|]; [|discriminate].
    destruct (utf8 n'); [|discriminate]. destruct (beq n' mode_octet); [|discriminate].
    destruct r2 as [|x r2]; [discriminate|].
    pose proof (oack_from_bytes_no_panic (x :: r2)).
    destruct (oack_from_bytes (x :: r2)); congruence. }
  assert (Ho : oack_from_bytes r <> Panic) by apply oack_from_bytes_no_panic.
  assert (Hd : data_from_bytes r <> Panic).
  { unfold data_from_bytes, try_from. destruct r as [|x [|y r]]; discriminate. }
  assert (Ha : ack_from_bytes r <> Panic).
  { unfold ack_from_bytes, try_from. destruct r as [|x [|y r]]; discriminate. }
  assert (He : error_from_bytes r <> Panic).
  { unfold error_from_bytes, try_from. destruct r as [|x [|y r]]; try discriminate.
    destruct (ecode_of (un16 x y)); [|discriminate].
    destruct (split_nul (dropN 2 (x :: y :: r))) as [[m r']|]; [|discriminate].
    destruct (utf8 m); discriminate. }
  destruct op as [|p]; [discriminate|].
  repeat (destruct p as [p|p|]; try discriminate); unfold pmap; try assumption;
    try (destruct (request_from_bytes r); congruence);
    try (destruct (oack_from_bytes r); congruence).
Qed.

Lemma request_decode name m ps : good_string name -> good_exts m -> lists m ps ->
  request_from_bytes (nul_str name ++ nul_str (s2b "octet") ++ opt_pairs ps) = Ok (mkReq name m).
Proof.
  intros [Un Nn] Hm HL. unfold request_from_bytes, nul_str. rewrite <- !app_assoc.
  cbn [app]. rewrite split_nul_app by assumption. rewrite Un.
  change (s2b "octet" ++ 0 :: opt_pairs ps) with (mode_octet ++ 0 :: opt_pairs ps).
  rewrite split_nul_app by (cbn; intuition discriminate).
  change (utf8 mode_octet) with true. rewrite beq_refl.
  destruct (opt_pairs ps) as [|x l] eqn:E.
  - assert (ps = []).
    { destruct ps as [|[n v] ps]; [reflexivity|]. rewrite opt_pairs_cons in E. destruct n; discriminate. }
    subst ps. replace m with exts_empty; [reflexivity|]. apply exts_ext. intros e.
    rewrite ext_get_empty. destruct (ext_get m e) as [v|] eqn:G; [|reflexivity].
    destruct HL as (_ & H1 & _). destruct (H1 e v G) as (? & _ & []).
  - rewrite <- E. rewrite (lists_decode m ps HL Hm); [reflexivity|].
    intros ->. discriminate.
Qed.

Lemma wire_decode p l : wire p l -> good_packet p -> p <> POack exts_empty -> from_bytes l = Ok p.
Proof.
  intros W G Hne. destruct W as [name m ps HL|name m ps HL|hi lo d Hh Hl|hi lo Hh Hl|c n m Hc|m ps HL];
    cbn [good_packet] in G.
  - unfold from_bytes. cbn [app try_from]. unfold dropN.
    destruct G as [G1 G2]. cbn in G1, G2. unfold pmap.
    change (un16 0 1) with 1. cbn iota. change (N.to_nat 2) with 2%nat. cbn [skipn].
    rewrite (request_decode name m ps) by assumption. reflexivity.
  - unfold from_bytes. cbn [app try_from]. unfold dropN.
    destruct G as [G1 G2]. cbn in G1, G2. unfold pmap.
    change (un16 0 2) with 2. cbn iota. change (N.to_nat 2) with 2%nat. cbn [skipn].
    rewrite (request_decode name m ps) by assumption. reflexivity.
  - unfold from_bytes. cbn [app try_from]. change (un16 0 3) with 3. cbn iota.
    unfold dropN, data_from_bytes. change (N.to_nat 2) with 2%nat. cbn [skipn try_from].
    unfold dropN. change (N.to_nat 2) with 2%nat. cbn [skipn]. reflexivity.
  - unfold from_bytes. cbn [app try_from]. change (un16 0 4) with 4. cbn iota.
    unfold dropN, ack_from_bytes. change (N.to_nat 2) with 2%nat. cbn [skipn try_from]. reflexivity.
  - unfold from_bytes. cbn [app try_from]. change (un16 0 5) with 5. cbn iota.
    unfold dropN, error_from_bytes. change (N.to_nat 2) with 2%nat. cbn [skipn try_from].
    assert (E : ecode_of (un16 0 n) = Some c).
    { cbn in Hc. repeat (destruct Hc as [Hc|Hc]; [injection Hc as <- <-; reflexivity|]). destruct Hc. }
    rewrite E. unfold dropN. change (N.to_nat 2) with 2%nat. cbn [skipn].
    destruct G as [U Nz]. unfold nul_str. rewrite split_nul_app by assumption. rewrite U. reflexivity.
  - unfold from_bytes. cbn [app try_from]. change (un16 0 6) with 6. cbn iota.
    unfold dropN, pmap. change (N.to_nat 2) with 2%nat. cbn [skipn].
    rewrite (lists_decode m ps HL G); [reflexivity|]. intros ->. apply Hne. f_equal.
    apply exts_ext. intros e. rewrite ext_get_empty.
    destruct (ext_get m e) as [v|] eqn:Ge; [|reflexivity].
    destruct HL as (_ & H1 & _). destruct (H1 e v Ge) as (? & _ & []).
Qed.

Lemma to_bytes_wire p : good_packet p -> wire p (to_bytes p).
Proof.
  intros G. unfold to_bytes. destruct p as [[name m]|[name m]|b d|b|c m|m]; cbn [opcode body_to_bytes].
  - change (be16 1) with [0; 1]. unfold request_to_bytes. cbn [rq_name rq_exts].
    rewrite oack_to_bytes_pairs.
    pose proof (W_rrq name m _ (encoded_lists m)) as W. unfold nul_str in W.
    rewrite <- !app_assoc in W. exact W.
  - change (be16 2) with [0; 2]. unfold request_to_bytes. cbn [rq_name rq_exts].
    rewrite oack_to_bytes_pairs.
    pose proof (W_wrq name m _ (encoded_lists m)) as W. unfold nul_str in W.
    rewrite <- !app_assoc in W. exact W.
  - cbn in G. pose proof (W_data (b / 256) (b mod 256) d) as W.
    replace (256 * (b / 256) + b mod 256) with b in W by lia.
    apply W; lia.
  - cbn in G. pose proof (W_ack (b / 256) (b mod 256)) as W.
    replace (256 * (b / 256) + b mod 256) with b in W by lia.
    apply W; lia.
  - pose proof (W_err c (ecode_num c) m) as W. unfold nul_str in W.
    assert (Hb : be16 5 ++ be16 (ecode_num c) ++ m ++ [0] = [0; 5; 0; ecode_num c] ++ m ++ [0])
      by (destruct c; reflexivity).
    rewrite Hb. apply W. destruct c; cbn; tauto.
  - change (be16 6) with [0; 6]. rewrite oack_to_bytes_pairs. apply (W_oack m), encoded_lists.
Qed.

Lemma round_trip p : good_packet p -> p <> POack exts_empty -> from_bytes (to_bytes p) = Ok p.
Proof. intros G Hne. apply wire_decode; [apply to_bytes_wire; assumption|assumption|assumption]. Qed.

Lemma oack_from_bytes_good l m : oack_from_bytes l = Ok m -> good_exts m.
Proof.
  intros H. apply oack_from_bytes_spec in H as (ps & (Hne & Hg & _) & Hm).
  intros e v He. specialize (Hm e). rewrite He in Hm.
  apply last_value_inv in Hm as [[Hm _]|(ps1 & n & v' & ps2 & -> & Q & _)]; [discriminate|].
  injection Q as <-. apply (Hg n v). apply in_or_app. right. left. reflexivity.
Qed.
Lemma request_from_bytes_good l r : request_from_bytes l = Ok r ->
  good_string (rq_name r) /\ good_exts (rq_exts r).
Proof.
  unfold request_from_bytes. destruct (split_nul l) as [[n r1]|] eqn:E1; [|discriminate].
  destruct (utf8 n) eqn:U; [|discriminate]. destruct (split_nul r1) as [[n' r2]|]; [|discriminate].
  destruct (utf8 n'); [|discriminate]. destruct (beq n' mode_octet); [|discriminate].
  apply split_nul_inv in E1 as [_ Hn].
  destruct r2 as [|x r2].
  - intros H. injection H as <-. cbn. split; [split; assumption|].
    intros e v. rewrite ext_get_empty. discriminate.
  - destruct (oack_from_bytes (x :: r2)) as [m| |] eqn:E; try discriminate.
    intros H. injection H as <-. cbn. split; [split; assumption|].
    eapply oack_from_bytes_good; eassumption.
Qed.
Lemma decode_good l p : wf_bytes l -> from_bytes l = Ok p -> good_packet p.
Proof.
  intros W. unfold from_bytes, try_from. destruct l as [|a [|b l]]; try discriminate.
  inversion W as [|? ? Ha W1]; subst. inversion W1 as [|? ? Hb W2]; subst.
  generalize (un16 a b) as op; intros op. unfold dropN. change (N.to_nat 2) with 2%nat. cbn [skipn].
  assert (Hd : forall q, data_from_bytes l = Ok q -> good_packet q).
  { unfold data_from_bytes, try_from. intros q H. destruct l as [|x [|y l]]; try discriminate.
    injection H as <-. inversion W2 as [|? ? ? W3]; subst. inversion W3; subst.
    apply un16_lt; assumption. }
  assert (Hk : forall q, ack_from_bytes l = Ok q -> good_packet q).
  { unfold ack_from_bytes, try_from. intros q H. destruct l as [|x [|y l]]; try discriminate.
    injection H as <-. inversion W2 as [|? ? ? W3]; subst. inversion W3; subst.
    apply un16_lt; assumption. }
  assert (He : forall q, error_from_bytes l = Ok q -> good_packet q).
  { unfold error_from_bytes, try_from. intros q H. destruct l as [|x [|y l]]; try discriminate.
    destruct (ecode_of (un16 x y)); [|discriminate].
    destruct (split_nul (dropN 2 (x :: y :: l))) as [[m r']|] eqn:E; [|discriminate].
    destruct (utf8 m) eqn:U; [|discriminate]. injection H as <-.
    apply split_nul_inv in E as [_ Hn]. split; assumption. }
  destruct op as [|q]; [discriminate|].
  repeat (destruct q as [q|q|]; try discriminate); unfold pmap; auto.
  - destruct (oack_from_bytes l) as [m| |] eqn:E; try discriminate.
    intros H; injection H as <-. eapply oack_from_bytes_good; eassumption.
  - destruct (request_from_bytes l) as [m| |] eqn:E; try discriminate.
    intros H; injection H as <-. eapply request_from_bytes_good; eassumption.
  - destruct (request_from_bytes l) as [m| |] eqn:E; try discriminate.
    intros H; injection H as <-. eapply request_from_bytes_good; eassumption.
Qed.

(** ** In-place encoding *)
Lemma write_all_spec chunks buf size : size <= blen buf ->
  write_all buf chunks size =
  let e := size + blen (concat chunks) in
  if e <=? blen buf then Some (takeN size buf ++ concat chunks ++ dropN e buf, e) else None.
Proof.
  revert buf size; induction chunks as [|c cs IH]; intros buf size Hs; cbn [write_all concat].
  - cbn zeta. rewrite blen_nil, N.add_0_r.
    destruct (size <=? blen buf) eqn:E; [|lia]. cbn [app]. rewrite takeN_dropN. reflexivity.
  - unfold write_bytes. cbn zeta. rewrite blen_app.
    destruct (size + blen c <=? blen buf) eqn:E1.
    + assert (Hl : blen (takeN size buf ++ c ++ dropN (size + blen c) buf) = blen buf).
      { rewrite !blen_app, blen_takeN, blen_dropN. lia. }
      rewrite IH by lia. cbn zeta. rewrite Hl, N.add_assoc.
      destruct (size + blen c + blen (concat cs) <=? blen buf) eqn:E2; [|reflexivity].
      f_equal. f_equal.
      assert (Hpre : blen (takeN size buf ++ c) = size + blen c)
        by (rewrite blen_app, blen_takeN; lia).
      rewrite (app_assoc (takeN size buf) c). rewrite takeN_app_exact by lia.
      rewrite dropN_app. rewrite (dropN_all _ (takeN size buf ++ c)) by lia.
      cbn [app]. rewrite dropN_dropN. rewrite <- !app_assoc. do 4 f_equal. lia.
    + destruct (size + (blen c + blen (concat cs)) <=? blen buf) eqn:E2; [lia|reflexivity].
Qed.
(** The contract of an in-place encoder for the byte string [enc]. *)
Definition encodes (enc : bytes) (f : bytes -> option (bytes * N)) : Prop :=
  forall buf, f buf = if blen enc <=? blen buf then Some (enc ++ dropN (blen enc) buf, blen enc) else None.
Lemma encodes_write_all chunks : encodes (concat chunks) (fun buf => write_all buf chunks 0).
Proof. intros buf. rewrite write_all_spec by lia. cbn zeta. rewrite N.add_0_l, takeN_0. reflexivity. Qed.
Lemma encodes_seq a b f g : encodes a f -> encodes b g ->
  encodes (a ++ b) (fun buf => match f buf with
                               | Some (buf', size) => write_sub buf' size g
                               | None => None end).
Proof.
  intros Ha Hb buf. rewrite Ha, blen_app. destruct (blen a <=? blen buf) eqn:E.
  - unfold write_sub. rewrite blen_app, blen_dropN.
    destruct (blen a <=? blen a + (blen buf - blen a)) eqn:E1; [|lia].
    rewrite dropN_app_exact, takeN_app_exact by reflexivity. rewrite Hb, blen_dropN, dropN_dropN.
    destruct (blen b <=? blen buf - blen a) eqn:E2;
      destruct (blen a + blen b <=? blen buf) eqn:E3; try lia; [|reflexivity].
    rewrite <- app_assoc. reflexivity.
  - destruct (blen a + blen b <=? blen buf) eqn:E3; [lia|reflexivity].
Qed.
Lemma encodes_ext a b f : a = b -> encodes a f -> encodes b f.
Proof. intros ->; auto. Qed.
Lemma oack_to_buffer_spec m : encodes (oack_to_bytes m) (oack_to_buffer m).
Proof.
  eapply encodes_ext; [|apply encodes_write_all].
  unfold oack_to_bytes. induction (ext_list m) as [|[e v] l IH]; [reflexivity|].
  cbn [flat_map]. rewrite concat_app, IH. cbn [concat]. rewrite <- !app_assoc. reflexivity.
Qed.
Lemma body_to_buffer_spec p : encodes (body_to_bytes p) (body_to_buffer p).
Proof.
  assert (HR : forall r, encodes (request_to_bytes r) (request_to_buffer r)).
  { intros [name m]. unfold request_to_bytes, request_to_buffer. cbn [rq_name rq_exts].
    eapply encodes_ext;
      [|apply (encodes_seq (concat [name; [0]; mode_octet; [0]]) (oack_to_bytes m));
        [apply encodes_write_all|apply oack_to_buffer_spec]].
    cbn [concat]. rewrite <- !app_assoc. reflexivity. }
  destruct p as [r|r|b d|b|c m|m]; cbn [body_to_bytes body_to_buffer]; try apply HR.
  - eapply encodes_ext; [|apply encodes_write_all]. cbn [concat]. rewrite app_nil_r. reflexivity.
  - intros buf. cbn [body_to_buffer]. pose proof (encodes_write_all [be16 b] buf) as H.
    cbn [write_all concat] in H. rewrite app_nil_r in H.
    destruct (write_bytes buf (be16 b) 0) as [[x y]|]; exact H.
  - eapply encodes_ext; [|apply encodes_write_all]. cbn [concat]. rewrite ?app_nil_r. reflexivity.
  - apply oack_to_buffer_spec.
Qed.
Lemma to_buffer_spec p : encodes (to_bytes p) (to_buffer p).
Proof.
  unfold to_bytes, to_buffer.
  apply (encodes_seq (be16 (opcode p)) (body_to_bytes p)
           (fun buf => write_bytes buf (be16 (opcode p)) 0) (body_to_buffer p)).
  - intros buf. specialize (encodes_write_all [be16 (opcode p)] buf) as H.
    cbn [write_all concat] in H. rewrite app_nil_r in H.
    destruct (write_bytes buf (be16 (opcode p)) 0) as [[x y]|]; exact H.
  - apply body_to_buffer_spec.
Qed.
