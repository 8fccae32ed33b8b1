From Coq Require Import Permutation.
From Verif Require Import Base BaseProofs PacketModel MapperModel ReaderModel ConfigModel CryptoModel ExtModel ConnModel
  HandshakeModel ConnSpec ServerModel ServerSpec ServerProofs StackModel StackSpec.

(** ** heapless maps *)
Section IM.
Context {V : Type}.
Implicit Types m : imap V.
Definition keys m := map fst m.
Lemma im_get_none m k : im_get m k = None <-> ~ In k (keys m).
Proof.
  unfold keys. induction m as [|[j v] m IH]; cbn; [tauto|]. destruct (N.eqb_spec k j) as [->|Hne].
  - split; [discriminate|]. intros H. exfalso. auto.
  - rewrite IH. split; [intros H [E|E]; [congruence|auto]|auto].
Qed.
Lemma im_contains_spec m k : im_contains m k = true <-> In k (keys m).
Proof.
  unfold im_contains. pose proof (im_get_none m k) as H. destruct (im_get m k).
  - split; [intros _|auto]. destruct (in_dec N.eq_dec k (keys m)) as [|n]; [assumption|]. apply H in n. discriminate.
  - split; [discriminate|]. intros Hin. exfalso. apply (proj1 H eq_refl Hin).
Qed.
Lemma im_set_keys m k v : keys (im_set m k v) = keys m.
Proof. unfold keys. induction m as [|[j x] m IH]; cbn; [reflexivity|]. destruct (k =? j); cbn; congruence. Qed.
Lemma im_set_length m k v : length (im_set m k v) = length m.
Proof. pose proof (im_set_keys m k v) as H. unfold keys in H. rewrite <- (map_length fst), H, map_length. reflexivity. Qed.
Lemma im_get_set m k v j : In k (keys m) -> im_get (im_set m k v) j = if j =? k then Some v else im_get m j.
Proof.
  unfold keys. induction m as [|[b x] m IH]; cbn; [tauto|]. intros H. destruct (N.eqb_spec k b) as [->|Hne]; cbn.
  - destruct (j =? b); reflexivity.
  - destruct H as [->|H]; [congruence|]. rewrite IH by exact H. destruct (N.eqb_spec j b) as [->|]; [|reflexivity].
    destruct (N.eqb_spec b k); [congruence|reflexivity].
Qed.
Lemma im_get_app m k v j : im_get (m ++ [(k, v)]) j = match im_get m j with Some x => Some x | None => if j =? k then Some v else None end.
Proof. induction m as [|[b x] m IH]; cbn; [reflexivity|]. destruct (j =? b); [reflexivity|exact IH]. Qed.
Lemma keys_app m k v : keys (m ++ [(k, v)]) = keys m ++ [k].
Proof. unfold keys. rewrite map_app. reflexivity. Qed.

Lemma replace_length m k e : length (im_replace m k e) = length m.
Proof. induction m as [|[j x] m IH]; cbn; [reflexivity|]. destruct (k =? j); cbn; congruence. Qed.
Lemma replace_keys m k j x i : NoDup (keys m) -> In k (keys m) ->
  In i (keys (im_replace m k (j, x))) <-> i = j \/ (In i (keys m) /\ i <> k).
Proof.
  unfold keys. induction m as [|[b y] m IH]; cbn; [tauto|]. intros ND H. inversion ND as [|? ? Hni ND']; subst.
  destruct (N.eqb_spec k b) as [->|Hne]; cbn.
  - split; [intros [E|E]; [auto|right; split; [auto|intros ->; auto]]|intros [->|[[E|E] Hi]]; [auto|congruence|auto]].
  - destruct H as [->|H]; [congruence|]. rewrite IH by assumption.
    split; [intros [<-|[E|[E E']]]; [right; split; [auto|congruence]|auto|auto]|intros [->|[[E|E] Hi]]; auto].
Qed.
Lemma replace_nodup m k j x : NoDup (keys m) -> ~ In j (keys m) -> NoDup (keys (im_replace m k (j, x))).
Proof.
  unfold keys. induction m as [|[b y] m IH]; cbn; [auto|]. intros ND H. inversion ND as [|? ? Hni ND']; subst.
  destruct (N.eqb_spec k b) as [->|Hne]; cbn.
  - constructor; [tauto|assumption].
  - constructor; [|apply IH; tauto]. destruct (in_dec N.eq_dec k (map fst m)) as [Hk|Hk].
    + intros Hin. apply (replace_keys m k j x b ND' Hk) in Hin as [->|[Hin _]]; auto.
    + assert (E : im_replace m k (j, x) = m); [|rewrite E; exact Hni].
      clear -Hk. induction m as [|[c z] m IH]; cbn; [reflexivity|]. destruct (N.eqb_spec k c) as [->|]; [cbn in Hk; tauto|].
      f_equal. apply IH. cbn in Hk. tauto.
Qed.
Lemma replace_get m k j x i : NoDup (keys m) -> In k (keys m) -> ~ In j (keys m) ->
  im_get (im_replace m k (j, x)) i = if i =? j then Some x else if i =? k then None else im_get m i.
Proof.
  unfold keys. induction m as [|[b y] m IH]; cbn; [tauto|]. intros ND H Hj. inversion ND as [|? ? Hni ND']; subst.
  destruct (N.eqb_spec k b) as [->|Hne]; cbn.
  - destruct (i =? j); [reflexivity|]. destruct (N.eqb_spec i b) as [E|]; [subst i; apply im_get_none; exact Hni|reflexivity].
  - destruct H as [->|H]; [congruence|]. rewrite IH by tauto. destruct (N.eqb_spec i b) as [->|]; [|reflexivity].
    destruct (N.eqb_spec b j) as [->|]; [tauto|]. destruct (N.eqb_spec b k); [congruence|reflexivity].
Qed.
Lemma im_remove_spec m k : NoDup (keys m) -> In k (keys m) ->
  NoDup (keys (im_remove m k)) /\ S (length (im_remove m k)) = length m /\
  forall i, im_get (im_remove m k) i = if i =? k then None else im_get m i.
Proof.
  intros ND Hk. unfold im_remove. destruct (rev m) as [|[j x] r] eqn:ER.
  - apply (f_equal (@rev _)) in ER. rewrite rev_involutive in ER. subst m. destruct Hk.
  - apply (f_equal (@rev _)) in ER. rewrite rev_involutive in ER. cbn in ER. set (q := rev r) in *. subst m.
    rewrite keys_app in ND, Hk. assert (NDq : NoDup (keys q) /\ ~ In j (keys q)).
    { apply NoDup_remove in ND. rewrite app_nil_r in ND. exact ND. }
    destruct NDq as [NDq Hjq]. destruct (N.eqb_spec k j) as [->|Hne].
    + split; [exact NDq|]. split; [rewrite app_length; cbn; lia|]. intros i. rewrite im_get_app.
      destruct (N.eqb_spec i j) as [->|]; [apply im_get_none; exact Hjq|]. destruct (im_get q i); reflexivity.
    + assert (Hkq : In k (keys q)) by (apply in_app_or in Hk as [Hk|[Hk|[]]]; [exact Hk|congruence]).
      rewrite (proj2 (im_contains_spec (q ++ [(j, x)]) k)) by (rewrite keys_app; exact Hk).
      split; [apply replace_nodup; assumption|]. split; [rewrite replace_length, app_length; cbn; lia|].
      intros i. rewrite replace_get by assumption. rewrite im_get_app.
      destruct (N.eqb_spec i j) as [->|]; [rewrite (proj2 (im_get_none q j) Hjq); destruct (N.eqb_spec j k); [congruence|reflexivity]|].
      destruct (i =? k); [reflexivity|]. destruct (im_get q i); reflexivity.
Qed.
End IM.

(** The first free index is found while there are fewer than 65535 entries. *)
Lemma first_free_fresh {V} (m : imap V) : forall n k i, first_free m k n = Some i -> ~ In i (keys m).
Proof.
  induction n as [|n IH]; cbn; intros k i E; [discriminate|]. destruct (im_contains m k) eqn:EC; [eauto|].
  injection E as <-. intros H. apply im_contains_spec in H. congruence.
Qed.
Lemma first_free_none {V} (m : imap V) : forall n k, first_free m k n = None ->
  forall i, k <= i < k + N.of_nat n -> In i (keys m).
Proof.
  induction n as [|n IH]; cbn [first_free]; intros k E i Hi; [lia|]. destruct (im_contains m k) eqn:EC; [|discriminate].
  destruct (N.eq_dec i k) as [->|]; [apply im_contains_spec; exact EC|]. apply (IH (k + 1)); [exact E|lia].
Qed.
Fixpoint upto (n : nat) : list N := match n with O => [] | S k => N.of_nat k :: upto k end.
Lemma upto_in n i : In i (upto n) <-> i < N.of_nat n.
Proof. induction n as [|n IH]; cbn [upto In]; [lia|]. rewrite IH. lia. Qed.
Lemma upto_nodup n : NoDup (upto n).
Proof. induction n as [|n IH]; cbn; constructor; [rewrite upto_in; lia|exact IH]. Qed.
Lemma upto_length n : length (upto n) = n.
Proof. induction n as [|n IH]; cbn; congruence. Qed.
Lemma free_index_some {V} (m : imap V) : (length m < 1000)%nat -> exists i, free_index m = Some i /\ ~ In i (keys m).
Proof.
  intros H. unfold free_index. destruct (first_free m 0 (N.to_nat 65535)) as [i|] eqn:E.
  - exists i. split; [reflexivity|]. eapply first_free_fresh; exact E.
  - exfalso. assert (Hin : incl (upto 1000) (keys m)).
    { intros i Hi. apply upto_in in Hi. eapply (first_free_none m _ _ E). lia. }
    apply (NoDup_incl_length (upto_nodup _)) in Hin. rewrite upto_length in Hin. unfold keys in Hin. rewrite map_length in Hin. lia.
Qed.

(** ** The pools *)
Definition has (P : pools) (h : handle) : Prop := reader_at P h <> None.
Definition in_pool (P : pools) (h : handle) : Prop :=
  match h with
  | HSingle i => In i (keys (p_single P))
  | HMulti i => In i (keys (p_multi P))
  | HSeek i => In i (keys (p_seek P))
  end.
Lemma has_in P h : has P h <-> in_pool P h.
Proof.
  unfold has. destruct h as [i|i|i]; cbn.
  - pose proof (im_get_none (p_single P) i) as H. destruct (im_get (p_single P) i) as [[f s]|].
    + split; [intros _|congruence]. destruct (in_dec N.eq_dec i (keys (p_single P))) as [|n]; [assumption|]. apply H in n. discriminate.
    + split; [congruence|]. intros Hi. exfalso. apply (proj1 H eq_refl Hi).
  - pose proof (im_get_none (p_multi P) i) as H. destruct (im_get (p_multi P) i) as [[f s]|].
    + split; [intros _|congruence]. destruct (in_dec N.eq_dec i (keys (p_multi P))) as [|n]; [assumption|]. apply H in n. discriminate.
    + split; [congruence|]. intros Hi. exfalso. apply (proj1 H eq_refl Hi).
  - pose proof (im_get_none (p_seek P) i) as H. destruct (im_get (p_seek P) i) as [[f s]|].
    + split; [intros _|congruence]. destruct (in_dec N.eq_dec i (keys (p_seek P))) as [|n]; [assumption|]. apply H in n. discriminate.
    + split; [congruence|]. intros Hi. exfalso. apply (proj1 H eq_refl Hi).
Qed.
Lemma handle_dec (x y : handle) : {x = y} + {x <> y}.
Proof. decide equality; apply N.eq_dec. Qed.

(** [P'] is [P] with the reader behind [h] replaced. *)
Record put (P P' : pools) (h : handle) (x : bytes * reader) : Prop := mkPut {
  put_here : reader_at P' h = Some x;
  put_other : forall k, k <> h -> reader_at P' k = reader_at P k;
  put_s : keys (p_single P') = keys (p_single P);
  put_m : keys (p_multi P') = keys (p_multi P);
  put_k : keys (p_seek P') = keys (p_seek P) }.
Lemma put_same P h x : reader_at P h = Some x -> put P P h x.
Proof. intros H. constructor; auto. Qed.
Lemma put_single P i f s : In i (keys (p_single P)) ->
  put P (mkPools (im_set (p_single P) i (f, s)) (p_multi P) (p_seek P)) (HSingle i) (f, RS s).
Proof.
  intros H. constructor; cbn; try reflexivity.
  - rewrite im_get_set, N.eqb_refl by exact H. reflexivity.
  - intros [j|j|j] Hj; cbn; [|reflexivity|reflexivity]. rewrite im_get_set by exact H.
    destruct (N.eqb_spec j i) as [->|]; [congruence|reflexivity].
  - apply im_set_keys.
Qed.
Lemma put_multi P i f s : In i (keys (p_multi P)) ->
  put P (mkPools (p_single P) (im_set (p_multi P) i (f, s)) (p_seek P)) (HMulti i) (f, RM s).
Proof.
  intros H. constructor; cbn; try reflexivity.
  - rewrite im_get_set, N.eqb_refl by exact H. reflexivity.
  - intros [j|j|j] Hj; cbn; [reflexivity| |reflexivity]. rewrite im_get_set by exact H.
    destruct (N.eqb_spec j i) as [->|]; [congruence|reflexivity].
  - apply im_set_keys.
Qed.
Lemma put_seek P i f s : In i (keys (p_seek P)) ->
  put P (mkPools (p_single P) (p_multi P) (im_set (p_seek P) i (f, s))) (HSeek i) (f, RK s).
Proof.
  intros H. constructor; cbn; try reflexivity.
  - rewrite im_get_set, N.eqb_refl by exact H. reflexivity.
  - intros [j|j|j] Hj; cbn; [reflexivity|reflexivity|]. rewrite im_get_set by exact H.
    destruct (N.eqb_spec j i) as [->|]; [congruence|reflexivity].
  - apply im_set_keys.
Qed.
Lemma at_key P h x : reader_at P h = Some x -> in_pool P h.
Proof. intros H. apply has_in. unfold has. congruence. Qed.

(** An operation through a handle does what it does to a reader of one's own, and nothing to
    the others. *)
Lemma pool_next_ok P h f r cap retry io : reader_at P h = Some (f, r) ->
  exists P', pool_next P h cap retry io = Some (P', snd (reader_next f r cap retry io)) /\
             put P P' h (f, fst (reader_next f r cap retry io)).
Proof.
  intros H. pose proof (at_key _ _ _ H) as K. destruct h as [i|i|i]; cbn in H, K |- *.
  - destruct (im_get (p_single P) i) as [[f' s]|]; [|discriminate]. injection H as <- <-. cbn.
    destruct (single_next f' s cap retry io) as [s' o]. cbn. eexists. split; [reflexivity|]. apply put_single; exact K.
  - destruct (im_get (p_multi P) i) as [[f' s]|]; [|discriminate]. injection H as <- <-. cbn.
    destruct (multi_next f' s cap retry io) as [s' o]. cbn. eexists. split; [reflexivity|]. apply put_multi; exact K.
  - destruct (im_get (p_seek P) i) as [[f' s]|]; [|discriminate]. injection H as <- <-. cbn.
    destruct (seek_next f' s cap retry io) as [s' o]. cbn. eexists. split; [reflexivity|]. apply put_seek; exact K.
Qed.
Lemma pool_free_ok P h f r block : reader_at P h = Some (f, r) ->
  match reader_free r block with
  | (r', Some n) => exists P', pool_free P h block = Some (P', n) /\ put P P' h (f, r')
  | (_, None) => pool_free P h block = None
  end.
Proof.
  intros H. pose proof (at_key _ _ _ H) as K. destruct h as [i|i|i]; cbn in H, K |- *.
  - destruct (im_get (p_single P) i) as [[f' s]|]; [|discriminate]. injection H as <- <-. cbn.
    destruct (single_free s block) as [s' o]. cbn. eexists. split; [reflexivity|]. apply put_single; exact K.
  - destruct (im_get (p_multi P) i) as [[f' s]|]; [|discriminate]. injection H as <- <-. cbn.
    destruct (multi_free s block) as [s' o]. cbn. eexists. split; [reflexivity|]. apply put_multi; exact K.
  - destruct (im_get (p_seek P) i) as [[f' s]|]; [|discriminate]. injection H as <- <-. cbn.
    destruct (seek_free s block) as [s' [n|]]; cbn; [|reflexivity]. eexists. split; [reflexivity|]. apply put_seek; exact K.
Qed.
Lemma pool_finished_ok P h f r : reader_at P h = Some (f, r) -> pool_finished P h = Some (reader_finished r).
Proof.
  intros H. destruct h as [i|i|i]; cbn in H |- *.
  - destruct (im_get (p_single P) i) as [[f' s]|]; [|discriminate]. injection H as <- <-. reflexivity.
  - destruct (im_get (p_multi P) i) as [[f' s]|]; [|discriminate]. injection H as <- <-. reflexivity.
  - destruct (im_get (p_seek P) i) as [[f' s]|]; [|discriminate]. injection H as <- <-. reflexivity.
Qed.

(** ** The table of clients *)
Definition handle_of (e : pentry) : list handle := match pe_work e with XRead h => [h] | XWrite _ _ => [] end.
Definition handles_of (t : ptable) : list handle := concat (map (fun x => handle_of (snd x)) t).
Lemma handles_cons a e t : handles_of ((a, e) :: t) = handle_of e ++ handles_of t.
Proof. reflexivity. Qed.

(** A table of clients that own their readers, for a table with handles. *)
Definition Rel (P : pools) (t : ptable) (u : table) : Prop :=
  Forall2 (fun x y => fst x = fst y /\ view P (snd x) = Some (snd y)) t u.
Lemma view_frame P P' e : (forall h, In h (handle_of e) -> reader_at P' h = reader_at P h) -> view P' e = view P e.
Proof. unfold view, handle_of. destruct (pe_work e) as [h|]; [|reflexivity]. intros H. rewrite H by (left; reflexivity). reflexivity. Qed.
Lemma Rel_frame P P' t u : (forall h, In h (handles_of t) -> reader_at P' h = reader_at P h) -> Rel P t u -> Rel P' t u.
Proof.
  intros H R. induction R as [|[a e] [b x] t u [E V] R IH]; constructor.
  - split; [exact E|]. cbn in V |- *. rewrite <- V. apply view_frame. intros h Hh. apply H. rewrite handles_cons. apply in_or_app. auto.
  - apply IH. intros h Hh. apply H. rewrite handles_cons. apply in_or_app. auto.
Qed.
Lemma Rel_addrs P t u : Rel P t u -> map fst t = addrs u.
Proof. unfold addrs. induction 1 as [|x y t u [E _] R IH]; cbn; congruence. Qed.
Lemma Rel_length P t u : Rel P t u -> length t = length u.
Proof. intros R. apply Rel_addrs in R. unfold addrs in R. rewrite <- (map_length fst t), R, map_length. reflexivity. Qed.
Lemma Rel_find P t u a : Rel P t u ->
  match pfind t a with
  | Some e => exists x, find_entry u a = Some x /\ view P e = Some x
  | None => find_entry u a = None
  end.
Proof.
  induction 1 as [|[b e] [b' x] t u [E V] R IH]; cbn; [reflexivity|]. cbn in E, V. subst b'.
  destruct (a =? b); [eauto|exact IH].
Qed.

(** ** Sending *)
Lemma send_view P e x h buflen v : view P e = Some x -> pe_work e = XRead h ->
  exists P' c1 plain ok f r',
    pool_send_data_block P (pe_conn e) h buflen (e_now v) (e_io v) (e_sock v) (e_txt v) = Some (P', c1, plain, ok) /\
    send_client buflen x v = (mkE c1 (pe_key e) (WRead f r'), plain, ok) /\
    put P P' h (f, r').
Proof.
  intros V W. unfold view in V. rewrite W in V. destruct (reader_at P h) as [[f r]|] eqn:ER; [|discriminate].
  injection V as <-. unfold pool_send_data_block, send_client, send_data_block. cbn [en_work en_conn en_key].
  destruct (pool_next_ok P h f r (N.max buflen (DATA_PACKET_HEADER_SIZE + op_bs (c_opts (pe_conn e))) - DATA_PACKET_HEADER_SIZE)
    (retry_due (pe_conn e) (e_now v)) (e_io v) ER) as (P' & E & HP). rewrite E.
  destruct (reader_next f r _ _ _) as [r' res]. cbn [fst snd] in *.
  destruct res as [[b|]|[]|]; do 6 eexists; (split; [reflexivity|]); (split; [reflexivity|]); exact HP.
Qed.
Lemma view_put P P' e h f r c : pe_work e = XRead h -> put P P' h (f, r) ->
  view P' (mkPE c (pe_key e) (pe_work e)) = Some (mkE c (pe_key e) (WRead f r)).
Proof. intros W HP. unfold view. cbn. rewrite W, (put_here _ _ _ _ HP). reflexivity. Qed.
Lemma active_view P e x : view P e = Some x -> active x = is_reader e && negb (p_over e).
Proof.
  unfold view, active, is_reader, p_over. destruct (pe_work e) as [h|p w].
  - destruct (reader_at P h) as [[f r]|]; [|discriminate]. intros [= <-]. reflexivity.
  - intros [= <-]. reflexivity.
Qed.

(** The same pools but for the readers behind [l]. *)
Record same_but (l : list handle) (P P' : pools) : Prop := mkSame {
  sb_other : forall k, ~ In k l -> reader_at P' k = reader_at P k;
  sb_s : keys (p_single P') = keys (p_single P);
  sb_m : keys (p_multi P') = keys (p_multi P);
  sb_k : keys (p_seek P') = keys (p_seek P) }.
Lemma same_refl l P : same_but l P P.
Proof. constructor; auto. Qed.
Lemma same_trans l P1 P2 P3 : same_but l P1 P2 -> same_but l P2 P3 -> same_but l P1 P3.
Proof.
  intros A B. constructor.
  - intros k Hk. rewrite (sb_other _ _ _ B k Hk). exact (sb_other _ _ _ A k Hk).
  - rewrite (sb_s _ _ _ B). exact (sb_s _ _ _ A).
  - rewrite (sb_m _ _ _ B). exact (sb_m _ _ _ A).
  - rewrite (sb_k _ _ _ B). exact (sb_k _ _ _ A).
Qed.
Lemma same_weaken l l' P P' : incl l l' -> same_but l P P' -> same_but l' P P'.
Proof. intros I A. destruct A. constructor; auto. Qed.
Lemma put_same_but P P' h x : put P P' h x -> same_but [h] P P'.
Proof. intros [A B C D E]. constructor; auto. intros k Hk. apply B. intros ->. apply Hk. left; reflexivity. Qed.

Lemma z_pass_ok buflen try v : forall t k P u, NoDup (handles_of t) -> Rel P t u ->
  exists P' t' o r u', z_pass buflen try v k P t = Some (P', t', o, r) /\ pass buflen try v k u = (u', o, r) /\
    Rel P' t' u' /\ handles_of t' = handles_of t /\ map fst t' = map fst t /\ same_but (handles_of t) P P'.
Proof.
  induction t as [|[a e] t IH]; intros k P u ND R.
  - inversion R; subst. cbn. do 5 eexists. do 5 (split; [try reflexivity; try constructor|]). apply same_refl.
  - inversion R as [|? [a' x] ? u0 [Ea V] R']; subst. cbn in Ea, V. subst a'. rewrite handles_cons in ND.
    assert (NDt : NoDup (handles_of t)) by (clear -ND; induction (handle_of e); [exact ND|inversion ND; auto]).
    cbn [z_pass pass]. rewrite (active_view _ _ _ V). unfold is_reader.
    assert (Hskip : forall k', exists P' t' o r u',
      match z_pass buflen try v k' P t with None => None | Some (P2, t1, o, r) => Some (P2, (a, e) :: t1, o, r) end = Some (P', t', o, r) /\
      (let '(t1, o, r) := pass buflen try v k' u0 in ((a, x) :: t1, o, r)) = (u', o, r) /\
      Rel P' t' u' /\ handles_of t' = handles_of ((a, e) :: t) /\ map fst t' = map fst ((a, e) :: t) /\
      same_but (handles_of ((a, e) :: t)) P P').
    { intros k'. destruct (IH k' P u0 NDt R') as (P' & t' & o & r & u' & E1 & E2 & E3 & E4 & E5 & E6).
      rewrite E1, E2. do 5 eexists. split; [reflexivity|]. split; [reflexivity|]. split.
      - constructor; [|exact E3]. split; [reflexivity|]. cbn [snd]. rewrite <- V. apply view_frame.
        intros h Hh. apply (sb_other _ _ _ E6). intros Hin.
        unfold handle_of in *. destruct (pe_work e); [|destruct Hh]. destruct Hh as [<-|[]]. cbn in ND. inversion ND; auto.
      - rewrite !handles_cons. split; [congruence|]. split; [cbn; congruence|].
        eapply same_weaken; [|exact E6]. intros h Hh. apply in_or_app. auto. }
    destruct (pe_work e) as [h|path w] eqn:EW; [|cbn [andb]; apply Hskip].
    destruct (negb (p_over e)); cbn [andb]; [|apply Hskip].
    destruct (try k); [|apply Hskip].
    destruct (send_view P e x h buflen (v a) V EW) as (P1 & c1 & plain & ok & f & r' & E1 & E2 & HP).
    rewrite E1, E2.
    assert (Hh : handle_of e = [h]) by (unfold handle_of; rewrite EW; reflexivity). rewrite Hh in ND. cbn in ND.
    assert (Hni : ~ In h (handles_of t)) by (inversion ND; assumption).
    assert (R1 : Rel P1 t u0).
    { eapply Rel_frame; [|exact R']. intros k' Hk. apply (put_other _ _ _ _ HP). intros ->. auto. }
    assert (Hh1 : handle_of (mkPE c1 (pe_key e) (XRead h)) = handle_of e) by (rewrite Hh; reflexivity).
    assert (S1 : same_but (handles_of ((a, e) :: t)) P P1).
    { eapply same_weaken; [|eapply put_same_but; exact HP]. rewrite handles_cons, Hh. intros q [<-|[]]. left; reflexivity. }
    assert (V1 : view P1 (mkPE c1 (pe_key e) (XRead h)) = Some (mkE c1 (pe_key e) (WRead f r'))).
    { rewrite <- EW. eapply view_put; eassumption. }
    destruct ok.
    + do 5 eexists. split; [reflexivity|]. split; [reflexivity|]. split; [constructor; [|exact R1]; cbn; auto|].
      rewrite !handles_cons, Hh1. do 2 (split; [reflexivity|]). exact S1.
    + destruct (IH (k + 1) P1 u0 NDt R1) as (P' & t' & o & r & u' & F1 & F2 & F3 & F4 & F5 & F6).
      rewrite F1, F2. do 5 eexists. split; [reflexivity|]. split; [reflexivity|]. split.
      * constructor; [|exact F3]. split; [reflexivity|]. cbn [snd]. rewrite <- V1. apply view_frame.
        intros q [<-|[]]. apply (sb_other _ _ _ F6). exact Hni.
      * rewrite !handles_cons, Hh1. split; [congruence|]. split; [cbn; congruence|].
        eapply same_trans; [exact S1|]. eapply same_weaken; [|exact F6]. intros q Hq. apply in_or_app. auto.
Qed.

(** ** Cleaning up *)
(** The pools hold exactly the readers of the clients in [t]. *)
Record Owned (P : pools) (l : list handle) : Prop := mkOwned {
  ow_in : forall h, in_pool P h <-> In h l;
  ow_nd : NoDup l;
  ow_s : NoDup (keys (p_single P)); ow_m : NoDup (keys (p_multi P)); ow_k : NoDup (keys (p_seek P)) }.
Lemma pool_drop_ok P h l : Owned P (h :: l) ->
  Owned (pool_drop P h) l /\ (forall k, k <> h -> reader_at (pool_drop P h) k = reader_at P k) /\
  (length (p_single (pool_drop P h)) <= length (p_single P))%nat /\
  (length (p_multi (pool_drop P h)) <= length (p_multi P))%nat /\
  (length (p_seek (pool_drop P h)) <= length (p_seek P))%nat.
Proof.
  intros [I ND NS NM NK]. assert (K : in_pool P h) by (apply I; left; reflexivity).
  inversion ND as [|? ? Hni ND']; subst.
  assert (Hdrop : (forall k, k <> h -> reader_at (pool_drop P h) k = reader_at P k) /\ reader_at (pool_drop P h) h = None /\
    NoDup (keys (p_single (pool_drop P h))) /\ NoDup (keys (p_multi (pool_drop P h))) /\ NoDup (keys (p_seek (pool_drop P h))) /\
    (length (p_single (pool_drop P h)) <= length (p_single P))%nat /\
    (length (p_multi (pool_drop P h)) <= length (p_multi P))%nat /\
    (length (p_seek (pool_drop P h)) <= length (p_seek P))%nat).
  { destruct h as [i|i|i]; cbn in K |- *.
    - destruct (im_remove_spec _ i NS K) as (A & B & C). split; [|split; [rewrite C, N.eqb_refl; reflexivity|split; [exact A|auto with arith]]].
      + intros [j|j|j] Hj; cbn; [|reflexivity|reflexivity]. rewrite C. destruct (N.eqb_spec j i) as [->|]; [congruence|reflexivity].
      + do 2 (split; [assumption|]). lia.
    - destruct (im_remove_spec _ i NM K) as (A & B & C). split; [|split; [rewrite C, N.eqb_refl; reflexivity|]].
      + intros [j|j|j] Hj; cbn; [reflexivity| |reflexivity]. rewrite C. destruct (N.eqb_spec j i) as [->|]; [congruence|reflexivity].
      + do 3 (split; [assumption|]). lia.
    - destruct (im_remove_spec _ i NK K) as (A & B & C). split; [|split; [rewrite C, N.eqb_refl; reflexivity|]].
      + intros [j|j|j] Hj; cbn; [reflexivity|reflexivity|]. rewrite C. destruct (N.eqb_spec j i) as [->|]; [congruence|reflexivity].
      + do 3 (split; [assumption|]). lia. }
  destruct Hdrop as (A & B & C & D & E & L). split; [|split; [exact A|exact L]].
  constructor; [|exact ND'|exact C|exact D|exact E]. intros k. rewrite <- has_in. unfold has.
  destruct (handle_dec k h) as [->|Hne].
  - rewrite B. split; [congruence|]. intros Hin. exfalso. auto.
  - rewrite A by exact Hne. fold (has P k). rewrite has_in, I. cbn. split; [intros [->|H]; [congruence|exact H]|auto].
Qed.
Lemma Owned_perm P l l' : (forall h, In h l <-> In h l') -> NoDup l' -> Owned P l -> Owned P l'.
Proof. intros H ND [A B C D E]. constructor; auto. intros h. rewrite A. apply H. Qed.

Lemma timeout_view P e x : view P e = Some x -> en_conn x = pe_conn e.
Proof.
  unfold view. destruct (pe_work e) as [h|]; [destruct (reader_at P h) as [[f r]|]; [|discriminate]|]; intros [= <-]; reflexivity.
Qed.
Definition within (P : pools) : Prop :=
  (length (p_single P) <= 64)%nat /\ (length (p_multi P) <= 8)%nat /\ (length (p_seek P) <= 64)%nat.
Lemma z_retain_ok timeout v : forall t P u pre, Rel P t u -> Owned P (pre ++ handles_of t) -> within P ->
  exists P' t' o u', z_retain P t timeout v = (P', t', o) /\ retain u timeout v = (u', o) /\
    Rel P' t' u' /\ Owned P' (pre ++ handles_of t') /\ (forall h, In h pre -> reader_at P' h = reader_at P h) /\ within P'.
Proof.
  induction t as [|[a e] t IH]; intros P u pre R O W.
  - inversion R; subst. cbn [z_retain retain]. exists P, [], [], [].
    do 2 (split; [reflexivity|]). split; [constructor|]. split; [exact O|]. split; [reflexivity|exact W].
  - inversion R as [|? [a' x] ? u0 [Ea V] R']; subst. cbn in Ea, V. subst a'. cbn [z_retain retain].
    rewrite (timeout_view _ _ _ V).
    destruct (timeout_client (pe_conn e) timeout (e_now (v a)) (e_sock (v a)) (e_txt (v a))) as [drop plain].
    rewrite handles_cons in O. destruct drop.
    + assert (H : exists P0, drop_work P (pe_work e) = P0 /\ Owned P0 (pre ++ handles_of t) /\
        (forall h, In h (pre ++ handles_of t) -> reader_at P0 h = reader_at P h) /\ within P0).
      { unfold handle_of in O. destruct (pe_work e) as [h|path w]; cbn [drop_work].
        - eexists. split; [reflexivity|].
          assert (O' : Owned P (h :: pre ++ handles_of t)).
          { eapply Owned_perm; [| |exact O].
            - intros k. cbn. rewrite !in_app_iff. cbn. tauto.
            - pose proof (ow_nd _ _ O) as ND. cbn in ND. apply NoDup_remove in ND as [ND1 ND2]. constructor; assumption. }
          destruct (pool_drop_ok P h _ O') as (A & B & L). split; [exact A|]. split.
          + intros k Hk. apply B. intros ->. pose proof (ow_nd _ _ O') as ND. inversion ND; auto.
          + unfold within in *. lia.
        - eexists. split; [reflexivity|]. split; [exact O|]. split; [intros h _; reflexivity|exact W]. }
      destruct H as (P0 & -> & O0 & F0 & W0).
      assert (R0 : Rel P0 t u0).
      { eapply Rel_frame; [|exact R']. intros h Hh. apply F0. apply in_or_app. auto. }
      destruct (IH P0 u0 pre R0 O0 W0) as (P' & t' & o & u' & E1 & E2 & E3 & E4 & E5 & E6).
      rewrite E1, E2. do 4 eexists. split; [reflexivity|]. split; [reflexivity|]. split; [exact E3|]. split; [exact E4|].
      split; [|exact E6]. intros h Hh. rewrite E5 by exact Hh. apply F0. apply in_or_app. auto.
    + assert (O' : Owned P ((pre ++ handle_of e) ++ handles_of t)) by (rewrite <- app_assoc; exact O).
      destruct (IH P u0 (pre ++ handle_of e) R' O' W) as (P' & t' & o & u' & E1 & E2 & E3 & E4 & E5 & E6).
      rewrite E1, E2. do 4 eexists. split; [reflexivity|]. split; [reflexivity|]. split.
      * constructor; [|exact E3]. split; [reflexivity|]. cbn [snd]. rewrite <- V. apply view_frame.
        intros h Hh. apply E5. apply in_or_app. auto.
      * rewrite handles_cons. split; [rewrite <- app_assoc in E4; exact E4|]. split; [|exact E6].
        intros h Hh. apply E5. apply in_or_app. auto.
Qed.

(** ** Receiving *)
Lemma view_key P e x : view P e = Some x -> en_key x = pe_key e.
Proof.
  unfold view. destruct (pe_work e) as [h|]; [destruct (reader_at P h) as [[f r]|]; [|discriminate]|]; intros [= <-]; reflexivity.
Qed.
Lemma read_view dec P c h wire now f r : reader_at P h = Some (f, r) ->
  match handle_read dec c r wire now with
  | (k, r', Some _) => exists P', pool_handle_read dec P c h wire now = Some (P', k) /\ put P P' h (f, r')
  | (_, _, None) => pool_handle_read dec P c h wire now = None
  end.
Proof.
  intros H. unfold handle_read, pool_handle_read.
  assert (S : forall k : conn, exists P', Some (P, k) = Some (P', k) /\ put P P' h (f, r)).
  { intros k. eexists. split; [reflexivity|]. apply put_same. exact H. }
  destruct (dec wire) as [p|]; [|apply S].
  destruct (from_bytes p) as [[q|q|b x|b|co m|m]| |]; try apply S.
  pose proof (pool_free_ok P h f r b H) as F. destruct (reader_free r b) as [r' [n|]].
  - destruct F as (P' & -> & HP). rewrite (pool_finished_ok P' h f r' (put_here _ _ _ _ HP)).
    eexists. split; [reflexivity|exact HP].
  - rewrite F. reflexivity.
Qed.
Lemma handle_view c max P e x wire v : view P e = Some x ->
  match handle_client c max x wire v with
  | None => z_handle_client c max P e wire v = None
  | Some (x', plain) => exists P' e', z_handle_client c max P e wire v = Some (P', e', plain) /\
      view P' e' = Some x' /\ handle_of e' = handle_of e /\ same_but (handle_of e) P P'
  end.
Proof.
  intros V. pose proof (timeout_view _ _ _ V) as EC. pose proof (view_key _ _ _ V) as EK.
  unfold handle_client, z_handle_client.
  assert (D : entry_decrypt c x wire = p_decrypt c e wire) by (unfold entry_decrypt, p_decrypt; rewrite EC, EK; reflexivity).
  assert (D' : entry_dec c x = p_dec c e).
  { unfold entry_dec, p_dec, entry_decrypt, p_decrypt. rewrite EC, EK. reflexivity. }
  rewrite D, D'. unfold view in V. unfold handle_of.
  destruct (pe_work e) as [h|path w] eqn:EW.
  - destruct (reader_at P h) as [[f r]|] eqn:ER; [|discriminate]. injection V as <-. cbn [en_work en_conn en_key].
    pose proof (read_view (p_dec c e) P (pe_conn e) h wire (e_now v) f r ER) as H.
    destruct (p_decrypt c e wire); [| |reflexivity].
    + destruct (handle_read _ _ _ _ _) as [[k r'] [u|]]; [|rewrite H; reflexivity].
      destruct H as (P' & -> & HP). do 2 eexists. split; [reflexivity|]. split; [|split; [reflexivity|eapply put_same_but; exact HP]].
      unfold view. cbn. rewrite (put_here _ _ _ _ HP). reflexivity.
    + destruct (handle_read _ _ _ _ _) as [[k r'] [u|]]; [|rewrite H; reflexivity].
      destruct H as (P' & -> & HP). do 2 eexists. split; [reflexivity|]. split; [|split; [reflexivity|eapply put_same_but; exact HP]].
      unfold view. cbn. rewrite (put_here _ _ _ _ HP). reflexivity.
  - injection V as <-. cbn [en_work en_conn en_key].
    destruct (handle_write _ _ _ _ _ _ _ _ _ _) as [[k w'] plain].
    destruct (p_decrypt c e wire); [| |reflexivity];
      (do 2 eexists; split; [reflexivity|]; split; [reflexivity|]; split; [reflexivity|apply same_refl]).
Qed.

Lemma pfind_split t a e : pfind t a = Some e -> exists t1 t2, t = t1 ++ (a, e) :: t2 /\
  forall e', pupdate t a e' = t1 ++ (a, e') :: t2.
Proof.
  induction t as [|[b y] t IH]; cbn; [discriminate|]. destruct (N.eqb_spec a b) as [->|Hne].
  - intros [= ->]. exists [], t. auto.
  - intros H. destruct (IH H) as (t1 & t2 & -> & U). exists ((b, y) :: t1), t2. split; [reflexivity|]. intros e'. rewrite U. reflexivity.
Qed.
Lemma handles_app t1 t2 : handles_of (t1 ++ t2) = handles_of t1 ++ handles_of t2.
Proof. unfold handles_of. rewrite map_app, concat_app. reflexivity. Qed.
Lemma update_view P P' t u a e e' x' : NoDup (handles_of t) -> Rel P t u -> pfind t a = Some e -> view P' e' = Some x' ->
  handle_of e' = handle_of e -> same_but (handle_of e) P P' ->
  Rel P' (pupdate t a e') (update_entry u a x') /\ handles_of (pupdate t a e') = handles_of t.
Proof.
  intros ND R F V H S. split.
  - revert ND F. induction R as [|[b y] [b' z] t u [E W] R IH]; cbn [pfind pupdate update_entry]; intros ND F; [discriminate|]. cbn in E, W. subst b'.
    rewrite handles_cons in ND. destruct (N.eqb_spec a b) as [->|Hne].
    + injection F as ->. constructor; [cbn; auto|]. eapply Rel_frame; [|exact R].
      intros h Hh. apply (sb_other _ _ _ S). intros Hin. unfold handle_of in ND, Hin. destruct (pe_work e); [|destruct Hin].
      destruct Hin as [->|[]]. cbn in ND. inversion ND; auto.
    + constructor.
      * split; [reflexivity|]. cbn [snd]. rewrite <- W. apply view_frame. intros h Hh. apply (sb_other _ _ _ S). intros Hin.
        assert (Hin' : In h (handles_of t)).
        { destruct (pfind_split _ _ _ F) as (t1 & t2 & -> & _). rewrite handles_app, handles_cons. apply in_or_app. right. apply in_or_app. auto. }
        unfold handle_of in ND, Hh. destruct (pe_work y); [|destruct Hh]. destruct Hh as [->|[]]. cbn in ND. inversion ND; auto.
      * apply IH; [|exact F]. clear -ND. induction (handle_of y); [exact ND|inversion ND; auto].
  - destruct (pfind_split _ _ _ F) as (t1 & t2 & -> & U). rewrite U, !handles_app, !handles_cons, H. reflexivity.
Qed.

(** ** New readers *)
Lemma pool_from_ok P f r l : Owned P l -> within P ->
  match r with RS _ => (length (p_single P) < 64)%nat | RM _ => (length (p_multi P) < 8)%nat | RK _ => (length (p_seek P) < 64)%nat end ->
  exists P' h, pool_from P f r = Some (P', h) /\ Owned P' (h :: l) /\ within P' /\ reader_at P' h = Some (f, r) /\
    (forall k, k <> h -> reader_at P' k = reader_at P k) /\
    (length (p_single P') + length (p_multi P') + length (p_seek P') =
     S (length (p_single P) + length (p_multi P) + length (p_seek P)))%nat.
Proof.
  intros [I ND NS NM NK] (L1 & L2 & L3) H.
  assert (G : forall V (m : imap V) cap v, (cap <= 64)%nat -> (length m < cap)%nat -> NoDup (keys m) ->
    exists i, free_index m = Some i /\ ~ In i (keys m) /\ im_insert cap m i v = Some (m ++ [(i, v)]) /\ NoDup (keys (m ++ [(i, v)])) /\
      forall j, im_get (m ++ [(i, v)]) j = if j =? i then Some v else im_get m j).
  { intros V m cap v Hc Hl Hn. destruct (free_index_some m) as (i & E & Hi); [lia|]. exists i. split; [exact E|]. split; [exact Hi|].
    unfold im_insert. assert (C : im_contains m i = false).
    { destruct (im_contains m i) eqn:C; [|reflexivity]. apply im_contains_spec in C. contradiction. }
    rewrite C. destruct (Nat.ltb_spec (length m) cap); [|lia]. split; [reflexivity|]. split.
    - rewrite keys_app. apply (Permutation.Permutation_NoDup (l := i :: keys m)); [apply Permutation.Permutation_cons_append|constructor; assumption].
    - intros j. rewrite im_get_app. destruct (N.eqb_spec j i) as [->|]; [rewrite (proj2 (im_get_none m i) Hi); reflexivity|].
      destruct (im_get m j); reflexivity. }
  assert (Fin : forall P' h, (forall k, k <> h -> reader_at P' k = reader_at P k) -> reader_at P' h <> None ->
    ~ in_pool P h -> NoDup (keys (p_single P')) -> NoDup (keys (p_multi P')) -> NoDup (keys (p_seek P')) -> Owned P' (h :: l)).
  { intros P' h A B C D E F. constructor; [|constructor; [|exact ND]|exact D|exact E|exact F].
    - intros k. rewrite <- has_in. unfold has. destruct (handle_dec k h) as [->|Hne]; [cbn; tauto|].
      rewrite A by exact Hne. fold (has P k). rewrite has_in, I. cbn. split; [auto|intros [->|X]; [congruence|exact X]].
    - rewrite <- I. exact C. }
  unfold pool_from, within, MAX_SINGLE_READERS, MAX_MULTI_READERS, MAX_MULTI_SEEK_READERS. destruct r as [s|s|s].
  - destruct (G _ (p_single P) 64%nat (f, s)) as (i & E1 & E2 & E3 & E4 & E5); [lia|exact H|exact NS|]. rewrite E1, E3.
    do 2 eexists. split; [reflexivity|]. split; [|split; [cbn; rewrite app_length; cbn; lia|split; [cbn; rewrite E5, N.eqb_refl; reflexivity|split]]].
    + apply Fin; cbn; auto; [|rewrite E5, N.eqb_refl; discriminate].
      intros [j|j|j] Hj; cbn; [|reflexivity|reflexivity]. rewrite E5. destruct (N.eqb_spec j i) as [->|]; [congruence|reflexivity].
    + intros [j|j|j] Hj; cbn; [|reflexivity|reflexivity]. rewrite E5. destruct (N.eqb_spec j i) as [->|]; [congruence|reflexivity].
    + cbn. rewrite app_length. cbn. lia.
  - destruct (G _ (p_multi P) 8%nat (f, s)) as (i & E1 & E2 & E3 & E4 & E5); [lia|exact H|exact NM|]. rewrite E1, E3.
    do 2 eexists. split; [reflexivity|]. split; [|split; [cbn; rewrite app_length; cbn; lia|split; [cbn; rewrite E5, N.eqb_refl; reflexivity|split]]].
    + apply Fin; cbn; auto; [|rewrite E5, N.eqb_refl; discriminate].
      intros [j|j|j] Hj; cbn; [reflexivity| |reflexivity]. rewrite E5. destruct (N.eqb_spec j i) as [->|]; [congruence|reflexivity].
    + intros [j|j|j] Hj; cbn; [reflexivity| |reflexivity]. rewrite E5. destruct (N.eqb_spec j i) as [->|]; [congruence|reflexivity].
    + cbn. rewrite app_length. cbn. lia.
  - destruct (G _ (p_seek P) 64%nat (f, s)) as (i & E1 & E2 & E3 & E4 & E5); [lia|exact H|exact NK|]. rewrite E1, E3.
    do 2 eexists. split; [reflexivity|]. split; [|split; [cbn; rewrite app_length; cbn; lia|split; [cbn; rewrite E5, N.eqb_refl; reflexivity|split]]].
    + apply Fin; cbn; auto; [|rewrite E5, N.eqb_refl; discriminate].
      intros [j|j|j] Hj; cbn; [reflexivity|reflexivity|]. rewrite E5. destruct (N.eqb_spec j i) as [->|]; [congruence|reflexivity].
    + intros [j|j|j] Hj; cbn; [reflexivity|reflexivity|]. rewrite E5. destruct (N.eqb_spec j i) as [->|]; [congruence|reflexivity].
    + cbn. rewrite app_length. cbn. lia.
Qed.
