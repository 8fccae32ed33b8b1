From Verif Require Import Base BaseProofs PacketModel MapperModel ReaderModel ConfigModel CryptoModel ExtModel ConnModel
  HandshakeModel ConnSpec ServerModel ServerSpec.
From Coq Require Import Sorting.Sorted.

(** ** Tables *)
Definition addrs {A} (t : list (addr * A)) : list addr := map fst t.
Definition sorted {A} (t : list (addr * A)) : Prop := StronglySorted N.lt (addrs t).

Lemma sorted_nodup {A} (t : list (addr * A)) : sorted t -> NoDup (addrs t).
Proof.
  unfold sorted. induction 1 as [|a l S IH F]; constructor; [|exact IH].
  intros Hin. pose proof (proj1 (Forall_forall _ _) F _ Hin). lia.
Qed.
Lemma sorted_filter {A} (f : addr * A -> bool) t : sorted t -> sorted (filter f t).
Proof.
  unfold sorted, addrs. induction t as [|x t IH]; cbn; intros S; [constructor|].
  inversion S as [|? ? S' F]; subst. specialize (IH S'). destruct (f x); [|exact IH].
  cbn. constructor; [exact IH|]. apply Forall_forall. intros y Hy. apply in_map_iff in Hy as (z & <- & Hz).
  apply filter_In in Hz as [Hz _]. eapply Forall_forall in F; [exact F|]. apply in_map. exact Hz.
Qed.

Lemma find_in t a e : find_entry t a = Some e -> In (a, e) t.
Proof.
  induction t as [|[b x] t IH]; cbn; [discriminate|]. destruct (N.eqb_spec a b) as [->|].
  - intros [= ->]. left; reflexivity.
  - intros H. right. auto.
Qed.
Lemma find_none t a : find_entry t a = None <-> ~ In a (addrs t).
Proof.
  unfold addrs. induction t as [|[b x] t IH]; cbn; [tauto|]. destruct (N.eqb_spec a b) as [->|Hne].
  - split; [discriminate|]. intros H. exfalso. auto.
  - rewrite IH. split; [intros H [E|E]; [congruence|auto]|auto].
Qed.
Lemma in_find t a e : NoDup (addrs t) -> In (a, e) t -> find_entry t a = Some e.
Proof.
  unfold addrs. induction t as [|[b x] t IH]; cbn; [tauto|]. intros N [E|E].
  - injection E as -> ->. rewrite N.eqb_refl. reflexivity.
  - inversion N; subst. destruct (N.eqb_spec a b) as [->|]; [|auto].
    exfalso. apply H1. change b with (fst (b, e)). apply in_map. exact E.
Qed.

Lemma insert_addrs t a e : forall x, In x (addrs (insert_entry t a e)) <-> x = a \/ In x (addrs t).
Proof.
  unfold addrs. induction t as [|[b y] t IH]; intros x; cbn; [intuition congruence|].
  destruct (a <? b); cbn; [intuition congruence|]. rewrite IH. intuition congruence.
Qed.
Lemma insert_sorted t a e : sorted t -> find_entry t a = None -> sorted (insert_entry t a e).
Proof.
  unfold sorted. induction t as [|[b y] t IH]; cbn; intros S F; [repeat constructor|].
  destruct (N.eqb_spec a b) as [->|Hne]; [discriminate|]. inversion S as [|? ? S' FA]; subst.
  destruct (N.ltb_spec a b) as [Hlt|Hge]; cbn.
  - constructor; [exact S|]. constructor; [exact Hlt|]. eapply Forall_impl; [|exact FA]. intros z Hz. cbn in Hz. lia.
  - constructor; [apply IH; assumption|]. apply Forall_forall. intros z Hz. apply insert_addrs in Hz as [->|Hz]; [lia|].
    eapply Forall_forall in FA; eassumption.
Qed.
Lemma insert_length t a e : length (insert_entry t a e) = S (length t).
Proof. induction t as [|[b y] t IH]; cbn; [reflexivity|]. destruct (a <? b); cbn; [reflexivity|]. rewrite IH. reflexivity. Qed.
Lemma find_insert t a e b : find_entry t a = None ->
  find_entry (insert_entry t a e) b = if b =? a then Some e else find_entry t b.
Proof.
  induction t as [|[d y] t IH]; cbn.
  - intros _. destruct (b =? a); reflexivity.
  - destruct (N.eqb_spec a d) as [->|Hne]; [discriminate|]. intros F.
    destruct (a <? d); cbn; [reflexivity|]. rewrite IH by exact F.
    destruct (N.eqb_spec b d) as [->|]; [|reflexivity]. destruct (N.eqb_spec d a) as [->|]; [congruence|reflexivity].
Qed.
Lemma update_addrs t a e : addrs (update_entry t a e) = addrs t.
Proof. unfold addrs. induction t as [|[b y] t IH]; cbn; [reflexivity|]. destruct (a =? b); cbn; congruence. Qed.
Lemma find_update t a e b : find_entry t a <> None ->
  find_entry (update_entry t a e) b = if b =? a then Some e else find_entry t b.
Proof.
  induction t as [|[d y] t IH]; cbn; [congruence|].
  destruct (N.eqb_spec a d) as [->|Hne]; cbn.
  - intros _. destruct (b =? d); reflexivity.
  - intros F. rewrite IH by exact F. destruct (N.eqb_spec b d) as [->|]; [|reflexivity].
    destruct (N.eqb_spec d a); [congruence|reflexivity].
Qed.

(** ** Outputs *)
Lemma sent_to_app a o1 o2 : sent_to a (o1 ++ o2) = sent_to a o1 ++ sent_to a o2.
Proof. unfold sent_to. rewrite filter_app, map_app. reflexivity. Qed.
Lemma sent_to_plains a b l : sent_to a (plains b l) = if b =? a then map OPlain l else [].
Proof.
  unfold sent_to, plains. induction l as [|x l IH]; cbn; [destruct (b =? a); reflexivity|].
  destruct (N.eqb_spec b a) as [->|]; cbn; [|exact IH]. rewrite IH. reflexivity.
Qed.
Lemma sent_to_wire a b r : sent_to a (match r with Some w => [(b, OWire w)] | None => [] end) =
  if b =? a then match r with Some w => [OWire w] | None => [] end else [].
Proof. destruct r; cbn; [|destruct (b =? a); reflexivity]. destruct (b =? a); reflexivity. Qed.

(** ** retain *)
Lemma retain_clients_spec t timeout v t' o : retain t timeout v = (t', o) -> NoDup (addrs t) ->
  t' = filter (fun x => negb (fst (timeout_client (en_conn (snd x)) timeout (e_now (v (fst x))) (e_sock (v (fst x))) (e_txt (v (fst x)))))) t /\
  forall a, sent_to a o = match find_entry t a with
    | Some e => map OPlain (snd (timeout_client (en_conn e) timeout (e_now (v a)) (e_sock (v a)) (e_txt (v a))))
    | None => [] end.
Proof.
  revert t' o. induction t as [|[b e] t IH]; cbn; intros t' o E ND.
  - injection E as <- <-. split; [reflexivity|]. intros a. reflexivity.
  - destruct (timeout_client (en_conn e) _ _ _ _) as [drop plain] eqn:ET.
    destruct (retain t timeout v) as [t1 o1] eqn:ER. inversion ND as [|? ? Hni ND']; subst.
    destruct (IH _ _ eq_refl ND') as [-> Ho]. injection E as <- <-. split.
    + destruct drop; reflexivity.
    + intros a. rewrite sent_to_app, sent_to_plains, Ho. destruct (N.eqb_spec b a) as [->|Hne].
      * rewrite N.eqb_refl, ET. rewrite (proj2 (find_none t a) Hni). cbn. apply app_nil_r.
      * destruct (N.eqb_spec a b); [congruence|]. reflexivity.
Qed.
Lemma find_filter f (t : table) a : NoDup (addrs t) ->
  find_entry (filter f t) a = match find_entry t a with Some e => if f (a, e) then Some e else None | None => None end.
Proof.
  unfold addrs. induction t as [|[b e] t IH]; cbn; intros ND; [reflexivity|].
  inversion ND as [|? ? Hni ND']; subst. destruct (N.eqb_spec a b) as [->|Hne].
  - destruct (f (b, e)); cbn; [rewrite N.eqb_refl; reflexivity|]. rewrite IH by assumption.
    rewrite (proj2 (find_none t b) Hni). reflexivity.
  - destruct (f (b, e)); cbn; [|apply IH; assumption].
    destruct (N.eqb_spec a b); [congruence|]. apply IH; assumption.
Qed.

(** ** pass *)
Lemma pass_addrs buflen try v : forall t k t' o r, pass buflen try v k t = (t', o, r) -> addrs t' = addrs t.
Proof.
  unfold addrs. induction t as [|[b e] t IH]; cbn; intros k t' o r E; [injection E as <- _ _; reflexivity|].
  destruct (active e).
  - destruct (try k).
    + destruct (send_client buflen e (v b)) as [[e1 plain] ok]. destruct ok; [injection E as <- _ _; reflexivity|].
      destruct (pass buflen try v (k + 1) t) as [[t1 o1] r1] eqn:EP. injection E as <- _ _. cbn. f_equal. eapply IH; eassumption.
    + destruct (pass buflen try v (k + 1) t) as [[t1 o1] r1] eqn:EP. injection E as <- _ _. cbn. f_equal. eapply IH; eassumption.
  - destruct (pass buflen try v k t) as [[t1 o1] r1] eqn:EP. injection E as <- _ _. cbn. f_equal. eapply IH; eassumption.
Qed.
(** Position of an address among the active clients. *)
Fixpoint rank (t : table) (k : N) (a : addr) : option N :=
  match t with
  | [] => None
  | (b, e) :: t' => if a =? b then (if active e then Some k else None) else rank t' (if active e then k + 1 else k) a
  end.
Lemma pass_nil buflen try v : forall t k t' o r a, pass buflen try v k t = (t', o, r) -> ~ In a (addrs t) -> sent_to a o = [].
Proof.
  unfold addrs. induction t as [|[b e] t IH]; cbn; intros k t' o r a E Hn; [injection E as _ <- _; reflexivity|].
  assert (Hb : (b =? a) = false) by (destruct (N.eqb_spec b a); [subst; tauto|reflexivity]).
  destruct (active e).
  - destruct (try k).
    + destruct (send_client buflen e (v b)) as [[e1 plain] ok]. destruct ok.
      { injection E as _ <- _. rewrite sent_to_plains, Hb. reflexivity. }
      destruct (pass buflen try v (k + 1) t) as [[t1 o1] r1] eqn:EP. injection E as _ <- _.
      rewrite sent_to_app, sent_to_plains, Hb. cbn. eapply IH; [exact EP|tauto].
    + destruct (pass buflen try v (k + 1) t) as [[t1 o1] r1] eqn:EP. injection E as _ <- _. eapply IH; [exact EP|tauto].
  - destruct (pass buflen try v k t) as [[t1 o1] r1] eqn:EP. injection E as _ <- _. eapply IH; [exact EP|tauto].
Qed.

(** What a pass does to the client at [a]: nothing, or one attempt to send. *)
Lemma pass_own buflen try v a : forall t k t' o r, pass buflen try v k t = (t', o, r) -> NoDup (addrs t) ->
  (find_entry t' a = find_entry t a /\ sent_to a o = []) \/
  (exists e j e' plain ok, find_entry t a = Some e /\ active e = true /\ rank t k a = Some j /\ try j = true /\
     send_client buflen e (v a) = (e', plain, ok) /\ find_entry t' a = Some e' /\ sent_to a o = map OPlain plain).
Proof.
  unfold addrs. induction t as [|[b e] t IH]; cbn; intros k t' o r E ND; [injection E as <- <- _; auto|].
  inversion ND as [|? ? Hni ND']; subst.
  assert (Hskip : forall k1 t1 o1 r1 e1, pass buflen try v k1 t = (t1, o1, r1) -> a <> b ->
    k1 = (if active e then k + 1 else k) ->
    (find_entry ((b, e1) :: t1) a = find_entry ((b, e) :: t) a /\ sent_to a o1 = []) \/
    (exists e0 j e' plain ok, find_entry ((b, e) :: t) a = Some e0 /\ active e0 = true /\
       rank ((b, e) :: t) k a = Some j /\ try j = true /\
       send_client buflen e0 (v a) = (e', plain, ok) /\ find_entry ((b, e1) :: t1) a = Some e' /\ sent_to a o1 = map OPlain plain)).
  { intros k1 t1 o1 r1 e1 EP Hne ->. cbn. destruct (N.eqb_spec a b); [congruence|]. eapply IH; eassumption. }
  cbn in Hskip.
  destruct (active e) eqn:EA.
  - destruct (try k) eqn:ET.
    + destruct (send_client buflen e (v b)) as [[e1 plain] ok] eqn:ES. destruct ok.
      { injection E as <- <- _. cbn. rewrite sent_to_plains. destruct (N.eqb_spec a b) as [->|Hne].
        - right. rewrite N.eqb_refl. exists e, k, e1, plain, true. auto 10.
        - left. destruct (N.eqb_spec b a); [congruence|]. auto. }
      destruct (pass buflen try v (k + 1) t) as [[t1 o1] r1] eqn:EP. injection E as <- <- _.
      rewrite sent_to_app, sent_to_plains. cbn. destruct (N.eqb_spec a b) as [->|Hne].
      * right. rewrite N.eqb_refl. rewrite (pass_nil _ _ _ _ _ _ _ _ _ EP Hni), app_nil_r.
        exists e, k, e1, plain, false. auto 10.
      * destruct (N.eqb_spec b a); [congruence|]. cbn. specialize (Hskip _ _ _ _ e1 EP Hne eq_refl).
        destruct (N.eqb_spec a b); [congruence|]. exact Hskip.
    + destruct (pass buflen try v (k + 1) t) as [[t1 o1] r1] eqn:EP. injection E as <- <- _. cbn.
      destruct (N.eqb_spec a b) as [->|Hne].
      * left. split; [reflexivity|]. exact (pass_nil _ _ _ _ _ _ _ _ _ EP Hni).
      * specialize (Hskip _ _ _ _ e EP Hne eq_refl). destruct (N.eqb_spec a b); [congruence|]. exact Hskip.
  - destruct (pass buflen try v k t) as [[t1 o1] r1] eqn:EP. injection E as <- <- _. cbn.
    destruct (N.eqb_spec a b) as [->|Hne].
    + left. split; [reflexivity|]. exact (pass_nil _ _ _ _ _ _ _ _ _ EP Hni).
    + specialize (Hskip _ _ _ _ e EP Hne eq_refl). destruct (N.eqb_spec a b); [congruence|]. exact Hskip.
Qed.

(** Positions below the first one tried are not changed by a pass. *)
Lemma rank_ge t : forall k a j, rank t k a = Some j -> k <= j.
Proof.
  induction t as [|[b e] t IH]; cbn; intros k a j E; [discriminate|].
  destruct (a =? b); [destruct (active e); [injection E as ->; lia|discriminate]|].
  apply IH in E. destruct (active e); lia.
Qed.
(** If nothing was found every position tried had failed. *)
Lemma pass_rank_low buflen next v a : forall t k t' o r, pass buflen (fun k => next <=? k) v k t = (t', o, r) ->
  NoDup (addrs t) -> forall j, rank t k a = Some j -> j < next -> rank t' k a = Some j.
Proof.
  unfold addrs. induction t as [|[b e] t IH]; cbn; intros k t' o r E ND j ER Hj; [discriminate|].
  inversion ND as [|? ? Hni ND']; subst.
  destruct (active e) eqn:EA.
  - destruct (N.leb_spec next k) as [Hle|Hgt].
    + exfalso. destruct (a =? b); [injection ER as ->; lia|]. apply rank_ge in ER. lia.
    + destruct (pass buflen _ v (k + 1) t) as [[t1 o1] r1] eqn:EP. injection E as <- _ _. cbn. rewrite EA.
      destruct (a =? b); [exact ER|]. eapply IH; eassumption.
  - destruct (pass buflen _ v k t) as [[t1 o1] r1] eqn:EP. injection E as <- _ _. cbn. rewrite EA.
    destruct (a =? b); [exact ER|]. eapply IH; eassumption.
Qed.
