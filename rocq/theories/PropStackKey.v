(** C76: key files in the builds without the standard library. *)
From Verif Require Import Base BaseProofs Base64Model Base64Proofs PathModel PathSpec PathProofs KeyFileModel PropCrypto PropKeyFile StackKeyModel.

Lemma raw_plain l acc rest : ~ In NL l -> raw_from acc (l ++ NL :: rest) = (rev acc ++ l ++ [NL]) :: raw_from [] rest.
Proof.
  revert acc. induction l as [|b l IH]; intros acc N; cbn [app raw_from].
  - rewrite N.eqb_refl. cbn [rev]. reflexivity.
  - destruct (N.eqb_spec b NL) as [->|]; [exfalso; apply N; now left|]. rewrite IH by (intros I; apply N; now right).
    cbn [rev]. rewrite <- !app_assoc. reflexivity.
Qed.
Lemma raw_last l acc : ~ In NL l -> raw_from acc l = match rev acc ++ l with [] => [] | x => [x] end.
Proof.
  revert acc. induction l as [|b l IH]; intros acc N; cbn [raw_from].
  - rewrite app_nil_r. destruct acc as [|a acc]; [reflexivity|]. destruct (rev (a :: acc)) eqn:E; [|reflexivity].
    apply (f_equal (@length _)) in E. rewrite rev_length in E. discriminate.
  - destruct (N.eqb_spec b NL) as [->|]; [exfalso; apply N; now left|]. rewrite IH by (intros I; apply N; now right).
    cbn [rev]. rewrite <- app_assoc. reflexivity.
Qed.
Lemma raw_pieces full last : (forall l, In l full -> ~ In NL l) -> ~ In NL last ->
  raw_from [] (concat (map (fun l => l ++ [NL]) full) ++ last) = map (fun l => l ++ [NL]) full ++ match last with [] => [] | _ => [last] end.
Proof.
  intros H HL. induction full as [|l full IH]; cbn [map concat app].
  - rewrite raw_last by assumption. cbn [rev app]. now destruct last.
  - rewrite <- !app_assoc. cbn [app]. rewrite raw_plain by (apply H; now left). cbn [rev app]. f_equal. apply IH. intros x X. apply H. now right.
Qed.
Lemma chomp_full l : chomp (l ++ [NL]) = strip_cr l.
Proof. unfold chomp. rewrite rev_app_distr. cbn [rev app]. rewrite N.eqb_refl, rev_involutive. reflexivity. Qed.
Lemma chomp_last l : ~ In NL l -> chomp l = l.
Proof.
  unfold chomp. intros N. destruct (rev l) as [|b r] eqn:E; [reflexivity|]. destruct (N.eqb_spec b NL) as [->|]; [|reflexivity].
  exfalso. apply N. apply in_rev. rewrite E. now left.
Qed.

(** A line that is read: its bytes up to the newline, without a carriage return there, if the line
    with its newline has no more than 140 bytes. *)
Definition short_lines_of (f : bytes) (ls : list bytes) : Prop :=
  exists full last kept, f = concat (map (fun l => l ++ [10]) full) ++ last /\
    (forall l, In l full -> ~ In 10 l) /\ ~ In 10 last /\
    keeps (fun l => blen l <= 139) full kept /\
    exists kept', Forall2 chomped kept kept' /\
    ls = kept' ++ (if (0 <? blen last) && (blen last <=? 140) then [last] else []).

(** With an allocator the same lines are read as with the standard library, so the results are the same. *)
Theorem alloc_key_files_same : forall ok f e,
  compat_lines None f = lines f /\ compat_authorized_keys None None ok f = read_authorized_keys ok f /\
  compat_known_hosts None ok f e = get_from_known_hosts ok f e.
Proof.
  intros ok f e. assert (H : compat_lines None f = lines f).
  { destruct (pieces f) as (full & last & -> & HF & HL). unfold compat_lines. rewrite lines_pieces, raw_pieces by assumption.
    assert (FI : forall l, filter (fits_string None) l = l) by (intros l; induction l as [|x l IH]; cbn; [reflexivity|f_equal; exact IH]).
    rewrite FI.
    rewrite map_app, map_map. f_equal; [apply map_ext; apply chomp_full|]. destruct last; [reflexivity|]. cbn [map]. rewrite chomp_last by exact HL. reflexivity. }
  split; [exact H|]. unfold compat_authorized_keys, compat_known_hosts, read_authorized_keys, get_from_known_hosts. rewrite H.
  split; [|reflexivity]. destruct (decode_all _ _); reflexivity.
Qed.

Lemma keeps_filter (Q : bytes -> Prop) (q : bytes -> bool) ls : (forall l, q l = true <-> Q l) -> keeps Q ls (filter q ls).
Proof.
  intros H. induction ls as [|l ls IH]; cbn; [constructor|]. destruct (q l) eqn:E; [constructor; [apply H; exact E|exact IH]|].
  apply K_drop; [|exact IH]. rewrite <- H, E. discriminate.
Qed.
Lemma keeps_unique (Q : bytes -> Prop) ls a b : keeps Q ls a -> keeps Q ls b -> a = b.
Proof.
  intros H. revert b. induction H as [|x xs ys K H IH|x xs ys K H IH]; intros b B; inversion B; subst; try contradiction; [reflexivity| |auto].
  f_equal. auto.
Qed.
Lemma filter_map_len full : filter (fits_string (Some 140)) (map (fun l => l ++ [NL]) full) =
  map (fun l => l ++ [NL]) (filter (fun l => blen l <=? 139) full).
Proof.
  induction full as [|l full IH]; [reflexivity|]. cbn [map filter]. rewrite IH.
  replace (fits_string (Some 140) (l ++ [NL])) with (blen l <=? 139); [destruct (blen l <=? 139); reflexivity|].
  unfold fits_string. rewrite blen_app. change (blen [NL]) with 1. destruct (N.leb_spec (blen l) 139), (N.leb_spec (blen l + 1) 140); lia.
Qed.
Lemma compat_pieces full last : (forall l, In l full -> ~ In NL l) -> ~ In NL last ->
  compat_lines (Some 140) (concat (map (fun l => l ++ [NL]) full) ++ last) =
  map strip_cr (filter (fun l => blen l <=? 139) full) ++ (if (0 <? blen last) && (blen last <=? 140) then [last] else []).
Proof.
  intros HF HL. unfold compat_lines. rewrite raw_pieces, filter_app, map_app, filter_map_len, map_map by assumption.
  f_equal; [apply map_ext; apply chomp_full|]. destruct last as [|b last]; [reflexivity|].
  cbn [filter fits_string]. replace (0 <? blen (b :: last)) with true by (symmetry; apply N.ltb_lt; rewrite blen_cons; lia). cbn [andb].
  destruct (blen (b :: last) <=? 140); [|reflexivity]. cbn [map]. rewrite chomp_last by exact HL. reflexivity.
Qed.
Lemma Forall2_strip a b : Forall2 chomped a b <-> b = map strip_cr a.
Proof.
  split.
  - intros F. induction F as [|x y ? ? C _ IH]; cbn; [reflexivity|]. apply chomped_strip in C. congruence.
  - intros ->. induction a; constructor; [now apply chomped_strip|assumption].
Qed.

(** Without an allocator: the lines read. *)
Theorem stack_lines_correct : forall f ls, compat_lines (Some MAX_DEFAULT_STRING_SIZE) f = ls <-> short_lines_of f ls.
Proof.
  intros f ls. change MAX_DEFAULT_STRING_SIZE with 140. split.
  - intros <-. destruct (pieces f) as (full & last & -> & HF & HL). exists full, last, (filter (fun l => blen l <=? 139) full).
    do 3 (split; [auto|]). split; [apply keeps_filter; intros l; apply N.leb_le|].
    exists (map strip_cr (filter (fun l => blen l <=? 139) full)). split; [apply Forall2_strip; reflexivity|]. apply compat_pieces; assumption.
  - intros (full & last & kept & -> & HF & HL & HK & kept' & F2 & ->). rewrite compat_pieces by assumption. apply Forall2_strip in F2 as ->.
    rewrite (keeps_unique _ _ _ _ HK (keeps_filter _ (fun l => blen l <=? 139) full (fun l => N.leb_le _ _))). reflexivity.
Qed.

(** Who is let in: the first 128 keys of the lines read, and nobody is when one of these lines is no key. *)
Theorem stack_keys_spec : forall ok f ls used, short_lines_of f ls -> keeps (fun l => ~ skipped l) ls used ->
  (forall ks, stack_authorized_keys ok f = Some ks <->
     exists all, Forall2 (fun l k => decode_verifying_key ok l = Some k) used all /\ ks = firstn 128 all) /\
  (stack_authorized_keys ok f = None <-> exists l, In l used /\ decode_verifying_key ok l = None).
Proof.
  intros ok f ls used HL HK. apply stack_lines_correct in HL. unfold stack_authorized_keys, compat_authorized_keys. rewrite HL.
  rewrite (keeps_unique _ _ _ _ (keeps_filter _ relevant ls relevant_iff) HK). change MAX_KEYS with 128%nat.
  assert (D : decode_all ok used = None <-> exists l, In l used /\ decode_verifying_key ok l = None).
  { clear. induction used as [|x xs IH]; cbn.
    - split; [discriminate|intros (l & [] & _)].
    - destruct (decode_verifying_key ok x) as [k|] eqn:E.
      + destruct (decode_all ok xs) as [ks|]; [|split; [intros _|reflexivity]; destruct (proj1 IH eq_refl) as (l & I & N); eauto].
        split; [discriminate|]. intros (l & [->|I] & N); [congruence|]. discriminate (proj2 IH (ex_intro _ l (conj I N))).
      + split; [intros _; exists x; auto|reflexivity]. }
  destruct (decode_all ok used) as [ks|] eqn:E.
  - split; [intros r; split|].
    + intros [= <-]. exists ks. split; [apply decode_all_spec; exact E|reflexivity].
    + intros (all & F & ->). apply decode_all_spec in F. congruence.
    + split; [discriminate|]. intros X. apply D in X. discriminate X.
  - split; [|exact D]. intros r. split; [discriminate|]. intros (all & F & _). apply decode_all_spec in F. congruence.
Qed.

(** Known hosts: the first line read that names the endpoint decides. *)
Theorem stack_lookup_spec : forall ok f ls e, short_lines_of f ls ->
  (forall k, stack_known_hosts ok f e = Ok (Some k) <-> exists t, first_named e ls t /\ decode_verifying_key ok t = Some k) /\
  (stack_known_hosts ok f e = Err tt <-> exists t, first_named e ls t /\ decode_verifying_key ok t = None) /\
  (stack_known_hosts ok f e = Ok None <-> forall l t, In l ls -> ~ names e l t).
Proof.
  intros ok f ls e HL. apply stack_lines_correct in HL. unfold stack_known_hosts, compat_known_hosts. rewrite HL.
  apply lookup_list_spec.
Qed.

(** ** Remembering servers *)
Lemma raw_cut f acc g : raw_from acc (f ++ NL :: g) = raw_from acc (f ++ [NL]) ++ raw_from [] g.
Proof.
  revert acc. induction f as [|b f IH]; intros acc; cbn [app raw_from]; [rewrite N.eqb_refl; reflexivity|].
  destruct (b =? NL); [cbn [app]; f_equal|]; apply IH.
Qed.
Lemma compat_cut f g : compat_lines (Some 140) (f ++ NL :: g) = compat_lines (Some 140) (f ++ [NL]) ++ compat_lines (Some 140) g.
Proof. unfold compat_lines. rewrite raw_cut, filter_app, map_app. reflexivity. Qed.
Lemma compat_closed ok f e : stack_known_hosts ok f e = Ok None ->
  lookup_lines ok e (filter relevant (compat_lines (Some 140) (f ++ [NL]))) = Ok None.
Proof.
  unfold stack_known_hosts, compat_known_hosts. change MAX_DEFAULT_STRING_SIZE with 140.
  destruct (pieces f) as (full & last & -> & HF & HL). rewrite compat_pieces by assumption.
  assert (E : (concat (map (fun l => l ++ [NL]) full) ++ last) ++ [NL] = concat (map (fun l => l ++ [NL]) (full ++ [last])) ++ []).
  { rewrite map_app, concat_app. cbn [map concat]. rewrite !app_nil_r, app_assoc. reflexivity. }
  rewrite E, compat_pieces; [|intros l I; apply in_app_iff in I as [I|[<-|[]]]; auto|intros []].
  change (0 <? blen []) with false. cbn [andb]. rewrite app_nil_r, !filter_app, map_app, filter_app, !lookup_app.
  change (fun l : list N => blen l <=? 139) with (fun l : bytes => blen l <=? 139).
  intros H. match goal with |- match ?t with _ => _ end = _ => assert (X : t = Ok None) end.
  { destruct (lookup_lines ok e _) as [[r|]| |] in H |- *; try discriminate H; reflexivity. }
  rewrite X. match type of H with match ?t with _ => _ end = _ => destruct t as [[r|]| |] in H; try discriminate H end. cbn [filter]. destruct (N.leb_spec (blen last) 139) as [L|L]; [|reflexivity]. cbn [map].
  destruct last as [|b last].
  - reflexivity.
  - replace (0 <? blen (b :: last)) with true in H by (symmetry; apply N.ltb_lt; rewrite blen_cons; lia).
    replace (blen (b :: last) <=? 140) with true in H by (symmetry; apply N.leb_le; lia). cbn [andb] in H.
    pose proof (closed_line ok e (b :: last)) as C.
    replace (lookup_lines ok e (filter relevant [(b :: last) : bytes])) with (Ok None : res unit (option bytes)) in C by (symmetry; exact H). exact C.
Qed.
(** The line written for a server is read back if the endpoint has no more than 94 bytes. *)
Lemma compat_entry ok e k : plain_endpoint e -> is_key ok k ->
  compat_lines (Some 140) (e ++ [SPACE] ++ encode_key k ++ [NL]) = if blen e <=? 94 then [e ++ SPACE :: encode_key k] else [].
Proof.
  intros PE K. destruct (entry_line e k ok PE K) as [EL EN]. destruct K as (W & L & O).
  assert (LEN : blen (encode_key k) = 44) by (unfold encode_key; rewrite b64_len, L; reflexivity).
  assert (NN : ~ In NL (e ++ SPACE :: encode_key k)).
  { intros I. apply in_app_iff in I as [I|[I|I]]; [exact (proj1 (proj2 (proj2 PE)) I)|discriminate I|]. exact (b64_no_ws k NL W eq_refl I). }
  assert (E : e ++ [SPACE] ++ encode_key k ++ [NL] = concat (map (fun l => l ++ [NL]) [e ++ SPACE :: encode_key k]) ++ []).
  { cbn [map concat]. rewrite !app_nil_r, <- !app_assoc. reflexivity. }
  rewrite E, compat_pieces; [|intros l [<-|[]]; exact NN|intros []]. rewrite E in EL.
  rewrite lines_pieces in EL; [|intros l [<-|[]]; exact NN|intros []]. cbn [map app] in EL. injection EL as EL.
  cbn [filter]. change (0 <? blen []) with false. cbn [andb].
  rewrite blen_app, blen_cons, LEN.
  destruct (N.leb_spec (blen e + (1 + 44)) 139), (N.leb_spec (blen e) 94); try lia; cbn [map app]; rewrite ?EL; reflexivity.
Qed.

(** A server that is not known yet becomes known exactly if its endpoint has at most 94 bytes, and
    nothing else becomes known. *)
Theorem stack_remembers : forall ok f e e' k, plain_endpoint e' -> is_key ok k -> stack_known_hosts ok f e = Ok None ->
  stack_known_hosts ok (append_to_known_hosts f e' k) e = if beq e' e && (blen e <=? 94) then Ok (Some k) else Ok None.
Proof.
  intros ok f e e' k PE K H. unfold stack_known_hosts, compat_known_hosts, append_to_known_hosts. change MAX_DEFAULT_STRING_SIZE with 140.
  cbn [app]. rewrite compat_cut, filter_app, lookup_app, compat_closed by exact H.
  change (e' ++ SPACE :: encode_key k ++ [NL]) with (e' ++ [SPACE] ++ encode_key k ++ [NL]). rewrite (compat_entry ok e' k PE K).
  destruct (entry_line e' k ok PE K) as [_ EN]. destruct (beq e' e) eqn:B.
  - apply beq_eq in B. subst e'. cbn [andb]. destruct (blen e <=? 94); [|reflexivity]. etransitivity; [exact (names_lookup ok e _ _ EN)|].
    destruct K as (W & L & O). now rewrite verifying_key_round_trip.
  - cbn [andb]. apply beq_neq in B. destruct (blen e' <=? 94); [|reflexivity].
    destruct (lookup_one ok e (e' ++ SPACE :: encode_key k)) as [R|(t & (N1 & N2 & _) & _)]; [exact R|]. exfalso.
    destruct EN as (_ & N3 & _). apply B. assert (S : split_once (e' ++ SPACE :: encode_key k) = Some (e, t)) by (apply split_once_spec; auto).
    assert (S' : split_once (e' ++ SPACE :: encode_key k) = Some (e', encode_key k)) by (apply split_once_spec; auto). congruence.
Qed.
(** What becomes of the file after a connection: nothing without a key of the server, or if the endpoint has a (readable) key in the file
    already; otherwise an entry is appended - also when the endpoint's entry cannot be decoded. *)
Theorem stack_hosts_file_spec : forall ok f remote e,
  ((remote = None \/ exists k', stack_known_hosts ok f e = Ok (Some k')) -> stack_hosts_file ok f remote e = f) /\
  (forall k, remote = Some k -> (forall k', stack_known_hosts ok f e <> Ok (Some k')) -> stack_hosts_file ok f remote e = f ++ [NL] ++ e ++ [SPACE] ++ encode_key k ++ [NL]).
Proof.
  intros ok f remote e. unfold stack_hosts_file. split.
  - intros [-> |(k' & H)]; [reflexivity|]. destruct remote; [|reflexivity]. rewrite H. reflexivity.
  - intros k -> H. destruct (stack_known_hosts ok f e) as [[k'|]| |]; [destruct (H k' eq_refl)| | |]; reflexivity.
Qed.
(** So with a longer endpoint the client never insists on a key, however often it has seen one. *)
Theorem stack_long_endpoint_never_known : forall ok e history f, 94 < blen e -> stack_known_hosts ok f e = Ok None ->
  Forall (fun '(k, e') => is_key ok k /\ plain_endpoint e') history ->
  stack_known_hosts ok (fold_left (fun f '(k, e') => stack_hosts_file ok f (Some k) e') history f) e = Ok None.
Proof.
  intros ok e history. induction history as [|[k e'] h IH]; intros f L H F; [exact H|]. inversion_clear F as [|? ? KP F']. cbn in KP. destruct KP as [K PE]. cbn [fold_left].
  apply IH; [exact L| |exact F']. unfold stack_hosts_file.
  assert (A : stack_known_hosts ok (append_to_known_hosts f e' k) e = Ok None).
  { rewrite stack_remembers by assumption. replace (blen e <=? 94) with false by (symmetry; apply N.leb_gt; exact L). rewrite Bool.andb_false_r. reflexivity. }
  destruct (stack_known_hosts ok f e') as [[r|]| |]; assumption.
Qed.

(** A comment, a key, a line of 141 bytes (no key: with the standard library the server does not
    start) and another key; a known server with an endpoint of 94 bytes and one of 95 (both plain); a
    line of 140 bytes without newline is known until something is appended. *)
Definition sk_file : bytes := [35; 10] ++ encode_key (kf_key 7) ++ [10] ++ repeat 65 140 ++ [10] ++ encode_key (kf_key 8).
Definition sk_end (n : nat) : bytes := repeat 97 n.
Example stack_key_case :
  let ok := fun _ => true in
  stack_authorized_keys ok sk_file = Some [kf_key 7; kf_key 8] /\ read_authorized_keys ok sk_file = None /\
  stack_known_hosts ok [] (sk_end 94) = Ok None /\ stack_known_hosts ok [] (sk_end 95) = Ok None /\
  stack_known_hosts ok (stack_hosts_file ok [] (Some (kf_key 9)) (sk_end 94)) (sk_end 94) = Ok (Some (kf_key 9)) /\
  stack_known_hosts ok (stack_hosts_file ok [] (Some (kf_key 9)) (sk_end 95)) (sk_end 95) = Ok None /\
  get_from_known_hosts ok (handle_hosts_file ok [] (Some (kf_key 9)) (sk_end 95)) (sk_end 95) = Ok (Some (kf_key 9)) /\
  (let f := sk_end 95 ++ [32] ++ encode_key (kf_key 9) in
   stack_known_hosts ok f (sk_end 95) = Ok (Some (kf_key 9)) /\
   stack_known_hosts ok (stack_hosts_file ok f (Some (kf_key 6)) [98]) (sk_end 95) = Ok None) /\
  stack_authorized_keys ok (concat (map (fun n => encode_key (kf_key (N.of_nat n)) ++ [10]) (seq 0 130))) = Some (map (fun n => kf_key (N.of_nat n)) (seq 0 128)).
Proof. vm_compute. repeat split. Qed.
Example stack_key_hyps : plain_endpoint (sk_end 95) /\ 94 < blen (sk_end 95) /\ is_key (fun _ => true) (kf_key 9).
Proof.
  split; [|split; [reflexivity|]].
  - split; [reflexivity|]. split; [|split].
    + intros I. apply repeat_spec in I. discriminate I.
    + intros I. apply repeat_spec in I. discriminate I.
    + intros [x X]. discriminate X.
  - split; [|split; reflexivity]. apply Forall_forall. intros b I. apply repeat_spec in I. subst b. reflexivity.
Qed.

Print Assumptions alloc_key_files_same.
Print Assumptions stack_lines_correct.
Print Assumptions stack_keys_spec.
Print Assumptions stack_lookup_spec.
Print Assumptions stack_remembers.
Print Assumptions stack_hosts_file_spec.
Print Assumptions stack_long_endpoint_never_known.
