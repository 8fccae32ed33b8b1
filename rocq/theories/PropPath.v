(** Requested names (C17, C18), truncation (C36), depth (C39). *)
From Verif Require Import Base BaseProofs PacketModel PathModel PathSpec PathProofs.

(** C17.  The accepted name consists of the non-dotty components of the requested name, in
    order; there is at least one; so it is not empty, not absolute, and free of empty, "."
    and ".." components, also up to white space. *)
Theorem name_confined : forall name p, normalize None name = Some p ->
  exists cs ks, components_of name cs /\ keeps (fun c => ~ dotty c) cs ks /\
    components_of p ks /\ (forall c, In c ks -> ~ dotty c) /\
    p <> [] /\ has_root p = false /\
    components p = map Normal ks.
Proof.
  intros name p H. rewrite normalize_eq in H.
  exists (split_slash name), (filter keep_component (split_slash name)).
  pose proof (filter_noslash name) as F.
  pose proof (keeps_filter (split_slash name) (split_slash_noslash name)) as K.
  remember (filter keep_component (split_slash name)) as ks.
  destruct ks as [|k ks']; [discriminate|]. injection H as <-.
  split; [apply split_components|]. split; [exact K|].
  split; [split; [discriminate|split; [reflexivity|intros c Hc; apply (F c Hc)]]|].
  split; [intros c Hc; apply (F c Hc)|].
  assert (Hk : k <> []). { intros ->. apply (proj2 (F [] (or_introl eq_refl))), dotty_nil. }
  split; [|split].
  - cbn. intros E. apply app_eq_nil in E. tauto.
  - destruct k as [|x k]; [congruence|]. cbn. apply N.eqb_neq. intros E.
    apply (proj1 (F (x :: k) (or_introl eq_refl))). left. exact E.
  - apply (components_clean (k :: ks')); [discriminate|exact F].
Qed.
Print Assumptions name_confined.

(** C17.  Names without any usable component, and only they, are rejected. *)
Theorem name_rejected_iff : forall name,
  normalize None name = None <->
  (forall cs c, components_of name cs -> In c cs -> dotty c).
Proof.
  intros name. rewrite normalize_eq. split.
  - intros H cs c HC Hc. rewrite (components_unique _ _ HC) in Hc.
    apply keep_false_iff; [eapply split_slash_noslash; eauto|].
    destruct (keep_component c) eqn:E; [|reflexivity]. exfalso.
    assert (In c (filter keep_component (split_slash name))) as I by (apply filter_In; auto).
    destruct (filter keep_component (split_slash name)); [destruct I|discriminate].
  - intros H. destruct (filter keep_component (split_slash name)) as [|c ks] eqn:E; [reflexivity|].
    exfalso. assert (I : In c (filter keep_component (split_slash name))) by (rewrite E; now left).
    apply (filter_noslash name c I). apply filter_In in I.
    apply (H (split_slash name)); [apply split_components|tauto].
Qed.
Print Assumptions name_rejected_iff.

(** Components are unique, so the two theorems above speak about the components. *)
Theorem components_determined : forall name a b,
  components_of name a -> components_of name b -> a = b.
Proof.
  intros name a b HA HB. now rewrite (components_unique _ _ HA), (components_unique _ _ HB).
Qed.

Example ex_confined :
  normalize None (s2b "/../etc//./ .. /passwd") = Some (s2b "etc/passwd").
Proof. reflexivity. Qed.
Example ex_rejected : normalize None (s2b "/../ . //") = None.
Proof. reflexivity. Qed.
(* U+00A0, U+2003 and U+3000 around two dots. *)
Example ex_unicode_blank :
  normalize None ([194; 160; 46; 46; 226; 128; 131] ++ s2b "/a/" ++ [227; 128; 128]) = Some (s2b "a").
Proof. reflexivity. Qed.
(* A non-blank two-byte character is kept. *)
Example ex_unicode_plain : normalize None [46; 46; 195; 160] = Some [46; 46; 195; 160].
Proof. reflexivity. Qed.

(** C18. *)
Theorem normalize_clean : forall name, clean name -> normalize None name = Some name.
Proof.
  intros name H. rewrite normalize_eq, clean_filter by assumption.
  pose proof (split_slash_ne name) as N. pose proof (path_split name) as E.
  destruct (split_slash name); [congruence|]. now rewrite E.
Qed.
Theorem normalize_idempotent : forall name p, normalize None name = Some p -> normalize None p = Some p.
Proof.
  intros name p H. apply normalize_clean.
  destruct (name_confined name p H) as (cs & ks & _ & _ & HC & HD & _).
  exists ks. auto.
Qed.
Print Assumptions normalize_clean.
Print Assumptions normalize_idempotent.

Example ex_clean : clean (s2b "a/.b./c d").
Proof.
  exists [s2b "a"; s2b ".b."; s2b "c d"]. split.
  - split; [discriminate|]. split; [reflexivity|]. cbn. intros c.
    intros [<-|[<-|[<-|[]]]]; cbn; intuition discriminate.
  - cbn. intros c [<-|[<-|[<-|[]]]]; apply keep_iff; try reflexivity; cbn; intuition discriminate.
Qed.

(** The build without alloc (FilePath of [n] bytes, n = 150): the same result, except for
    names of exactly [n] bytes that already are clean: these lose their last character. *)
Theorem bounded_same : forall n name, blen name <= n ->
  blen name < n \/ ~ clean name -> normalize (Some n) name = normalize None name.
Proof. intros n name H [H1|H1]; [now apply normalize_bounded|now apply normalize_bounded_dirty]. Qed.
Theorem bounded_truncates : forall n name c, clean name -> blen name = n -> c <> [] -> utf8 c = true ->
  (forall a b, c = a ++ b -> a <> [] -> b <> [] -> utf8 a = false) ->
  forall p, p <> [] -> name = p ++ c -> normalize (Some n) name = Some p.
Proof.
  intros n name c HC HL NE HU HM p HP ->. rewrite normalize_full by assumption.
  assert (E : pop_char (p ++ c) = p).
  { assert (T : exists a k, c = a :: k /\ cont a = false /\ forallb cont k = true).
    { destruct c as [|a k]; [congruence|]. exists a, k. split; [reflexivity|].
      split.
      - pose proof (utf8_take (a :: k) 0 HU) as T. cbn in T.
        specialize (T ltac:(lia)). symmetry in T. now apply negb_true_iff in T.
      - apply forallb_forall. intros x Hx. apply In_nth with (d := 0) in Hx.
        destruct Hx as (i & Hi & <-).
        pose proof (utf8_take (a :: k) (S i) HU) as T. cbn [length nth] in T.
        specialize (T ltac:(lia)).
        rewrite (HM (firstn (S i) (a :: k)) (skipn (S i) (a :: k))) in T.
        + symmetry in T. now apply negb_false_iff in T.
        + symmetry. apply firstn_skipn.
        + discriminate.
        + intros Z. apply (f_equal (@length N)) in Z. rewrite skipn_length in Z. cbn in Z. lia. }
    destruct T as (a & k & -> & HA & HK).
    unfold pop_char. rewrite rev_app_distr. cbn [rev]. rewrite <- app_assoc.
    rewrite forallb_forall in HK.
    assert (G : forall l r, (forall x, In x l -> cont x = true) -> pop_rev (l ++ a :: r) = r).
    { induction l as [|x l IH]; intros r Hl; cbn [app pop_rev].
      - now rewrite HA.
      - rewrite Hl by now left. apply IH. intros; apply Hl; now right. }
    cbn [app]. rewrite G; [apply rev_involutive|]. intros x Hx. apply HK. now apply in_rev. }
  rewrite E. destruct p; [congruence|reflexivity].
Qed.
Print Assumptions bounded_same.
Print Assumptions bounded_truncates.

(** Hence in that build a name can be accepted whose last component is "..". *)
Definition x146 : bytes := repeat 120 146.
Example ex_bounded_dotdot :
  blen (x146 ++ s2b "/..a") = MAX_FILE_PATH_SIZE /\
  normalize (Some MAX_FILE_PATH_SIZE) (x146 ++ s2b "/..a") = Some (x146 ++ s2b "/..") /\
  components (x146 ++ s2b "/..") = [Normal x146; ParentDir] /\
  normalize None (x146 ++ s2b "/..a") = Some (x146 ++ s2b "/..a").
Proof. vm_compute. repeat split; reflexivity. Qed.

(** C36.  Truncation: shorter strings are untouched, longer ones are cut at [max] bytes, or
    the program panics, exactly when the cut would leave an incomplete character. *)
Theorem ensure_size_spec : forall s max, utf8 s = true ->
  match ensure_size s max with
  | Ok t => (blen s <= max /\ t = s) \/
            (max < blen s /\ blen t = max /\ utf8 t = true /\ exists r, s = t ++ r)
  | Err _ => False
  | Panic => max < blen s /\ utf8 (takeN max s) = false
  end.
Proof.
  intros s max HU. rewrite ensure_size_cases by assumption.
  destruct (N.leb_spec (blen s) max) as [L|L]; [left; auto|].
  destruct (utf8 (takeN max s)) eqn:E; [right|auto].
  split; [exact L|]. split; [rewrite blen_takeN; lia|]. split; [exact E|].
  exists (dropN max s). symmetry. apply takeN_dropN.
Qed.
Print Assumptions ensure_size_spec.

(** C36.  Which requested names make the server panic while rejecting them. *)
Theorem reject_panics_iff : forall name, utf8 name = true ->
  validate_file_name name = Panic <->
  (forall cs c, components_of name cs -> In c cs -> dotty c) /\
  100 < blen name /\ utf8 (takeN 100 name) = false.
Proof.
  intros name HU. unfold validate_file_name. rewrite <- name_rejected_iff.
  pose proof (ensure_size_spec name 100 HU) as S.
  destruct (normalize None name) as [p|]; [split; [discriminate|intros [H _]; discriminate]|].
  destruct (ensure_size name 100) as [t|e|] eqn:E; [|destruct S|].
  - split; [discriminate|]. intros (_ & H1 & H2). exfalso.
    rewrite ensure_size_cases in E by assumption.
    rewrite (proj2 (N.leb_gt _ _) H1), H2 in E. discriminate.
  - split; [intros _|reflexivity]. auto.
Qed.
Print Assumptions reject_panics_iff.

(** A datagram that does it: a read request for 99 slashes and a no-break space. *)
Definition bad_name : bytes := repeat 47 99 ++ [194; 160].
Example ex_reject_panics : utf8 bad_name = true /\ validate_file_name bad_name = Panic /\
  from_bytes ([0; 1] ++ bad_name ++ [0] ++ s2b "octet" ++ [0])
    = Ok (PRead (mkReq bad_name exts_empty)).
Proof. vm_compute. repeat split; reflexivity. Qed.

(** Otherwise the answer names the (cut) file name and the result is a confined name. *)
Theorem validate_request_spec : forall max name size, utf8 name = true ->
  match validate_request_options max name size with
  | Ok p => normalize None name = Some p /\ (forall n, size = Some n -> n <= max)
  | Err e => (exists n, size = Some n /\ max < n /\
                e = PError DiskFull (s2b "Invalid file size received " ++ show_num n)) \/
             (exists t r, name = t ++ r /\ blen t <= 100 /\ normalize None name = None /\
                e = PError AccessViolation (s2b "Invalid file name received " ++ t))
  | Panic => normalize None name = None /\ 100 < blen name /\ utf8 (takeN 100 name) = false
  end.
Proof.
  intros max name size HU. unfold validate_request_options, handle_file_size.
  destruct (max <? match size with Some s => s | None => 0 end) eqn:L.
  - destruct size as [n|]; [|lia]. left. exists n. repeat split; auto. lia.
  - unfold validate_file_name. pose proof (ensure_size_spec name 100 HU) as S.
    destruct (normalize None name) as [p|].
    + split; [reflexivity|]. intros n ->. lia.
    + destruct (ensure_size name 100) as [t|e|]; [|destruct S|tauto].
      right. destruct S as [[S1 ->]|(S1 & S2 & _ & r & ->)].
      * exists name, []. rewrite app_nil_r. auto.
      * exists t, r. repeat split; auto. lia.
Qed.
Print Assumptions validate_request_spec.

(** C39.  The depth check, for every name that passed normalisation and for every limit. *)
Theorem depth_limit : forall name p d, normalize None name = Some p ->
  (validate_path p d = true <-> separators p <= d).
Proof.
  intros name p d H. destruct (name_confined name p H) as (cs & ks & _ & _ & HC & _ & _ & _ & E).
  unfold validate_path. rewrite E, map_length. destruct HC as (HN & -> & HS).
  rewrite separators_path by assumption. apply N.leb_le.
Qed.
Print Assumptions depth_limit.
Example ex_depth : validate_path (s2b "a/b/c") 2 = true /\ validate_path (s2b "a/b/c") 1 = false.
Proof. split; reflexivity. Qed.
