(** C35: authorised-keys and known-hosts files. *)
From Verif Require Import Base BaseProofs Base64Model Base64Proofs PathModel PathSpec PathProofs KeyFileModel PropCrypto.

(** ** Specification *)

(** A line without its ending: one carriage return before the newline belongs to the ending. *)
Definition chomped (l l' : bytes) : Prop := l = l' ++ [13] \/ (l = l' /\ ~ exists x, l = x ++ [13]).
(** The lines of a text: every newline ends one, and what follows the last newline is one more
    unless it is empty (then a carriage return at its end does belong to it). *)
Definition lines_of (f : bytes) (ls : list bytes) : Prop :=
  exists full full' last, f = concat (map (fun l => l ++ [10]) full) ++ last /\
    (forall l, In l full -> ~ In 10 l) /\ ~ In 10 last /\ Forall2 chomped full full' /\
    ls = full' ++ match last with [] => [] | _ => [last] end.
(** Lines that are skipped: not text, comments and blank lines. *)
Definition skipped (l : bytes) : Prop := utf8 l = false \/ (exists x, l = 35 :: x) \/ blank l.
(** A line that names an endpoint, with a key text. *)
Definition names (e l t : bytes) : Prop := l = e ++ 32 :: t /\ ~ In 32 e /\ ~ skipped l.

(** ** Lines *)

Lemma rev_inj (A : Type) (a b : list A) : rev a = rev b -> a = b.
Proof. intros H. rewrite <- (rev_involutive a), H. apply rev_involutive. Qed.
Lemma strip_cr_snoc l : strip_cr (l ++ [CR]) = l.
Proof. unfold strip_cr. rewrite rev_app_distr. cbn. apply rev_involutive. Qed.
Lemma strip_cr_cases l : (l = strip_cr l ++ [CR]) \/ (strip_cr l = l /\ ~ exists x, l = x ++ [CR]).
Proof.
  unfold strip_cr. destruct (rev l) as [|b r] eqn:E.
  - right. split; [reflexivity|]. intros [x ->]. rewrite rev_app_distr in E. discriminate.
  - assert (L : l = rev r ++ [b]) by (rewrite <- (rev_involutive l), E; reflexivity).
    destruct (N.eqb_spec b CR) as [->|N]; [now left|]. right. split; [reflexivity|].
    intros [x X]. rewrite L in X. apply app_inj_tail in X. tauto.
Qed.
Lemma chomped_strip l l' : chomped l l' <-> l' = strip_cr l.
Proof.
  unfold chomped. change 13 with CR. split.
  - intros [->|[-> N]]; [now rewrite strip_cr_snoc|]. destruct (strip_cr_cases l') as [E|[E _]]; [|congruence].
    exfalso. apply N. eauto.
  - intros ->. destruct (strip_cr_cases l) as [E|[E N]]; [now left|right]. rewrite E. auto.
Qed.

Lemma lines_from_plain l acc rest : ~ In NL l ->
  lines_from acc (l ++ NL :: rest) = strip_cr (rev acc ++ l) :: lines rest.
Proof.
  revert acc. induction l as [|b l IH]; intros acc N; cbn.
  - now rewrite app_nil_r.
  - destruct (N.eqb_spec b NL) as [->|]; [exfalso; apply N; now left|]. rewrite IH by (intros I; apply N; now right).
    cbn. now rewrite <- app_assoc.
Qed.
Lemma lines_from_last l acc : ~ In NL l ->
  lines_from acc l = match rev acc ++ l with [] => [] | x => [x] end.
Proof.
  revert acc. induction l as [|b l IH]; intros acc N; cbn.
  - rewrite app_nil_r. destruct acc as [|a acc]; [reflexivity|]. destruct (rev (a :: acc)) eqn:E; [|reflexivity].
    apply (f_equal (@length _)) in E. rewrite rev_length in E. discriminate.
  - destruct (N.eqb_spec b NL) as [->|]; [exfalso; apply N; now left|]. rewrite IH by (intros I; apply N; now right).
    cbn. now rewrite <- app_assoc.
Qed.
Lemma lines_pieces full last : (forall l, In l full -> ~ In NL l) -> ~ In NL last ->
  lines (concat (map (fun l => l ++ [NL]) full) ++ last) =
  map strip_cr full ++ match last with [] => [] | _ => [last] end.
Proof.
  intros H HL. induction full as [|l full IH]; cbn [map concat app].
  - unfold lines. rewrite lines_from_last by assumption. cbn. now destruct last.
  - rewrite <- !app_assoc. cbn [app]. unfold lines at 1. rewrite lines_from_plain by (apply H; now left). cbn [rev app].
    f_equal. apply IH. intros x I. apply H. now right.
Qed.
Lemma pieces (f : bytes) : exists full last, f = concat (map (fun l => l ++ [NL]) full) ++ last /\
  (forall l, In l full -> ~ In NL l) /\ ~ In NL last.
Proof.
  induction f as [|b f (full & last & E & H & HL)].
  - exists [], []. repeat split; auto.
  - destruct (N.eq_dec b NL) as [->|N].
    + exists ([] :: full), last. subst f. repeat split; auto. intros l [<-|I]; auto.
    + destruct full as [|l full].
      * exists [], (b :: last). subst f. repeat split; auto. intros [->|I]; auto.
      * exists ((b :: l) :: full), last. subst f. repeat split; auto. intros x [<-|I]; [|apply H; now right].
        intros [->|I]; [congruence|]. now apply (H l (or_introl eq_refl)).
Qed.
(** Cutting a text into lines. *)
Theorem lines_correct : forall f ls, lines f = ls <-> lines_of f ls.
Proof.
  intros f ls. split.
  - intros <-. destruct (pieces f) as (full & last & E & H & HL).
    exists full, (map strip_cr full), last. repeat split; auto.
    + clear. induction full; constructor; [now apply chomped_strip|assumption].
    + rewrite E. now apply lines_pieces.
  - intros (full & full' & last & -> & H & HL & F & ->). rewrite lines_pieces by assumption. f_equal.
    clear H. induction F as [|a b ? ? C _ IH]; cbn; [reflexivity|]. apply chomped_strip in C. congruence.
Qed.
Print Assumptions lines_correct.

(** ** Skipped lines *)

Lemma trim_nil_iff l : trim l = [] <-> blank l.
Proof.
  unfold trim. split.
  - intros H. destruct (trim_start_split l) as (p & Hp & Bp).
    destruct (trim_rev_split (rev (trim_start l))) as (q & Hq & Bq).
    rewrite rev_involutive, H in Hq. cbn in Hq. rewrite Hp, Hq.
    destruct Bp as (a & A & ->), Bq as (b & B & ->). exists (a ++ b). split; [|now rewrite concat_app].
    intros c I. apply in_app_iff in I. destruct I; auto.
  - intros B. rewrite <- (app_nil_r l), trim_start_blank by assumption. reflexivity.
Qed.
Lemma blank_rev_iff l : blank l <-> trim_rev (rev l) = [].
Proof.
  split.
  - intros B. rewrite <- (app_nil_r (rev l)), trim_rev_blank by assumption. reflexivity.
  - intros H. destruct (trim_rev_split (rev l)) as (p & Hp & Bp). rewrite rev_involutive, H in Hp. cbn in Hp. congruence.
Qed.
Lemma relevant_iff l : relevant l = true <-> ~ skipped l.
Proof.
  unfold relevant, skipped. rewrite <- trim_nil_iff, andb_true_iff, negb_true_iff, orb_false_iff. split.
  - intros (U & H & T) [E|[[x ->]|B]]; [congruence| |].
    + cbn in H. discriminate.
    + rewrite B in T. discriminate.
  - intros H. split; [|split].
    + destruct (utf8 l); [reflexivity|]. exfalso. auto.
    + destruct l as [|b x]; [reflexivity|]. destruct (N.eqb_spec b HASH) as [->|]; [|reflexivity]. exfalso. apply H. right. left. now exists x.
    + destruct (trim l); [|reflexivity]. exfalso. auto.
Qed.

(** ** Authorised keys *)

Lemma decode_all_spec ok ls ks : decode_all ok ls = Some ks <->
  Forall2 (fun l k => decode_verifying_key ok l = Some k) ls ks.
Proof.
  revert ks. induction ls as [|x ls IH]; intros ks; cbn.
  - split; [intros [= <-]; constructor|]. intros H. now inversion H.
  - split.
    + destruct (decode_verifying_key ok x) as [k|] eqn:D; [|discriminate].
      destruct (decode_all ok ls) as [r|]; [|discriminate]. intros [= <-]. constructor; [assumption|]. now apply IH.
    + intros H. inversion H as [|? k ? r D F]; subst. rewrite D. apply IH in F. now rewrite F.
Qed.

(** The keys read are those of the lines that are not skipped, in order, each decoded as a
    verifying key; there is no result exactly when one of these lines is not a key. *)
Theorem authorized_keys_spec : forall ok f ls used, lines_of f ls ->
  keeps (fun l => ~ skipped l) ls used ->
  (forall ks, read_authorized_keys ok f = Some ks <-> Forall2 (fun l k => decode_verifying_key ok l = Some k) used ks) /\
  (read_authorized_keys ok f = None <-> exists l, In l used /\ decode_verifying_key ok l = None).
Proof.
  intros ok f ls used HL HK. apply lines_correct in HL. unfold read_authorized_keys. rewrite HL.
  assert (E : filter relevant ls = used).
  { clear HL. induction HK as [|x xs ys KX KH IH|x xs ys KX KH IH]; cbn; [reflexivity| |].
    - apply relevant_iff in KX. rewrite KX. congruence.
    - destruct (relevant x) eqn:R; [|assumption]. exfalso. apply KX. now apply relevant_iff. }
  rewrite E. split; [intros; apply decode_all_spec|]. clear E HK HL. induction used as [|x xs IH]; cbn.
  - split; [discriminate|intros (l & [] & _)].
  - destruct (decode_verifying_key ok x) as [k|] eqn:D.
    + destruct (decode_all ok xs).
      * split; [discriminate|]. intros (y & [<-|I] & NN); [congruence|]. destruct IH as [_ IH]. assert (Q := IH (ex_intro _ y (conj I NN))). discriminate Q.
      * split; [|reflexivity]. intros _. destruct IH as [IH _]. destruct (IH eq_refl) as (y & I & NN). eauto.
    + split; [|reflexivity]. intros _. eauto.
Qed.
Print Assumptions authorized_keys_spec.

(** One key per line, with any skipped lines in between and either line ending, is read back. *)
Inductive keyfile : list bytes -> bytes -> Prop :=
| KF_nil : keyfile [] []
| KF_key k ks f (crlf : bool) : keyfile ks f -> keyfile (k :: ks) (encode_key k ++ (if crlf then [13; 10] else [10]) ++ f)
| KF_skip l ks f : ~ In 10 l -> skipped (strip_cr l) -> keyfile ks f -> keyfile ks (l ++ [10] ++ f).

(** ** Known hosts *)

Lemma split_once_spec l e t : split_once l = Some (e, t) <-> l = e ++ SPACE :: t /\ ~ In SPACE e.
Proof.
  revert e. induction l as [|b l IH]; intros e; cbn.
  - split; [discriminate|]. intros [H _]. destruct e; discriminate.
  - destruct (N.eqb_spec b SPACE) as [->|NB].
    + split; [intros [= <- <-]; auto|]. intros [H NI]. destruct e as [|x e]; cbn in H; [now injection H as ->|].
      injection H as <- _. exfalso. apply NI. now left.
    + destruct (split_once l) as [[p r]|].
      * split.
        -- intros [= <- <-]. destruct (proj1 (IH p) eq_refl) as [-> X]. split; [reflexivity|]. intros [->|I]; auto.
        -- intros [H NI]. destruct e as [|x e]; cbn in H; [congruence|]. injection H as <- H.
           assert (Q : Some (p, r) = Some (e, t)).
           { apply IH. split; [assumption|]. intros I. apply NI. now right. }
           now injection Q as -> ->.
      * split; [discriminate|]. intros [H NI]. destruct e as [|x e]; cbn in H; [congruence|]. injection H as <- H.
        assert (Q : None = Some (e, t)); [|discriminate]. apply IH. split; [assumption|]. intros I. apply NI. now right.
Qed.

Lemma lookup_app ok e a b : lookup_lines ok e (a ++ b) =
  match lookup_lines ok e a with Ok None => lookup_lines ok e b | r => r end.
Proof.
  induction a as [|x a IH]; [reflexivity|]. cbn. destruct (split_once x) as [[p t]|]; [|exact IH].
  destruct (beq p e); [|exact IH]. now destruct (decode_verifying_key ok t).
Qed.
Lemma lookup_one ok e l : lookup_lines ok e (filter relevant [l]) = Ok None \/ exists t, names e l t /\
  lookup_lines ok e (filter relevant [l]) = match decode_verifying_key ok t with Some k => Ok (Some k) | None => Err tt end.
Proof.
  cbn. destruct (relevant l) eqn:R; [|now left]. cbn. destruct (split_once l) as [[p t]|] eqn:S; [|now left].
  destruct (beq p e) eqn:B; [|now left]. apply beq_eq in B. subst p. right. exists t. split; [|reflexivity].
  apply split_once_spec in S. destruct S as [S1 S2]. split; [exact S1|]. split; [exact S2|]. now apply relevant_iff.
Qed.
Lemma names_lookup ok e l t : names e l t ->
  lookup_lines ok e (filter relevant [l]) = match decode_verifying_key ok t with Some k => Ok (Some k) | None => Err tt end.
Proof.
  intros (E & NS & R). cbn. apply relevant_iff in R. rewrite R. cbn.
  assert (S : split_once l = Some (e, t)) by (apply split_once_spec; auto). rewrite S.
  now rewrite beq_refl.
Qed.
Lemma filter_cons (x : bytes) l : filter relevant (x :: l) = filter relevant [x] ++ filter relevant l.
Proof. cbn. now destruct (relevant x). Qed.

(** The result is that of the first line naming the endpoint. *)
Definition first_named (e : bytes) (ls : list bytes) (t : bytes) : Prop :=
  exists pre l post, ls = pre ++ l :: post /\ names e l t /\ forall l' t', In l' pre -> ~ names e l' t'.
Lemma lookup_list_spec : forall ok ls e,
  (forall k, lookup_lines ok e (filter relevant ls) = Ok (Some k) <-> exists t, first_named e ls t /\ decode_verifying_key ok t = Some k) /\
  (lookup_lines ok e (filter relevant ls) = Err tt <-> exists t, first_named e ls t /\ decode_verifying_key ok t = None) /\
  (lookup_lines ok e (filter relevant ls) = Ok None <-> forall l t, In l ls -> ~ names e l t).
Proof.
  intros ok ls e.
  assert (D : (lookup_lines ok e (filter relevant ls) = Ok None /\ forall l t, In l ls -> ~ names e l t) \/
    exists t, first_named e ls t /\ lookup_lines ok e (filter relevant ls) =
      match decode_verifying_key ok t with Some k => Ok (Some k) | None => Err tt end).
  { induction ls as [|x ls IH]; [left; split; [reflexivity|intros ? ? []]|]. rewrite filter_cons, lookup_app.
    destruct (lookup_one ok e x) as [E|(t & N & E)].
    - rewrite E. assert (NN : forall t, ~ names e x t).
      { intros t N. rewrite (names_lookup ok e x t N) in E. destruct (decode_verifying_key ok t); discriminate. }
      destruct IH as [[I1 I2]|(t & (pre & l & post & -> & N & F) & I2)].
      + left. split; [assumption|]. intros l t [<-|I]; auto.
      + right. exists t. split; [|assumption]. exists (x :: pre), l, post. repeat split; auto; try apply N.
        intros l' t' [<-|I]; auto.
    - right. exists t. rewrite E. split; [exists [], x, ls; repeat split; auto; apply N|].
      now destruct (decode_verifying_key ok t). }
  assert (U : forall t t', first_named e ls t -> first_named e ls t' -> t = t').
  { intros t t' (pre & l & post & -> & N & F) (pre' & l' & post' & E & N' & F').
    assert (Q : forall (p p' : list bytes) a a' q q', p ++ a :: q = p' ++ a' :: q' -> In a p' \/ a = a' \/ In a' p).
    { induction p as [|y p IHp]; intros p' a a' q q' EQ; destruct p' as [|y' p']; cbn in EQ; injection EQ as E1 E2.
      - auto.
      - left. now left.
      - right. right. now left.
      - destruct (IHp _ _ _ _ _ E2) as [I|[I|I]]; [left; now right|auto|right; right; now right]. }
    destruct (Q _ _ _ _ _ _ E) as [I|[<-|I]].
    - destruct (F' _ _ I N).
    - destruct N as (N1 & N2 & _), N' as (N3 & N4 & _).
      assert (S : split_once l = Some (e, t)) by (apply split_once_spec; auto).
      assert (S' : split_once l = Some (e, t')) by (apply split_once_spec; auto). congruence.
    - destruct (F _ _ I N'). }
  assert (X : forall t, first_named e ls t -> ~ forall l t, In l ls -> ~ names e l t).
  { intros t (pre & l & post & -> & N & _) H. apply (H l t); [|assumption]. apply in_elt. }
  destruct D as [[D1 D2]|(t & D1 & D2)]; rewrite ?D1, ?D2.
  - split; [|split].
    + intros k. split; [discriminate|]. intros (t & F & _). destruct (X t F D2).
    + split; [discriminate|]. intros (t & F & _). destruct (X t F D2).
    + tauto.
  - split; [|split].
    + intros k. split.
      * destruct (decode_verifying_key ok t) eqn:Q; [|discriminate]. intros [= <-]. eauto.
      * intros (t' & F & Q). rewrite (U t t' D1 F), Q. reflexivity.
    + split.
      * destruct (decode_verifying_key ok t) eqn:Q; [discriminate|]. eauto.
      * intros (t' & F & Q). rewrite (U t t' D1 F), Q. reflexivity.
    + split; [destruct (decode_verifying_key ok t); discriminate|]. intros H. destruct (X t D1 H).
Qed.
Theorem lookup_spec : forall ok f ls e, lines_of f ls ->
  (forall k, get_from_known_hosts ok f e = Ok (Some k) <-> exists t, first_named e ls t /\ decode_verifying_key ok t = Some k) /\
  (get_from_known_hosts ok f e = Err tt <-> exists t, first_named e ls t /\ decode_verifying_key ok t = None) /\
  (get_from_known_hosts ok f e = Ok None <-> forall l t, In l ls -> ~ names e l t).
Proof. intros ok f ls e HL. apply lines_correct in HL. unfold get_from_known_hosts. rewrite HL. apply lookup_list_spec. Qed.
Print Assumptions lookup_spec.

(** ** Appending *)

Lemma lines_from_cut f acc g : lines_from acc (f ++ NL :: g) = lines_from acc (f ++ [NL]) ++ lines g.
Proof.
  revert acc. induction f as [|b f IH]; intros acc; cbn; [reflexivity|].
  destruct (b =? NL); [cbn; f_equal|]; apply IH.
Qed.
(** What happens to the last line when a newline is put behind it. *)
Lemma lines_from_close f acc : exists pre x, lines_from acc (f ++ [NL]) = pre ++ [strip_cr x] /\
  ((x <> [] /\ lines_from acc f = pre ++ [x]) \/ (x = [] /\ lines_from acc f = pre)).
Proof.
  revert acc. induction f as [|b f IH]; intros acc; cbn.
  - exists [], (rev acc). split; [reflexivity|]. destruct acc as [|a acc]; [now right|]. left. split; [|reflexivity].
    intros H. apply (f_equal (@length _)) in H. rewrite rev_length in H. discriminate.
  - destruct (b =? NL); [|apply IH]. destruct (IH []) as (pre & x & E & H). exists (strip_cr (rev acc) :: pre), x.
    rewrite E. split; [reflexivity|]. destruct H as [[N H]|[N H]]; rewrite H; auto.
Qed.
Lemma utf8_app a b : utf8 a = true -> utf8 (a ++ b) = utf8 b.
Proof.
  remember (length a) as n. revert a Heqn. induction n as [n IH] using lt_wf_ind. intros a -> U.
  destruct a as [|x a]; [reflexivity|]. cbn [app utf8] in U |- *.
  destruct (x <=? 127); [apply (IH (length a)); cbn; auto; lia|].
  destruct (inr 194 223 x).
  { destruct a as [|y a]; [discriminate|]. apply andb_true_iff in U. destruct U as [A U]. cbn [app]. rewrite A.
    apply (IH (length a)); cbn; auto; lia. }
  destruct (inr 224 239 x).
  { destruct a as [|y [|z a]]; try discriminate. apply andb_true_iff in U. destruct U as [A U]. cbn [app]. rewrite A.
    apply (IH (length a)); cbn; auto; lia. }
  destruct (inr 240 244 x); [|discriminate].
  destruct a as [|y [|z [|w a]]]; try discriminate. apply andb_true_iff in U. destruct U as [A U]. cbn [app]. rewrite A.
  apply (IH (length a)); cbn; auto; lia.
Qed.
Lemma b64_plain l : wf_bytes l -> Forall (fun c => 0 < c < 128 /\ ws1 c = false) (b64_encode l).
Proof.
  assert (C : forall n, n < 64 -> 0 < b64_char n < 128 /\ ws1 (b64_char n) = false).
  { intros n H. pose proof (b64_char_lt n H). pose proof (b64_char_pos n). split; [lia|].
    clear H0 H1. unfold b64_char. destruct (n <? 26) eqn:?; [unfold ws1, inr; lia|]. destruct (n <? 52) eqn:?; [unfold ws1, inr; lia|].
    destruct (n <? 62) eqn:?; [unfold ws1, inr; lia|]. destruct (n =? 62); reflexivity. }
  assert (P : 0 < PAD < 128 /\ ws1 PAD = false) by (split; [unfold PAD; lia|reflexivity]).
  induction l as [|a|a b|a b c l IH] using list_ind3; intros W; [constructor|..].
  - inversion_clear W as [|? ? Ha _]. cbn [b64_encode].
    repeat (constructor; [first [exact P|apply C; lia]|]); constructor.
  - inversion_clear W as [|? ? Ha W']. inversion_clear W' as [|? ? Hb _]. cbn [b64_encode].
    repeat (constructor; [first [exact P|apply C; lia]|]); constructor.
  - inversion_clear W as [|? ? Ha W']. inversion_clear W' as [|? ? Hb W''].
    inversion_clear W'' as [|? ? Hc Wl]. cbn [b64_encode app].
    repeat (constructor; [apply C; lia|]). auto.
Qed.
Lemma b64_no_ws l c : wf_bytes l -> ws1 c = true -> ~ In c (b64_encode l).
Proof.
  intros W H I. pose proof (b64_plain l W) as F. rewrite Forall_forall in F. apply F in I. destruct I. congruence.
Qed.
(** Text that contains a carriage return is no key. *)
Lemma decode_cr ok t : decode_verifying_key ok (t ++ [CR]) = None.
Proof.
  destruct (decode_verifying_key ok (t ++ [CR])) eqn:E; [|reflexivity]. exfalso.
  apply verifying_key_text_accepted_iff in E. destruct E as (l & E & W & _).
  apply (b64_no_ws l CR W eq_refl). rewrite <- E. apply in_elt.
Qed.
Lemma skipped_cr y : y <> [] -> ~ skipped y -> ~ skipped (y ++ [CR]).
Proof.
  intros NE H [U|[[x X]|B]]; apply H.
  - left. destruct (utf8 y) eqn:U'; [|reflexivity]. rewrite utf8_app in U by assumption. discriminate.
  - right. left. destruct y as [|b y]; [congruence|]. injection X as -> _. now exists y.
  - right. right. apply blank_rev_iff in B. apply blank_rev_iff. rewrite rev_app_distr in B. exact B.
Qed.
Lemma closed_line ok e x :
  match lookup_lines ok e (filter relevant [x]) with
  | Err _ => True
  | r => lookup_lines ok e (filter relevant [strip_cr x]) = r
  end.
Proof.
  destruct (strip_cr_cases x) as [E|[E _]].
  - destruct (lookup_one ok e (strip_cr x)) as [N|(t & N & _)].
    + rewrite N. destruct (lookup_one ok e x) as [R|(t & (E1 & E2 & E3) & R)]; rewrite R; [reflexivity|].
      destruct (decode_verifying_key ok t) as [k|] eqn:D; [|exact I].
      rewrite E in E1. assert (T : exists t', t = t' ++ [CR]).
      { destruct (exists_last (l := SPACE :: t)) as (u & c & U); [discriminate|].
        assert (c = CR).
        { assert (Q : strip_cr x ++ [CR] = (e ++ u) ++ [c]) by (rewrite <- app_assoc, <- U; exact E1).
          apply app_inj_tail in Q. destruct Q. congruence. }
        subst c. destruct u as [|s u]; [discriminate|]. injection U as _ U. eauto. }
      destruct T as [t' ->]. rewrite decode_cr in D. discriminate.
    + assert (NX : names e x (t ++ [CR])).
      { destruct N as (N1 & N2 & N3). rewrite E. split; [|split; [assumption|]].
        - rewrite N1 at 1. now rewrite <- app_assoc.
        - apply skipped_cr; [|assumption]. rewrite N1. now destruct e. }
      rewrite (names_lookup ok e x _ NX), decode_cr. exact I.
  - rewrite E. now destruct (lookup_lines ok e (filter relevant [x])).
Qed.

Lemma lookup_closed ok f e : match get_from_known_hosts ok f e with
  | Err _ => True
  | r => lookup_lines ok e (filter relevant (lines (f ++ [NL]))) = r
  end.
Proof.
  unfold get_from_known_hosts. destruct (lines_from_close f []) as (pre & x & E & H). fold (lines (f ++ [NL])) in E. fold (lines f) in H.
  rewrite E, filter_app, lookup_app. destruct H as [[_ ->]|[-> ->]].
  - rewrite filter_app, lookup_app. pose proof (closed_line ok e x) as C.
    destruct (lookup_lines ok e (filter relevant pre)) as [[k|]| |]; auto.
  - destruct (lookup_lines ok e (filter relevant pre)) as [[k|]| |]; auto.
Qed.
Lemma lookup_cut ok f g e : get_from_known_hosts ok (f ++ NL :: g) e =
  match lookup_lines ok e (filter relevant (lines (f ++ [NL]))) with
  | Ok None => get_from_known_hosts ok g e | r => r end.
Proof. unfold get_from_known_hosts, lines at 1. now rewrite lines_from_cut, filter_app, lookup_app. Qed.

(** The line appended for a host is found: the endpoint is text without space or newline that
    does not look like a comment. *)
Definition plain_endpoint (e : bytes) : Prop := utf8 e = true /\ ~ In 32 e /\ ~ In 10 e /\ ~ exists x, e = 35 :: x.
Definition is_key (ok : bytes -> bool) (k : bytes) : Prop := wf_bytes k /\ blen k = 32 /\ ok k = true.

Lemma entry_line e k ok : plain_endpoint e -> is_key ok k ->
  lines (e ++ [SPACE] ++ encode_key k ++ [NL]) = [e ++ SPACE :: encode_key k] /\ names e (e ++ SPACE :: encode_key k) (encode_key k).
Proof.
  intros (U & NS & NN & NH) (W & L & O). unfold encode_key.
  assert (LEN : blen (b64_encode k) = 44) by (rewrite b64_len, L; reflexivity).
  destruct (exists_last (l := b64_encode k)) as (u & c & E); [intros Z; rewrite Z in LEN; discriminate|].
  assert (NW : forall c, ws1 c = true -> ~ In c (b64_encode k)) by (intros; now apply b64_no_ws).
  assert (S : strip_cr (e ++ SPACE :: b64_encode k) = e ++ SPACE :: b64_encode k).
  { destruct (strip_cr_cases (e ++ SPACE :: b64_encode k)) as [Z|[Z _]]; [|exact Z]. exfalso.
    rewrite E in Z. rewrite app_comm_cons, app_assoc in Z. apply app_inj_tail in Z. destruct Z as [_ Z].
    apply (NW CR eq_refl). rewrite E, Z. apply in_elt. }
  split.
  - unfold lines. replace (e ++ [SPACE] ++ b64_encode k ++ [NL]) with ((e ++ SPACE :: b64_encode k) ++ [NL])
      by (rewrite <- app_assoc; reflexivity).
    rewrite lines_from_plain.
    + cbn [rev app]. rewrite S. reflexivity.
    + intros I. apply in_app_iff in I. destruct I as [I|[I|I]]; [auto|discriminate|]. now apply (NW NL eq_refl).
  - split; [reflexivity|]. split; [assumption|]. intros [X|[[x X]|X]].
    + rewrite utf8_app in X by assumption. cbn in X. destruct (ascii_utf8 (b64_encode k) (b64_ascii k W)). congruence.
    + destruct e as [|b e]; [discriminate|]. injection X as -> _. apply NH. now exists e.
    + apply blank_rev_iff in X. rewrite E, app_comm_cons, app_assoc, rev_app_distr in X. cbn [rev app trim_rev] in X.
      pose proof (b64_plain k W) as F. rewrite E in F. apply Forall_app in F. destruct F as [_ F].
      inversion_clear F as [|? ? [F1 F2] _]. rewrite F2 in X.
      destruct (rev (e ++ SPACE :: u)) as [|p [|q r]]; try discriminate X.
      * replace (ws2 p c) with false in X by (unfold ws2; destruct (p =? 194); cbn; lia). discriminate.
      * replace (ws2 p c) with false in X by (unfold ws2; destruct (p =? 194); cbn; lia).
        replace (ws3 q p c) with false in X; [discriminate|]. unfold ws3, inr. symmetry.
        repeat apply orb_false_intro; try (rewrite !andb_false_iff; right; try lia).
Qed.

(** What the file says about other endpoints, and about an endpoint whose key is already known,
    stays; an endpoint not known before is known with the appended key. *)
Theorem append_found : forall ok f e k, plain_endpoint e -> is_key ok k ->
  (get_from_known_hosts ok f e = Ok None -> get_from_known_hosts ok (append_to_known_hosts f e k) e = Ok (Some k)) /\
  (forall e' r, e' <> e \/ r <> None -> get_from_known_hosts ok f e' = Ok r ->
     get_from_known_hosts ok (append_to_known_hosts f e k) e' = Ok r).
Proof.
  intros ok f e k PE K. unfold append_to_known_hosts. cbn [app].
  destruct (entry_line e k ok PE K) as [EL EN].
  assert (G : forall e', get_from_known_hosts ok (e ++ [SPACE] ++ encode_key k ++ [NL]) e' =
     if beq e e' then Ok (Some k) else Ok None).
  { intros e'. unfold get_from_known_hosts. rewrite EL. destruct (beq e e') eqn:B.
    - apply beq_eq in B. subst e'. etransitivity; [exact (names_lookup ok e _ _ EN)|]. destruct K as (W & L & O).
      now rewrite verifying_key_round_trip.
    - apply beq_neq in B. destruct (lookup_one ok e' (e ++ SPACE :: encode_key k)) as [R|(t & (N1 & N2 & N3) & R)]; [exact R|].
      exfalso. apply B. assert (S : split_once (e ++ SPACE :: encode_key k) = Some (e', t)) by (apply split_once_spec; auto).
      assert (S' : split_once (e ++ SPACE :: encode_key k) = Some (e, encode_key k))
        by (apply split_once_spec; split; [reflexivity|apply PE]).
      congruence. }
  change (e ++ SPACE :: encode_key k ++ [NL]) with (e ++ [SPACE] ++ encode_key k ++ [NL]). split.
  - intros H. pose proof (lookup_closed ok f e) as C. rewrite H in C. rewrite lookup_cut, C, G. now rewrite beq_refl.
  - intros e' r D H. pose proof (lookup_closed ok f e') as C. rewrite H in C. rewrite lookup_cut, C.
    destruct r as [r|]; [reflexivity|]. destruct D as [D|]; [|congruence]. rewrite G.
    assert (B : beq e e' = false) by (apply beq_neq; congruence). now rewrite B.
Qed.
Print Assumptions append_found.

(** Over any history of transfers, with any endpoints and any keys that servers have used: a key
    once known for an endpoint remains the one that is found, so the next session with this
    endpoint insists on it. *)
Theorem known_key_kept : forall ok history f e k0, get_from_known_hosts ok f e = Ok (Some k0) ->
  let f' := fold_left (fun f '(remote, endpoint) => handle_hosts_file ok f remote endpoint) history f in
  get_from_known_hosts ok f' e = Ok (Some k0) /\ remote_key ok None (Some f') e = Ok (Some k0).
Proof.
  intros ok history f e k0 H. cbv zeta. cbn [remote_key].
  assert (X : get_from_known_hosts ok (fold_left (fun f '(remote, endpoint) => handle_hosts_file ok f remote endpoint) history f) e = Ok (Some k0));
    [|auto].
  revert f H. induction history as [|[r e'] h IH]; intros f H; cbn; [assumption|]. apply IH. unfold handle_hosts_file.
  destruct r as [k|]; [|assumption].
  assert (A : get_from_known_hosts ok (append_to_known_hosts f e' k) e = Ok (Some k0)).
  { unfold append_to_known_hosts. cbn [app]. pose proof (lookup_closed ok f e) as C. rewrite H in C. now rewrite lookup_cut, C. }
  now destruct (get_from_known_hosts ok f e') as [[k'|]| |].
Qed.
(** Trust on first use: after a transfer from an endpoint without a known key, the key its
    server used is the known one, and stays. *)
Theorem first_key_trusted : forall ok f e k history, plain_endpoint e -> is_key ok k ->
  get_from_known_hosts ok f e = Ok None ->
  get_from_known_hosts ok
    (fold_left (fun f '(remote, endpoint) => handle_hosts_file ok f remote endpoint) ((Some k, e) :: history) f) e = Ok (Some k).
Proof.
  intros ok f e k history PE K H. cbn [fold_left].
  refine (proj1 (known_key_kept ok history _ e k _)). unfold handle_hosts_file. rewrite H. exact (proj1 (append_found ok f e k PE K) H).
Qed.
Print Assumptions known_key_kept.
Print Assumptions first_key_trusted.

(** An endpoint that contains a space is never found, so that its key is never insisted on and
    the file grows with every transfer. *)
Theorem endpoint_with_space : forall ok f e k, In 32 e ->
  get_from_known_hosts ok f e = Ok None /\ handle_hosts_file ok f (Some k) e = append_to_known_hosts f e k.
Proof.
  intros ok f e k H. assert (G : get_from_known_hosts ok f e = Ok None).
  { destruct (lookup_spec ok f (lines f) e) as (_ & _ & L); [now apply lines_correct|]. apply L.
    intros l t _ (_ & N & _). contradiction. }
  split; [exact G|]. unfold handle_hosts_file. now rewrite G.
Qed.
(** A line with an invalid key before any other of its endpoint makes the client refuse to start,
    whatever is appended later (unless it was an unfinished last line ended by a carriage return). *)
Theorem invalid_line_stays : forall ok f e g, get_from_known_hosts ok f e = Err tt ->
  (forall x, f <> x ++ [13]) -> get_from_known_hosts ok (f ++ NL :: g) e = Err tt.
Proof.
  intros ok f e g H NC. rewrite lookup_cut. unfold get_from_known_hosts in H.
  destruct (lines_from_close f []) as (pre & x & E & D). fold (lines (f ++ [NL])) in E. fold (lines f) in D. rewrite E.
  rewrite filter_app, lookup_app. destruct D as [[NE D]|[-> D]]; rewrite D in H.
  - assert (S : strip_cr x = x).
    { destruct (pieces f) as (full & last & F & P & Q). pose proof (lines_pieces full last P Q) as LP. rewrite <- F, D in LP.
      destruct last as [|b last].
      - pose proof (lines_pieces (full ++ [[]]) []) as LN. rewrite map_app, concat_app in LN. cbn in LN.
        rewrite app_nil_r in LN. rewrite app_nil_r in F, LP. rewrite app_nil_r in LN. rewrite <- F in LN. rewrite E in LN.
        exfalso. assert (LL : pre ++ [strip_cr x] = map strip_cr full ++ [[]]).
        { rewrite <- (app_nil_r (map strip_cr full ++ [[]])). rewrite map_app in LN. cbn in LN. rewrite LN; [now rewrite app_nil_r| |auto].
          intros l I. apply in_app_iff in I. destruct I as [I|[<-|[]]]; auto. }
        rewrite <- LP in LL. rewrite <- app_assoc in LL. apply (f_equal (@length _)) in LL. rewrite !app_length in LL. cbn in LL. lia.
      - apply app_inj_tail in LP. destruct LP as [_ ->]. destruct (strip_cr_cases (b :: last)) as [Z|[Z _]]; [|exact Z]. exfalso.
        apply (NC (concat (map (fun l => l ++ [NL]) full) ++ strip_cr (b :: last))). rewrite <- app_assoc. change [13] with [CR].
        now rewrite <- Z. }
    rewrite S. rewrite filter_app, lookup_app in H.
    destruct (lookup_lines ok e (filter relevant pre)) as [[?|]| |]; auto; try discriminate. now rewrite H.
  - now rewrite H.
Qed.
Print Assumptions endpoint_with_space.
Print Assumptions invalid_line_stays.

(** A file of one key per line, with skipped lines anywhere, gives these keys. *)
Theorem authorized_keys_round_trip : forall ok ks f, keyfile ks f -> Forall (is_key ok) ks ->
  read_authorized_keys ok f = Some ks.
Proof.
  intros ok ks f H. induction H as [|k ks f crlf H IH|l ks f NL' SK H IH]; intros F; [reflexivity| |].
  - inversion_clear F as [|? ? (W & L & O) F']. specialize (IH F'). unfold read_authorized_keys in *.
    assert (NW : forall c, ws1 c = true -> ~ In c (b64_encode k)) by (intros; now apply b64_no_ws).
    assert (LEN : blen (b64_encode k) = 44) by (rewrite b64_len, L; reflexivity).
    destruct (exists_last (l := b64_encode k)) as (u & c & E); [intros Z; rewrite Z in LEN; discriminate|].
    assert (S : lines (encode_key k ++ (if crlf then [13; 10] else [10]) ++ f) = encode_key k :: lines f).
    { unfold lines, encode_key. destruct crlf.
      - change ([13; 10] ++ f) with ([CR] ++ NL :: f). rewrite app_assoc, lines_from_plain.
        + cbn [rev app]. now rewrite strip_cr_snoc.
        + intros I. apply in_app_iff in I. destruct I as [I|[I|[]]]; [now apply (NW NL eq_refl)|discriminate].
      - change ([10] ++ f) with (NL :: f). rewrite lines_from_plain by now apply NW. cbn [rev app]. f_equal.
        destruct (strip_cr_cases (b64_encode k)) as [Z|[Z _]]; [|exact Z]. exfalso. apply (NW CR eq_refl). rewrite Z. apply in_elt. }
    rewrite S. assert (R : relevant (encode_key k) = true).
    { apply relevant_iff. unfold encode_key. intros [X|[[y X]|X]].
      - destruct (ascii_utf8 (b64_encode k) (b64_ascii k W)). congruence.
      - pose proof (b64_round k W) as D. rewrite X in D. clear E S.
        destruct y as [|x1 [|x2 [|x3 [|x4 r]]]]; cbn in D; discriminate D.
      - apply blank_rev_iff in X. rewrite E, rev_app_distr in X. cbn [rev app trim_rev] in X.
        pose proof (b64_plain k W) as FF. rewrite E in FF. apply Forall_app in FF. destruct FF as [_ FF].
        inversion_clear FF as [|? ? [F1 F2] _]. rewrite F2 in X.
        destruct (rev u) as [|p [|q r]]; try discriminate X.
        + replace (ws2 p c) with false in X by (unfold ws2; destruct (p =? 194); cbn; lia). discriminate.
        + replace (ws2 p c) with false in X by (unfold ws2; destruct (p =? 194); cbn; lia).
          replace (ws3 q p c) with false in X; [discriminate|]. unfold ws3, inr. symmetry.
          repeat apply orb_false_intro; try (rewrite !andb_false_iff; right; try lia). }
    cbn [filter]. rewrite R. cbn [decode_all]. rewrite verifying_key_round_trip by assumption. now rewrite IH.
  - specialize (IH F). unfold read_authorized_keys in *. unfold lines. change ([10] ++ f) with (NL :: f).
    rewrite lines_from_plain by assumption. cbn [rev app filter].
    destruct (relevant (strip_cr l)) eqn:R; [|exact IH]. apply relevant_iff in R. contradiction.
Qed.
Print Assumptions authorized_keys_round_trip.

(** ** Cases *)
Definition kf_key (n : N) : bytes := repeat n 32.
Definition kf_file : bytes :=
  [35; 32; 107; 10] ++ [104; 32] ++ encode_key (kf_key 7) ++ [13; 10] ++ [255; 10] ++ [104; 32; 33; 10] ++ [103; 32; 33].
(** "h" is known, "g" has an invalid key, "k" is not known and becomes known. *)
Example known_hosts_case :
  let ok := fun _ => true in
  get_from_known_hosts ok kf_file [104] = Ok (Some (kf_key 7)) /\
  get_from_known_hosts ok kf_file [103] = Err tt /\
  get_from_known_hosts ok kf_file [107] = Ok None /\
  get_from_known_hosts ok (append_to_known_hosts kf_file [107] (kf_key 9)) [107] = Ok (Some (kf_key 9)) /\
  get_from_known_hosts ok (append_to_known_hosts kf_file [107] (kf_key 9)) [103] = Err tt /\
  length (lines kf_file) = 5%nat.
Proof. vm_compute. repeat split; reflexivity. Qed.
Example plain_endpoint_case : plain_endpoint [107] /\ is_key (fun _ => true) (kf_key 9).
Proof.
  split.
  - repeat split; try (intros [H|[]]; discriminate). intros [x [=]].
  - repeat split. apply Forall_forall. intros x H. apply repeat_spec in H. subst. reflexivity.
Qed.
(** The exception for an unfinished line: a key followed by a carriage return is refused, and is
    accepted as soon as a newline follows. *)
Example cr_case : let f := [104; 32] ++ encode_key (kf_key 7) ++ [13] in
  get_from_known_hosts (fun _ => true) f [104] = Err tt /\
  get_from_known_hosts (fun _ => true) (append_to_known_hosts f [107] (kf_key 9)) [104] = Ok (Some (kf_key 7)).
Proof. vm_compute. split; reflexivity. Qed.
(** Authorised keys: comment, key, blank line, key with the other line ending. *)
Example authorized_case : let f := [35; 10] ++ encode_key (kf_key 1) ++ [10] ++ [32; 9; 10] ++ encode_key (kf_key 2) ++ [13; 10] in
  read_authorized_keys (fun _ => true) f = Some [kf_key 1; kf_key 2] /\
  read_authorized_keys (fun _ => true) (f ++ [97]) = None /\
  keyfile [kf_key 1; kf_key 2] f.
Proof.
  split; [vm_compute; reflexivity|]. split; [vm_compute; reflexivity|].
  apply (KF_skip [35]); [intros [H|[]]; discriminate|right; left; now exists []|].
  apply (KF_key (kf_key 1) _ _ false). apply (KF_skip [32; 9]); [intros [H|[H|[]]]; discriminate|right; right; now apply trim_nil_iff|].
  apply (KF_key (kf_key 2) [] [] true). constructor.
Qed.
