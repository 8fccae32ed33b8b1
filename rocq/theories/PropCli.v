(** What the command line turns into: C61 (private keys), C62 (the server), C63 (the client) and
    C64 (names that are not given). *)
From Verif Require Import Base BaseProofs PacketModel PathModel PathSpec PathProofs Base64Model Base64Proofs KeyFileModel
  PropKeyFile ConfigModel CryptoModel CryptoSpec PropCrypto ExtModel ExtSpec ExtProofs HandshakeModel HandshakeProofs
  AgreeProofs PropHandshake PropAgree PropRefusal PropPath FsModel CliModel.

(** ** C61 private keys *)

(** The text [s] is taken for the key [k]: base64 of the key; shorter texts denote keys that end in
    zeros. *)
Definition key_text (s k : bytes) : Prop :=
  exists l, s = b64_encode l /\ wf_bytes l /\ blen l <= 87 /\ nth 32 l 0 = 0 /\ k = takeN 32 (l ++ repeat 0 32).
(** The first line of a file, without its newline. *)
Definition first_line (f line : bytes) : Prop :=
  ~ In 10 line /\ (f = line \/ exists rest, f = line ++ 10 :: rest).
(** Text without the white space at its end. *)
Definition no_space_end (t : bytes) : Prop := forall u s, In s space_chars -> t <> u ++ s.
Definition chopped (line t : bytes) : Prop := exists w, blank w /\ line = t ++ w /\ no_space_end t.

Lemma key_text_iff s k : decode_public_key s = Some k <-> key_text s k.
Proof. apply public_key_text_accepted_iff. Qed.

Lemma read_line_spec f : exists line, first_line f line /\
  (read_line f = line \/ read_line f = line ++ [10]).
Proof.
  induction f as [|b f (line & (N & D) & R)].
  - exists []. split; [split; [intros []|auto]|auto].
  - cbn [read_line]. destruct (N.eqb_spec b NL) as [->|NE].
    + exists []. split; [split; [intros []|right; now exists f]|right; reflexivity].
    + exists (b :: line). split.
      * split; [intros [E|I]; [now apply NE|auto]|]. destruct D as [->|(rest & ->)]; [auto|right; now exists rest].
      * destruct R as [-> | ->]; auto.
Qed.
Lemma first_line_unique f a b : first_line f a -> first_line f b -> a = b.
Proof.
  revert a b. induction f as [|x f IH]; intros a b [NA DA] [NB DB].
  - assert (a = []) by (destruct DA as [<-|(r & E)]; [reflexivity|destruct a; discriminate]).
    assert (b = []) by (destruct DB as [<-|(r & E)]; [reflexivity|destruct b; discriminate]). congruence.
  - assert (S : forall c, ~ In 10 c -> (x :: f = c \/ exists r, x :: f = c ++ 10 :: r) ->
        (c = [] /\ x = 10) \/ (exists c', c = x :: c' /\ x <> 10 /\ first_line f c')).
    { intros c NC [<-|(r & E)].
      - right. exists f. repeat split; [now intros ->; apply NC; left|intros I; apply NC; now right|auto].
      - destruct c as [|y c]; injection E as -> E; [auto|]. right. exists c. repeat split.
        + intros ->. apply NC. now left.
        + intros I. apply NC. now right.
        + right. now exists r. }
    destruct (S a NA DA) as [[-> X]|(a' & -> & X & FA)], (S b NB DB) as [[-> Y]|(b' & -> & Y & FB)]; try congruence.
    f_equal. now apply IH.
Qed.

Lemma trim_end_chopped line : chopped line (trim_end line).
Proof.
  unfold chopped, trim_end. destruct (trim_rev_split (rev line)) as (p & E & B). rewrite rev_involutive in E.
  exists p. split; [assumption|]. split; [assumption|]. clear E B.
  intros u s IS E. set (t := trim_rev (rev line)) in *.
  assert (ID : trim_rev t = t).
  { unfold t. generalize (rev line). intros l. induction l as [l IH] using (well_founded_induction (Wf_nat.well_founded_ltof _ (@length N))).
    destruct (trim_rev_eq l) as [Q|(s' & l' & I & Q & Q')]; [congruence|].
    rewrite Q'. apply IH. unfold Wf_nat.ltof. rewrite Q, app_length, rev_length.
    assert (s' <> []) by (intros ->; cbn in I; repeat destruct I as [I|I]; try discriminate; auto).
    destruct s'; [congruence|]. cbn. lia. }
  assert (ET : t = rev s ++ rev u) by (rewrite <- rev_app_distr, <- E; now rewrite rev_involutive).
  rewrite ET in ID.
  assert (BS : blank s) by (rewrite <- (app_nil_r s); apply blank_cons; [assumption|apply blank_nil]).
  rewrite (trim_rev_blank s (rev u) BS) in ID. apply (f_equal (@length N)) in ID.
  rewrite app_length, rev_length in ID.
  assert (LL : forall l, (length (trim_rev l) <= length l)%nat).
  { intros l. destruct (trim_rev_split l) as (q & Q & _). apply (f_equal (@length N)) in Q.
    rewrite rev_length, app_length, rev_length in Q. lia. }
  specialize (LL (rev u)).
  assert (s <> []) by (intros ->; cbn in IS; repeat destruct IS as [IS|IS]; try discriminate; auto).
  destruct s; [congruence|]. cbn in ID. lia.
Qed.
Lemma chopped_trim_end line t : chopped line t -> trim_end line = t.
Proof.
  intros (w & B & -> & NS). unfold trim_end. rewrite rev_app_distr, trim_rev_blank by assumption.
  destruct (trim_rev_eq (rev t)) as [E|(s & l' & I & E & _)]; [rewrite E; apply rev_involutive|].
  exfalso. apply (NS (rev l') s I). rewrite <- (rev_involutive t), E, rev_app_distr, rev_involutive. reflexivity.
Qed.
Lemma utf8_newline a : utf8 (a ++ [10]) = utf8 a.
Proof.
  remember (length a) as n. revert a Heqn. induction n as [n IH] using lt_wf_ind. intros a ->.
  destruct a as [|x a]; [reflexivity|]. cbn [app utf8].
  destruct (x <=? 127); [apply (IH (length a)); cbn; auto; lia|].
  destruct (inr 194 223 x).
  { destruct a as [|y a]; [reflexivity|]. cbn [app]. rewrite (IH (length a)); cbn; auto; lia. }
  destruct (inr 224 239 x).
  { destruct a as [|y [|z a]]; cbn [app]; try reflexivity.
    - change (cont 10) with false. now rewrite andb_false_r.
    - rewrite (IH (length a)); cbn; auto; lia. }
  destruct (inr 240 244 x); [|reflexivity].
  destruct a as [|y [|z [|w a]]]; cbn [app]; try reflexivity.
  - change (cont 10) with false. now rewrite andb_false_r.
  - rewrite (IH (length a)); cbn; auto; lia.
Qed.

(** Where a private key comes from: the argument is either itself the text of a key, or the name of
    a file with such a text in its first line. *)
Theorem private_key_source : forall h s k,
  read_private h s = Some k <->
  key_text s k \/
  ((forall k', ~ key_text s k') /\
   exists f line t, ho_file h s = Some f /\ first_line f line /\ utf8 line = true /\ chopped line t /\ key_text t k).
Proof.
  intros h s k. unfold read_private. destruct (decode_public_key s) as [k0|] eqn:D.
  - pose proof (proj1 (key_text_iff s k0) D) as K0. split.
    + intros [= <-]. now left.
    + intros [K|[N _]]; [|destruct (N _ K0)]. apply key_text_iff in K. congruence.
  - assert (N : forall k', ~ key_text s k') by (intros k' K; apply key_text_iff in K; congruence).
    assert (T : forall f, exists line, first_line f line /\
       (if utf8 (read_line f) then decode_public_key (trim_end (read_line f)) else None) =
       (if utf8 line then decode_public_key (trim_end line) else None)).
    { intros f. destruct (read_line_spec f) as (line & FL & [-> | ->]); exists line; (split; [assumption|]); [reflexivity|].
      rewrite utf8_newline. unfold trim_end. rewrite rev_app_distr. reflexivity. }
    split.
    + destruct (ho_file h s) as [f|] eqn:F; [|discriminate]. destruct (T f) as (line & FL & ->).
      destruct (utf8 line) eqn:U; [|discriminate]. intros H. right. split; [exact N|].
      exists f, line, (trim_end line). repeat split; try assumption; [apply FL|apply FL|apply trim_end_chopped|].
      now apply key_text_iff.
    + intros [K|(_ & f & line & t & -> & FL & U & C & K)]; [destruct (N _ K)|].
      destruct (T f) as (line' & FL' & ->). rewrite (first_line_unique f line' line FL' FL), U.
      rewrite (chopped_trim_end _ _ C). now apply key_text_iff.
Qed.
Print Assumptions private_key_source.

(** What the program's own encoding of a key is read back as, as an argument and from a file. *)
Theorem private_key_round_trip : forall h k, wf_bytes k -> blen k = 32 ->
  read_private h (encode_key k) = Some k /\
  forall name w rest, (forall k', ~ key_text name k') -> blank w -> utf8 w = true -> ~ In 10 w ->
    (ho_file h name = Some (encode_key k ++ w) \/ ho_file h name = Some (encode_key k ++ w ++ 10 :: rest)) ->
    read_private h name = Some k.
Proof.
  intros h k W L. pose proof (key_text_round_trip k W L) as D. split.
  - unfold read_private. now rewrite D.
  - intros name w rest N B U NN F. apply private_key_source. right. split; [exact N|].
    assert (A : Forall (fun c => 0 < c < 128) (b64_encode k)) by now apply b64_ascii.
    assert (exists f, ho_file h name = Some f /\ first_line f (encode_key k ++ w)) as (f & HF & FL).
    { assert (N10 : ~ In 10 (encode_key k ++ w)).
      { intros I. apply in_app_iff in I. destruct I as [I|I]; [|auto]. now apply (b64_no_ws k 10 W eq_refl). }
      destruct F as [-> | ->]; eexists; (split; [reflexivity|]); split; auto.
      right. exists rest. now rewrite <- app_assoc. }
    exists f, (encode_key k ++ w), (encode_key k). split; [assumption|]. split; [assumption|]. split.
    { rewrite utf8_app; [assumption|]. now apply ascii_utf8. }
    split; [|now apply key_text_iff].
    exists w. split; [assumption|]. split; [reflexivity|].
    intros u s IS E. assert (LEN : blen (encode_key k) = 44) by (unfold encode_key; rewrite b64_len, L; reflexivity).
    assert (X : forall c, In c s -> 0 < c < 128 /\ ws1 c = false).
    { intros c I. pose proof (b64_plain k W) as F'. rewrite Forall_forall in F'. apply F'.
      fold (encode_key k). rewrite E. apply in_app_iff. auto. }
    cbn in IS. repeat destruct IS as [<-|IS]; try contradiction;
      match type of X with forall c, In c (?x :: _) -> _ => specialize (X x (or_introl eq_refl)) end;
      destruct X as [X1 X2]; first [discriminate X2|lia].
Qed.
Print Assumptions private_key_round_trip.

(** A name made of letters, digits, "+" and "/" only, whose length is a multiple of four and at
    most 40, is never looked up: the name itself becomes the key, whatever the file contains. *)
Definition b64_letter (c : N) : Prop :=
  (65 <= c <= 90) \/ (97 <= c <= 122) \/ (48 <= c <= 57) \/ c = 43 \/ c = 47.
Lemma letter_val c : b64_letter c -> exists v, b64_val c = Some v.
Proof.
  intros H. unfold b64_val, inr.
  destruct ((65 <=? c) && (c <=? 90)) eqn:E1; [eauto|]. destruct ((97 <=? c) && (c <=? 122)) eqn:E2; [eauto|].
  destruct ((48 <=? c) && (c <=? 57)) eqn:E3; [eauto|]. destruct (N.eqb_spec c 43); [eauto|]. destruct (N.eqb_spec c 47); [eauto|].
  unfold b64_letter in H. lia.
Qed.
Lemma letters_decode s : Forall b64_letter s -> blen s mod 4 = 0 -> exists l, b64_decode s = Some l /\ blen l = blen s / 4 * 3.
Proof.
  induction s as [|a|a b|a b c|w x y z s IH] using list_ind4; intros F M; try discriminate M.
  - now exists [].
  - inversion_clear F as [|? ? Fw F1]. inversion_clear F1 as [|? ? Fx F2]. inversion_clear F2 as [|? ? Fy F3]. inversion_clear F3 as [|? ? Fz Fs].
    destruct (letter_val w Fw) as (p & P), (letter_val x Fx) as (q & Q), (letter_val y Fy) as (r & R), (letter_val z Fz) as (v & V).
    assert (NP : z =? PAD = false) by (unfold PAD, b64_letter in *; lia).
    rewrite !blen_cons in M. destruct s as [|u s].
    + cbn [b64_decode]. unfold b64_last. rewrite P, Q, R, V, NP. eexists. split; [reflexivity|reflexivity].
    + rewrite b64_decode_cons by discriminate. rewrite P, Q, R, V.
      destruct (IH Fs) as (l & -> & L); [lia|]. eexists. split; [reflexivity|]. rewrite !blen_cons, L, !blen_cons. lia.
Qed.
Theorem name_taken_for_key : forall s, Forall b64_letter s -> blen s mod 4 = 0 -> blen s <= 40 ->
  exists l, blen l = blen s / 4 * 3 /\ forall h, read_private h s = Some (l ++ repeat 0 (N.to_nat (32 - blen l))).
Proof.
  intros s F M L. destruct (letters_decode s F M) as (l & D & BL). exists l. split; [exact BL|]. intros h.
  destruct (b64_canonical s l D) as [W E].
  apply private_key_source. left. exists l. split; [now symmetry|]. split; [exact W|]. split; [lia|].
  split; [apply nth_overflow; unfold blen in *; lia|]. symmetry. apply takeN_pad; lia.
Qed.
Print Assumptions name_taken_for_key.
(** An empty argument and an empty first line are the key that consists of zeros. *)
Theorem empty_is_zero_key : forall h, read_private h [] = Some (repeat 0 32) /\
  forall name f line, (forall k, ~ key_text name k) -> ho_file h name = Some f -> first_line f line -> blank line -> utf8 line = true ->
    read_private h name = Some (repeat 0 32).
Proof.
  intros h. split; [reflexivity|]. intros name f line N F FL B U. apply private_key_source. right. split; [exact N|].
  exists f, line, []. split; [assumption|]. split; [assumption|]. split; [assumption|]. split.
  - exists line. repeat split; auto. intros u s IS E. symmetry in E. apply app_eq_nil in E. destruct E as [_ ->].
    cbn in IS. repeat destruct IS as [IS|IS]; try discriminate; auto.
  - apply key_text_iff. reflexivity.
Qed.
Print Assumptions empty_is_zero_key.

(** A host on which "/etc/key" and "server.key" hold the same key. *)
Definition ex_key : bytes := repeat 7 32.
Definition ex_host : host := mkHost
  (fun s => if beq s (s2b "0.0.0.0:69") then Some [mkAddr false (s2b "0.0.0.0") 69]
            else if beq s (s2b "server:69") then Some [mkAddr false (s2b "10.0.0.1") 69] else None)
  (fun p => if beq p (s2b "/etc/key") || beq p (s2b "server.key") then Some (encode_key ex_key ++ [13; 10] ++ s2b "old")
            else if beq p (s2b "allowed") then Some (s2b "# clients" ++ [10] ++ encode_key (repeat 9 32) ++ [10])
            else None).
Example private_key_cases :
  read_private ex_host (s2b "server.key") = Some ex_key /\
  read_private ex_host (s2b "/etc/key") = Some ([253; 235; 92; 254; 71; 178] ++ repeat 0 26) /\
  read_private ex_host (s2b "missing.key") = None.
Proof. vm_compute. auto. Qed.
Example name_taken_case : Forall b64_letter (s2b "/etc/key") /\ blen (s2b "/etc/key") = 8.
Proof. split; [|reflexivity]. repeat (apply Forall_cons; [unfold b64_letter; cbn; lia|]). apply Forall_nil. Qed.

(** ** C62 the server *)

(** Every argument that is accepted ends up unchanged in the configuration, and the limits are
    ones the server works with. *)
Theorem server_arguments : forall ok h a s, server_args_ok a = true -> server_config ok h a = Some s ->
  (* limits *)
  (512 <= sa_max_bs a <= 1425 /\ sc_max_bs (ss_cfg s) = sa_max_bs a) /\
  (1 <= sa_max_window a <= 1000 /\ sc_max_window (ss_cfg s) = sa_max_window a) /\
  (1 <= sa_max_conn a <= 5000 /\ ss_max_conn s = sa_max_conn a) /\
  sc_max_size (ss_cfg s) = sa_max_size a /\ sc_timeout (ss_cfg s) = sa_timeout a /\
  (* files *)
  ss_files s = mkFcfg (sa_dir a) (sa_overwrite a) (sa_list a) (sa_depth a) /\ sc_seek (ss_cfg s) = sa_seek a /\
  (* address and keys *)
  (exists l, ho_resolve h (sa_listen a) = Some (ss_listen s :: l)) /\
  match sa_key a with
  | Some t => exists k, read_private h t = Some k /\ sc_key (ss_cfg s) = Some k
  | None => sc_key (ss_cfg s) = None
  end /\
  match sa_auth a with
  | Some p => exists f ks, ho_file h p = Some f /\ read_authorized_keys ok f = Some ks /\ sc_auth (ss_cfg s) = Some ks
  | None => sc_auth (ss_cfg s) = None
  end /\
  (* switches *)
  (forall b, sa_full a = Some b -> sc_full (ss_cfg s) = b) /\
  (sa_full a = None -> (sc_full (ss_cfg s) = true <-> sa_auth a <> None)) /\
  (forall b, sa_err_auth a = Some b -> sc_err_auth (ss_cfg s) = b) /\
  (sa_err_auth a = None -> sc_err_auth (ss_cfg s) = sc_full (ss_cfg s)) /\
  (ss_port_change s = true <-> sa_port_change a = Some true).
Proof.
  intros ok h a s AO H. unfold server_args_ok, in_range, MAX_CLIENTS, MAX_WINDOW, MAX_BLOCK, DEFAULT_DATA_BLOCK_SIZE in AO.
  unfold server_config in H. destruct (first_addr h (sa_listen a)) as [l|] eqn:FA; [|discriminate].
  destruct (opt_private h (sa_key a)) as [key|] eqn:OP; [|discriminate].
  destruct (opt_keys ok h (sa_auth a)) as [auth|] eqn:OK; [|discriminate].
  injection H as <-. cbn [ss_cfg sc_max_bs sc_max_window sc_max_size sc_timeout sc_auth sc_key sc_full sc_err_auth sc_seek ss_files ss_max_conn ss_listen ss_port_change].
  unfold as_u16.
  do 2 (split; [split; [lia|apply N.mod_small; lia]|]). split; [split; [lia|apply N.mod_small; lia]|].
  do 4 (split; [reflexivity|]). split.
  { unfold first_addr, to_socket_addrs in FA. destruct (existsb _ _); [|discriminate].
    destruct (ho_resolve h (sa_listen a)) as [[|x r]|]; try discriminate. injection FA as ->. now exists r. }
  split.
  { unfold opt_private in OP. destruct (sa_key a) as [t|]; [|congruence].
    destruct (read_private h t) as [k|]; [|discriminate]. exists k. split; congruence. }
  split.
  { unfold opt_keys in OK. destruct (sa_auth a) as [p|]; [|congruence].
    destruct (ho_file h p) as [f|]; [|discriminate]. destruct (read_authorized_keys ok f) as [ks|] eqn:RA; [|discriminate].
    exists f, ks. repeat split; congruence. }
  destruct (sa_full a) as [b|]; (split; [congruence || discriminate|]).
  - split; [discriminate|]. split; [intros b' ->; reflexivity|]. split; [intros ->; reflexivity|].
    destruct (sa_port_change a) as [[]|]; split; congruence.
  - split; [intros _; destruct (sa_auth a); split; congruence|].
    split; [intros b' ->; reflexivity|]. split; [intros ->; reflexivity|].
    destruct (sa_port_change a) as [[]|]; split; congruence.
Qed.
Print Assumptions server_arguments.

(** A server that cannot read its list of keys, or finds an invalid key in it, does not start: it
    never falls back to serving everyone. *)
Theorem bad_key_list_no_start : forall ok h a p, sa_auth a = Some p ->
  (ho_file h p = None \/ exists f ls used l, ho_file h p = Some f /\ lines_of f ls /\ keeps (fun l => ~ skipped l) ls used /\
     In l used /\ decode_verifying_key ok l = None) ->
  server_config ok h a = None.
Proof.
  intros ok h a p HA B. assert (OK : opt_keys ok h (sa_auth a) = None).
  { unfold opt_keys. rewrite HA. destruct B as [-> |(f & ls & used & l & -> & LO & K & I & D)]; [reflexivity|].
    destruct (authorized_keys_spec ok f ls used LO K) as [_ E].
    rewrite (proj2 E); [reflexivity|]. eauto. }
  unfold server_config. rewrite OK. destruct (first_addr h (sa_listen a)); [|reflexivity].
  now destruct (opt_private h (sa_key a)).
Qed.
Print Assumptions bad_key_list_no_start.

(** Requests that do not come sealed under the server's key are not answered at all by a server
    that requires full encryption and keeps its errors to authorised clients. *)
Lemma locked_silent c cfg env av d : sc_full cfg = true -> sc_err_auth cfg = true ->
  from_new_connection c cfg d = (d, None, default_options) -> server_new c cfg env av d = SRefused None.
Proof.
  intros HF HE IC. unfold server_new. rewrite IC.
  assert (P : forall r, match server_parse c cfg (sc_max_window cfg) (h_eph env) (rq_exts r) default_options with
              | Err _ => True | _ => False end).
  { intros r. destruct (server_parse c cfg (sc_max_window cfg) (h_eph env) (rq_exts r) default_options) as [[[u o] k]|e|] eqn:SP; [|exact I|].
    - apply server_parse_inv in SP. destruct SP as [F _]. discriminate (F HF).
    - now apply server_parse_total in SP. }
  destruct (from_bytes d) as [p| |]; try reflexivity.
  destruct p as [r|r|b x|b|e m|ex]; try reflexivity; specialize (P r);
    (destruct (server_parse _ _ _ _ _ _) as [[[u o] k]|e|]; try contradiction; unfold reply_with_error; now rewrite HE).
Qed.

(** Naming a file of authorised keys, and nothing else about encryption, locks the server: whatever
    arrives, a connection is only made for a request that was sealed under the server's own key and
    is signed with a key of the list; whatever is not so sealed or so signed is not answered. *)
Theorem key_list_locks_server : forall c h a p s, crypto_ok c ->
  sa_auth a = Some p -> sa_full a = None -> sa_err_auth a = None -> server_config (c_vk_ok c) h a = Some s ->
  exists f ks, ho_file h p = Some f /\ read_authorized_keys (c_vk_ok c) f = Some ks /\
  forall env av d,
    (forall e reply, server_new c (ss_cfg s) env av d = SAccepted e reply ->
       exists r data key session, sealed_initial c (ss_cfg s) d data key /\ is_request data r /\
         authorised c ks (rq_exts r) session /\ es_key e = Some (c_dh c (h_eph env) session)) /\
    ((forall r data key session, sealed_initial c (ss_cfg s) d data key -> is_request data r -> ~ authorised c ks (rq_exts r) session) ->
     server_new c (ss_cfg s) env av d = SRefused None).
Proof.
  intros c h a p s HC HA HF HE H. unfold server_config in H. rewrite HA, HF, HE in H. cbv zeta in H.
  destruct (first_addr h (sa_listen a)) as [l|]; [|discriminate].
  destruct (opt_private h (sa_key a)) as [key0|]; [|discriminate]. cbn [opt_keys] in H.
  destruct (ho_file h p) as [f|]; [|discriminate]. destruct (read_authorized_keys (c_vk_ok c) f) as [ks|] eqn:RA; [|discriminate].
  injection H as <-. cbn [ss_cfg]. exists f, ks. split; [reflexivity|]. split; [exact RA|].
  set (cfg := mkScfg _ _ _ _ _ _ _ _ _). intros env av d.
  split.
  - intros e reply ACC.
    destruct (full_requires_sealed_request c cfg env av d e reply HC eq_refl ACC) as (r & key & data & S & IR & _).
    destruct (authorised_only c cfg env av d e reply ks HC eq_refl ACC) as (r' & session & CA & AU & EK & _).
    apply accepted_carries in ACC; [|assumption].
    destruct ACC as (r2 & hs & o0 & used & o & keys & size & _ & HS & SP & _ & EK2).
    pose proof SP as SP'. apply server_parse_inv in SP. destruct SP as [F [((N & _) & _)|(lv & session2 & SO & KK & _)]]; [discriminate N|].
    specialize (F eq_refl). destruct HS as [[_ ->]|(key2 & data2 & -> & -> & S2 & IR2)]; [discriminate F|].
    exists r2, data2, key2, session2. split; [exact S2|]. split; [exact IR2|]. split; [eapply session_authorised; eauto; reflexivity|].
    rewrite EK2, KK. reflexivity.
  - intros NA. destruct (from_new_cases c cfg d) as [E|(sk & q & data & K & P & D & E)]; [now apply locked_silent|].
    pose proof (sealed_intro c cfg d sk q data HC K P D) as S. set (key := c_dh c (c_scalar c sk) (snd q)) in *.
    unfold server_new. rewrite E.
    destruct (from_bytes data) as [pk| |] eqn:FB; try reflexivity.
    assert (NO : forall r, is_request data r ->
      match server_parse c cfg (sc_max_window cfg) (h_eph env) (rq_exts r) (set_enc default_options LFull) with Err _ => True | _ => False end).
    { intros r IR. destruct (server_parse _ _ _ _ _ _) as [[[used o] keys]|err|] eqn:SP; [|exact I|].
      - apply server_parse_inv in SP. destruct SP as [_ [((N & _) & _)|(lv & session & SO & _)]]; [discriminate N|].
        apply (NA r data key session S IR). eapply session_authorised; eauto; reflexivity.
      - now apply server_parse_total in SP. }
    destruct pk as [r|r|b x|b|e m|ex]; try reflexivity;
      (assert (IR : is_request data r) by (unfold is_request; auto); specialize (NO r IR);
       destruct (server_parse _ _ _ _ _ _) as [[[u o] k]|e|]; try contradiction; reflexivity).
Qed.
Print Assumptions key_list_locks_server.

(** In particular a server that was given a list of keys but no private key of its own serves
    nobody. *)
Theorem key_list_without_own_key : forall c h a p s, crypto_ok c ->
  sa_auth a = Some p -> sa_full a = None -> sa_err_auth a = None -> sa_key a = None ->
  server_config (c_vk_ok c) h a = Some s -> forall env av d, server_new c (ss_cfg s) env av d = SRefused None.
Proof.
  intros c h a p s HC HA HF HE HK H env av d.
  destruct (key_list_locks_server c h a p s HC HA HF HE H) as (f & ks & _ & _ & L).
  apply L. intros r data key session (sk & ct & tag & nonce & pk & padded & K & _) _ _.
  unfold server_config in H. rewrite HK in H. cbn [opt_private] in H.
  destruct (first_addr h (sa_listen a)); [|discriminate]. destruct (opt_keys _ _ _); [|discriminate].
  injection H as <-. discriminate K.
Qed.
Print Assumptions key_list_without_own_key.

Definition ex_server : server_args :=
  mkSA (s2b "0.0.0.0:69") (s2b "/srv") false 5000 1000 15000 104857600 1425 (Some (s2b "allowed")) (Some (s2b "server.key"))
    None None false None 10 None.
(** The same without a private key, and with a private key given by the name of a file that reads
    as a key. *)
Example server_cases :
  server_args_ok ex_server = true /\
  (exists s, server_config (c_vk_ok toy) ex_host ex_server = Some s /\ sc_key (ss_cfg s) = Some ex_key /\
     sc_auth (ss_cfg s) = Some [repeat 9 32] /\ sc_full (ss_cfg s) = true /\ sc_err_auth (ss_cfg s) = true) /\
  server_config (c_vk_ok toy) ex_host (mkSA (s2b "0.0.0.0:69") (s2b "/srv") false 5000 1000 15000 104857600 1425 (Some (s2b "missing"))
    None None None false None 10 None) = None /\
  (exists s, server_config (c_vk_ok toy) ex_host (mkSA (s2b "0.0.0.0:69") (s2b "/srv") false 5000 1000 15000 104857600 1425
    (Some (s2b "allowed")) None (Some false) None false None 10 None) = Some s /\ sc_full (ss_cfg s) = false /\ sc_err_auth (ss_cfg s) = false).
Proof. vm_compute. do 3 (split; [eauto 8|]); eauto 8. Qed.

(** ** C63 the client *)

(** The key that a server has to prove it owns: the one given on the command line, or else the one
    that the known hosts file has for exactly the text of the endpoint. *)
Definition expects (ok : bytes -> bool) (h : host) (a : client_args) (k : option bytes) : Prop :=
  match ca_server_key a, ca_known a with
  | Some t, _ => exists v, decode_verifying_key ok t = Some v /\ k = Some v
  | None, Some p => exists f, ho_file h p = Some f /\ get_from_known_hosts ok f (ca_endpoint a) = Ok k
  | None, None => k = None
  end.
Definition private_of (h : host) (t k : option bytes) : Prop :=
  match t with Some t => exists v, read_private h t = Some v /\ k = Some v | None => k = None end.

Theorem client_arguments : forall ok h bound write a given other seek s, client_args_ok a = true ->
  client_begin ok h bound write a given other seek = Some s ->
  (512 <= ca_bs a <= 1425 /\ op_bs (cl_opts s) = ca_bs a) /\
  (1 <= ca_window a <= 1000 /\ op_window (cl_opts s) = ca_window a) /\
  (80 <= ca_retry a < 255000 /\ op_retry (cl_opts s) = ca_retry a) /\
  ca_level a = level_show (op_enc (cl_opts s)) /\
  op_size (cl_opts s) = (if write then None else Some 0) /\
  cl_timeout s = ca_timeout a /\ cl_max_size s = ca_max_size a /\ cc_port_change (cl_cfg s) = ca_port_change a /\
  (cl_seek s = true <-> write = true /\ seek = true) /\
  expects ok h a (cc_remote (cl_cfg s)) /\ private_of h (ca_key a) (cc_key (cl_cfg s)) /\ private_of h (ca_file_key a) (cl_file_key s) /\
  (exists l, ho_resolve h (if existsb (N.eqb 58) (ca_endpoint a) then ca_endpoint a else ca_endpoint a ++ s2b ":69")
             = Some (cl_endpoint s :: l)).
Proof.
  intros ok h bound write a given other seek s AO H.
  unfold client_args_ok, in_range, MAX_WINDOW, MAX_BLOCK, DEFAULT_DATA_BLOCK_SIZE, DEFAULT_RETRY_PACKET_TIMEOUT in AO.
  unfold client_begin in H. destruct (listen_addr h a) as [l|]; [|discriminate]. destruct bound; [|discriminate]. cbn [negb] in H.
  destruct (level_parse (ca_level a)) as [lv|] eqn:LP; [|discriminate]. cbv zeta in H.
  destruct (match other with Some p => Some p | None => file_name given end) as [second|]; [|discriminate].
  destruct (client_config ok h a) as [[[[remote key] e] fk]|] eqn:CC; [|discriminate].
  injection H as <-. cbn [cl_opts cl_timeout cl_max_size cl_cfg cl_seek cl_file_key cl_endpoint op_bs op_window op_retry op_enc op_size cc_port_change cc_remote cc_key].
  unfold as_u16.
  do 2 (split; [split; [lia|apply N.mod_small; lia]|]). split; [split; [lia|reflexivity]|].
  split.
  { unfold level_parse in LP.
    repeat match type of LP with (if beq ?x ?y then _ else _) = _ => destruct (beq x y) eqn:?B;
      [apply beq_eq in B; injection LP as <-; exact B|clear B] end. discriminate. }
  do 4 (split; [reflexivity|]).
  split; [apply andb_true_iff|].
  unfold client_config in CC. destruct (client_remote_key ok h a) as [rk|] eqn:RK; [|discriminate].
  destruct (opt_private h (ca_key a)) as [k|] eqn:OP; [|discriminate].
  destruct (first_addr h (endpoint_text (ca_endpoint a))) as [ad|] eqn:FA; [|discriminate].
  destruct (opt_private h (ca_file_key a)) as [fk'|] eqn:OF; [|discriminate]. injection CC as <- <- <- <-.
  assert (PR : forall t k, opt_private h t = Some k -> private_of h t k).
  { intros [t|] k0; cbn; [|congruence]. destruct (read_private h t) as [v|]; [|discriminate]. intros [= <-]. eauto. }
  split.
  { unfold client_remote_key, expects in *. destruct (ca_server_key a) as [t|].
    - cbn [remote_key] in RK. destruct (decode_verifying_key ok t) as [v|]; [|discriminate]. exists v. split; congruence.
    - destruct (ca_known a) as [p|]; [|cbn in RK; congruence].
      destruct (ho_file h p) as [f|]; [|discriminate]. exists f. split; [reflexivity|]. cbn [remote_key] in RK.
      destruct (get_from_known_hosts ok f (ca_endpoint a)); congruence. }
  split; [now apply PR|]. split; [now apply PR|].
  unfold first_addr, to_socket_addrs, endpoint_text in FA. change COLON with 58 in FA.
  destruct (existsb (N.eqb 58) (ca_endpoint a)) eqn:EX.
  - rewrite EX in FA. destruct (ho_resolve h (ca_endpoint a)) as [[|x r]|]; try discriminate. injection FA as ->. now exists r.
  - destruct (existsb (N.eqb 58) (ca_endpoint a ++ s2b ":69")); [|discriminate FA].
    destruct (ho_resolve h (ca_endpoint a ++ s2b ":69")) as [[|x r]|]; try discriminate. injection FA as ->. now exists r.
Qed.
Print Assumptions client_arguments.
(** The local address of the client: the one given, otherwise any address (port chosen by the system)
    of the kind of the endpoint's first address. *)
Theorem client_local_address : forall ok h bound write a given other seek s,
  client_begin ok h bound write a given other seek = Some s ->
  match ca_listen a with
  | Some l => exists r, ho_resolve h l = Some (cl_listen s :: r)
  | None => exists e r, ho_resolve h (ca_endpoint a) = Some (e :: r) /\ cl_listen s = mkAddr (ad_v6 e) [] 0
  end.
Proof.
  intros ok h bound write a given other seek s H. unfold client_begin in H. destruct (listen_addr h a) as [l|] eqn:LA; [|discriminate].
  assert (E : cl_listen s = l).
  { destruct bound; [|discriminate]. cbn [negb] in H. destruct (level_parse (ca_level a)); [|discriminate]. cbv zeta in H.
    destruct (match other with Some p => Some p | None => file_name given end); [|discriminate].
    destruct (client_config ok h a) as [[[[remote key] e1] fk]|]; [|discriminate]. injection H as <-. reflexivity. }
  rewrite E. clear H E. assert (FA : forall t x, first_addr h t = Some x -> exists r, ho_resolve h t = Some (x :: r)).
  { intros t x. unfold first_addr, to_socket_addrs. destruct (existsb _ _); [|discriminate].
    destruct (ho_resolve h t) as [[|y r]|]; try discriminate. intros [= ->]. eauto. }
  unfold listen_addr in LA. destruct (ca_listen a) as [t|]; [apply FA; exact LA|].
  destruct (first_addr h (ca_endpoint a)) as [e0|] eqn:E0; [|discriminate]. injection LA as <-. destruct (FA _ _ E0) as [r R]. exists e0, r. auto.
Qed.
Print Assumptions client_local_address.

(** A key that cannot be read, or a known hosts file that does not exist, keeps the client from
    starting; it never goes on without the key. *)
Theorem bad_key_no_start : forall ok h bound write a given other seek,
  (forall k, ~ expects ok h a k) \/ (forall k, ~ private_of h (ca_key a) k) \/ (forall k, ~ private_of h (ca_file_key a) k) ->
  client_args_ok a = true -> client_begin ok h bound write a given other seek = None.
Proof.
  intros ok h bound write a given other seek B AO.
  destruct (client_begin ok h bound write a given other seek) as [s|] eqn:E; [|reflexivity]. exfalso.
  destruct (client_arguments _ _ _ _ _ _ _ _ _ AO E) as (_ & _ & _ & _ & _ & _ & _ & _ & _ & X1 & X2 & X3 & _).
  destruct B as [B|[B|B]]; eapply B; eassumption.
Qed.
Print Assumptions bad_key_no_start.

(** The default port exists only on paper: an endpoint without a port is rejected, unless the local
    address is given, too. *)
Theorem endpoint_without_port : forall ok h bound write a given other seek, ~ In 58 (ca_endpoint a) -> ca_listen a = None ->
  client_begin ok h bound write a given other seek = None.
Proof.
  intros ok h bound write a given other seek N L. unfold client_begin, listen_addr. rewrite L.
  unfold first_addr, to_socket_addrs. change COLON with 58.
  assert (existsb (N.eqb 58) (ca_endpoint a) = false) as ->; [|reflexivity].
  destruct (existsb (N.eqb 58) (ca_endpoint a)) eqn:E; [|reflexivity]. apply existsb_exists in E. destruct E as (x & I & X).
  apply N.eqb_eq in X. subst x. contradiction.
Qed.
Print Assumptions endpoint_without_port.

(** A client started at another level than "protocol" or "full" (the default is "optional-protocol"),
    or without knowing the server's key, is never answered by a server that was started with a list
    of keys, even if its own key is on the list. *)
Theorem default_level_not_served : forall c h a p s h' bound write ca given other seek cs eph hs nonce name d sk keys o1 ex,
  crypto_ok c ->
  sa_auth a = Some p -> sa_full a = None -> sa_err_auth a = None -> server_config (c_vk_ok c) h a = Some s ->
  client_args_ok ca = true -> client_begin (c_vk_ok c) h' bound write ca given other seek = Some cs ->
  ca_level ca <> s2b "protocol" /\ ca_level ca <> s2b "full" \/ ca_server_key ca = None /\ ca_known ca = None ->
  client_request c (cl_cfg cs) (cl_opts cs) eph hs nonce write name = Ok (d, sk, keys, o1, ex) ->
  unambiguous c (ss_cfg s) sk d ->
  forall env av, server_new c (ss_cfg s) env av d = SRefused None.
Proof.
  intros c h a p s h' bound write ca given other seek cs eph hs nonce name d sk keys o1 ex HC HA HF HE H AO CB LV CR UN env av.
  destruct (client_arguments _ _ _ _ _ _ _ _ _ AO CB) as (_ & _ & _ & LS & _ & _ & _ & _ & _ & EX & _).
  apply request_datagram in CR. destruct CR as (_ & _ & _ & _ & _ & _ & _ & _ & _ & D).
  assert (IC : in_clear c (ss_cfg s) d).
  { apply UN. destruct D as [(_ & _ & D)|(vk & RM & _ & D & _)].
    - destruct D as [->|D]; [auto|]. right. destruct D as [->|[->| ->]]; discriminate.
    - exfalso. destruct LV as [[L1 L2]|[L1 L2]].
      + destruct D as [D|D]; rewrite D in LS; auto.
      + unfold expects in EX. rewrite L1, L2 in EX. congruence. }
  unfold server_config in H. rewrite HA, HF, HE in H. cbv zeta in H.
  destruct (first_addr h (sa_listen a)) as [l|]; [|discriminate].
  destruct (opt_private h (sa_key a)) as [key0|]; [|discriminate].
  destruct (opt_keys _ _ _) as [au|]; [|discriminate]. injection H as <-. cbn [ss_cfg] in *.
  apply locked_silent; [reflexivity|reflexivity|]. now apply in_clear_new.
Qed.
Print Assumptions default_level_not_served.

(** Otherwise programs that were started fit together: of the conditions of C51 only those about
    encryption and size are left. *)
Theorem started_programs_fit : forall c h a s h' bound write ca given other seek cs size,
  server_args_ok a = true -> server_config (c_vk_ok c) h a = Some s ->
  client_args_ok ca = true -> client_begin (c_vk_ok c) h' bound write ca given other seek = Some cs ->
  (write = true -> match size with Some n => n <= U64_MAX /\ n <= sa_max_size a | None => True end) ->
  right_key c (ss_cfg s) (cl_cfg cs) ->
  (ca_level ca = s2b "full" -> cc_remote (cl_cfg cs) <> None) ->
  (sa_full a = Some true \/ sa_full a = None /\ sa_auth a <> None ->
     cc_remote (cl_cfg cs) <> None /\ (ca_level ca = s2b "full" \/ ca_level ca = s2b "protocol")) ->
  (sa_auth a <> None -> ca_level ca <> s2b "none" /\
     exists k ks, cc_key (cl_cfg cs) = Some k /\ sc_auth (ss_cfg s) = Some ks /\ In (c_vk c k) ks) ->
  compatible c (cl_cfg cs) (ss_cfg s) (if write then set_size (cl_opts cs) size else cl_opts cs) write.
Proof.
  intros c h a s h' bound write ca given other seek cs size AO SC CO CB SZ RK FL RQ AU.
  destruct (server_arguments _ _ _ _ AO SC) as ((B1 & B2) & (W1 & W2) & _ & MS & _ & _ & _ & _ & _ & AUT & F1 & F2 & _).
  destruct (client_arguments _ _ _ _ _ _ _ _ _ CO CB) as ((X1 & X2) & (Y1 & Y2) & _ & LS & OS & _).
  set (o := if write then set_size (cl_opts cs) size else cl_opts cs).
  assert (O1 : op_bs o = ca_bs ca) by (unfold o; destruct write; exact X2).
  assert (O2 : op_window o = ca_window ca) by (unfold o; destruct write; exact Y2).
  assert (O3 : level_show (op_enc o) = ca_level ca) by (unfold o; destruct write; symmetry; exact LS).
  assert (O4 : op_size o = if write then size else Some 0) by (unfold o; destruct write; [reflexivity|exact OS]).
  assert (LI : forall l, op_enc o = l <-> ca_level ca = level_show l).
  { intros l. rewrite <- O3. split; [now intros ->|]. destruct (op_enc o), l; cbn; intros E; discriminate E || reflexivity. }
  constructor.
  - lia.
  - lia.
  - rewrite O4, MS. destruct write; [specialize (SZ eq_refl)|].
    + destruct size; [|exact I]. repeat split; try tauto. discriminate.
    + unfold U64_MAX. repeat split; lia.
  - lia.
  - lia.
  - exact RK.
  - intros E. apply FL. now apply LI in E.
  - intros E. destruct RQ as [R1 R2].
    { destruct (sa_full a) as [b|]; [left; f_equal; rewrite <- (F1 b eq_refl); exact E|right; split; [reflexivity|now apply F2]]. }
    split; [exact R1|]. destruct R2 as [R2|R2]; [left|right]; now apply LI.
  - intros ks E. destruct AU as (A1 & k & ks' & A2 & A3 & A4).
    { destruct (sa_auth a); [discriminate|]. congruence. }
    split; [intros Z; apply A1; now apply LI in Z|]. exists k. split; [exact A2|]. congruence.
Qed.
Print Assumptions started_programs_fit.

Definition ex_client : client_args :=
  mkCA (s2b "server:69") (Some (s2b "0.0.0.0:69")) 15000 1425 8 80 10485760 (s2b "optional-protocol") None None None false None.
Definition with_endpoint (a : client_args) (e : bytes) (l : option bytes) : client_args :=
  mkCA e l (ca_timeout a) (ca_bs a) (ca_window a) (ca_retry a) (ca_max_size a) (ca_level a) (ca_key a) (ca_server_key a)
    (ca_known a) (ca_port_change a) (ca_file_key a).
Example client_cases :
  client_args_ok ex_client = true /\
  (exists s, client_begin (c_vk_ok toy) ex_host true false ex_client (s2b "dir/f.txt") None false = Some s /\
     cl_local s = s2b "f.txt" /\ cl_remote s = s2b "dir/f.txt" /\ ad_port (cl_endpoint s) = 69) /\
  (* no port: only with a local address *)
  client_begin (c_vk_ok toy) ex_host true false (with_endpoint ex_client (s2b "server") None) (s2b "f") None false = None /\
  (exists s, client_begin (c_vk_ok toy) ex_host true false (with_endpoint ex_client (s2b "server") (Some (s2b "0.0.0.0:69"))) (s2b "f") None false = Some s /\
     ad_port (cl_endpoint s) = 69).
Proof. vm_compute. do 3 (split; [eauto 8|]); eauto 8. Qed.
(** The default client against the locked server of [server_cases]. *)
Definition ex_server_keyless : server_args :=
  mkSA (s2b "0.0.0.0:69") (s2b "/srv") false 5000 1000 15000 104857600 1425 (Some (s2b "allowed")) None
    None None false None 10 None.
Example default_level_case :
  exists s cs d sk keys o1 ex, server_config (c_vk_ok toy) ex_host ex_server_keyless = Some s /\
    client_begin (c_vk_ok toy) ex_host true false ex_client (s2b "f") None false = Some cs /\
    client_request toy (cl_cfg cs) (cl_opts cs) [1; 2] [3; 4] (repeat 5 24) false (s2b "f") = Ok (d, sk, keys, o1, ex) /\
    unambiguous toy (ss_cfg s) sk d.
Proof.
  eexists _, _, _, _, _, _, _. split; [vm_compute; reflexivity|]. split; [vm_compute; reflexivity|]. split; [vm_compute; reflexivity|].
  intros _ p key (sk & ct & tag & nonce & pk & padded & K & _). discriminate K.
Qed.

(** ** C64 names that are not given *)

(** [n] is the name in the path [p]: its last component apart from empty ones and dots, and neither
    of these nor "..". *)
Definition last_name (p n : bytes) : Prop :=
  exists cs ds, components_of p (cs ++ n :: ds) /\ (forall d, In d ds -> d = [] \/ d = s2b ".") /\
    n <> [] /\ n <> s2b "." /\ n <> s2b "..".

Lemma pieces_last cs : match rev (flat_map piece cs) with
  | [] => forall d, In d cs -> d = [] \/ d = [DOT]
  | Normal s :: _ => exists a ds, cs = a ++ s :: ds /\ (forall d, In d ds -> d = [] \/ d = [DOT]) /\ s <> [] /\ s <> [DOT] /\ s <> [DOT; DOT]
  | _ :: _ => exists a ds, cs = a ++ [DOT; DOT] :: ds /\ (forall d, In d ds -> d = [] \/ d = [DOT])
  end.
Proof.
  induction cs as [|c cs IH] using rev_ind; [intros d []|].
  rewrite flat_map_app, rev_app_distr. cbn [flat_map]. rewrite app_nil_r. unfold piece at 1.
  assert (Z : c = [] \/ c = [DOT] -> match rev (flat_map piece cs) with
    | [] => forall d, In d (cs ++ [c]) -> d = [] \/ d = [DOT]
    | Normal s :: _ => exists a ds, cs ++ [c] = a ++ s :: ds /\ (forall d, In d ds -> d = [] \/ d = [DOT]) /\ s <> [] /\ s <> [DOT] /\ s <> [DOT; DOT]
    | _ :: _ => exists a ds, cs ++ [c] = a ++ [DOT; DOT] :: ds /\ (forall d, In d ds -> d = [] \/ d = [DOT])
    end).
  { intros HC. destruct (rev (flat_map piece cs)) as [|[| |s] r].
    - intros d I. apply in_app_iff in I. destruct I as [I|[<-|[]]]; auto.
    - destruct IH as (a & ds & -> & D). exists a, (ds ++ [c]). rewrite <- app_assoc. split; [reflexivity|].
      intros d I. apply in_app_iff in I. destruct I as [I|[<-|[]]]; auto.
    - destruct IH as (a & ds & -> & D). exists a, (ds ++ [c]). rewrite <- app_assoc. split; [reflexivity|].
      intros d I. apply in_app_iff in I. destruct I as [I|[<-|[]]]; auto.
    - destruct IH as (a & ds & -> & D & N). exists a, (ds ++ [c]). rewrite <- app_assoc. split; [reflexivity|]. split; [|exact N].
      intros d I. apply in_app_iff in I. destruct I as [I|[<-|[]]]; auto. }
  destruct (beq c []) eqn:E1; [apply beq_eq in E1; exact (Z (or_introl E1))|].
  destruct (beq c [DOT]) eqn:E2; [apply beq_eq in E2; exact (Z (or_intror E2))|].
  destruct (beq c [DOT; DOT]) eqn:E3.
  - apply beq_eq in E3. subst. cbn [rev app]. exists cs, []. split; [reflexivity|intros d []].
  - apply beq_neq in E1, E2, E3. cbn [rev app]. exists cs, []. split; [reflexivity|]. split; [intros d []|auto].
Qed.
Lemma last_unique (P : bytes -> Prop) a n ds a' n' ds' : a ++ n :: ds = a' ++ n' :: ds' ->
  (forall d, In d ds -> P d) -> (forall d, In d ds' -> P d) -> ~ P n -> ~ P n' -> n = n'.
Proof.
  revert a'. induction a as [|x a IH]; intros [|x' a'] E D D' N N'.
  - now injection E.
  - injection E as <- ->. exfalso. apply N', D. apply in_elt.
  - injection E as -> <-. exfalso. apply N, D'. apply in_elt.
  - injection E as _ E. now apply (IH a').
Qed.
Theorem file_name_iff : forall p n, file_name p = Some n <-> last_name p n.
Proof.
  intros p n. unfold file_name, components. pose proof (split_components p) as SC.
  destruct (split_slash p) as [|c cs] eqn:SP; [destruct (split_slash_ne p SP)|].
  assert (FE : (if beq c [DOT] then [CurDir] else piece c) ++ flat_map piece cs =
               (if beq c [DOT] then [CurDir] else []) ++ flat_map piece (c :: cs)).
  { destruct (beq c [DOT]) eqn:B; [|reflexivity]. apply beq_eq in B. subst c. reflexivity. }
  rewrite FE, rev_app_distr. pose proof (pieces_last (c :: cs)) as PL.
  assert (U : forall a ds, components_of p (a ++ n :: ds) -> c :: cs = a ++ n :: ds).
  { intros a ds H. apply components_unique in H. congruence. }
  set (P := fun d : bytes => d = [] \/ d = [DOT]).
  split.
  - intros H. destruct (rev (flat_map piece (c :: cs))) as [|[| |s] r]; cbn [app] in H; try discriminate.
    + destruct (beq c [DOT]); discriminate.
    + injection H as ->. destruct PL as (a & ds & E & D & N). exists a, ds. rewrite <- E. auto.
  - intros (a & ds & HC & D & N1 & N2 & N3). apply U in HC.
    assert (NP : ~ P n) by (intros [->| ->]; auto).
    destruct (rev (flat_map piece (c :: cs))) as [|[| |s] r]; cbn [app].
    + exfalso. apply NP. apply PL. rewrite HC. apply in_elt.
    + destruct PL as (a' & ds' & E & D'). exfalso. apply N3.
      apply (last_unique P a n ds a' [DOT; DOT] ds'); auto; [exact (eq_trans (eq_sym HC) E)|]. intros [X|X]; discriminate X.
    + destruct PL as (a' & ds' & E & D'). exfalso. apply N3.
      apply (last_unique P a n ds a' [DOT; DOT] ds'); auto; [exact (eq_trans (eq_sym HC) E)|]. intros [X|X]; discriminate X.
    + destruct PL as (a' & ds' & E & D' & M1 & M2 & M3). f_equal. symmetry.
      apply (last_unique P a n ds a' s ds'); auto; [exact (eq_trans (eq_sym HC) E)|]. intros [X|X]; auto.
Qed.

(** Sending without a remote name uses the name of the local file, receiving without a local name
    that of the remote file: one component, so that the file is written to the current directory;
    without such a name the program does not start. *)
Theorem names_not_given : forall ok h bound write a given seek s,
  client_begin ok h bound write a given None seek = Some s ->
  exists n, last_name given n /\ ~ In 47 n /\ n <> s2b "." /\ n <> s2b ".." /\
    cl_local s = (if write then given else n) /\ cl_remote s = (if write then n else given).
Proof.
  intros ok h bound write a given seek s H. unfold client_begin in H.
  destruct (listen_addr h a) as [la|]; [|discriminate]. destruct bound; [|discriminate]. cbn [negb] in H.
  destruct (level_parse (ca_level a)) as [lv|]; [|discriminate]. cbv zeta in H.
  destruct (file_name given) as [n|] eqn:F; [|discriminate].
  destruct (client_config ok h a) as [[[[remote key] e] fk]|]; [|discriminate]. injection H as <-.
  cbn [cl_local cl_remote]. apply file_name_iff in F. exists n. split; [exact F|].
  destruct F as (cs & ds & (_ & _ & NS) & _ & _ & N2 & N3).
  split; [apply NS; apply in_elt|]. auto.
Qed.
Theorem names_given : forall ok h bound write a given other seek s,
  client_begin ok h bound write a given (Some other) seek = Some s ->
  cl_local s = (if write then given else other) /\ cl_remote s = (if write then other else given).
Proof.
  intros ok h bound write a given other seek s H. unfold client_begin in H.
  destruct (listen_addr h a) as [la|]; [|discriminate]. destruct bound; [|discriminate]. cbn [negb] in H.
  destruct (level_parse (ca_level a)) as [lv|]; [|discriminate]. cbv zeta in H.
  destruct (client_config ok h a) as [[[[remote key] e] fk]|]; [|discriminate]. now injection H as <-.
Qed.
(** The server stores a file sent without a remote name under just that name, unless it is dots and
    white space, which it refuses. *)
Theorem default_remote_name_kept : forall p n, last_name p n ->
  (~ dotty n -> validate_file_name n = Ok n) /\ (dotty n -> normalize None n = None).
Proof.
  intros p n (cs & ds & (_ & _ & NS) & _ & N1 & _).
  assert (NN : ~ In 47 n) by (apply NS; apply in_elt). split.
  - intros ND. unfold validate_file_name. rewrite normalize_clean; [reflexivity|]. exists [n]. split.
    + split; [discriminate|]. split; [cbn; now rewrite app_nil_r|]. intros c [<-|[]]. exact NN.
    + intros c [<-|[]]. exact ND.
  - intros D. destruct (normalize None n) as [q|] eqn:E; [|reflexivity]. exfalso.
    destruct (name_confined n q E) as (a & ks & CA & K & CK & ND & NE & _).
    apply components_unique in CA. rewrite split_noslash in CA by exact NN. subst a.
    inversion K as [|? ? ? P K'|? ? ? P K']; subst; [contradiction|]. inversion K'; subst. now destruct CK.
Qed.
Print Assumptions file_name_iff.
Print Assumptions names_not_given.
Print Assumptions names_given.
Print Assumptions default_remote_name_kept.
Example last_name_cases :
  last_name (s2b "/tmp/dir//a.txt/./") (s2b "a.txt") /\ file_name (s2b "../..") = None /\ file_name (s2b "/") = None /\
  file_name (s2b "../../etc/passwd") = Some (s2b "passwd") /\ file_name (s2b ".") = None /\ file_name (s2b "./x/.") = Some (s2b "x").
Proof. split; [apply file_name_iff; reflexivity|]. vm_compute. auto 8. Qed.
