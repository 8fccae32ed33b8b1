(** What refused peers are told (C22, C59), what a client with a known server key accepts (C50),
    which texts carry padding (C31). *)
From Verif Require Import Base BaseProofs PacketModel PacketSpec PacketProofs ReaderModel ConfigModel Base64Model Base64Proofs
  CryptoModel CryptoSpec CryptoProofs ExtModel ExtSpec ExtProofs PathModel ConnModel HandshakeModel HandshakeProofs PropExt
  PropHandshake ClientWaitModel.

(** ** C31 exactly the texts ending in a run of 0 or 255 are padded *)
Lemma strip_run x l : exists k, l = repeat x k ++ strip x l /\ (forall t, strip x l <> x :: t).
Proof.
  induction l as [|a l IH]; [exists 0%nat; split; [reflexivity|discriminate]|]. cbn [strip].
  destruct (N.eqb_spec a x) as [->|NE].
  - destruct IH as (k & E & N). exists (S k). split; [cbn; now rewrite <- E|exact N].
  - exists 0%nat. split; [reflexivity|]. intros t [= -> _]. congruence.
Qed.
Theorem padding_removed_exactly : forall (b m : bytes),
  remove_bit_padding b = Ok m <->
  exists x k, (x = 0 \/ x = 255) /\ b = m ++ repeat x (S k) /\ forall t, m <> t ++ [x].
Proof.
  intros b m. split.
  - intros H. unfold remove_bit_padding in H. destruct (rev b) as [|last l] eqn:RB; [discriminate|].
    assert (G : forall x, x = last -> rev (strip x (last :: l)) = m ->
      exists k, b = m ++ repeat x (S k) /\ forall t, m <> t ++ [x]).
    { intros x -> HM. destruct (strip_run last l) as (k & E & N).
      cbn [strip] in HM. rewrite N.eqb_refl in HM. exists k. split.
      - rewrite <- (rev_involutive b), RB. cbn [rev]. rewrite E at 1. rewrite rev_app_distr, HM, <- app_assoc. f_equal.
        rewrite rev_repeat. change [last] with (repeat last 1). rewrite <- repeat_app. f_equal. lia.
      - intros t EM. apply (N (rev t)). rewrite <- (rev_involutive (strip last l)), HM, EM, rev_app_distr. reflexivity. }
    destruct (N.eqb_spec last 255) as [->|]; [|destruct (N.eqb_spec last 0) as [->|]; [|discriminate]];
      injection H as H; destruct (G _ eq_refl H) as (k & E & N); eexists; exists k; split; [|split; [exact E|exact N]| |split; [exact E|exact N]]; auto.
  - intros (x & k & HX & -> & HN). unfold remove_bit_padding.
    assert (ST : strip x (rev (m ++ repeat x (S k))) = rev m).
    { rewrite rev_app_distr, rev_repeat. generalize (S k). intros n. induction n as [|n IH]; cbn [repeat app strip].
      - destruct (rev m) as [|y t] eqn:E; [reflexivity|]. cbn [strip]. destruct (N.eqb_spec y x) as [->|]; [|reflexivity].
        exfalso. apply (HN (rev t)). rewrite <- (rev_involutive m), E. reflexivity.
      - rewrite N.eqb_refl. exact IH. }
    destruct (rev (m ++ repeat x (S k))) as [|last l] eqn:RB.
    { apply (f_equal (@length N)) in RB. rewrite rev_length, app_length, repeat_length in RB. cbn in RB. lia. }
    assert (last = x).
    { rewrite rev_app_distr, rev_repeat in RB. cbn in RB. congruence. }
    subst last. destruct HX as [->| ->]; cbn [N.eqb Pos.eqb].
    + rewrite ST, rev_involutive. reflexivity.
    + rewrite ST, rev_involutive. reflexivity.
Qed.
Theorem padding_missing_refused : forall b : bytes,
  (b = [] <-> remove_bit_padding b = Err EmptyBuffer) /\
  (forall t x, x <> 0 -> x <> 255 -> remove_bit_padding (t ++ [x]) = Err MissingPaddingByte).
Proof.
  intros b. split.
  - unfold remove_bit_padding. split; [intros ->; reflexivity|].
    destruct (rev b) as [|y l] eqn:E.
    + intros _. rewrite <- (rev_involutive b), E. reflexivity.
    + destruct (y =? 255); [discriminate|]. destruct (y =? 0); discriminate.
  - intros t x H0 H1. unfold remove_bit_padding. rewrite rev_app_distr. cbn [rev app].
    rewrite (proj2 (N.eqb_neq x 255)), (proj2 (N.eqb_neq x 0)) by assumption. reflexivity.
Qed.
Example padding_exact_case :
  remove_bit_padding [5; 0; 255; 255] = Ok [5; 0] /\ remove_bit_padding [5; 1] = Err MissingPaddingByte.
Proof. vm_compute. auto. Qed.
Print Assumptions padding_removed_exactly.
Print Assumptions padding_missing_refused.

(** ** C50 with a known server key only answers sealed under the shared key count *)
Theorem known_server_answer_sealed : forall c cfg o eph hs s keys o1 vk, crypto_ok c ->
  cc_remote cfg = Some vk -> (op_enc o = LFull \/ op_enc o = LProtocol) ->
  create_initial_socket c cfg o eph hs = (s, keys, o1) ->
  (forall d m, client_recv c s d = Ok m ->
     exists ct tag n padded, d = ct ++ tag ++ n /\ blen n = 24 /\
       c_seal c (c_dh c hs (c_mont c vk)) n padded = (ct, tag) /\ remove_bit_padding padded = Ok m) /\
  (forall sk, vk = c_vk c sk -> c_dh c hs (c_mont c vk) = c_dh c (c_scalar c sk) (c_pub c hs)) /\
  (* so whatever the client goes on with was sealed that way *)
  (forall g st i q port, wc_crypto g = c -> wc_sock g = s ->
     wait_turn g st i = WoDone q port ->
     exists ip wire ct tag n padded p, wi_ev i = WvFrom ip port wire /\ takeN (ws_cap st) wire = ct ++ tag ++ n /\
       c_seal c (c_dh c hs (c_mont c vk)) n padded = (ct, tag) /\ remove_bit_padding padded = Ok p /\
       query_step c (wc_cfg g) (wc_write g) (ws_initial st) (wc_opts g) (ws_used st) port (wc_txt g) p = QDone q).
Proof.
  intros c cfg o eph hs s keys o1 vk HC HR HL HI.
  assert (SL : forall d m, client_recv c s d = Ok m ->
     exists ct tag n padded, d = ct ++ tag ++ n /\ blen n = 24 /\
       c_seal c (c_dh c hs (c_mont c vk)) n padded = (ct, tag) /\ remove_bit_padding padded = Ok m).
  { intros d m H. unfold create_initial_socket in HI. rewrite HR in HI.
    assert (EN : level_eqb (op_enc o) LNone = false) by (destruct HL as [-> | ->]; reflexivity). rewrite EN in HI.
    injection HI as <- _ _.
    assert (H' : dec_packet c (c_dh c hs (c_mont c vk)) d = Ok m).
    { unfold client_recv in H. cbn [cs_level cs_key] in H. destruct HL as [E|E]; rewrite E in H; [|exact H].
      rewrite E in H. exact H. }
    exact (dec_packet_ok _ _ _ _ HC H'). }
  split; [exact SL|]. split.
  - intros sk ->. rewrite (ok_mont c HC), (ok_dh c HC). reflexivity.
  - intros g st i q port EG ES H. unfold wait_turn in H. destruct (negb (wi_sock i)); [discriminate|].
    destruct (wi_ev i) as [ip port' wire| |] eqn:EV; [|destruct (_ <? _); discriminate|discriminate].
    rewrite EG, ES in H. destruct (client_recv c s (takeN (ws_cap st) wire)) as [p| |] eqn:ER; try discriminate.
    destruct ip; [|discriminate].
    destruct (query_step _ _ _ _ _ _ _ _ _) as [|[e|]|q'] eqn:EQ; try discriminate. injection H as -> ->.
    destruct (SL _ _ ER) as (ct & tag & n & padded & E & _ & SE & RP).
    exists true, wire, ct, tag, n, padded, p. auto 10.
Qed.
Example known_server_answer_case :
  exists s keys o1, create_initial_socket toy ex_cc ex_o [1; 2] [3; 4] = (s, keys, o1) /\
    client_recv toy s (to_bytes (PAck 0)) = Err tt /\
    match ex_hs with
    | Some (SAccepted e (Some w), s', _, _, _, _) => exists m, client_recv toy s' w = Ok m
    | _ => False
    end.
Proof.
  do 3 eexists. split; [reflexivity|]. split; [vm_compute; reflexivity|].
  vm_compute. eexists. reflexivity.
Qed.
Print Assumptions known_server_answer_sealed.

(** ** C59 what refused peers are told *)
(** The error packets a refused request can be answered with. *)
Inductive told (cfg : scfg) (env : henv) (r : request) : packet -> Prop :=
| told_options e : told cfg env r (PError IllegalOperation (h_text env e))
| told_cannot_open what t rest path :
    (what = s2b "Unable to read file " \/ what = s2b "Unable to write file ") ->
    rq_name r = t ++ rest -> blen t <= 100 ->
    normalize None (rq_name r) = Some path -> h_open env path = None ->
    told cfg env r (PError DiskFull (what ++ t))
| told_busy : told cfg env r (PError DiskFull (s2b "Server resources busy")).
(** The two complaints about the request itself. *)
Inductive complaint (cfg : scfg) (r : request) : packet -> Prop :=
| complaint_size n : sc_max_size cfg < n -> complaint cfg r (PError DiskFull (s2b "Invalid file size received " ++ show_num n))
| complaint_name t rest : rq_name r = t ++ rest -> blen t <= 100 -> normalize None (rq_name r) = None ->
    complaint cfg r (PError AccessViolation (s2b "Invalid file name received " ++ t)).

Theorem refused_peer_told : forall c cfg env av d w, crypto_ok c ->
  server_new c cfg env av d = SRefused (Some w) ->
  exists r,
    (* in clear, whatever the configuration *)
    (carries c cfg d r /\ exists p, complaint cfg r p /\ w = to_bytes p) \/
    (* otherwise only without error_to_authorized_only *)
    (sc_err_auth cfg = false /\ exists p, told cfg env r p /\
       ((is_request d r /\ w = to_bytes p) \/
        (* requests that came sealed get sealed answers under the same key *)
        (exists data key ct tag padded, sealed_initial c cfg d data key /\ is_request data r /\
           w = ct ++ tag ++ h_nonce env /\ c_seal c key (h_nonce env) padded = (ct, tag) /\
           remove_bit_padding padded = Ok (to_bytes p)))).
Proof.
  intros c cfg env av d w HC H. unfold server_new in H.
  destruct (from_new_connection c cfg d) as [[buf hs] o0] eqn:FN.
  assert (W : exists r, is_request buf r /\
    ((exists p, complaint cfg r p /\ w = to_bytes p) \/
     (exists o p, told cfg env r p /\ reply_with_error c cfg o hs env p = Some w))).
  { assert (ES : forall (name t : bytes), ensure_size name 100 = Ok t -> exists rest, name = t ++ rest /\ blen t <= 100).
    { intros name t. unfold ensure_size. destruct (100 <? blen name) eqn:L.
      - destruct (char_boundary name 100); [|discriminate]. intros [= <-]. exists (dropN 100 name).
        split; [symmetry; apply takeN_dropN|]. rewrite blen_takeN. lia.
      - intros [= <-]. exists []. rewrite app_nil_r. split; [reflexivity|]. lia. }
    assert (VAL : forall r size p, validate_request_options (sc_max_size cfg) (rq_name r) size = Err p -> complaint cfg r p).
    { intros r size p. unfold validate_request_options, handle_file_size.
      destruct (sc_max_size cfg <? _) eqn:L.
      - intros [= <-]. constructor. lia.
      - unfold validate_file_name. destruct (normalize None (rq_name r)) eqn:EN; [discriminate|].
        destruct (ensure_size (rq_name r) 100) as [t| |] eqn:EE; try discriminate. intros [= <-].
        destruct (ES _ _ EE) as (rest & E1 & E2). now apply complaint_name with rest. }
    assert (VOK : forall r size path, validate_request_options (sc_max_size cfg) (rq_name r) size = Ok path ->
              normalize None (rq_name r) = Some path).
    { intros r size path. unfold validate_request_options, handle_file_size.
      destruct (sc_max_size cfg <? _); [discriminate|]. unfold validate_file_name.
      destruct (normalize None (rq_name r)); [congruence|]. destruct (ensure_size _ _); discriminate. }
    assert (OPF : forall o r what path, open_failed c cfg o hs env what (rq_name r) = SRefused (Some w) ->
              (what = s2b "Unable to read file " \/ what = s2b "Unable to write file ") ->
              normalize None (rq_name r) = Some path -> h_open env path = None ->
              exists o p, told cfg env r p /\ reply_with_error c cfg o hs env p = Some w).
    { intros o r what path HO HW EN OP. unfold open_failed in HO. destruct (ensure_size _ _) as [t| |] eqn:EE; try discriminate.
      injection HO as HO. destruct (ES _ _ EE) as (rest & E1 & E2).
      exists o, (PError DiskFull (what ++ t)). split; [|exact HO]. exact (told_cannot_open cfg env r what t rest path HW E1 E2 EN OP). }
    assert (ACC : forall n e used keys, accept_connection c env n e used keys <> SRefused (Some w)).
    { intros n e used keys. unfold accept_connection. destruct (0 <? ext_len used); [destruct (send_packet _ _ _ _ _ _); discriminate|].
      destruct (es_write e); [destruct (send_packet _ _ _ _ _ _); discriminate|discriminate]. }
    destruct (from_bytes buf) as [p| |] eqn:FB; try discriminate.
    assert (SV : forall (write : bool) r, is_request buf r ->
      match server_parse c cfg (sc_max_window cfg) (h_eph env) (rq_exts r) o0 with
      | Panic => SPanic
      | Err e => SRefused (reply_with_error c cfg o0 hs env (PError IllegalOperation (h_text env e)))
      | Ok (used, o, keys) =>
          if write then build_writer c cfg env (blen buf) hs (rq_name r) used o keys
          else build_reader c cfg env av (blen buf) hs (rq_name r) used o keys
      end = SRefused (Some w) ->
      exists r, is_request buf r /\
        ((exists p, complaint cfg r p /\ w = to_bytes p) \/
         (exists o p, told cfg env r p /\ reply_with_error c cfg o hs env p = Some w))).
    { clear p FB H. intros write r IR H. exists r. split; [exact IR|].
      destruct (server_parse _ _ _ _ _ _) as [[[used o] keys]|e|]; try discriminate.
      - destruct write.
        + unfold build_writer in H. destruct (validate_request_options _ _ _) as [path|p|] eqn:V; try discriminate.
          * pose proof (VOK _ _ _ V) as EN. destruct (h_open env path) as [size|] eqn:OP.
            -- destruct (h_bind env); [|discriminate]. now destruct (ACC _ _ _ _ H).
            -- right. eapply OPF; eauto.
          * left. injection H as <-. exists p. split; [eapply VAL; eauto|reflexivity].
        + unfold build_reader in H. destruct (validate_request_options _ _ _) as [path|p|] eqn:V; try discriminate.
          * pose proof (VOK _ _ _ V) as EN. destruct (h_open env path) as [size|] eqn:OP.
            -- cbv zeta in H. destruct (h_bind env); [|discriminate]. destruct (block_reader _ _ _); [now destruct (ACC _ _ _ _ H)|].
               injection H as H. right. eexists. exists (PError DiskFull (s2b "Server resources busy")). split; [constructor|exact H].
            -- right. eapply OPF; eauto.
          * left. injection H as <-. exists p. split; [eapply VAL; eauto|reflexivity].
      - injection H as H. right. exists o0, (PError IllegalOperation (h_text env e)). split; [constructor|exact H]. }
    destruct p as [r|r|b x|b|co m|m]; try discriminate.
    - apply (SV false r); [now left|exact H].
    - apply (SV true r); [now right|exact H]. }
  destruct W as (r & IR & W). exists r.
  assert (CA : hs = None /\ buf = d \/ exists key, hs = Some key /\ sealed_initial c cfg d buf key).
  { destruct (from_new_cases c cfg d) as [E|(sk & p' & data & K & P & D & E)]; rewrite FN in E; injection E as -> -> ->.
    - now left.
    - right. eexists. split; [reflexivity|]. exact (sealed_intro c cfg d sk p' data HC K P D). }
  destruct W as [(p & CP & ->)|(o & p & TO & RW)].
  - left. split; [|eauto]. destruct CA as [[_ ->]|(key & _ & S)]; [now left|right; eauto].
  - right. unfold reply_with_error in RW. destruct (sc_err_auth cfg); [discriminate|]. split; [reflexivity|].
    exists p. split; [exact TO|]. destruct CA as [[-> ->]|(key & -> & S)].
    + left. injection RW as <-. auto.
    + right. destruct (enc_packet c key (h_nonce env) (to_bytes p) (bs_enc o)) as [w'| |] eqn:E; try discriminate. injection RW as ->.
      unfold enc_packet, bindr in E. destruct (apply_bit_padding (to_bytes p) (bs_enc o)) as [padded| |] eqn:EP; try discriminate.
      unfold encrypt in E. replace (blen padded <? 0) with false in E by lia.
      destruct (c_seal c key (h_nonce env) (dropN 0 padded)) as [ct tag] eqn:SE. injection E as <-.
      exists buf, key, ct, tag, padded. split; [exact S|]. split; [exact IR|]. split; [reflexivity|]. split; [exact SE|].
      exact (pad_round _ _ _ EP).
Qed.

(** A server that answers errors to authorised peers only does not answer others at all. *)
Theorem unauthorised_silence : forall c cfg env av d ks, crypto_ok c -> sc_auth cfg = Some ks -> sc_err_auth cfg = true ->
  (forall r session, carries c cfg d r -> ~ authorised c ks (rq_exts r) session) ->
  server_new c cfg env av d = SRefused None.
Proof.
  intros c cfg env av d ks HC HK HE NA. unfold server_new.
  destruct (from_new_connection c cfg d) as [[buf hs] o0] eqn:FN.
  destruct (from_bytes buf) as [p| |] eqn:FB; try reflexivity.
  assert (CA : forall r, is_request buf r -> carries c cfg d r).
  { intros r IR. destruct (from_new_cases c cfg d) as [E|(sk & p' & data & K & P & D & E)]; rewrite FN in E; injection E as -> -> ->.
    - now left.
    - right. pose proof (sealed_intro c cfg d sk p' data HC K P D). eauto. }
  assert (NO : forall r, is_request buf r ->
    match server_parse c cfg (sc_max_window cfg) (h_eph env) (rq_exts r) o0 with Err _ => True | _ => False end).
  { intros r IR. destruct (server_parse c cfg (sc_max_window cfg) (h_eph env) (rq_exts r) o0) as [[[used o] keys]|err|] eqn:SP; [|exact I|].
    - apply server_parse_inv in SP. destruct SP as [_ [((N & _) & _)|(l & session & SO & _)]]; [congruence|].
      exact (NA r session (CA r IR) (session_authorised _ _ _ _ _ _ _ SO HK)).
    - exact (server_parse_total _ _ _ _ _ _ SP). }
  destruct p as [r|r|b x|b|co m|m]; try reflexivity;
    [specialize (NO r (or_introl FB))|specialize (NO r (or_intror FB))];
    destruct (server_parse _ _ _ _ _ _) as [x|err|]; try contradiction; unfold reply_with_error; rewrite HE; reflexivity.
Qed.

(** Only requests are answered: any other datagram of an unknown peer is dropped. *)
Theorem only_requests_answered : forall c cfg env av d, crypto_ok c ->
  (forall r, ~ carries c cfg d r) -> server_new c cfg env av d = SRefused None.
Proof.
  intros c cfg env av d HC NA. unfold server_new.
  destruct (from_new_connection c cfg d) as [[buf hs] o0] eqn:FN.
  assert (CA : forall r, is_request buf r -> carries c cfg d r).
  { intros r IR. destruct (from_new_cases c cfg d) as [E|(sk & p' & data & K & P & D & E)]; rewrite FN in E; injection E as -> -> ->.
    - now left.
    - right. pose proof (sealed_intro c cfg d sk p' data HC K P D). eauto. }
  destruct (from_bytes buf) as [p| |] eqn:FB; try reflexivity.
  destruct p as [r|r|b x|b|co m|m]; try reflexivity; exfalso; apply (NA r), CA; [left|right]; exact FB.
Qed.
Example refused_cases :
  let cfg b := mkScfg 1400 8 5000 1000 None None false b false in
  let env := mkHenv [] (repeat 1 24) (fun _ => None) true true (fun _ => []) in
  let rq n e := to_bytes (PRead (mkReq n e)) in
  server_new toy (cfg false) env av_all (rq (s2b "a/b") exts_empty) =
    SRefused (Some (to_bytes (PError DiskFull (s2b "Unable to read file a/b")))) /\
  server_new toy (cfg true) env av_all (rq (s2b "a/b") exts_empty) = SRefused None /\
  server_new toy (cfg true) env av_all (rq (s2b "../..") exts_empty) =
    SRefused (Some (to_bytes (PError AccessViolation (s2b "Invalid file name received ../..")))) /\
  server_new toy (cfg true) env av_all (to_bytes (PAck 1)) = SRefused None.
Proof. vm_compute. auto. Qed.
Print Assumptions refused_peer_told.
Print Assumptions unauthorised_silence.
Print Assumptions only_requests_answered.
