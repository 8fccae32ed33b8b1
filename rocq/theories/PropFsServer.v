(** C57 (continued): no datagram makes a server touch files outside its directory. *)
From Verif Require Import Base BaseProofs PacketModel ReaderModel ConfigModel CryptoModel CryptoSpec ExtModel PathModel PathSpec PathProofs PropPath
  HandshakeModel HandshakeProofs FsModel FsSpec FsProofs PropFs FsServerModel.

(** The file system is asked at most once, for the path of [file_request]: *)
Theorem asked_once : forall c cfg env env' av d,
  h_eph env = h_eph env' -> h_nonce env = h_nonce env' -> h_bind env = h_bind env' -> h_send env = h_send env' -> h_text env = h_text env' ->
  match file_request c cfg (h_eph env) d with
  | Some (_, path) => h_open env path = h_open env' path
  | None => True
  end ->
  server_new c cfg env av d = server_new c cfg env' av d.
Proof.
  intros c cfg [e1 e2 o e3 e4 e5] [e1' e2' o' e3' e4' e5'] av d. cbn [h_eph h_nonce h_open h_bind h_send h_text]. intros -> -> -> -> -> H.
  unfold file_request, server_new in *. cbn [h_eph]. destruct (from_new_connection c cfg d) as [[buf hs] o0].
  destruct (from_bytes buf) as [[r|r|?|?|?|?]|?|]; try reflexivity;
    (destruct (server_parse _ _ _ _ _ _) as [[[used op] keys]|?|]; [|reflexivity|reflexivity]).
  - unfold build_reader. destruct (validate_request_options _ _ _) as [path|?|]; [|reflexivity|reflexivity]. cbn [h_open] in *. rewrite H.
    destruct (o' path); [|reflexivity]. cbn [h_bind]. destruct e3'; [|reflexivity]. cbn zeta. destruct (block_reader _ _ _); reflexivity.
  - unfold build_writer. destruct (validate_request_options _ _ _) as [path|?|]; [|reflexivity|reflexivity]. cbn [h_open] in *. rewrite H.
    destruct (o' path); [|reflexivity]. cbn [h_bind]. destruct e3'; reflexivity.
Qed.
Lemma request_normal c cfg eph d w path : file_request c cfg eph d = Some (w, path) -> exists name, normalize None name = Some path.
Proof.
  unfold file_request. destruct (from_new_connection c cfg d) as [[buf hs] o0].
  assert (W : forall write r, match server_parse c cfg (sc_max_window cfg) eph (rq_exts r) o0 with
    | Ok (_, o, _) =>
        match validate_request_options (sc_max_size cfg) (rq_name r) (op_size o) with
        | Ok path => Some (write, path)
        | _ => None
        end
    | _ => None
    end = Some (w, path) -> exists name, normalize None name = Some path).
  { intros write r. destruct (server_parse _ _ _ _ _ _) as [[[used op] keys]|?|]; try discriminate.
    destruct (validate_request_options _ _ _) as [p|?|] eqn:V; try discriminate. intros [= <- <-].
    unfold validate_request_options in V. destruct (handle_file_size _ _); try discriminate. unfold validate_file_name in V.
    destruct (normalize None (rq_name r)) as [q|] eqn:N; [|destruct (ensure_size _ _); discriminate]. injection V as <-.
    exists (rq_name r). exact N. }
  destruct (from_bytes buf) as [[r|r|?|?|?|?]|?|]; try discriminate; apply W.
Qed.
Lemma request_clean c cfg eph d w path : file_request c cfg eph d = Some (w, path) -> exists cs, clean_path path cs.
Proof.
  intros H. destruct (request_normal _ _ _ _ _ _ H) as [name N]. apply normalize_idempotent in N. exact (clean_check _ N).
Qed.
(** Whatever datagram arrives: nothing is removed or replaced; new are at most empty files and
    directories, inside the served directory when there are no links in it; only the contents of the file
    opened for an upload change, to nothing, and only when overwriting is allowed; and a datagram that
    opens nothing for writing changes nothing. *)
Theorem server_files_safe : forall c cfg g dirsize f env av d f' out o, consistent f ->
  file_server c cfg g dirsize f env av d = (f', out, o) ->
  consistent f' /\
  only_adds f f' (fun id => fc_overwrite g = true /\ o = Some (Writes id)) /\
  (forall dp, realpath f (parse_path (fc_dir g)) = Some dp -> at_ f dp = Some NDir -> no_links f dp ->
     forall p x, at_ f p = None -> at_ f' p = Some x -> below dp p) /\
  ((forall path, file_request c cfg (h_eph env) d <> Some (true, path)) -> f' = f).
Proof.
  intros c cfg g dirsize f env av d f' out o HF H. unfold file_server in H.
  assert (SAME : consistent f /\ (forall P, only_adds f f P)).
  { split; [exact HF|]. intros P. split; [auto|]. split; [intros; congruence|auto]. }
  destruct SAME as [S1 S2].
  destruct (file_request c cfg (h_eph env) d) as [[[|] path]|] eqn:FR.
  - destruct (create_server_writer f g path) as [f1 r] eqn:CW. injection H as <- <- <-.
    destruct (upload_harmless _ _ _ _ _ HF CW) as [U1 U2]. split; [exact U1|]. split; [|split].
    + destruct U2 as (A & B & C). split; [exact A|]. split; [exact B|]. intros id L NC. apply C; [exact L|]. intros [O1 ->]. apply NC. auto.
    + intros dp RD AD NL. destruct (request_clean _ _ _ _ _ _ FR) as [cs HC].
      apply (proj1 (upload_stays_inside _ _ _ _ _ _ _ HF HC RD AD NL CW)).
    + intros X. destruct (X path eq_refl).
  - injection H as <- <- <-. split; [exact S1|]. split; [apply S2|]. split; [intros; congruence|reflexivity].
  - injection H as <- <- <-. split; [exact S1|]. split; [apply S2|]. split; [intros; congruence|reflexivity].
Qed.
(** An accepted connection reads from or writes to a place inside the served directory; the size
    announced for a download is that of the file or listing. *)
Theorem accepted_inside : forall c cfg g dirsize f env av d f' e reply o, consistent f ->
  file_server c cfg g dirsize f env av d = (f', SAccepted e reply, o) ->
  exists dp q, realpath f' (parse_path (fc_dir g)) = Some dp /\ below dp q /\ real_place f' q /\
  if es_write e then
    exists id, o = Some (Writes id) /\ at_ f' q = Some (NFile id) /\ f_data f' id = [] /\
      (fc_overwrite g = false -> at_ f q = None /\ forall p, at_ f p <> Some (NFile id))
  else f' = f /\ exists s, o = Some (Reads s) /\
    match s with
    | SFile id => at_ f q = Some (NFile id) /\ op_size (es_opts e) = Some (blen (f_data f id))
    | SDir => at_ f q = Some NDir /\ op_size (es_opts e) = Some dirsize
    | SList t => at_ f q = Some NDir /\ fc_list g <> None /\ op_size (es_opts e) = Some (blen t)
    end.
Proof.
  intros c cfg g dirsize f env av d f' e reply o HF H. unfold file_server in H.
  destruct (file_request c cfg (h_eph env) d) as [[w path]|] eqn:FR.
  2:{ exfalso. injection H as <- H <-. apply server_new_accepted in H. destruct H as [(buf & hs & o0 & r & used & op & keys & size & _ & _ & _ & _ & D & _)]. discriminate. }
  assert (SAMEW : forall oo, server_new c cfg (with_open env oo) av d = SAccepted e reply ->
    es_write e = w /\ exists size, oo = Some size /\ (es_write e = false -> op_size (es_opts e) = size)).
  { intros oo A. apply server_new_accepted in A. destruct A as [(buf & hs & o0 & r & used & op & keys & size & F1 & F2 & F3 & F4 & F5 & F6 & _)].
    unfold file_request in FR. rewrite F1, F2 in FR. cbn [h_eph with_open] in F3. cbn [h_open with_open] in F5.
    split.
    - destruct (es_write e); rewrite F3, F4 in FR; congruence.
    - exists size. split; [exact F5|]. intros W. rewrite F6, W. destruct op; reflexivity. }
  destruct w.
  - destruct (create_server_writer f g path) as [f1 r] eqn:CW. injection H as <- H <-. apply SAMEW in H as (W & size & RS & _). rewrite W.
    destruct r as [id|]; [|discriminate]. destruct (upload_target _ _ _ _ _ HF CW) as (dp & q & RD & B & RP & EA & D & NW).
    exists dp, q. split; [exact RD|]. split; [exact B|]. split; [exact RP|]. exists id. auto.
  - injection H as <- H <-. apply SAMEW in H as (W & size & RS & OS). rewrite W. specialize (OS W).
    destruct (create_server_reader f g path) as [s|] eqn:CR; [|discriminate]. injection RS as <-.
    destruct (served_inside _ _ _ _ HF CR) as (dp & q & r & RD & Q & RP & M). exists dp, q. split; [exact RD|]. split; [exists r; exact Q|]. split; [exact RP|].
    split; [reflexivity|]. exists s. split; [reflexivity|]. destruct s; [split; [exact M|exact OS]|split; [exact M|exact OS]|]. destruct M as (M1 & M2 & _). auto.
Qed.
(** The depth limit is applied to uploads and downloads: a name with more separators than allowed opens
    nothing, changes nothing and is not accepted. *)
Theorem depth_enforced : forall c cfg g dirsize f env av d f' out o w path,
  file_server c cfg g dirsize f env av d = (f', out, o) ->
  file_request c cfg (h_eph env) d = Some (w, path) -> fc_depth g < separators path ->
  f' = f /\ o = None /\ forall e reply, out <> SAccepted e reply.
Proof.
  intros c cfg g dirsize f env av d f' out o w path H FR SP.
  assert (VP : validate_path path (fc_depth g) = false).
  { destruct (validate_path path (fc_depth g)) eqn:V; [|reflexivity]. exfalso.
    destruct (request_normal _ _ _ _ _ _ FR) as [name N]. apply (proj1 (depth_limit _ _ _ N)) in V. lia. }
  assert (NO : forall e reply, server_new c cfg (with_open env None) av d <> SAccepted e reply).
  { intros e reply A. apply server_new_accepted in A. destruct A as [(buf & hs & o0 & r & used & op & keys & size & _ & _ & _ & _ & D & _)]. discriminate. }
  unfold file_server in H. rewrite FR in H. destruct w.
  - unfold create_server_writer in H. rewrite VP in H. injection H as <- <- <-. auto.
  - unfold create_server_reader in H. rewrite VP in H. injection H as <- <- <-. auto.
Qed.
Print Assumptions depth_enforced.
(** ** Case: an encrypted upload of "dir/../f" (see PropHandshake) to the example file system is stored as
    /srv/dir/f; plain read requests. *)
From Verif Require Import PropHandshake.
Example file_server_case :
  match ex_req with
  | Ok (d, _, _, _, _) =>
      file_request toy ex_cfg [9; 9] d = Some (true, s2b "dir/f") /\
      let '(f', out, o) := file_server toy ex_cfg (ex_g false) 4096 ex_fs ex_env av_all d in
      o = Some (Writes 3) /\ at_ f' [s2b "srv"; s2b "dir"; s2b "f"] = Some (NFile 3) /\
      match out with SAccepted e _ => es_write e = true | _ => False end
  | _ => False
  end.
Proof. vm_compute. repeat split. Qed.
Definition plain_cfg : scfg := mkScfg 512 4 5000 1000000 None None false false false.
Definition ask (name : string) : bytes := to_bytes (PRead (mkReq (s2b name) exts_empty)).
Definition answer (name : string) : option (option opened * option N) :=
  match file_server toy plain_cfg (ex_g false) 4096 ex_fs ex_env av_all (ask name) with
  | (_, SAccepted e _, o) => Some (o, op_size (es_opts e))
  | _ => None
  end.
Example plain_reads :
  answer "/a.txt" = Some (Some (Reads (SFile 0)), Some 1) /\ answer "../srv/a.txt" = None /\ answer "../etc/passwd" = None /\
  answer "out/passwd" = None /\ answer ".././sub//b.txt" = Some (Some (Reads (SFile 1)), Some 1) /\ answer "sub" = Some (Some (Reads SDir), Some 4096) /\
  match file_server toy plain_cfg (mkFcfg (fc_dir (ex_g false)) false None 0) 4096 ex_fs ex_env av_all (ask "sub/b.txt") with
  | (_, SRefused _, None) => True | _ => False end /\
  answer "sub/list.txt" = Some (Some (Reads (SList (s2b "sub/b.txt" ++ [10]))), Some 10).
Proof. do 6 (split; [vm_compute; reflexivity|]). split; [vm_compute; exact I|]. vm_compute. reflexivity. Qed.
Print Assumptions asked_once.
Print Assumptions server_files_safe.
Print Assumptions accepted_inside.
