(** C72, C73: the commands `send` and `receive` as a whole, from the files of one machine through the
    server to the files of another. *)
From Verif Require Import Base BaseProofs PacketModel MapperModel ReaderModel ReaderSpec BlockLemmas ConfigModel CryptoModel CryptoSpec ExtModel PathModel PropCrypto ConnModel
  ConnSpec ClientModel HandshakeModel ClientWaitModel StreamModel StreamSpec StreamProofs PropStream SystemModel ServerModel ServerSpec WorldModel WorldC PropWorld
  FsModel FsSpec FsProofs FsServerModel DiskModel DiskSpec DiskProofs DiskB DiskC PropDisk StoreSpec PropStore RunModel RunSpec RunProofs RunB RunC.
From Verif Require CliModel.

(** ** The port *)
(** The same port is harmless unless whole packets are encrypted: a connection whose packets have clear headers leaves a
    request in the clear aside. *)
Theorem repeated_request_ignored : forall g wc write ex d o key n,
  request_of g wc write ex d -> 2 <= n ->
  cs_key (wc_sock wc) = None \/ cs_level (wc_sock wc) = LNone \/ cs_level (wc_sock wc) = LData ->
  key = None \/ op_enc o = LNone \/ op_enc o = LData ->
  ignored (ru_c g) o key (takeN n d).
Proof.
  intros g wc write ex d o key n (nonce & _ & E) Hn CL SL.
  set (pk := fun r => if write then PWrite r else PRead r).
  assert (D : exists r, d = to_bytes (pk r)).
  { assert (A : asking g write ex = to_bytes (pk (mkReq (CliModel.cl_remote (ru_start g)) ex))) by reflexivity.
    exists (mkReq (CliModel.cl_remote (ru_start g)) ex). rewrite <- A. unfold client_send in E.
    assert (T : has_type T_DATA (asking g write ex) = false) by (rewrite A, type_of_packet; unfold pk; destruct write; reflexivity).
    rewrite T in E. destruct CL as [CL|[CL|CL]]; rewrite CL in E; destruct (cs_level (wc_sock wc)); destruct (cs_key (wc_sock wc)); congruence. }
  destruct D as (r & ->). set (op := opcode (pk r)). assert (OP : op = 1 \/ op = 2) by (subst op pk; destruct write; cbn; auto).
  assert (TK : exists t, takeN n (to_bytes (pk r)) = 0 :: op :: t).
  { unfold to_bytes. fold op. exists (takeN (n - 2) (body_to_bytes (pk r))). replace (be16 op) with [0; op] by (destruct OP as [-> | ->]; reflexivity).
    rewrite takeN_app, takeN_all by exact Hn. reflexivity. }
  destruct TK as (t & ->). unfold ignored, server_decrypt.
  assert (T : has_type T_DATA (0 :: op :: t) = false) by (destruct OP as [-> | ->]; reflexivity).
  assert (FB : match from_bytes (0 :: op :: t) with Ok (PData _ _) | Ok (PAck _) | Ok (PError _ _) => False | _ => True end).
  { unfold from_bytes. replace (try_from (0 :: op :: t)) with (@Ok perr N op) by (destruct OP as [-> | ->]; reflexivity).
    destruct OP as [-> | ->]; cbv iota beta; destruct (request_from_bytes _); exact Logic.I. }
  rewrite T. destruct SL as [-> |[-> | ->]]; [destruct (op_enc o)| |destruct key]; exact FB.
Qed.

(** ** receive *)
(** A command that reports success has stored, at its local path, exactly what was in the file on the server
    that it asked for; at any other time the local file holds a beginning of it made of whole blocks, or
    is still what it was.  Whatever the network does, whatever else happens on the server, and whatever else
    runs on the client's machine, provided others leave the two files alone. *)
Theorem received_file : forall g sg fg ds S sv init cut st b d name id st1 r e w k wc keys ex f0 p0 peer down up W,
  let c := ru_c g in
  one_of c sg S sv init cut -> crypto_ok c -> 512 <= sc_max_bs (g_cfg sg) -> 1 <= sc_max_window (g_cfg sg) ->
  dkreach sv c sg fg ds init st -> consistent (dk_fs st) ->
  (* the file on the server *)
  leads (dk_fs st) fg name = Some id -> listing fg name = false ->
  (* the command has asked for it with [d], the server answers [w], which is acceptable *)
  receive_waiting g f0 wc keys ex p0 -> request_of g wc false ex d -> understood g wc (g_cfg sg) d ->
  answers sv c sg fg ds false st b d name st1 r e w -> agrees g wc keys false ex w k ->
  answers_at g wc false ex (fun y => ignored c (c_opts (en_conn e)) (en_key e) (cut e y)) peer ->
  CliModel.cl_file_key (ru_start g) = None ->
  let F := f_data (dk_fs st) id in let n := nblocks F (bs_enc (k_opts k)) in
  n <= 55535 \/ op_window (k_opts k) <= 10000 ->
  Forall (stale_for_receiver (client_dec c (k_sock k) (op_bs (k_opts k)))) down ->
  Forall (stale_for_sender (fun y => entry_dec c e (cut e y))) up ->
  rwreach (tended sv c sg fg ds id name) (dview sv) g wc keys b peer w n (mkRW st1 false p0 down up 0 0) W ->
  let f := rp_fs (rw_prog W) in let path := CliModel.cl_local (ru_start g) in
  normalize None (CliModel.cl_remote (ru_start g)) = Some name /\
  match rp_ph (rw_prog W) with
  | RAsk _ => keeps path f0 f
  | RGet _ _ _ _ _ => exists lid m, local_file f path = Some lid /\ f_data f lid = takeN (m * bs_enc (k_opts k)) F
  | RFailed => keeps path f0 f \/ exists lid m, local_file f path = Some lid /\ f_data f lid = takeN (m * bs_enc (k_opts k)) F
  | RDone total _ => total = blen F /\ exists lid, local_file f path = Some lid /\ f_data f lid = F
  end.
Proof.
  intros g sg fg ds S sv init cut st b d name id st1 r e w k wc keys ex f0 p0 peer down up W c ONE HC HB HW R0 C0 LD NL RW RQ US AN AG PT FK F n HNB HD HU HR.
  destruct (receive_ends g sg fg ds S sv init cut ONE HC HB HW st st1 b d name id r e w k wc keys ex peer down up R0 C0 f0 p0 W LD NL RW RQ US AN AG PT HNB HD HU HR)
    as (NM & _ & _ & X). cbn zeta in *. split; [exact NM|]. rewrite FK in X. unfold left_in in X.
  destruct (rp_ph (rw_prog W)) as [w0|k' from key s sst|total key|].
  - exact X.
  - destruct X as (lid & v & m & L & O & _ & _ & D). exists lid, m. rewrite D. auto.
  - destruct X as (E & lid & v & L & O & _ & D). split; [exact E|]. exists lid. rewrite D. auto.
  - destruct X as [K|(lid & v & m & L & O & _ & _ & D)]; [left; exact K|]. right. exists lid, m. rewrite D. auto.
Qed.

(** ** send *)
(** A command that reports success has made the file on the server what the local file is; before that it is
    a beginning of it.  The local file is not changed by it ([sworld] has its disk changed by others only). *)
Theorem sent_file : forall g sg fg ds S sv init cut st b d name id st1 e w k wc keys ex f0 src p0 peer down up W,
  let c := ru_c g in
  one_of c sg S sv init cut -> crypto_ok c -> 512 <= sc_max_bs (g_cfg sg) -> 1 <= sc_max_window (g_cfg sg) ->
  dkreach sv c sg fg ds init st -> consistent (dk_fs st) ->
  send_waiting g f0 ds src wc keys ex p0 -> request_of g wc true ex d -> understood g wc (g_cfg sg) d ->
  answers sv c sg fg ds true st b d name st1 (Writes id) e w -> agrees g wc keys true ex w k ->
  answers_at g wc true ex (fun y => ignored c (c_opts (en_conn e)) (en_key e) (cut e y)) peer ->
  CliModel.cl_file_key (ru_start g) = None ->
  let F := content f0 (Some (Reads src)) in let n := nblocks F (bs_enc (k_opts k)) in
  n <= 55535 \/ op_window (k_opts k) <= 10000 ->
  Forall (stale_for_sender (client_dec c (k_sock k) (op_bs (k_opts k)))) down ->
  Forall (stale_for_receiver (fun y => entry_dec c e (cut e y))) up ->
  swreach (stores sv c sg fg ds b id name) (dview sv) g wc keys b peer w src n (mkSW_ st1 false [] f0 p0 down up 0 0) W ->
  let f := dk_fs (sv_srv W) in
  normalize None (CliModel.cl_remote (ru_start g)) = Some name /\
  leads f fg name = Some id /\ (exists m, f_data f id = takeN (m * bs_enc (k_opts k)) F) /\
  forall total key, sv_prog W = UDone total key -> f_data f id = F /\ total = blen F.
Proof.
  intros g sg fg ds S sv init cut st b d name id st1 e w k wc keys ex f0 src p0 peer down up W c ONE HC HB HW R0 C0 SW RQ US AN AG PT FK F n HNB HD HU HR.
  assert (RF : read_as g F (bs_enc (k_opts k)) = F) by (unfold read_as; rewrite FK; reflexivity). unfold n in *. rewrite <- RF in HR, HNB.
  destruct (send_ends g sg fg ds S sv init cut ONE HC HB HW st st1 b d name id e w k wc keys ex peer down up R0 f0 src p0 W SW RQ US AN AG PT HNB HU HR)
    as (NM & _ & BG & _ & z & t & cl & stat & u & sc' & HZ & UR & DN). fold F in UR. rewrite RF in UR, HNB. cbn zeta. split; [exact NM|].
  destruct (stored_file c sg fg ds S sv init cut st b d name st1 id e k (CliModel.cl_seek (ru_start g)) F t down z _ ONE HC HB HW R0 C0 BG HNB HD HZ UR) as (L & P & X).
  cbn [uw_srv uw_stat] in *. split; [exact L|]. split; [exact P|]. intros total key E. apply X. eapply DN. exact E.
Qed.

(** ** send, and later receive *)
(** A file that was sent with success, and later, after anything in between (other transfers, stops and restarts
    of the server), received with success under the same name, is the same at the other end. *)
Lemma later_kept {S} (sv : server S) c sg fg ds init id name st st' file : later init (tended sv c sg fg ds id name) st st' ->
  leads (dk_fs st) fg name = Some id -> f_data (dk_fs st) id = file -> leads (dk_fs st') fg name = Some id /\ f_data (dk_fs st') id = file.
Proof.
  intros LT L EF. induction LT as [|s x s' y LT IH P|s x LT IH I]; [auto| |exact IH]. destruct P as (_ & E1 & E2). rewrite E1, E2. exact IH.
Qed.
Theorem sent_then_received : forall g g' sg fg ds S sv init cut st b d name id st1 e w k wc keys ex f0 src p0 peer down up W total key
    st2 b' d' st3 r' e' w' k' wc' keys' ex' f0' p0' peer' down' up' W',
  let c := ru_c g in
  one_of c sg S sv init cut -> crypto_ok c -> 512 <= sc_max_bs (g_cfg sg) -> 1 <= sc_max_window (g_cfg sg) ->
  dkreach sv c sg fg ds init st -> consistent (dk_fs st) ->
  (* send *)
  send_waiting g f0 ds src wc keys ex p0 -> request_of g wc true ex d -> understood g wc (g_cfg sg) d ->
  answers sv c sg fg ds true st b d name st1 (Writes id) e w -> agrees g wc keys true ex w k ->
  answers_at g wc true ex (fun y => ignored c (c_opts (en_conn e)) (en_key e) (cut e y)) peer ->
  CliModel.cl_file_key (ru_start g) = None ->
  let F := content f0 (Some (Reads src)) in let n := nblocks F (bs_enc (k_opts k)) in
  n <= 55535 \/ op_window (k_opts k) <= 10000 ->
  Forall (stale_for_sender (client_dec c (k_sock k) (op_bs (k_opts k)))) down ->
  Forall (stale_for_receiver (fun y => entry_dec c e (cut e y))) up ->
  swreach (stores sv c sg fg ds b id name) (dview sv) g wc keys b peer w src n (mkSW_ st1 false [] f0 p0 down up 0 0) W ->
  sv_prog W = UDone total key ->
  (* the time in between *)
  later init (tended sv c sg fg ds id name) (sv_srv W) st2 -> consistent (dk_fs st2) ->
  (* receive *)
  ru_c g' = c -> listing fg name = false ->
  receive_waiting g' f0' wc' keys' ex' p0' -> request_of g' wc' false ex' d' -> understood g' wc' (g_cfg sg) d' ->
  answers sv c sg fg ds false st2 b' d' name st3 r' e' w' -> agrees g' wc' keys' false ex' w' k' ->
  answers_at g' wc' false ex' (fun y => ignored c (c_opts (en_conn e')) (en_key e') (cut e' y)) peer' ->
  CliModel.cl_file_key (ru_start g') = None ->
  let n' := nblocks F (bs_enc (k_opts k')) in
  n' <= 55535 \/ op_window (k_opts k') <= 10000 ->
  Forall (stale_for_receiver (client_dec c (k_sock k') (op_bs (k_opts k')))) down' ->
  Forall (stale_for_sender (fun y => entry_dec c e' (cut e' y))) up' ->
  rwreach (tended sv c sg fg ds id name) (dview sv) g' wc' keys' b' peer' w' n' (mkRW st3 false p0' down' up' 0 0) W' ->
  forall total' key', rp_ph (rw_prog W') = RDone total' key' ->
  total' = total /\
  exists lid, local_file (rp_fs (rw_prog W')) (CliModel.cl_local (ru_start g')) = Some lid /\ f_data (rp_fs (rw_prog W')) lid = F.
Proof.
  intros g g' sg fg ds S sv init cut st b d name id st1 e w k wc keys ex f0 src p0 peer down up W total key
    st2 b' d' st3 r' e' w' k' wc' keys' ex' f0' p0' peer' down' up' W'
    c ONE HC HB HW R0 C0 SW RQ US AN AG PT FK F n HNB HD HU HR DN LT C2 EC NL RW' RQ' US' AN' AG' PT' FK' n' HNB' HD' HU' HR' total' key' DN'.
  destruct (sent_file g sg fg ds S sv init cut st b d name id st1 e w k wc keys ex f0 src p0 peer down up W ONE HC HB HW R0 C0 SW RQ US AN AG PT FK HNB HD HU HR)
    as (_ & L & _ & X). destruct (X _ _ DN) as [EF ET]. fold F in EF, ET.
  assert (R2 : dkreach sv c sg fg ds init st2).
  { assert (RF : read_as g F (bs_enc (k_opts k)) = F) by (unfold read_as; rewrite FK; reflexivity).
    unfold n in HR, HNB. rewrite <- RF in HR, HNB.
    destruct (send_ends g sg fg ds S sv init cut ONE HC HB HW st st1 b d name id e w k wc keys ex peer down up R0 f0 src p0 W SW RQ US AN AG PT HNB HU HR)
      as (_ & _ & BG & _ & z & t & cl & stat & u & sc' & _ & UR & _).
    eapply (later_reach c sg fg ds sv init); [| |exact LT]; [intros s x s' y [Y _]; exact Y|].
    eapply (fun H Z => uw_reach c sg fg ds sv init _ _ _ _ _ _ _ H Z UR); [intros s x s' y [[Y _] _]; exact Y|].
    cbn [uw_srv]. eapply (begins_reach c sg fg ds sv init); [exact R0|exact BG]. }
  destruct (later_kept sv c sg fg ds init id name _ _ F LT L EF) as [L2 F2].
  unfold n' in *. rewrite <- F2 in HR', HNB'.
  destruct (received_file g' sg fg ds S sv init cut st2 b' d' name id st3 r' e' w' k' wc' keys' ex' f0' p0' peer' down' up' W') as [_ Y];
    rewrite ?EC; try assumption.
  rewrite DN', F2 in Y. destruct Y as [-> Y]. split; [congruence|exact Y].
Qed.

(** ** Files that are encrypted before they are sent *)
Lemma reads_same c file len : forall s l, reads c file len s l -> forall l', reads c file len s l' -> l = l'.
Proof.
  intros s l H. induction H as [s s' l E H IH|s s' b l E LB H IH|s s' b E LB]; intros l' H'.
  - apply sr_read_io in E. subst s'. apply IH. exact H'.
  - induction H' as [t t' l' E' H' IH'|t t' b' l' E' LB' H' _|t t' b' E' LB'].
    + apply sr_read_io in E'. subst t'. apply IH'; assumption.
    + rewrite E in E'. injection E' as <- <-. f_equal. apply IH. exact H'.
    + rewrite E in E'. injection E' as <- <-. lia.
  - induction H' as [t t' l' E' H' IH'|t t' b' l' E' LB' H' _|t t' b' E' LB'].
    + apply sr_read_io in E'. subst t'. apply IH'; assumption.
    + rewrite E in E'. injection E' as <- <-. lia.
    + rewrite E in E'. injection E' as <- <-. reflexivity.
Qed.
Lemma sealed_reads c file len : forall s l, reads c file len s l -> forall fuel, (List.length l <= fuel)%nat -> sealed_blocks fuel c file len s = concat l.
Proof.
  intros s l H. induction H as [s s' l E H IH|s s' b l E LB H IH|s s' b E LB]; intros fuel HF.
  - apply sr_read_io in E. subst s'. apply IH. exact HF.
  - cbn [List.length] in HF. destruct fuel as [|fuel]; [lia|]. cbn [sealed_blocks]. rewrite E. rewrite (proj2 (N.ltb_ge _ _)) by lia.
    cbn [concat]. rewrite IH by lia. reflexivity.
  - cbn [List.length] in HF. destruct fuel as [|fuel]; [lia|]. cbn [sealed_blocks]. rewrite E. rewrite (proj2 (N.ltb_lt _ _)) by exact LB.
    reflexivity.
Qed.
Lemma blocks_concat file len : 0 < len -> forall m, m <= nblocks file len ->
  concat (map (block_of file len) (seqN 1 (N.to_nat m))) = takeN (m * len) file.
Proof.
  intros HL m. induction m as [|m IH] using N.peano_ind; intros Hm; [reflexivity|].
  replace (N.to_nat (N.succ m)) with (N.to_nat m + 1)%nat by lia. rewrite seqN_app, map_app, concat_app, IH by lia.
  cbn [seqN map concat]. rewrite app_nil_r. replace (1 + N.of_nat (N.to_nat m)) with (m + 1) by lia.
  unfold block_of. replace (m + 1 - 1) with m by lia. destruct (nblocks_bounds file len HL) as (B1 & _ & _).
  assert (Hl : m * len <= blen file) by (apply N.le_trans with ((nblocks file len - 1) * len); [apply N.mul_le_mono_r; lia|exact B1]).
  replace (N.succ m * len) with (m * len + len) by lia.
  rewrite <- (takeN_dropN (m * len) file) at 3. assert (LT : blen (takeN (m * len) file) = m * len) by (rewrite blen_takeN; lia).
  rewrite takeN_app, LT. rewrite (takeN_all _ (takeN (m * len) file)) by lia. do 2 f_equal. lia.
Qed.
Lemma blocks_of_concat file len : 0 < len -> concat (blocks_of file len) = file.
Proof.
  intros HL. unfold blocks_of. rewrite blocks_concat by (auto; lia). apply takeN_all. destruct (nblocks_bounds file len HL) as (_ & B & _). lia.
Qed.
Lemma read_as_stored g key file len stored : CliModel.cl_file_key (ru_start g) = Some key -> crypto_ok (ru_c g) -> blen (ru_iv g) = 19 ->
  37 <= len <= 1425 -> (blen file + 21) / (len - 16) <= 4294967295 ->
  reads (ru_c g) file len (sr_new key (ru_iv g)) (blocks_of stored len) -> read_as g file len = stored.
Proof.
  intros FK HC HN HL HM H. unfold read_as. rewrite FK.
  destruct (file_encryption_transparent _ key (ru_iv g) file len HC HN HL HM) as (st' & R & _ & _ & NB).
  pose proof (reads_same _ _ _ _ _ H _ R) as E.
  rewrite (sealed_reads _ _ _ _ _ H); [apply blocks_of_concat; lia|].
  rewrite E. unfold blocks_of. rewrite map_length, seqN_length, NB.
  assert ((blen file + 21) / (len - 16) <= blen file + 1).
  { apply N.div_le_upper_bound; [lia|]. nia. }
  unfold blen in *. lia.
Qed.
Lemma writes_same c : forall s l t, StreamSpec.writes c s l t -> forall t', StreamSpec.writes c s l t' -> t = t'.
Proof.
  intros s l t H. induction H as [s|s s' s'' b l E H IH]; intros t' H'; inversion H' as [|? s1 ? ? ? E' H1]; subst; [reflexivity|].
  rewrite E in E'. injection E' as <-. apply IH. exact H1.
Qed.
Lemma writes_app_inv c : forall l1 l2 s t, StreamSpec.writes c s (l1 ++ l2) t -> exists u, StreamSpec.writes c s l1 u /\ StreamSpec.writes c u l2 t.
Proof.
  induction l1 as [|b l1 IH]; intros l2 s t H; [exists s; split; [constructor|exact H]|]. cbn [app] in H. inversion H as [|? s1 ? ? ? E H1]; subst.
  destruct (IH _ _ _ H1) as (u & U1 & U2). exists u. split; [econstructor; eassumption|exact U2].
Qed.
Lemma writes_grow c : forall s l t, StreamSpec.writes c s l t -> exists part, sw_out t = sw_out s ++ part.
Proof.
  intros s l t H. induction H as [s|s s' s'' b l E H [p IH]]; [exists []; rewrite app_nil_r; reflexivity|].
  destruct (sw_write_out _ _ _ _ _ _ _ E) as (q & EQ & _). rewrite IH, EQ, <- app_assoc. eauto.
Qed.
Lemma blocks_split file len m : m <= nblocks file len ->
  exists rest, blocks_of file len = map (block_of file len) (seqN 1 (N.to_nat m)) ++ rest.
Proof.
  intros Hm. unfold blocks_of. replace (N.to_nat (nblocks file len)) with (N.to_nat m + N.to_nat (nblocks file len - m))%nat by lia.
  rewrite seqN_app, map_app. eauto.
Qed.
(** What a decrypting command has in its local file. *)
Lemma opened_prefix c key nonce orig stored len m f lid v k : crypto_ok c -> blen nonce = 19 -> 37 <= len <= 1425 ->
  (blen orig + 21) / (len - 16) <= 4294967295 -> reads c orig len (sr_new key nonce) (blocks_of stored len) -> len = bs_enc (k_opts k) ->
  m <= nblocks stored len -> left_in c (Some key) f lid v (blocks_to k stored m) ->
  (exists rest, orig = f_data f lid ++ rest) /\ (m = nblocks stored len -> f_data f lid = orig).
Proof.
  intros HC HN HL HM H EL Hm [_ (s & WR & FD)]. unfold blocks_to in WR. rewrite <- EL in WR.
  destruct (file_encryption_transparent _ key nonce orig len HC HN HL HM) as (st' & R & (u & U & UO) & _ & _).
  rewrite (reads_same _ _ _ _ _ R _ H) in U. rewrite FD. split.
  - destruct (blocks_split stored len m Hm) as [rest ER]. rewrite ER in U. destruct (writes_app_inv _ _ _ _ _ U) as (v1 & U1 & U2).
    rewrite (writes_same _ _ _ _ WR _ U1). destruct (writes_grow _ _ _ _ U2) as [part E]. rewrite <- UO, E. eauto.
  - intros ->. rewrite (writes_same _ _ _ _ WR _ U). exact UO.
Qed.
Lemma agreed_range c sg fg ds S sv init cut st b d name st1 r e k wr : one_of c sg S sv init cut -> crypto_ok c ->
  512 <= sc_max_bs (g_cfg sg) -> 1 <= sc_max_window (g_cfg sg) -> dkreach sv c sg fg ds init st ->
  begins sv c sg fg ds wr st b d name st1 r e k -> 37 <= bs_enc (k_opts k) <= 1425.
Proof.
  intros ONE HC HB HW R0 (i & f' & q & s1 & o & w & LK & FR & OR & MN & SO & V & E1 & NEG).
  destruct (one_good _ _ _ _ _ _ ONE) as (Inv & G & HI). pose proof (reach_inv _ _ _ _ _ _ _ _ _ G HI _ R0) as D0.
  destruct (t_accept c sg sv Inv cut G st b d w i f' q _ s1 o D0 LK MN SO e V) as (x & SN & EE).
  rewrite (t_whole c sg k _ d w wr NEG) in SN. destruct (negotiates_agree _ _ _ _ _ _ _ _ _ HC NEG SN) as (AG & MB & _).
  destruct (accept_opts _ _ _ _ _ _ _ SN HB HW) as ((A0 & A1) & _). destruct AG as (B1 & _). unfold bs_enc. rewrite B1.
  unfold ENCRYPTION_TAG_SIZE, ENCRYPTION_NONCE_SIZE, ENCRYPTION_PADDING_SIZE in *. destruct (op_enc (k_opts k)); lia.
Qed.

(** What the server is sent of a file that is encrypted first is its encryption (PropStream.stored_format
    says what that looks like), and with success it has all of it. *)
Theorem sent_encrypted : forall g sg fg ds S sv init cut st b d name id st1 e w k wc keys ex f0 src p0 peer down up W fkey stored,
  let c := ru_c g in
  one_of c sg S sv init cut -> crypto_ok c -> 512 <= sc_max_bs (g_cfg sg) -> 1 <= sc_max_window (g_cfg sg) ->
  dkreach sv c sg fg ds init st -> consistent (dk_fs st) ->
  send_waiting g f0 ds src wc keys ex p0 -> request_of g wc true ex d -> understood g wc (g_cfg sg) d ->
  answers sv c sg fg ds true st b d name st1 (Writes id) e w -> agrees g wc keys true ex w k ->
  answers_at g wc true ex (fun y => ignored c (c_opts (en_conn e)) (en_key e) (cut e y)) peer ->
  CliModel.cl_file_key (ru_start g) = Some fkey -> blen (ru_iv g) = 19 ->
  let F := content f0 (Some (Reads src)) in let bs := bs_enc (k_opts k) in
  (blen F + 21) / (bs - 16) <= 4294967295 -> reads c F bs (sr_new fkey (ru_iv g)) (blocks_of stored bs) ->
  let n := nblocks stored bs in
  n <= 55535 \/ op_window (k_opts k) <= 10000 ->
  Forall (stale_for_sender (client_dec c (k_sock k) (op_bs (k_opts k)))) down ->
  Forall (stale_for_receiver (fun y => entry_dec c e (cut e y))) up ->
  swreach (stores sv c sg fg ds b id name) (dview sv) g wc keys b peer w src n (mkSW_ st1 false [] f0 p0 down up 0 0) W ->
  let f := dk_fs (sv_srv W) in
  normalize None (CliModel.cl_remote (ru_start g)) = Some name /\
  leads f fg name = Some id /\ (exists m, f_data f id = takeN (m * bs) stored) /\
  forall total key, sv_prog W = UDone total key -> f_data f id = stored /\ total = blen stored.
Proof.
  intros g sg fg ds S sv init cut st b d name id st1 e w k wc keys ex f0 src p0 peer down up W fkey stored
    c ONE HC HB HW R0 C0 SW RQ US AN AG PT FK HN F bs HM HRD n HNB HD HU HR.
  assert (NGB : 37 <= bs <= 1425).
  { destruct SW as (now & l & QL & SS & EP). unfold send_start in SS. destruct (create_reader f0 _) as [s0|]; [|discriminate].
    match type of SS with match run_ask g true ?o with _ => _ end = _ => destruct (run_ask g true o) as [[[wc1 keys1] ex1]|] eqn:RA; [|discriminate] end.
    injection SS as -> -> E3 E4. assert (ex1 = ex) as -> by (exact E4).
    destruct (answers_begins c sg fg ds S sv init cut ONE HC HB HW st st1 b true d name w (Writes id) e k R0 AN) as (BG & _).
    { intros env X1 X2. eapply run_negotiates; eassumption. }
    eapply agreed_range; eassumption. }
  pose proof (read_as_stored g fkey F bs stored FK HC HN NGB HM HRD) as RF. unfold n in *. rewrite <- RF in HR, HNB.
  destruct (send_ends g sg fg ds S sv init cut ONE HC HB HW st st1 b d name id e w k wc keys ex peer down up R0 f0 src p0 W SW RQ US AN AG PT HNB HU HR)
    as (NM & _ & BG & _ & z & t & cl & stat & u & sc' & HZ & UR & DN). fold F in UR. fold bs in UR. rewrite RF in UR, HNB. cbn zeta. split; [exact NM|].
  destruct (stored_file c sg fg ds S sv init cut st b d name st1 id e k (CliModel.cl_seek (ru_start g)) stored t down z _ ONE HC HB HW R0 C0 BG HNB HD HZ UR) as (L & P & X).
  cbn [uw_srv uw_stat] in *. split; [exact L|]. split; [exact P|]. intros total key E. apply X. eapply DN. exact E.
Qed.

(** A command that is given the key the file was encrypted with, and that receives it in the blocks it was
    made for, has the original in its local file when it reports success, a beginning of it before. *)
Theorem received_decrypted : forall g sg fg ds S sv init cut st b d name id st1 r e w k wc keys ex f0 p0 peer down up W fkey nonce orig,
  let c := ru_c g in
  one_of c sg S sv init cut -> crypto_ok c -> 512 <= sc_max_bs (g_cfg sg) -> 1 <= sc_max_window (g_cfg sg) ->
  dkreach sv c sg fg ds init st -> consistent (dk_fs st) ->
  leads (dk_fs st) fg name = Some id -> listing fg name = false ->
  receive_waiting g f0 wc keys ex p0 -> request_of g wc false ex d -> understood g wc (g_cfg sg) d ->
  answers sv c sg fg ds false st b d name st1 r e w -> agrees g wc keys false ex w k ->
  answers_at g wc false ex (fun y => ignored c (c_opts (en_conn e)) (en_key e) (cut e y)) peer ->
  let F := f_data (dk_fs st) id in let bs := bs_enc (k_opts k) in let n := nblocks F bs in
  CliModel.cl_file_key (ru_start g) = Some fkey -> blen nonce = 19 -> (blen orig + 21) / (bs - 16) <= 4294967295 ->
  reads c orig bs (sr_new fkey nonce) (blocks_of F bs) ->
  n <= 55535 \/ op_window (k_opts k) <= 10000 ->
  Forall (stale_for_receiver (client_dec c (k_sock k) (op_bs (k_opts k)))) down ->
  Forall (stale_for_sender (fun y => entry_dec c e (cut e y))) up ->
  rwreach (tended sv c sg fg ds id name) (dview sv) g wc keys b peer w n (mkRW st1 false p0 down up 0 0) W ->
  let f := rp_fs (rw_prog W) in let path := CliModel.cl_local (ru_start g) in
  normalize None (CliModel.cl_remote (ru_start g)) = Some name /\
  match rp_ph (rw_prog W) with
  | RAsk _ => keeps path f0 f
  | RGet _ _ _ _ _ => exists lid rest, local_file f path = Some lid /\ orig = f_data f lid ++ rest
  | RFailed => keeps path f0 f \/ exists lid rest, local_file f path = Some lid /\ orig = f_data f lid ++ rest
  | RDone total _ => total = blen F /\ exists lid, local_file f path = Some lid /\ f_data f lid = orig
  end.
Proof.
  intros g sg fg ds S sv init cut st b d name id st1 r e w k wc keys ex f0 p0 peer down up W fkey nonce orig
    c ONE HC HB HW R0 C0 LD NL RW RQ US AN AG PT F bs n FK HN HM HRD HNB HD HU HR.
  destruct (receive_ends g sg fg ds S sv init cut ONE HC HB HW st st1 b d name id r e w k wc keys ex peer down up R0 C0 f0 p0 W LD NL RW RQ US AN AG PT HNB HD HU HR)
    as (NM & _ & BG & X). pose proof (agreed_range _ _ _ _ _ _ _ _ _ _ _ _ _ _ _ _ _ ONE HC HB HW R0 BG) as NGB.
  cbn zeta in *. split; [exact NM|]. rewrite FK in X.
  destruct (rp_ph (rw_prog W)) as [w0|k' from key s sst|total key|].
  - exact X.
  - destruct X as (lid & v & m & L & _ & Hm & D). destruct (opened_prefix _ _ _ _ _ _ _ _ _ _ _ HC HN NGB HM HRD eq_refl Hm D) as [[rest E] _]. eauto.
  - destruct X as (E & lid & v & L & _ & D). split; [exact E|]. exists lid. split; [exact L|].
    exact (proj2 (opened_prefix _ _ _ _ _ _ _ _ _ _ _ HC HN NGB HM HRD eq_refl (N.le_refl _) D) eq_refl).
  - destruct X as [K|(lid & v & m & L & _ & Hm & D)]; [left; exact K|]. right.
    destruct (opened_prefix _ _ _ _ _ _ _ _ _ _ _ HC HN NGB HM HRD eq_refl Hm D) as [[rest E] _]. eauto.
Qed.

(** Sent encrypted, later received with the same key and the same block size: the original is back; the server
    has had its encryption only. *)
Theorem sent_then_received_encrypted : forall g g' sg fg ds S sv init cut st b d name id st1 e w k wc keys ex f0 src p0 peer down up W total key fkey stored
    st2 b' d' st3 r' e' w' k' wc' keys' ex' f0' p0' peer' down' up' W',
  let c := ru_c g in
  one_of c sg S sv init cut -> crypto_ok c -> 512 <= sc_max_bs (g_cfg sg) -> 1 <= sc_max_window (g_cfg sg) ->
  dkreach sv c sg fg ds init st -> consistent (dk_fs st) ->
  (* send *)
  send_waiting g f0 ds src wc keys ex p0 -> request_of g wc true ex d -> understood g wc (g_cfg sg) d ->
  answers sv c sg fg ds true st b d name st1 (Writes id) e w -> agrees g wc keys true ex w k ->
  answers_at g wc true ex (fun y => ignored c (c_opts (en_conn e)) (en_key e) (cut e y)) peer ->
  CliModel.cl_file_key (ru_start g) = Some fkey -> blen (ru_iv g) = 19 ->
  let F := content f0 (Some (Reads src)) in let bs := bs_enc (k_opts k) in
  (blen F + 21) / (bs - 16) <= 4294967295 -> reads c F bs (sr_new fkey (ru_iv g)) (blocks_of stored bs) ->
  let n := nblocks stored bs in
  n <= 55535 \/ op_window (k_opts k) <= 10000 ->
  Forall (stale_for_sender (client_dec c (k_sock k) (op_bs (k_opts k)))) down ->
  Forall (stale_for_receiver (fun y => entry_dec c e (cut e y))) up ->
  swreach (stores sv c sg fg ds b id name) (dview sv) g wc keys b peer w src n (mkSW_ st1 false [] f0 p0 down up 0 0) W ->
  sv_prog W = UDone total key ->
  (* the time in between *)
  later init (tended sv c sg fg ds id name) (sv_srv W) st2 -> consistent (dk_fs st2) ->
  (* receive *)
  ru_c g' = c -> listing fg name = false ->
  receive_waiting g' f0' wc' keys' ex' p0' -> request_of g' wc' false ex' d' -> understood g' wc' (g_cfg sg) d' ->
  answers sv c sg fg ds false st2 b' d' name st3 r' e' w' -> agrees g' wc' keys' false ex' w' k' ->
  answers_at g' wc' false ex' (fun y => ignored c (c_opts (en_conn e')) (en_key e') (cut e' y)) peer' ->
  CliModel.cl_file_key (ru_start g') = Some fkey -> bs_enc (k_opts k') = bs ->
  n <= 55535 \/ op_window (k_opts k') <= 10000 ->
  Forall (stale_for_receiver (client_dec c (k_sock k') (op_bs (k_opts k')))) down' ->
  Forall (stale_for_sender (fun y => entry_dec c e' (cut e' y))) up' ->
  rwreach (tended sv c sg fg ds id name) (dview sv) g' wc' keys' b' peer' w' n (mkRW st3 false p0' down' up' 0 0) W' ->
  forall total' key', rp_ph (rw_prog W') = RDone total' key' ->
  total' = total /\
  exists lid, local_file (rp_fs (rw_prog W')) (CliModel.cl_local (ru_start g')) = Some lid /\ f_data (rp_fs (rw_prog W')) lid = F.
Proof.
  intros g g' sg fg ds S sv init cut st b d name id st1 e w k wc keys ex f0 src p0 peer down up W total key fkey stored
    st2 b' d' st3 r' e' w' k' wc' keys' ex' f0' p0' peer' down' up' W'
    c ONE HC HB HW R0 C0 SW RQ US AN AG PT FK HN F bs HM HRD n HNB HD HU HR DN LT C2 EC NL RW' RQ' US' AN' AG' PT' FK' EB HNB' HD' HU' HR' total' key' DN'.
  destruct (sent_encrypted g sg fg ds S sv init cut st b d name id st1 e w k wc keys ex f0 src p0 peer down up W fkey stored
    ONE HC HB HW R0 C0 SW RQ US AN AG PT FK HN HM HRD HNB HD HU HR) as (_ & L & _ & X). destruct (X _ _ DN) as [EF ET].
  assert (NGB : 37 <= bs <= 1425 /\ dkreach sv c sg fg ds init st1).
  { destruct SW as (now & l & QL & SS & EP). unfold send_start in SS. destruct (create_reader f0 _) as [s0|]; [|discriminate].
    match type of SS with match run_ask g true ?o with _ => _ end = _ => destruct (run_ask g true o) as [[[wc1 keys1] ex1]|] eqn:RA; [|discriminate] end.
    injection SS as -> -> E3 E4. assert (ex1 = ex) as -> by (exact E4).
    destruct (answers_begins c sg fg ds S sv init cut ONE HC HB HW st st1 b true d name w (Writes id) e k R0 AN) as (BG & _).
    { intros env X1 X2. eapply run_negotiates; eassumption. }
    split; [eapply agreed_range; eassumption|]. eapply (begins_reach c sg fg ds sv init); [exact R0|exact BG]. }
  destruct NGB as [NGB R1].
  assert (R2 : dkreach sv c sg fg ds init st2).
  { eapply (later_reach c sg fg ds sv init); [| |exact LT]; [intros s x s' y [Y _]; exact Y|].
    clear - HR R1. remember (mkSW_ st1 false [] f0 p0 down up 0 0) as W0 eqn:E0.
    assert (RI : dkreach sv c sg fg ds init (sv_srv W0)) by (rewrite E0; exact R1). clear E0 R1.
    induction HR as [|W W' HR IH ST]; [exact RI|]. destruct ST; cbn [sv_srv] in *; try exact IH;
      (eapply dkreach_step; [exact IH|]; match goal with H : stores _ _ _ _ _ _ _ _ _ _ _ _ |- _ => apply H end). }
  destruct (later_kept sv c sg fg ds init id name _ _ stored LT L EF) as [L2 F2].
  unfold n in *. rewrite <- F2, <- EB in HR', HNB'. rewrite <- F2, <- EB in HRD. rewrite <- EB in HM.
  destruct (received_decrypted g' sg fg ds S sv init cut st2 b' d' name id st3 r' e' w' k' wc' keys' ex' f0' p0' peer' down' up' W' fkey (ru_iv g) F) as [_ Y];
    rewrite ?EC; try assumption.
  rewrite DN', F2 in Y. destruct Y as [-> Y]. split; [congruence|exact Y].
Qed.
