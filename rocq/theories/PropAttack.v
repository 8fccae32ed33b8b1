(** C75: encrypted transfers with an attacker on the line. *)
From Verif Require Import Base BaseProofs PacketModel PacketSpec PacketProofs MapperModel MapperProofs ReaderModel ReaderSpec BlockLemmas ReaderProofs
  WriterSpec WriterProofs ConfigModel Base64Model CryptoModel CryptoSpec CryptoProofs PropCrypto ExtModel ExtSpec ExtProofs PathModel ConnModel ClientModel ConnSpec
  HandshakeModel HandshakeProofs PropExt PropHandshake AgreeProofs PropAgree SystemModel CoreProofs DownloadProofs UploadProofs LiveModel
  PropTransfer ServerModel ServerSpec ServerProofs PropServer WorldModel WorldProofs WorldB WorldC PropWorld AttackModel AttackProofs AttackB ReplayProofs.

(** If whole packets are encrypted, a client gets the file it asked for or no success, whatever an
    attacker between it and the server does: what is stored is always a prefix of whole blocks (or
    everything), and success means everything.  The datagrams left over from before (the handshake)
    must not, by accident, open to data or acknowledgements on either side. *)
Theorem attacked_single_download : forall c g a s0 i s1 o d w e file r k t down up W,
  crypto_ok c -> 512 <= sc_max_bs (g_cfg g) -> 1 <= sc_max_window (g_cfg g) ->
  spreach c g s0 -> sview s0 a = None -> taken s0 i = TookMain a d -> step_recv c g s0 i = Some (s1, o) ->
  sent_to a o = [OWire w] -> sview s1 a = Some e -> en_work e = WRead file r ->
  negotiates c (g_cfg g) (i_henv i) false d w k -> sealed_packets (k_opts k) ->
  let n := nblocks file (bs_enc (k_opts k)) in
  n <= 55535 \/ op_window (k_opts k) <= 10000 ->
  let cdec := client_dec c (k_sock k) (op_bs (k_opts k)) in
  let sdec := fun y => entry_dec c e (recv_cut g y) in
  Forall (stale_for_receiver cdec) down -> Forall (stale_for_sender sdec) up ->
  Forall (no_data cdec) up -> Forall (no_ack sdec) down ->
  dareach (sphase c g) sview (fun _ => recv_cut g) c a k n (mkDW s1 false (crecv_new t) CRun down up 0 0) W ->
  let out := w_out (cr_w (dw_cl W)) in
  out = takeN (w_written (cr_w (dw_cl W)) * bs_enc (k_opts k)) file /\
  (forall total, dw_stat W = CDone total -> out = file /\ total = blen file) /\
  (forall e', dw_over W = false -> sview (dw_srv W) a = Some e' -> c_finished (en_conn e') = true -> out = file).
Proof.
  intros c g a s0 i s1 o d w e file r k t down up W HC HB HW R0 V0 TK E SO V1 EW HN HS n HNB cdec sdec HD HU ND NA HR.
  destruct (single_accepts _ _ _ _ _ _ _ _ _ _ TK V0 E SO V1) as (x & HX & EE).
  destruct (accept_opts _ _ _ _ _ _ _ HX HB HW) as ((_ & A1) & _). destruct (scut_ok g x A1) as [HL HCUT].
  assert (OK1 : TableOk g s1) by (eapply step_recv_ok; [eapply spreach_ok; exact R0|exact E]).
  pose proof V1 as V1'. rewrite EE in V1', EW.
  assert (SD : forall y, sdec y = srv_dec c x (N.max (sc_max_bs (g_cfg g) + DATA_PACKET_HEADER_SIZE) MIN_BUFFER_SIZE) y)
    by (intros y; unfold sdec; rewrite EE; reflexivity).
  eapply (attacked_download (sphase c g) sview c g a k (scut g) (TableOk g) (fun s t s' o _ _ I P _ _ => sphase_ok c g s t s' o I P)
    (fun s t s' o e => sphase_pev c g s t s' o a e) _ _ d w x _ _ s1 false t HC HB HW HN HX OK1 V1' _ HL HCUT HS file r EW HNB down up HD); [| exact ND| |exact HR].
  - eapply Forall_impl; [|exact HU]. intros y. apply stale_s_ext. exact SD.
  - eapply Forall_impl; [|exact NA]. intros y H p b. rewrite <- SD. apply H.
Qed.
Theorem attacked_multi_download : forall c g a m0 i m1 o d w e file r k t down up W,
  crypto_ok c -> 512 <= sc_max_bs (g_cfg g) -> 1 <= sc_max_window (g_cfg g) ->
  mpreach c g m0 -> mview m0 a = None -> main_turn c g m0 (MData a d) i = Some (m1, o) ->
  sent_to a o = [OWire w] -> mview m1 a = Some e -> en_work e = WRead file r ->
  negotiates c (g_cfg g) (i_henv i) false d w k -> sealed_packets (k_opts k) ->
  let n := nblocks file (bs_enc (k_opts k)) in
  n <= 55535 \/ op_window (k_opts k) <= 10000 ->
  let cdec := client_dec c (k_sock k) (op_bs (k_opts k)) in
  let sdec := fun y => entry_dec c e (thread_cut e y) in
  Forall (stale_for_receiver cdec) down -> Forall (stale_for_sender sdec) up ->
  Forall (no_data cdec) up -> Forall (no_ack sdec) down ->
  dareach (mphase c g) mview thread_cut c a k n (mkDW m1 false (crecv_new t) CRun down up 0 0) W ->
  let out := w_out (cr_w (dw_cl W)) in
  out = takeN (w_written (cr_w (dw_cl W)) * bs_enc (k_opts k)) file /\
  (forall total, dw_stat W = CDone total -> out = file /\ total = blen file) /\
  (forall e', dw_over W = false -> mview (dw_srv W) a = Some e' -> c_finished (en_conn e') = true -> out = file).
Proof.
  intros c g a m0 i m1 o d w e file r k t down up W HC HB HW R0 V0 E SO V1 EW HN HS n HNB cdec sdec HD HU ND NA HR.
  destruct (multi_accepts _ _ _ _ _ _ _ _ _ _ (mpreach_ok _ _ _ R0) V0 E SO V1) as (x & HX & EE).
  destruct (tcut_ok x) as [HL HCUT].
  assert (OK1 : HandlesOk m1) by (eapply mphase_ok; [eapply mpreach_ok; exact R0|eapply mp_main; exact E]).
  pose proof V1 as V1'. rewrite EE in V1', EW.
  assert (SD : forall y, sdec y = srv_dec c x (N.max (op_bs (es_opts x) + DATA_PACKET_HEADER_SIZE) MIN_BUFFER_SIZE) y)
    by (intros y; unfold sdec; rewrite EE; reflexivity).
  eapply (attacked_download (mphase c g) mview c g a k thread_cut HandlesOk (fun s t s' o _ _ I P _ _ => mphase_ok c g s t s' o I P)
    (fun s t s' o e => mphase_pev c g s t s' o a e) _ _ d w x _ _ m1 false t HC HB HW HN HX OK1 V1' _ HL HCUT HS file r EW HNB down up HD); [|exact ND| |exact HR].
  - eapply Forall_impl; [|exact HU]. intros y. apply stale_s_ext. exact SD.
  - eapply Forall_impl; [|exact NA]. intros y H p b. rewrite <- SD. apply H.
Qed.

(** Uploads: the same for the file the server stores. *)
Theorem attacked_single_upload : forall c g a s0 i s1 o d w e path wr k seek file t down up W,
  crypto_ok c -> 512 <= sc_max_bs (g_cfg g) -> 1 <= sc_max_window (g_cfg g) ->
  spreach c g s0 -> sview s0 a = None -> taken s0 i = TookMain a d -> step_recv c g s0 i = Some (s1, o) ->
  sent_to a o = [OWire w] -> sview s1 a = Some e -> en_work e = WWrite path wr ->
  negotiates c (g_cfg g) (i_henv i) true d w k -> sealed_packets (k_opts k) ->
  let n := nblocks file (bs_enc (k_opts k)) in
  n <= 55535 \/ op_window (k_opts k) <= 10000 ->
  let cdec := client_dec c (k_sock k) (op_bs (k_opts k)) in
  let sdec := fun y => entry_dec c e (recv_cut g y) in
  Forall (stale_for_sender cdec) down -> Forall (stale_for_receiver sdec) up ->
  Forall (no_ack cdec) up -> Forall (no_data sdec) down ->
  uareach (sphase c g) sview (fun _ => recv_cut g) c a k file n
    (mkUW s1 false [] (mkCS (client_reader (k_opts k) seek) 0 t) CRun down up 0 0) W ->
  (exists m, uw_kept W = takeN (m * bs_enc (k_opts k)) file) /\
  (forall total, uw_stat W = CDone total -> uw_kept W = file /\ total = blen file) /\
  (forall e', uw_over W = false -> sview (uw_srv W) a = Some e' -> c_finished (en_conn e') = true -> uw_kept W = file).
Proof.
  intros c g a s0 i s1 o d w e path wr k seek file t down up W HC HB HW R0 V0 TK E SO V1 EW HN HS n HNB cdec sdec HD HU NA ND HR.
  destruct (single_accepts _ _ _ _ _ _ _ _ _ _ TK V0 E SO V1) as (x & HX & EE).
  destruct (accept_opts _ _ _ _ _ _ _ HX HB HW) as ((_ & A1) & _). destruct (scut_ok g x A1) as [HL HCUT].
  assert (OK1 : TableOk g s1) by (eapply step_recv_ok; [eapply spreach_ok; exact R0|exact E]).
  rewrite (fresh_writer _ _ _ _ _ _ EE EW) in EW. pose proof V1 as V1'. rewrite EE in V1', EW.
  assert (SD : forall y, sdec y = srv_dec c x (N.max (sc_max_bs (g_cfg g) + DATA_PACKET_HEADER_SIZE) MIN_BUFFER_SIZE) y)
    by (intros y; unfold sdec; rewrite EE; reflexivity).
  eapply (attacked_upload (sphase c g) sview c g a k (scut g) (TableOk g) (fun s t s' o _ _ I P _ _ => sphase_ok c g s t s' o I P)
    (fun s t s' o e => sphase_pev c g s t s' o a e) _ _ d w x _ _ s1 true t HC HB HW HN HX OK1 V1' _ HL HCUT HS file path seek EW HNB down up HD); [|exact NA| |exact HR].
  - eapply Forall_impl; [|exact HU]. intros y. apply stale_r_ext. exact SD.
  - eapply Forall_impl; [|exact ND]. intros y H p b q. rewrite <- SD. apply H.
Qed.
Theorem attacked_multi_upload : forall c g a m0 i m1 o d w e path wr k seek file t down up W,
  crypto_ok c -> 512 <= sc_max_bs (g_cfg g) -> 1 <= sc_max_window (g_cfg g) ->
  mpreach c g m0 -> mview m0 a = None -> main_turn c g m0 (MData a d) i = Some (m1, o) ->
  sent_to a o = [OWire w] -> mview m1 a = Some e -> en_work e = WWrite path wr ->
  negotiates c (g_cfg g) (i_henv i) true d w k -> sealed_packets (k_opts k) ->
  let n := nblocks file (bs_enc (k_opts k)) in
  n <= 55535 \/ op_window (k_opts k) <= 10000 ->
  let cdec := client_dec c (k_sock k) (op_bs (k_opts k)) in
  let sdec := fun y => entry_dec c e (thread_cut e y) in
  Forall (stale_for_sender cdec) down -> Forall (stale_for_receiver sdec) up ->
  Forall (no_ack cdec) up -> Forall (no_data sdec) down ->
  uareach (mphase c g) mview thread_cut c a k file n
    (mkUW m1 false [] (mkCS (client_reader (k_opts k) seek) 0 t) CRun down up 0 0) W ->
  (exists m, uw_kept W = takeN (m * bs_enc (k_opts k)) file) /\
  (forall total, uw_stat W = CDone total -> uw_kept W = file /\ total = blen file) /\
  (forall e', uw_over W = false -> mview (uw_srv W) a = Some e' -> c_finished (en_conn e') = true -> uw_kept W = file).
Proof.
  intros c g a m0 i m1 o d w e path wr k seek file t down up W HC HB HW R0 V0 E SO V1 EW HN HS n HNB cdec sdec HD HU NA ND HR.
  destruct (multi_accepts _ _ _ _ _ _ _ _ _ _ (mpreach_ok _ _ _ R0) V0 E SO V1) as (x & HX & EE).
  destruct (tcut_ok x) as [HL HCUT].
  assert (OK1 : HandlesOk m1) by (eapply mphase_ok; [eapply mpreach_ok; exact R0|eapply mp_main; exact E]).
  rewrite (fresh_writer _ _ _ _ _ _ EE EW) in EW. pose proof V1 as V1'. rewrite EE in V1', EW.
  assert (SD : forall y, sdec y = srv_dec c x (N.max (op_bs (es_opts x) + DATA_PACKET_HEADER_SIZE) MIN_BUFFER_SIZE) y)
    by (intros y; unfold sdec; rewrite EE; reflexivity).
  eapply (attacked_upload (mphase c g) mview c g a k thread_cut HandlesOk (fun s t s' o _ _ I P _ _ => mphase_ok c g s t s' o I P)
    (fun s t s' o e => mphase_pev c g s t s' o a e) _ _ d w x _ _ m1 true t HC HB HW HN HX OK1 V1' _ HL HCUT HS file path seek EW HNB down up HD); [|exact NA| |exact HR].
  - eapply Forall_impl; [|exact HU]. intros y. apply stale_r_ext. exact SD.
  - eapply Forall_impl; [|exact ND]. intros y H p b q. rewrite <- SD. apply H.
Qed.

(** ** Level "data" protects neither block numbers nor acknowledgements *)
(** Bytes made from a data packet without any key. *)
Definition renumber (b : N) (wire : bytes) : bytes := be16 3 ++ be16 b ++ dropN 4 wire.

Lemma renumber_dec c key w b m b' : dec_data c key w = Ok (to_bytes (PData b m)) -> dec_data c key (renumber b' w) = Ok (to_bytes (PData b' m)).
Proof.
  intros H. unfold dec_data in *. change DATA_PACKET_HEADER_SIZE with 4 in *.
  assert (LW : 44 <= blen w).
  { destruct (N.ltb_spec (blen w) 44) as [X|X]; [|exact X]. exfalso.
    unfold decrypt, rslice in H. change ENCRYPTION_NONCE_SIZE with 24 in H. change ENCRYPTION_TAG_SIZE with 16 in H.
    destruct (blen w <? 24 + 0); [discriminate|]. destruct (blen w <? 16 + 24); [discriminate|].
    rewrite blen_takeN in H. destruct (N.ltb_spec (N.min (blen w - 24 - 16) (blen w)) 4); [discriminate|lia]. }
  destruct (split4 w 4 LW) as (h & ct & tag & nn & -> & H1 & H2 & H3).
  assert (HD : forall h0, blen h0 = 4 -> decrypt c key (h0 ++ ct ++ tag ++ nn) 4 =
    match c_open c key nn ct tag with Some q => Ok (h0 ++ q) | None => Err tt end)
    by (intros h0 E; pose proof (decrypt_split c key h0 ct tag nn H3 H2) as X; rewrite E in X; exact X).
  rewrite HD in H by exact H1. unfold renumber. rewrite dropN_app_exact by (symmetry; exact H1). rewrite app_assoc, HD by reflexivity.
  destruct (c_open c key nn ct tag) as [q|]; [|discriminate]. injection H as H. change (to_bytes (PData b m)) with ((be16 3 ++ be16 b) ++ m) in H.
  apply (f_equal (dropN 4)) in H. rewrite dropN_app_exact in H by (symmetry; exact H1). rewrite dropN_app_exact in H by reflexivity. rewrite H. reflexivity.
Qed.

(** Whoever sees a data packet of level "data" can give it any block number without the key, and
    both sides open the result as that block: the number is not covered by the tag. *)
Theorem data_level_renumbering : forall c k sk bs w b m b',
  (client_recv c (mkSock (Some k) LData sk bs) w = Ok (to_bytes (PData b m)) -> has_type T_DATA w = true ->
   client_recv c (mkSock (Some k) LData sk bs) (renumber b' w) = Ok (to_bytes (PData b' m))) /\
  (server_decrypt c LData (Some k) w = Ok (to_bytes (PData b m)) -> has_type T_DATA w = true ->
   server_decrypt c LData (Some k) (renumber b' w) = Ok (to_bytes (PData b' m))).
Proof.
  intros c k sk bs w b m b'. unfold client_recv, server_decrypt. cbn [cs_level cs_key].
  change (has_type T_DATA (renumber b' w)) with true.
  split; intros H T; rewrite T in H; cbn iota; apply renumber_dec with (b := b); exact H.
Qed.
(** Acknowledgements are taken as they come, from anybody. *)
Theorem data_level_acks_in_clear : forall c key sk bs b,
  client_recv c (mkSock key LData sk bs) (to_bytes (PAck b)) = Ok (to_bytes (PAck b)) /\
  server_decrypt c LData key (to_bytes (PAck b)) = Ok (to_bytes (PAck b)).
Proof. intros c [k|] sk bs b; split; reflexivity. Qed.

(** With level "data" a client reports success although blocks 1 and 2 have changed places, and a
    sender reports success although the receiver has nothing: the acknowledgement was made up. *)
Definition at_o : options := mkOpts 512 80 None LData 1.
Definition at_key : bytes := repeat 3 32.
Definition at_sock : csock := mkSock (Some at_key) LData None 512.
Definition at_block (b x len : N) : bytes :=
  match server_encrypt toy at_o (Some at_key) true (repeat 1 24) (to_bytes (PData b (repeat x (N.to_nat len)))) with Ok w => w | _ => [] end.
Definition at_dec (y : bytes) : option bytes := match client_recv toy at_sock y with Ok p => Some p | _ => None end.
Definition at_recv (st : crecv) (y : bytes) : crecv * cstat :=
  let '(st', _, stat) := recv_step at_dec at_o 5000 1000 st (EvDatagram true y) 0 false None true [] in (st', stat).
Example data_level_case :
  (let '(s1, r1) := at_recv (crecv_new 0) (renumber 1 (at_block 2 8 472)) in
   let '(s2, r2) := at_recv s1 (renumber 2 (at_block 1 7 472)) in
   let '(s3, r3) := at_recv s2 (at_block 3 9 10) in
   (r1, r2, r3) = (CRun, CRun, CDone 954) /\ w_out (cr_w s3) = repeat 8 472 ++ repeat 7 472 ++ repeat 9 10) /\
  (let '(s0, _, _) := sender_send (repeat 7 100) (mkCS (client_reader at_o false) 0 0) 516 false IoOk (Some true) in
   snd (sender_recv at_dec 1000 s0 (EvDatagram true (to_bytes (PAck 1))) 0) = CDone 100).
Proof. vm_compute. repeat split. Qed.

(** ** Block numbers come round *)
(** A file of more than 65536 blocks: the datagram of block 1, kept and handed to the client when
    65536 blocks are stored, is stored again in the place of block 65537, whatever the level.  This
    is why the theorems above ask that what is replayed is not that old. *)
Theorem replay_after_wrap : forall P st0, valid P -> blen (p_file P) <= p_max P ->
  encodable P (p_decc P) -> encodable P (p_decs P) -> dinit P st0 -> 65536 < p_n P ->
  exists st x, dreach P st /\ d_stat st = CRun /\ In (x, Some 1) (d_down st) /\
    w_out (cr_w (d_cl st)) = takeN (65536 * p_bs P) (p_file P) /\
    forall now txt cl' plain stat',
      recv_step (p_decc P) (p_opts P) (p_max P) (p_ctimeout P) (d_cl st) (EvDatagram true x) now false None true txt = (cl', plain, stat') ->
      w_out (cr_w cl') = takeN (65536 * p_bs P) (p_file P) ++ takeN (p_bs P) (p_file P).
Proof.
  intros P st0 HP Hmax He1 He2 HI HN. pose proof (dreach_init P st0 HI) as R0.
  assert (A0 : d_alive st0 /\ w_written (cr_w (d_cl st0)) = 0).
  { destruct HI as (t & t' & down & up & _ & _ & ->). repeat split. }
  destruct A0 as [A0 W0]. destruct (download_can_complete P st0 HP Hmax He1 He2 R0 A0) as (_ & _ & k & st' & RR & _ & DN & _).
  assert (R' : dreach P st').
  { clear - R0 RR HP Hmax. revert R0. induction RR; intros R0; [exact R0|]. apply IHRR. eapply download_rounds_reachable; eassumption. }
  assert (W' : p_n P <= w_written (cr_w (d_cl st'))).
  { destruct (dreach_inv P HP st' R') as [s (_ & _ & _ & _ & X)]. rewrite DN in X. lia. }
  destruct (rounds_through P HP k st0 st' 65536 Hmax R0 RR) as (mid & RM & WM & SM); [lia|eauto|exact HN|].
  destruct (stored_sent P HP mid 1 RM) as [x IX]; [lia|]. exists mid, x. do 3 (split; [assumption|]).
  assert (OUT : w_out (cr_w (d_cl mid)) = takeN (65536 * p_bs P) (p_file P)).
  { destruct (dreach_inv P HP mid RM) as [s IV]. destruct (dinv_safe P HP mid s IV) as (X & _). rewrite WM in X. exact X. }
  split; [exact OUT|]. intros now txt cl' plain stat' E. destruct (dreach_inv P HP mid RM) as [s (HC & _)].
  destruct HC as (m & _ & _ & _ & _ & _ & _ & _ & _ & H9 & _). pose proof (proj1 (Forall_forall _ _) H9 _ IX) as (_ & _ & DX). cbn [fst snd] in DX.
  destruct (wrapped P HP mid x 1 now txt cl' plain stat' RM SM ltac:(lia) ltac:(lia) DX E) as [-> _]. rewrite OUT. f_equal.
Qed.
(** A file of 70000 blocks and more, sent without encryption. *)
Definition long_file : bytes := repeat 7 (N.to_nat 40000000).
Definition long_P : params := mkParams long_file (mkOpts 512 80 None LNone 4) KMulti 50000000 1000 1000 Some Some.
Example replay_after_wrap_case :
  valid long_P /\ blen (p_file long_P) <= p_max long_P /\ encodable long_P (p_decc long_P) /\ encodable long_P (p_decs long_P) /\
  dinit long_P (mkD (conn_new (p_opts long_P) 0) (new_reader KMulti 512 4) true (crecv_new 0) CRun [] [] 0 0) /\ 65536 < p_n long_P.
Proof.
  assert (L : blen (p_file long_P) = 40000000).
  { change (p_file long_P) with (repeat (A := N) 7 (N.to_nat 40000000)). unfold blen. rewrite repeat_length. apply N2Nat.id. }
  assert (NB : p_n long_P = 78126). { unfold p_n, nblocks. rewrite L. change (p_bs long_P) with 512. reflexivity. }
  split; [|split; [|split; [|split; [|split]]]].
  - unfold valid. rewrite NB. cbv [long_P p_opts op_bs op_window p_kind]. repeat split; try lia; discriminate.
  - rewrite L. cbv [long_P p_max]. lia.
  - intros p _. exists p. reflexivity.
  - intros p _. exists p. reflexivity.
  - exists 0, 0, [], []. repeat split; constructor.
  - rewrite NB. lia.
Qed.

Print Assumptions attacked_single_download.
Print Assumptions attacked_multi_download.
Print Assumptions attacked_single_upload.
Print Assumptions attacked_multi_upload.
Print Assumptions data_level_renumbering.
Print Assumptions data_level_acks_in_clear.
Print Assumptions replay_after_wrap.
