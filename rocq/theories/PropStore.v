(** C70: what one client has stored another one gets back later. *)
From Verif Require Import Base BaseProofs PacketModel MapperModel ReaderModel ReaderSpec ConfigModel CryptoModel CryptoSpec ExtModel PathModel ConnModel
  ClientModel SystemModel ConnSpec HandshakeModel HandshakeProofs ServerModel ServerSpec ServerProofs PropServer WorldModel WorldB PropWorld FsModel FsSpec FsProofs PropFs FsServerModel
  DiskModel DiskSpec DiskProofs DiskB DiskC PropDisk StoreSpec StoreProofs.

Section G.
Context {S : Type} (c : crypto) (g : srvcfg) (fg : fcfg) (ds : N) (sv : server S) (init : S -> Prop).
Lemma uw_reach (step : disk S -> took -> disk S -> outs -> Prop) a k file n W0 W :
  (forall st t st' o, step st t st' o -> dkany sv c g fg ds st t st' o) ->
  dkreach sv c g fg ds init (uw_srv W0) -> uwreach step (dview sv) c a k file n W0 W -> dkreach sv c g fg ds init (uw_srv W).
Proof.
  intros H R0 R. induction R as [|W W' R IH ST]; [exact R0|]. destruct ST; cbn [uw_srv] in *; try exact IH; (eapply dkreach_step; [exact IH|apply H; eassumption]).
Qed.
Lemma later_reach (step : disk S -> took -> disk S -> outs -> Prop) st0 st :
  (forall st t st' o, step st t st' o -> dkany sv c g fg ds st t st' o) ->
  dkreach sv c g fg ds init st0 -> later init step st0 st -> dkreach sv c g fg ds init st.
Proof.
  intros H R0 R. induction R as [|st t st' o R IH P|st s R IH I]; [exact R0|eapply dkreach_step; [exact IH|apply H; exact P]|].
  apply dkreach_init. exact I.
Qed.
Lemma begins_reach wr st a d name st' r e k : dkreach sv c g fg ds init st -> begins sv c g fg ds wr st a d name st' r e k -> dkreach sv c g fg ds init st'.
Proof.
  intros R (i & f' & q & s1 & o & w & LK & FR & OR & MN & SO & V & -> & HN). eapply dkreach_step; [exact R|]. apply dk_step. eapply dk_ask; eassumption.
Qed.
End G.

(** After an upload that was accepted the requested path leads to the file it stores into, which, when
    the client reports success, is what the client had. *)
Theorem stored_file : forall c g fg ds S sv init cut st0 a d name st1 id e k seek file t down up W,
  one_of c g S sv init cut -> crypto_ok c -> 512 <= sc_max_bs (g_cfg g) -> 1 <= sc_max_window (g_cfg g) ->
  dkreach sv c g fg ds init st0 -> consistent (dk_fs st0) ->
  begins sv c g fg ds true st0 a d name st1 (Writes id) e k ->
  let n := nblocks file (bs_enc (k_opts k)) in
  n <= 55535 \/ op_window (k_opts k) <= 10000 ->
  Forall (stale_for_sender (client_dec c (k_sock k) (op_bs (k_opts k)))) down ->
  Forall (stale_for_receiver (fun y => entry_dec c e (cut e y))) up ->
  uwreach (stores sv c g fg ds a id name) (dview sv) c a k file n
    (mkUW st1 false [] (mkCS (client_reader (k_opts k) seek) 0 t) CRun down up 0 0) W ->
  let f := dk_fs (uw_srv W) in
  leads f fg name = Some id /\ (exists m, f_data f id = takeN (m * bs_enc (k_opts k)) file) /\
  forall total, uw_stat W = CDone total -> f_data f id = file /\ total = blen file.
Proof.
  intros c g fg ds S sv init cut st0 a d name st1 id e k seek file t down up W ONE HC HB HW R0 [CW _] BG n HNB HD HU HR.
  destruct BG as (i & f' & q & s1 & o & w & LK & FR & OR & MN & SO & V & E1 & HN). cbn zeta. split.
  - assert (L1 : leads (dk_fs st1) fg name = Some id).
    { rewrite E1. cbn [dk_fs]. unfold open_request in OR. rewrite FR in OR. destruct (create_server_writer (dk_fs st0) fg name) as [f2 r2] eqn:EW.
      injection OR as <- _ ER. destruct r2 as [id2|]; [|discriminate]. injection ER as ->. eapply writer_leads; eassumption. }
    remember (mkUW st1 false [] (mkCS (client_reader (k_opts k) seek) 0 t) CRun down up 0 0) as W0 eqn:EW0.
    assert (L0 : leads (dk_fs (uw_srv W0)) fg name = Some id) by (rewrite EW0; exact L1). clear - L0 HR.
    induction HR as [|W W' HR IH ST]; [exact L0|]. destruct ST; cbn [uw_srv] in *; try exact IH; match goal with H : stores _ _ _ _ _ _ _ _ _ _ _ _ |- _ => destruct H as [_ H]; rewrite H; exact IH end.
  - subst st1. edestruct (shared_upload c g fg ds S sv init cut st0 a d i f' q id s1 o w e k seek file t down up W) as (X1 & X2 & _); try eassumption; [|split; [exact X1|exact X2]].
    fold n. clear - HR. induction HR as [|W W' HR IH ST]; [constructor|]. eapply uwr_step; [exact IH|]. destruct ST.
    + eapply uw_server; try eassumption. apply H.
    + eapply uw_server_receives; try eassumption. apply H.
    + eapply uw_server_later; try eassumption. apply H.
    + eapply uw_client_sends; eassumption.
    + eapply uw_client_receives; eassumption.
Qed.

(** A download that was accepted reads the file its path leads to, and brings what is in it, as long as
    nobody changes it. *)
Theorem served_file : forall c g fg ds S sv init cut st b d name id st1 r e k,
  one_of c g S sv init cut -> crypto_ok c -> 512 <= sc_max_bs (g_cfg g) -> 1 <= sc_max_window (g_cfg g) ->
  dkreach sv c g fg ds init st -> consistent (dk_fs st) ->
  leads (dk_fs st) fg name = Some id -> listing fg name = false ->
  begins sv c g fg ds false st b d name st1 r e k ->
  let F := f_data (dk_fs st) id in
  r = Reads (SFile id) /\
  forall t down up W, let n := nblocks F (bs_enc (k_opts k)) in
  n <= 55535 \/ op_window (k_opts k) <= 10000 ->
  Forall (stale_for_receiver (client_dec c (k_sock k) (op_bs (k_opts k)))) down ->
  Forall (stale_for_sender (fun y => entry_dec c e (cut e y))) up ->
  dwreach (tended sv c g fg ds id name) (dview sv) c b k n (mkDW st1 false (crecv_new t) CRun down up 0 0) W ->
  let out := w_out (cr_w (dw_cl W)) in
  out = takeN (w_written (cr_w (dw_cl W)) * bs_enc (k_opts k)) F /\
  forall total, dw_stat W = CDone total -> out = F /\ total = blen F.
Proof.
  intros c g fg ds S sv init cut st b d name id st1 r e k ONE HC HB HW R0 [CW _] LD NL BG F.
  destruct BG as (i & f' & q & s1 & o & w & LK & FR & OR & MN & SO & V & E1 & HN).
  assert (X : f' = dk_fs st /\ r = Reads (SFile id)).
  { unfold open_request in OR. rewrite FR in OR. destruct (create_server_reader (dk_fs st) fg name) as [src|] eqn:ER; [|discriminate].
    injection OR as <- _ <-. split; [reflexivity|]. f_equal. eapply reader_leads; eassumption. }
  destruct X as [-> ->]. split; [reflexivity|]. intros t down up W n HNB HD HU HR. cbn zeta.
  subst st1. edestruct (shared_download c g fg ds S sv init cut st b d i (dk_fs st) q (SFile id) s1 o w e k t down up W) as (X1 & X2 & _); try eassumption.
  - cbn [content]. fold F. fold n. clear - HR. induction HR as [|W W' HR IH ST]; [constructor|]. eapply dwr_step; [exact IH|].
    assert (UN : forall s t s' o, tended sv c g fg ds id name s t s' o -> unchanged sv c g fg ds b (SFile id) s t s' o).
    { intros s t0 s' o0 (P & E & _). split; [exact P|]. intros _. exact E. }
    destruct ST.
    + eapply dw_server; try eassumption. apply UN. eassumption.
    + eapply dw_server_receives; try eassumption. apply UN. eassumption.
    + eapply dw_server_later; try eassumption. apply UN. eassumption.
    + eapply dw_client; eassumption.
  - split; [exact X1|exact X2].
Qed.

(** Store and retrieve: an upload that has succeeded, anything in between (other transfers, stops and
    restarts of the server), a download of the same path that has succeeded: the second client has what
    the first one had.  Provided that meanwhile nobody else changes the file, nor where the path leads. *)
Theorem store_and_retrieve : forall c g fg ds S sv init cut st0 a d name st1 id e k seek file t down up W total
    st2 st3 b d' st4 r e' k' t' down' up' W',
  one_of c g S sv init cut -> crypto_ok c -> 512 <= sc_max_bs (g_cfg g) -> 1 <= sc_max_window (g_cfg g) ->
  dkreach sv c g fg ds init st0 -> consistent (dk_fs st0) ->
  (* the upload *)
  begins sv c g fg ds true st0 a d name st1 (Writes id) e k ->
  let n := nblocks file (bs_enc (k_opts k)) in
  n <= 55535 \/ op_window (k_opts k) <= 10000 ->
  Forall (stale_for_sender (client_dec c (k_sock k) (op_bs (k_opts k)))) down ->
  Forall (stale_for_receiver (fun y => entry_dec c e (cut e y))) up ->
  uwreach (stores sv c g fg ds a id name) (dview sv) c a k file n
    (mkUW st1 false [] (mkCS (client_reader (k_opts k) seek) 0 t) CRun down up 0 0) W ->
  uw_stat W = CDone total -> st2 = uw_srv W ->
  (* the time in between *)
  later init (tended sv c g fg ds id name) st2 st3 -> consistent (dk_fs st3) ->
  (* the download *)
  listing fg name = false -> begins sv c g fg ds false st3 b d' name st4 r e' k' ->
  let n' := nblocks file (bs_enc (k_opts k')) in
  n' <= 55535 \/ op_window (k_opts k') <= 10000 ->
  Forall (stale_for_receiver (client_dec c (k_sock k') (op_bs (k_opts k')))) down' ->
  Forall (stale_for_sender (fun y => entry_dec c e' (cut e' y))) up' ->
  dwreach (tended sv c g fg ds id name) (dview sv) c b k' n' (mkDW st4 false (crecv_new t') CRun down' up' 0 0) W' ->
  let out := w_out (cr_w (dw_cl W')) in
  (exists m, out = takeN (m * bs_enc (k_opts k')) file) /\
  forall total', dw_stat W' = CDone total' -> out = file /\ total' = total.
Proof.
  intros c g fg ds S sv init cut st0 a d name st1 id e k seek file t down up W total st2 st3 b d' st4 r e' k' t' down' up' W'
    ONE HC HB HW R0 C0 BG n HNB HD HU HR DN E2 LT C3 NL BG' n' HNB' HD' HU' HR' out.
  destruct (stored_file c g fg ds S sv init cut st0 a d name st1 id e k seek file t down up W ONE HC HB HW R0 C0 BG HNB HD HU HR) as [L [_ X]].
  destruct (X total DN) as [EF ->]. rewrite <- E2 in L, EF.
  assert (R2 : dkreach sv c g fg ds init st2).
  { rewrite E2. eapply (fun H Z => uw_reach c g fg ds sv init _ _ _ _ _ _ _ H Z HR); [intros s x s' y [[Y _] _]; exact Y|].
    cbn [uw_srv]. eapply (begins_reach c g fg ds sv init); [exact R0|exact BG]. }
  assert (R3 : dkreach sv c g fg ds init st3).
  { eapply (later_reach c g fg ds sv init); [|exact R2|exact LT]. intros s x s' y [Y _]. exact Y. }
  assert (K3 : leads (dk_fs st3) fg name = Some id /\ f_data (dk_fs st3) id = file).
  { clear - LT L EF. induction LT as [|s x s' y LT IH P|s x LT IH I]; [auto| |exact IH]. destruct P as (_ & E1 & E2). rewrite E1, E2. exact IH. }
  destruct K3 as [L3 F3].
  destruct (served_file c g fg ds S sv init cut st3 b d' name id st4 r e' k' ONE HC HB HW R3 C3 L3 NL BG') as [_ Y]. cbn zeta in Y. rewrite F3 in Y.
  destruct (Y t' down' up' W' HNB' HD' HU' HR') as [Y1 Y2]. split; [eexists; exact Y1|exact Y2].
Qed.

(** Without leave to overwrite nothing the server does can spoil this, whatever requests and datagrams it
    gets, once it has dropped the connection of the upload or has been restarted: only other programs
    could. *)
Theorem store_and_retrieve_exclusive : forall c g fg ds S sv init cut st0 a d name st1 id e k seek file t down up W total
    st2 st3 b d' st4 r e' k' t' down' up' W',
  one_of c g S sv init cut -> crypto_ok c -> 512 <= sc_max_bs (g_cfg g) -> 1 <= sc_max_window (g_cfg g) ->
  fc_overwrite fg = false ->
  dkreach sv c g fg ds init st0 -> consistent (dk_fs st0) ->
  begins sv c g fg ds true st0 a d name st1 (Writes id) e k ->
  let n := nblocks file (bs_enc (k_opts k)) in
  n <= 55535 \/ op_window (k_opts k) <= 10000 ->
  Forall (stale_for_sender (client_dec c (k_sock k) (op_bs (k_opts k)))) down ->
  Forall (stale_for_receiver (fun y => entry_dec c e (cut e y))) up ->
  uwreach (undisturbed sv c g fg ds id name) (dview sv) c a k file n
    (mkUW st1 false [] (mkCS (client_reader (k_opts k) seek) 0 t) CRun down up 0 0) W ->
  uw_stat W = CDone total ->
  uw_over W = true /\ st2 = uw_srv W \/ (exists s, init s /\ st2 = mkDk s (dk_fs (uw_srv W)) (fun _ => None)) ->
  later init (undisturbed sv c g fg ds id name) st2 st3 -> consistent (dk_fs st3) ->
  listing fg name = false -> begins sv c g fg ds false st3 b d' name st4 r e' k' ->
  let n' := nblocks file (bs_enc (k_opts k')) in
  n' <= 55535 \/ op_window (k_opts k') <= 10000 ->
  Forall (stale_for_receiver (client_dec c (k_sock k') (op_bs (k_opts k')))) down' ->
  Forall (stale_for_sender (fun y => entry_dec c e' (cut e' y))) up' ->
  dwreach (undisturbed sv c g fg ds id name) (dview sv) c b k' n' (mkDW st4 false (crecv_new t') CRun down' up' 0 0) W' ->
  let out := w_out (cr_w (dw_cl W')) in
  (exists m, out = takeN (m * bs_enc (k_opts k')) file) /\
  forall total', dw_stat W' = CDone total' -> out = file /\ total' = total.
Proof.
  intros c g fg ds S sv init cut st0 a d name st1 id e k seek file t down up W total st2 st3 b d' st4 r e' k' t' down' up' W'
    ONE HC HB HW O R0 C0 BG n HNB HD HU HR DN E2 LT C3 NL BG' n' HNB' HD' HU' HR' out.
  destruct (one_good _ _ _ _ _ _ ONE) as (Inv & G & HI). pose proof (reach_inv _ _ _ _ _ _ _ _ _ G HI _ R0) as D0.
  pose proof BG as (i & f' & q & s1 & o & w & LK & FR & OR & MN & SO & V & E1 & HN).
  assert (ST : dkstep sv c g fg ds st0 (TookMain a d) st1 o) by (rewrite E1; eapply dk_ask; eassumption).
  assert (A0 : apart st0).
  { clear - O R0. induction R0 as [s f H|st t st' o R IH P]; [split; intros *; discriminate|]. eapply (apart_step c g fg ds sv O); eassumption. }
  pose proof (apart_step c g fg ds sv O _ _ _ _ A0 (dk_step _ _ _ _ _ _ _ _ _ ST)) as A1.
  assert (OA : dk_open st1 a = Some (Writes id)) by (rewrite E1; cbn [dk_open]; unfold still_open; rewrite V, N.eqb_refl; reflexivity).
  assert (M1 : mine sv Inv a id st1).
  { split; [eapply (DInv_step c g fg ds sv Inv cut G); eassumption|]. split; [exact A1|]. split; [apply (proj1 A1 _ _ OA)|].
    intros x B. eapply (proj2 A1); eassumption. }
  assert (L1 : leads (dk_fs st1) fg name = Some id).
  { rewrite E1. cbn [dk_fs]. unfold open_request in OR. rewrite FR in OR. destruct (create_server_writer (dk_fs st0) fg name) as [f2 r2] eqn:EW.
    injection OR as <- _ ER. destruct r2 as [id2|]; [|discriminate]. injection ER as ->. eapply writer_leads; [apply C0|exact EW]. }
  set (W0 := mkUW st1 false [] (mkCS (client_reader (k_opts k) seek) 0 t) CRun down up 0 0) in HR.
  destruct (uw_closed c g fg ds sv Inv cut G O a id name k file n W0 W M1 L1 eq_refl HR) as (HRS & MW & CL).
  destruct (stored_file c g fg ds S sv init cut st0 a d name st1 id e k seek file t down up W ONE HC HB HW R0 C0 BG HNB HD HU HRS) as [LW _].
  assert (C2 : closed sv Inv id st2 /\ leads (dk_fs st2) fg name = Some id).
  { destruct E2 as [[OV ->]|(s & I & ->)]; [split; [apply CL; exact OV|exact LW]|]. split; [|exact LW]. destruct (HI s I) as [H1 H2]. destruct MW as (_ & _ & L' & _).
    split; [split; [exact H1|intros x; cbn [dk_srv dk_open]; rewrite H2; reflexivity]|]. split; [split; intros *; discriminate|]. split; [exact L'|]. intros x; discriminate. }
  destruct C2 as [C2 L2].
  destruct (later_closed c g fg ds sv Inv cut G O init id name st2 st3 HI C2 L2 LT) as (K3 & L3 & LT3).
  assert (K4 : closed sv Inv id st4 /\ leads (dk_fs st4) fg name = Some id).
  { pose proof BG' as (i' & f2 & q' & s2 & o' & w' & LK' & FR' & OR' & MN' & SO' & V' & E4 & HN').
    assert (ST' : dkstep sv c g fg ds st3 (TookMain b d') st4 o') by (rewrite E4; eapply dk_ask; eassumption).
    destruct (closed_step c g fg ds sv Inv cut G O id name _ _ _ _ K3 L3 (und_own _ _ _ _ _ _ _ _ _ _ _ ST')) as (Y1 & Y2 & _). auto. }
  destruct K4 as [K4 L4].
  pose proof (dw_closed c g fg ds sv Inv cut G O id name b k' n' (mkDW st4 false (crecv_new t') CRun down' up' 0 0) W' K4 L4 HR') as HRT.
  assert (LT2 : later init (tended sv c g fg ds id name) (uw_srv W) st3).
  { destruct E2 as [[_ E2]|(s & I & E2)]; [rewrite <- E2; exact LT3|]. clear - LT3 I E2. induction LT3 as [|s1 x s1' y LT IH P|s1 x LT IH J].
    - rewrite E2. apply later_restart; [constructor|exact I].
    - eapply later_step; eassumption.
    - apply later_restart; assumption. }
  exact (store_and_retrieve c g fg ds S sv init cut st0 a d name st1 id e k seek file t down up W total (uw_srv W) st3 b d' st4 r e' k' t' down' up' W'
    ONE HC HB HW R0 C0 BG HNB HD HU HRS DN eq_refl LT2 C3 NL BG' HNB' HD' HU' HRT).
Qed.

Print Assumptions stored_file.
Print Assumptions served_file.
Print Assumptions store_and_retrieve.
Print Assumptions store_and_retrieve_exclusive.
