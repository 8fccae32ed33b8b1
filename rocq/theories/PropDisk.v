(** C67: files that several transfers, and other programs, use at the same time. *)
From Verif Require Import Base BaseProofs PacketModel MapperModel ReaderModel ReaderSpec ConfigModel CryptoModel CryptoSpec ExtModel PathModel ConnModel
  ClientModel SystemModel ConnSpec HandshakeModel HandshakeProofs ServerModel ServerSpec ServerProofs PropServer WorldModel WorldB PropWorld FsModel FsProofs FsServerModel
  DiskModel DiskSpec DiskProofs DiskB DiskC.

Lemma one_good c g S sv init cut : one_of c g S sv init cut ->
  exists Inv, good c g sv Inv cut /\ forall s, init s -> Inv s /\ forall a, sv_view sv s a = None.
Proof.
  intros [|].
  - exists (TableOk g). split; [apply single_good|]. intros s [now ->]. split; [apply (spreach_ok c g); constructor|reflexivity].
  - exists HandlesOk. split; [apply multi_good|]. intros s ->. split; [apply (mpreach_ok c g); constructor|reflexivity].
Qed.
Lemma reach_inv c g fg ds S (sv : server S) (init : S -> Prop) Inv cut : good c g sv Inv cut -> (forall s, init s -> Inv s /\ forall a, sv_view sv s a = None) ->
  forall st, dkreach sv c g fg ds init st -> DInv sv Inv st.
Proof.
  intros G HI st R. induction R as [s f H|st t st' o R IH P].
  - destruct (HI s H) as [H1 H2]. split; [exact H1|]. intros a. cbn [dk_srv dk_open]. rewrite H2. reflexivity.
  - eapply (DInv_any c g fg ds sv Inv cut G); eassumption.
Qed.

Section T.
Context {S : Type} (c : crypto) (g : srvcfg) (fg : fcfg) (ds : N) (sv : server S) (Inv : S -> Prop) (cut : entry -> bytes -> bytes).
Hypothesis G : good c g sv Inv cut.
Variables (st0 st1 : disk S) (a : addr) (d w : bytes) (i : input) (f' : fs) (q : option (option N)) (r0 : option opened) (s1 : S) (o : outs).
Hypothesis D0 : DInv sv Inv st0.
Hypothesis LK : sv_looked sv (dk_srv st0) a = true.
Hypothesis OR : open_request c (g_cfg g) fg ds (dk_fs st0) (h_eph (i_henv i)) (recv_cut g d) = (f', q, r0).
Hypothesis MN : sv_main sv (loaded sv st0) a d (with_files i q (content f' r0)) s1 o.
Hypothesis SO : sent_to a o = [OWire w].
Hypothesis E1 : st1 = mkDk s1 f' (still_open sv s1 (fun b => if b =? a then r0 else dk_open st0 b)).

Lemma t_step : dkstep sv c g fg ds st0 (TookMain a d) st1 o.
Proof. rewrite E1. eapply dk_ask; eassumption. Qed.
Lemma t_inv : DInv sv Inv st1.
Proof. eapply (DInv_step c g fg ds sv Inv cut G); [exact D0|exact t_step]. Qed.
Lemma t_accept e : sv_view sv s1 a = Some e -> exists x,
  server_new c (g_cfg g) (with_open (i_henv i) q) (i_av i) (recv_cut g d) = SAccepted x (Some w) /\
  e = new_entry x (e_now (i_env i)) (fun _ => content f' r0).
Proof.
  intros V. pose proof (load_inv c g sv Inv cut G _ D0) as L0.
  assert (V0 : sv_view sv (loaded sv st0) a = None).
  { apply (dview_none c g sv Inv cut G st0 a). apply (gd_looked _ _ _ _ _ G); [apply D0|exact LK]. }
  destruct (gd_new _ _ _ _ _ G _ _ _ _ _ _ _ _ L0 MN V0 V) as (_ & x & reply & SN & EE & SO'). exists x. rewrite SO in SO'.
  destruct reply as [w0|]; [|discriminate]. injection SO' as <-. split; [exact SN|exact EE].
Qed.
Lemma t_open e : sv_view sv s1 a = Some e -> dk_open st1 a = r0.
Proof. intros V. rewrite E1. cbn [dk_open]. unfold still_open. rewrite V, N.eqb_refl. reflexivity. Qed.
Variables (k : cside) (t : N) (down up : list dgram).
Hypothesis HC : crypto_ok c.
Hypothesis HB : 512 <= sc_max_bs (g_cfg g).
Hypothesis HW : 1 <= sc_max_window (g_cfg g).

Lemma t_download e src F r W : sv_view sv s1 a = Some e -> en_work e = WRead F r -> r0 = Some (Reads src) ->
  negotiates c (g_cfg g) (with_open (i_henv i) q) false d w k ->
  nblocks F (bs_enc (k_opts k)) <= 55535 \/ op_window (k_opts k) <= 10000 ->
  Forall (stale_for_receiver (client_dec c (k_sock k) (op_bs (k_opts k)))) down ->
  Forall (stale_for_sender (fun y => entry_dec c e (cut e y))) up ->
  dwreach (unchanged sv c g fg ds a src) (dview sv) c a k (nblocks F (bs_enc (k_opts k))) (mkDW st1 false (crecv_new t) CRun down up 0 0) W ->
  let out := w_out (cr_w (dw_cl W)) in
  out = takeN (w_written (cr_w (dw_cl W)) * bs_enc (k_opts k)) F /\
  (forall total, dw_stat W = CDone total -> out = F /\ total = blen F) /\
  (forall e', dw_over W = false -> dview sv (dw_srv W) a = Some e' -> c_finished (en_conn e') = true -> out = F).
Proof.
  intros V EW ER HN HNB HD HU HR. destruct (t_accept e V) as (x & SN & EE).
  destruct (accept_opts _ _ _ _ _ _ _ SN HB HW) as ((_ & A1) & _). destruct (gd_cut _ _ _ _ _ G x A1) as (L & HL & HCUT).
  pose proof (t_open e V) as EO. rewrite ER in EO.
  assert (EF : F = content f' r0).
  { rewrite EE in EW. unfold new_entry in EW. cbn [en_work] in EW. destruct (es_reader x); [|discriminate]. injection EW as <- _. reflexivity. }
  assert (R1 : RInv sv Inv a src F st1).
  { split; [exact t_inv|]. split; [exact EO|]. rewrite EF, ER, E1. cbn [dk_fs dk_srv]. split; [reflexivity|].
    exists e, r. split; [exact V|]. rewrite EF, ER in EW. exact EW. }
  assert (V1 : dview sv st1 a = Some (new_entry x (e_now (i_env i)) (fun _ => content f' r0))).
  { rewrite (RInv_view c g sv Inv cut G _ _ _ _ R1), E1. cbn [dk_srv]. rewrite V, EE. reflexivity. }
  eapply (download_world (unchanged sv c g fg ds a src) (dview sv) c g a k cut (RInv sv Inv a src F)) with (s1 := st1) (L := L) (now := e_now (i_env i)) (fs := fun _ => content f' r0);
    try eassumption.
  - intros s t0 s' o0 e0 e1 RI P VS VS'. destruct (rstep_pev c g fg ds sv Inv cut G _ _ _ _ _ _ _ _ RI P VS) as [_ X]. exact (X _ VS').
  - intros s t0 s' o0 e0 RI P VS. apply (rstep_pev c g fg ds sv Inv cut G _ _ _ _ _ _ _ _ RI P VS).
Qed.

Lemma t_upload e id seek file path wr W : sv_view sv s1 a = Some e -> en_work e = WWrite path wr -> r0 = Some (Writes id) ->
  negotiates c (g_cfg g) (with_open (i_henv i) q) true d w k ->
  nblocks file (bs_enc (k_opts k)) <= 55535 \/ op_window (k_opts k) <= 10000 ->
  Forall (stale_for_sender (client_dec c (k_sock k) (op_bs (k_opts k)))) down ->
  Forall (stale_for_receiver (fun y => entry_dec c e (cut e y))) up ->
  uwreach (alone sv c g fg ds a id) (dview sv) c a k file (nblocks file (bs_enc (k_opts k)))
    (mkUW st1 false [] (mkCS (client_reader (k_opts k) seek) 0 t) CRun down up 0 0) W ->
  let stored := f_data (dk_fs (uw_srv W)) id in
  (exists m, stored = takeN (m * bs_enc (k_opts k)) file) /\
  (forall total, uw_stat W = CDone total -> stored = file /\ total = blen file) /\
  (forall e', uw_over W = false -> dview sv (uw_srv W) a = Some e' -> c_finished (en_conn e') = true -> stored = file).
Proof.
  intros V EW ER HN HNB HD HU HR. cbn zeta. destruct (t_accept e V) as (x & SN & EE).
  destruct (accept_opts _ _ _ _ _ _ _ SN HB HW) as ((_ & A1) & _). destruct (gd_cut _ _ _ _ _ G x A1) as (L & HL & HCUT).
  pose proof (t_open e V) as EO. rewrite ER in EO. rewrite (fresh_writer _ _ _ _ _ _ EE EW) in EW.
  assert (WS : writes sv a st1 id writer_new) by (exists e, path; rewrite E1 at 1; cbn [dk_srv]; auto).
  assert (K : kept_ok sv Inv a id false [] st1).
  { split; [exact t_inv|]. split; [|exists writer_new; split; [exact WS|reflexivity]].
    pose proof (accepted_kind c g fg ds _ _ _ _ _ _ _ _ _ _ OR eq_refl SN) as AK. rewrite E1. cbn [dk_fs]. destruct (es_write x).
    - destruct AK as (_ & id' & X & D). rewrite ER in X. injection X as <-. exact D.
    - destruct AK as (_ & _ & src & X). rewrite ER in X. discriminate. }
  pose proof (kept_run c g fg ds sv Inv cut G a id _ _ _ _ _ HR K) as (_ & KK & _). rewrite KK.
  assert (V1 : dview sv st1 a = Some (new_entry x (e_now (i_env i)) (fun _ => content f' r0))).
  { rewrite (writes_view c g sv Inv cut G _ _ _ _ WS), E1. cbn [dk_srv]. rewrite V, EE. reflexivity. }
  eapply (upload_world (alone sv c g fg ds a id) (dview sv) c g a k cut (fun st => DInv sv Inv st /\ exists w, writes sv a st id w)) with (s1 := st1) (L := L) (now := e_now (i_env i)) (fs := fun _ => content f' r0);
    try eassumption.
  - intros s t0 s' o0 e0 e1 [DI [w0 W0]] [P _] VS VS'. split; [eapply (DInv_any c g fg ds sv Inv cut G); eassumption|].
    destruct (wstep_pev c g fg ds sv Inv cut G _ _ _ _ _ _ _ _ DI W0 P VS) as [_ X]. destruct (X _ VS') as (w' & W' & _). eauto.
  - intros s t0 s' o0 e0 [DI [w0 W0]] [P _] VS. apply (wstep_pev c g fg ds sv Inv cut G _ _ _ _ _ _ _ _ DI W0 P VS).
  - split; [exact t_inv|]. eauto.
Qed.
End T.

(** ** Downloads *)
(** A client that asks for a file gets what the file contained when the server opened it - complete
    whenever it or the server reports success - with either server, whatever other clients do
    meanwhile (also uploads), whatever the network does, provided nobody changes this file while the
    client's connection has it open. *)
Theorem shared_download : forall c g fg ds S sv init cut st0 a d i f' q src s1 o w e k t down up W,
  one_of c g S sv init cut -> crypto_ok c -> 512 <= sc_max_bs (g_cfg g) -> 1 <= sc_max_window (g_cfg g) ->
  (* the server, in any state, looks at the request [d] of [a], opens [src] and answers [w] *)
  dkreach sv c g fg ds init st0 -> sv_looked sv (dk_srv st0) a = true ->
  open_request c (g_cfg g) fg ds (dk_fs st0) (h_eph (i_henv i)) (recv_cut g d) = (f', q, Some (Reads src)) ->
  let F := content f' (Some (Reads src)) in
  sv_main sv (loaded sv st0) a d (with_files i q F) s1 o -> sent_to a o = [OWire w] -> sv_view sv s1 a = Some e ->
  let st1 := mkDk s1 f' (still_open sv s1 (fun b => if b =? a then Some (Reads src) else dk_open st0 b)) in
  (* the client has asked with [d] and accepts [w] *)
  negotiates c (g_cfg g) (with_open (i_henv i) q) false d w k ->
  let n := nblocks F (bs_enc (k_opts k)) in
  n <= 55535 \/ op_window (k_opts k) <= 10000 ->
  Forall (stale_for_receiver (client_dec c (k_sock k) (op_bs (k_opts k)))) down ->
  Forall (stale_for_sender (fun y => entry_dec c e (cut e y))) up ->
  dwreach (unchanged sv c g fg ds a src) (dview sv) c a k n (mkDW st1 false (crecv_new t) CRun down up 0 0) W ->
  let out := w_out (cr_w (dw_cl W)) in
  out = takeN (w_written (cr_w (dw_cl W)) * bs_enc (k_opts k)) F /\
  (forall total, dw_stat W = CDone total -> out = F /\ total = blen F) /\
  (forall e', dw_over W = false -> dview sv (dw_srv W) a = Some e' -> c_finished (en_conn e') = true -> out = F).
Proof.
  intros c g fg ds S sv init cut st0 a d i f' q src s1 o w e k t down up W ONE HC HB HW R0 LK OR F MN SO V st1 HN n HNB HD HU HR.
  destruct (one_good _ _ _ _ _ _ ONE) as (Inv & G & HI). pose proof (reach_inv _ _ _ _ _ _ _ _ _ G HI _ R0) as D0.
  destruct (t_accept c g sv Inv cut G st0 a d w i f' q _ s1 o D0 LK MN SO e V) as (x & SN & EE).
  pose proof (accepted_kind c g fg ds _ _ _ _ _ _ _ _ _ _ OR eq_refl SN) as AK.
  assert (EW : exists r, en_work e = WRead F r).
  { rewrite EE. unfold new_entry. cbn [en_work]. destruct (es_write x); [destruct AK as (_ & id & X & _); discriminate|].
    destruct AK as (_ & (rd & ->) & _). eexists. reflexivity. }
  destruct EW as [r EW].
  exact (t_download c g fg ds sv Inv cut G st0 st1 a d w i f' q _ s1 o D0 LK OR MN SO eq_refl k t down up HC HB HW e src F r W V EW eq_refl HN HNB HD HU HR).
Qed.
(** What is opened, at the time of the request, is the file the name leads to (C57); opening it for
    reading changes nothing on the disk. *)
Theorem download_opens : forall c cfg fg ds f eph d f' q src,
  open_request c cfg fg ds f eph d = (f', q, Some (Reads src)) ->
  f' = f /\ exists path, file_request c cfg eph d = Some (false, path) /\ create_server_reader f fg path = Some src.
Proof.
  intros c cfg fg ds f eph d f' q src H. unfold open_request in H. destruct (file_request _ _ _ _) as [[[] path]|]; [| |discriminate].
  - destruct (create_server_writer f fg path) as [f1 [id|]]; discriminate.
  - destruct (create_server_reader f fg path) as [s|] eqn:E; [|discriminate]. injection H as <- _ <-. split; [reflexivity|]. eauto.
Qed.

(** ** Uploads *)
(** The file on the server's disk contains what the client has got through so far, complete
    whenever it or the server reports success, provided nobody else changes that file. *)
Theorem shared_upload : forall c g fg ds S sv init cut st0 a d i f' q id s1 o w e k seek file t down up W,
  one_of c g S sv init cut -> crypto_ok c -> 512 <= sc_max_bs (g_cfg g) -> 1 <= sc_max_window (g_cfg g) ->
  dkreach sv c g fg ds init st0 -> sv_looked sv (dk_srv st0) a = true ->
  open_request c (g_cfg g) fg ds (dk_fs st0) (h_eph (i_henv i)) (recv_cut g d) = (f', q, Some (Writes id)) ->
  sv_main sv (loaded sv st0) a d (with_files i q (f_data f' id)) s1 o -> sent_to a o = [OWire w] -> sv_view sv s1 a = Some e ->
  let st1 := mkDk s1 f' (still_open sv s1 (fun b => if b =? a then Some (Writes id) else dk_open st0 b)) in
  negotiates c (g_cfg g) (with_open (i_henv i) q) true d w k ->
  let n := nblocks file (bs_enc (k_opts k)) in
  n <= 55535 \/ op_window (k_opts k) <= 10000 ->
  Forall (stale_for_sender (client_dec c (k_sock k) (op_bs (k_opts k)))) down ->
  Forall (stale_for_receiver (fun y => entry_dec c e (cut e y))) up ->
  uwreach (alone sv c g fg ds a id) (dview sv) c a k file n
    (mkUW st1 false [] (mkCS (client_reader (k_opts k) seek) 0 t) CRun down up 0 0) W ->
  let stored := f_data (dk_fs (uw_srv W)) id in
  (exists m, stored = takeN (m * bs_enc (k_opts k)) file) /\
  (forall total, uw_stat W = CDone total -> stored = file /\ total = blen file) /\
  (forall e', uw_over W = false -> dview sv (uw_srv W) a = Some e' -> c_finished (en_conn e') = true -> stored = file).
Proof.
  intros c g fg ds S sv init cut st0 a d i f' q id s1 o w e k seek file t down up W ONE HC HB HW R0 LK OR MN SO V st1 HN n HNB HD HU HR.
  destruct (one_good _ _ _ _ _ _ ONE) as (Inv & G & HI). pose proof (reach_inv _ _ _ _ _ _ _ _ _ G HI _ R0) as D0.
  destruct (t_accept c g sv Inv cut G st0 a d w i f' q (Some (Writes id)) s1 o D0 LK MN SO e V) as (x & SN & EE).
  pose proof (accepted_kind c g fg ds _ _ _ _ _ _ _ _ _ _ OR eq_refl SN) as AK.
  assert (EW : exists path wr, en_work e = WWrite path wr).
  { rewrite EE. unfold new_entry. cbn [en_work]. destruct (es_write x); [|destruct AK as (_ & _ & src & X); discriminate].
    destruct AK as (-> & _). eauto. }
  destruct EW as (path & wr & EW).
  exact (t_upload c g fg ds sv Inv cut G st0 st1 a d w i f' q _ s1 o D0 LK OR MN SO eq_refl k t down up HC HB HW e id seek file path wr W V EW eq_refl HN HNB HD HU HR).
Qed.

(** ** Without leave to overwrite, uploads cannot get in each other's way *)
(** Two connections never store into the same file. *)
Theorem exclusive_files : forall c g fg ds S sv init cut st a b id w w',
  one_of c g S sv init cut -> fc_overwrite fg = false -> dkreach sv c g fg ds init st ->
  writes sv a st id w -> writes sv b st id w' -> a = b.
Proof.
  intros c g fg ds S sv init cut st a b id w w' ONE O R (e & p & _ & _ & A) (e' & p' & _ & _ & B).
  assert (X : apart st); [|eapply (proj2 X); eassumption]. clear - O R.
  induction R as [s f H|st t st' o R IH P]; [split; intros *; discriminate|]. eapply (apart_step c g fg ds sv O); eassumption.
Qed.
(** So an upload ends up on the disk whatever requests the server gets meanwhile, as long as no other
    program touches the file. *)
Theorem exclusive_upload : forall c g fg ds S sv init cut st0 a d i f' q id s1 o w e k seek file t down up W,
  one_of c g S sv init cut -> crypto_ok c -> 512 <= sc_max_bs (g_cfg g) -> 1 <= sc_max_window (g_cfg g) ->
  fc_overwrite fg = false ->
  dkreach sv c g fg ds init st0 -> sv_looked sv (dk_srv st0) a = true ->
  open_request c (g_cfg g) fg ds (dk_fs st0) (h_eph (i_henv i)) (recv_cut g d) = (f', q, Some (Writes id)) ->
  sv_main sv (loaded sv st0) a d (with_files i q (f_data f' id)) s1 o -> sent_to a o = [OWire w] -> sv_view sv s1 a = Some e ->
  let st1 := mkDk s1 f' (still_open sv s1 (fun b => if b =? a then Some (Writes id) else dk_open st0 b)) in
  negotiates c (g_cfg g) (with_open (i_henv i) q) true d w k ->
  let n := nblocks file (bs_enc (k_opts k)) in
  n <= 55535 \/ op_window (k_opts k) <= 10000 ->
  Forall (stale_for_sender (client_dec c (k_sock k) (op_bs (k_opts k)))) down ->
  Forall (stale_for_receiver (fun y => entry_dec c e (cut e y))) up ->
  uwreach (spare sv c g fg ds id) (dview sv) c a k file n
    (mkUW st1 false [] (mkCS (client_reader (k_opts k) seek) 0 t) CRun down up 0 0) W ->
  let stored := f_data (dk_fs (uw_srv W)) id in
  (exists m, stored = takeN (m * bs_enc (k_opts k)) file) /\
  (forall total, uw_stat W = CDone total -> stored = file /\ total = blen file) /\
  (forall e', uw_over W = false -> dview sv (uw_srv W) a = Some e' -> c_finished (en_conn e') = true -> stored = file).
Proof.
  intros c g fg ds S sv init cut st0 a d i f' q id s1 o w e k seek file t down up W ONE HC HB HW O R0 LK OR MN SO V st1 HN n HNB HD HU HR.
  eapply (shared_upload c g fg ds S sv init cut st0 a d i f' q id s1 o w e k seek file t down up W); try eassumption.
  destruct (one_good _ _ _ _ _ _ ONE) as (Inv & G & HI). pose proof (reach_inv _ _ _ _ _ _ _ _ _ G HI _ R0) as D0.
  eapply (mine_run c g fg ds sv Inv cut G O); [|exact HR]. cbn [uw_srv].
  assert (ST : dkstep sv c g fg ds st0 (TookMain a d) st1 o) by (eapply dk_ask; eassumption).
  assert (A0 : apart st0).
  { clear - O R0. induction R0 as [s f H|st t st' o R IH P]; [split; intros *; discriminate|]. eapply (apart_step c g fg ds sv O); eassumption. }
  pose proof (apart_step c g fg ds sv O _ _ _ _ A0 (dk_step _ _ _ _ _ _ _ _ _ ST)) as A1.
  assert (OA : dk_open st1 a = Some (Writes id)) by (unfold st1; cbn [dk_open]; unfold still_open; rewrite V, N.eqb_refl; reflexivity).
  split; [eapply (DInv_step c g fg ds sv Inv cut G); eassumption|]. split; [exact A1|]. split; [apply (proj1 A1 _ _ OA)|].
  intros b B. eapply (proj2 A1); eassumption.
Qed.

(** ** Any number of uploads *)
(** The contents of a file change only if a request is looked at, which may empty files, or if a client
    that stores into the file sends a datagram: then what it adds is written at the place where its own
    data continue.  In particular downloads change nothing. *)
Theorem disk_changes : forall c g fg ds S sv init cut st t st' o id,
  one_of c g S sv init cut -> dkreach sv c g fg ds init st -> dkstep sv c g fg ds st t st' o ->
  f_data (dk_fs st') id = f_data (dk_fs st) id \/
  (exists b d, t = TookMain b d /\ sv_looked sv (dk_srv st) b = true /\ f_data (dk_fs st') id = []) \/
  (exists b d v w w' x, t = TookClient b d v /\ writes sv b st id w /\ writes sv b st' id w' /\ w_out w' = w_out w ++ x /\
    f_data (dk_fs st') id = write_at (f_data (dk_fs st) id) (blen (w_out w)) x).
Proof.
  intros c g fg ds S sv init cut st t st' o id ONE R P. destruct (one_good _ _ _ _ _ _ ONE) as (Inv & G & HI).
  eapply (changed_cases c g fg ds sv Inv cut G); [eapply reach_inv; eassumption|exact P].
Qed.
(** Uploads into one file at the same time leave a mixture: every byte is from one of them - at the place
    where it belongs in that one -, or a zero, or was there before. *)
Theorem mixture : forall c g fg ds S sv init cut st0 h st id p b,
  one_of c g S sv init cut -> dkreach sv c g fg ds init st0 -> dkrun (dkstep sv c g fg ds) st0 h st ->
  nth_error (f_data (dk_fs st) id) p = Some b ->
  nth_error (f_data (dk_fs st0) id) p = Some b \/ b = 0 \/
  exists st1 a w, In st1 (st :: h) /\ writes sv a st1 id w /\ nth_error (w_out w) p = Some b.
Proof.
  intros c g fg ds S sv init cut st0 h st id p b ONE R0 R. destruct (one_good _ _ _ _ _ _ ONE) as (Inv & G & HI).
  eapply (mix_run c g fg ds sv Inv cut G); [eapply reach_inv; eassumption|exact R].
Qed.
Lemma nth_ext_error {A} : forall l l' : list A, (forall p, nth_error l p = nth_error l' p) -> l = l'.
Proof.
  induction l as [|x l IH]; intros [|y l'] H; [reflexivity|specialize (H O); discriminate|specialize (H O); discriminate|].
  pose proof (H O) as H0. injection H0 as ->. f_equal. apply IH. intros p. exact (H (Datatypes.S p)).
Qed.
(** Uploads of the same contents, for instance one started again because the first attempt seemed to hang:
    when the one that was started last is complete the file is as it should be, whatever the others have
    written meanwhile. *)
Theorem same_uploads : forall c g fg ds S sv init cut st0 h st id F a w,
  one_of c g S sv init cut -> dkreach sv c g fg ds init st0 ->
  (* the file has just been opened, and emptied, for [a] *)
  f_data (dk_fs st0) id = [] -> (forall w0, writes sv a st0 id w0 -> w_out w0 = []) ->
  dkrun (not_cut sv c g fg ds id) st0 h st ->
  (* all uploads into this file are of the contents F *)
  (forall st1 b w1, In st1 (st :: h) -> writes sv b st1 id w1 -> prefix (w_out w1) F) ->
  writes sv a st id w -> w_out w = F ->
  f_data (dk_fs st) id = F.
Proof.
  intros c g fg ds S sv init cut st0 h st id F a w ONE R0 E0 A0 R HP W EW. destruct (one_good _ _ _ _ _ _ ONE) as (Inv & G & HI).
  destruct (same_run c g fg ds sv Inv cut G id F a st0 h st (reach_inv _ _ _ _ _ _ _ _ _ G HI _ R0) E0 A0 R HP) as [L N].
  apply nth_ext_error. intros p. destruct (Nat.ltb_spec p (length F)) as [H|H].
  - apply (N w W). rewrite EW. exact H.
  - rewrite (proj2 (nth_error_None _ _) H). apply nth_error_None. lia.
Qed.

Print Assumptions shared_download.
Print Assumptions download_opens.
Print Assumptions shared_upload.
Print Assumptions exclusive_files.
Print Assumptions exclusive_upload.
Print Assumptions disk_changes.
Print Assumptions mixture.
Print Assumptions same_uploads.
