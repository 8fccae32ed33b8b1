(** Whole client runs with a server: what the invariants of RunProofs give. *)
From Verif Require Import Base BaseProofs PacketModel PacketSpec PacketProofs MapperModel ReaderModel ReaderSpec BlockLemmas ConfigModel CryptoModel CryptoSpec ExtModel PathModel ConnModel
  ConnSpec ClientModel HandshakeModel HandshakeProofs AgreeProofs PropAgree ClientWaitModel StreamModel SystemModel ServerModel ServerSpec WorldModel WorldProofs WorldC PropWorld
  FsModel FsSpec FsProofs FsServerModel DiskModel DiskSpec DiskProofs DiskB DiskC PropDisk StoreSpec PropStore RunModel RunSpec RunProofs RunB.
From Verif Require CliModel.

Lemma client_reader_file o s : file_reader o s = client_reader o s.
Proof. reflexivity. Qed.
Lemma ack0_round : from_bytes (to_bytes (PAck 0)) = Ok (PAck 0).
Proof. reflexivity. Qed.

Lemma aside_ack c e y : ignored c (c_opts (en_conn e)) (en_key e) y -> match entry_dec c e y with Some p => match from_bytes p with Ok (PAck _) => False | _ => True end | None => True end.
Proof.
  unfold ignored, entry_dec, entry_decrypt. destruct (server_decrypt _ _ _ y) as [p| |]; auto. destruct (from_bytes p) as [[]| |]; auto.
Qed.
Lemma aside_data c e y : ignored c (c_opts (en_conn e)) (en_key e) y -> match entry_dec c e y with Some p => match from_bytes p with Ok (PData _ _) => False | _ => True end | None => True end.
Proof.
  unfold ignored, entry_dec, entry_decrypt. destruct (server_decrypt _ _ _ y) as [p| |]; auto. destruct (from_bytes p) as [[]| |]; auto.
Qed.

Section C.
Variables (g : run_cfg) (sg : srvcfg) (fg : fcfg) (ds : N) (S : Type) (sv : server S) (init : S -> Prop) (cut : entry -> bytes -> bytes).
Notation c := (ru_c g).
Notation path := (CliModel.cl_local (ru_start g)).
Notation fk := (CliModel.cl_file_key (ru_start g)).
Hypothesis ONE : one_of c sg S sv init cut.
Hypothesis HC : crypto_ok c.
Hypothesis HB : 512 <= sc_max_bs (g_cfg sg).
Hypothesis HW : 1 <= sc_max_window (g_cfg sg).
Variables (st st1 : disk S) (b : ServerModel.addr) (d name : bytes) (id : N) (r : opened) (e : entry) (w : bytes)
  (k : cside) (wc : wcfg) (keys : option client_keys) (ex : exts) (peer : CliModel.addr) (down up : list dgram).
Hypothesis R0 : dkreach sv c sg fg ds init st.
Hypothesis C0 : consistent (dk_fs st).
Notation bs := (bs_enc (k_opts k)).

Section D.
Variables (f0 : fs) (p0 : rprog) (W : @rworld (disk S)).
Hypothesis LD : leads (dk_fs st) fg name = Some id.
Hypothesis NL : listing fg name = false.
Hypothesis RW : receive_waiting g f0 wc keys ex p0.
Hypothesis RQ : request_of g wc false ex d.
Hypothesis US : understood g wc (g_cfg sg) d.
Hypothesis AN : answers sv c sg fg ds false st b d name st1 r e w.
Hypothesis AG : agrees g wc keys false ex w k.
Hypothesis PT : answers_at g wc false ex (fun y => ignored c (c_opts (en_conn e)) (en_key e) (cut e y)) peer.
Notation F := (f_data (dk_fs st) id).
Notation n := (nblocks F bs).
Hypothesis HNB : n <= 55535 \/ op_window (k_opts k) <= 10000.
Hypothesis HD : Forall (stale_for_receiver (client_dec c (k_sock k) (op_bs (k_opts k)))) down.
Hypothesis HU : Forall (stale_for_sender (fun y => entry_dec c e (cut e y))) up.
Hypothesis HR : rwreach (tended sv c sg fg ds id name) (dview sv) g wc keys b peer w n (mkRW st1 false p0 down up 0 0) W.

Lemma receive_ends :
  normalize None (CliModel.cl_remote (ru_start g)) = Some name /\ 0 < bs /\
  begins sv c sg fg ds false st b d name st1 r e k /\
  let f := rp_fs (rw_prog W) in
  match rp_ph (rw_prog W) with
  | RAsk _ => keeps path f0 f
  | RFailed => keeps path f0 f \/ exists lid v m, local_file f path = Some lid /\ w_out v = takeN (m * bs) F /\ m <= n /\ left_in c fk f lid v (blocks_to k F m)
  | RGet _ _ _ _ _ => exists lid v m, local_file f path = Some lid /\ w_out v = takeN (m * bs) F /\ m <= n /\ left_in c fk f lid v (blocks_to k F m)
  | RDone total _ => total = blen F /\ exists lid v, local_file f path = Some lid /\ w_out v = F /\ left_in c fk f lid v (blocks_to k F n)
  end.
Proof.
  pose proof RW as [RA (now & l & QL & EP)]. destruct (run_ask_inv _ _ _ _ _ _ RA) as (W1 & W3 & W2 & _). destruct PT as [P1 P2].
  split.
  { pose proof AN as (i & f' & q & s1 & o & _ & _ & _ & FR & _). pose proof US as (_ & _ & _ & SR).
    unfold recv_cut in FR. apply receive_size in SR. destruct SR as [_ SR]. rewrite SR in FR. eapply asked_name; eassumption. }
  assert (NG : forall env, blen (h_nonce env) = 24 -> (forall p n, h_open env p = Some (Some n) -> n <= U64_MAX) -> negotiates c (g_cfg sg) env false d w k).
  { intros env X1 X2. eapply run_negotiates; eassumption. }
  destruct (answers_begins c sg fg ds S sv init cut ONE HC HB HW st st1 b false d name w r e k R0 AN NG) as (BG & BS & AK).
  assert (BS' : 0 < bs) by lia. split; [exact BS'|]. split; [exact BG|].
  destruct (served_file c sg fg ds S sv init cut st b d name id st1 r e k ONE HC HB HW R0 C0 LD NL BG) as [_ SF]. cbn zeta in SF.
  assert (STALE : forall z, Forall (first_ack g wc peer ex k) z -> Forall (stale_for_sender (fun y => entry_dec c e (cut e y))) (up ++ z)).
  { intros z Hz. apply Forall_app. split; [exact HU|]. eapply Forall_impl; [|exact Hz]. intros y [(G0 & SA & RQ')|(G0 & nn & Hn & CS)].
    - left. split; [exact G0|]. exact (aside_ack _ _ _ (P2 SA _ RQ')).
    - right. split; [exact G0|]. eapply AK; eassumption. }
  assert (HT : forall z t V, Forall (first_ack g wc peer ex k) z ->
    dwreach (tended sv c sg fg ds id name) (dview sv) c b k n (mkDW st1 false (crecv_new t) CRun down (up ++ z) 0 0) V ->
    w_out (cr_w (dw_cl V)) = takeN (w_written (cr_w (dw_cl V)) * bs) F).
  { intros z t V Hz HV. exact (proj1 (SF t down (up ++ z) V HNB HD (STALE z Hz) HV)). }
  assert (I0 : rall (tended sv c sg fg ds id name) (dview sv) g wc b peer ex k n st1 down up f0 F (mkRW st1 false p0 down up 0 0)).
  { destruct (quiet_run g wc keys ex f0 l (mkRP f0 (RAsk (wait_init wc ex now))) QL) as [E1 E2].
    - split; [reflexivity|]. right. eexists. split; [reflexivity|]. apply wait_init_waits.
    - rewrite <- EP in E1, E2. destruct E2 as [E2|(w0 & E2 & WT)].
      + right. left. cbn [rw_prog]. rewrite E1. split; [exact E2|]. left. split; auto.
      + left. exists w0. cbn [rw_srv rw_over rw_prog rw_down rw_up rw_sc rw_ss]. rewrite E1. split; [exact E2|]. split; [exact WT|]. split; [split; auto|]. exists [], up. split; [constructor|]. split; [apply incl_refl|]. intros t. rewrite app_nil_r. constructor. }
  pose proof (rall_reach (tended sv c sg fg ds id name) (dview sv) g wc keys b peer w ex k HC W1 W3 P1 W2 AG n st1 down up f0 F BS' HT _ W I0 HR) as [(w0 & E & _ & K & _)|[(E & K)|(lid & z & t & cl & stat & l' & u & FA & DR & _ & LF & LL & (LM & _) & LC & H)]]; cbn zeta.
  - rewrite E. exact K.
  - rewrite E. destruct K as [K|(lid & L & D)]; [left; exact K|]. right. exists lid, writer_new, 0. rewrite N.mul_0_l. split; [exact L|]. split; [reflexivity|].
    split; [lia|]. split; [reflexivity|]. destruct fk as [key|]; [exists (sw_new key); split; [constructor|exact D]|exact D].
  - pose proof (HT z t _ FA DR) as TK. cbn [dw_cl] in TK. destruct (rp_ph (rw_prog W)) as [w0|k' from key s sst|total key|].
    + destruct H.
    + destruct H as (_ & _ & _ & _ & SI & SK). exists lid, (cr_w cl), (w_written (cr_w cl)). rewrite <- LL. split; [exact LF|]. split; [exact TK|]. split; [exact LM|].
      rewrite <- SI. apply sunk_left. exact SK.
    + destruct H as (SD & LI). pose proof (SF t down (up ++ z) _ HNB HD (STALE z FA) DR) as [_ FIN]. cbn [dw_cl dw_stat] in FIN. destruct (FIN total SD) as [X1 X2].
      split; [exact X2|]. exists lid, (cr_w cl). split; [exact LF|]. split; [exact X1|]. rewrite (LC _ SD) in LL. rewrite <- LL. exact LI.
    + destruct H as (_ & LI). right. exists lid, (cr_w cl), (w_written (cr_w cl)). rewrite <- LL. auto.
Qed.
End D.

Section U.
Variables (f0 : fs) (src : source) (p0 : uphase) (W : @sworld (disk S)).
Hypothesis SW : send_waiting g f0 ds src wc keys ex p0.
Hypothesis RQ : request_of g wc true ex d.
Hypothesis US : understood g wc (g_cfg sg) d.
Hypothesis AN : answers sv c sg fg ds true st b d name st1 (Writes id) e w.
Hypothesis AG : agrees g wc keys true ex w k.
Hypothesis PT : answers_at g wc true ex (fun y => ignored c (c_opts (en_conn e)) (en_key e) (cut e y)) peer.
Notation F0 := (content f0 (Some (Reads src))).
Notation file := (read_as g (content f0 (Some (Reads src))) bs).
Notation n := (nblocks file bs).
Hypothesis HNB : n <= 55535 \/ op_window (k_opts k) <= 10000.
Hypothesis HD : Forall (stale_for_sender (client_dec c (k_sock k) (op_bs (k_opts k)))) down.
Hypothesis HU : Forall (stale_for_receiver (fun y => entry_dec c e (cut e y))) up.
Hypothesis HR : swreach (stores sv c sg fg ds b id name) (dview sv) g wc keys b peer w src n (mkSW_ st1 false [] f0 p0 down up 0 0) W.

Lemma send_ends :
  normalize None (CliModel.cl_remote (ru_start g)) = Some name /\ 0 < bs /\
  begins sv c sg fg ds true st b d name st1 (Writes id) e k /\
  content (sv_fs W) (Some (Reads src)) = F0 /\
  exists z t cl stat u sc', Forall (stale_for_receiver (fun y => entry_dec c e (cut e y))) z /\
    uwreach (stores sv c sg fg ds b id name) (dview sv) c b k file n
      (mkUW st1 false [] (mkCS (client_reader (k_opts k) (CliModel.cl_seek (ru_start g))) 0 t) CRun down z 0 0)
      (mkUW (sv_srv W) (sv_over W) (sv_kept W) cl stat (sv_down W) u sc' (sv_ss W)) /\
    (forall total key, sv_prog W = UDone total key -> stat = CDone total).
Proof.
  destruct SW as (now & l & QL & SS & EP).
  assert (RA : exists o, run_ask g true o = Some (wc, keys, ex)).
  { unfold send_start in SS. destruct (create_reader f0 path) as [s0|]; [|discriminate].
    match type of SS with match run_ask g true ?o with _ => _ end = _ => exists o; destruct (run_ask g true o) as [[[wc1 keys1] ex1]|]; [|discriminate] end.
    injection SS as -> -> E3 E4. assert (ex1 = ex) as -> by (exact E4). reflexivity. }
  destruct RA as [o RA].
  destruct (run_ask_inv _ _ _ _ _ _ RA) as (W1 & W3 & W2 & _). destruct PT as [P1 P2].
  split.
  { pose proof AN as (i & f' & q & s1 & o' & _ & _ & _ & FR & _). pose proof US as (_ & _ & _ & SR).
    unfold recv_cut in FR. apply receive_size in SR. destruct SR as [_ SR]. rewrite SR in FR. eapply asked_name; eassumption. }
  assert (NG : forall env, blen (h_nonce env) = 24 -> (forall p n, h_open env p = Some (Some n) -> n <= U64_MAX) -> negotiates c (g_cfg sg) env true d w k).
  { intros env X1 X2. eapply run_negotiates; eassumption. }
  destruct (answers_begins c sg fg ds S sv init cut ONE HC HB HW st st1 b true d name w (Writes id) e k R0 AN NG) as (BG & BS & AK).
  assert (BS' : 0 < bs) by lia. split; [exact BS'|]. split; [exact BG|].
  assert (STALE : forall z, Forall (first_sent g wc peer ex k) z -> Forall (stale_for_receiver (fun y => entry_dec c e (cut e y))) (up ++ z)).
  { intros z Hz. apply Forall_app. split; [exact HU|]. eapply Forall_impl; [|exact Hz]. intros y [(G0 & SA & RQ')|(G0 & nn & Hn & CS)]; (split; [exact G0|]); [exact (aside_data _ _ _ (P2 SA _ RQ'))|].
    rewrite (AK _ _ Hn CS), ack0_round. exact I. }
  assert (I0 : uall (stores sv c sg fg ds b id name) (dview sv) g wc b peer ex k n st1 down up src F0 (mkSW_ st1 false [] f0 p0 down up 0 0)).
  { pose proof (quiet_run_u g wc keys ex f0 src l (UAsk src (wait_init wc ex now)) QL) as X. rewrite <- EP in X.
    destruct X as [E2|(w0 & E2 & WT)].
    - right. eexists. split; [reflexivity|]. apply wait_init_waits.
    - right. left. exists [], 0, (mkCS (file_reader (k_opts k) (CliModel.cl_seek (ru_start g))) 0 0), up, 0. cbn [sv_srv sv_over sv_kept sv_fs sv_prog sv_down sv_up sv_sc sv_ss].
      rewrite app_nil_r. split; [exact E2|]. split; [constructor|]. split; [constructor|]. split; [apply incl_refl|reflexivity].
    - left. exists w0. cbn [sv_srv sv_over sv_kept sv_fs sv_prog sv_down sv_up sv_sc sv_ss]. split; [exact E2|]. split; [exact WT|]. split; [reflexivity|]. exists [], up. split; [constructor|]. split; [apply incl_refl|]. intros t. rewrite app_nil_r. constructor. }
  pose proof (uall_reach (stores sv c sg fg ds b id name) (dview sv) g wc keys b peer w ex k W1 W3 P1 W2 AG n st1 down up src F0 _ W I0 HR)
    as [(w0 & E & _ & K & z & u & FA & _ & DR)|[(z & t & cl & u & sc' & E & FA & DR & _ & K)|(z & t & cl & stat & u & sc' & FA & DR & _ & _ & K & H)]].
  - split; [exact K|]. exists (up ++ z), 0. do 4 eexists. split; [exact (STALE z FA)|]. split; [exact (DR 0)|]. rewrite E. discriminate.
  - split; [exact K|]. exists (up ++ z), t. do 4 eexists. split; [exact (STALE z FA)|]. split; [exact DR|]. rewrite E. discriminate.
  - split; [exact K|]. exists (up ++ z), t. do 4 eexists. split; [exact (STALE z FA)|]. split; [exact DR|]. intros total key E. rewrite E in H. exact H.
Qed.
End U.
End C.
