(** C84: clients of RFC 1350 in terms of the clients of WorldModel. *)
From Verif Require Import Base BaseProofs PacketModel PacketSpec PacketProofs MapperModel MapperProofs ReaderModel ReaderSpec BlockLemmas ReaderProofs
  WriterSpec WriterProofs ConfigModel Base64Model CryptoModel CryptoSpec CryptoProofs PropCrypto ExtModel ExtSpec ExtProofs PathModel ConnModel ClientModel ConnSpec
  HandshakeModel HandshakeProofs PropExt PropHandshake AgreeProofs PropAgree SystemModel CoreProofs DownloadProofs UploadProofs
  ServerModel ServerSpec ServerProofs PropServer WorldModel WorldProofs WorldB WorldC RfcSpec.

Lemma rfc_data_bytes i b : rfc_data i b = to_bytes (PData (i mod 65536) b).
Proof. reflexivity. Qed.
Lemma rfc_ack_bytes i : rfc_ack i = to_bytes (PAck (i mod 65536)).
Proof. reflexivity. Qed.
Lemma rfc_data_parse h l b : from_bytes (0 :: 3 :: h :: l :: b) = Ok (PData (256 * h + l) b).
Proof. reflexivity. Qed.
Lemma rfc_ack_parse h l : from_bytes [0; 4; h; l] = Ok (PAck (256 * h + l)).
Proof. reflexivity. Qed.
Lemma num16 i : 256 * (i mod 65536 / 256) + i mod 65536 mod 256 = i mod 65536.
Proof. rewrite <- (N.div_mod (i mod 65536) 256) by discriminate. reflexivity. Qed.

(** The plain client as one of WorldModel's. *)
Definition rfc_side (file : bytes) : cside := mkCside (mkSock None LNone None 512) default_options (blen file) 0.
Definition nonce0 : bytes := repeat 0 24.

Lemma side_dec c file d : client_dec c (k_sock (rfc_side file)) (op_bs (k_opts (rfc_side file))) d = Some (takeN 516 d).
Proof. reflexivity. Qed.
Lemma side_sealed c file i p : blen p <= 516 -> client_sealed c (k_sock (rfc_side file)) i [p] [(p, ghost p i)].
Proof.
  intros H. constructor; [|constructor]. cbn [fst snd]. split; [intros _; exact H|]. split; [reflexivity|].
  exists nonce0. split; reflexivity.
Qed.
Lemma ack_len i : blen (rfc_ack i) <= 516.
Proof. cbv. discriminate. Qed.
Lemma near_mod i j : i mod 65536 = j mod 65536 -> i <= j -> j < i + 65536 -> i = j.
Proof. intros E H1 H2. pose proof (N.div_mod i 65536 ltac:(discriminate)) as D1. pose proof (N.div_mod j 65536 ltac:(discriminate)) as D2. lia. Qed.

Section D.
Context {S : Type} (step : S -> took -> S -> outs -> Prop) (view : S -> addr -> option entry).
Variables (c : crypto) (g : srvcfg) (a : addr) (cut : entry -> bytes -> bytes) (Inv : S -> Prop) (file : bytes).
Notation k := (rfc_side file).
Hypothesis HI : forall s t s' o e e', Inv s -> step s t s' o -> view s a = Some e -> view s' a = Some e' -> Inv s'.
Hypothesis HV : forall s t s' o e, Inv s -> step s t s' o -> view s a = Some e -> pev c g a cut e t (view s' a) (sent_to a o).
Variables (x : est) (L : N) (kd : kind).
Hypothesis HC : crypto_ok c.
Hypothesis HA : agree (k_opts k) (k_sock k) x.
Hypothesis HL : op_bs (es_opts x) + 4 <= L /\ 516 <= L.
Hypothesis Hcut : forall e d, c_opts (en_conn e) = es_opts x -> cut e d = takeN L d.
Hypothesis HPd : valid (dP c g k x L file kd).
Hypothesis HPu : valid (uP c g k x L file KSingle).

Lemma x_bs : op_bs (es_opts x) = 512 /\ op_window (es_opts x) = 1 /\ op_enc (es_opts x) = LNone /\ bs_enc (es_opts x) = 512.
Proof.
  destruct HA as (E1 & E2 & E3 & E4 & _). cbn [k rfc_side k_opts k_sock default_options op_bs op_window op_enc cs_bs] in *. rewrite <- E1, <- E2, <- E3, <- E4. auto.
Qed.
Lemma x_n : p_n (dP c g k x L file kd) = blen file / 512 + 1.
Proof. unfold p_n, p_bs, dP. cbn [p_file p_opts]. rewrite (proj2 (proj2 (proj2 x_bs))). reflexivity. Qed.

Definition gsim (G : @gworld S) (W : @dworld S) : Prop :=
  dw_srv W = gw_srv G /\ dw_over W = gw_over G /\ dw_down W = gw_down G /\ dw_ss W = gw_ss G /\ dw_sc W <= gw_sc G /\
  incl (gw_up G) (dw_up W) /\ w_written (cr_w (dw_cl W)) = got_blocks (gw_cl G) /\ w_out (cr_w (dw_cl W)) = got (gw_cl G) /\
  (if got_all (gw_cl G) then exists t, dw_stat W = CDone t else dw_stat W = CRun) /\
  (1 <= got_blocks (gw_cl G) -> In (rfc_ack (got_blocks (gw_cl G)), Some (got_blocks (gw_cl G))) (dw_up W)).
Definition grel (G : @gworld S) : Prop := exists W, drel view c g a k Inv x L file kd W /\ gsim G W.

(** What the client may get from the network. *)
Lemma down_ok W y : drel view c g a k Inv x L file kd W -> In y (dw_down W) ->
  w_written (cr_w (dw_cl W)) <= dw_sc W /\ w_written (cr_w (dw_cl W)) <= blen file / 512 + 1 /\
  match snd y with
  | Some i => 1 <= i /\ i <= w_written (cr_w (dw_cl W)) + 1 /\ i <= blen file / 512 + 1 /\ takeN 516 (fst y) = rfc_data i (block_of file 512 i)
  | None => match from_bytes (takeN 516 (fst y)) with Ok (PData _ _) => False | _ => True end
  end.
Proof.
  intros (st & R & _ & E1 & E2 & E3 & E4 & E5 & _) HIN. destruct (dreach_inv _ HPd st R) as [s (CO & _)].
  pose proof (core_win _ _ _ HPd _ _ _ _ _ _ _ CO) as (K1 & K2 & K3 & K4 & K5).
  cbn [dP p_opts] in K4. rewrite (proj1 (proj2 x_bs)) in K4. rewrite x_n in K3.
  destruct CO as (m & _ & _ & _ & _ & _ & _ & C7 & C8 & C9 & _). rewrite E1, E5 in *.
  split; [exact C7|]. split; [lia|]. rewrite E3 in C9. pose proof (proj1 (Forall_forall _ _) C9 _ HIN) as DO. unfold data_ok in DO.
  cbn [dP p_decc p_file] in DO. rewrite side_dec in DO. unfold p_bs in DO. cbn [dP p_opts] in DO. rewrite (proj2 (proj2 (proj2 x_bs))) in DO.
  destruct (snd y) as [i|]; [|exact DO]. destruct DO as (D1 & D2 & D3). injection D3 as D3. split; [exact D1|]. split; [lia|]. split; [lia|].
  rewrite rfc_data_bytes. exact D3.
Qed.

(** The next block comes. *)
Lemma next_block W y i : drel view c g a k Inv x L file kd W -> In y (dw_down W) -> dw_stat W = CRun ->
  snd y = Some i -> i = w_written (cr_w (dw_cl W)) + 1 -> fresh_enough (blen file / 512 + 1) (dw_sc W) y ->
  exists cl' stat', dwstep step view c a k (blen file / 512 + 1) W
      (mkDW (dw_srv W) (dw_over W) cl' stat' (dw_down W) ((rfc_ack i, Some i) :: dw_up W) (see (dw_sc W) y) (dw_ss W)) /\
    w_written (cr_w cl') = i /\ w_out (cr_w cl') = w_out (cr_w (dw_cl W)) ++ block_of file 512 i /\
    (if blen (block_of file 512 i) <? 512 then exists t, stat' = CDone t else stat' = CRun).
Proof.
  intros RW HIN ST EY EI FR. pose proof (down_ok W y RW HIN) as (_ & _ & DO). rewrite EY in DO. destruct DO as (_ & _ & DN & DT).
  destruct RW as (st & R & _ & E1 & E2 & E3 & E4 & E5 & _). destruct (dreach_inv _ HPd st R) as [s (CO & _ & _ & _ & SO)].
  rewrite E2, ST in SO. destruct SO as [SW STO]. rewrite x_n in SW. rewrite E1 in *. rewrite E3, E4, E5 in CO. clear E2.
  destruct W as [sv ov cl stat down up sc ss]. cbn [dw_srv dw_over dw_cl dw_stat dw_down dw_up dw_sc dw_ss] in *. subst stat.
  assert (BE : p_bs (dP c g k x L file kd) = 512) by exact (proj2 (proj2 (proj2 x_bs))).
  destruct (write_block (cr_w cl) (i mod 65536) (block_of file 512 i) false None) as [w1 res] eqn:EW.
  assert (FR' : not_too_old (dP c g k x L file kd) sc (fst y, Some i)) by (unfold not_too_old; rewrite x_n; unfold fresh_enough in FR; rewrite EY in FR; exact FR).
  assert (HIN' : In (fst y, Some i) down) by (rewrite <- EY, <- surjective_pairing; exact HIN).
  assert (EW' : write_block (cr_w cl) (i mod 65536) (block_of (p_file (dP c g k x L file kd)) (p_bs (dP c g k x L file kd)) i) false None = (w1, res))
    by (rewrite BE; exact EW).
  destruct (core_receive _ _ _ HPd _ _ _ _ _ _ _ _ _ _ _ _ CO HIN' FR' EW') as [_ RC].
  pose proof (write_block_cases (cr_w cl) (i mod 65536) (block_of file 512 i) false None) as WB. cbn zeta in WB. rewrite EW in WB. destruct WB as [_ WB].
  destruct res as [[n1 j]|[cc j|cc j|]|]; try (exfalso; lia).
  destruct RC as (-> & _ & RW1 & -> & _). destruct WB as (_ & _ & _ & _ & WO & _). rewrite BE in *. change (p_file (dP c g k x L file kd)) with file in *. clear EW'.
  pose proof (prefix_step file 512 ltac:(reflexivity) (w_written (cr_w cl)) SW) as PS. rewrite <- EI in PS.
  assert (PL : prefix_size file 512 i <= blen file) by (unfold prefix_size; lia).
  exists (mkCR w1 i (cr_total cl + blen (block_of file 512 i)) 0), (if blen (block_of file 512 i) <? 512 then CDone (cr_total cl + blen (block_of file 512 i)) else CRun).
  split.
  - apply (dw_client step view c a k (blen file / 512 + 1) sv ov cl down up sc ss (EvDatagram true (fst y)) y (mkEnv 0 false None true [])
      _ [to_bytes (PAck (i mod 65536))] _ [(rfc_ack i, Some i)]); [cbn; auto|exact FR|reflexivity| |].
    + cbn [e_now e_io e_short e_sock e_txt]. unfold recv_step. rewrite side_dec, DT, rfc_data_bytes, decode_data by (apply N.mod_upper_bound; discriminate).
      unfold cl_write_block. rewrite EW. cbn [negb].
      assert (CZ : cl_size_ok (cr_total cl + blen (block_of file 512 i)) (k_max k) = true).
      { unfold cl_size_ok. apply Bool.negb_true_iff, N.ltb_ge. cbn [k rfc_side k_max]. rewrite STO. cbn [dP p_file]. lia. }
      rewrite CZ. cbn [negb]. unfold ack_due. cbn [k rfc_side k_opts default_options op_window]. cbn [N.leb N.compare Pos.compare Pos.compare_cont orb andb when negb].
      reflexivity.
    + cbn [cr_w]. rewrite RW1. pose proof (side_sealed c file i (rfc_ack i) (ack_len i)) as SS. rewrite rfc_ack_bytes in SS at 3.
      rewrite ghost_ack in SS by (apply N.mod_upper_bound; discriminate). exact SS.
  - cbn [cr_w]. split; [exact RW1|]. split; [exact WO|]. destruct (_ <? _); eauto.
Qed.

Lemma grel_step G G' : grel G -> gwstep step view c a file G G' -> grel G'.
Proof.
  intros (W & RW & E1 & E2 & E3 & E4 & E5 & E6 & E7 & E8 & E9 & E10) ST.
  assert (GO : forall W', dwstep step view c a k (blen file / 512 + 1) W W' -> drel view c g a k Inv x L file kd W').
  { intros W' SW. rewrite <- x_n in SW. eapply (drel_step step view c g a k cut Inv HI HV x L file kd); try eassumption.
    destruct x_bs as (-> & _). reflexivity || lia. }
  destruct W as [sv ov cl stat down up sc ss]. cbn [dw_srv dw_over dw_cl dw_stat dw_down dw_up dw_sc dw_ss] in *.
  destruct ST as [s t s' o e new gc gd gu gsc gss H HH VE SL
                 |s y v s' o e new gc gd gu gsc gss H IN FR VE SL
                 |s t s' o gc gd gu gsc gss H
                 |s over gc gd gu gsc gss y IN FR
                 |s over gc gd gu gsc gss GB]; cbn [gw_srv gw_over gw_cl gw_down gw_up gw_sc gw_ss] in *; subst.
  - eexists. split; [apply GO; eapply dw_server; eassumption|]. unfold gsim. cbn [dw_srv dw_over dw_cl dw_stat dw_down dw_up dw_sc dw_ss gw_srv gw_over gw_cl gw_down gw_up gw_sc gw_ss]. auto 12.
  - eexists. split; [apply GO; eapply dw_server_receives; try eassumption; apply E6, IN|]. unfold gsim. cbn [dw_srv dw_over dw_cl dw_stat dw_down dw_up dw_sc dw_ss gw_srv gw_over gw_cl gw_down gw_up gw_sc gw_ss]. auto 12.
  - eexists. split; [apply GO; eapply dw_server_later; eassumption|]. unfold gsim. cbn [dw_srv dw_over dw_cl dw_stat dw_down dw_up dw_sc dw_ss gw_srv gw_over gw_cl gw_down gw_up gw_sc gw_ss]. auto 12.
  - pose proof (down_ok _ y RW IN) as (D1 & D2 & D3). cbn [dw_srv dw_over dw_cl dw_stat dw_down dw_up dw_sc dw_ss] in *.
    assert (SC : sc <= see gsc y) by (unfold see; destruct (snd y); lia).
    assert (STUT : getter_hears gc (fst y) = gc -> grel (mkGW s over (getter_hears gc (fst y)) gd gu (see gsc y) gss)).
    { intros ->. exists (mkDW s over cl stat gd up sc gss). split; [exact RW|]. unfold gsim. cbn [dw_srv dw_over dw_cl dw_stat dw_down dw_up dw_sc dw_ss gw_srv gw_over gw_cl gw_down gw_up gw_sc gw_ss]. auto 12. }
    destruct (snd y) as [i|] eqn:EY.
    + destruct D3 as (D3 & D4 & D5 & D6). unfold getter_hears in *. rewrite D6 in *. unfold rfc_data, rfc_number in *. cbn [app] in *. rewrite num16 in *.
      destruct (got_all gc) eqn:GA; [apply STUT; reflexivity|]. cbn [negb andb] in *.
      destruct (N.eqb_spec (i mod 65536) ((got_blocks gc + 1) mod 65536)) as [EM|EM]; [|apply STUT; reflexivity].
      assert (EI : i = got_blocks gc + 1).
      { rewrite E7 in *. unfold fresh_enough in FR. rewrite EY in FR. apply near_mod; [exact EM|exact D4|]. destruct FR as [FR|FR]; lia. }
      assert (FR' : fresh_enough (blen file / 512 + 1) sc y).
      { unfold fresh_enough in *. rewrite EY in *. destruct FR as [FR|FR]; [left; exact FR|right; lia]. }
      rewrite <- E7 in EI.
      destruct (next_block _ y i RW IN E9 EY EI FR') as (cl' & stat' & SW & N1 & N2 & N3).
      cbn [dw_srv dw_over dw_cl dw_stat dw_down dw_up dw_sc dw_ss] in *. apply GO in SW.
      eexists. split; [exact SW|]. unfold gsim. cbn [dw_srv dw_over dw_cl dw_stat dw_down dw_up dw_sc dw_ss gw_srv gw_over gw_cl gw_down gw_up gw_sc gw_ss got_blocks got got_all].
      do 4 (split; [reflexivity|]). split; [unfold see; rewrite EY; lia|]. split; [apply incl_tl; exact E6|]. split; [lia|].
      split; [rewrite N2, E8; reflexivity|]. split; [exact N3|]. intros _. left. rewrite <- E7, <- EI. reflexivity.
    + apply STUT. unfold getter_hears. destruct (takeN 516 (fst y)) as [|n0 [|n1 [|h [|l b]]]]; try reflexivity;
        (destruct n0; [|reflexivity]); try reflexivity; destruct n1 as [|[[?|?|]|?|]]; try reflexivity.
      rewrite rfc_data_parse in D3. destruct D3.
  - exists (mkDW s over cl stat gd up sc gss). split; [exact RW|]. unfold gsim. cbn [dw_srv dw_over dw_cl dw_stat dw_down dw_up dw_sc dw_ss gw_srv gw_over gw_cl gw_down gw_up gw_sc gw_ss].
    do 5 (split; [assumption || reflexivity|]). split; [|auto]. intros y [<-|IN]; [exact (E10 GB)|exact (E6 _ IN)].
Qed.
Lemma grel_reach G0 G : grel G0 -> gwreach step view c a file G0 G -> grel G.
Proof. intros R H. induction H; [exact R|]. eapply grel_step; eassumption. Qed.
Lemma grel_safe G : grel G ->
  got (gw_cl G) = takeN (512 * got_blocks (gw_cl G)) file /\
  (got_all (gw_cl G) = true -> got (gw_cl G) = file) /\
  (forall e, gw_over G = false -> view (gw_srv G) a = Some e -> c_finished (en_conn e) = true -> got (gw_cl G) = file).
Proof.
  intros (W & RW & E1 & E2 & E3 & E4 & E5 & E6 & E7 & E8 & E9 & E10). destruct (drel_safe view c g a k Inv x L file kd HPd W RW) as (S1 & S2 & S3).
  cbn zeta in *. rewrite E7, E8 in *. rewrite (proj2 (proj2 (proj2 x_bs))) in S1. split; [rewrite N.mul_comm; exact S1|]. split.
  - intros GA. rewrite GA in E9. destruct E9 as [t E9]. exact (proj1 (S2 t E9)).
  - intros e OV VE F. rewrite <- E1, <- E2 in *. eapply S3; eassumption.
Qed.

(** ** Upload *)
Notation urelS := (urel view c g a k Inv x L file KSingle).
Notation PU := (uP c g k x L file KSingle).
Lemma x_nu : p_n PU = putter_last file /\ p_bs PU = 512.
Proof. unfold p_n, p_bs, uP. cbn [p_file p_opts]. rewrite (proj2 (proj2 (proj2 x_bs))). auto. Qed.
Lemma putter_block_of i : putter_block file i = block_of file 512 i.
Proof. unfold putter_block, block_of. rewrite N.mul_comm. reflexivity. Qed.

(** The state of the client's reader. *)
Lemma single_facts W r : urelS W -> cs_r (uw_cl W) = RS r -> exists s : win,
  s_read r = hi s /\ cur s = hi s /\ hi s <= putter_last file /\ s_fin r = (hi s =? putter_last file) /\
  (s_last r = None /\ conf s = hi s \/ s_last r <> None /\ conf s + 1 = hi s) /\
  (exists st, ureach PU st /\ usim view a Inv x W st /\ Core PU (p_decs PU) (p_decc PU) s (RS r) (u_writer st) (uw_up W) (uw_down W) (u_seens st) (uw_sc W)) /\
  match uw_stat W with CRun => conf s < putter_last file | _ => True end.
Proof.
  intros (st & R & US) ER. pose proof US as (_ & E1 & E2 & E3 & E4 & E5 & _ & _). destruct (ureach_inv _ HPu st R) as [s (CO & _ & SO)].
  rewrite E1, ER, E3, E4, E5 in CO. rewrite E2 in SO. destruct x_nu as [XN XB]. exists s.
  pose proof CO as (m & [_ SM] & _). cbn [uP p_kind] in SM. unfold SimS in SM. rewrite XB in SM. change (nblocks (p_file PU) 512) with (putter_last file) in SM.
  destruct SM as (_ & _ & S1 & S2 & S3 & _ & S4 & S5). split; [exact S1|]. split; [exact S2|]. split; [exact S3|]. split; [exact S4|].
  split; [destruct S5 as [(S5 & S6 & _)|(S5 & S6 & _)]; [left; auto|right; split; [congruence|exact S6]]|].
  split; [exists st; auto|]. rewrite XN in SO. destruct (uw_stat W); [apply SO|exact I|exact I].
Qed.

(** The next block is sent. *)
Lemma send_next W r : urelS W -> uw_stat W = CRun -> cs_r (uw_cl W) = RS r -> s_last r = None ->
  exists cl' r', uwstep step view c a k file (putter_last file) W
      (mkUW (uw_srv W) (uw_over W) (uw_kept W) cl' CRun (uw_down W)
        ((rfc_data (s_read r + 1) (putter_block file (s_read r + 1)), Some (s_read r + 1)) :: uw_up W) (uw_sc W) (uw_ss W)) /\
    cs_r cl' = RS r' /\ s_read r' = s_read r + 1 /\ s_last r' <> None.
Proof.
  intros RW ST ER EL. destruct (single_facts W r RW ER) as (s & F1 & F2 & F3 & F4 & F5 & (st & R & US & CO) & F7). rewrite ST in F7.
  destruct F5 as [[_ F5]|[F5 _]]; [|contradiction]. destruct x_nu as [XN XB].
  destruct (reader_next file (RS r) (516 - DATA_PACKET_HEADER_SIZE) false false) as [r1 res] eqn:EN.
  assert (HCAP : p_bs PU <= 516 - DATA_PACKET_HEADER_SIZE) by (rewrite XB; cbv; discriminate).
  destruct (core_next _ _ _ HPu _ _ _ _ _ _ _ _ _ _ _ _ CO HCAP EN) as (s1 & SN & CO1 & CUR).
  rewrite XB in SN. cbn [uP p_kind p_file p_opts] in SN. unfold spec_next in SN. change (nblocks file 512) with (putter_last file) in SN.
  rewrite F2, F5 in SN. rewrite F5 in F7. assert (N1 : (hi s =? putter_last file) = false) by lia. rewrite N1 in SN. cbn [andb orb window_of] in SN.
  rewrite N.ltb_irrefl, N.sub_diag in SN. change (1 <=? 0) with false in SN. cbn match in SN.
  assert (E1 : s1 = mkWin (hi s) (hi s + 1) (hi s + 1)) by congruence.
  assert (E2 : res = Ok (emit file 512 (hi s + 1) false)) by congruence. clear SN. subst s1 res. unfold emit in *.
  pose proof (CUR _ eq_refl) as CR. cbn [o_index] in CR.
  assert (SM : exists r', r1 = RS r' /\ s_read r' = hi s + 1 /\ s_last r' <> None).
  { destruct CO1 as (m & [_ SM] & _). cbn [uP p_kind] in SM. destruct r1 as [r'|?|?]; try contradiction. exists r'. unfold SimS in SM. cbn [conf hi cur] in SM.
    destruct SM as (_ & _ & S1 & _ & _ & _ & _ & S5). split; [reflexivity|]. split; [exact S1|]. destruct S5 as [(_ & S5 & _)|(S5 & _)]; [lia|congruence]. }
  destruct SM as (r' & -> & R1 & R2). exists (mkCS (RS r') (cs_total (uw_cl W)) (cs_time (uw_cl W))), r'.
  rewrite F1, putter_block_of. split; [|cbn [cs_r]; auto].
  destruct W as [sv ov kp cl stat down up sc ss]. cbn [uw_srv uw_over uw_kept uw_cl uw_stat uw_down uw_up uw_sc uw_ss] in *. subst stat.
  assert (B516 : blen (rfc_data (hi s + 1) (block_of file 512 (hi s + 1))) <= 516).
  { unfold rfc_data, rfc_number. rewrite !blen_app. pose proof (block_le file 512 (hi s + 1)) as BL. change (blen [0; 3]) with 2. change (blen [(hi s + 1) mod 65536 / 256; (hi s + 1) mod 65536 mod 256]) with 2. lia. }
  apply (uw_client_sends step view c a k file (putter_last file) sv ov kp cl down up sc ss 516 false IoOk (Some true) _ [rfc_data (hi s + 1) (block_of file 512 (hi s + 1))] CRun
    [(rfc_data (hi s + 1) (block_of file 512 (hi s + 1)), Some (hi s + 1))]).
  - cbv. discriminate.
  - unfold sender_send. cbn [io_bad]. rewrite ER, EN. reflexivity.
  - cbn [cs_r]. rewrite CR. pose proof (side_sealed c file (hi s + 1) _ B516) as SS. rewrite rfc_data_bytes in SS at 3.
    rewrite ghost_data in SS by (apply N.mod_upper_bound; discriminate). exact SS.
Qed.

(** What comes back from the server. *)
Lemma acks_ok W r y : urelS W -> cs_r (uw_cl W) = RS r -> In y (uw_down W) ->
  s_read r <= uw_sc W + 1 /\ s_read r <= putter_last file /\
  match snd y with
  | Some i => i <= s_read r /\ takeN 516 (fst y) = rfc_ack i
  | None => match from_bytes (takeN 516 (fst y)) with Ok (PAck _) => False | _ => True end
  end.
Proof.
  intros RW ER HIN. destruct (single_facts W r RW ER) as (s & F1 & F2 & F3 & F4 & F5 & (st & R & US & CO) & F7).
  pose proof (core_win _ _ _ HPu _ _ _ _ _ _ _ CO) as (K1 & K2 & K3 & K4 & K5).
  destruct CO as (m & _ & _ & _ & _ & C5 & _ & _ & _ & _ & C10).
  split; [destruct F5 as [[_ F5]|[_ F5]]; lia|]. split; [lia|].
  pose proof (proj1 (Forall_forall _ _) C10 _ HIN) as AO. unfold ack_ok in AO. cbn [uP p_decc] in AO. rewrite side_dec in AO.
  destruct (snd y) as [i|]; [|exact AO]. destruct AO as [A1 A2]. injection A2 as A2. split; [lia|exact A2].
Qed.
Lemma ack_step W r y : urelS W -> uw_stat W = CRun -> cs_r (uw_cl W) = RS r -> s_last r <> None -> In y (uw_down W) ->
  snd y = Some (s_read r) -> fresh_enough (putter_last file) (uw_sc W) y ->
  exists cl' r' stat', uwstep step view c a k file (putter_last file) W
      (mkUW (uw_srv W) (uw_over W) (uw_kept W) cl' stat' (uw_down W) (uw_up W) (see (uw_sc W) y) (uw_ss W)) /\
    cs_r cl' = RS r' /\ s_read r' = s_read r /\ s_last r' = None /\
    (if s_read r =? putter_last file then exists t, stat' = CDone t else stat' = CRun).
Proof.
  intros RW ST ER EL HIN EY FR. pose proof (acks_ok W r y RW ER HIN) as (_ & _ & AO). rewrite EY in AO. destruct AO as [_ AO].
  destruct (single_facts W r RW ER) as (s & F1 & F2 & F3 & F4 & F5 & (st & R & US & CO) & F7).
  pose proof (core_win _ _ _ HPu _ _ _ _ _ _ _ CO) as (K1 & K2 & K3 & K4 & K5).
  destruct CO as (m & [_ SM] & C2 & _ & _ & C5 & _ & _ & _ & _ & C10). cbn [uP p_kind] in SM. destruct SM as (SM & _).
  destruct x_nu as [XN XB].
  assert (FR' : p_n PU <= 55535 \/ uw_sc W <= s_read r + 10000) by (rewrite XN; unfold fresh_enough in FR; rewrite EY in FR; exact FR).
  assert (W1 : op_window (p_opts PU) = 1) by (cbn [uP p_opts]; exact (proj1 (proj2 x_bs))).
  destruct F5 as [[F5 _]|[_ F5]]; [contradiction|].
  destruct (map_ok_step PU _ _ (s_read r) C2 ltac:(rewrite XN; lia) ltac:(rewrite W1; lia) FR') as [M1 _].
  destruct W as [sv ov kp cl stat down up sc ss]. cbn [uw_srv uw_over uw_kept uw_cl uw_stat uw_down uw_up uw_sc uw_ss] in *. subst stat.
  destruct (map_index m (s_read r mod 65536)) as [i' m'] eqn:EM. cbn [fst] in M1. subst i'.
  set (r1 := ReaderModel.mkS (s_pos r) m' (s_read r) (s_bs r) None (s_buf r) (s_fin r)).
  destruct (s_last r) as [fl|] eqn:EL'; [|contradiction].
  exists (mkCS (RS r1) (cs_total cl + fl) 0), r1, (if s_read r =? putter_last file then CDone (cs_total cl + fl) else CRun).
  split; [|repeat (split; [reflexivity|]); destruct (N.eqb (s_read r) (putter_last file)); eauto].
  apply (uw_client_receives step view c a k file (putter_last file) sv ov kp cl down up sc ss (EvDatagram true (fst y)) y 0); [cbn; auto|exact FR|].
  unfold sender_recv. rewrite side_dec, AO. cbn [negb]. rewrite rfc_ack_bytes, decode_ack by (apply N.mod_upper_bound; discriminate).
  rewrite ER. cbn [reader_free]. unfold single_free. rewrite SM, EM, N.eqb_refl, EL'. fold r1.
  cbn [reader_finished]. unfold single_finished, r1. cbn [s_last s_fin]. rewrite F4, <- F1. reflexivity.
Qed.

Definition psim (G : @pworld S) (W : @uworld S) : Prop :=
  uw_srv W = pw_srv G /\ uw_over W = pw_over G /\ uw_kept W = pw_kept G /\ uw_down W = pw_down G /\ uw_ss W = pw_ss G /\ uw_sc W <= pw_sc G /\
  incl (pw_up G) (uw_up W) /\
  if pw_cl G <=? putter_last file then
    let j := N.max 1 (pw_cl G) in
    uw_stat W = CRun /\ (exists r, cs_r (uw_cl W) = RS r /\ s_read r = j /\ s_last r <> None) /\
    In (rfc_data j (putter_block file j), Some j) (uw_up W)
  else exists t, uw_stat W = CDone t.
Definition prel (G : @pworld S) : Prop := exists W, urelS W /\ psim G W.

Lemma prel_step G G' : prel G -> pwstep step view c a file G G' -> prel G'.
Proof.
  intros (W & RW & E1 & E2 & E3 & E4 & E5 & E6 & E7 & E8) ST.
  assert (GO : forall W W', urelS W -> uwstep step view c a k file (putter_last file) W W' -> urelS W').
  { intros W1 W' RW1 SW. rewrite <- (proj1 x_nu) in SW. eapply (urel_step step view c g a k cut Inv HI HV x L file KSingle); try eassumption.
    destruct x_bs as (-> & _). reflexivity || lia. }
  destruct W as [sv ov kp cl stat down up sc ss]. cbn [uw_srv uw_over uw_kept uw_cl uw_stat uw_down uw_up uw_sc uw_ss] in *.
  destruct ST as [s t s' o e new gk gc gd gu gsc gss H HH VE SL
                 |s y v s' o e new gk gc gd gu gsc gss H SH IN FR VE SL
                 |s t s' o gk gc gd gu gsc gss H
                 |s over gk gc gd gu gsc gss y IN FR
                 |s over gk gc gd gu gsc gss GB1 GB2]; cbn [pw_srv pw_over pw_kept pw_cl pw_down pw_up pw_sc pw_ss] in *; subst.
  - eexists. split; [eapply GO; [exact RW|eapply uw_server; eassumption]|]. unfold psim. cbn [uw_srv uw_over uw_kept uw_cl uw_stat uw_down uw_up uw_sc uw_ss pw_srv pw_over pw_kept pw_cl pw_down pw_up pw_sc pw_ss]. auto 12.
  - eexists. split; [eapply GO; [exact RW|eapply uw_server_receives; try eassumption; apply E7, IN]|]. unfold psim. cbn [uw_srv uw_over uw_kept uw_cl uw_stat uw_down uw_up uw_sc uw_ss pw_srv pw_over pw_kept pw_cl pw_down pw_up pw_sc pw_ss]. auto 12.
  - eexists. split; [eapply GO; [exact RW|eapply uw_server_later; eassumption]|]. unfold psim. cbn [uw_srv uw_over uw_kept uw_cl uw_stat uw_down uw_up uw_sc uw_ss pw_srv pw_over pw_kept pw_cl pw_down pw_up pw_sc pw_ss]. auto 12.
  - assert (SC : sc <= see gsc y) by (unfold see; destruct (snd y); lia).
    assert (STUT : putter_hears file gc (fst y) = gc -> prel (mkPW s over gk (putter_hears file gc (fst y)) gd gu (see gsc y) gss)).
    { intros ->. exists (mkUW s over gk cl stat gd up sc gss). split; [exact RW|]. unfold psim. cbn [uw_srv uw_over uw_kept uw_cl uw_stat uw_down uw_up uw_sc uw_ss pw_srv pw_over pw_kept pw_cl pw_down pw_up pw_sc pw_ss]. auto 12. }
    destruct (gc <=? putter_last file) eqn:LE.
    2: { apply STUT. unfold putter_hears. destruct (takeN 516 (fst y)) as [|n0 [|n1 [|h [|l [|? ?]]]]]; try reflexivity;
          (destruct n0; [|reflexivity]); try reflexivity; destruct n1 as [|[?|[?|[?|?|]|]|]]; try reflexivity. rewrite LE. reflexivity. }
    cbn zeta in E8. destruct E8 as (-> & (r & ER & RR & RL) & INB).
    pose proof (acks_ok _ r y RW ER IN) as (A1 & A2 & A3). cbn [uw_srv uw_over uw_kept uw_cl uw_stat uw_down uw_up uw_sc uw_ss] in *.
    destruct (snd y) as [i|] eqn:EY.
    2: { apply STUT. unfold putter_hears. destruct (takeN 516 (fst y)) as [|n0 [|n1 [|h [|l [|? ?]]]]]; try reflexivity;
          (destruct n0; [|reflexivity]); try reflexivity; destruct n1 as [|[?|[?|[?|?|]|]|]]; try reflexivity. rewrite rfc_ack_parse in A3. destruct A3. }
    destruct A3 as [A3 A4]. unfold putter_hears in *. rewrite A4 in *. unfold rfc_ack, rfc_number in STUT |- *. cbn [app] in STUT |- *. rewrite num16 in STUT |- *. rewrite LE in STUT |- *. cbn [andb] in STUT |- *.
    destruct (N.eqb_spec (i mod 65536) (gc mod 65536)) as [EM|EM]; [|apply STUT; reflexivity].
    destruct (N.eq_dec gc 0) as [G0|G0].
    { subst gc. exists (mkUW s over gk cl CRun gd up sc gss). split; [exact RW|]. unfold psim. cbn [uw_srv uw_over uw_kept uw_cl uw_stat uw_down uw_up uw_sc uw_ss pw_srv pw_over pw_kept pw_cl pw_down pw_up pw_sc pw_ss].
      do 7 (split; [assumption || reflexivity|]). change (0 + 1) with 1. change (N.max 1 0) with 1 in *. change (N.max 1 1) with 1.
      assert (L1 : (1 <=? putter_last file) = true) by (unfold putter_last; lia). rewrite L1. split; [reflexivity|]. split; [eauto|exact INB]. }
    assert (MX : N.max 1 gc = gc) by lia. rewrite MX in *.
    assert (EI : i = gc).
    { unfold fresh_enough in FR. rewrite EY in FR. apply near_mod; [exact EM|lia|]. unfold putter_last in *. destruct FR as [FR|FR]; lia. }
    assert (FR' : fresh_enough (putter_last file) sc y).
    { unfold fresh_enough, putter_last in *. rewrite EY in *. destruct FR as [FR|FR]; [left; exact FR|right; lia]. }
    rewrite EI, <- RR in EY.
    destruct (ack_step _ r y RW eq_refl ER RL IN EY FR') as (cl1 & r1 & stat1 & SW & Q1 & Q2 & Q3 & Q4).
    cbn [uw_srv uw_over uw_kept uw_cl uw_stat uw_down uw_up uw_sc uw_ss] in *. pose proof (GO _ _ RW SW) as RW1.
    assert (SC' : see sc y <= see gsc y) by (unfold see; destruct (snd y); lia).
    destruct (N.eqb_spec (s_read r) (putter_last file)) as [LA|LA].
    + exists (mkUW s over gk cl1 stat1 gd up (see sc y) gss). split; [exact RW1|]. unfold psim. cbn [uw_srv uw_over uw_kept uw_cl uw_stat uw_down uw_up uw_sc uw_ss pw_srv pw_over pw_kept pw_cl pw_down pw_up pw_sc pw_ss].
      do 7 (split; [assumption || reflexivity|]). assert (GT : (gc + 1 <=? putter_last file) = false) by lia. rewrite GT. exact Q4.
    + subst stat1. destruct (send_next _ r1 RW1 eq_refl Q1 Q3) as (cl2 & r2 & SW2 & P1 & P2 & P3). pose proof (GO _ _ RW1 SW2) as RW2.
      cbn [uw_srv uw_over uw_kept uw_cl uw_stat uw_down uw_up uw_sc uw_ss] in *. rewrite Q2, RR in *.
      eexists. split; [exact RW2|]. unfold psim. cbn [uw_srv uw_over uw_kept uw_cl uw_stat uw_down uw_up uw_sc uw_ss pw_srv pw_over pw_kept pw_cl pw_down pw_up pw_sc pw_ss].
      do 6 (split; [assumption || reflexivity|]). split; [apply incl_tl; exact E7|].
      assert (GT : (gc + 1 <=? putter_last file) = true) by lia. rewrite GT. assert (MX2 : N.max 1 (gc + 1) = gc + 1) by lia. cbn zeta. rewrite MX2.
      split; [reflexivity|]. split; [eauto|left; reflexivity].
  - exists (mkUW s over gk cl stat gd up sc gss). split; [exact RW|]. unfold psim. cbn [uw_srv uw_over uw_kept uw_cl uw_stat uw_down uw_up uw_sc uw_ss pw_srv pw_over pw_kept pw_cl pw_down pw_up pw_sc pw_ss].
    do 6 (split; [assumption || reflexivity|]). split; [|exact E8]. intros y [<-|IN]; [|exact (E7 _ IN)].
    assert (LE : (gc <=? putter_last file) = true) by lia. rewrite LE in E8. cbn zeta in E8. assert (MX : N.max 1 gc = gc) by lia. rewrite MX in E8. apply E8.
Qed.
Lemma prel_reach G0 G : prel G0 -> pwreach step view c a file G0 G -> prel G.
Proof. intros R H. induction H; [exact R|]. eapply prel_step; eassumption. Qed.
Lemma prel_start W r ss : urelS W -> uw_stat W = CRun -> cs_r (uw_cl W) = RS r -> s_last r = None -> s_read r = 0 -> uw_ss W = ss ->
  prel (mkPW (uw_srv W) (uw_over W) (uw_kept W) 0 (uw_down W) [] (uw_sc W) ss).
Proof.
  intros RW ST ER EL E0 <-. destruct (send_next _ r RW ST ER EL) as (cl2 & r2 & SW2 & P1 & P2 & P3). rewrite E0 in *. change (0 + 1) with 1 in *.
  eexists. split.
  { rewrite <- (proj1 x_nu) in SW2. eapply (urel_step step view c g a k cut Inv HI HV x L file KSingle); try eassumption.
    destruct x_bs as (-> & _). reflexivity || lia. }
  unfold psim. cbn [uw_srv uw_over uw_kept uw_cl uw_stat uw_down uw_up uw_sc uw_ss pw_srv pw_over pw_kept pw_cl pw_down pw_up pw_sc pw_ss].
  do 5 (split; [reflexivity|]). split; [lia|]. split; [intros ? []|]. assert (LE : (0 <=? putter_last file) = true) by lia. rewrite LE. cbn zeta. change (N.max 1 0) with 1.
  split; [reflexivity|]. split; [eauto|left; reflexivity].
Qed.
Lemma prel_safe G : prel G ->
  (exists m, pw_kept G = takeN (512 * m) file) /\
  (putter_last file < pw_cl G -> pw_kept G = file) /\
  (forall e, pw_over G = false -> view (pw_srv G) a = Some e -> c_finished (en_conn e) = true -> pw_kept G = file).
Proof.
  intros (W & RW & E1 & E2 & E3 & E4 & E5 & E6 & E7 & E8). destruct (urel_safe view c g a k Inv x L file KSingle HPu W RW) as ((m & S1) & S2 & S3).
  rewrite E3 in *. rewrite (proj2 (proj2 (proj2 x_bs))) in S1. split; [exists m; rewrite N.mul_comm; exact S1|]. split.
  - intros LT. assert (LE : (pw_cl G <=? putter_last file) = false) by lia. rewrite LE in E8. destruct E8 as [t E8]. exact (proj1 (S2 t E8)).
  - intros e OV VE F. rewrite <- E1, <- E2 in *. eapply S3; eassumption.
Qed.
End D.
