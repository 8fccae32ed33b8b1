(** C69: progress of transfers on a server with other clients. *)
From Verif Require Import Base BaseProofs PacketModel PacketSpec PacketProofs MapperModel MapperProofs ReaderModel ReaderSpec BlockLemmas ReaderProofs
  WriterSpec WriterProofs ConfigModel Base64Model CryptoModel CryptoSpec CryptoProofs PropCrypto ExtModel ExtSpec ExtProofs PathModel ConnModel ClientModel ConnSpec
  HandshakeModel HandshakeProofs PropExt PropHandshake AgreeProofs PropAgree SystemModel CoreProofs DownloadProofs UploadProofs LiveModel LiveProofs
  ServerModel ServerSpec ServerProofs PropServer PropFair WorldModel WorldProofs WorldB WorldC PropWorld ProgressModel ProgressProofs ProgressB.

(** ** What a turn of the single threaded server does for a connection that is due *)
Lemma send_entry s i s' o a e : NoDup (addrs (s_clients s)) -> step_send s i = (s', o) -> sview s a = Some e ->
  sview s' a = Some e /\ sent_to a o = [] \/
  exists v e' plain ok, (v = i_send1 i a \/ v = i_send2 i a) /\ send_client (i_buflen i) e v = (e', plain, ok) /\
    sview s' a = Some e' /\ sent_to a o = map OPlain plain.
Proof.
  unfold sview. intros ND E HV. unfold step_send in E. destruct (send_data_blocks _ _ _) as [[[t o1] b] n] eqn:ES.
  injection E as <- <-. cbn [s_clients]. unfold send_data_blocks in ES.
  destruct (pass _ _ (i_send1 i) 0 (s_clients s)) as [[t1 p1] r1] eqn:E1.
  pose proof (pass_own _ _ _ a _ _ _ _ _ E1 ND) as P1.
  assert (H1 : find_entry t1 a = Some e /\ sent_to a p1 = [] \/
    exists v e' plain ok, (v = i_send1 i a \/ v = i_send2 i a) /\ send_client (i_buflen i) e v = (e', plain, ok) /\
      find_entry t1 a = Some e' /\ sent_to a p1 = map OPlain plain).
  { destruct P1 as [[-> ->]|(e0 & j & e' & plain & ok & EF & Ha & _ & _ & Hs & -> & ->)]; [left; rewrite HV; auto|].
    rewrite HV in EF. injection EF as <-. right. exists (i_send1 i a), e', plain, ok. auto. }
  destruct r1 as [n1|]; [injection ES as <- <- _ _; exact H1|].
  destruct (pass _ _ (i_send2 i) 0 t1) as [[t2 p2] r2] eqn:E2.
  assert (ND1 : NoDup (addrs t1)) by (rewrite (pass_addrs _ _ _ _ _ _ _ _ E1); exact ND).
  pose proof (pass_own _ _ _ a _ _ _ _ _ E2 ND1) as P2.
  assert (H3 : find_entry t2 a = Some e /\ sent_to a (p1 ++ p2) = [] \/
    exists v e' plain ok, (v = i_send1 i a \/ v = i_send2 i a) /\ send_client (i_buflen i) e v = (e', plain, ok) /\
      find_entry t2 a = Some e' /\ sent_to a (p1 ++ p2) = map OPlain plain).
  { rewrite sent_to_app. destruct P2 as [[-> ->]|(e0 & j2 & e2 & plain2 & ok2 & EF2 & Ha2 & RK2 & TR2 & Hs2 & -> & ->)].
    { rewrite app_nil_r. exact H1. }
    destruct P1 as [[F1 ->]|(e1 & j & e' & plain & ok & EF & Ha & RK & TR & Hs & _ & _)].
    - rewrite F1, HV in EF2. injection EF2 as <-. right. exists (i_send2 i a), e2, plain2, ok2. auto.
    - exfalso. apply N.leb_le in TR. apply N.ltb_lt in TR2.
      pose proof (pass_rank_high _ _ _ a _ _ _ _ _ E1 ND _ _ RK TR RK2). lia. }
  destruct r2; injection ES as <- <- _ _; exact H3.
Qed.

(** Always sends when due. *)
Definition sends (e : entry) (p : bytes) : Prop :=
  forall buflen v, due e v -> exists e', send_client buflen e v = (e', [p], true).

Lemma neglected_bound c g L a e p s is : TableOk g s -> sview s a = Some e -> sends e p -> In a L ->
  neglected c g L a e s is -> (length is < length L)%nat.
Proof.
  intros OK VE SD Hin W. destruct (index_of_in L a Hin) as (j & HI & Hj).
  enough (D : N.of_nat (length is) <= dist (N.of_nat (length L)) j (s_send s) \/ length is = 0%nat).
  { destruct D as [D|D].
    - assert (dist (N.of_nat (length L)) j (s_send s) < N.of_nat (length L)); [|lia].
      unfold dist. destruct (N.leb_spec (s_send s) j); [lia|]. destruct (N.ltb_spec (s_send s) (N.of_nat (length L))); lia.
    - destruct L; [destruct Hin|]. cbn [length]. lia. }
  induction W as [s|s i s1 o1 s2 o2 s3 o3 is EC EL D1 D2 E2 SO E3 HR W IH]; [right; reflexivity|].
  left. destruct OK as [So Le]. pose proof (sorted_nodup _ So) as ND.
  pose proof (clean_ok g s i s1 o1 (conj So Le) EC) as OK1. pose proof OK1 as [So1 _]. pose proof (sorted_nodup _ So1) as ND1.
  destruct (clean_clients g s i s1 o1 EC ND) as (f & HF & _ & Hsend & _).
  assert (V1 : sview s1 a = Some e).
  { assert (I1 : In a (addrs (s_clients s1))) by (apply active_addrs_in; unfold active_addrs; rewrite EL; exact Hin).
    unfold sview in *. rewrite HF in I1 |- *. rewrite find_filter by exact ND. rewrite VE.
    destruct (f (a, e)) eqn:EF; [reflexivity|]. exfalso. apply in_map_iff in I1 as ([b y] & EB & IN). cbn in EB. subst b.
    apply filter_In in IN as [IN FY]. assert (find_entry (s_clients s) a = Some y); [|congruence].
    clear -IN ND. unfold addrs in ND. induction (s_clients s) as [|[b z] l IHl]; cbn in *; [contradiction|].
    inversion ND as [|? ? NI ND']; subst. destruct IN as [[= -> ->]|IN]; [rewrite N.eqb_refl; reflexivity|].
    destruct (N.eqb_spec a b) as [->|]; [|apply IHl; assumption]. exfalso. apply NI. apply (in_map fst) in IN. exact IN. }
  assert (RD : ready (s_clients s1) i a).
  { exists e. split; [exact V1|]. destruct (SD (i_buflen i) _ D1) as [x1 ->]. destruct (SD (i_buflen i) _ D2) as [x2 ->]. auto. }
  assert (V2 : sview s2 a = Some e).
  { destruct (send_entry s1 i s2 o2 a e ND1 E2 V1) as [[V2 _]|(v & e' & plain & ok & Hv & Hs & _ & HSO)]; [exact V2|].
    exfalso. assert (DV : due e v) by (destruct Hv as [->| ->]; assumption). destruct (SD (i_buflen i) v DV) as [x1 X].
    rewrite X in Hs. injection Hs as _ <- _. rewrite SO in HSO. discriminate. }
  pose proof (send_ok g s1 i s2 o2 OK1 E2) as OK2.
  assert (V3 : sview s3 a = Some e).
  { pose proof (sphase_pev c g s2 _ s3 o3 a e OK2 (sp_receive c g s2 i s3 o3 E3) V2) as PV.
    clear -PV HR V2 E3. unfold step_recv, taken in *. destruct (scan _ _ _ _) as [found cursor]. cbn [fst] in *.
    destruct found as [[b d]|].
    - cbn [hears] in HR. destruct (find_entry (s_clients s2) b) as [e0|] eqn:EB; [|discriminate]. unfold known_client in E3.
      destruct (handle_client _ _ _ _ _) as [[e' plain]|]; [|discriminate]. injection E3 as <- _. unfold sview in *. cbn [s_clients set_recv].
      rewrite find_update by congruence. rewrite N.eqb_sym, HR. exact V2.
    - destruct (i_main i) as [b d| |]; [|injection E3 as <- _; exact V2|discriminate].
      destruct (has_entry _ b) eqn:EH; [injection E3 as <- _; exact V2|]. unfold new_client in E3. cbn [s_clients set_recv] in E3.
      destruct (_ <=? _); [injection E3 as <- _; exact V2|].
      destruct (server_new _ _ _ _ _); [discriminate|injection E3 as <- _; exact V2|]. injection E3 as <- _. unfold sview in *. cbn [s_clients set_recv].
      assert (NB : find_entry (s_clients s2) b = None) by (unfold has_entry in EH; destruct (find_entry (s_clients s2) b); [discriminate|reflexivity]).
      rewrite find_insert by exact NB. destruct (N.eqb_spec a b) as [->|]; [congruence|exact V2]. }
  assert (OK3 : TableOk g s3) by (eapply step_recv_ok; eassumption).
  specialize (IH OK3 V3). pose proof (recv_keeps_send _ _ _ _ _ _ E3) as KS.
  unfold step_send in E2. destruct (send_data_blocks (s_clients s1) (s_send s1) i) as [[[t' o'] b] next'] eqn:ES. injection E2 as <- <-. cbn in KS.
  change (map fst (filter (fun x => active (snd x)) (s_clients s1))) with (active_addrs (s_clients s1)) in EL.
  destruct (round_progress (s_clients s1) (s_send s1) i a t' o' b next' j ND1) as [Hs|Hd]; try assumption.
  - rewrite EL. exact HI.
  - rewrite EL. exact Hj.
  - exfalso. unfold served in Hs. rewrite ES in Hs. destruct Hs as (e0 & e' & plain & v & F0 & Hv & Hs & _ & HSO).
    unfold sview in V1. rewrite V1 in F0. injection F0 as <-.
    assert (DV : due e v) by (destruct Hv as [->| ->]; assumption). destruct (SD (i_buflen i) v DV) as [x1 X].
    rewrite X in Hs. injection Hs as _ <-. rewrite SO in HSO. discriminate.
  - rewrite EL, Hsend in Hd. cbn [length]. destruct IH as [IH|IH]; [rewrite KS in IH|]; lia.
Qed.

Section D.
Context {S : Type} (view : S -> addr -> option entry).
Variables (c : crypto) (g : srvcfg) (a : addr) (k : cside) (Inv : S -> Prop) (x : est) (L : N) (file : bytes) (kd : kind).
Lemma drel_sends W e : valid (dP c g k x L file kd) -> drel view c g a k Inv x L file kd W -> dw_over W = false -> view (dw_srv W) a = Some e ->
  c_finished (en_conn e) = false ->
  exists i, 1 <= i <= nblocks file (bs_enc (es_opts x)) /\ c_transfer (en_conn e) = (i - 1) * bs_enc (es_opts x) /\
    sends e (to_bytes (PData (i mod 65536) (block_of file (bs_enc (es_opts x)) i))).
Proof.
  intros HP (st & R & DS) OV VE FI. destruct (dreach_inv _ HP st R) as [s I]. destruct DS as (_ & _ & _ & _ & _ & _ & HS).
  destruct (HS OV) as (_ & _ & e0 & V0 & C0 & _ & W0). rewrite VE in V0. injection V0 as <-. rewrite C0 in FI.
  set (now0 := c_sent (d_conn st) + op_retry (c_opts (d_conn st)) * c_mult (d_conn st) + 1).
  assert (R0 : retry_due (d_conn st) now0 = true) by (unfold retry_due, now0; lia).
  destruct (dresend _ HP st s 0 now0 [] I FI R0) as (i & c1 & r1 & Hi & TR & _). exists i. split; [exact Hi|].
  rewrite C0. split; [exact TR|]. intros buflen v (D1 & D2 & D3). rewrite C0 in D1.
  destruct (dresend _ HP st s buflen (e_now v) (e_txt v) I FI D1) as (i' & c2 & r2 & Hi' & TR' & SD & _).
  assert (i' = i).
  { assert (B : 0 < bs_enc (es_opts x)) by (destruct (bs_pos _ HP) as (B & _); exact B).
    rewrite TR in TR'. change (p_bs (dP c g k x L file kd)) with (bs_enc (es_opts x)) in TR'. apply N.mul_cancel_r in TR'; lia. }
  subst i'. unfold send_client. rewrite W0, C0, D2, D3. change (p_file (dP c g k x L file kd)) with file in SD. rewrite SD. eauto.
Qed.
End D.

Lemma dprog_start view c g a k Inv x L file kd (W : @dworld view) v st : valid (dP c g k x L file kd) -> dinit (dP c g k x L file kd) st ->
  dsim v a Inv x file W st -> dprog v c g a k Inv x L file kd 0 None W.
Proof.
  intros HP IN DS. destruct (dinv_init _ HP st IN) as [s I]. exists st, s. split; [apply dreach_init; exact IN|]. split; [exact DS|].
  split; [exact I|]. split; [lia|exact Logic.I].
Qed.
Lemma uprog_start view c g a k Inv x L file kd (W : @uworld view) v st : valid (uP c g k x L file kd) -> uinit (uP c g k x L file kd) st ->
  usim v a Inv x W st -> uprog v c g a k Inv x L file kd 0 None W.
Proof.
  intros HP IN DS. destruct (uinv_init _ HP st IN) as [s I]. exists st, s. split; [apply ureach_init; exact IN|]. split; [exact DS|].
  split; [exact I|]. split; [lia|exact Logic.I].
Qed.

Section T.
Context {S : Type} (step : S -> took -> S -> outs -> Prop) (view : S -> addr -> option entry).
Variables (c : crypto) (g : srvcfg) (a : addr) (k : cside) (cut : entry -> bytes -> bytes) (Inv : S -> Prop).
Hypothesis HI : forall s t s' o e e', Inv s -> step s t s' o -> view s a = Some e -> view s' a = Some e' -> Inv s'.
Hypothesis HV : forall s t s' o e, Inv s -> step s t s' o -> view s a = Some e -> pev c g a cut e t (view s' a) (sent_to a o).
Variables (env : henv) (av : avail) (d w : bytes) (x : est) (now : N) (fs : bytes -> bytes) (s1 : S) (wr : bool) (t : N).
Hypothesis HC : crypto_ok c.
Hypothesis HB : 512 <= sc_max_bs (g_cfg g).
Hypothesis HW : 1 <= sc_max_window (g_cfg g).
Hypothesis HN : negotiates c (g_cfg g) env wr d w k.
Hypothesis HX : server_new c (g_cfg g) env av (recv_cut g d) = SAccepted x (Some w).
Hypothesis HI1 : Inv s1.
Hypothesis V1 : view s1 a = Some (new_entry x now fs).
Variable L : N.
Hypothesis HL : op_bs (es_opts x) + 4 <= L /\ 516 <= L.
Hypothesis Hcut : forall e d, c_opts (en_conn e) = es_opts x -> cut e d = takeN L d.
Notation bs := (bs_enc (k_opts k)).

Lemma download_progress e file r down up m y W : e = new_entry x now fs -> en_work e = WRead file r -> blen file <= k_max k ->
  (nblocks file bs <= 55535 \/ op_window (k_opts k) <= 10000) ->
  Forall (stale_for_receiver (client_dec c (k_sock k) (op_bs (k_opts k)))) down ->
  Forall (stale_for_sender (fun y => entry_dec c e (cut e y))) up ->
  dexchanges step view c a k bs (nblocks file bs) (mkDW s1 false (crecv_new t) CRun down up 0 0) m y W ->
  m <= 2 * nblocks file bs - 1 /\
  (2 * nblocks file bs - 1 <= m -> dw_stat W = CDone (blen file) /\ w_out (cr_w (dw_cl W)) = file \/ dw_stat W = CFail) /\
  (forall new W', y = None -> dhanded view c a k bs W new W' -> dw_stat W' <> CFail).
Proof.
  intros EE EW HM HNB HD HU HR.
  destruct (download_start step view c g a k cut Inv HI HV env av d w x now fs s1 wr t HC HB HW HN HX HI1 V1 L HL Hcut e file r down up EE EW HNB HD HU)
    as (kd & st & HP & IN & DS).
  destruct (t_bs c g k env av d w x wr HC HN HX) as [TB TW]. rewrite TB in *.
  pose proof (t_opts step view c g a k cut Inv HI HV env av d w x s1 wr HC HB HW HN HX L HL Hcut) as TO.
  pose proof (proj1 (t_agree c g k env av d w x wr HC HN HX)) as TA.
  pose proof (dprog_all step view c g a k cut Inv HI HV x L file kd HC TA (proj1 (proj1 TO)) HL Hcut HP _ m y W HM
    (dprog_start _ c g a k _ x _ file kd _ _ st HP IN DS) HR) as PG.
  destruct (dprog_bound view c g a k cut Inv x L file kd (proj1 (proj1 TO)) HL Hcut HP _ _ _ PG) as (B1 & B2 & B3).
  change (p_n (dP c g k x L file kd)) with (nblocks file (bs_enc (es_opts x))) in *.
  split; [exact B1|]. split.
  { intros HG. destruct B3 as [B3|[B3|B3]]; [auto| |auto]. specialize (B2 B3).
    pose proof (nblocks_bounds file (bs_enc (es_opts x)) ltac:(destruct (bs_pos _ HP) as (B & _); exact B)). lia. }
  intros new W' -> HH. destruct HH. eapply (dprog_handed step view c g a k cut Inv HI HV x L file kd HC TA (proj1 (proj1 TO)) HL Hcut HP); eassumption.
Qed.

Lemma upload_progress e path seek file down up m y W : e = new_entry x now fs -> en_work e = WWrite path writer_new -> blen file <= g_max_size g ->
  (nblocks file bs <= 55535 \/ op_window (k_opts k) <= 10000) ->
  Forall (stale_for_sender (client_dec c (k_sock k) (op_bs (k_opts k)))) down ->
  Forall (stale_for_receiver (fun y => entry_dec c e (cut e y))) up ->
  uexchanges step view c a k file bs (nblocks file bs) (mkUW s1 false [] (mkCS (client_reader (k_opts k) seek) 0 t) CRun down up 0 0) m y W ->
  m <= 2 * nblocks file bs - 1 /\
  (2 * nblocks file bs - 1 <= m -> uw_stat W = CDone (blen file) /\ uw_kept W = file \/ uw_stat W = CFail) /\
  (forall x W', y = Some x -> uanswered c k (nblocks file bs) x W W' -> uw_stat W' <> CFail) /\
  (forall new W' e', y = None -> uhanded step view c a bs W new W' -> view (uw_srv W') a = Some e' -> c_invalid (en_conn e') = None).
Proof.
  intros EE EW HM HNB HD HU HR.
  destruct (upload_start step view c g a k cut Inv HI HV env av d w x now fs s1 wr t HC HB HW HN HX HI1 V1 L HL Hcut e path seek file down up EE EW HNB HD HU)
    as (kd & st & HP & IN & DS).
  destruct (t_bs c g k env av d w x wr HC HN HX) as [TB TW]. rewrite TB in *.
  pose proof (t_opts step view c g a k cut Inv HI HV env av d w x s1 wr HC HB HW HN HX L HL Hcut) as TO.
  pose proof (proj1 (t_agree c g k env av d w x wr HC HN HX)) as TA.
  pose proof (uprog_all step view c g a k cut Inv HI HV x L file kd HC TA (proj1 (proj1 TO)) HL Hcut HP _ m y W HM
    (uprog_start _ c g a k _ x _ file kd _ _ st HP IN DS) HR) as PG.
  destruct (uprog_bound view c g a k cut Inv x L file kd (proj1 (proj1 TO)) HL Hcut HP _ _ _ PG) as (B1 & B2 & B3).
  change (p_n (uP c g k x L file kd)) with (nblocks file (bs_enc (es_opts x))) in *.
  split; [exact B1|]. split.
  { intros HG. destruct B3 as [B3|[B3|B3]]; [auto| |auto]. specialize (B2 B3).
    pose proof (nblocks_bounds file (bs_enc (es_opts x)) ltac:(destruct (bs_pos _ HP) as (B & _); exact B)). lia. }
  split.
  - intros x0 W' -> HH. destruct HH. eapply (uprog_answered step view c g a k cut Inv HI HV x L file kd (proj1 (proj1 TO)) HL Hcut HP); eassumption.
  - intros new W' e' -> HH VE'. destruct HH. cbn [uw_srv] in VE'. eapply (uprog_handed step view c g a k cut Inv HI HV x L file kd HC TA (proj1 (proj1 TO)) HL Hcut HP); eassumption.
Qed.

Lemma download_sends e file r down up W e' : e = new_entry x now fs -> en_work e = WRead file r ->
  (nblocks file bs <= 55535 \/ op_window (k_opts k) <= 10000) ->
  Forall (stale_for_receiver (client_dec c (k_sock k) (op_bs (k_opts k)))) down ->
  Forall (stale_for_sender (fun y => entry_dec c e (cut e y))) up ->
  dwreach step view c a k (nblocks file bs) (mkDW s1 false (crecv_new t) CRun down up 0 0) W ->
  dw_over W = false -> view (dw_srv W) a = Some e' -> c_finished (en_conn e') = false ->
  Inv (dw_srv W) /\
  exists i, 1 <= i <= nblocks file bs /\ c_transfer (en_conn e') = (i - 1) * bs /\
    sends e' (to_bytes (PData (i mod 65536) (block_of file bs i))).
Proof.
  intros EE EW HNB HD HU HR OV VE FI.
  destruct (download_start step view c g a k cut Inv HI HV env av d w x now fs s1 wr t HC HB HW HN HX HI1 V1 L HL Hcut e file r down up EE EW HNB HD HU)
    as (kd & st & HP & IN & DS).
  destruct (t_bs c g k env av d w x wr HC HN HX) as [TB TW]. rewrite TB in *.
  pose proof (t_opts step view c g a k cut Inv HI HV env av d w x s1 wr HC HB HW HN HX L HL Hcut) as TO.
  pose proof (proj1 (t_agree c g k env av d w x wr HC HN HX)) as TA.
  assert (DR : drel view c g a k Inv x L file kd W).
  { eapply (drel_reach step view c g a k cut Inv HI HV x L file kd HC TA (proj1 (proj1 TO)) HL Hcut HP); [|exact HR].
    exists st. split; [apply dreach_init; exact IN|exact DS]. }
  split; [destruct DR as (st' & _ & II & _); exact (II OV)|].
  eapply (drel_sends view c g a k Inv x L file kd); eassumption.
Qed.
End T.

(** A download from the single threaded server needs less than [2 n] exchanges ([n]: blocks of the
    file): once [2 n - 1] have taken place, with whatever else happened in between, the client has
    the file, or it has given up. *)
Theorem single_download_progress : forall c g a s0 i s1 o d w e file r k t down up m y W,
  crypto_ok c -> 512 <= sc_max_bs (g_cfg g) -> 1 <= sc_max_window (g_cfg g) ->
  spreach c g s0 -> sview s0 a = None -> taken s0 i = TookMain a d -> step_recv c g s0 i = Some (s1, o) ->
  sent_to a o = [OWire w] -> sview s1 a = Some e -> en_work e = WRead file r ->
  negotiates c (g_cfg g) (i_henv i) false d w k -> blen file <= k_max k ->
  let bs := bs_enc (k_opts k) in let n := nblocks file bs in
  n <= 55535 \/ op_window (k_opts k) <= 10000 ->
  Forall (stale_for_receiver (client_dec c (k_sock k) (op_bs (k_opts k)))) down ->
  Forall (stale_for_sender (fun y => entry_dec c e (recv_cut g y))) up ->
  dexchanges (sphase c g) sview c a k bs n (mkDW s1 false (crecv_new t) CRun down up 0 0) m y W ->
  m <= 2 * n - 1 /\
  (2 * n - 1 <= m -> dw_stat W = CDone (blen file) /\ w_out (cr_w (dw_cl W)) = file \/ dw_stat W = CFail) /\
  (forall new W', y = None -> dhanded sview c a k bs W new W' -> dw_stat W' <> CFail).
Proof.
  intros c g a s0 i s1 o d w e file r k t down up m y W HC HB HW R0 V0 TK E SO V1 EW HN HM bs n HNB HD HU HR.
  destruct (single_accepts _ _ _ _ _ _ _ _ _ _ TK V0 E SO V1) as (x & HX & EE).
  destruct (accept_opts _ _ _ _ _ _ _ HX HB HW) as ((_ & A1) & _). destruct (scut_ok g x A1) as [HL HCUT].
  assert (OK1 : TableOk g s1) by (eapply step_recv_ok; [eapply spreach_ok; exact R0|exact E]).
  pose proof V1 as V1'. rewrite EE in V1'.
  eapply (download_progress (sphase c g) sview c g a k (scut g) (TableOk g) (fun s t s' o _ _ I P _ _ => sphase_ok c g s t s' o I P)
    (fun s t s' o e => sphase_pev c g s t s' o a e) _ _ d w x _ _ s1 false t HC HB HW HN HX OK1 V1' _ HL HCUT); eassumption.
Qed.
(** The same with the multi threaded server. *)
Theorem multi_download_progress : forall c g a m0 i m1 o d w e file r k t down up m y W,
  crypto_ok c -> 512 <= sc_max_bs (g_cfg g) -> 1 <= sc_max_window (g_cfg g) ->
  mpreach c g m0 -> mview m0 a = None -> main_turn c g m0 (MData a d) i = Some (m1, o) ->
  sent_to a o = [OWire w] -> mview m1 a = Some e -> en_work e = WRead file r ->
  negotiates c (g_cfg g) (i_henv i) false d w k -> blen file <= k_max k ->
  let bs := bs_enc (k_opts k) in let n := nblocks file bs in
  n <= 55535 \/ op_window (k_opts k) <= 10000 ->
  Forall (stale_for_receiver (client_dec c (k_sock k) (op_bs (k_opts k)))) down ->
  Forall (stale_for_sender (fun y => entry_dec c e (thread_cut e y))) up ->
  dexchanges (mphase c g) mview c a k bs n (mkDW m1 false (crecv_new t) CRun down up 0 0) m y W ->
  m <= 2 * n - 1 /\
  (2 * n - 1 <= m -> dw_stat W = CDone (blen file) /\ w_out (cr_w (dw_cl W)) = file \/ dw_stat W = CFail) /\
  (forall new W', y = None -> dhanded mview c a k bs W new W' -> dw_stat W' <> CFail).
Proof.
  intros c g a m0 i m1 o d w e file r k t down up m y W HC HB HW R0 V0 E SO V1 EW HN HM bs n HNB HD HU HR.
  destruct (multi_accepts _ _ _ _ _ _ _ _ _ _ (mpreach_ok _ _ _ R0) V0 E SO V1) as (x & HX & EE).
  destruct (tcut_ok x) as [HL HCUT].
  assert (OK1 : HandlesOk m1) by (eapply mphase_ok; [eapply mpreach_ok; exact R0|eapply mp_main; exact E]).
  pose proof V1 as V1'. rewrite EE in V1'.
  eapply (download_progress (mphase c g) mview c g a k thread_cut HandlesOk (fun s t s' o _ _ I P _ _ => mphase_ok c g s t s' o I P)
    (fun s t s' o e => mphase_pev c g s t s' o a e) _ _ d w x _ _ m1 false t HC HB HW HN HX OK1 V1' _ HL HCUT); eassumption.
Qed.

(** An upload needs at most [2 n] exchanges. *)
Theorem single_upload_progress : forall c g a s0 i s1 o d w e path wr k seek file t down up m y W,
  crypto_ok c -> 512 <= sc_max_bs (g_cfg g) -> 1 <= sc_max_window (g_cfg g) ->
  spreach c g s0 -> sview s0 a = None -> taken s0 i = TookMain a d -> step_recv c g s0 i = Some (s1, o) ->
  sent_to a o = [OWire w] -> sview s1 a = Some e -> en_work e = WWrite path wr ->
  negotiates c (g_cfg g) (i_henv i) true d w k -> blen file <= g_max_size g ->
  let bs := bs_enc (k_opts k) in let n := nblocks file bs in
  n <= 55535 \/ op_window (k_opts k) <= 10000 ->
  Forall (stale_for_sender (client_dec c (k_sock k) (op_bs (k_opts k)))) down ->
  Forall (stale_for_receiver (fun y => entry_dec c e (recv_cut g y))) up ->
  uexchanges (sphase c g) sview c a k file bs n (mkUW s1 false [] (mkCS (client_reader (k_opts k) seek) 0 t) CRun down up 0 0) m y W ->
  m <= 2 * n - 1 /\
  (2 * n - 1 <= m -> uw_stat W = CDone (blen file) /\ uw_kept W = file \/ uw_stat W = CFail) /\
  (forall x W', y = Some x -> uanswered c k n x W W' -> uw_stat W' <> CFail) /\
  (forall new W' e', y = None -> uhanded (sphase c g) sview c a bs W new W' -> sview (uw_srv W') a = Some e' -> c_invalid (en_conn e') = None).
Proof.
  intros c g a s0 i s1 o d w e path wr k seek file t down up m y W HC HB HW R0 V0 TK E SO V1 EW HN HM bs n HNB HD HU HR.
  destruct (single_accepts _ _ _ _ _ _ _ _ _ _ TK V0 E SO V1) as (x & HX & EE).
  destruct (accept_opts _ _ _ _ _ _ _ HX HB HW) as ((_ & A1) & _). destruct (scut_ok g x A1) as [HL HCUT].
  assert (OK1 : TableOk g s1) by (eapply step_recv_ok; [eapply spreach_ok; exact R0|exact E]).
  pose proof V1 as V1'. rewrite EE in V1'. rewrite (fresh_writer _ _ _ _ _ _ EE EW) in EW.
  eapply (upload_progress (sphase c g) sview c g a k (scut g) (TableOk g) (fun s t s' o _ _ I P _ _ => sphase_ok c g s t s' o I P)
    (fun s t s' o e => sphase_pev c g s t s' o a e) _ _ d w x _ _ s1 true t HC HB HW HN HX OK1 V1' _ HL HCUT); eassumption.
Qed.
Theorem multi_upload_progress : forall c g a m0 i m1 o d w e path wr k seek file t down up m y W,
  crypto_ok c -> 512 <= sc_max_bs (g_cfg g) -> 1 <= sc_max_window (g_cfg g) ->
  mpreach c g m0 -> mview m0 a = None -> main_turn c g m0 (MData a d) i = Some (m1, o) ->
  sent_to a o = [OWire w] -> mview m1 a = Some e -> en_work e = WWrite path wr ->
  negotiates c (g_cfg g) (i_henv i) true d w k -> blen file <= g_max_size g ->
  let bs := bs_enc (k_opts k) in let n := nblocks file bs in
  n <= 55535 \/ op_window (k_opts k) <= 10000 ->
  Forall (stale_for_sender (client_dec c (k_sock k) (op_bs (k_opts k)))) down ->
  Forall (stale_for_receiver (fun y => entry_dec c e (thread_cut e y))) up ->
  uexchanges (mphase c g) mview c a k file bs n (mkUW m1 false [] (mkCS (client_reader (k_opts k) seek) 0 t) CRun down up 0 0) m y W ->
  m <= 2 * n - 1 /\
  (2 * n - 1 <= m -> uw_stat W = CDone (blen file) /\ uw_kept W = file \/ uw_stat W = CFail) /\
  (forall x W', y = Some x -> uanswered c k n x W W' -> uw_stat W' <> CFail) /\
  (forall new W' e', y = None -> uhanded (mphase c g) mview c a bs W new W' -> mview (uw_srv W') a = Some e' -> c_invalid (en_conn e') = None).
Proof.
  intros c g a m0 i m1 o d w e path wr k seek file t down up m y W HC HB HW R0 V0 E SO V1 EW HN HM bs n HNB HD HU HR.
  destruct (multi_accepts _ _ _ _ _ _ _ _ _ _ (mpreach_ok _ _ _ R0) V0 E SO V1) as (x & HX & EE).
  destruct (tcut_ok x) as [HL HCUT].
  assert (OK1 : HandlesOk m1) by (eapply mphase_ok; [eapply mpreach_ok; exact R0|eapply mp_main; exact E]).
  pose proof V1 as V1'. rewrite EE in V1'. rewrite (fresh_writer _ _ _ _ _ _ EE EW) in EW.
  eapply (upload_progress (mphase c g) mview c g a k thread_cut HandlesOk (fun s t s' o _ _ I P _ _ => mphase_ok c g s t s' o I P)
    (fun s t s' o e => mphase_pev c g s t s' o a e) _ _ d w x _ _ m1 true t HC HB HW HN HX OK1 V1' _ HL HCUT); eassumption.
Qed.

(** The block an exchange needs is sent in time: whenever the retry time of an unfinished download has
    passed (disk and socket working), what the connection sends is the first block that is not
    acknowledged; and the single threaded server sends it within as many turns as there are clients
    downloading, unless a datagram of this client is taken before. *)
Theorem single_download_resends : forall c g a s0 i s1 o d w e file r k t down up W e',
  crypto_ok c -> 512 <= sc_max_bs (g_cfg g) -> 1 <= sc_max_window (g_cfg g) ->
  spreach c g s0 -> sview s0 a = None -> taken s0 i = TookMain a d -> step_recv c g s0 i = Some (s1, o) ->
  sent_to a o = [OWire w] -> sview s1 a = Some e -> en_work e = WRead file r ->
  negotiates c (g_cfg g) (i_henv i) false d w k ->
  let bs := bs_enc (k_opts k) in let n := nblocks file bs in
  n <= 55535 \/ op_window (k_opts k) <= 10000 ->
  Forall (stale_for_receiver (client_dec c (k_sock k) (op_bs (k_opts k)))) down ->
  Forall (stale_for_sender (fun y => entry_dec c e (recv_cut g y))) up ->
  dwreach (sphase c g) sview c a k n (mkDW s1 false (crecv_new t) CRun down up 0 0) W ->
  dw_over W = false -> sview (dw_srv W) a = Some e' -> c_finished (en_conn e') = false ->
  (exists i, 1 <= i <= n /\ c_transfer (en_conn e') = (i - 1) * bs /\
    forall buflen v, due e' v ->
      exists e'', send_client buflen e' v = (e'', [to_bytes (PData (i mod 65536) (block_of file bs i))], true)) /\
  (forall L is, In a L -> neglected c g L a e' (dw_srv W) is -> (length is < length L)%nat).
Proof.
  intros c g a s0 i s1 o d w e file r k t down up W e' HC HB HW R0 V0 TK E SO V1 EW HN bs n HNB HD HU HR OV VE FI.
  destruct (single_accepts _ _ _ _ _ _ _ _ _ _ TK V0 E SO V1) as (x & HX & EE).
  destruct (accept_opts _ _ _ _ _ _ _ HX HB HW) as ((_ & A1) & _). destruct (scut_ok g x A1) as [HL HCUT].
  assert (OK1 : TableOk g s1) by (eapply step_recv_ok; [eapply spreach_ok; exact R0|exact E]).
  pose proof V1 as V1'. rewrite EE in V1'.
  destruct (download_sends (sphase c g) sview c g a k (scut g) (TableOk g) (fun s t s' o _ _ I P _ _ => sphase_ok c g s t s' o I P)
    (fun s t s' o e => sphase_pev c g s t s' o a e) _ _ d w x _ _ s1 false t HC HB HW HN HX OK1 V1' _ HL HCUT e file r down up W e' EE EW HNB HD HU HR OV VE FI)
    as (OK & j & Hj & TR & SD).
  split; [exists j; auto|]. intros L is Hin NG. eapply neglected_bound; eassumption.
Qed.
(** A thread of the multi threaded server sends it in its next turn. *)
Theorem multi_download_resends : forall c g a m0 i m1 o d w e file r k t down up W e',
  crypto_ok c -> 512 <= sc_max_bs (g_cfg g) -> 1 <= sc_max_window (g_cfg g) ->
  mpreach c g m0 -> mview m0 a = None -> main_turn c g m0 (MData a d) i = Some (m1, o) ->
  sent_to a o = [OWire w] -> mview m1 a = Some e -> en_work e = WRead file r ->
  negotiates c (g_cfg g) (i_henv i) false d w k ->
  let bs := bs_enc (k_opts k) in let n := nblocks file bs in
  n <= 55535 \/ op_window (k_opts k) <= 10000 ->
  Forall (stale_for_receiver (client_dec c (k_sock k) (op_bs (k_opts k)))) down ->
  Forall (stale_for_sender (fun y => entry_dec c e (thread_cut e y))) up ->
  dwreach (mphase c g) mview c a k n (mkDW m1 false (crecv_new t) CRun down up 0 0) W ->
  dw_over W = false -> mview (dw_srv W) a = Some e' -> c_finished (en_conn e') = false ->
  exists i, 1 <= i <= n /\ c_transfer (en_conn e') = (i - 1) * bs /\
    forall buflen v1 v2 v3 ev th plain,
      c_invalid (en_conn e') = None -> e_now v1 - c_updated (en_conn e') <= g_timeout g -> due e' v2 ->
      thread_turn c g e' buflen v1 v2 v3 ev = (th, plain) ->
      exists rest, plain = to_bytes (PData (i mod 65536) (block_of file bs i)) :: rest.
Proof.
  intros c g a m0 i m1 o d w e file r k t down up W e' HC HB HW R0 V0 E SO V1 EW HN bs n HNB HD HU HR OV VE FI.
  destruct (multi_accepts _ _ _ _ _ _ _ _ _ _ (mpreach_ok _ _ _ R0) V0 E SO V1) as (x & HX & EE).
  destruct (tcut_ok x) as [HL HCUT].
  assert (OK1 : HandlesOk m1) by (eapply mphase_ok; [eapply mpreach_ok; exact R0|eapply mp_main; exact E]).
  pose proof V1 as V1'. rewrite EE in V1'.
  destruct (download_sends (mphase c g) mview c g a k thread_cut HandlesOk (fun s t s' o _ _ I P _ _ => mphase_ok c g s t s' o I P)
    (fun s t s' o e => mphase_pev c g s t s' o a e) _ _ d w x _ _ m1 false t HC HB HW HN HX OK1 V1' _ HL HCUT e file r down up W e' EE EW HNB HD HU HR OV VE FI)
    as (OK & j & Hj & TR & SD).
  exists j. split; [exact Hj|]. split; [exact TR|]. intros buflen v1 v2 v3 ev th plain IV TM DU TT.
  unfold thread_turn, timeout_client in TT. rewrite IV, FI in TT. cbn [orb] in TT. apply N.leb_le in TM. rewrite TM in TT.
  destruct (SD buflen v2 DU) as [e'' X]. rewrite X in TT.
  destruct ev; [|injection TT as _ <-; eauto|injection TT as _ <-; eauto].
  destruct (handle_client _ _ _ _ _) as [[e2 p2]|]; injection TT as _ <-; cbn; eauto.
Qed.
Print Assumptions single_download_progress.
Print Assumptions multi_download_progress.
Print Assumptions single_upload_progress.
Print Assumptions multi_upload_progress.
Print Assumptions single_download_resends.
Print Assumptions multi_download_resends.
