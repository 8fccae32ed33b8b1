(** C71: what a command does on its own machine and where it sends packets, whatever arrives. *)
From Verif Require Import Base BaseProofs PacketModel MapperModel ReaderModel ReaderSpec ConfigModel CryptoModel CryptoSpec ExtModel PathModel ConnModel
  ConnSpec ClientModel HandshakeModel ClientWaitModel StreamModel SystemModel ServerModel ServerSpec WorldModel
  FsModel FsSpec FsProofs FsServerModel DiskModel RunModel RunSpec RunProofs.
From Verif Require CliModel.

Section L.
Variables (g : run_cfg) (wc : wcfg) (keys : option client_keys).
Notation path := (CliModel.cl_local (ru_start g)).
Notation home := (CliModel.cl_endpoint (ru_start g)).

Lemma same_ip_refl x : same_ip x x = true.
Proof. unfold same_ip. rewrite Bool.eqb_reflx. apply beq_eq. reflexivity. Qed.
Lemma at_store c f s d i f' s' io sh q : store c f s d i = (f', s', io, sh) -> at_ f' q = at_ f q.
Proof. intros E. destruct (store_set _ _ _ _ _ _ _ _ _ E) as [->|[x ->]]; [reflexivity|apply at_set]. Qed.
Lemma data_store c f s d i f' s' io sh j : store c f s d i = (f', s', io, sh) -> j <> sk_id s -> f_data f' j = f_data f j.
Proof. intros E NJ. destruct (store_set _ _ _ _ _ _ _ _ _ E) as [->|[x ->]]; [reflexivity|]. rewrite data_set. destruct (N.eqb_spec j (sk_id s)); [contradiction|reflexivity]. Qed.
Lemma store_id c f s d i f' s' io sh : store c f s d i = (f', s', io, sh) -> sk_id s' = sk_id s.
Proof.
  unfold store. destruct d as [d|]; [|intros [= _ <- _ _]; reflexivity].
  destruct (sink_write _ _ _ _ _ _) as [[f1 s1] r] eqn:E. assert (X : sk_id s1 = sk_id s).
  { unfold sink_write in E. destruct (sk_stream s); [destruct (sw_write _ _ _ _ _); injection E as _ <- _; reflexivity|].
    destruct (ri_io i); injection E as _ <- _; reflexivity. }
  destruct r; intros [= _ <- _ _]; exact X.
Qed.
Lemma only_store c f0 f s d i f' s' io sh : store c f s d i = (f', s', io, sh) -> only_local path f0 f (sk_id s) -> only_local path f0 f' (sk_id s).
Proof.
  intros E (A & B & C). split; [rewrite (local_store _ _ _ _ _ _ _ _ _ _ E); exact A|].
  split; [intros j NJ; rewrite (data_store _ _ _ _ _ _ _ _ _ _ E NJ); auto|].
  destruct C as [(C1 & C2)|(C1 & C2 & d0 & n & C3 & C4 & C5)].
  - left. split; [exact C1|]. intros q. rewrite (at_store _ _ _ _ _ _ _ _ _ _ E). apply C2.
  - right. split; [exact C1|]. split; [exact C2|]. exists d0, n. split; [exact C3|]. split; [rewrite (at_store _ _ _ _ _ _ _ _ _ _ E); exact C4|].
    intros q NQ. rewrite (at_store _ _ _ _ _ _ _ _ _ _ E). apply C5. exact NQ.
Qed.
Lemma only_created f f1 id : create_writer f path = (f1, Some id) -> only_local path f f1 id /\ f_data f1 id = [].
Proof.
  intros E. destruct (create_writer_cases _ _ _ _ E) as (L & D & J & C). split; [|exact D]. split; [exact L|]. split; [exact J|].
  destruct C as [(C1 & C2 & _)|C]; auto.
Qed.

(** From the host the command was given. *)
Definition from_home (i : rin) : Prop := exists src wire, ri_ev i = RvFrom src wire /\ same_ip src home = true.
Lemma wait_home w0 sock e now : match wait_turn wc w0 (mkWI sock (wait_ev g e) now) with
  | WoDone _ _ | WoRefuse _ => exists src wire, e = RvFrom src wire /\ same_ip src home = true
  | _ => True end.
Proof.
  unfold wait_turn. cbn [wi_sock wi_ev wi_now]. destruct sock; cbn [negb]; [|exact I]. destruct e as [src wire| |]; cbn [wait_ev]; [| |exact I].
  - destruct (client_recv _ _ _); try exact I. destruct (same_ip src home) eqn:E; [|exact I]. destruct (query_step _ _ _ _ _ _ _ _ _) as [|rep|d]; try exact I; [destruct rep; [|exact I]|]; exists src, wire; auto.
  - destruct (_ <? _); exact I.
Qed.

(** The state of a run: nothing is touched, or only the local file, after an answer of the host. *)
Definition local_inv (f0 : fs) (heard : Prop) (p : rprog) : Prop :=
  match rp_ph p with
  | RAsk _ => rp_fs p = f0
  | RGet _ from _ s _ => heard /\ same_ip from home = true /\ only_local path f0 (rp_fs p) (sk_id s)
  | _ => rp_fs p = f0 \/ heard /\ exists id, only_local path f0 (rp_fs p) id
  end.
Definition to_home (x : sent) : Prop := same_ip (sn_to x) home = true.
Lemma to_home_sends s to l : same_ip to home = true -> Forall to_home (sends s to l).
Proof. intros H. unfold sends. apply Forall_map. apply Forall_forall. intros x _. exact H. Qed.

Lemma local_turn f0 heard p i p' out : local_inv f0 heard p -> receive_turn g wc keys p i = (p', out) ->
  local_inv f0 (heard \/ from_home i) p' /\ Forall to_home out.
Proof.
  unfold local_inv, receive_turn. intros H E. destruct (rp_ph p) as [w0|k from key s st|total key|] eqn:EP.
  - set (ask := sends _ _ _) in E. assert (TA : Forall to_home ask) by (apply to_home_sends, same_ip_refl).
    pose proof (wait_home w0 (ri_sock i) (ri_ev i) (ri_now i)) as WH. destruct (wait_turn _ _ _) as [w1| | |er| |q pt].
    + injection E as <- <-. cbn [rp_ph rp_fs]. auto.
    + injection E as <- <-. cbn [rp_ph rp_fs]. auto.
    + injection E as <- <-. cbn [rp_ph rp_fs]. auto.
    + injection E as <- <-. cbn [rp_ph rp_fs]. destruct WH as (src & wire & EV & IP). split; [auto|]. apply Forall_app. split; [exact TA|].
      apply (to_home_sends (wc_sock wc) _ [_]). rewrite EV. exact IP.
    + injection E as <- <-. cbn [rp_ph rp_fs]. auto.
    + destruct WH as (src & wire & EV & IP). rewrite EV in E.
      destruct (receive_accepted g (agreed g wc keys q) (auth_key q) src q (rp_fs p) i) as [p1 out1] eqn:RA. injection E as <- <-.
      assert (FH : from_home i) by (exists src, wire; auto). rewrite H in RA. clear H.
      enough (X : local_inv f0 (from_home i) p1 /\ Forall to_home out1).
      { destruct X as [X1 X2]. split; [|apply Forall_app; auto]. unfold local_inv in X1. destruct (rp_ph p1); auto; tauto. }
      unfold receive_accepted in RA. destruct (create_writer f0 path) as [f1 [id|]] eqn:CW.
      2:{ injection RA as <- <-. split; [|constructor]. left. exact (create_writer_cases _ _ _ _ CW). }
      destruct (only_created _ _ _ CW) as [ON _].
      set (k := agreed g wc keys q) in *. set (s0 := mkSink id 0 _) in *.
      match type of RA with (match ?X with _ => _ end) = _ => assert (ON2 : forall f2 s1 st3, X = (f2, s1, st3) -> sk_id s1 = id /\ only_local path f0 f2 id); [|destruct X as [[f2 s1] [[st plain] stat]] eqn:EX] end.
      { intros f2 s1 st3. destruct (q_data q) as [dp|]; [|intros [= <- <- _]; auto].
        destruct (store (ru_c g) f1 s0 _ i) as [[[f3 s3] io] sh] eqn:ES. intros [= <- <- _].
        split; [rewrite (store_id _ _ _ _ _ _ _ _ _ ES); reflexivity|]. exact (only_store _ _ _ _ _ _ _ _ _ _ ES ON). }
      destruct (ON2 _ _ _ eq_refl) as [SI ON3]. clear ON2.
      assert (T1 : Forall to_home (sends (k_sock k) src plain)) by (apply to_home_sends; exact IP).
      assert (FL : local_inv f0 (from_home i) (mkRP f2 RFailed)) by (right; split; [exact FH|]; exists id; exact ON3).
      destruct stat as [|total|].
      * destruct (match op_size (k_opts k) with Some n => cl_size_ok n (k_max k) | None => true end).
        -- destruct (q_ack q && negb (ri_sock i)); injection RA as <- <-; [auto|]. split.
           ++ cbn [local_inv rp_ph rp_fs]. rewrite SI. auto.
           ++ apply Forall_app. split; [exact T1|apply to_home_sends; exact IP].
        -- injection RA as <- <-. split; [exact FL|]. apply Forall_app. split; [exact T1|apply to_home_sends; exact IP].
      * injection RA as <- <-. split; [|exact T1]. right. split; [exact FH|]. exists id. exact ON3.
      * injection RA as <- <-. auto.
  - destruct H as (H1 & H2 & H3). destruct (store _ _ _ _ _) as [[[f' s'] io] sh] eqn:ES.
    destruct (recv_step _ _ _ _ _ _ _ _ _ _ _) as [[st' plain] stat]. injection E as <- <-.
    pose proof (only_store _ _ _ _ _ _ _ _ _ _ ES H3) as H4. split; [|apply to_home_sends; exact H2]. cbn [rp_ph rp_fs].
    destruct stat; [rewrite (store_id _ _ _ _ _ _ _ _ _ ES); auto|right; split; [auto|eauto]|right; split; [auto|eauto]].
  - injection E as <- <-. rewrite EP. split; [|constructor]. destruct H as [H|[H1 H2]]; auto.
  - injection E as <- <-. rewrite EP. split; [|constructor]. destruct H as [H|[H1 H2]]; auto.
Qed.
Lemma local_weak f0 (h h' : Prop) p : (h -> h') -> local_inv f0 h p -> local_inv f0 h' p.
Proof. intros X. unfold local_inv. destruct (rp_ph p); intuition. Qed.
Lemma local_run f0 : forall l heard p, local_inv f0 heard p ->
  local_inv f0 (heard \/ exists i, In i l /\ from_home i) (receive_run g wc keys p l) /\ Forall to_home (receive_sent g wc keys p l).
Proof.
  induction l as [|i l IH]; intros heard p H; cbn [receive_run receive_sent fold_left].
  - split; [|constructor]. eapply local_weak; [|exact H]. auto.
  - destruct (receive_turn g wc keys p i) as [p' out] eqn:E. destruct (local_turn _ _ _ _ _ _ H E) as [H1 H2].
    destruct (IH _ _ H1) as [I1 I2]. cbn [fst]. split; [|apply Forall_app; auto].
    eapply local_weak; [|exact I1]. cbn beta. intros [[X|X]|(j & J1 & J2)]; [auto|right; exists i; split; [left; reflexivity|exact X]|right; exists j; split; [right; exact J1|exact J2]].
Qed.
End L.

(** ** receive *)
(** Whatever arrives and whatever goes wrong: `receive` touches no file but the one its local path leads to, which it
    creates if there is none, and leaves everything as it was until an answer from the host it was given has
    arrived; it sends packets to that host only. *)
Theorem receive_is_local : forall g wc keys f ex now l,
  let p := receive_run g wc keys (mkRP f (RAsk (wait_init wc ex now))) l in
  let home := CliModel.cl_endpoint (ru_start g) in
  (rp_fs p = f \/
   (exists i src wire, In i l /\ ri_ev i = RvFrom src wire /\ same_ip src home = true) /\
   exists id, only_local (CliModel.cl_local (ru_start g)) f (rp_fs p) id) /\
  Forall (fun x => same_ip (sn_to x) home = true) (receive_sent g wc keys (mkRP f (RAsk (wait_init wc ex now))) l).
Proof.
  intros g wc keys f ex now l. cbn zeta.
  destruct (local_run g wc keys f l False (mkRP f (RAsk (wait_init wc ex now))) eq_refl) as [H1 H2]. split; [|exact H2].
  assert (X : (False \/ exists i, In i l /\ from_home g i) -> exists i src wire, In i l /\ ri_ev i = RvFrom src wire /\ same_ip src (CliModel.cl_endpoint (ru_start g)) = true).
  { intros [[]|(i & I1 & src & wire & I2 & I3)]. exists i, src, wire. auto. }
  unfold local_inv in H1. destruct (rp_ph _); [left; exact H1| | |].
  - right. destruct H1 as (A & _ & B). split; [exact (X A)|eauto].
  - destruct H1 as [A|[A B]]; auto.
  - destruct H1 as [A|[A B]]; auto.
Qed.

(** ** send *)
Lemma send_home g wc keys f : forall l p, match p with USend _ from _ _ _ => same_ip from (CliModel.cl_endpoint (ru_start g)) = true | _ => True end ->
  Forall (to_home g) (send_sent g wc keys f p l).
Proof.
  induction l as [|i l IH]; intros p H; cbn [send_sent]; [constructor|]. destruct (send_turn g wc keys f p i) as [p' out] eqn:E.
  enough (X : Forall (to_home g) out /\ match p' with USend _ from _ _ _ => same_ip from (CliModel.cl_endpoint (ru_start g)) = true | _ => True end).
  { apply Forall_app. split; [apply X|]. apply IH. apply X. }
  unfold send_turn in E. destruct p as [src w0|k from key src st|total key|].
  - set (sock := match si_sock i with Some true => true | _ => false end) in E. set (ask := sends _ _ (when _ _)) in E.
    assert (TA : Forall (to_home g) ask) by (apply to_home_sends, same_ip_refl).
    pose proof (wait_home g wc w0 sock (si_ev i) (si_now i)) as WH. destruct (wait_turn _ _ _) as [w1| | |er| |q pt].
    1,2,3,5: injection E as <- <-; auto.
    + injection E as <- <-. destruct WH as (s & wire & EV & IP). split; [|exact I]. apply Forall_app. split; [exact TA|].
      apply (to_home_sends g (wc_sock wc) _ [_]). rewrite EV. exact IP.
    + destruct WH as (s & wire & EV & IP). rewrite EV in E. unfold send_accepted in E. destruct (q_ack q && negb sock); injection E as <- <-.
      * rewrite app_nil_r. auto.
      * split; [|exact IP]. apply Forall_app. split; [exact TA|apply to_home_sends; exact IP].
  - destruct (sender_send _ _ _ _ _ _) as [[st1 plain] stat1]. assert (TP : Forall (to_home g) (sends (k_sock k) from plain)) by (apply to_home_sends; exact H).
    destruct stat1; try (injection E as <- <-; auto). destruct (sender_recv _ _ _ _ _) as [st2 stat2]. injection E as <- <-. split; [exact TP|]. destruct stat2; auto.
  - injection E as <- <-. split; [constructor|exact I].
  - injection E as <- <-. split; [constructor|exact I].
Qed.
(** `send` sends packets to the host it was given only, and none when it cannot open its local file. *)
Theorem send_is_local : forall g f dirsize now l,
  match send_start g f dirsize now with
  | Some (wc, keys, p) => (exists src, create_reader f (CliModel.cl_local (ru_start g)) = Some src) /\
      Forall (fun x => same_ip (sn_to x) (CliModel.cl_endpoint (ru_start g)) = true) (send_sent g wc keys f p l)
  | None => True
  end.
Proof.
  intros g f dirsize now l. unfold send_start. destruct (create_reader _ _) as [src|]; [|exact I].
  destruct (run_ask _ _ _) as [[[wc keys] ex]|]; [|exact I]. split; [eauto|]. apply send_home. exact I.
Qed.

(** ** The size that receive reports, and its limit *)
Lemma recv_step_total dec o max timeout st e now io sock txt st' plain stat :
  recv_step dec o max timeout st e now io None sock txt = (st', plain, stat) ->
  match get_data dec (cr_w st) e with
  | None => stat = CFail \/ stat = CRun /\ cr_total st' = cr_total st
  | Some x => stat = CFail \/ io = false /\ cr_total st' = cr_total st + blen x /\ cr_total st' <= max /\ (stat = CRun \/ stat = CDone (cr_total st'))
  end.
Proof.
  intros H. unfold recv_step in H. destruct e as [fp wire| |]; cbn [get_data].
  2:{ injection H as <- _ <-. destruct (_ <? _); auto. }
  2:{ injection H as <- _ <-. auto. }
  destruct (dec wire) as [p|]; [|injection H as <- _ <-; destruct fp; auto].
  destruct fp; cbn [negb] in H; [|injection H as <- _ <-; auto].
  unfold for_file. destruct (from_bytes p) as [pk| |]; [|injection H as <- _ <-; auto..].
  destruct pk; try (injection H as <- _ <-; auto; fail).
  unfold cl_write_block in H. destruct (write_block (cr_w st) block data io None) as [w1 res] eqn:EW.
  pose proof (write_block_cases _ _ _ _ _ _ EW) as WC. destruct (snd (write_block (cr_w st) block data false None)) as [ok|er|].
  - destruct io.
    + destruct WC as (-> & O & N'). injection H as <- _ <-. auto.
    + destruct WC as (-> & O & N'). unfold cl_size_ok in H. rewrite Bool.negb_involutive in H.
      destruct (N.ltb_spec max (cr_total st + blen data)); [injection H as <- _ <-; auto|].
      destruct (_ && negb sock); [injection H as <- _ <-; auto|]. injection H as <- _ <-. cbn [cr_total]. right.
      split; [reflexivity|]. split; [reflexivity|]. split; [assumption|]. destruct (_ <? _); auto.
  - destruct WC as (O & N' & cur & i & [-> | ->]); (destruct (_ && negb sock); injection H as <- _ <-; cbn [cr_total]; auto).
  - destruct WC as (O & N' & cur & i & [-> | ->]); (destruct (_ && negb sock); injection H as <- _ <-; cbn [cr_total]; auto).
Qed.
Lemma data_within p b d : from_bytes p = Ok (PData b d) -> blen d <= blen p.
Proof.
  unfold from_bytes. destruct (try_from p) as [op| |]; try discriminate.
  cbn zeta. destruct op as [|op]; [discriminate|]. destruct op as [[[]|[]|]|[[]|[]|]|]; try discriminate; unfold pmap, ack_from_bytes, error_from_bytes;
    try (repeat match goal with |- context [match ?x with _ => _ end] => destruct x end; discriminate).
  unfold data_from_bytes. destruct (try_from _); try discriminate. intros [= _ <-]. rewrite !blen_dropN. lia.
Qed.
Lemma store_plain c f s d i f' s' io sh : sk_stream s = None -> sk_pos s = blen (f_data f (sk_id s)) -> ri_short i = None ->
  store c f s d i = (f', s', io, sh) -> sh = None /\ (io = false -> sk_stream s' = None /\
  sk_pos s' = sk_pos s + match d with Some x => blen x | None => 0 end /\ f_data f' (sk_id s) = f_data f (sk_id s) ++ match d with Some x => x | None => [] end) /\
  (d = None -> f' = f /\ s' = s).
Proof.
  intros SS SP SH. unfold store. destruct d as [d|].
  2:{ intros [= <- <- <- <-]. rewrite app_nil_r, N.add_0_r. auto. }
  unfold sink_write. rewrite SS, SH. destruct (ri_io i).
  - intros [= <- <- <- <-]. split; [reflexivity|]. split; discriminate.
  - rewrite N.eqb_refl. intros [= <- <- <- <-]. split; [reflexivity|]. split; [|discriminate]. intros _. cbn [sk_stream sk_pos sk_id].
    split; [reflexivity|]. split; [reflexivity|]. rewrite data_set, N.eqb_refl, SP. apply write_at_end.
Qed.
Definition sized (path : bytes) (max : N) (p : rprog) : Prop :=
  match rp_ph p with
  | RAsk _ => True
  | RGet k _ _ s st => k_max k = max /\ local_file (rp_fs p) path = Some (sk_id s) /\ sk_stream s = None /\
      sk_pos s = blen (f_data (rp_fs p) (sk_id s)) /\ cr_total st = blen (f_data (rp_fs p) (sk_id s)) /\ cr_total st <= max
  | _ => True
  end.
Definition sized_end (path : bytes) (max : N) (p : rprog) : Prop :=
  match rp_ph p with
  | RAsk _ => False
  | RDone total _ => exists id, local_file (rp_fs p) path = Some id /\ total = blen (f_data (rp_fs p) id) /\ total <= max
  | RGet k _ _ s st => sized path max p
  | RFailed => True
  end.
Lemma sized_get g wc keys p i : rp_ph p <> RFailed -> (forall w0, rp_ph p <> RAsk w0) -> ri_short i = None ->
  let path := CliModel.cl_local (ru_start g) in let max := CliModel.cl_max_size (ru_start g) in
  sized_end path max p -> sized_end path max (fst (receive_turn g wc keys p i)).
Proof.
  intros NF NA SH path max H. unfold sized_end in *. unfold receive_turn. destruct (rp_ph p) as [w0|k from key s st|total key|] eqn:EP; [destruct (NA _ eq_refl)| | |congruence].
  2:{ cbn [fst]. rewrite EP. exact H. }
  unfold sized in H. rewrite EP in H. destruct H as (K & L & SS & SP & CT & CM).
  destruct (store _ _ _ _ _) as [[[f' s'] io] sh] eqn:ES. destruct (store_plain _ _ _ _ _ _ _ _ _ SS SP SH ES) as (-> & S1 & S2).
  destruct (recv_step _ _ _ _ _ _ _ _ _ _ _) as [[st' plain] stat] eqn:ER. pose proof (recv_step_total _ _ _ _ _ _ _ _ _ _ _ _ _ ER) as T.
  pose proof (local_store _ _ _ _ _ _ _ _ _ path ES) as LS. pose proof (store_id _ _ _ _ _ _ _ _ _ ES) as SI. cbn [fst rp_ph rp_fs].
  destruct (get_data _ _ _) as [x|].
  - destruct T as [->|(-> & T1 & T2 & T3)]; [exact I|]. destruct (S1 eq_refl) as (A & B & C). rewrite K in T2.
    assert (BL : blen (f_data f' (sk_id s)) = cr_total st') by (rewrite C, blen_app, T1, CT; reflexivity).
    destruct T3 as [->| ->].
    + unfold sized. cbn [rp_ph rp_fs]. rewrite LS, SI, BL. repeat split; try assumption. rewrite B, SP, T1, CT. reflexivity.
    + exists (sk_id s). rewrite LS, BL. auto.
  - destruct T as [->|(-> & T1)]; [exact I|]. destruct (S2 eq_refl) as [-> ->]. unfold sized. cbn [rp_ph rp_fs]. rewrite T1. repeat split; assumption.
Qed.
Lemma sized_accept g wc keys w0 f i : ri_short i = None -> CliModel.cl_file_key (ru_start g) = None ->
  sized (CliModel.cl_local (ru_start g)) (CliModel.cl_max_size (ru_start g)) (fst (receive_turn g wc keys (mkRP f (RAsk w0)) i)).
Proof.
  intros SH FK. unfold receive_turn. cbn [rp_ph rp_fs]. destruct (wait_turn _ _ _) as [w1| | |er| |q pt]; try exact I.
  destruct (ri_ev i) as [src wire| |]; try exact I. destruct (receive_accepted _ _ _ _ _ _ _) as [p' out] eqn:RA. cbn [fst].
  unfold receive_accepted in RA. destruct (create_writer _ _) as [f1 [id|]] eqn:CW; [|injection RA as <- _; exact I].
  destruct (create_writer_cases _ _ _ _ CW) as (L & D & _). rewrite FK in RA. cbn [option_map] in RA.
  destruct (q_data q) as [dp|].
  2:{ destruct (match op_size _ with Some n => _ | None => true end); [|injection RA as <- _; exact I]. destruct (q_ack q && _); injection RA as <- _; [exact I|].
      unfold sized. cbn. rewrite D. repeat split; [exact L|lia]. }
  destruct (store _ _ _ _ _) as [[[f2 s1] io] sh] eqn:ES. destruct (store_plain (ru_c g) f1 (mkSink id 0 None) _ i f2 s1 io sh eq_refl ltac:(cbn; rewrite D; reflexivity) SH ES) as (-> & S1 & S2).
  pose proof (local_store _ _ _ _ _ _ _ _ _ (CliModel.cl_local (ru_start g)) ES) as LS. pose proof (store_id _ _ _ _ _ _ _ _ _ ES) as SI. cbn [sk_id sk_pos] in *. rewrite D in S1.
  destruct (recv_first _ _ _ _ _ _ _ _) as [[st plain] stat] eqn:RF. destruct stat; try (injection RA as <- _; exact I).
  destruct (match op_size _ with Some n => _ | None => true end); [|injection RA as <- _; exact I]. destruct (q_ack q && _); injection RA as <- _; [exact I|].
  unfold sized. cbn [rp_ph rp_fs cr_total k_max agreed]. rewrite SI, LS.
  enough (X : sk_stream s1 = None /\ sk_pos s1 = blen (f_data f2 id) /\ cr_total st = blen (f_data f2 id) /\ cr_total st <= CliModel.cl_max_size (ru_start g)).
  { destruct X as (X1 & X2 & X3 & X4). repeat split; assumption. }
  unfold recv_first in RF. unfold for_file in S1, S2. destruct (from_bytes dp) as [[]| |] eqn:FB.
  all: try (injection RF as <- _; destruct S2 as [-> ->]; [destruct (cl_size_ok _ _); reflexivity|]; cbn; rewrite D; repeat split; lia).
  cbn [k_max agreed] in *. destruct (cl_size_ok (blen dp) (CliModel.cl_max_size (ru_start g))) eqn:CS; cbn [negb] in RF; [|discriminate].
  assert (BD : blen data <= CliModel.cl_max_size (ru_start g)).
  { unfold cl_size_ok in CS. apply Bool.negb_true_iff, N.ltb_ge in CS. pose proof (data_within _ _ _ FB). lia. }
  unfold cl_write_block in RF. cbn [cr_w crecv_new] in RF. destruct (write_block writer_new block data io None) as [w1 res] eqn:EW.
  pose proof (write_block_cases _ _ _ _ _ _ EW) as WC. destruct (snd (write_block writer_new block data false None)) as [ok|er|].
  - destruct io; destruct WC as (-> & _); [discriminate|]. destruct (S1 eq_refl) as (A & B & C). cbn [cr_total crecv_new] in RF.
    destruct (_ && negb _); [discriminate|]. injection RF as <- _ _. cbn [cr_total]. rewrite C. cbn [app]. repeat split; [exact A|lia..].
  - destruct (S2 eq_refl) as [-> ->]. cbn. rewrite D. destruct WC as (_ & _ & cur & j & [-> | ->]); (destruct (_ && negb _); [discriminate|injection RF as <- _ _; cbn; repeat split; lia]).
  - destruct (S2 eq_refl) as [-> ->]. cbn. rewrite D. destruct WC as (_ & _ & cur & j & [-> | ->]); (destruct (_ && negb _); [discriminate|injection RF as <- _ _; cbn; repeat split; lia]).
Qed.

(** Without encryption of the local file and without partial writes, once the server's answer has been accepted:
    the local file never gets larger than the limit the user has set, as long as the command goes on, and a command
    that ends successfully reports the size of the local file.
    (A server's answer may already be the whole file, see C25 and C27: what is reported then is 4 too
    much, or the size of data that were not stored; that case has no RGet.) *)
Theorem receive_reports_size : forall g wc keys f ex now l1 l2 k from key s st,
  CliModel.cl_file_key (ru_start g) = None -> Forall (fun i => ri_short i = None) (l1 ++ l2) ->
  let p1 := receive_run g wc keys (mkRP f (RAsk (wait_init wc ex now))) l1 in
  let p2 := receive_run g wc keys p1 l2 in
  let path := CliModel.cl_local (ru_start g) in let max := CliModel.cl_max_size (ru_start g) in
  rp_ph p1 = RGet k from key s st ->
  match rp_ph p2 with
  | RAsk _ => False
  | RGet _ _ _ _ _ => exists id, local_file (rp_fs p2) path = Some id /\ blen (f_data (rp_fs p2) id) <= max
  | RDone total _ => exists id, local_file (rp_fs p2) path = Some id /\ total = blen (f_data (rp_fs p2) id) /\ total <= max
  | RFailed => True
  end.
Proof.
  intros g wc keys f ex now l1 l2 k from key s st FK SH p1 p2 path max E1. apply Forall_app in SH as [SH1 SH2].
  assert (A : forall l p, Forall (fun i => ri_short i = None) l -> sized_end path max p -> sized_end path max (receive_run g wc keys p l)).
  { induction l as [|i l IH]; intros p HF H; [exact H|]. inversion HF; subst. cbn [receive_run fold_left]. apply IH; [assumption|].
    destruct (rp_ph p) as [w0| | |] eqn:EP.
    - unfold sized_end in H. rewrite EP in H. destruct H.
    - apply sized_get; try assumption; rewrite EP; [discriminate|intros; discriminate].
    - apply sized_get; try assumption; rewrite EP; [discriminate|intros; discriminate].
    - unfold receive_turn. rewrite EP. exact H. }
  assert (B : forall l p, Forall (fun i => ri_short i = None) l -> (exists w0, rp_ph p = RAsk w0) -> forall k from key s st,
     rp_ph (receive_run g wc keys p l) = RGet k from key s st -> sized_end path max (receive_run g wc keys p l)).
  { induction l as [|i l IH]; intros p HF [w0 H] k1 from1 key1 s1 st1 E; [cbn in E; congruence|]. inversion HF as [|? ? F1 F2]; subst. cbn [receive_run fold_left] in *.
    pose proof (sized_accept g wc keys w0 (rp_fs p) i F1 FK) as X. destruct p as [fs0 ph]. cbn [rp_ph rp_fs] in *. subst ph.
    fold (receive_run g wc keys (fst (receive_turn g wc keys (mkRP fs0 (RAsk w0)) i)) l) in *.
    set (p' := fst (receive_turn g wc keys (mkRP fs0 (RAsk w0)) i)) in *.
    destruct (rp_ph p') as [w1|k2 from2 key2 s2 st2|total2 key2|] eqn:EP.
    - eapply IH; eauto.
    - apply A; [exact F2|]. unfold sized_end. rewrite EP. exact X.
    - exfalso. enough (Y : forall l, rp_ph (receive_run g wc keys p' l) = RDone total2 key2) by (rewrite Y in E; discriminate).
      clear -EP. intros l. generalize p' EP. clear. induction l as [|j l IH]; intros p EP; [exact EP|]. cbn [receive_run fold_left]. apply IH. unfold receive_turn. rewrite EP. exact EP.
    - exfalso. enough (Y : forall l, rp_ph (receive_run g wc keys p' l) = RFailed) by (rewrite Y in E; discriminate).
      clear -EP. intros l. generalize p' EP. clear. induction l as [|j l IH]; intros p EP; [exact EP|]. cbn [receive_run fold_left]. apply IH. unfold receive_turn. rewrite EP. exact EP. }
  assert (C : sized_end path max p1) by (eapply (B l1 (mkRP f (RAsk (wait_init wc ex now)))); [exact SH1|cbn; eauto|exact E1]).
  pose proof (A l2 p1 SH2 C) as H. fold p2 in H. unfold sized_end, sized in H.
  destruct (rp_ph p2) eqn:EP; auto. destruct H as (_ & H1 & _ & _ & H2 & H3). exists (sk_id s0). split; [exact H1|]. lia.
Qed.

(** The local file is opened, and thereby emptied, before the size that the server has announced is compared with
    the limit: a command that fails for that reason has destroyed what was there. *)
Theorem oversized_answer_empties_local_file : forall g wc keys ex f w0 i src w n lid f1,
  wc_crypto wc = ru_c g -> wc_write wc = false -> wc_txt wc = ru_txt g ->
  ws_initial w0 = true -> ws_used w0 = ex -> ws_cap w0 = wc_buf wc ->
  ri_sock i = true -> ri_ev i = RvFrom src w -> same_ip src (CliModel.cl_endpoint (ru_start g)) = true ->
  (exists p q, client_recv (ru_c g) (wc_sock wc) (takeN (wc_buf wc) w) = Ok p /\ query_step (ru_c g) (wc_cfg wc) false true (wc_opts wc) ex (same_addr src (CliModel.cl_endpoint (ru_start g))) (ru_txt g) p = QDone q /\ q_ack q = true /\ op_size (q_opts q) = Some n) ->
  CliModel.cl_max_size (ru_start g) < n ->
  create_writer f (CliModel.cl_local (ru_start g)) = (f1, Some lid) -> local_file f (CliModel.cl_local (ru_start g)) = Some lid ->
  let p' := fst (receive_turn g wc keys (mkRP f (RAsk w0)) i) in
  rp_ph p' = RFailed /\ local_file (rp_fs p') (CliModel.cl_local (ru_start g)) = Some lid /\ f_data (rp_fs p') lid = [].
Proof.
  intros g wc keys ex f w0 i src w n lid f1 W1 W2 W3 I1 I2 I3 SK EV IP (p & q & CR & QS & QA & QN) MX CW LF. cbn zeta.
  destruct (create_writer_cases _ _ _ _ CW) as (L & D & _).
  assert (WT : exists pt, wait_turn wc w0 (mkWI (ri_sock i) (wait_ev g (ri_ev i)) (ri_now i)) = WoDone q pt).
  { unfold wait_turn. cbn [wi_sock wi_ev wi_now]. rewrite SK, EV. cbn [negb wait_ev]. rewrite I3, W1, CR, IP, W2, W3, I1, I2, QS. eauto. }
  destruct WT as [pt WT]. unfold receive_turn. cbn [rp_ph rp_fs]. rewrite WT, EV. unfold receive_accepted. rewrite CW, (query_ack_data _ _ _ _ _ _ _ _ _ _ QS (or_introl QA)).
  cbn [agreed k_opts k_max]. rewrite QN. unfold cl_size_ok. replace (CliModel.cl_max_size (ru_start g) <? n) with true by (symmetry; apply N.ltb_lt; exact MX).
  cbn [negb fst rp_ph rp_fs]. auto.
Qed.
