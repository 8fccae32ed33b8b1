(** Concrete attacked transfers for C75: full encryption, a server with another client. *)
From Verif Require Import Base BaseProofs PacketModel PacketSpec MapperModel ReaderModel ReaderSpec ConfigModel Base64Model CryptoModel CryptoSpec CryptoProofs ExtModel ExtSpec
  PathModel ConnModel ClientModel ConnSpec HandshakeModel PropCrypto PropExt PropHandshake AgreeProofs PropAgree SystemModel
  ServerModel ServerSpec ServerProofs PropServer WorldModel WorldProofs WorldB PropWorld WorldCases AttackModel.

(** Executable attacks: everything WorldCases does, and bytes that do not open ([..Garbage]) or the
    victim's own packet number [j] ([..Reflect]). *)
Section Run.
Context {S E : Type} (step : S -> took -> S -> outs -> Prop) (view : S -> addr -> option entry)
  (cut : entry -> bytes -> bytes) (exec : S -> E -> option (took * S * outs)).
Hypothesis exec_ok : forall s x t s' o, exec s x = Some (t, s', o) -> step s t s' o.
Variables (c : crypto) (a : addr) (k : cside).
Notation cdec := (client_dec c (k_sock k) (op_bs (k_opts k))).
Inductive aev :=
| AHonest (x : @wev E) | AGarbageC (y : bytes) (v : env) | AReflectC (j : nat) (v : env)
| AGarbageS (x : bytes -> E) (y : bytes) | AReflectS (x : bytes -> E) (j : nat).

(** What an origin other than a replay needs: [y] does not open, or opens as one of [mine] does. *)
Definition dead_b (dec : bytes -> option bytes) (y : bytes) : bool := match dec y with None => true | Some _ => false end.
Definition opens_b (dec : bytes -> option bytes) (y : bytes) : bool := match dec y with None => false | Some _ => true end.
Lemma dead_origin dec n seen mine theirs y : dead_b dec y = true -> origin dec n seen mine theirs y seen.
Proof. unfold dead_b. destruct (dec y) eqn:D; [discriminate|]. intros _. apply or_garbage. exact D. Qed.
Lemma refl_origin dec n seen mine theirs j (x : dgram) : nth_error mine j = Some x -> opens_b dec (fst x) = true -> origin dec n seen mine theirs (fst x) seen.
Proof. unfold opens_b. intros N. destruct (dec (fst x)) as [p|] eqn:D; [|discriminate]. intros _. eapply or_reflected; [eapply nth_error_In; exact N|exact D|exact D]. Qed.

Definition da_c (W : @dworld S) (y : bytes) (v : env) : option (@dworld S) :=
  match dw_stat W, e_short v with
  | CRun, None =>
      let '(cl', plain, stat') := recv_step cdec (k_opts k) (k_max k) (k_timeout k) (dw_cl W) (EvDatagram true y)
        (e_now v) (e_io v) (e_short v) (e_sock v) (e_txt v) in
      match sealed_all (seal_client c (k_sock k) (w_written (cr_w cl'))) plain with
      | Some new => Some (mkDW (dw_srv W) (dw_over W) cl' stat' (dw_down W) (new ++ dw_up W) (dw_sc W) (dw_ss W))
      | None => None
      end
  | _, _ => None
  end.
Definition own_y (t : took) (y : bytes) : bool := own_b a t (y, None).
Definition da_s (W : @dworld S) (x : E) (y : bytes) (mine : list dgram) (ok : (bytes -> option bytes) -> bool) : option (@dworld S) :=
  if dw_over W then None else
  match view (dw_srv W) a, srv_do view exec c a (dw_srv W) x with
  | Some e, Some (t, s', new) =>
      if own_y t y && ok (fun y => entry_dec c e (cut e y))
      then Some (mkDW s' (ended (view s' a)) (dw_cl W) (dw_stat W) (new ++ dw_down W) (dw_up W) (dw_sc W) (dw_ss W)) else None
  | _, _ => None
  end.
Definition da_do (n : N) (W : @dworld S) (x : aev) : option (@dworld S) :=
  match x with
  | AHonest x => dw_do view exec c a k n W x
  | AGarbageC y v => if dead_b cdec y then da_c W y v else None
  | AReflectC j v => match nth_error (dw_up W) j with Some y => if opens_b cdec (fst y) then da_c W (fst y) v else None | None => None end
  | AGarbageS x y => da_s W (x y) y (dw_down W) (fun dec => dead_b dec y)
  | AReflectS x j => match nth_error (dw_down W) j with Some y => da_s W (x (fst y)) (fst y) (dw_down W) (fun dec => opens_b dec (fst y)) | None => None end
  end.
Lemma da_c_step n W y v W' : (forall seen mine, mine = dw_up W -> origin cdec n seen mine (dw_down W) y seen) -> da_c W y v = Some W' -> dastep step view cut c a k n W W'.
Proof.
  destruct W as [s over cl stat down up sc ss]. unfold da_c. cbn [dw_srv dw_over dw_cl dw_stat dw_down dw_up dw_sc dw_ss]. intros O.
  destruct stat; try discriminate. destruct (e_short v) eqn:SH; [discriminate|].
  destruct (recv_step _ _ _ _ _ _ _ _ _ _ _) as [[cl' plain] stat'] eqn:RS. destruct (sealed_all _ _) as [new|] eqn:SL; [|discriminate]. intros [= <-].
  eapply da_client with (y := y) (v := v); [apply O; reflexivity|exact SH| |apply seal_client_ok; exact SL]. rewrite SH. exact RS.
Qed.
Lemma da_s_step n W x y ok W' : (forall dec seen theirs, ok dec = true -> origin dec n seen (dw_down W) theirs y seen) ->
  da_s W x y (dw_down W) ok = Some W' -> dastep step view cut c a k n W W'.
Proof.
  destruct W as [s over cl stat down up sc ss]. unfold da_s. cbn [dw_srv dw_over dw_cl dw_stat dw_down dw_up dw_sc dw_ss]. intros O.
  destruct over; [discriminate|]. destruct (view s a) as [e|] eqn:V; [|discriminate].
  destruct (srv_do _ _ _ _ _ _) as [[[t s'] new]|] eqn:D; [|discriminate]. destruct (own_y t y && _)%bool eqn:CK; [|discriminate]. intros [= <-].
  apply Bool.andb_true_iff in CK as [OB OK]. destruct (own_check _ _ _ OB) as (v & -> & _). cbn [fst] in D.
  destruct (srv_do_ok _ _ _ exec_ok _ _ _ _ _ _ _ D) as (e' & o & V' & ST & SL). assert (e' = e) by congruence. subst e'.
  eapply da_server; [exact ST|exact V|apply O; exact OK|exact SL].
Qed.
Lemma da_do_step n W x W' : da_do n W x = Some W' -> dastep step view cut c a k n W W'.
Proof.
  destruct x as [x|y v|j v|x y|x j]; cbn [da_do].
  - intros H. apply da_honest. eapply dw_do_step; [exact exec_ok|exact H].
  - destruct (dead_b cdec y) eqn:D; [|discriminate]. apply da_c_step. intros seen mine _. apply dead_origin. exact D.
  - destruct (nth_error (dw_up W) j) as [y|] eqn:NT; [|discriminate]. destruct (opens_b cdec (fst y)) eqn:D; [|discriminate].
    apply da_c_step. intros seen mine ->. eapply refl_origin; eassumption.
  - apply da_s_step. intros dec seen theirs. apply dead_origin.
  - destruct (nth_error (dw_down W) j) as [y|] eqn:NT; [|discriminate]. apply da_s_step. intros dec seen theirs. apply refl_origin with (j := j). exact NT.
Qed.
Fixpoint da_run (n : N) (W : @dworld S) (l : list aev) : option (@dworld S) :=
  match l with [] => Some W | x :: l' => match da_do n W x with Some W' => da_run n W' l' | None => None end end.
Lemma da_run_reach n W0 W l W' : dareach step view cut c a k n W0 W -> da_run n W l = Some W' -> dareach step view cut c a k n W0 W'.
Proof.
  revert W. induction l as [|x l IH]; cbn [da_run]; intros W R H; [injection H as <-; exact R|].
  destruct (da_do n W x) as [W1|] eqn:E1; [|discriminate]. eapply IH; [|exact H]. eapply dar_step; [exact R|eapply da_do_step; exact E1].
Qed.

Definition ua_c (W : @uworld S) (y : bytes) (v : env) : option (@uworld S) :=
  match uw_stat W with
  | CRun =>
      let '(cl', stat') := sender_recv cdec (k_timeout k) (uw_cl W) (EvDatagram true y) (e_now v) in
      Some (mkUW (uw_srv W) (uw_over W) (uw_kept W) cl' stat' (uw_down W) (uw_up W) (uw_sc W) (uw_ss W))
  | _ => None
  end.
Definition ua_s (W : @uworld S) (x : E) (y : bytes) (ok : (bytes -> option bytes) -> bool) : option (@uworld S) :=
  if uw_over W then None else
  match view (uw_srv W) a, srv_do view exec c a (uw_srv W) x with
  | Some e, Some (t, s', new) =>
      if own_y t y && ok (fun y => entry_dec c e (cut e y))
      then Some (mkUW s' (ended (view s' a)) (keep (uw_kept W) (view s' a)) (uw_cl W) (uw_stat W) (new ++ uw_down W) (uw_up W) (uw_sc W) (uw_ss W)) else None
  | _, _ => None
  end.
Definition ua_do (file : bytes) (n : N) (W : @uworld S) (x : aev) : option (@uworld S) :=
  match x with
  | AHonest x => uw_do view exec c a k file n W x
  | AGarbageC y v => if dead_b cdec y then ua_c W y v else None
  | AReflectC j v => match nth_error (uw_up W) j with Some y => if opens_b cdec (fst y) then ua_c W (fst y) v else None | None => None end
  | AGarbageS x y => ua_s W (x y) y (fun dec => dead_b dec y)
  | AReflectS x j => match nth_error (uw_down W) j with Some y => ua_s W (x (fst y)) (fst y) (fun dec => opens_b dec (fst y)) | None => None end
  end.
Lemma ua_c_step file n W y v W' : (forall seen, origin cdec n seen (uw_up W) (uw_down W) y seen) -> ua_c W y v = Some W' -> uastep step view cut c a k file n W W'.
Proof.
  destruct W as [s over kept cl stat down up sc ss]. unfold ua_c. cbn [uw_srv uw_over uw_kept uw_cl uw_stat uw_down uw_up uw_sc uw_ss]. intros O.
  destruct stat; try discriminate. destruct (sender_recv _ _ _ _ _) as [cl' stat'] eqn:RS. intros [= <-].
  eapply ua_client with (y := y) (now := e_now v); [apply O|exact RS].
Qed.
Lemma ua_s_step file n W x y ok W' : (forall dec seen theirs, ok dec = true -> origin dec n seen (uw_down W) theirs y seen) ->
  ua_s W x y ok = Some W' -> uastep step view cut c a k file n W W'.
Proof.
  destruct W as [s over kept cl stat down up sc ss]. unfold ua_s. cbn [uw_srv uw_over uw_kept uw_cl uw_stat uw_down uw_up uw_sc uw_ss]. intros O.
  destruct over; [discriminate|]. destruct (view s a) as [e|] eqn:V; [|discriminate].
  destruct (srv_do _ _ _ _ _ _) as [[[t s'] new]|] eqn:D; [|discriminate]. destruct (own_y t y && _)%bool eqn:CK; [|discriminate]. intros [= <-].
  apply Bool.andb_true_iff in CK as [OB OK]. destruct (own_check _ _ _ OB) as (v & -> & SH). cbn [fst] in D.
  destruct (srv_do_ok _ _ _ exec_ok _ _ _ _ _ _ _ D) as (e' & o & V' & ST & SL). assert (e' = e) by congruence. subst e'.
  eapply ua_server; [exact ST|exact SH|exact V|apply O; exact OK|exact SL].
Qed.
Lemma ua_do_step file n W x W' : ua_do file n W x = Some W' -> uastep step view cut c a k file n W W'.
Proof.
  destruct x as [x|y v|j v|x y|x j]; cbn [ua_do].
  - intros H. apply ua_honest. eapply uw_do_step; [exact exec_ok|exact H].
  - destruct (dead_b cdec y) eqn:D; [|discriminate]. apply ua_c_step. intros seen. apply dead_origin. exact D.
  - destruct (nth_error (uw_up W) j) as [y|] eqn:NT; [|discriminate]. destruct (opens_b cdec (fst y)) eqn:D; [|discriminate].
    apply ua_c_step. intros seen. eapply refl_origin; eassumption.
  - apply ua_s_step. intros dec seen theirs. apply dead_origin.
  - destruct (nth_error (uw_down W) j) as [y|] eqn:NT; [|discriminate]. apply ua_s_step. intros dec seen theirs. apply refl_origin with (j := j). exact NT.
Qed.
Fixpoint ua_run (file : bytes) (n : N) (W : @uworld S) (l : list aev) : option (@uworld S) :=
  match l with [] => Some W | x :: l' => match ua_do file n W x with Some W' => ua_run file n W' l' | None => None end end.
Lemma ua_run_reach file n W0 W l W' : uareach step view cut c a k file n W0 W -> ua_run file n W l = Some W' -> uareach step view cut c a k file n W0 W'.
Proof.
  revert W. induction l as [|x l IH]; cbn [ua_run]; intros W R H; [injection H as <-; exact R|].
  destruct (ua_do file n W x) as [W1|] eqn:E1; [|discriminate]. eapply IH; [|exact H]. eapply uar_step; [exact R|eapply ua_do_step; exact E1].
Qed.
End Run.

(** Leftovers that are harmless on both sides. *)
Definition kind_b (dec : bytes -> option bytes) (d : dgram) : bool :=
  match snd d with Some _ => false | None =>
  match dec (fst d) with Some p => match from_bytes p with Ok (PData _ _) | Ok (PAck _) => false | _ => true end | None => true end end.
Lemma kind_ok dec d : kind_b dec d = true -> stale_for_receiver dec d /\ stale_for_sender dec d /\ no_data dec d /\ no_ack dec d.
Proof.
  unfold kind_b, stale_for_receiver, stale_for_sender, no_data, no_ack. destruct (snd d); [discriminate|].
  intros H. assert (X : match dec (fst d) with Some p => (forall b q, from_bytes p <> Ok (PData b q)) /\ (forall b, from_bytes p <> Ok (PAck b)) | None => True end).
  { destruct (dec (fst d)) as [p|]; [|exact Logic.I]. destruct (from_bytes p) as [[]| |]; try discriminate H; split; intros; discriminate. }
  destruct (dec (fst d)) as [p|]; [|split; [auto|]; split; [auto|]; split; intros; discriminate]. destruct X as [X1 X2].
  split; [split; [reflexivity|]; destruct (from_bytes p) as [[]| |]; try exact Logic.I; eapply X1; reflexivity|].
  split; [left; split; [reflexivity|]; destruct (from_bytes p) as [[]| |]; try exact Logic.I; eapply X2; reflexivity|].
  split; [intros p' b q [= <-]; apply X1|intros p' b [= <-]; apply X2].
Qed.

Definition dead : bytes := repeat 9 60.
Definition at_W0 : @dworld sstate := mkDW wc_s1 false (crecv_new 0) CRun [(wc_w, None)] [(wc_d, None)] 0 0.
Definition at_idle (now : N) : @aev sev := AHonest (WDo (SRecv (wc_in now wc_quiet MWouldBlock))).
Definition at_evs : list aev :=
  [AHonest (WDo (SSend (wc_in 11 wc_quiet MWouldBlock))); AGarbageS (wc_ack 11) dead; at_idle 11; AHonest (WDo (SSend (wc_in 12 wc_quiet MWouldBlock)));
   AHonest (WClient 0 (wc_e 20)); AReflectC 0 (wc_e 21); AReflectS (wc_ack 21) 0; at_idle 22;
   AHonest (WClient 1 (wc_e 22)); AReflectC 0 (wc_e 23)].
Definition at_done : list aev := at_evs ++ [AHonest (WClient 0 (wc_e 24)); AHonest (WServer (wc_ack 30) 0)].
Definition at_fail : list aev := at_evs ++ [AGarbageC dead (wc_e 24)].
Lemma da_shown {S E B : Type} (step : S -> took -> S -> outs -> Prop) view cut (exec : S -> E -> option (took * S * outs)) c a k n W0 l (f : @dworld S -> B) x :
  (forall s x t s' o, exec s x = Some (t, s', o) -> step s t s' o) ->
  option_map f (da_run view cut exec c a k n W0 l) = Some x -> exists W, dareach step view cut c a k n W0 W /\ f W = x.
Proof.
  intros HX. destruct (da_run _ _ _ _ _ _ _ _ _) as [W|] eqn:R; [|discriminate]. intros [= <-]. exists W. split; [|reflexivity].
  eapply da_run_reach; [exact HX|apply dar_init|exact R].
Qed.
Lemma ua_shown {S E B : Type} (step : S -> took -> S -> outs -> Prop) view cut (exec : S -> E -> option (took * S * outs)) c a k file n W0 l (f : @uworld S -> B) x :
  (forall s x t s' o, exec s x = Some (t, s', o) -> step s t s' o) ->
  option_map f (ua_run view cut exec c a k file n W0 l) = Some x -> exists W, uareach step view cut c a k file n W0 W /\ f W = x.
Proof.
  intros HX. destruct (ua_run _ _ _ _ _ _ _ _ _ _) as [W|] eqn:R; [|discriminate]. intros [= <-]. exists W. split; [|reflexivity].
  eapply ua_run_reach; [exact HX|apply uar_init|exact R].
Qed.
Lemma kinds_ok dec l : forallb (kind_b dec) l = true ->
  Forall (stale_for_receiver dec) l /\ Forall (stale_for_sender dec) l /\ Forall (no_data dec) l /\ Forall (no_ack dec) l.
Proof.
  intros H. rewrite forallb_forall in H. repeat split; apply Forall_forall; intros d D; apply kind_ok; apply H; exact D.
Qed.

(** Garbage to the server, the client's own acknowledgement back to the client, the server's own data
    back to the server, the blocks out of order: the whole file arrives (the hypotheses about how this
    world came about are busy_download_case of WorldCases.v).  Garbage to the client ends its run, and
    it has not claimed success. *)
Definition at_obs {S} (W : @dworld S) := (dw_stat W, w_out (cr_w (dw_cl W)), dw_over W).
Example attacked_download_case :
  sealed_packets (k_opts wc_k) /\
  (let cdec := client_dec toy (k_sock wc_k) (op_bs (k_opts wc_k)) in
   Forall (stale_for_receiver cdec) [(wc_w, None)] /\ Forall (no_data cdec) [(wc_d, None)] /\
   exists e, sview wc_s1 10 = Some e /\
     let sdec := fun y => entry_dec toy e (recv_cut wc_g y) in
     Forall (stale_for_sender sdec) [(wc_d, None)] /\ Forall (no_ack sdec) [(wc_w, None)]) /\
  (exists W, dareach (sphase toy wc_g) sview (fun _ => recv_cut wc_g) toy 10 wc_k wc_n at_W0 W /\ at_obs W = (CDone 1500, wc_file, false)) /\
  (exists W, dareach (sphase toy wc_g) sview (fun _ => recv_cut wc_g) toy 10 wc_k wc_n at_W0 W /\ at_obs W = (CFail, takeN 959 wc_file, false)).
Proof.
  split; [right; vm_compute; reflexivity|]. split; [|split].
  - cbv zeta. split; [apply kinds_ok; vm_compute; reflexivity|]. split; [apply kinds_ok; vm_compute; reflexivity|].
    destruct (sview wc_s1 10) as [e|] eqn:V; [|vm_compute in V; discriminate V]. exists e. split; [reflexivity|].
    assert (X : match sview wc_s1 10 with Some e => forallb (kind_b (fun y => entry_dec toy e (recv_cut wc_g y))) [(wc_d, None)] &&
      forallb (kind_b (fun y => entry_dec toy e (recv_cut wc_g y))) [(wc_w, None)] | None => false end = true) by (vm_compute; reflexivity).
    rewrite V in X. apply Bool.andb_true_iff in X as [X1 X2]. split; apply kinds_ok; assumption.
  - apply (da_shown _ sview (fun _ => recv_cut wc_g) (sexec toy wc_g) _ _ _ _ _ at_done _ _ (sexec_ok toy wc_g)). vm_compute. reflexivity.
  - apply (da_shown _ sview (fun _ => recv_cut wc_g) (sexec toy wc_g) _ _ _ _ _ at_fail _ _ (sexec_ok toy wc_g)). vm_compute. reflexivity.
Qed.
Definition at_M0 : @dworld mstate := mkDW wc_m1 false (crecv_new 0) CRun [(wc_w, None)] [(wc_d, None)] 0 0.
Definition at_mdone : list (@aev tev) :=
  [AHonest (WDo (TSend 1404 (wc_e 11))); AGarbageS (fun d => TRecv d (wc_e 11)) dead; AHonest (WDo (TSend 1404 (wc_e 12)));
   AHonest (WClient 0 (wc_e 20)); AReflectC 0 (wc_e 21); AReflectS (fun d => TRecv d (wc_e 21)) 0; AHonest (WClient 1 (wc_e 22));
   AHonest (WClient 0 (wc_e 24)); AHonest (WServer (fun d => TRecv d (wc_e 30)) 0)].
Example attacked_multi_download_case :
  exists W, dareach (mphase toy wc_g) mview thread_cut toy 10 wc_k wc_n at_M0 W /\ at_obs W = (CDone 1500, wc_file, false).
Proof. apply (da_shown _ mview thread_cut (mexec toy wc_g 10) _ _ _ _ _ at_mdone _ _ (mexec_ok toy wc_g 10)). vm_compute. reflexivity. Qed.

(** Uploads. *)
Definition au_W0 : @uworld mstate := mkUW wc_m0 false [] (mkCS (client_reader (k_opts wu_k) false) 0 0) CRun [(wu_w, None)] [(wc_other, None)] 0 0.
Definition au_evs : list aev :=
  [AHonest WClientSends; AHonest WClientSends; AReflectC 0 (wc_e 18); AGarbageS (wu_mdata 19) dead;
   AHonest (WServer (wu_mdata 20) 0); AReflectS (wu_mdata 21) 0; AHonest (WServer (wu_mdata 22) 1)].
Definition au_done : list aev := au_evs ++ [AHonest (WServer (wu_mdata 23) 0); AHonest (WClient 0 (wc_e 30))].
Definition au_fail : list aev := au_evs ++ [AGarbageC dead (wc_e 24)].
Definition au_obs {S} (W : @uworld S) := (uw_stat W, uw_kept W, uw_over W).
Example attacked_multi_upload_case :
  sealed_packets (k_opts wu_k) /\
  (let cdec := client_dec toy (k_sock wu_k) (op_bs (k_opts wu_k)) in
   Forall (stale_for_sender cdec) [(wu_w, None)] /\ Forall (no_ack cdec) [(wc_other, None)] /\
   exists e, mview wc_m0 50 = Some e /\
     let sdec := fun y => entry_dec toy e (thread_cut e y) in
     Forall (stale_for_receiver sdec) [(wc_other, None)] /\ Forall (no_data sdec) [(wu_w, None)]) /\
  (exists W, uareach (mphase toy wc_g) mview thread_cut toy 50 wu_k wc_file wu_n au_W0 W /\ au_obs W = (CDone 1500, wc_file, false)) /\
  (exists W, uareach (mphase toy wc_g) mview thread_cut toy 50 wu_k wc_file wu_n au_W0 W /\ au_obs W = (CFail, takeN 959 wc_file, false)).
Proof.
  split; [right; vm_compute; reflexivity|]. split; [|split].
  - cbv zeta. split; [apply kinds_ok; vm_compute; reflexivity|]. split; [apply kinds_ok; vm_compute; reflexivity|].
    destruct (mview wc_m0 50) as [e|] eqn:V; [|vm_compute in V; discriminate V]. exists e. split; [reflexivity|].
    assert (X : match mview wc_m0 50 with Some e => forallb (kind_b (fun y => entry_dec toy e (thread_cut e y))) [(wc_other, None)] &&
      forallb (kind_b (fun y => entry_dec toy e (thread_cut e y))) [(wu_w, None)] | None => false end = true) by (vm_compute; reflexivity).
    rewrite V in X. apply Bool.andb_true_iff in X as [X1 X2]. split; apply kinds_ok; assumption.
  - apply (ua_shown _ mview thread_cut (mexec toy wc_g 50) _ _ _ _ _ _ au_done _ _ (mexec_ok toy wc_g 50)). vm_compute. reflexivity.
  - apply (ua_shown _ mview thread_cut (mexec toy wc_g 50) _ _ _ _ _ _ au_fail _ _ (mexec_ok toy wc_g 50)). vm_compute. reflexivity.
Qed.
Definition as_W0 : @uworld sstate := mkUW wc_s0 false [] (mkCS (client_reader (k_opts wu_k) false) 0 0) CRun [(wu_w, None)] [(wc_other, None)] 0 0.
Definition as_done : list (@aev sev) :=
  [AHonest WClientSends; AHonest WClientSends; AReflectC 0 (wc_e 18); AGarbageS (wu_data 19) dead; AHonest (wu_idle 19);
   AHonest (WServer (wu_data 20) 0); AHonest (wu_idle 20); AReflectS (wu_data 21) 0; AHonest (wu_idle 21); AHonest (WServer (wu_data 22) 1);
   AHonest (wu_idle 22); AHonest (WServer (wu_data 23) 0); AHonest (WClient 0 (wc_e 30))].
Example attacked_single_upload_case :
  exists W, uareach (sphase toy wc_g) sview (fun _ => recv_cut wc_g) toy 50 wu_k wc_file wu_n as_W0 W /\ au_obs W = (CDone 1500, wc_file, false).
Proof. apply (ua_shown _ sview (fun _ => recv_cut wc_g) (sexec toy wc_g) _ _ _ _ _ _ as_done _ _ (sexec_ok toy wc_g)). vm_compute. reflexivity. Qed.
