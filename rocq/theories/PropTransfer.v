(** C14-C16: whole transfers between client and server over an unreliable network. *)
From Verif Require Import Base BaseProofs PacketModel ReaderModel ReaderSpec BlockLemmas ConfigModel ConnModel ClientModel
  SystemModel CoreProofs DownloadProofs UploadProofs LiveModel LiveProofs.

(** ** C14 *)
Theorem download_never_corrupts : forall P st, valid P -> dreach P st ->
  let out := w_out (cr_w (d_cl st)) in
  (exists k, out = takeN (k * p_bs P) (p_file P)) /\
  (forall total, d_stat st = CDone total -> out = p_file P /\ total = blen (p_file P)) /\
  (c_finished (d_conn st) = true -> out = p_file P).
Proof.
  intros P st HP H. cbn zeta. destruct (dreach_inv P HP st H) as [s I]. destruct (dinv_safe P HP st s I) as (S1 & S2 & S3).
  split; [eexists; exact S1|]. split; [exact S2|]. intros F. apply S3. exact F.
Qed.

(** ** C15 *)
Theorem upload_never_corrupts : forall P st, valid P -> ureach P st ->
  let out := w_out (u_writer st) in
  (exists k, out = takeN (k * p_bs P) (p_file P)) /\
  (forall total, u_stat st = CDone total -> out = p_file P /\ total = blen (p_file P)) /\
  (c_finished (u_conn st) = true -> out = p_file P).
Proof.
  intros P st HP H. cbn zeta. destruct (ureach_inv P HP st H) as [s I]. destruct (uinv_safe P HP st s I) as (S1 & S2 & S3).
  split; [eexists; exact S1|]. split; [exact S2|]. intros F. apply S3. exact F.
Qed.

(** ** C16 *)
(** Among any other events, at most twice as many fault-free rounds as blocks fit into a
    transfer that has neither completed nor been aborted. *)
Theorem download_progress : forall P k st, valid P -> blen (p_file P) <= p_max P ->
  drun P k st -> d_alive st -> N.of_nat k < 2 * p_n P.
Proof.
  intros P k st HP Hmax H A. destruct (drun_inv P HP k st Hmax H) as (s & I & L).
  pose proof (dmeasure_bound P HP st s I (proj2 (proj2 A))). pose proof (n_pos P HP). lia.
Qed.
(** Such a round is possible at every moment, and rounds alone complete the transfer. *)
Theorem download_can_complete : forall P st, valid P -> blen (p_file P) <= p_max P ->
  encodable P (p_decc P) -> encodable P (p_decs P) -> dreach P st -> d_alive st ->
  (exists st', dround P st st') /\
  (forall st', dround P st st' -> d_alive st' \/ d_stat st' = CDone (blen (p_file P)) /\ c_finished (d_conn st') = true) /\
  exists k st', drounds P k st st' /\ N.of_nat k <= 2 * p_n P /\
    d_stat st' = CDone (blen (p_file P)) /\ w_out (cr_w (d_cl st')) = p_file P /\ c_finished (d_conn st') = true.
Proof.
  intros P st HP Hmax He1 He2 H A. destruct (dreach_inv P HP st H) as [s I].
  split; [eapply dround_exists; eassumption|]. split.
  - intros st' R. destruct (dround_inv P HP _ _ _ Hmax I R) as (s' & I' & _ & D1 & D2 & D3 & D4 & D5).
    destruct (d_stat st') eqn:E.
    + left. repeat split; auto.
    + right. destruct (dinv_safe P HP st' s' I') as (_ & S2 & _). destruct (S2 _ E) as [_ ->].
      split; [reflexivity|]. apply D5. discriminate.
    + congruence.
  - eapply dcomplete; eassumption.
Qed.
(** Rounds are runs of the system. *)
Theorem download_rounds_reachable : forall P st st', valid P -> blen (p_file P) <= p_max P ->
  dreach P st -> dround P st st' -> dreach P st'.
Proof.
  intros P st st' HP Hmax H R. destruct (dreach_inv P HP st H) as [s I].
  pose proof (dround_steps P HP st st' s Hmax I R) as S. clear R I. induction S; [assumption|].
  apply IHS. eapply dreach_step; eassumption.
Qed.

Theorem upload_progress : forall P k st, valid P -> blen (p_file P) <= p_max P ->
  urun P k st -> u_alive st -> N.of_nat k < 2 * p_n P.
Proof.
  intros P k st HP Hmax H A. destruct (urun_inv P HP k st Hmax H) as (s & I & L).
  pose proof (umeasure_bound P HP st s I (proj2 (proj2 A))). pose proof (n_pos P HP). lia.
Qed.
Theorem upload_can_complete : forall P st, valid P -> blen (p_file P) <= p_max P ->
  encodable P (p_decc P) -> encodable P (p_decs P) -> ureach P st -> u_alive st ->
  (exists st', uround P st st') /\
  (forall st', uround P st st' -> u_alive st' \/ u_stat st' = CDone (blen (p_file P)) /\ c_finished (u_conn st') = true) /\
  exists k st', urounds P k st st' /\ N.of_nat k <= 2 * p_n P /\
    u_stat st' = CDone (blen (p_file P)) /\ w_out (u_writer st') = p_file P /\ c_finished (u_conn st') = true.
Proof.
  intros P st HP Hmax He1 He2 H A. destruct (ureach_inv P HP st H) as [s I].
  split; [eapply uround_exists; eassumption|]. split.
  - intros st' R. destruct (uround_inv P HP _ _ _ Hmax I R) as (s' & I' & _ & D1 & D2 & D3 & D4 & D5).
    destruct (u_stat st') eqn:E.
    + left. repeat split; auto.
    + right. destruct (uinv_safe P HP st' s' I') as (_ & S2 & _). destruct (S2 _ E) as [_ ->].
      split; [reflexivity|]. apply D5. discriminate.
    + congruence.
  - eapply ucomplete; eassumption.
Qed.
Theorem upload_rounds_reachable : forall P st st', valid P -> blen (p_file P) <= p_max P ->
  ureach P st -> uround P st st' -> ureach P st'.
Proof.
  intros P st st' HP Hmax H R. destruct (ureach_inv P HP st H) as [s I].
  pose proof (uround_steps P HP st st' s Hmax I R) as S. clear R I. induction S; [assumption|].
  apply IHS. eapply ureach_step; eassumption.
Qed.

(** ** A concrete transfer: 1100 bytes, blocks of 512, window 2, no encryption. *)
Definition ex_params : params :=
  mkParams (repeat 7 1100) (mkOpts 512 80 None LNone 2) KMulti 5000 1000 1000 Some Some.
Example ex_valid : valid ex_params.
Proof. unfold valid. vm_compute. repeat split; try discriminate. right. discriminate. Qed.
Example ex_encodable : encodable ex_params (p_decc ex_params) /\ encodable ex_params (p_decs ex_params).
Proof. split; intros p _; exists p; reflexivity. Qed.
Definition ex_init : dstate :=
  mkD (conn_new (p_opts ex_params) 0) (new_reader KMulti 512 2) true (crecv_new 0) CRun [] [] 0 0.
Definition ex_block (i : N) : dgram :=
  (to_bytes (PData i (block_of (p_file ex_params) 512 i)), Some i).
(** Blocks 1 and 2 are sent; 2 arrives before 1 and is rejected with an acknowledgement of
    block 0; then 1 arrives, twice: the second copy is rejected too. *)
Example ex_reordered : exists st, dreach ex_params st /\ d_alive st /\
  w_out (cr_w (d_cl st)) = takeN 512 (p_file ex_params) /\
  map snd (d_down st) = [Some 2; Some 1] /\ map snd (d_up st) = [Some 1; Some 0].
Proof.
  eexists. split; [|split; [|split; [|split]]].
  - eapply dreach_step; [eapply dreach_step; [eapply dreach_step; [eapply dreach_step; [eapply dreach_step;
      [apply dreach_init|]|]|]|]|].
    + exists 0, 0, [], []. split; [constructor|]. split; [constructor|]. reflexivity.
    + eapply (d_send ex_params) with (buflen := 600) (now := 1) (io := false) (sock := true) (txt := []) (new := [ex_block 1]).
      * vm_compute; split; reflexivity.
      * vm_compute. reflexivity.
      * constructor; [|constructor]. vm_compute. auto.
    + eapply (d_send ex_params) with (buflen := 600) (now := 2) (io := false) (sock := true) (txt := []) (new := [ex_block 2]).
      * vm_compute; split; reflexivity.
      * vm_compute. reflexivity.
      * constructor; [|constructor]. vm_compute. auto.
    + eapply (d_client ex_params) with (e := EvDatagram true (fst (ex_block 2))) (g := ex_block 2) (now := 3) (io := false) (sock := true) (txt := [])
        (new := [(to_bytes (PAck 0), Some 0)]).
      * split; [reflexivity|]. left. reflexivity.
      * right. vm_compute. discriminate.
      * vm_compute. reflexivity.
      * constructor; [|constructor]. vm_compute. auto.
    + eapply (d_client ex_params) with (e := EvDatagram true (fst (ex_block 1))) (g := ex_block 1) (now := 3) (io := false) (sock := true) (txt := [])
        (new := []).
      * split; [reflexivity|]. right. left. reflexivity.
      * right. vm_compute. discriminate.
      * vm_compute. reflexivity.
      * constructor.
    + eapply (d_client ex_params) with (e := EvDatagram true (fst (ex_block 1))) (g := ex_block 1) (now := 3) (io := false) (sock := true) (txt := [])
        (new := [(to_bytes (PAck 1), Some 1)]).
      * split; [reflexivity|]. right. left. reflexivity.
      * right. vm_compute. discriminate.
      * vm_compute. reflexivity.
      * constructor; [|constructor]. vm_compute. auto.
  - vm_compute. repeat split.
  - vm_compute. reflexivity.
  - vm_compute. reflexivity.
  - vm_compute. reflexivity.
Qed.
(** From there the download completes. *)
Example ex_completes : exists st, dreach ex_params st /\ d_stat st = CDone 1100 /\
  w_out (cr_w (d_cl st)) = p_file ex_params.
Proof.
  destruct ex_reordered as (st & R & A & _). destruct ex_encodable as [E1 E2].
  assert (Hmax : blen (p_file ex_params) <= p_max ex_params) by (vm_compute; discriminate).
  destruct (download_can_complete ex_params st ex_valid Hmax E1 E2 R A) as (_ & _ & k & st' & RR & _ & D & O & _).
  exists st'. split; [|split; [exact D|exact O]].
  clear D O A. induction RR; [assumption|]. apply IHRR. eapply download_rounds_reachable; eauto. exact ex_valid.
Qed.
Definition ex_uinit : ustate :=
  mkU (conn_new (p_opts ex_params) 0) writer_new true (mkCS (new_reader KMulti 512 2) 0 0) CRun [] [] 0 0.
Example ex_upload : ureach ex_params ex_uinit /\ u_alive ex_uinit /\
  exists st, ureach ex_params st /\ u_stat st = CDone 1100 /\ w_out (u_writer st) = p_file ex_params.
Proof.
  assert (R : ureach ex_params ex_uinit).
  { apply ureach_init. exists 0, 0, [], []. split; [constructor|]. split; [constructor|]. reflexivity. }
  assert (A : u_alive ex_uinit) by (vm_compute; repeat split).
  split; [exact R|]. split; [exact A|]. destruct ex_encodable as [E1 E2].
  assert (Hmax : blen (p_file ex_params) <= p_max ex_params) by (vm_compute; discriminate).
  destruct (upload_can_complete ex_params _ ex_valid Hmax E1 E2 R A) as (_ & _ & k & st' & RR & _ & D & O & _).
  exists st'. split; [|split; [exact D|exact O]].
  clear D O A. induction RR; [assumption|]. apply IHRR. eapply upload_rounds_reachable; eauto. exact ex_valid.
Qed.
(** The last acknowledgement of an upload is sent once: if it is lost the server, which has
    the complete file, is gone and the client fails with a timeout. *)
Definition ex_small : params :=
  mkParams (repeat 7 100) (mkOpts 512 80 None LNone 1) KSingle 5000 1000 1000 Some Some.
Example upload_final_ack_lost : exists st, ureach ex_small st /\ u_live st = false /\
  w_out (u_writer st) = p_file ex_small /\ u_stat st = CFail.
Proof.
  eexists. split; [|split; [|split]].
  - eapply ureach_step; [eapply ureach_step; [eapply ureach_step; [eapply ureach_step;
      [apply ureach_init|]|]|]|].
    + exists 0, 0, [], []. split; [constructor|]. split; [constructor|]. reflexivity.
    + eapply (u_send ex_small) with (buflen := 600) (retry := true) (io := IoOk) (sock := Some true)
        (new := [(to_bytes (PData 1 (p_file ex_small)), Some 1)]).
      * vm_compute. discriminate.
      * vm_compute. reflexivity.
      * constructor; [|constructor]. vm_compute. auto.
    + eapply (u_server_receive ex_small) with (g := (to_bytes (PData 1 (p_file ex_small)), Some 1)) (now := 1) (io := false) (sock := true) (txt := [])
        (new := [(to_bytes (PAck 1), Some 1)]).
      * left. reflexivity.
      * right. vm_compute. discriminate.
      * vm_compute. reflexivity.
      * constructor; [|constructor]. vm_compute. auto.
    + eapply (u_server_end ex_small) with (now := 1) (sock := true) (txt := []) (new := []).
      * vm_compute. reflexivity.
      * constructor.
    + eapply (u_client_receive ex_small) with (e := EvWouldBlock) (g := ([], None)) (now := 2000).
      * reflexivity.
      * exact I.
      * vm_compute. reflexivity.
  - reflexivity.
  - vm_compute. reflexivity.
  - vm_compute. reflexivity.
Qed.
(** The single threaded server keeps handling a connection after it has exceeded the size
    limit, until it removes it.  It counts only the blocks it accepted: if the DiskFull error
    is lost, the rest of an upload above the limit can be stored and acknowledged. *)
Definition ex_big : params :=
  mkParams (repeat 7 1100) (mkOpts 512 80 None LNone 4) KMulti 1000 1000 1000 Some Some.
Definition ex_bblock (i : N) : dgram := (to_bytes (PData i (block_of (p_file ex_big) 512 i)), Some i).
Example upload_above_limit_completes : exists st, ureach ex_big st /\ p_max ex_big < blen (p_file ex_big) /\
  c_invalid (u_conn st) <> None /\ c_finished (u_conn st) = true /\ w_out (u_writer st) = p_file ex_big /\ u_stat st = CDone 1100.
Proof.
  eexists. split; [|split; [|split; [|split; [|split]]]].
  - eapply ureach_step; [eapply ureach_step; [eapply ureach_step; [eapply ureach_step; [eapply ureach_step;
      [eapply ureach_step; [eapply ureach_step; [apply ureach_init|]|]|]|]|]|]|].
    + exists 0, 0, [], []. split; [constructor|]. split; [constructor|]. reflexivity.
    + eapply (u_send ex_big) with (buflen := 600) (retry := false) (io := IoOk) (sock := Some true) (new := [ex_bblock 1]).
      * vm_compute. discriminate.
      * vm_compute. reflexivity.
      * constructor; [|constructor]. vm_compute. auto.
    + eapply (u_send ex_big) with (buflen := 600) (retry := false) (io := IoOk) (sock := Some true) (new := [ex_bblock 2]).
      * vm_compute. discriminate.
      * vm_compute. reflexivity.
      * constructor; [|constructor]. vm_compute. auto.
    + eapply (u_send ex_big) with (buflen := 600) (retry := false) (io := IoOk) (sock := Some true) (new := [ex_bblock 3]).
      * vm_compute. discriminate.
      * vm_compute. reflexivity.
      * constructor; [|constructor]. vm_compute. auto.
    + eapply (u_server_receive ex_big) with (g := ex_bblock 1) (now := 1) (io := false) (sock := true) (txt := []) (new := []).
      * right. right. left. reflexivity.
      * left. vm_compute. discriminate.
      * vm_compute. reflexivity.
      * constructor.
    + eapply (u_server_receive ex_big) with (g := ex_bblock 2) (now := 1) (io := false) (sock := true) (txt := s2b "limit")
        (new := [(to_bytes (PError DiskFull (s2b "limit")), None)]).
      * right. left. reflexivity.
      * left. vm_compute. discriminate.
      * vm_compute. reflexivity.
      * constructor; [|constructor]. vm_compute. auto.
    + eapply (u_server_receive ex_big) with (g := ex_bblock 3) (now := 1) (io := false) (sock := true) (txt := [])
        (new := [(to_bytes (PAck 3), Some 3)]).
      * left. reflexivity.
      * left. vm_compute. discriminate.
      * vm_compute. reflexivity.
      * constructor; [|constructor]. vm_compute. auto.
    + eapply (u_client_receive ex_big) with (e := EvDatagram true (to_bytes (PAck 3))) (g := (to_bytes (PAck 3), Some 3)) (now := 2).
      * split; [reflexivity|]. left. reflexivity.
      * left. vm_compute. discriminate.
      * vm_compute. reflexivity.
  - vm_compute. reflexivity.
  - vm_compute. discriminate.
  - vm_compute. reflexivity.
  - vm_compute. reflexivity.
  - vm_compute. reflexivity.
Qed.

Print Assumptions download_never_corrupts.
Print Assumptions upload_never_corrupts.
Print Assumptions download_progress.
Print Assumptions download_can_complete.
Print Assumptions download_rounds_reachable.
Print Assumptions upload_progress.
Print Assumptions upload_can_complete.
Print Assumptions upload_rounds_reachable.
