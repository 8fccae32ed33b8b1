(** C55, C57: a connection works on the file that was asked for. *)
From Verif Require Import Base BaseProofs PacketModel ReaderModel ConfigModel CryptoModel ExtModel PathModel ConnModel ClientModel ConnSpec HandshakeModel HandshakeProofs
  ServerModel ServerSpec ServerProofs PropServer WorldModel WorldProofs WorldB PropWorld FsModel FsServerModel PropRfc.

(** The request [d] asks to read or to store [path], which could be opened, and the connection made for
    it does just that: it reads what is under [path], or it stores under [path], nothing being stored yet. *)
Definition serves_request (c : crypto) (g : srvcfg) (i : input) (d : bytes) (e : entry) : Prop :=
  exists path, h_open (i_henv i) path <> None /\
  (file_request c (g_cfg g) (h_eph (i_henv i)) d = Some (false, path) /\ (exists r, en_work e = WRead (i_file i path) r) \/
   file_request c (g_cfg g) (h_eph (i_henv i)) d = Some (true, path) /\ en_work e = WWrite path writer_new).
Lemma accepted_serves c g i d x reply : server_new c (g_cfg g) (i_henv i) (i_av i) d = SAccepted x reply ->
  serves_request c g i d (new_entry x (e_now (i_env i)) (i_file i)).
Proof.
  intros A. apply server_new_accepted in A. destruct A as [(buf & hs & o0 & rq & used & op & keys & size & F1 & F2 & F3 & F4 & F5 & _ & _ & F8 & _)].
  assert (FR : file_request c (g_cfg g) (h_eph (i_henv i)) d = Some (es_write x, es_path x)).
  { unfold file_request. rewrite F1, F2. destruct (es_write x); rewrite F3, F4; reflexivity. }
  exists (es_path x). split; [rewrite F5; discriminate|]. rewrite FR. unfold new_entry. cbn [en_work]. destruct (es_write x).
  - right. rewrite F8. auto.
  - left. destruct F8 as (_ & F8). destruct (es_reader x) as [r|]; [eauto|contradiction].
Qed.
Theorem connection_serves_request_single : forall c g a s0 i s1 o d e,
  taken s0 i = TookMain a d -> sview s0 a = None -> step_recv c g s0 i = Some (s1, o) -> sview s1 a = Some e ->
  serves_request c g i (recv_cut g d) e.
Proof.
  intros c g a s0 i s1 o d e TK V0 E V1. destruct (single_takes _ _ _ _ _ _ _ _ _ TK V0 E V1) as (x & reply & HX & -> & _).
  eapply accepted_serves; exact HX.
Qed.
Theorem connection_serves_request_multi : forall c g a m0 i m1 o d e,
  mpreach c g m0 -> mview m0 a = None -> main_turn c g m0 (MData a d) i = Some (m1, o) -> mview m1 a = Some e ->
  serves_request c g i (recv_cut g d) e.
Proof.
  intros c g a m0 i m1 o d e R0 V0 E V1. destruct (multi_takes _ _ _ _ _ _ _ _ _ (mpreach_ok _ _ _ R0) V0 E V1) as (x & reply & HX & -> & _).
  eapply accepted_serves; exact HX.
Qed.
Print Assumptions connection_serves_request_single.
Print Assumptions connection_serves_request_multi.
