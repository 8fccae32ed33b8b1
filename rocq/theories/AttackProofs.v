From Verif Require Import Base BaseProofs PacketModel PacketSpec PacketProofs MapperModel MapperProofs ReaderModel ReaderSpec BlockLemmas ReaderProofs
  WriterSpec WriterProofs ConfigModel Base64Model CryptoModel CryptoSpec CryptoProofs PropCrypto ExtModel ExtSpec ExtProofs PathModel ConnModel ClientModel ConnSpec
  HandshakeModel HandshakeProofs PropExt PropHandshake AgreeProofs PropAgree SystemModel CoreProofs DownloadProofs UploadProofs
  ServerModel ServerSpec ServerProofs PropServer WorldModel WorldProofs WorldB WorldC PropWorld AttackModel.

(** * What is sent *)
Definition not_data (p : bytes) : Prop := forall b x, from_bytes p <> Ok (PData b x).
Definition not_ack (p : bytes) : Prop := forall b, from_bytes p <> Ok (PAck b).

Lemma from_error l : from_bytes (be16 5 ++ l) = error_from_bytes l.
Proof. reflexivity. Qed.
Lemma from_ack l : from_bytes (be16 4 ++ l) = ack_from_bytes l.
Proof. reflexivity. Qed.
Lemma from_data l : from_bytes (be16 3 ++ l) = data_from_bytes l.
Proof. reflexivity. Qed.
Lemma error_not e m : not_data (to_bytes (PError e m)) /\ not_ack (to_bytes (PError e m)).
Proof.
  unfold not_data, not_ack, to_bytes. cbn [opcode]. rewrite from_error. unfold error_from_bytes.
  destruct (try_from _) as [n| |]; [|split; discriminate|split; discriminate].
  destruct (ecode_of n); [|split; discriminate]. destruct (split_nul _) as [[msg r]|]; [|split; discriminate].
  destruct (utf8 msg); split; discriminate.
Qed.
Lemma ack_not b : not_data (to_bytes (PAck b)).
Proof.
  unfold not_data, to_bytes. cbn [opcode]. rewrite from_ack. unfold ack_from_bytes.
  destruct (try_from _); discriminate.
Qed.
Lemma data_not b d : not_ack (to_bytes (PData b d)).
Proof.
  unfold not_ack, to_bytes. cbn [opcode]. rewrite from_data. unfold data_from_bytes.
  destruct (try_from _); discriminate.
Qed.
Lemma when_all (Q : bytes -> Prop) b q : Q q -> Forall Q (when b [q]).
Proof. intros H. destruct b; repeat constructor. exact H. Qed.

Lemma timeout_not cn t now sock txt d plain : timeout_client cn t now sock txt = (d, plain) ->
  Forall not_data plain /\ Forall not_ack plain.
Proof.
  unfold timeout_client. destruct (_ || _)%bool; [intros [= _ <-]; split; constructor|].
  destruct (_ <=? _); [intros [= _ <-]; split; constructor|]. intros [= _ <-].
  split; apply when_all; apply error_not.
Qed.
Lemma write_not dec cn w x now max io sh sock txt cn' w' plain :
  handle_write dec cn w x now max io sh sock txt = (cn', w', plain) -> Forall not_data plain.
Proof.
  unfold handle_write. destruct (dec x) as [p|]; [|intros [= _ _ <-]; constructor].
  destruct (from_bytes p) as [[]| |]; try (intros [= _ _ <-]; constructor).
  unfold srv_write_block. destruct (write_block _ _ _ _ _) as [w1 res].
  destruct res as [[n i]|[cc i|cc i|]|]; cbn match.
  - destruct (negb _); intros [= _ _ <-]; apply when_all; [apply error_not|apply ack_not].
  - intros [= _ _ <-]; apply when_all; apply ack_not.
  - intros [= _ _ <-]; apply when_all; apply ack_not.
  - intros [= _ _ <-]; apply when_all; apply error_not.
  - intros [= _ _ <-]; apply when_all; apply error_not.
Qed.
Lemma recv_not dec o max tmo cl e now io sh sock txt cl' plain st :
  recv_step dec o max tmo cl e now io sh sock txt = (cl', plain, st) -> Forall not_data plain.
Proof.
  destruct e as [fp x| |]; cbn [recv_step]; [|intros [= _ <- _]; constructor|intros [= _ <- _]; constructor].
  destruct (dec x) as [p|]; [|intros [= _ <- _]; constructor].
  destruct fp; cbn [negb]; [|intros [= _ <- _]; constructor].
  destruct (from_bytes p) as [[]| |]; try (intros [= _ <- _]; constructor).
  unfold cl_write_block. destruct (write_block _ _ _ _ _) as [w1 res].
  destruct res as [[n i]|[cc i|cc i|]|]; cbn match.
  - destruct (negb _); [intros [= _ <- _]; apply when_all, error_not|].
    destruct (_ && _)%bool; intros [= _ <- _]; [constructor|apply when_all, ack_not].
  - destruct (_ && _)%bool; intros [= _ <- _]; [constructor|apply when_all, ack_not].
  - destruct (_ && _)%bool; intros [= _ <- _]; [constructor|apply when_all, ack_not].
  - intros [= _ <- _]; constructor.
  - intros [= _ <- _]; constructor.
Qed.
Lemma send_not file cn r buflen now io sock txt cn' r' plain b :
  send_data_block file cn r buflen now io sock txt = (cn', r', plain, b) -> Forall not_ack plain.
Proof.
  unfold send_data_block. destruct (reader_next _ _ _ _ _) as [r1 res].
  destruct res as [[bl|]|[|]|]; intros [= _ _ <- _]; try constructor; apply when_all; try apply error_not; apply data_not.
Qed.
Lemma csend_not file cl buflen retry io sock cl' plain st :
  sender_send file cl buflen retry io sock = (cl', plain, st) -> Forall not_ack plain.
Proof.
  unfold sender_send. destruct (reader_next _ _ _ _ _) as [r1 res].
  destruct res as [[bl|]|[|]|]; try (intros [= _ <- _]; constructor).
  destruct sock as [[]|]; intros [= _ <- _]; constructor; [apply data_not|constructor].
Qed.

(** * Opening one's own packets *)
Section Own.
Variables (c : crypto) (oq : options) (s : csock) (x : est) (L : N).
Hypothesis HC : crypto_ok c.
Hypothesis HA : agree oq s x.
Hypothesis HB : 512 <= op_bs (es_opts x).
Hypothesis HL : op_bs (es_opts x) + 4 <= L /\ 516 <= L.
Hypothesis HS : sealed_packets oq.

Lemma own_client p n w : plain_ok (es_opts x) p -> blen n = 24 ->
  client_send c s n p = Ok w -> client_dec c s (op_bs oq) w = Some p.
Proof.
  intros HP Hn HE. destruct HA as (A1 & _ & A3 & A4 & A5).
  assert (T12 : has_type T_READ p || has_type T_WRITE p = false).
  { destruct HP as (pk & -> & HP). rewrite !type_of_packet. unfold T_READ, T_WRITE. destruct pk; try contradiction; reflexivity. }
  unfold client_send in HE. rewrite T12, A4 in HE.
  destruct A5 as [(E & _)|(_ & LV & NK & KE)]; [destruct HS as [H|H]; congruence|].
  unfold client_dec, client_recv. destruct (cs_key s) as [key|]; [|congruence].
  assert (HE' : enc_packet c key n p (bs_enc (es_opts x) + DATA_PACKET_HEADER_SIZE) = Ok w)
    by (destruct HS as [H|H]; rewrite LV, H in HE; exact HE).
  apply enc_packet_round in HE' as (D & LW & _); [|assumption..].
  assert (BE : bs_enc (es_opts x) + 41 = op_bs (es_opts x)).
  { unfold bs_enc. rewrite <- A3. change ENCRYPTION_TAG_SIZE with 16. change ENCRYPTION_NONCE_SIZE with 24. change ENCRYPTION_PADDING_SIZE with 1.
    destruct HS as [H|H]; rewrite H; lia. }
  rewrite takeN_all by (change DATA_PACKET_HEADER_SIZE with 4 in *; lia).
  destruct HS as [H|H]; rewrite LV, H, D; reflexivity.
Qed.
Lemma own_server p n w : plain_ok (es_opts x) p -> blen n = 24 ->
  server_encrypt c (es_opts x) (es_key x) (has_type T_DATA p) n p = Ok w -> srv_dec c x L w = Some p.
Proof.
  intros HP Hn HE. destruct HA as (A1 & _ & A3 & A4 & A5).
  destruct A5 as [(E & _)|(_ & LV & NK & KE)]; [destruct HS as [H|H]; congruence|].
  unfold server_encrypt, srv_dec, server_decrypt in *. rewrite <- KE in *. destruct (cs_key s) as [key|]; [|congruence].
  rewrite <- A3 in *.
  assert (HE' : enc_packet c key n p (bs_enc (es_opts x) + DATA_PACKET_HEADER_SIZE) = Ok w)
    by (destruct HS as [H|H]; rewrite H in HE; exact HE).
  apply enc_packet_round in HE' as (D & LW & _); [|assumption..].
  assert (BE : bs_enc (es_opts x) + 41 = op_bs (es_opts x)).
  { unfold bs_enc. rewrite <- A3. change ENCRYPTION_TAG_SIZE with 16. change ENCRYPTION_NONCE_SIZE with 24. change ENCRYPTION_PADDING_SIZE with 1.
    destruct HS as [H|H]; rewrite H; lia. }
  rewrite takeN_all by (change DATA_PACKET_HEADER_SIZE with 4 in *; lia).
  destruct HS as [H|H]; rewrite H, D; reflexivity.
Qed.

Lemma own_client_all (Q : bytes -> Prop) i plain new : Forall (plain_ok (es_opts x)) plain -> Forall Q plain ->
  client_sealed c s i plain new -> Forall (fun d => exists p, client_dec c s (op_bs oq) (fst d) = Some p /\ Q p) new.
Proof.
  intros HF HQ HE. unfold client_sealed in HE. revert new HE HQ.
  induction HF as [|p l Hp HF IH]; intros new HE HQ; inversion HE as [|? d ? ? H HE']; subst; constructor; inversion HQ; subst; [|auto].
  destruct H as (SH & GH & n & Hn & HX). exists p. split; [|assumption]. eapply own_client; eassumption.
Qed.
Lemma own_server_all (Q : bytes -> Prop) e i plain new : c_opts (en_conn e) = es_opts x -> en_key e = es_key x ->
  Forall (plain_ok (es_opts x)) plain -> Forall Q plain ->
  server_sealed c e i (map OPlain plain) new -> Forall (fun d => exists p, srv_dec c x L (fst d) = Some p /\ Q p) new.
Proof.
  intros EO EK HF HQ HE. unfold server_sealed in HE. revert new HE HQ.
  induction HF as [|p l Hp HF IH]; intros new HE HQ; inversion HE as [|? d ? ? H HE']; subst; constructor; inversion HQ; subst; [|auto].
  destruct H as (SH & GH & n & Hn & HX). exists p. split; [|assumption]. rewrite EO, EK in HX. eapply own_server; eassumption.
Qed.
End Own.
Lemma opened_no_data dec l : Forall (fun d : dgram => exists p, dec (fst d) = Some p /\ not_data p) l -> Forall (no_data dec) l.
Proof. apply Forall_impl. intros d (p & E & H) p' b x E'. rewrite E in E'. injection E' as <-. apply H. Qed.
Lemma opened_no_ack dec l : Forall (fun d : dgram => exists p, dec (fst d) = Some p /\ not_ack p) l -> Forall (no_ack dec) l.
Proof. apply Forall_impl. intros d (p & E & H) p' b E'. rewrite E in E'. injection E' as <-. apply H. Qed.

(** Only what is opened matters. *)
Lemma recv_step_open dec o max tmo cl b y y' now io sh sock txt : dec y = dec y' ->
  recv_step dec o max tmo cl (EvDatagram b y) now io sh sock txt = recv_step dec o max tmo cl (EvDatagram b y') now io sh sock txt.
Proof. intros E. cbn [recv_step]. rewrite E. reflexivity. Qed.
Lemma sender_recv_open dec tmo cl b y y' now : dec y = dec y' ->
  sender_recv dec tmo cl (EvDatagram b y) now = sender_recv dec tmo cl (EvDatagram b y') now.
Proof. intros E. cbn [sender_recv]. rewrite E. reflexivity. Qed.
Lemma handle_client_open c max e y y' v p : entry_dec c e y = Some p -> entry_dec c e y' = Some p ->
  handle_client c max e y v = handle_client c max e y' v.
Proof.
  intros E E'. unfold handle_client, handle_read, handle_write. rewrite E, E'.
  unfold entry_dec in E, E'. destruct (entry_decrypt c e y); try discriminate. destruct (entry_decrypt c e y'); try discriminate. reflexivity.
Qed.
