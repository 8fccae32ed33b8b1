From Verif Require Import Base BaseProofs PacketModel PacketSpec PacketProofs MapperModel MapperProofs ReaderModel ReaderSpec BlockLemmas ReaderProofs
  WriterSpec WriterProofs ConfigModel Base64Model CryptoModel CryptoSpec CryptoProofs PropCrypto ExtModel ExtSpec ExtProofs PathModel ConnModel ClientModel ConnSpec
  HandshakeModel HandshakeProofs PropExt PropHandshake AgreeProofs PropAgree SystemModel CoreProofs DownloadProofs UploadProofs
  ServerModel ServerSpec ServerProofs PropServer WorldModel.

(** * Wires *)
(** What the running programs send: data of at most a block, acknowledgements, errors. *)
Definition plain_ok (o : options) (p : bytes) : Prop :=
  exists pk, p = to_bytes pk /\
  match pk with PData _ d => blen d <= bs_enc o | PAck _ | PError _ _ => True | _ => False end.
Lemma plain_data o b d : blen d <= bs_enc o -> plain_ok o (to_bytes (PData b d)).
Proof. intros H. exists (PData b d). auto. Qed.
Lemma plain_ack o b : plain_ok o (to_bytes (PAck b)).
Proof. exists (PAck b). auto. Qed.
Lemma plain_error o c m : plain_ok o (to_bytes (PError c m)).
Proof. exists (PError c m). auto. Qed.
Lemma data_len b d : blen (to_bytes (PData b d)) = blen d + 4.
Proof. cbn [to_bytes body_to_bytes opcode]. unfold to_bytes, body_to_bytes. rewrite !blen_app. unfold be16. cbn [opcode]. unfold blen. cbn [length]. lia. Qed.

(** A server's buffer of [L] bytes for what it receives. *)
Definition srv_dec (c : crypto) (x : est) (L : N) (wire : bytes) : option bytes :=
  match server_decrypt c (op_enc (es_opts x)) (es_key x) (takeN L wire) with Ok p => Some p | _ => None end.

Section A.
Variables (c : crypto) (oq : options) (s : csock) (x : est) (L : N).
Hypothesis HC : crypto_ok c.
Hypothesis HA : agree oq s x.
Hypothesis HB : 512 <= op_bs (es_opts x).
Hypothesis HL : op_bs (es_opts x) + 4 <= L /\ 516 <= L.

Lemma plain_size o p : plain_ok o p -> short p -> blen p <= N.max (bs_enc o + 4) 516.
Proof.
  intros (pk & -> & H) SH. destruct pk as [?|?|b d|b|e m|?]; try contradiction.
  - rewrite data_len. lia.
  - specialize (SH eq_refl). unfold MIN_BUFFER_SIZE in SH. lia.
  - specialize (SH eq_refl). unfold MIN_BUFFER_SIZE in SH. lia.
Qed.
Lemma data_size o p : plain_ok o p -> has_type T_DATA p = true -> blen p <= bs_enc o + 4.
Proof.
  intros (pk & -> & H) SH. rewrite type_of_packet in SH. destruct pk as [?|?|b d|b|e m|?]; try discriminate.
  rewrite data_len. lia.
Qed.

Lemma server_wire p n w : plain_ok (es_opts x) p -> short p -> blen n = 24 ->
  server_encrypt c (es_opts x) (es_key x) (has_type T_DATA p) n p = Ok w ->
  client_dec c s (op_bs oq) w = Some p.
Proof.
  intros HP HS Hn HE.
  assert (LW : blen w <= N.max (op_bs oq + 4) 516).
  { pose proof (plain_size _ _ HP HS) as SZ. destruct HA as (-> & _).
    unfold server_encrypt, bs_enc in *.
    change ENCRYPTION_TAG_SIZE with 16 in *. change ENCRYPTION_NONCE_SIZE with 24 in *.
    change ENCRYPTION_PADDING_SIZE with 1 in *. change DATA_PACKET_HEADER_SIZE with 4 in *.
    destruct (op_enc (es_opts x)) eqn:EO, (es_key x) as [k|]; try (injection HE as <-; lia).
    - destruct (has_type T_DATA p) eqn:T; [|injection HE as <-; lia].
      apply encrypt_len in HE; [|assumption..]. pose proof (data_size _ _ HP T) as DS. unfold bs_enc in DS. rewrite EO in DS.
      change ENCRYPTION_TAG_SIZE with 16 in *. change ENCRYPTION_NONCE_SIZE with 24 in *. lia.
    - apply enc_packet_round in HE; [|assumption..]. lia.
    - apply enc_packet_round in HE; [|assumption..]. lia. }
  unfold client_dec. change DATA_PACKET_HEADER_SIZE with 4. change MIN_BUFFER_SIZE with 516.
  rewrite takeN_all by exact LW.
  destruct HP as (pk & -> & HP). rewrite type_of_packet in HE.
  rewrite (proj1 (agreement_suffices _ _ _ _ HA HC) n pk w Hn HE). reflexivity.
Qed.

Lemma client_wire p n w : plain_ok (es_opts x) p -> short p -> blen n = 24 ->
  client_send c s n p = Ok w -> srv_dec c x L w = Some p.
Proof.
  intros HP HS Hn HE.
  assert (LW : blen w <= N.max (op_bs (es_opts x) + 4) 516).
  { pose proof (plain_size _ _ HP HS) as SZ. destruct HA as (A1 & _ & A3 & A4 & A5).
    assert (T12 : has_type T_READ p || has_type T_WRITE p = false).
    { destruct HP as (pk & -> & HP). rewrite !type_of_packet. unfold T_READ, T_WRITE. destruct pk; try contradiction; reflexivity. }
    unfold client_send in HE. rewrite T12, A4 in HE. unfold bs_enc in *.
    change ENCRYPTION_TAG_SIZE with 16 in *. change ENCRYPTION_NONCE_SIZE with 24 in *.
    change ENCRYPTION_PADDING_SIZE with 1 in *. change DATA_PACKET_HEADER_SIZE with 4 in *.
    destruct A5 as [(E & K1 & K2)|(E & LV & NK & KE)].
    - rewrite K1 in HE. assert (w = p) as -> by (destruct (cs_level s); congruence). rewrite <- A3, E in SZ. lia.
    - rewrite LV, A3 in HE. rewrite A3 in E. destruct (cs_key s) as [k|]; [|congruence].
      destruct E as [E|[E|E]]; rewrite E in *.
      + destruct (has_type T_DATA p) eqn:T; [|injection HE as <-; lia].
        apply encrypt_len in HE; [|assumption..]. pose proof (data_size _ _ HP T) as DS. unfold bs_enc in DS. rewrite E in DS.
        change ENCRYPTION_TAG_SIZE with 16 in *. change ENCRYPTION_NONCE_SIZE with 24 in *. lia.
      + apply enc_packet_round in HE; [|assumption..]. lia.
      + apply enc_packet_round in HE; [|assumption..]. lia. }
  unfold srv_dec. rewrite takeN_all by lia.
  destruct HP as (pk & -> & HP).
  rewrite (proj2 (agreement_suffices _ _ _ _ HA HC) n pk w Hn); [reflexivity| | |exact HE];
    intros r ->; contradiction.
Qed.

Lemma server_emitted e i plain new : c_opts (en_conn e) = es_opts x -> en_key e = es_key x ->
  Forall (plain_ok (es_opts x)) plain -> server_sealed c e i (map OPlain plain) new ->
  emitted (client_dec c s (op_bs oq)) i plain new.
Proof.
  intros EO EK HF HS. unfold server_sealed in HS. unfold emitted. revert new HS.
  induction HF as [|p l Hp HF IH]; intros new HS; inversion HS as [|? d ? ? H HS']; subst; constructor; [|auto].
  destruct H as (SH & GH & n & Hn & HE). rewrite EO, EK in HE. split; [|exact GH].
  eapply server_wire; eassumption.
Qed.
Lemma client_emitted i plain new :
  Forall (plain_ok (es_opts x)) plain -> client_sealed c s i plain new ->
  emitted (srv_dec c x L) i plain new.
Proof.
  intros HF HS. unfold client_sealed in HS. unfold emitted. revert new HS.
  induction HF as [|p l Hp HF IH]; intros new HS; inversion HS as [|? d ? ? H HS']; subst; constructor; [|auto].
  destruct H as (SH & GH & n & Hn & HE). split; [|exact GH].
  eapply client_wire; eassumption.
Qed.
End A.

(** * What each program sends *)
Lemma timeout_plain o cn t now sock txt d plain : timeout_client cn t now sock txt = (d, plain) -> Forall (plain_ok o) plain.
Proof.
  unfold timeout_client. destruct (_ || _)%bool; [intros [= _ <-]; constructor|].
  destruct (_ <=? _); [intros [= _ <-]; constructor|]. intros [= _ <-].
  destruct sock; cbn [when]; constructor; [apply plain_error|constructor].
Qed.
Lemma write_plain o dec cn w x now max io sh sock txt cn' w' plain :
  handle_write dec cn w x now max io sh sock txt = (cn', w', plain) -> Forall (plain_ok o) plain.
Proof.
  unfold handle_write. destruct (dec x) as [p|]; [|intros [= _ _ <-]; constructor].
  destruct (from_bytes p) as [[]| |]; try (intros [= _ _ <-]; constructor).
  unfold srv_write_block. destruct (write_block _ _ _ _ _) as [w1 res].
  assert (H1 : forall b q, plain_ok o q -> Forall (plain_ok o) (when b [q])) by (intros [] q Hq; repeat constructor; exact Hq).
  destruct res as [[n i]|[cc i|cc i|]|]; cbn match.
  - destruct (negb _); intros [= _ _ <-]; apply H1; [apply plain_error|apply plain_ack].
  - intros [= _ _ <-]; apply H1; apply plain_ack.
  - intros [= _ _ <-]; apply H1; apply plain_ack.
  - intros [= _ _ <-]; apply H1; apply plain_error.
  - intros [= _ _ <-]; apply H1; apply plain_error.
Qed.
Lemma recv_plain o dec o' max tmo cl e now io sh sock txt cl' plain st :
  recv_step dec o' max tmo cl e now io sh sock txt = (cl', plain, st) -> Forall (plain_ok o) plain.
Proof.
  assert (H1 : forall b q, plain_ok o q -> Forall (plain_ok o) (when b [q])) by (intros [] q Hq; repeat constructor; exact Hq).
  destruct e as [fp x| |]; cbn [recv_step]; [|intros [= _ <- _]; constructor|intros [= _ <- _]; constructor].
  destruct (dec x) as [p|]; [|intros [= _ <- _]; constructor].
  destruct fp; cbn [negb]; [|intros [= _ <- _]; constructor].
  destruct (from_bytes p) as [[]| |]; try (intros [= _ <- _]; constructor).
  unfold cl_write_block. destruct (write_block _ _ _ _ _) as [w1 res].
  destruct res as [[n i]|[cc i|cc i|]|]; cbn match.
  - destruct (negb _); [intros [= _ <- _]; apply H1, plain_error|].
    destruct (_ && _)%bool; intros [= _ <- _]; [constructor|apply H1, plain_ack].
  - destruct (_ && _)%bool; intros [= _ <- _]; [constructor|apply H1, plain_ack].
  - destruct (_ && _)%bool; intros [= _ <- _]; [constructor|apply H1, plain_ack].
  - intros [= _ <- _]; constructor.
  - intros [= _ <- _]; constructor.
Qed.

Section S.
Variable P : params.
Hypothesis HP : valid P.
Lemma next_size decR decS s r wr data acks sr ss cap retry io r' b :
  Core P decR decS s r wr data acks sr ss -> p_bs P <= cap ->
  reader_next (p_file P) r cap retry io = (r', Ok (Some b)) -> blen (o_data b) <= p_bs P.
Proof.
  intros C Hcap ER. destruct (core_next P _ _ HP _ _ _ _ _ _ _ _ _ _ _ _ C Hcap ER) as (s' & Es & _ & _).
  destruct (bs_pos P HP) as (B1 & B2 & B3). destruct C as (m & H1 & _).
  pose proof (spec_next_cases (p_file P) (p_bs P) _ cap B1 B2 Hcap (p_kind P) s retry io (proj1 H1)) as CC. rewrite Es in CC.
  destruct CC as (_ & _ & _ & _ & -> & _). apply block_le.
Qed.
Lemma send_plain st buflen now io sock txt c' r' plain b : dreach P st ->
  send_data_block (p_file P) (d_conn st) (d_reader st) buflen now io sock txt = (c', r', plain, b) ->
  Forall (plain_ok (p_opts P)) plain.
Proof.
  intros R E. destruct (dreach_inv P HP st R) as [s (C & HO & _)]. unfold send_data_block in E.
  destruct (bs_pos P HP) as (B1 & B2 & B3).
  destruct (reader_next _ _ _ _ _) as [r1 res] eqn:ER.
  assert (H1 : forall b q, plain_ok (p_opts P) q -> Forall (plain_ok (p_opts P)) (when b [q])) by (intros [] q Hq; repeat constructor; exact Hq).
  destruct res as [[bl|]|[|]|]; injection E as _ _ <- _; try constructor; apply H1; try apply plain_error.
  apply plain_data. change (bs_enc (p_opts P)) with (p_bs P).
  eapply next_size; [exact C| |exact ER]. unfold DATA_PACKET_HEADER_SIZE. rewrite HO. lia.
Qed.
Lemma csend_plain st buflen retry io sock cl' plain stat' : ureach P st ->
  op_bs (p_opts P) + DATA_PACKET_HEADER_SIZE <= buflen ->
  sender_send (p_file P) (u_cl st) buflen retry io sock = (cl', plain, stat') ->
  Forall (plain_ok (p_opts P)) plain.
Proof.
  intros R Hb E. destruct (ureach_inv P HP st R) as [s (C & _)]. unfold sender_send in E.
  destruct (bs_pos P HP) as (B1 & B2 & B3).
  destruct (reader_next _ _ _ _ _) as [r1 res] eqn:ER.
  destruct res as [[bl|]|[|]|]; try (injection E as _ <- _; constructor).
  destruct sock as [[]|]; injection E as _ <- _; constructor; [|constructor].
  apply plain_data. change (bs_enc (p_opts P)) with (p_bs P).
  eapply next_size; [exact C| |exact ER]. unfold DATA_PACKET_HEADER_SIZE in *. lia.
Qed.
End S.
