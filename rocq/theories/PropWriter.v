(** Block writer (C13). *)
From Verif Require Import Base BaseProofs MapperModel MapperProofs ReaderModel WriterSpec WriterProofs.

(** Any sequence of packets, any device behaviour: the output is what it was plus the
    accepted payloads (as far as the device took them), accepted are exactly the packets
    resolved to the next index, others change nothing and report the last block written. *)
Theorem writer_step : forall w b d io short,
  let i := fst (map_index (w_map w) b) in
  let '(w', r) := write_block w b d io short in
  match r with
  | Ok (c, j) => i = w_written w + 1 /\ io = false /\ j = w_written w + 1 /\ w_written w' = j /\
      w_out w' = w_out w ++ match short with Some x => takeN x d | None => d end /\
      c = blen (match short with Some x => takeN x d | None => d end)
  | Err WFile => i = w_written w + 1 /\ io = true /\ w_out w' = w_out w /\ w_written w' = w_written w
  | Err (AlreadyWritten c j) => i <= w_written w /\ j = w_written w /\ c = j mod 65536 /\
      w_out w' = w_out w /\ w_written w' = w_written w
  | Err (ExpectedBlock c j) => w_written w + 1 < i /\ j = w_written w /\ c = j mod 65536 /\
      w_out w' = w_out w /\ w_written w' = w_written w
  | Panic => False
  end.
Proof.
  intros w b d io short. pose proof (write_block_cases w b d io short) as C. cbn zeta in *.
  destruct (write_block w b d io short). apply C.
Qed.
Print Assumptions writer_step.

Theorem writer_appends_accepted : forall l, Forall (fun o => wo_short o = None) l ->
  w_out (fst (run_writer writer_new l)) = concat (accepted l (snd (run_writer writer_new l))).
Proof.
  intros l HF.
  enough (G : forall w, w_out (fst (run_writer w l)) = w_out w ++ concat (accepted l (snd (run_writer w l))))
    by apply (G writer_new).
  induction HF as [|o l Ho HF IH]; intros w; cbn [run_writer]; [symmetry; apply app_nil_r|].
  pose proof (write_block_cases w (wo_block o) (wo_data o) (wo_io o) (wo_short o)) as C.
  cbn zeta in C. rewrite Ho in *.
  destruct (write_block w (wo_block o) (wo_data o) (wo_io o) None) as [w1 r].
  specialize (IH w1). destruct (run_writer w1 l) as [w2 rs]. cbn [fst snd] in *.
  destruct C as [_ C]. rewrite IH.
  destruct r as [[c j]|[c j|c j|]|]; cbn [accepted].
  - destruct C as (_ & _ & _ & _ & E & _). rewrite E, <- app_assoc. reflexivity.
  - destruct C as (_ & _ & _ & E & _). rewrite E. reflexivity.
  - destruct C as (_ & _ & _ & E & _). rewrite E. reflexivity.
  - destruct C as (_ & _ & E & _). rewrite E. reflexivity.
  - destruct C.
Qed.
Print Assumptions writer_appends_accepted.

(** If packets carry the payloads of a fixed transfer and arrive in any order, with any
    duplications and losses (at most 10000 blocks away from the newest), the output is
    payload 1 .. payload k, k being the length of the in-order reception. *)
Theorem writer_exactly_once_in_order : forall payload l, within 10000 0 l ->
  let '(w', rs) := run_writer writer_new (map (full_op payload) l) in
  w_out w' = payloads payload (received l 0) /\
  rs = replies 0 payload l.
Proof.
  intros payload l HW.
  pose proof (run_writer_near payload l writer_new 0 mapper_new_inv HW eq_refl) as H.
  destruct (run_writer writer_new (map (full_op payload) l)) as [w' rs].
  destruct H as (H1 & H2 & H3). rewrite H2, H1. auto.
Qed.
Print Assumptions writer_exactly_once_in_order.
Example writer_case :
  within 10000 0 [2; 1; 1; 3; 2; 4; 2; 3] /\
  w_out (fst (run_writer writer_new (map (full_op (fun i => [i; i])) [2; 1; 1; 3; 2; 4; 2; 3]))) = [1;1;2;2;3;3].
Proof. split; [vm_compute; intuition discriminate|reflexivity]. Qed.
