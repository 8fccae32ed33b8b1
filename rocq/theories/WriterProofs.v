From Verif Require Import Base BaseProofs MapperModel MapperProofs ReaderModel WriterSpec.

Lemma write_block_cases w b d io short :
  let i := fst (map_index (w_map w) b) in
  let '(w', r) := write_block w b d io short in
  w_map w' = snd (map_index (w_map w) b) /\
  match r with
  | Ok (c, j) => i = w_written w + 1 /\ io = false /\ j = w_written w + 1 /\ w_written w' = j /\
      w_out w' = w_out w ++ match short with Some x => takeN x d | None => d end /\
      c = blen (match short with Some x => takeN x d | None => d end)
  | Err WFile => i = w_written w + 1 /\ io = true /\ w_out w' = w_out w /\ w_written w' = w_written w
  | Err (AlreadyWritten c j) => i <= w_written w /\ j = w_written w /\ c = j mod 65536 /\
      w_out w' = w_out w /\ w_written w' = w_written w
  | Err (ExpectedBlock c j) => w_written w + 1 < i /\ j = w_written w /\ c = j mod 65536 /\
      w_out w' = w_out w /\ w_written w' = w_written w
  | Panic => False
  end.
Proof.
  unfold write_block. destruct (map_index (w_map w) b) as [i m]. cbn [fst snd].
  destruct (N.ltb_spec i (w_written w + 1)); [cbn; rewrite map_block_mod; repeat split; lia|].
  destruct (N.ltb_spec (w_written w + 1) i); [cbn; rewrite map_block_mod; repeat split; lia|].
  destruct io; cbn; repeat split; lia.
Qed.
Lemma payloads_snoc payload k : payloads payload (k + 1) = payloads payload k ++ payload (k + 1).
Proof.
  unfold payloads. rewrite N2Nat.inj_add. change (N.to_nat 1) with 1%nat.
  rewrite seq_app, map_app, concat_app. cbn. rewrite app_nil_r. do 2 f_equal. lia.
Qed.
Lemma run_writer_near payload l : forall w M, MapInv (w_map w) M -> within 10000 M l ->
  w_out w = payloads payload (w_written w) ->
  let '(w', rs) := run_writer w (map (full_op payload) l) in
  w_written w' = received l (w_written w) /\
  w_out w' = payloads payload (w_written w') /\
  rs = replies (w_written w) payload l.
Proof.
  induction l as [|i l IH]; intros w M HI HW HO; cbn [run_writer map replies received fold_left]; [auto|].
  destruct HW as (H1 & H2 & HW). destruct (map_index_near _ _ i HI H1 H2) as [E HI'].
  pose proof (write_block_cases w (i mod 65536) (payload i) false None) as C.
  cbn zeta in C. rewrite E in C. cbn [full_op wo_block wo_data wo_io wo_short].
  destruct (write_block w (i mod 65536) (payload i) false None) as [w1 r].
  destruct C as [C0 C]. rewrite <- C0 in HI'.
  assert (HH : w_written w1 = in_order (w_written w) i /\ r = reply (w_written w) i (payload i) /\
               w_out w1 = payloads payload (w_written w1)).
  { unfold in_order, reply. destruct r as [[c j]|[c j|c j|]|].
    - destruct C as (C1 & _ & -> & C3 & C4 & ->). subst i. rewrite N.eqb_refl, C3, C4, HO, payloads_snoc. auto.
    - destruct C as (C1 & -> & -> & C4 & C5).
      assert (Hne : (i =? w_written w + 1) = false) by lia.
      assert (Hle : (i <=? w_written w) = true) by lia.
      rewrite Hne, Hle, C4, C5. auto.
    - destruct C as (C1 & -> & -> & C4 & C5).
      assert (Hne : (i =? w_written w + 1) = false) by lia.
      assert (Hle : (i <=? w_written w) = false) by lia.
      rewrite Hne, Hle, C4, C5. auto.
    - destruct C as (_ & C & _). discriminate.
    - destruct C. }
  destruct HH as (HH1 & HH2 & HH3).
  specialize (IH w1 _ HI' HW HH3).
  destruct (run_writer w1 (map (full_op payload) l)) as [w2 rs].
  destruct IH as (I1 & I2 & I3). rewrite HH1 in *. subst. auto.
Qed.
