(** The local file of `receive`, block after block, with or without a file key. *)
From Verif Require Import Base BaseProofs PacketModel ReaderModel ReaderSpec BlockLemmas ConfigModel CryptoModel StreamModel StreamSpec FsModel DiskModel RunModel RunSpec RunProofs PropRun SealSpec.
From Verif Require CliModel.

Definition opening (c : crypto) (s : swritr) (l : list bytes) : swritr := fold_left (fun s b => fst (sw_write c s b false None)) l s.
Lemma opening_writes c s l t : StreamSpec.writes c s l t -> opening c s l = t.
Proof. intros H. induction H as [s|s s' s'' b l E H IH]; [reflexivity|]. unfold opening in *. cbn [fold_left]. rewrite E. exact IH. Qed.
Lemma opening_step c s l t m b : StreamSpec.writes c s l t -> nth_error l m = Some b ->
  sw_write c (opening c s (firstn m l)) b false None = (opening c s (firstn (S m) l), Ok (blen b)).
Proof.
  intros H. revert m. induction H as [s|s s' s'' b0 l E H IH]; intros m HM; [destruct m; discriminate|].
  destruct m as [|m]; cbn [nth_error firstn] in *.
  - injection HM as <-. unfold opening. cbn [fold_left firstn]. rewrite E. reflexivity.
  - specialize (IH m HM). unfold opening in *. cbn [fold_left]. rewrite E. cbn [fst]. exact IH.
Qed.
Lemma firstn_seqN a : forall n m, (m <= n)%nat -> firstn m (seqN a n) = seqN a m.
Proof.
  intros n m H. replace n with (m + (n - m))%nat by lia. rewrite seqN_app. rewrite firstn_app, seqN_length, Nat.sub_diag. cbn [firstn]. rewrite app_nil_r.
  rewrite <- (seqN_length a m) at 1. apply firstn_all.
Qed.
Lemma firstn_blocks F bs m : m <= nblocks F bs -> firstn (N.to_nat m) (blocks_of F bs) = map (block_of F bs) (seqN 1 (N.to_nat m)).
Proof. intros H. unfold blocks_of. rewrite firstn_map, firstn_seqN by lia. reflexivity. Qed.
Lemma nth_seqN : forall n a m, (m < n)%nat -> nth_error (seqN a n) m = Some (a + N.of_nat m).
Proof.
  induction n as [|n IH]; intros a m H; [lia|]. cbn [seqN]. destruct m as [|m]; cbn [nth_error]; [f_equal; lia|]. rewrite IH by lia. f_equal. lia.
Qed.
Lemma nth_blocks F bs m : m < nblocks F bs -> nth_error (blocks_of F bs) (N.to_nat m) = Some (block_of F bs (m + 1)).
Proof.
  intros H. unfold blocks_of. rewrite nth_error_map, nth_seqN by lia. cbn [option_map]. do 2 f_equal. lia.
Qed.
Lemma opens_steps g F bs D : 0 < bs -> opens g F bs D ->
  exists (keptAt : N -> bytes) (strAt : N -> option swritr),
    (keptAt 0 = [] /\ strAt 0 = option_map sw_new (CliModel.cl_file_key (ru_start g))) /\
    (forall j f lid, j < nblocks F bs -> f_data f lid = keptAt j ->
      sink_write (ru_c g) f (mkSink lid (blen (keptAt j)) (strAt j)) (block_of F bs (j + 1)) false None =
        (set_data f lid (keptAt (j + 1)), mkSink lid (blen (keptAt (j + 1))) (strAt (j + 1)), Ok (blen (block_of F bs (j + 1))))) /\
    keptAt (nblocks F bs) = D.
Proof.
  intros HB. unfold opens. destruct (CliModel.cl_file_key (ru_start g)) as [key|].
  - intros (u & WR & UO). set (at_ := fun j => opening (ru_c g) (sw_new key) (firstn (N.to_nat j) (blocks_of F bs))).
    exists (fun j => sw_out (at_ j)), (fun j => Some (at_ j)). split; [split; reflexivity|]. split.
    + intros j f lid HJ FD. unfold sink_write. cbn [sk_stream sk_id sk_pos].
      pose proof (opening_step _ _ _ _ _ _ WR (nth_blocks F bs j HJ)) as E. fold (at_ j) in E. replace (S (N.to_nat j)) with (N.to_nat (j + 1)) in E by lia. fold (at_ (j + 1)) in E.
      rewrite E. destruct (sw_write_out _ _ _ _ _ _ _ E) as (part & EO & _). rewrite EO, FD, dropN_app_exact by reflexivity. rewrite write_at_end, blen_app. reflexivity.
    + cbv beta. unfold at_. rewrite firstn_all2; [|unfold blocks_of; rewrite map_length, seqN_length; lia]. rewrite (opening_writes _ _ _ _ WR). exact UO.
  - intros ->. exists (fun j => concat (map (block_of F bs) (seqN 1 (N.to_nat j)))), (fun _ => None). split; [split; reflexivity|]. split.
    + intros j f lid HJ FD. unfold sink_write. cbn [sk_stream sk_id sk_pos]. rewrite FD, write_at_end.
      assert (E : concat (map (block_of F bs) (seqN 1 (N.to_nat (j + 1)))) = concat (map (block_of F bs) (seqN 1 (N.to_nat j))) ++ block_of F bs (j + 1)).
      { replace (N.to_nat (j + 1)) with (N.to_nat j + 1)%nat by lia. rewrite seqN_app, map_app, concat_app. cbn [seqN map concat]. rewrite app_nil_r. do 2 f_equal. lia. }
      rewrite E, blen_app. reflexivity.
    + exact (blocks_of_concat F bs HB).
Qed.
