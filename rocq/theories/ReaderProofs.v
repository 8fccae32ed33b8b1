(** The three readers refine the window specification. *)
From Coq Require Import Permutation.
From Verif Require Import Base BaseProofs MapperModel MapperProofs ReaderModel ReaderSpec BlockLemmas.

Section R.
Variables (file : bytes) (bs w cap : N).
Hypothesis Hbs : 0 < bs.
Hypothesis Hbs16 : bs < 65536.
Hypothesis Hcap : bs <= cap.
Notation n := (nblocks file bs).
Notation blk := (block_of file bs).
Notation pre := (prefix_size file bs).

(** Invariant of the specification itself. *)
Definition WinOk (k : kind) (s : win) : Prop :=
  conf s <= cur s /\ cur s <= hi s /\ hi s <= n /\ hi s - conf s <= window_of k w /\
  (k = KSingle -> cur s = hi s).

Lemma win_init_ok k : WinOk k (mkWin 0 0 0).
Proof. unfold WinOk; cbn. lia. Qed.
Lemma spec_next_ok k s retry io : WinOk k s -> WinOk k (fst (spec_next k file bs w s retry io)).
Proof.
  intros (H1 & H2 & H3 & H4 & H5). unfold spec_next.
  destruct (N.eqb_spec (conf s) n) as [E|E]; [unfold WinOk; cbn; auto|].
  destruct (retry && (conf s <? hi s))%bool eqn:E1.
  { apply andb_prop in E1 as [_ E1].
    destruct k; [pose proof (H5 eq_refl)| |destruct io]; cbn [fst]; unfold WinOk; cbn [window_of conf hi cur] in *;
      repeat split; try lia; discriminate. }
  destruct (N.ltb_spec (cur s) (hi s)).
  { destruct k; [specialize (H5 eq_refl); lia| |destruct io]; cbn [fst]; unfold WinOk; cbn [window_of conf hi cur] in *;
      repeat split; try lia; discriminate. }
  destruct ((hi s =? n) || (window_of k w <=? hi s - conf s))%bool eqn:E2; [unfold WinOk; cbn; auto|].
  apply orb_false_iff in E2 as [E2 E3].
  destruct io; cbn; unfold WinOk; cbn; [auto|]. lia.
Qed.
Lemma spec_free_ok k s i : WinOk k s -> WinOk k (fst (spec_free k file bs s i)).
Proof.
  intros (H1 & H2 & H3 & H4 & H5). unfold spec_free.
  destruct k; cbn zeta.
  - specialize (H5 eq_refl).
    destruct ((i =? hi s) && (conf s <? hi s))%bool eqn:E; cbn [fst]; unfold WinOk; cbn [window_of conf hi cur] in *;
      repeat split; lia.
  - destruct (N.ltb_spec (conf s) (N.min i (hi s))); cbn [fst]; unfold WinOk; cbn [window_of conf hi cur] in *;
      repeat split; try lia; discriminate.
  - destruct (N.ltb_spec (conf s) (N.min i (hi s))); cbn [fst]; unfold WinOk; cbn [window_of conf hi cur] in *;
      repeat split; try lia; discriminate.
Qed.

(** ** Stop-and-wait reader *)
Definition SimS (r : sreader) (m : mapper) (s : win) : Prop :=
  s_map r = m /\ s_bs r = bs /\ s_read r = hi s /\ cur s = hi s /\ hi s <= n /\
  s_pos r = pre (hi s) /\ s_fin r = (hi s =? n) /\
  ((s_last r = None /\ conf s = hi s /\ (hi s < n -> blen (s_buf r) = bs)) \/
   (s_last r = Some (blen (s_buf r)) /\ conf s + 1 = hi s /\ s_buf r = blk (hi s))).

Lemma simS_init : SimS (single_new bs) mapper_new (mkWin 0 0 0).
Proof.
  unfold SimS, single_new; cbn. rewrite prefix_0.
  pose proof (nblocks_bounds file bs Hbs). repeat split; try lia;
    try (destruct n eqn:?; [lia|reflexivity]).
  left. repeat split. intros _. unfold blen. rewrite repeat_length. lia.
Qed.
Lemma simS_finished r m s : SimS r m s -> single_finished r = spec_finished file bs s.
Proof.
  intros (_ & _ & _ & _ & Hn & _ & Hf & [(E & Hc & _)|(E & Hc & _)]);
    unfold single_finished, spec_finished; rewrite E.
  - rewrite Hf, Hc. reflexivity.
  - symmetry. apply N.eqb_neq. lia.
Qed.
Lemma simS_next r m s retry io : SimS r m s ->
  snd (single_next file r cap retry io) = snd (spec_next KSingle file bs w s retry io) /\
  SimS (fst (single_next file r cap retry io)) m (fst (spec_next KSingle file bs w s retry io)).
Proof.
  intros S. pose proof (simS_finished _ _ _ S) as HF.
  pose proof S as (Hm & Hb & Hr & Hcur & Hn & Hpos & Hf & Hl).
  unfold single_next, spec_next. rewrite HF. unfold spec_finished.
  destruct (N.eqb_spec (conf s) n) as [E|E]; [split; [reflexivity|exact S]|].
  destruct Hl as [(El & Hc & Hbuf)|(El & Hc & Hbuf)]; rewrite El.
  - assert (Hlt : (conf s <? hi s) = false) by lia. rewrite Hlt, andb_false_r.
    assert (Hcu : (cur s <? hi s) = false) by lia. rewrite Hcu.
    assert (Hnn : (hi s =? n) = false) by lia. rewrite Hnn.
    assert (Hww : (window_of KSingle w <=? hi s - conf s) = false) by (cbn; lia).
    rewrite Hww. cbn [orb]. destruct io; [split; [reflexivity|exact S]|].
    rewrite Hbuf by lia. rewrite Hpos, read_next by lia.
    pose proof (block_le file bs (hi s + 1)) as Hle.
    assert (Hcap' : (blen (blk (hi s + 1)) <=? cap) = true) by lia. rewrite Hcap'.
    cbn [fst snd s_read s_pos s_map s_bs s_fin]. rewrite Hr. split.
    + unfold emit. rewrite map_block_mod. reflexivity.
    + unfold SimS. cbn [s_map s_bs s_read s_pos s_fin s_last s_buf conf hi cur].
      rewrite prefix_step by lia. repeat split; try assumption; try lia.
      * pose proof (block_short file bs Hbs (hi s + 1) ltac:(lia) ltac:(lia)) as Hs.
        rewrite Hb. destruct (N.ltb_spec (blen (blk (hi s + 1))) bs) as [H|H].
        -- symmetry. apply N.eqb_eq. tauto.
        -- rewrite Hf. symmetry. transitivity false; [|lia].
           apply N.eqb_neq. intros Hx%Hs. lia.
      * right. split; [f_equal; apply N.mod_small; lia|]. split; [lia|reflexivity].
  - assert (Hlt : (conf s <? hi s) = true) by lia. rewrite Hlt.
    destruct retry; cbn [andb].
    + pose proof (block_le file bs (hi s)) as Hle.
      assert (Hcap' : (blen (s_buf r) <=? cap) = true) by (rewrite Hbuf; lia). rewrite Hcap'.
      cbn [fst snd]. split.
      * unfold emit. rewrite Hr, map_block_mod, Hbuf. rewrite Hc. reflexivity.
      * unfold SimS. cbn [conf hi cur]. repeat split; try assumption; try lia.
        right. auto.
    + assert (Hcu : (cur s <? hi s) = false) by lia. rewrite Hcu.
      assert (Hww : (window_of KSingle w <=? hi s - conf s) = true) by (cbn; lia).
      rewrite Hww, orb_true_r. split; [reflexivity|exact S].
Qed.
Lemma simS_free r m s b : SimS r m s ->
  snd (single_free r b) = snd (spec_free KSingle file bs s (fst (map_index m b))) /\
  SimS (fst (single_free r b)) (snd (map_index m b))
       (fst (spec_free KSingle file bs s (fst (map_index m b)))).
Proof.
  intros (Hm & Hb & Hr & Hcur & Hn & Hpos & Hf & Hl).
  unfold single_free, spec_free. rewrite Hm. destruct (map_index m b) as [i m'] eqn:Ei.
  cbn [fst snd]. rewrite Hr. destruct (N.eqb_spec (hi s) i) as [E|E].
  - subst i. rewrite N.eqb_refl. cbn [andb].
    destruct Hl as [(El & Hc & Hbuf)|(El & Hc & Hbuf)]; rewrite El.
    + assert (Hlt : (conf s <? hi s) = false) by lia. rewrite Hlt. cbn [fst snd].
      split; [reflexivity|]. unfold SimS. cbn. repeat split; try assumption. left. auto.
    + assert (Hlt : (conf s <? hi s) = true) by lia. rewrite Hlt. cbn [fst snd].
      rewrite N.min_id. split.
      * pose proof (prefix_step file bs Hbs (conf s) ltac:(lia)) as P. rewrite Hc in P.
        rewrite Hbuf. lia.
      * unfold SimS. cbn. repeat split; try assumption; try lia. left. repeat split.
        intros Hlt'. rewrite Hbuf. apply block_full; lia.
  - assert (Hne : (i =? hi s) = false) by lia. rewrite Hne. cbn [andb fst snd].
    split; [reflexivity|]. unfold SimS. cbn. repeat split; assumption.
Qed.

(** ** Buffering reader *)
Definition idxs (l : list mbuf) : list N :=
  flat_map (fun b => match b_index b with Some i => [i] | None => [] end) l.
Lemma in_use_idxs l : in_use l = N.of_nat (length (idxs l)).
Proof.
  unfold in_use. f_equal. induction l as [|b l IH]; [reflexivity|].
  cbn [filter idxs flat_map]. rewrite app_length. fold (idxs l).
  destruct (b_index b); cbn [length]; lia.
Qed.
Lemma in_idxs l i : In i (idxs l) <-> exists d, In (mkB d (Some i)) l.
Proof.
  unfold idxs. rewrite in_flat_map. split.
  - intros ([d [j|]] & Hin & H); cbn in H; [|destruct H]. destruct H as [->|[]]. exists d. assumption.
  - intros (d & Hin). exists (mkB d (Some i)). split; [assumption|]. left. reflexivity.
Qed.
Lemma min_buf_some l i d : min_buf l = Some (i, d) ->
  In (mkB d (Some i)) l /\ forall j, In j (idxs l) -> i <= j.
Proof.
  revert i d; induction l as [|[d0 [i0|]] l IH]; cbn [min_buf b_index b_data]; intros i d H.
  - discriminate.
  - destruct (min_buf l) as [[j e]|] eqn:E.
    + destruct (IH j e eq_refl) as [IH1 IH2]. destruct (N.ltb_spec j i0).
      * injection H as <- <-. split; [right; assumption|].
        intros x Hx. cbn in Hx. destruct Hx as [<-|Hx]; [lia|]. apply IH2. exact Hx.
      * injection H as <- <-. split; [left; reflexivity|].
        intros x Hx. cbn in Hx. destruct Hx as [<-|Hx]; [lia|]. specialize (IH2 x Hx). lia.
    + injection H as <- <-. split; [left; reflexivity|].
      intros x Hx. cbn in Hx. destruct Hx as [<-|Hx]; [lia|]. exfalso.
      clear IH. revert Hx. fold (idxs l). intros Hx.
      assert (Hnil : min_buf l = None -> idxs l = []).
      { clear. induction l as [|[d [i|]] l IH]; cbn; intros H; [reflexivity| |].
        - destruct (min_buf l) as [[j e]|]; [destruct (j <? i)|]; discriminate.
        - apply IH. assumption. }
      rewrite (Hnil E) in Hx. destruct Hx.
  - destruct (IH i d H) as [IH1 IH2]. split; [right; assumption|]. exact IH2.
Qed.
Lemma min_buf_none l : min_buf l = None -> idxs l = [].
Proof.
  induction l as [|[d [i|]] l IH]; cbn; intros H; [reflexivity| |].
  - destruct (min_buf l) as [[j e]|]; [destruct (j <? i)|]; discriminate.
  - apply IH. assumption.
Qed.
Lemma find_buf_some l i d : find_buf l i = Some d -> In (mkB d (Some i)) l.
Proof.
  induction l as [|[e [j|]] l IH]; cbn; intros H; [discriminate| |].
  - destruct (N.eqb_spec j i) as [->|]; [injection H as ->; left; reflexivity|right; auto].
  - right; auto.
Qed.
Lemma find_buf_none l i : find_buf l i = None -> ~ In i (idxs l).
Proof.
  induction l as [|[e [j|]] l IH]; cbn; intros H Hin; [assumption| |].
  - destruct (N.eqb_spec j i) as [->|Hne]; [discriminate|]. destruct Hin as [?|Hin]; [congruence|].
    apply IH; assumption.
  - apply IH; assumption.
Qed.
Lemma free_slot_some l d : free_slot l = Some d -> In (mkB d None) l.
Proof.
  induction l as [|[e [j|]] l IH]; cbn; intros H; [discriminate|right; auto|].
  injection H as ->. left; reflexivity.
Qed.
Lemma free_slot_none l : free_slot l = None -> length (idxs l) = length l.
Proof.
  induction l as [|[e [j|]] l IH]; cbn; intros H; [reflexivity| |discriminate].
  f_equal. apply IH. assumption.
Qed.
Lemma free_slot_app l d : free_slot l = None -> free_slot (l ++ [mkB d None]) = Some d.
Proof.
  induction l as [|[e [j|]] l IH]; cbn; intros H; [reflexivity|auto|discriminate].
Qed.
Lemma set_slot_idxs l d e i : free_slot l = Some d ->
  Permutation (idxs (set_slot l (mkB e (Some i)))) (i :: idxs l).
Proof.
  induction l as [|[e0 [j|]] l IH]; cbn; intros H; [discriminate| |apply Permutation_refl].
  fold (idxs (set_slot l (mkB e (Some i)))). fold (idxs l).
  eapply Permutation_trans; [apply perm_skip, IH; assumption|]. apply perm_swap.
Qed.
Lemma set_slot_in l x b : In b (set_slot l x) -> b = x \/ In b l.
Proof.
  induction l as [|[e0 [j|]] l IH]; cbn; intros H; [tauto| |].
  - destruct H as [H|H]; [auto|]. destruct (IH H); auto.
  - destruct H as [H|H]; auto.
Qed.
Lemma set_slot_length l x : length (set_slot l x) = length l.
Proof. induction l as [|[e0 [j|]] l IH]; cbn; congruence. Qed.
Lemma idxs_app l l' : idxs (l ++ l') = idxs l ++ idxs l'.
Proof. apply flat_map_app. Qed.

Lemma release_spec l i : let '(l', size, last) := release l i in
  idxs l' = filter (fun x => negb (x <=? i)) (idxs l) /\
  length l' = length l /\
  (forall b, In b l' -> In b l \/ (b_index b = None /\ exists j, In (mkB (b_data b) (Some j)) l)) /\
  (forall f, (forall d j, In (mkB d (Some j)) l -> blen d = f j) ->
     size = sumN (map f (filter (fun x => x <=? i) (idxs l)))) /\
  (match last with
   | None => filter (fun x => x <=? i) (idxs l) = []
   | Some k => In k (filter (fun x => x <=? i) (idxs l)) /\
               forall j, In j (filter (fun x => x <=? i) (idxs l)) -> j <= k
   end).
Proof.
  induction l as [|[d [j|]] l IH]; cbn [release b_index b_data].
  - cbn. repeat split; auto.
  - destruct (release l i) as [[l' size] last].
    destruct IH as (I1 & I2 & I3 & I4 & I5).
    change (idxs (mkB d (Some j) :: l)) with (j :: idxs l). cbn [filter].
    destruct (N.leb_spec j i) as [E|E]; cbn [negb].
    + split; [|split; [|split; [|split]]].
      * change (idxs (mkB d None :: l')) with (idxs l'). assumption.
      * cbn. congruence.
      * intros b [<-|Hb].
        -- right. cbn. split; [reflexivity|]. exists j. left. reflexivity.
        -- destruct (I3 b Hb) as [H|(H1 & j' & H2)]; [left; right; assumption|].
           right. split; [assumption|]. exists j'. right. assumption.
      * intros f Hf. cbn [map]. rewrite sumN_cons.
        rewrite (Hf d j) by (left; reflexivity). f_equal. apply I4.
        intros d' j' Hin. apply Hf. right. assumption.
      * destruct last as [k|].
        -- destruct I5 as [I5 I6]. split.
           ++ destruct (N.max_spec j k) as [[_ ->]|[_ ->]]; [right; assumption|left; reflexivity].
           ++ intros j' [<-|Hj']; [lia|]. specialize (I6 j' Hj'). lia.
        -- split; [left; reflexivity|]. rewrite I5. intros j' [<-|[]]. lia.
    + split; [|split; [|split; [|split]]].
      * change (idxs (mkB d (Some j) :: l')) with (j :: idxs l'). f_equal. assumption.
      * cbn. congruence.
      * intros b [<-|Hb]; [left; left; reflexivity|].
        destruct (I3 b Hb) as [H|(H1 & j' & H2)]; [left; right; assumption|].
        right. split; [assumption|]. exists j'. right. assumption.
      * intros f Hf. apply I4. intros d' j' Hin. apply Hf. right. assumption.
      * assumption.
  - destruct (release l i) as [[l' size] last].
    destruct IH as (I1 & I2 & I3 & I4 & I5).
    change (idxs (mkB d None :: l)) with (idxs l).
    split; [|split; [|split; [|split]]].
    + change (idxs (mkB d None :: l')) with (idxs l'). assumption.
    + cbn. congruence.
    + intros b [<-|Hb]; [left; left; reflexivity|].
      destruct (I3 b Hb) as [H|(H1 & j' & H2)]; [left; right; assumption|].
      right. split; [assumption|]. exists j'. right. assumption.
    + intros f Hf. apply I4. intros d' j' Hin. apply Hf. right. assumption.
    + assumption.
Qed.

Definition SimM (r : mreader) (m : mapper) (s : win) : Prop :=
  r_map r = m /\ r_bs r = bs /\ r_max r = w /\ r_read r = cur s /\ WinOk KMulti s /\
  r_pos r = pre (hi s) /\ r_fin r = (hi s =? n) /\
  Permutation (idxs (r_blocks r)) (seqN (conf s + 1) (N.to_nat (hi s - conf s))) /\
  (forall d i, In (mkB d (Some i)) (r_blocks r) -> d = blk i) /\
  (forall d, In (mkB d None) (r_blocks r) -> hi s < n -> blen d = bs) /\
  N.of_nat (length (r_blocks r)) <= w.

Lemma simM_in r m s i : SimM r m s -> (In i (idxs (r_blocks r)) <-> conf s < i <= hi s).
Proof.
  intros (_ & _ & _ & _ & (W1 & W2 & _) & _ & _ & P & _).
  transitivity (In i (seqN (conf s + 1) (N.to_nat (hi s - conf s)))).
  - split; apply Permutation_in; [assumption|apply Permutation_sym; assumption].
  - rewrite seqN_in. lia.
Qed.
Lemma simM_use r m s : SimM r m s -> in_use (r_blocks r) = hi s - conf s.
Proof.
  intros (_ & _ & _ & _ & _ & _ & _ & P & _). rewrite in_use_idxs.
  rewrite (Permutation_length P), seqN_length. lia.
Qed.
Lemma simM_init : SimM (multi_new bs w) mapper_new (mkWin 0 0 0).
Proof.
  unfold SimM, multi_new; cbn. rewrite prefix_0. pose proof (nblocks_bounds file bs Hbs).
  split; [reflexivity|]. split; [reflexivity|]. split; [reflexivity|]. split; [reflexivity|].
  split; [apply win_init_ok|]. split; [reflexivity|]. split; [destruct n eqn:?; [lia|reflexivity]|].
  split; [apply Permutation_refl|]. split; [intros ? ? []|]. split; [intros ? []|]. lia.
Qed.
Lemma simM_finished r m s : SimM r m s -> multi_finished r = spec_finished file bs s.
Proof.
  intros S. pose proof (simM_use _ _ _ S) as HU.
  destruct S as (_ & _ & _ & _ & (W1 & W2 & W3 & _) & _ & Hf & _).
  unfold multi_finished, spec_finished. rewrite HU, Hf. lia.
Qed.
Lemma simM_next r m s retry io : SimM r m s ->
  snd (multi_next file r cap retry io) = snd (spec_next KMulti file bs w s retry io) /\
  SimM (fst (multi_next file r cap retry io)) m (fst (spec_next KMulti file bs w s retry io)).
Proof.
  intros S. pose proof (simM_finished _ _ _ S) as HF. pose proof (simM_use _ _ _ S) as HU.
  pose proof (fun i => simM_in r m s i S) as HIn.
  pose proof S as (Hm & Hb & Hmax & Hr & HW & Hpos & Hf & HP & HD & HE & HL).
  pose proof HW as (W1 & W2 & W3 & W4 & W5). cbn in W4.
  unfold multi_next, spec_next. rewrite HF. unfold spec_finished.
  destruct (N.eqb_spec (conf s) n) as [E|E]; [split; [reflexivity|exact S]|].
  (* continue after the current block *)
  assert (Hcont :
    let rr := match find_buf (r_blocks r) (r_read r + 1) with
        | Some d =>
            if blen d <=? cap then
              (mkM (r_pos r) (r_map r) (r_read r + 1) (r_bs r) (r_blocks r) (r_max r) (r_fin r),
               Ok (Some (mkBlk (map_block (r_read r + 1)) (r_read r + 1) d true)))
            else (r, Err RInvalidBuffer)
        | None =>
            if r_fin r || (r_max r <=? in_use (r_blocks r)) then (r, Ok None)
            else
              let blocks1 := match free_slot (r_blocks r) with
                             | Some _ => r_blocks r
                             | None => r_blocks r ++ [mkB (repeat 0 (N.to_nat (r_bs r))) None]
                             end in
              let slot := match free_slot blocks1 with Some d => d | None => [] end in
              if io then
                (mkM (r_pos r) (r_map r) (r_read r) (r_bs r) blocks1 (r_max r) (r_fin r), Err RFile)
              else
                let data := file_read file (r_pos r) (blen slot) in
                let read := blen data in
                if read <=? cap then
                  (mkM (r_pos r + read) (r_map r) (r_read r + 1) (r_bs r)
                       (set_slot blocks1 (mkB data (Some (r_read r + 1)))) (r_max r)
                       (if read <? r_bs r then true else r_fin r),
                   Ok (Some (mkBlk (map_block (r_read r + 1)) (r_read r + 1) data false)))
                else
                  (mkM (r_pos r + read) (r_map r) (r_read r) (r_bs r)
                       (set_slot blocks1 (mkB data None)) (r_max r) (r_fin r),
                   Err RInvalidBuffer)
        end in
    let ss := if cur s <? hi s
              then (mkWin (conf s) (hi s) (cur s + 1), Ok (emit file bs (cur s + 1) true))
              else if (hi s =? n) || (window_of KMulti w <=? hi s - conf s) then (s, Ok None)
              else if io then (s, Err RFile)
              else (mkWin (conf s) (hi s + 1) (hi s + 1), Ok (emit file bs (hi s + 1) false)) in
    snd rr = snd ss /\ SimM (fst rr) m (fst ss)).
  { rewrite Hr. cbn zeta. destruct (find_buf (r_blocks r) (cur s + 1)) as [d|] eqn:Efb.
    - apply find_buf_some in Efb.
      assert (Hin : In (cur s + 1) (idxs (r_blocks r))) by (apply in_idxs; eexists; eassumption).
      apply HIn in Hin. assert (Hlt : (cur s <? hi s) = true) by lia. rewrite Hlt.
      apply HD in Efb. subst d. pose proof (block_le file bs (cur s + 1)).
      assert (Hc : (blen (blk (cur s + 1)) <=? cap) = true) by lia. rewrite Hc. cbn [fst snd].
      split; [unfold emit; rewrite map_block_mod; reflexivity|].
      unfold SimM. cbn [r_map r_bs r_max r_read r_pos r_fin r_blocks conf hi cur].
      repeat split; try assumption; cbn [conf hi cur window_of]; try lia; try discriminate.
    - apply find_buf_none in Efb. rewrite HIn in Efb.
      assert (Hlt : (cur s <? hi s) = false) by lia. rewrite Hlt.
      rewrite Hf, Hmax, HU. cbn [window_of].
      destruct ((hi s =? n) || (w <=? hi s - conf s))%bool eqn:E2; [split; [reflexivity|exact S]|].
      apply orb_false_iff in E2 as [E2 E3].
      set (blocks1 := match free_slot (r_blocks r) with
                      | Some _ => r_blocks r
                      | None => r_blocks r ++ [mkB (repeat 0 (N.to_nat (r_bs r))) None] end).
      assert (Hslot : exists d, free_slot blocks1 = Some d /\ blen d = bs).
      { unfold blocks1. destruct (free_slot (r_blocks r)) as [d|] eqn:Efs.
        - exists d. split; [assumption|]. apply HE; [apply free_slot_some; assumption|lia].
        - eexists. split; [apply free_slot_app; assumption|]. rewrite Hb.
          unfold blen. rewrite repeat_length. lia. }
      assert (Hb1 : idxs blocks1 = idxs (r_blocks r)).
      { unfold blocks1. destruct (free_slot (r_blocks r)); [reflexivity|].
        rewrite idxs_app. cbn. apply app_nil_r. }
      assert (Hb2 : forall d i, In (mkB d (Some i)) blocks1 -> d = blk i).
      { unfold blocks1. destruct (free_slot (r_blocks r)); [assumption|].
        intros d i Hin. apply in_app_or in Hin as [Hin|[Hin|[]]]; [apply HD; assumption|discriminate]. }
      assert (Hb3 : forall d, In (mkB d None) blocks1 -> hi s < n -> blen d = bs).
      { unfold blocks1. destruct (free_slot (r_blocks r)); [assumption|].
        intros d Hin. apply in_app_or in Hin as [Hin|[Hin|[]]]; [apply HE; assumption|].
        injection Hin as <-. intros _. rewrite Hb. unfold blen. rewrite repeat_length. lia. }
      assert (Hb4 : N.of_nat (length blocks1) <= w).
      { unfold blocks1. destruct (free_slot (r_blocks r)) eqn:Efs; [assumption|].
        apply free_slot_none in Efs. rewrite in_use_idxs in HU.
        rewrite app_length. cbn [length]. lia. }
      clearbody blocks1. destruct Hslot as (d & Hd & Hdl).
      destruct io.
      + cbn [fst snd]. split; [reflexivity|]. unfold SimM.
        cbn [r_map r_bs r_max r_read r_pos r_fin r_blocks]. rewrite Hb1.
        repeat split; try assumption; try lia; auto.
      + rewrite Hd, Hdl, Hpos, read_next by lia.
        pose proof (block_le file bs (hi s + 1)).
        assert (Hc : (blen (blk (hi s + 1)) <=? cap) = true) by lia. rewrite Hc.
        assert (Ecur : cur s = hi s) by lia. rewrite Ecur.
        cbn [fst snd]. split; [unfold emit; rewrite map_block_mod; reflexivity|].
        unfold SimM. cbn [r_map r_bs r_max r_read r_pos r_fin r_blocks conf hi cur].
        split; [assumption|]. split; [assumption|]. split; [reflexivity|]. split; [reflexivity|].
        split; [unfold WinOk; cbn [conf hi cur window_of]; repeat split; try lia; discriminate|].
        split; [rewrite prefix_step by lia; reflexivity|].
        split.
        { pose proof (block_short file bs Hbs (hi s + 1) ltac:(lia) ltac:(lia)) as Hs.
          rewrite Hb. destruct (N.ltb_spec (blen (blk (hi s + 1))) bs) as [Hlt'|Hge].
          - symmetry. apply N.eqb_eq. tauto.
          - transitivity false; [assumption|]. symmetry. apply N.eqb_neq. intros H1%Hs. lia. }
        split.
        { eapply Permutation_trans; [eapply set_slot_idxs; eassumption|]. rewrite Hb1.
          replace (N.to_nat (hi s + 1 - conf s)) with (N.to_nat (hi s - conf s) + 1)%nat by lia.
          rewrite seqN_app. cbn [seqN].
          replace (conf s + 1 + N.of_nat (N.to_nat (hi s - conf s))) with (hi s + 1) by lia.
          eapply Permutation_trans; [apply perm_skip, HP|]. apply Permutation_cons_append. }
        split.
        { intros d' i' Hin. apply set_slot_in in Hin as [Hin|Hin]; [|apply Hb2; assumption].
          injection Hin as -> ->. reflexivity. }
        split.
        { intros d' Hin Hlt'. apply set_slot_in in Hin as [Hin|Hin]; [discriminate|].
          apply Hb3; [assumption|lia]. }
        rewrite set_slot_length. assumption. }
  cbn zeta in Hcont.
  destruct retry; cbn [andb].
  - destruct (min_buf (r_blocks r)) as [[i d]|] eqn:Emin.
    + apply min_buf_some in Emin as [Hin Hmin].
      assert (Hin' : In i (idxs (r_blocks r))) by (apply in_idxs; eexists; eassumption).
      apply HIn in Hin'. assert (Hlt : (conf s <? hi s) = true) by lia. rewrite Hlt.
      assert (Hi : i = conf s + 1).
      { assert (Hc1 : In (conf s + 1) (idxs (r_blocks r))) by (apply HIn; lia).
        apply Hmin in Hc1. lia. }
      apply HD in Hin. subst i d. pose proof (block_le file bs (conf s + 1)).
      assert (Hc : (blen (blk (conf s + 1)) <=? cap) = true) by lia. rewrite Hc. cbn [fst snd].
      split; [unfold emit; rewrite map_block_mod; reflexivity|].
      unfold SimM. cbn [r_map r_bs r_max r_read r_pos r_fin r_blocks conf hi cur].
      repeat split; try assumption; cbn [conf hi cur window_of]; try lia; try discriminate.
    + apply min_buf_none in Emin.
      assert (Hlt : (conf s <? hi s) = false).
      { apply N.ltb_ge. destruct (N.leb_spec (hi s) (conf s)); [assumption|].
        assert (Hc1 : In (conf s + 1) (idxs (r_blocks r))) by (apply HIn; lia).
        rewrite Emin in Hc1. destruct Hc1. }
      rewrite Hlt. exact Hcont.
  - exact Hcont.
Qed.
Lemma filter_perm {A} (f : A -> bool) l l' : Permutation l l' -> Permutation (filter f l) (filter f l').
Proof.
  induction 1; cbn.
  - constructor.
  - destruct (f x); [constructor|]; assumption.
  - destruct (f x), (f y); try apply Permutation_refl. apply perm_swap.
  - eapply Permutation_trans; eassumption.
Qed.
Lemma simM_free r m s b : SimM r m s ->
  snd (multi_free r b) = snd (spec_free KMulti file bs s (fst (map_index m b))) /\
  SimM (fst (multi_free r b)) (snd (map_index m b))
       (fst (spec_free KMulti file bs s (fst (map_index m b)))).
Proof.
  intros S. pose proof (fun i => simM_in r m s i S) as HIn.
  pose proof S as (Hm & Hb & Hmax & Hr & HW & Hpos & Hf & HP & HD & HE & HL).
  pose proof HW as (W1 & W2 & W3 & W4 & W5).
  unfold multi_free, spec_free. rewrite Hm. destruct (map_index m b) as [i m'] eqn:Ei.
  cbn [fst snd]. pose proof (release_spec (r_blocks r) i) as HR.
  destruct (release (r_blocks r) i) as [[l' size] last].
  destruct HR as (R1 & R2 & R3 & R4 & R5).
  specialize (R4 (fun k => blen (blk k)) ltac:(intros d j Hin; rewrite (HD d j Hin); reflexivity)).
  pose proof (filter_perm (fun x => x <=? i) _ _ HP) as P1. rewrite filter_seqN in P1.
  pose proof (filter_perm (fun x => negb (x <=? i)) _ _ HP) as P2. rewrite filter_seqN_gt in P2.
  rewrite <- R1 in P2.
  assert (HS : size = pre (conf s + N.of_nat (N.to_nat (N.min (i + 1 - (conf s + 1)) (N.of_nat (N.to_nat (hi s - conf s))))))
                      - pre (conf s)).
  { rewrite R4. rewrite (sumN_perm _ _ (Permutation_map _ P1)). apply sum_blocks; [assumption|lia]. }
  assert (HE' : forall d, In (mkB d None) l' -> hi s < n -> blen d = bs).
  { intros d Hin Hlt. apply R3 in Hin as [Hin|(_ & j & Hin)]; [apply HE; assumption|].
    cbn [b_data] in Hin. rewrite (HD _ _ Hin). apply block_full; [assumption| |].
    - assert (In j (idxs (r_blocks r))) by (apply in_idxs; eexists; eassumption).
      apply HIn in H. lia.
    - assert (In j (idxs (r_blocks r))) by (apply in_idxs; eexists; eassumption).
      apply HIn in H. lia. }
  assert (HD' : forall d j, In (mkB d (Some j)) l' -> d = blk j).
  { intros d j Hin. apply R3 in Hin as [Hin|(Hin & _)]; [apply HD; assumption|discriminate]. }
  destruct (N.ltb_spec (conf s) (N.min i (hi s))) as [Hlt|Hge].
  - cbn [fst snd]. split.
    + rewrite HS. do 2 f_equal. lia.
    + assert (Hlast : last = Some (N.min i (hi s))).
      { assert (Hi1 : In (N.min i (hi s)) (filter (fun x => x <=? i) (idxs (r_blocks r)))).
        { apply filter_In. split; [apply HIn; lia|lia]. }
        destruct last as [k|]; [|rewrite R5 in Hi1; destruct Hi1].
        destruct R5 as [R5 R6]. specialize (R6 _ Hi1).
        apply filter_In in R5 as [R5 R7]. apply HIn in R5. f_equal. lia. }
      rewrite Hlast. unfold SimM. cbn [r_map r_bs r_max r_read r_pos r_fin r_blocks conf hi cur].
      split; [reflexivity|]. split; [assumption|]. split; [assumption|]. split; [reflexivity|].
      split; [unfold WinOk; cbn in *; repeat split; try lia; discriminate|]. split; [assumption|]. split; [assumption|].
      split; [|split; [assumption|split; [assumption|rewrite R2; assumption]]].
      eapply Permutation_trans; [exact P2|].
      destruct (N.leb_spec i (hi s)) as [Hih|Hih].
      * replace (N.max (conf s + 1) (i + 1)) with (N.min i (hi s) + 1) by lia.
        replace (N.to_nat _) with (N.to_nat (hi s - N.min i (hi s))) by lia.
        apply Permutation_refl.
      * replace (N.to_nat (N.of_nat _ - _)) with 0%nat by lia.
        replace (N.to_nat (hi s - N.min i (hi s))) with 0%nat by lia. apply Permutation_refl.
  - cbn [fst snd]. assert (Hmin : N.min (i + 1 - (conf s + 1)) (N.of_nat (N.to_nat (hi s - conf s))) = 0) by lia.
    split; [rewrite HS, Hmin; cbn; rewrite N.add_0_r; lia|].
    assert (Hlast : last = None).
    { destruct last as [k|]; [|reflexivity]. destruct R5 as [R5 _].
      rewrite Hmin in P1. apply (Permutation_in _ P1) in R5. destruct R5. }
    rewrite Hlast. unfold SimM. cbn [r_map r_bs r_max r_read r_pos r_fin r_blocks].
    split; [reflexivity|]. split; [assumption|]. split; [assumption|]. split; [assumption|].
    split; [assumption|]. split; [assumption|]. split; [assumption|].
    split; [|split; [assumption|split; [assumption|rewrite R2; assumption]]].
    eapply Permutation_trans; [exact P2|]. rewrite Hmin, N.sub_0_r.
    destruct (N.leb_spec i (conf s)) as [Hih|Hih].
    + replace (N.max (conf s + 1) (i + 1)) with (conf s + 1) by lia.
      rewrite Nnat.Nat2N.id. apply Permutation_refl.
    + replace (hi s - conf s) with 0 by lia. apply Permutation_refl.
Qed.

(** ** Seeking reader *)
Definition SimK (r : kreader) (m : mapper) (s : win) : Prop :=
  k_map r = m /\ k_bs r = bs /\ k_max r = w /\ k_read r = hi s /\ k_conf r = conf s /\
  k_cur r = cur s /\ WinOk KSeek s /\ k_off r = pre (hi s) /\
  k_fin r = (if hi s =? n then Some (blen (blk n)) else None).

Lemma simK_init : SimK (seek_new bs w) mapper_new (mkWin 0 0 0).
Proof.
  unfold SimK, seek_new; cbn. rewrite prefix_0. pose proof (nblocks_bounds file bs Hbs).
  repeat split; cbn; try lia. destruct n eqn:E; [lia|reflexivity].
Qed.
Lemma simK_finished r m s : SimK r m s -> seek_finished r = spec_finished file bs s.
Proof.
  intros (_ & _ & _ & Hr & Hc & _ & (W1 & W2 & W3 & _) & _ & Hf).
  unfold seek_finished, spec_finished. rewrite Hr, Hc, Hf.
  destruct (N.eqb_spec (hi s) n) as [->|Hne]; rewrite ?andb_true_r, ?andb_false_r; lia.
Qed.
Lemma simK_next r m s retry io : SimK r m s ->
  snd (seek_next file r cap retry io) = snd (spec_next KSeek file bs w s retry io) /\
  SimK (fst (seek_next file r cap retry io)) m (fst (spec_next KSeek file bs w s retry io)).
Proof.
  intros S. pose proof (simK_finished _ _ _ S) as HF.
  pose proof S as (Hm & Hb & Hmax & Hr & Hc & Hcur & HW & Hoff & Hf).
  pose proof HW as (W1 & W2 & W3 & W4 & W5).
  unfold seek_next, spec_next. rewrite HF. unfold spec_finished.
  destruct (N.eqb_spec (conf s) n) as [E|E]; [split; [reflexivity|exact S]|].
  assert (Hcapb : (k_bs r <=? cap) = true) by lia. rewrite Hcapb, Hr, Hc, Hcur, Hmax, Hb.
  destruct (retry && (conf s <? hi s))%bool eqn:E1.
  - apply andb_prop in E1 as [_ E1]. destruct io; [split; [reflexivity|exact S]|].
    rewrite read_at.
    assert (Hx : (if 0 <? conf s then conf s + 1 else 1) = conf s + 1)
      by (destruct (0 <? conf s) eqn:?; lia).
    rewrite Hx. cbn [fst snd]. split; [unfold emit; rewrite map_block_mod; reflexivity|].
    unfold SimK. cbn. repeat split; try assumption; try (cbn; lia); try discriminate; cbn in W4; cbn; try lia.
  - destruct (N.ltb_spec (cur s) (hi s)) as [E2|E2].
    + assert (E3 : (cur s + 1 <=? hi s) = true) by lia. rewrite E3.
      destruct io; [split; [reflexivity|exact S]|]. rewrite read_at. cbn [fst snd].
      split; [unfold emit; rewrite map_block_mod; reflexivity|].
      unfold SimK. cbn. repeat split; try assumption; try (cbn; lia); try discriminate; cbn in W4; cbn; try lia.
    + assert (E3 : (cur s + 1 <=? hi s) = false) by lia. rewrite E3.
      rewrite Hf. cbn [window_of].
      assert (E4 : (match (if hi s =? n then Some (blen (blk n)) else None) with
                    | Some _ => true | None => false end) = (hi s =? n))
        by (destruct (hi s =? n); reflexivity).
      rewrite E4. destruct ((hi s =? n) || (w <=? hi s - conf s))%bool eqn:E5;
        [split; [reflexivity|exact S]|].
      apply orb_false_iff in E5 as [E5 E6].
      destruct io.
      * split; [reflexivity|]. cbn [fst]. unfold SimK. cbn. auto 10.
      * rewrite Hoff, read_next by lia. assert (Ecur : cur s = hi s) by lia. rewrite Ecur.
        cbn [fst snd]. split; [unfold emit; rewrite map_block_mod; reflexivity|].
        unfold SimK. cbn [k_map k_bs k_max k_read k_conf k_cur k_off k_fin conf hi cur].
        rewrite prefix_step by lia. repeat split; try assumption; cbn in *; try lia.
        pose proof (block_short file bs Hbs (hi s + 1) ltac:(lia) ltac:(lia)) as Hs.
        destruct (N.ltb_spec (blen (blk (hi s + 1))) bs) as [Hlt|Hge].
        -- apply Hs in Hlt. rewrite Hlt, N.eqb_refl. f_equal. apply N.mod_small.
           pose proof (block_le file bs n). lia.
        -- assert (Hne : (hi s + 1 =? n) = false) by (apply N.eqb_neq; intros H1%Hs; lia).
           rewrite Hne, E5. reflexivity.
Qed.
Lemma simK_free r m s b : SimK r m s ->
  (conf s < n \/ fst (map_index m b) <= conf s ->
   snd (seek_free r b) = Some (snd (spec_free KSeek file bs s (fst (map_index m b))))) /\
  SimK (fst (seek_free r b)) (snd (map_index m b))
       (fst (spec_free KSeek file bs s (fst (map_index m b)))).
Proof.
  intros S. pose proof S as (Hm & Hb & Hmax & Hr & Hc & Hcur & HW & Hoff & Hf).
  pose proof HW as (W1 & W2 & W3 & W4 & W5).
  unfold seek_free, spec_free. rewrite Hm. destruct (map_index m b) as [i m'] eqn:Ei.
  cbn [fst snd]. rewrite Hr, Hc, Hb, Hf, Hcur, Hmax.
  assert (Hmin : (if hi s <? i then hi s else i) = N.min i (hi s))
    by (destruct (N.ltb_spec (hi s) i); lia). rewrite Hmin.
  destruct (N.ltb_spec (conf s) i) as [Hci|Hci].
  - destruct (N.ltb_spec (conf s) (N.min i (hi s))) as [Hlt|Hge]; cbn [fst snd].
    + split.
      * intros Hn0. assert (Hn : conf s < n) by lia.
        destruct (N.eqb_spec (N.min i (hi s)) (hi s)) as [Eh|Eh].
        -- rewrite Eh. destruct (N.eqb_spec (hi s) n) as [En|En].
           ++ rewrite En in *. rewrite (prefix_all file bs Hbs n) by lia.
              rewrite (prefix_full file bs Hbs (conf s)) by lia.
              assert (Hle : (bs <=? (n - conf s) * bs) = true) by (apply N.leb_le; nia).
              rewrite Hle. f_equal. rewrite blen_block by lia.
              pose proof (nblocks_bounds file bs Hbs). nia.
           ++ rewrite !prefix_full by lia. f_equal. nia.
        -- rewrite !prefix_full by lia. f_equal. nia.
      * unfold SimK. cbn. repeat split; try assumption; try (cbn; lia); try discriminate; cbn in W4; cbn; try lia.
    + assert (Hh : hi s = conf s) by lia. split.
      * intros Hn. assert (En : (hi s =? n) = false) by lia. rewrite En.
        replace (N.min i (hi s) - conf s) with 0 by lia.
        destruct (N.min i (hi s) =? hi s); reflexivity.
      * unfold SimK. cbn. repeat split; try assumption; try (cbn; lia).
  - assert (Hge : (conf s <? N.min i (hi s)) = false) by lia. rewrite Hge. cbn [fst snd].
    split; [reflexivity|]. unfold SimK. cbn. auto 10.
Qed.

(** ** All readers at once *)
Definition Sim (k : kind) (r : reader) (m : mapper) (s : win) : Prop :=
  WinOk k s /\
  match k, r with
  | KSingle, RS x => SimS x m s
  | KMulti, RM x => SimM x m s
  | KSeek, RK x => SimK x m s
  | _, _ => False
  end.
Lemma sim_init k : Sim k (new_reader k bs w) mapper_new (mkWin 0 0 0).
Proof.
  split; [apply win_init_ok|]. destruct k; [apply simS_init|apply simM_init|apply simK_init].
Qed.
Lemma sim_finished k r m s : Sim k r m s -> reader_finished r = spec_finished file bs s.
Proof.
  intros [_ S]. destruct k, r; cbn in *; try contradiction;
    [eapply simS_finished|eapply simM_finished|eapply simK_finished]; eassumption.
Qed.
Lemma sim_next k r m s retry io : Sim k r m s ->
  snd (reader_next file r cap retry io) = snd (spec_next k file bs w s retry io) /\
  Sim k (fst (reader_next file r cap retry io)) m (fst (spec_next k file bs w s retry io)).
Proof.
  intros [W S]. unfold Sim.
  pose proof (spec_next_ok k s retry io W) as W'.
  destruct k, r as [x|x|x]; cbn in S; try contradiction; cbn [reader_next].
  - destruct (simS_next x m s retry io S) as [H1 H2].
    destruct (single_next file x cap retry io). cbn in *. auto.
  - destruct (simM_next x m s retry io S) as [H1 H2].
    destruct (multi_next file x cap retry io). cbn in *. auto.
  - destruct (simK_next x m s retry io S) as [H1 H2].
    destruct (seek_next file x cap retry io). cbn in *. auto.
Qed.
Lemma sim_free k r m s b : Sim k r m s ->
  (k = KSeek -> conf s < n \/ fst (map_index m b) <= conf s) ->
  snd (reader_free r b) = Some (snd (spec_free k file bs s (fst (map_index m b)))) /\
  Sim k (fst (reader_free r b)) (snd (map_index m b)) (fst (spec_free k file bs s (fst (map_index m b)))).
Proof.
  intros [W S] Hn. unfold Sim.
  pose proof (spec_free_ok k s (fst (map_index m b)) W) as W'.
  destruct k, r as [x|x|x]; cbn in S; try contradiction; cbn [reader_free].
  - destruct (simS_free x m s b S) as [H1 H2]. destruct (single_free x b). cbn [fst snd] in *.
    split; [f_equal; assumption|auto].
  - destruct (simM_free x m s b S) as [H1 H2]. destruct (multi_free x b). cbn [fst snd] in *.
    split; [f_equal; assumption|auto].
  - destruct (simK_free x m s b S) as [H1 H2]. destruct (seek_free x b). cbn [fst snd] in *.
    split; [apply H1, Hn; reflexivity|auto].
Qed.
Lemma sim_free_state k r m s b : Sim k r m s ->
  Sim k (fst (reader_free r b)) (snd (map_index m b)) (fst (spec_free k file bs s (fst (map_index m b)))).
Proof.
  intros [W S]. unfold Sim.
  pose proof (spec_free_ok k s (fst (map_index m b)) W) as W'.
  destruct k, r as [x|x|x]; cbn in S; try contradiction; cbn [reader_free].
  - destruct (simS_free x m s b S) as [H1 H2]. destruct (single_free x b). cbn [fst snd] in *. auto.
  - destruct (simM_free x m s b S) as [H1 H2]. destruct (multi_free x b). cbn [fst snd] in *. auto.
  - destruct (simK_free x m s b S) as [H1 H2]. destruct (seek_free x b). cbn [fst snd] in *. auto.
Qed.

(** ** Whole histories *)
Definition fin_of (o : rout) : bool := match o with ONext _ f => f | OAck _ f => f end.

Lemma run_refines k l : forall r m s, Sim k r m s ->
  (k = KSeek -> no_ack_after_finish (run_reader file cap r l) /\
                (conf s = n -> Forall not_ack (run_reader file cap r l))) ->
  run_reader file cap r l = run_spec k file bs w m s l.
Proof.
  induction l as [|op l IH]; intros r m s S HS; [reflexivity|].
  destruct op as [retry io|b]; cbn [run_reader run_spec] in *.
  - destruct (sim_next k r m s retry io S) as [H1 H2].
    destruct (reader_next file r cap retry io) as [r' o], (spec_next k file bs w s retry io) as [s' o'].
    cbn [fst snd] in *. subst o'. pose proof (sim_finished _ _ _ _ H2) as HF. rewrite HF. f_equal.
    apply IH; [assumption|]. intros Hk. specialize (HS Hk) as [HS1 HS2]. cbn in HS1.
    destruct HS1 as [HS1 HS3]. split; [assumption|]. intros Hc. apply HS1. cbn. rewrite HF.
    unfold spec_finished. apply N.eqb_eq. assumption.
  - pose proof (sim_free_state k r m s b S) as H2.
    assert (Hn : k = KSeek -> conf s < n).
    { intros Hk. specialize (HS Hk) as [_ HS2].
      destruct S as [(W1 & W2 & W3 & _) _].
      destruct (N.eq_dec (conf s) n) as [E|E]; [|lia].
      specialize (HS2 E). destruct (reader_free r b). inversion HS2; subst. cbn in *. contradiction. }
    destruct (sim_free k r m s b S (fun E => or_introl (Hn E))) as [H1 _].
    destruct (reader_free r b) as [r' o]. destruct (map_index m b) as [i m'].
    cbn [fst snd] in *. destruct (spec_free k file bs s i) as [s' c]. cbn [fst snd] in *.
    subst o. pose proof (sim_finished _ _ _ _ H2) as HF. rewrite HF. f_equal.
    apply IH; [assumption|]. intros Hk. specialize (HS Hk) as [HS1 HS2]. cbn in HS1.
    destruct HS1 as [HS1 HS3]. split; [assumption|]. intros Hc. apply HS1. cbn. rewrite HF.
    unfold spec_finished. apply N.eqb_eq. assumption.
Qed.

(** Observable consequences, from the specification. *)
Lemma spec_next_cases k s retry io : WinOk k s ->
  let '(s', o) := spec_next k file bs w s retry io in
  conf s' = conf s /\
  match o with
  | Ok (Some b) => 1 <= o_index b /\ o_index b <= n /\ conf s < o_index b /\
       o_data b = blk (o_index b) /\ o_block b = o_index b mod 65536 /\
       hi s' = (if o_retry b then hi s else hi s + 1) /\ o_index b <= hi s' /\
       (o_retry b = false -> o_index b = hi s + 1)
  | Ok None => s' = s
  | _ => s' = s
  end.
Proof.
  intros (W1 & W2 & W3 & W4 & W5). unfold spec_next, emit.
  destruct (N.eqb_spec (conf s) n) as [E|E]; [auto|].
  destruct (retry && (conf s <? hi s))%bool eqn:E1.
  { apply andb_prop in E1 as [_ E1].
    destruct k; try destruct io; cbn; repeat split; try lia; discriminate. }
  destruct (N.ltb_spec (cur s) (hi s)).
  { destruct k; try destruct io; cbn; repeat split; try lia; discriminate. }
  destruct ((hi s =? n) || (window_of k w <=? hi s - conf s))%bool eqn:E2; [auto|].
  apply orb_false_iff in E2 as [E2 E3].
  destruct io; cbn; repeat split; try lia.
Qed.
Lemma spec_free_cases k s i : WinOk k s ->
  let '(s', c) := spec_free k file bs s i in
  hi s' = hi s /\ conf s <= conf s' /\ pre (conf s) + c = pre (conf s') /\ (conf s' = n -> i < n -> conf s = n).
Proof.
  intros (W1 & W2 & W3 & W4 & W5). unfold spec_free.
  destruct (match k with KSingle => _ | _ => _ end) eqn:E; cbn; [|repeat split; lia].
  assert (conf s < N.min i (hi s)) by (destruct k; lia).
  pose proof (prefix_mono file bs (conf s) (N.min i (hi s)) ltac:(lia)). repeat split; lia.
Qed.

Lemma run_spec_good k l : forall m s, WinOk k s ->
  Forall (good_out file bs) (run_spec k file bs w m s l).
Proof.
  induction l as [|[retry io|b] l IH]; intros m s W; cbn [run_spec]; [constructor| |].
  - pose proof (spec_next_cases k s retry io W) as C.
    pose proof (spec_next_ok k s retry io W) as W'.
    destruct (spec_next k file bs w s retry io) as [s' o]. cbn [fst] in W'. constructor.
    + destruct o as [[b|]| |]; cbn; auto. unfold good_block. tauto.
    + apply IH. assumption.
  - pose proof (spec_free_ok k s (fst (map_index m b)) W) as W'.
    destruct (map_index m b) as [i m']. cbn [fst] in W'.
    destruct (spec_free k file bs s i) as [s' c]. constructor; [exact I|]. apply IH. exact W'.
Qed.

Lemma run_spec_account k l : forall m s, WinOk k s ->
  exists c, pre c = pre (conf s) + acked_bytes (run_spec k file bs w m s l) /\
    conf s <= c /\ c <= hi s + fresh_blocks (run_spec k file bs w m s l) /\
    hi s + fresh_blocks (run_spec k file bs w m s l) <= c + window_of k w /\
    hi s + fresh_blocks (run_spec k file bs w m s l) <= n /\
    (last_finished (run_spec k file bs w m s l) (spec_finished file bs s) = true <-> c = n).
Proof.
  induction l as [|[retry io|b] l IH]; intros m s W; cbn [run_spec].
  - exists (conf s). destruct W as (W1 & W2 & W3 & W4 & W5).
    unfold acked_bytes, fresh_blocks. cbn. unfold spec_finished. rewrite N.eqb_eq.
    repeat split; try lia; tauto.
  - pose proof (spec_next_cases k s retry io W) as C.
    pose proof (spec_next_ok k s retry io W) as W'.
    destruct (spec_next k file bs w s retry io) as [s' o]. cbn [fst] in W'.
    destruct (IH m s' W') as (c & I1 & I2 & I3 & I4 & I5 & I6).
    destruct C as [C0 C].
    exists c. cbn [acked_bytes fresh_blocks last_finished]. rewrite C0 in *.
    destruct o as [[b|]| |]; cbn [is_fresh].
    + destruct C as (_ & _ & _ & _ & _ & C & _).
      destruct (o_retry b); cbn [negb]; repeat split; try lia; apply I6.
    + subst s'. repeat split; try lia; apply I6.
    + subst s'. repeat split; try lia; apply I6.
    + subst s'. repeat split; try lia; apply I6.
  - pose proof (spec_free_cases k s (fst (map_index m b)) W) as C.
    pose proof (spec_free_ok k s (fst (map_index m b)) W) as W'.
    destruct (map_index m b) as [i m']. cbn [fst] in *.
    destruct (spec_free k file bs s i) as [s' x]. cbn [fst] in W'.
    destruct (IH m' s' W') as (c & I1 & I2 & I3 & I4 & I5 & I6).
    destruct C as (C0 & C1 & C2 & _).
    exists c. cbn [acked_bytes fresh_blocks last_finished is_fresh].
    repeat split; try lia; apply I6.
Qed.

(** Number of block buffers of the buffering reader over a history. *)
Lemma multi_buffers l : forall r m s, SimM r m s ->
  N.of_nat (length (r_blocks (multi_state file cap r l))) <= w.
Proof.
  induction l as [|[retry io|b] l IH]; intros r m s S; cbn [multi_state].
  - apply S.
  - eapply IH. apply (simM_next r m s retry io S).
  - eapply IH. apply (simM_free r m s b S).
Qed.
End R.
