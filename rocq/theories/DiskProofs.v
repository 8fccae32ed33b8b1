(** Lemmas about servers that share a disk. *)
From Verif Require Import Base BaseProofs PacketModel MapperModel ReaderModel ReaderSpec ConfigModel CryptoModel ExtModel PathModel ConnModel
  ConnSpec HandshakeModel ServerModel ServerSpec ServerProofs PropServer WorldModel WorldB PropWorld FsModel FsProofs FsServerModel DiskModel.

Lemma set_file_same F e r : en_work e = WRead F r -> set_file F e = e.
Proof. destruct e as [cn ky wk]. cbn. intros ->. reflexivity. Qed.
Lemma set_file_write F e p w : en_work e = WWrite p w -> set_file F e = e.
Proof. destruct e as [cn ky wk]. cbn. intros ->. reflexivity. Qed.
Lemma set_file_twice F F' e : set_file F (set_file F' e) = set_file F e.
Proof. destruct e as [cn ky [f r|p w]]; reflexivity. Qed.

(** ** What is needed of a server *)
Record good {S} (c : crypto) (g : srvcfg) (sv : server S) (Inv : S -> Prop) (cut : entry -> bytes -> bytes) : Prop := mkGood {
  gd_keep : forall s t s' o, Inv s -> sv_phase sv s t s' o -> Inv s';
  gd_load : forall fl s, Inv s -> Inv (sv_load sv fl s);
  gd_main : forall s a d i s' o, sv_main sv s a d i s' o -> sv_phase sv s (TookMain a d) s' o;
  gd_view : forall fl s a, sv_view sv (sv_load sv fl s) a = option_map (set_file (fl a)) (sv_view sv s a);
  gd_looked : forall s a, Inv s -> sv_looked sv s a = true -> sv_view sv s a = None;
  gd_pev : forall s t s' o a e, Inv s -> sv_phase sv s t s' o -> sv_view sv s a = Some e ->
    pev c g a cut e t (sv_view sv s' a) (sent_to a o);
  gd_none : forall s t s' o a e, Inv s -> sv_phase sv s t s' o -> sv_view sv s a = None -> sv_view sv s' a = Some e ->
    exists d, t = TookMain a d /\ sv_looked sv s a = true;
  gd_new : forall s b d i s' o a e, Inv s -> sv_main sv s b d i s' o -> sv_view sv s a = None -> sv_view sv s' a = Some e ->
    a = b /\ exists x reply, server_new c (g_cfg g) (i_henv i) (i_av i) (recv_cut g d) = SAccepted x reply /\
      e = new_entry x (e_now (i_env i)) (i_file i) /\
      sent_to a o = match reply with Some w => [OWire w] | None => [] end;
  gd_looked_load : forall fl s a, sv_looked sv (sv_load sv fl s) a = sv_looked sv s a;
  gd_cut : forall x, op_bs (es_opts x) <= sc_max_bs (g_cfg g) ->
    exists L, (op_bs (es_opts x) + 4 <= L /\ 516 <= L) /\ forall e d, c_opts (en_conn e) = es_opts x -> cut e d = takeN L d }.

Lemma addrs_load fl t : addrs (load_table fl t) = addrs t.
Proof. unfold addrs, load_table. rewrite map_map. reflexivity. Qed.
Lemma find_load fl t a : find_entry (load_table fl t) a = option_map (set_file (fl a)) (find_entry t a).
Proof.
  induction t as [|[b e] t IH]; cbn; [reflexivity|]. destruct (N.eqb_spec a b) as [->|]; [reflexivity|exact IH].
Qed.
Lemma addrs_load_h fl h : addrs (load_handles fl h) = addrs h.
Proof. unfold addrs, load_handles. rewrite map_map. reflexivity. Qed.
Lemma find_load_h fl h a :
  find_handle (load_handles fl h) a = option_map (fun x => mkT (th_live x) (set_file (fl a) (th_entry x))) (find_handle h a).
Proof.
  induction h as [|[b e] t IH]; cbn; [reflexivity|]. destruct (N.eqb_spec a b) as [->|]; [reflexivity|exact IH].
Qed.

Lemma single_good c g : good c g (single_server c g) (TableOk g) (scut g).
Proof.
  split; cbn [single_server sv_phase sv_main sv_looked sv_view sv_load].
  - intros s t s' o. apply sphase_ok.
  - intros fl s [S L]. split; cbn [s_clients].
    + unfold sorted. rewrite addrs_load. exact S.
    + unfold load_table. rewrite map_length. exact L.
  - intros s a d i s' o [T E]. rewrite <- T. apply sp_receive. exact E.
  - intros fl s a. unfold sview. cbn [s_clients]. apply find_load.
  - intros s a _ H. apply Bool.andb_true_iff in H as [H _]. unfold has_entry in H. unfold sview.
    destruct (find_entry (s_clients s) a); [discriminate|reflexivity].
  - intros s t s' o a e. apply sphase_pev.
  - intros s t s' o a e [SO _] P V V'. pose proof (sorted_nodup _ SO) as ND. unfold sview in *.
    destruct P as [s i s' o E|s i s' o E|s i s' o E].
    + exfalso. unfold step_clean in E. destruct (2000 <? _); [|injection E as <- _; congruence].
      destruct (retain _ _ _) as [t o1] eqn:ER. apply retain_clients_spec in ER as [-> _]; [|exact ND].
      injection E as <- _. cbn [s_clients] in V'. rewrite find_filter, V in V' by exact ND. discriminate.
    + exfalso. unfold step_send, send_data_blocks in E.
      destruct (pass _ _ (i_send1 i) 0 (s_clients s)) as [[t1 p1] r1] eqn:E1.
      assert (F1 : find_entry t1 a = None).
      { destruct (pass_own _ _ _ a _ _ _ _ _ E1 ND) as [[-> _]|(e0 & j & e' & plain & ok & EF & _)]; congruence. }
      destruct r1 as [n1|]; [injection E as <- _; cbn [s_clients] in V'; congruence|].
      destruct (pass _ _ (i_send2 i) 0 t1) as [[t2 p2] r2] eqn:E2.
      assert (ND1 : NoDup (addrs t1)) by (rewrite (pass_addrs _ _ _ _ _ _ _ _ E1); exact ND).
      assert (F2 : find_entry t2 a = None).
      { destruct (pass_own _ _ _ a _ _ _ _ _ E2 ND1) as [[-> _]|(e0 & j & e' & plain & ok & EF & _)]; congruence. }
      destruct r2; injection E as <- _; cbn [s_clients] in V'; congruence.
    + unfold step_recv, taken in *. destruct (scan _ _ _ _) as [[[b d]|] cursor]; cbn [fst].
      * exfalso. destruct (find_entry (s_clients s) b) as [e0|] eqn:EF; [|discriminate]. unfold known_client in E.
        destruct (handle_client _ _ _ _ _) as [[e' plain]|]; [|discriminate]. injection E as <- _.
        cbn [s_clients set_recv] in V'. rewrite find_update in V' by congruence.
        destruct (N.eqb_spec a b) as [->|]; congruence.
      * destruct (i_main i) as [from d| |]; [|injection E as <- _; cbn in V'; congruence|discriminate]. exists d.
        destruct (has_entry (s_clients s) from) eqn:HE; [injection E as <- _; cbn in V'; congruence|].
        unfold new_client in E. cbn [s_clients set_recv] in E.
        destruct (g_max_conn g <=? _) eqn:MC; [injection E as <- _; cbn in V'; congruence|].
        destruct (server_new _ _ _ _ _) as [|reply|x reply]; [discriminate|injection E as <- _; cbn in V'; congruence|].
        injection E as <- _. cbn [s_clients] in V'. pose proof HE as EF. unfold has_entry in EF.
        destruct (find_entry (s_clients s) from) eqn:EF'; [discriminate|]. rewrite find_insert in V' by exact EF'.
        destruct (N.eqb_spec a from) as [->|]; [|congruence]. rewrite HE. split; reflexivity.
  - intros s b d i s' o a e _ [T E] V V'. unfold taken, sview, step_recv in *.
    destruct (scan _ _ _ _) as [[[b' y]|] cursor]; cbn [fst] in T; [discriminate|].
    destruct (i_main i) as [b' y| |]; try discriminate. injection T as -> ->.
    destruct (has_entry (s_clients s) b) eqn:HE; [injection E as <- _; cbn in V'; congruence|].
    unfold new_client in E. cbn [s_clients set_recv] in E. destruct (_ <=? _); [injection E as <- _; cbn in V'; congruence|].
    destruct (server_new _ _ _ _ _) as [|reply|x reply]; [discriminate|injection E as <- _; cbn in V'; congruence|].
    injection E as <- <-. cbn [s_clients] in V'. unfold has_entry in HE. destruct (find_entry (s_clients s) b) eqn:EF; [discriminate|].
    rewrite find_insert in V' by exact EF. destruct (N.eqb_spec a b) as [->|]; [|congruence]. injection V' as <-.
    split; [reflexivity|]. exists x, reply. split; [reflexivity|]. split; [reflexivity|]. rewrite sent_to_wire, N.eqb_refl. reflexivity.
  - intros fl s a. cbn [s_clients]. unfold has_entry, load_table at 2. rewrite find_load, map_length. destruct (find_entry (s_clients s) a); reflexivity.
  - intros x H. eexists. exact (scut_ok g x H).
Qed.
Lemma multi_good c g : good c g (multi_server c g) HandlesOk thread_cut.
Proof.
  split; cbn [multi_server sv_phase sv_main sv_looked sv_view sv_load].
  - intros s t s' o. apply mphase_ok.
  - intros fl s H. unfold HandlesOk, sorted in *. cbn [m_handles]. rewrite addrs_load_h. exact H.
  - intros s a d i s' o E. exact (mp_main c g s (MData a d) i s' o E).
  - intros fl s a. unfold mview, live_entry. cbn [m_handles]. rewrite find_load_h.
    destruct (find_handle (m_handles s) a) as [[[] e]|]; reflexivity.
  - intros s a H L. pose proof (sorted_nodup _ H) as ND. unfold mview. rewrite <- (live_filter _ a ND). unfold live_entry.
    destruct (find_handle (filter _ _) a); [discriminate|reflexivity].
  - intros s t s' o a e. apply mphase_pev.
  - intros m t m' o a e H P V V'. unfold HandlesOk, mview in *. pose proof (sorted_nodup _ H) as ND.
    destruct P as [m ev i m' o E|m b e0 v plain EF ET|m b e0 buflen v v' plain0 e' plain ok EF ET ES|m b e0 EF|m b e0 d v e' plain EF EH|m b e0 d v EF EH];
      cbn [m_handles] in V'.
    2,3,4,5,6: exfalso; rewrite (live_update _ _ _ _ _ EF) in V'; destruct (N.eqb_spec a b) as [->|]; [|congruence];
      unfold live_entry in V; rewrite EF in V; discriminate.
    unfold main_turn in E. set (h := filter _ (m_handles m)) in *.
    assert (LV : live_entry h a = None) by (unfold h; rewrite live_filter; assumption).
    destruct ev as [from d| |]; [|injection E as <- _; cbn in V'; congruence|discriminate]. exists d.
    destruct (find_handle h from) eqn:EF; [injection E as <- _; cbn in V'; congruence|].
    destruct (g_max_conn g <=? _) eqn:MC; [injection E as <- _; cbn in V'; congruence|].
    destruct (server_new _ _ _ _ _) as [|reply|x reply]; [discriminate|injection E as <- _; cbn in V'; congruence|].
    injection E as <- _. cbn [m_handles] in V'. unfold live_entry in V'. rewrite find_insert_handle in V' by exact EF.
    destruct (N.eqb_spec a from) as [->|].
    { split; [reflexivity|]. cbn zeta. fold h. rewrite EF. reflexivity. }
    exfalso. unfold live_entry in LV. destruct (find_handle h a) as [[[] x0]|]; congruence.
  - intros m b d i m' o a e H E V V'. unfold HandlesOk, mview, main_turn in *. pose proof (sorted_nodup _ H) as ND.
    set (h := filter _ (m_handles m)) in *.
    assert (LV : live_entry h a = None) by (unfold h; rewrite live_filter; assumption).
    destruct (find_handle h b) eqn:EF; [injection E as <- _; cbn in V'; congruence|].
    destruct (_ <=? _); [injection E as <- _; cbn in V'; congruence|].
    destruct (server_new _ _ _ _ _) as [|reply|x reply]; [discriminate|injection E as <- _; cbn in V'; congruence|].
    injection E as <- <-. cbn [m_handles] in V'. unfold live_entry in V'. rewrite find_insert_handle in V' by exact EF.
    destruct (N.eqb_spec a b) as [->|].
    { injection V' as <-. split; [reflexivity|]. exists x, reply. split; [reflexivity|]. split; [reflexivity|]. rewrite sent_to_wire, N.eqb_refl. reflexivity. }
    exfalso. unfold live_entry in LV. destruct (find_handle h a) as [[[] x0]|]; congruence.
  - intros fl m a. cbn [m_handles]. cbn zeta.
    assert (F : filter (fun x => th_live (snd x)) (load_handles fl (m_handles m)) = load_handles fl (filter (fun x => th_live (snd x)) (m_handles m))).
    { induction (m_handles m) as [|[b [[] y]] h IH]; cbn; [reflexivity| |exact IH]. f_equal. exact IH. }
    rewrite F, find_load_h. unfold load_handles. rewrite map_length. destruct (find_handle _ a); reflexivity.
  - intros x H. eexists. exact (tcut_ok x).
Qed.

(** ** What a connection keeps *)
Lemma handle_write_out dec cn w wire now max io sh sock txt cn' w' plain :
  handle_write dec cn w wire now max io sh sock txt = (cn', w', plain) -> exists x, w_out w' = w_out w ++ x.
Proof.
  unfold handle_write. intros H.
  destruct (dec wire) as [p|]; [|injection H as _ <- _; exists []; rewrite app_nil_r; reflexivity].
  destruct (from_bytes p) as [[r|r|bn dat|bn|code msg|x]|?|];
    try (injection H as _ <- _; exists []; rewrite app_nil_r; reflexivity).
  destruct (srv_write_block w bn dat io sh) as [w1 r] eqn:EW.
  assert (X : exists x, w_out w1 = w_out w ++ x).
  { unfold srv_write_block in EW. destruct (write_block w bn dat io sh) as [w2 r2] eqn:EB. injection EW as <- _.
    unfold write_block in EB. destruct (map_index _ _) as [pr m].
    destruct (pr <? _); [injection EB as <- _; exists []; cbn; rewrite app_nil_r; reflexivity|].
    destruct (_ <? pr); [injection EB as <- _; exists []; cbn; rewrite app_nil_r; reflexivity|].
    destruct io; injection EB as <- _; cbn; [exists []; rewrite app_nil_r; reflexivity|eauto]. }
  destruct r as [[[wr ix] blk]|]; [|injection H as _ <- _; exact X].
  destruct (match wr with Some n => _ | None => false end); [injection H as _ <- _; exact X|]. injection H as _ <- _. exact X.
Qed.
Lemma handle_client_works c max e d v e' plain : handle_client c max e d v = Some (e', plain) ->
  match en_work e, en_work e' with
  | WRead F _, WRead F' _ => F' = F
  | WWrite p w, WWrite p' w' => p' = p /\ exists x, w_out w' = w_out w ++ x
  | _, _ => False
  end.
Proof.
  unfold handle_client. intros H. assert (H' : match en_work e with
      | WRead file r =>
          let '(k, r', ok) := handle_read (entry_dec c e) (en_conn e) r d (e_now v) in
          match ok with Some _ => Some (mkE k (en_key e) (WRead file r'), []) | None => None end
      | WWrite path w =>
          let '(k, w', plain) :=
            handle_write (entry_dec c e) (en_conn e) w d (e_now v) max (e_io v) (e_short v) (e_sock v) (e_txt v) in
          Some (mkE k (en_key e) (WWrite path w'), plain)
      end = Some (e', plain)) by (destruct (entry_decrypt c e d); [exact H|exact H|discriminate]).
  clear H. destruct (en_work e) as [F r|p w].
  - destruct (handle_read _ _ _ _ _) as [[k r'] [x|]]; [|discriminate]. injection H' as <- _. reflexivity.
  - destruct (handle_write _ _ _ _ _ _ _ _ _ _) as [[k w'] pl] eqn:EH. injection H' as <- _. cbn [en_work].
    split; [reflexivity|]. eapply handle_write_out. exact EH.
Qed.
(** Same file; what is stored grows, and only when a datagram of the client is handled. *)
Lemma pev_works c g a cut e t e' o : pev c g a cut e t (Some e') o ->
  match en_work e, en_work e' with
  | WRead F _, WRead F' _ => F' = F
  | WWrite p w, WWrite p' w' => p' = p /\ (exists x, w_out w' = w_out w ++ x) /\ (hears a t = false -> w' = w)
  | _, _ => False
  end.
Proof.
  intros P. inversion P as [t0 H|t0 v plain H E|t0 buflen v e0 plain ok H A E|t0|d v e0 plain E]; subst.
  - destruct (en_work e'); [reflexivity|]. split; [reflexivity|]. split; [exists []; rewrite app_nil_r; reflexivity|auto].
  - unfold send_client in E. unfold active in A. destruct (en_work e) as [F r|p w]; [|discriminate].
    destruct (send_data_block _ _ _ _ _ _ _ _) as [[[k r'] pl] b]. injection E as <- _ _. reflexivity.
  - apply handle_client_works in E. destruct (en_work e), (en_work e'); try exact E. destruct E as [E1 E2].
    split; [exact E1|]. split; [exact E2|]. cbn [hears]. rewrite N.eqb_refl. discriminate.
Qed.

(** ** Opening files *)
Definition emptied (f f' : fs) : Prop := forall id, f_data f' id = f_data f id \/ f_data f' id = [].
Lemma emptied_refl f : emptied f f.
Proof. intros id. auto. Qed.
Lemma emptied_trans f f1 f2 : emptied f f1 -> emptied f1 f2 -> emptied f f2.
Proof. intros A B id. destruct (A id) as [A'|A'], (B id) as [B'|B']; rewrite ?B', ?A'; auto. Qed.
Lemma mkdir_data f p f' r : mkdir f p = (f', r) -> f_data f' = f_data f.
Proof.
  unfold mkdir. destruct (p_empty p); [intros [= <- _]; reflexivity|].
  destruct (p_parts p) as [|c0 ps]; [intros [= <- _]; reflexivity|].
  destruct (walk _ _ _ _) as [d|]; [|intros [= <- _]; reflexivity]. cbn zeta.
  destruct (beq _ _); [intros [= <- _]; reflexivity|]. destruct (at_ f d) as [[]|]; try (intros [= <- _]; reflexivity).
  destruct (at_ f _); [intros [= <- _]; reflexivity|]. destruct (f_perm _ _); intros [= <- _]; reflexivity.
Qed.
Lemma create_dir_all_data k : forall f p f' ok, create_dir_all k f p = (f', ok) -> f_data f' = f_data f.
Proof.
  induction k as [|k IH]; intros f p f' ok; cbn [create_dir_all].
  - destruct (p_empty p); [intros [= <- _]; reflexivity|].
    destruct (mkdir f p) as [f1 [[]|]] eqn:E1; intros [= <- _]; eapply mkdir_data; exact E1.
  - destruct (p_empty p); [intros [= <- _]; reflexivity|].
    destruct (mkdir f p) as [f1 [[]|]] eqn:E1; [intros [= <- _]; eapply mkdir_data; exact E1|intros [= <- _]; eapply mkdir_data; exact E1|].
    apply mkdir_data in E1. destruct (parent p) as [q|]; [|intros [= <- _]; exact E1].
    destruct (create_dir_all k f1 q) as [f2 ok2] eqn:E2. apply IH in E2. destruct ok2; [|intros [= <- _]; congruence].
    destruct (mkdir f2 p) as [f3 [[]|]] eqn:E3; apply mkdir_data in E3; intros [= <- _]; congruence.
Qed.
Lemma open_path_data excl f p f' r : open_path excl f p = (f', r) -> emptied f f'.
Proof.
  unfold open_path. destruct (p_empty p); [intros [= <- _]; apply emptied_refl|]. intros E. apply open_cases in E.
  destruct r as [[q id]|]; [|subst; apply emptied_refl]. destruct E as [(-> & _)|(-> & _)]; [apply emptied_refl|].
  intros i. cbn. destruct (i =? f_next f); auto.
Qed.
Lemma writer_data f fg name f' r : create_server_writer f fg name = (f', r) -> emptied f f'.
Proof.
  unfold create_server_writer. destruct (validate_path _ _); [|intros [= <- _]; apply emptied_refl]. cbn zeta.
  destruct (starts_with _ _); [|intros [= <- _]; apply emptied_refl].
  destruct (match parent _ with Some q => _ | None => (f, true) end) as [f1 ok] eqn:E1.
  assert (D1 : f_data f1 = f_data f).
  { destruct (parent _) as [q|]; [|injection E1 as <- _; reflexivity].
    destruct (is_dir f q); [injection E1 as <- _; reflexivity|]. eapply create_dir_all_data. exact E1. }
  assert (M1 : emptied f f1) by (intros id; left; rewrite D1; reflexivity).
  destruct ok; [|intros [= <- _]; exact M1].
  destruct (open_path (negb _) f1 _) as [f2 [[q id]|]] eqn:E2; apply open_path_data in E2;
    [|intros [= <- _]; eapply emptied_trans; eassumption].
  pose proof (emptied_trans _ _ _ M1 E2) as M2.
  destruct (realpath f2 _) as [d|]; [|intros [= <- _]; exact M2]. destruct (realpath f2 _) as [q'|]; [|intros [= <- _]; exact M2].
  destruct (prefix_of d q'); [|intros [= <- _]; exact M2]. destruct (fc_overwrite fg); [|intros [= <- _]; exact M2].
  destruct (open_path false f2 _) as [f3 [[q3 id3]|]] eqn:E3; apply open_path_data in E3; pose proof (emptied_trans _ _ _ M2 E3) as M3;
    intros [= <- _]; [|exact M3]. intros i. cbn [set_data f_data]. destruct (i =? id3); [auto|]. apply M3.
Qed.
Lemma open_path_new excl f p f' q id : open_path excl f p = (f', Some (q, id)) -> excl = true ->
  f_data f' id = [] /\ f_next f <= id < f_next f'.
Proof.
  unfold open_path. destruct (p_empty p); [discriminate|]. intros E EX. apply open_cases in E.
  destruct E as [(_ & X & _)|(-> & -> & _)]; [congruence|]. rewrite data_new, N.eqb_refl. split; [reflexivity|]. cbn. lia.
Qed.
Lemma writer_new_file f fg name f' id : create_server_writer f fg name = (f', Some id) ->
  f_data f' id = [] /\ (fc_overwrite fg = false -> f_next f <= id < f_next f').
Proof.
  unfold create_server_writer. destruct (validate_path _ _); [|discriminate]. cbn zeta.
  destruct (starts_with _ _); [|discriminate].
  destruct (match parent _ with Some q => _ | None => (f, true) end) as [f1 ok] eqn:E1.
  assert (G1 : grows f f1).
  { destruct (parent _) as [q|]; [|injection E1 as <- _; apply grows_refl].
    destruct (is_dir f q); [injection E1 as <- _; apply grows_refl|]. eapply create_dir_all_grows. exact E1. }
  pose proof (g_next _ _ G1) as N1. destruct ok; [|discriminate].
  destruct (open_path (negb _) f1 _) as [f2 [[q i]|]] eqn:E2; [|discriminate].
  destruct (realpath f2 _) as [d|]; [|discriminate]. destruct (realpath f2 _) as [q'|]; [|discriminate].
  destruct (prefix_of d q'); [|discriminate]. destruct (fc_overwrite fg).
  - destruct (open_path false f2 _) as [f3 [[q3 id3]|]]; [|discriminate]. intros [= <- <-]. cbn. rewrite N.eqb_refl. split; [reflexivity|discriminate].
  - intros [= <- <-]. destruct (open_path_new _ _ _ _ _ _ E2 eq_refl) as [D L]. split; [exact D|]. intros _. lia.
Qed.
Lemma writer_exclusive f fg name f' r : create_server_writer f fg name = (f', r) -> fc_overwrite fg = false ->
  f_next f <= f_next f' /\ forall i, i < f_next f -> f_data f' i = f_data f i.
Proof.
  intros H O. assert (G : grows f f'); [|split; [apply (g_next _ _ G)|apply (g_data _ _ G)]]. revert H.
  unfold create_server_writer. destruct (validate_path _ _); [|intros [= <- _]; apply grows_refl]. cbn zeta.
  destruct (starts_with _ _); [|intros [= <- _]; apply grows_refl].
  destruct (match parent _ with Some q => _ | None => (f, true) end) as [f1 ok] eqn:E1.
  assert (G1 : grows f f1).
  { destruct (parent _) as [q|]; [|injection E1 as <- _; apply grows_refl].
    destruct (is_dir f q); [injection E1 as <- _; apply grows_refl|]. eapply create_dir_all_grows. exact E1. }
  destruct ok; [|intros [= <- _]; exact G1].
  destruct (open_path (negb _) f1 _) as [f2 [[q id]|]] eqn:E2; apply open_path_grows in E2;
    [|intros [= <- _]; eapply grows_trans; eassumption].
  pose proof (grows_trans _ _ _ G1 E2) as G2.
  destruct (realpath f2 _) as [d|]; [|intros [= <- _]; exact G2]. destruct (realpath f2 _) as [q'|]; [|intros [= <- _]; exact G2].
  destruct (prefix_of d q'); [|intros [= <- _]; exact G2]. rewrite O. intros [= <- _]. exact G2.
Qed.
Lemma request_exclusive c cfg fg ds f eph d f' q r : open_request c cfg fg ds f eph d = (f', q, r) -> fc_overwrite fg = false ->
  f_next f <= f_next f' /\ (forall i, i < f_next f -> f_data f' i = f_data f i) /\
  (forall id, r = Some (Writes id) -> f_next f <= id < f_next f').
Proof.
  unfold open_request. intros H O. destruct (file_request _ _ _ _) as [[[] path]|].
  - destruct (create_server_writer f fg path) as [f1 r1] eqn:E. injection H as <- _ <-. destruct (writer_exclusive _ _ _ _ _ E O) as [A B].
    split; [exact A|]. split; [exact B|]. intros id X. destruct r1 as [j|]; [|discriminate]. injection X as <-.
    apply writer_new_file in E. destruct E as [_ E]. auto.
  - injection H as <- _ <-. split; [lia|]. split; [reflexivity|]. destruct (create_server_reader _ _ _); discriminate.
  - injection H as <- _ <-. split; [lia|]. split; [reflexivity|]. discriminate.
Qed.
Lemma request_data c cfg fg ds f eph d f' q r : open_request c cfg fg ds f eph d = (f', q, r) -> emptied f f'.
Proof.
  unfold open_request. destruct (file_request _ _ _ _) as [[[] path]|]; try (intros [= <- _ _]; apply emptied_refl).
  destruct (create_server_writer f fg path) as [f1 r1] eqn:E. intros [= <- _ _]. eapply writer_data. exact E.
Qed.
(** It is FsServerModel's server that opens the files. *)
Lemma file_server_opens c cfg fg ds f env av d :
  file_server c cfg fg ds f env av d =
  let '(f', q, r) := open_request c cfg fg ds f (h_eph env) d in (f', server_new c cfg (with_open env q) av d, r).
Proof.
  unfold file_server, open_request. destruct (file_request _ _ _ _) as [[[] path]|]; try reflexivity.
  destruct (create_server_writer f fg path) as [f1 r1]. reflexivity.
Qed.

(** ** Writing *)
Lemma nth_firstn_lt {A} : forall (l : list A) n p, (p < n)%nat -> nth_error (firstn n l) p = nth_error l p.
Proof. induction l as [|x l IH]; intros [|n] [|p] H; cbn; try reflexivity; try lia. apply IH. lia. Qed.
Lemma nth_skip {A} : forall (l : list A) n p, nth_error (skipn n l) p = nth_error l (n + p).
Proof. induction l as [|x l IH]; intros [|n] p; cbn; try reflexivity; [destruct p; reflexivity|apply IH]. Qed.
Lemma blen_zero n : blen (repeat (0:N) n) = N.of_nat n.
Proof. unfold blen. rewrite repeat_length. reflexivity. Qed.
Lemma write_end old data : write_at old (blen old) data = old ++ data.
Proof.
  unfold write_at. destruct data as [|b data]; [rewrite app_nil_r; reflexivity|].
  rewrite takeN_all by lia. rewrite N.sub_diag. cbn [N.to_nat repeat app]. rewrite dropN_all by lia. rewrite app_nil_r. reflexivity.
Qed.
Lemma nth_error_repeat0 n p b : nth_error (repeat (0:N) n) p = Some b -> b = 0.
Proof. intros H. apply nth_error_In in H. apply repeat_spec in H. exact H. Qed.
(** A byte of the file after a write: the byte of the data there, the old one, or zero. *)
Lemma write_nth old pos data p :
  nth_error (write_at old pos data) p =
    if (p <? N.to_nat pos)%nat then
      match data with
      | [] => nth_error old p
      | _ => if (p <? length old)%nat then nth_error old p else Some 0
      end
    else match nth_error data (p - N.to_nat pos) with
         | Some b => Some b
         | None => nth_error old p
         end.
Proof.
  unfold write_at. destruct data as [|b0 data].
  { destruct (p <? N.to_nat pos)%nat; [reflexivity|]. destruct (p - N.to_nat pos)%nat; reflexivity. }
  set (dt := b0 :: data). unfold takeN, dropN, blen.
  destruct (Nat.ltb_spec p (N.to_nat pos)) as [H|H].
  - destruct (Nat.ltb_spec p (length old)) as [H1|H1].
    + rewrite nth_error_app1 by (rewrite firstn_length; lia). rewrite nth_firstn_lt by lia. reflexivity.
    + rewrite nth_error_app2 by (rewrite firstn_length; lia). rewrite firstn_length.
      rewrite nth_error_app1 by (rewrite repeat_length; lia). 
      destruct (nth_error (repeat 0 _) _) as [x|] eqn:E; [rewrite (nth_error_repeat0 _ _ _ E); reflexivity|].
      apply nth_error_None in E. rewrite repeat_length in E. lia.
  - rewrite nth_error_app2 by (rewrite firstn_length; lia). rewrite firstn_length.
    rewrite nth_error_app2 by (rewrite repeat_length; lia). rewrite repeat_length.
    replace (p - Nat.min (N.to_nat pos) (length old) - N.to_nat (pos - N.of_nat (length old)))%nat with (p - N.to_nat pos)%nat by lia.
    destruct (nth_error dt (p - N.to_nat pos)) as [x|] eqn:E.
    + rewrite nth_error_app1 by (apply nth_error_Some; congruence). exact E.
    + apply nth_error_None in E. rewrite nth_error_app2 by exact E. rewrite nth_skip.
      f_equal. lia.
Qed.
