(** * UsableSeqProofs: commands one after the other *)
From Verif Require Import Base Uid SpecUid UidProofs Tree SpecTree TreeRefine TreeObs Dump DumpProofs Json JsonProofs Save SaveProofs Branch BranchProofs Date Ws SpecWs WsProofs
  Fs Overlay Os Layers Mounts Space Manager Commands FsProofs OsProofs LayerProofs MountProofs SpaceProofs ManagerProofs SpecWorld SpecOps SavedProofs FaultProofs ReadyProofs OpProofs CalmProofs
  SpecMachine SpecCmds MachineProofs OpenProofs CmdProofs ExpandProofs DetProofs SpecTidy TidyProofs Story SpecUsable UsableProofs UsableCmdProofs.
From Coq Require Import Lia.
From stdpp Require Import prelude gmap.

(** ** Saved trees *)
Lemma san_keys_valid {V} (f : V → V) (m : gmap bytes V) k v : san_map f m = m → m !! k = Some v → valid_utf8 k = true ∧ ∃ v0, v = f v0.
Proof. intros E H. rewrite <-E in H. apply san_map_in in H as (k0 & v0 & _ & -> & ->). split; [apply sanitize_is_valid|eauto]. Qed.
Lemma valid_of_san a : san_tree a = a → valid_tree a.
Proof.
  intros E. assert (san_map id (a_branches a) = a_branches a) as Eb by (by rewrite <-E at 2). assert (san_map id (a_tags a) = a_tags a) as Et by (by rewrite <-E at 2).
  assert (san_anode <$> a_nodes a = a_nodes a) as En by (by rewrite <-E at 2). split; [|split].
  - intros k v H. by destruct (san_keys_valid _ _ _ _ Eb H).
  - intros k v H. by destruct (san_keys_valid _ _ _ _ Et H).
  - intros i n H. assert (san_anode n = n) as Es by (pose proof H as H'; rewrite <-En in H'; rewrite lookup_fmap, H in H'; by injection H'). split.
    + intros k v Hk. assert (san_map sanitize (an_anno n) = an_anno n) as Ea by (by rewrite <-Es at 2). destruct (san_keys_valid _ _ _ _ Ea Hk) as (V & v0 & ->).
      split; [done|]. apply sanitize_is_valid.
    + intros k v Hk. assert (san_map id (an_data n) = an_data n) as Ea by (by rewrite <-Es at 2). by destruct (san_keys_valid _ _ _ _ Ea Hk).
Qed.
Lemma workspace_san dr w p mid y hid a : in_order dr w → workspace_at dr w p mid y hid a → san_tree a = a.
Proof.
  intros Io [_ _ _ _ A5 _]. destruct (mc_tree _ _ _ (io_machine _ _ Io) (sp_id (ws_space y))) as [E|[(raw & E & T)|(a0 & H0 & LP0)]].
  - destruct A5 as (raw & E' & _). congruence.
  - destruct A5 as (raw' & E' & L). rewrite E in E'. injection E' as <-. by destruct (torn_not_loads raw a T L).
  - pose proof (holds_det _ _ _ _ A5 H0) as ->. by rewrite san_idemp.
Qed.
(** ** After a commit *)
Lemma commit_next y y' a a' hid id ch d m : san_tree a = a → chain a hid ch → has a hid → op_tree (read_back y) hid (OCommit (Some d) m) a a' →
  ¬ has a id → has a' id → ws_id y' = ws_id y → ws_branch y' = sanitize (ws_branch y) →
  chain (san_tree a') id (id :: ch) ∧ may_commit (read_back y') (san_tree a') id ∧ has_message (san_tree a') hid (sanitize m) ∧
  (∀ z, z ≠ hid → has a z → a_nodes (san_tree a') !! z = a_nodes a !! z) ∧
  (sanitize (ws_branch y) ≠ [] → a_branches (san_tree a') !! local_key (ws_id y) (sanitize (ws_branch y)) = Some hid) ∧
  (∀ k, k ≠ local_key (ws_id y) (sanitize (ws_branch y)) → a_branches (san_tree a') !! k = a_branches a !! k) ∧
  (∀ z q, SpecTree.parent_of a z q → SpecTree.parent_of (san_tree a') z q) ∧ (∀ z, is_root a z → is_root (san_tree a') z).
Proof.
  intros Es C Hh (n & id0 & En & N0 & Ht) Ni Hi E1 E2. pose proof (valid_of_san _ Es) as (Vb & _ & Vn). cbv zeta in Ht. cbn [read_back ws_branch ws_id] in Ht.
  set (a1 := plus_node (plus_node a hid _) id0 _) in Ht.
  assert (hid ≠ id0) as Ne by congruence.
  assert (a_nodes a' = a_nodes a1) as Ea by (destruct Ht as [[_ ->]|(_ & -> & _)]; done).
  assert (id = id0) as ->.
  { destruct (decide (id = id0)) as [?|N1]; [done|]. destruct Ni. unfold has in Hi |- *. rewrite Ea in Hi. unfold a1, plus_node in Hi. cbn [a_nodes] in Hi. rewrite lookup_insert_ne in Hi by done.
    destruct (decide (hid = id)) as [->|N2]; [done|]. by rewrite lookup_insert_ne in Hi. }
  assert (∀ z, z ≠ hid → z ≠ id0 → a_nodes a' !! z = a_nodes a !! z) as Ho.
  { intros z Z1 Z2. rewrite Ea. unfold a1, plus_node. cbn [a_nodes]. by rewrite !lookup_insert_ne by done. }
  assert (a_nodes a' !! hid = Some (committed n (Some d) m)) as Eh.
  { rewrite Ea. unfold a1, plus_node. cbn [a_nodes]. rewrite lookup_insert_ne by done. by rewrite lookup_insert. }
  assert (a_nodes a' !! id0 = Some (ANode (Some hid) ∅ ∅)) as Ei by (rewrite Ea; unfold a1, plus_node; cbn [a_nodes]; by rewrite lookup_insert).
  assert (∀ z, has a z → z ≠ id0) as Hz by (intros z [v Hv] ->; congruence).
  assert (∀ z nz, a_nodes a !! z = Some nz → ∃ nz', a_nodes a' !! z = Some nz' ∧ an_parent nz' = an_parent nz) as Hp.
  { intros z nz Ez. destruct (decide (z = hid)) as [->|N1]; [exists (committed n (Some d) m); split; [done|]; rewrite En in Ez; by injection Ez as <-|].
    exists nz. split; [|done]. rewrite Ho; [done|done|]. apply Hz. by eexists. }
  assert (SpecTree.parent_of a' id0 hid) as Pi by (eexists; by split).
  assert (∀ z q, SpecTree.parent_of a z q → SpecTree.parent_of a' z q) as Hpar.
  { intros z q (nz & Ez & Pz). destruct (Hp _ _ Ez) as (nz' & Ez' & Pz'). exists nz'. split; [done|congruence]. }
  assert (∀ z, is_root a z → is_root a' z) as Hroot.
  { intros z (nz & Ez & Pz). destruct (Hp _ _ Ez) as (nz' & Ez' & Pz'). exists nz'. split; [done|congruence]. }
  assert (chain a' id0 (id0 :: ch)) as C' by (apply (chain_step _ _ hid); [done|]; by eapply chain_mono).
  assert (sanitize (ws_branch y) ≠ [] → a_branches (san_tree a') !! local_key (ws_id y) (sanitize (ws_branch y)) = Some hid) as Hb.
  { intros Nb. destruct Ht as [[? _]|(_ & -> & _)]; [done|]. unfold san_tree, plus_branch, a1, plus_node. cbn [a_branches]. rewrite san_keys_id; [by rewrite lookup_insert|].
    intros k v Hk. apply lookup_insert_Some in Hk as [[<- _]|[_ Hk]]; [|by eapply Vb]. rewrite local_key_valid. apply sanitize_is_valid. }
  split; [by apply san_chain|]. split; [|split; [|split; [|split; [exact Hb|split; [|split]]]]].
  - unfold may_commit. cbn [read_back ws_branch ws_id]. rewrite E1, E2, sanitize_idemp. destruct (decide (sanitize (ws_branch y) = [])) as [?|Nb]; [by left|right].
    exists hid. split; [by apply Hb|]. apply san_anc. eapply rtc_once. exact Pi.
  - exists (san_anode (committed n (Some d) m)). split; [unfold san_tree; cbn [a_nodes]; by rewrite lookup_fmap, Eh|]. unfold san_anode, committed. cbn [an_anno].
    rewrite san_map_valid; [by rewrite lookup_fmap, lookup_insert|].
    intros k v Hk. apply lookup_insert_Some in Hk as [[<- _]|[_ Hk]]; [done|]. apply lookup_insert_Some in Hk as [[<- _]|[_ Hk]]; [done|]. destruct (Vn _ _ En) as [V _]. by destruct (V _ _ Hk).
  - intros z Z1 Z2. rewrite <-Es at 1. unfold san_tree. cbn [a_nodes]. rewrite !lookup_fmap. f_equal. apply Ho; [done|by apply Hz].
  - intros k Nk. destruct Ht as [[_ ->]|(_ & -> & _)]; unfold san_tree, plus_branch, a1, plus_node; cbn [a_branches]; [by rewrite san_keys_id|].
    rewrite san_keys_id; [by rewrite lookup_insert_ne by done|]. intros k' v Hk. apply lookup_insert_Some in Hk as [[<- _]|[_ Hk]]; [|by eapply Vb]. rewrite local_key_valid. apply sanitize_is_valid.
  - intros z q Hz'. by apply san_parent, Hpar.
  - intros z Hz'. by apply san_root, Hroot.
Qed.
(** ** What users change *)
Lemma root_not_diff dr n id : under (diff_dir (layers_root dr) id) (dr ++ [n]) = false.
Proof. apply not_true_is_false. intros Q. unfold under in Q. apply andb_true_iff in Q as [Q _]. apply is_prefix_spec in Q as [k Q]. apply (f_equal length) in Q. unfold diff_dir, layer_dir, layers_root in Q. rewrite !app_length in Q. cbn in Q. lia. Qed.
Lemma user_order dr w w' : in_order dr w → user_change dr w w' → in_order dr w'.
Proof.
  intros [Mc A2 A3 A4 A5] U. pose proof (user_vital _ _ _ Mc U) as Hv. pose proof (user_orderly _ _ _ Mc U) as [Mc' _]. pose proof U as (_ & Em & _).
  assert (∀ n, is_dir_at (w_fs w) (dr ++ [n]) = true → is_dir_at (w_fs w') (dr ++ [n]) = true) as Hr.
  { intros n D. unfold is_dir_at. rewrite Hv; [done|apply is_prefix_app|]. intros. apply root_not_diff. }
  constructor; try done; try by apply Hr.
  intros m Hm Hp. rewrite Em in Hm. pose proof (A2 m Hm Hp) as D. destruct (mc_mounts _ _ _ Mc m Hm Hp) as [[mid Ea] _]. rewrite Ea in *.
  unfold is_dir_at. rewrite Hv; [done| |intros; apply merged_not_diff]. destruct (merged_in dr mid) as [k ->]. apply is_prefix_app.
Qed.
Lemma user_workspace dr w w' p mid y hid a : in_order dr w → user_change dr w w' → fget (w_fs w') p = fget (w_fs w) p →
  workspace_at dr w p mid y hid a → workspace_at dr w' p mid y hid a.
Proof.
  intros [Mc _ _ _ _] U El [A1 A2 A3 A4 A5 A6]. pose proof (user_vital _ _ _ Mc U) as Hv. pose proof U as (_ & Em & _).
  assert (∀ q, vital dr q → fget (w_fs w') q = fget (w_fs w) q) as Hs.
  { intros q V. apply Hv; [by apply vital_in in V as [k ->]; apply is_prefix_app|]. intros. by apply vital_not_diff. }
  constructor; try done.
  - by rewrite El.
  - unfold mounted_once in *. rewrite Em. destruct A2 as [D A2]. split; [|done].
    unfold is_dir_at. rewrite Hv; [done| |intros; apply merged_not_diff]. destruct (merged_in dr mid) as [k ->]. apply is_prefix_app.
  - rewrite Hs; [done|]. right. left. by eexists.
  - unfold holds. rewrite Hs; [done|]. left. by eexists.
Qed.
(** Mounts that end *)
Lemma fewer_below ms' ms d : sublist ms' ms → sublist (mounts_below ms' d) (mounts_below ms d).
Proof.
  unfold mounts_below. induction 1 as [|m l k S IH|m l k S IH]; [done|..]; rewrite !filter_cons; case_decide; try done; by constructor.
Qed.
Lemma sublist_one {A} (l : list A) x : sublist l [x] → l = [] ∨ l = [x].
Proof. intros S. inversion S as [|? ? ? S1|? ? ? S1]; subst; apply sublist_nil_r in S1 as ->; auto. Qed.
Lemma fewer_order dr w w' : in_order dr w → w_fs w' = w_fs w → sublist (w_mounts w') (w_mounts w) → in_order dr w'.
Proof.
  intros [Mc A2 A3 A4 A5] Ef S. constructor; rewrite ?Ef; try done; [|intros m Hm; apply A2; by eapply sub_elem].
  eapply machine_frame; [exact Mc|apply Mc|auto..]. intros m Hm. left. by eapply sub_elem.
Qed.
Lemma fewer_workspace dr w w' p mid y hid a : w_fs w' = w_fs w → sublist (w_mounts w') (w_mounts w) → workspace_at dr w p mid y hid a → workspace_at dr w' p mid y hid a.
Proof.
  intros Ef S [A1 [D A2] A3 A4 A5 A6]. constructor; unfold holds in *; rewrite ?Ef; try done. split; [by rewrite Ef|].
  pose proof (fewer_below _ _ (mount_dir dr mid) S) as Sb. destruct A2 as [E|(m & E & Ea)]; rewrite E in Sb; [left; by apply sublist_nil_r|].
  apply sublist_one in Sb as [->| ->]; [by left|right; by exists m].
Qed.
Lemma while_order dr w w' : in_order dr w → meanwhile dr w w' → in_order dr w'.
Proof. intros Io (v & U & E & S). eapply fewer_order; [by eapply user_order|done|done]. Qed.
Lemma while_workspace dr w w' p mid y hid a : in_order dr w → meanwhile dr w w' → fget (w_fs w') p = fget (w_fs w) p →
  workspace_at dr w p mid y hid a → workspace_at dr w' p mid y hid a.
Proof. intros Io (v & U & E & S) El Wa. eapply fewer_workspace; [done|done|]. eapply user_workspace; [done|done| |done]. by rewrite <-E. Qed.
Lemma user_while dr w w' : user_change dr w w' → meanwhile dr w w'.
Proof. intros U. by exists w'. Qed.
(** ** A new process at a workspace *)
Lemma enter_order dr d w : in_order dr w → in_order dr (enter d w).
Proof. by intros [A1 A2 A3 A4 A5]. Qed.
Lemma enter_workspace dr d w p mid y hid a : workspace_at dr w p mid y hid a → workspace_at dr (enter d w) p mid y hid a.
Proof. by intros [A1 A2 A3 A4 A5 A6]. Qed.
Lemma enter_runs dr w p mid y hid a : good_path dr → in_order dr w → workspace_at dr w p mid y hid a → runs_in (enter p w) p.
Proof.
  intros G Io Wa. pose proof (workspace_dir _ _ _ _ _ _ _ Io Wa) as D. pose proof (wa_link _ _ _ _ _ _ _ Wa) as L.
  pose proof (link_real _ _ _ L (good_merged dr mid G) D) as R. unfold enter. rewrite R. apply in_link; try done. by apply good_merged.
Qed.
Lemma enter_put dr d w w' p old mid y id a' : put_at dr (enter d w) w' p old mid y id a' → put_at dr w w' p old mid y id a'.
Proof. intros [A1 A2 A3 A4 A5 A6 A7 A8 A9]. constructor; try done. intros p2 mid2 y2 hid2 a2 H. by apply A3, enter_workspace. Qed.
Lemma fits_less dr n m : fits dr n → m ≤ n → fits dr m.
Proof. unfold fits. intros H L. assert ((length (path_str dr) + 41) * m ≤ (length (path_str dr) + 41) * n) by (by apply Nat.mul_le_mono_l). lia. Qed.
(** ** Commits *)
Lemma commits_weaken dr ps l (Q Q' : world → Prop) : (∀ w, Q w → Q' w) → ∀ w, commits dr ps l Q w → commits dr ps l Q' w.
Proof.
  intros H. induction l as [|[p m] l IH]; intros w; cbn [commits]; [apply H|]. intros Hc w1 o U El F N Nw. destruct (Hc w1 o U El F N Nw) as (w' & E & Hc'). exists w'. split; [done|]. by apply IH.
Qed.
Lemma commits_fine dr p ps l : p ∈ ps → plain_path dr → good_path dr → outside dr p → ∀ w mid y hid a rest, in_order dr w → workspace_at dr w p mid y hid a →
  may_commit (read_back y) a hid → chain a hid (hid :: rest) → fits dr (length rest + length l) →
  commits dr ps (pair p <$> l) (λ w', ∃ mid' y' hid' a' cs, in_order dr w' ∧ workspace_at dr w' p mid' y' hid' a' ∧ may_commit (read_back y') a' hid' ∧
    ws_id y' = ws_id y ∧ sanitize (ws_branch y') = sanitize (ws_branch y) ∧ sp_id (ws_space y') = sp_id (ws_space y) ∧
    chain a' hid' (hid' :: cs ++ rest) ∧ Forall2 (has_message a') cs (reverse (sanitize <$> l)) ∧ (∀ i, i ∈ rest → a_nodes a' !! i = a_nodes a !! i) ∧
    (sanitize (ws_branch y) ≠ [] → a_branches a' !! local_key (ws_id y) (sanitize (ws_branch y)) =
       match cs with [] => a_branches a !! local_key (ws_id y) (sanitize (ws_branch y)) | c :: _ => Some c end)) w.
Proof.
  intros Hp P G Op. induction l as [|m l IH]; intros w mid y hid a rest Io Wa Hm C Fi; [rewrite fmap_nil|rewrite !fmap_cons]; cbn [commits].
  - exists mid, y, hid, a, []. split_and!; try done. constructor.
  - intros w1 o U El F N Nw. pose proof (while_order _ _ _ Io U) as Io1. pose proof (while_workspace _ _ _ _ _ _ _ _ Io U (El _ Hp) Wa) as Wa1.
    destruct (commit_fine dr m o (enter p w1) p mid y hid a (hid :: rest) P G F N Nw) as (w' & mid' & y' & id & a' & n & E & Ht & Pa & Ep & E1 & E2 & E3 & Ne & Ni); try done.
    + by apply enter_order.
    + by apply enter_workspace.
    + by eapply enter_runs.
    + eapply fits_less; [exact Fi|]. cbn [length]. lia.
    + exists w'. split; [done|].
      pose proof (pa_here _ _ _ _ _ _ _ _ _ Pa) as Wa'. pose proof (pa_order _ _ _ _ _ _ _ _ _ Pa) as Io'.
      pose proof (workspace_san _ _ _ _ _ _ _ Io Wa) as Es.
      destruct (commit_next y y' a a' hid id (hid :: rest) _ m Es C (wa_head _ _ _ _ _ _ _ Wa) Ht Ni) as (C' & Hm' & Hs & Ho & Hb & _); [by apply san_has; apply Wa'|done|done|].
      assert (∀ i, i ∈ rest → i ≠ hid ∧ has a i) as Hr.
      { intros i Hi. split; [intros ->; apply chain_nodup, NoDup_cons in C as [? _]; done|]. eapply (chain_has a hid (hid :: rest)); [by eapply holds_rooted, Wa|done|by right]. }
      assert (hid ∈ hid :: rest) as H0 by left.
      eapply commits_weaken; [|apply (IH w' mid' y' id (san_tree a') (hid :: rest) Io' Wa' Hm' C')].
      * intros w2 (mid2 & y2 & hid2 & a2 & cs & B1 & B2 & B3 & B4 & B5 & B6 & B7 & B8 & B9 & B10).
        exists mid2, y2, hid2, a2, (cs ++ [hid]). split_and!; try done.
        -- congruence.
        -- by rewrite B5, E2, sanitize_idemp.
        -- congruence.
        -- by rewrite <-app_assoc.
        -- rewrite reverse_cons. apply Forall2_app; [done|]. constructor; [|constructor]. destruct Hs as (n1 & Q1 & Q2). exists n1. split; [|done]. rewrite B9; [done|left].
        -- intros i Hi. destruct (Hr i Hi) as [R1 R2]. rewrite B9; [by apply Ho|by right].
        -- intros Nb. rewrite E2, sanitize_idemp, E1 in B10. rewrite B10 by done. destruct cs; [|done]. by apply Hb.
      * cbn [length] in *. eapply fits_less; [exact Fi|]. lia.
Qed.
(** ** Several workspaces *)
Lemma local_key_wid wid wid' n n' : local_key wid n = local_key wid' n' → wid = wid'.
Proof. unfold local_key. intros E. apply app_inj_1 in E as [E _]; [by apply uid_b32_inj|by rewrite !uid_b32_length]. Qed.
Lemma info_id y y' h h' : marshal_wsinfo (ws_info y h) = marshal_wsinfo (ws_info y' h') → ws_id y = ws_id y'.
Proof.
  intros J. apply (f_equal unmarshal_wsinfo) in J. rewrite !wsinfo_round in J. unfold san_wsinfo, ws_info in J. cbn [wi_id wi_path wi_head wi_space wi_mount wi_branch] in J.
  apply (inj Some) in J. pose proof (f_equal wi_id J) as J1. cbn [wi_id] in J1. rewrite !sanitize_b32 in J1. by apply uid_b32_inj.
Qed.
Lemma crowd_fine dr (ws : list (path * uid)) l : plain_path dr → good_path dr → (∀ p i q j, (p, i) ∈ ws → (q, j) ∈ ws → (p = q ↔ i = j)) → (∀ p i, (p, i) ∈ ws → outside dr p) →
  (∀ p m, (p, m) ∈ l → ∃ i, (p, i) ∈ ws) → ∀ w n, in_order dr w → (∀ p i, (p, i) ∈ ws → can_commit_at dr w n p i) → fits dr (n + length l) →
  commits dr ws.*1 l (λ w', in_order dr w' ∧ ∀ p i, (p, i) ∈ ws → can_commit_at dr w' (n + length l) p i) w.
Proof.
  intros P G Hd Ho. induction l as [|[p m] l IH]; intros Hl w n Io Hc Fi; cbn [commits].
  - split; [done|]. intros q j Hq. destruct (Hc q j Hq) as (mid & y & hid & a & ch & A1 & A2 & A3 & A4 & A5). exists mid, y, hid, a, ch. split_and!; try done. cbn. lia.
  - intros w1 o U El F N Nw. pose proof (while_order _ _ _ Io U) as Io1.
    assert (∀ p i, (p, i) ∈ ws → can_commit_at dr w1 n p i) as Hc1.
    { intros q j Hq. destruct (Hc q j Hq) as (mid & y & hid & a & ch & A1 & A2). exists mid, y, hid, a, ch. split; [|done]. eapply while_workspace; [exact Io|exact U| |exact A1].
      apply El. apply elem_of_list_fmap. by exists (q, j). }
    destruct (Hl p m) as [i Hi]; [left|]. destruct (Hc1 p i Hi) as (mid & y & hid & a & ch & Wa1 & Ei & Hm & C & Lc).
    destruct (commit_fine dr m o (enter p w1) p mid y hid a ch P G F N Nw) as (w' & mid' & y' & id & a' & k & E & Ht & Pa & Ep & E1 & E2 & E3 & Ne & Ni); try done.
    + by apply enter_order.
    + by apply enter_workspace.
    + by eapply Ho.
    + by eapply enter_runs.
    + eapply fits_less; [exact Fi|]. cbn [length]. lia.
    + exists w'. split; [done|]. apply enter_put in Pa. pose proof (workspace_san _ _ _ _ _ _ _ Io1 Wa1) as Es.
      pose proof (pa_here _ _ _ _ _ _ _ _ _ Pa) as Wa'. pose proof (pa_order _ _ _ _ _ _ _ _ _ Pa) as Io'.
      destruct (commit_next y y' a a' hid id ch _ m Es C (wa_head _ _ _ _ _ _ _ Wa1) Ht Ni) as (C' & Hm' & _ & _ & _ & Hb & Hpar & Hroot); [by apply san_has; apply Wa'|done|done|].
      cbn [length] in *. replace (n + S (length l)) with (S n + length l) in * by lia.
      eapply commits_weaken; [|apply (IH ltac:(intros; eapply Hl; by right) w' (S n) Io'); [|done]]; [done|].
      intros q j Hq. destruct (decide (q = p)) as [->|Nq].
      * assert (j = i) as -> by (by eapply (Hd p j p i)). exists mid', y', id, (san_tree a'), (id :: ch). split_and!; try done; [congruence|cbn [length]; lia].
      * destruct (Hc1 q j Hq) as (mid2 & y2 & hid2 & a2 & ch2 & Wa2 & Ej & Hm2 & C2 & Lc2).
        assert (j ≠ i) as Nij by (intros ->; apply Nq; by eapply (Hd q i p i)).
        assert (mid ≠ mid2) as Nm.
        { intros ->. pose proof (wa_info _ _ _ _ _ _ _ Wa1) as I1. pose proof (wa_info _ _ _ _ _ _ _ Wa2) as I2. rewrite I1 in I2. apply (inj Some) in I2. apply (f_equal (λ f, match f with FFile d => d | _ => [] end)) in I2. apply info_id in I2. congruence. }
        pose proof (pa_others _ _ _ _ _ _ _ _ _ Pa q mid2 y2 hid2 a2 Wa2 Nq (Ho _ _ Hq) ltac:(congruence)) as Wa2'.
        exists mid2, y2, hid2. eexists. exists ch2. split; [exact Wa2'|]. split; [done|]. case_decide as D; [|split_and!; try done; lia].
        assert (a2 = a) as ->.
        { eapply holds_det; [apply Wa2|]. rewrite D, E3. apply Wa1. }
        split_and!; [| |lia].
        -- destruct Hm2 as [?|(h & Eh & An)]; [by left|right]. exists h. split.
           ++ rewrite Hb; [done|]. cbn [read_back ws_id]. intros Q. apply local_key_wid in Q. congruence.
           ++ clear -An Hpar. unfold ancestor_or_self in *. induction An as [|z q1 h1 Hz An IHA]; [constructor|]. econstructor; [by apply Hpar|done].
        -- by eapply chain_mono.
Qed.
