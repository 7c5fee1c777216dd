(** * RefusedProofs: refused commands (C78) *)
From Verif Require Import Base Uid SpecUid UidProofs Tree SpecTree TreeRefine TreeObs Dump DumpProofs Json JsonProofs Save SaveProofs Branch BranchProofs Date Ws SpecWs WsProofs
  Fs Overlay Os Layers Mounts Space Manager Commands FsProofs OsProofs LayerProofs MountProofs SpaceProofs ManagerProofs SpecWorld SpecOps SavedProofs FaultProofs ReadyProofs OpProofs CalmProofs
  SpecMachine SpecCmds MachineProofs OpenProofs CmdProofs ExpandProofs DetProofs SpecTidy TidyProofs SpecUsable UsableProofs UsableCmdProofs UsableInitProofs SpecRefused PropsCommit.
From Coq Require Import Lia.
From stdpp Require Import prelude gmap.

(** ** commit *)
Lemma commit_stuck dr x date msg o w a hid : no_faults o → fair o → fresh_ids dr o w → live dr w x a hid →
  is_dir_at (w_fs w) (layers_root dr) = true → is_dir_at (w_fs w) (mounts_root dr) = true → ¬ may_commit x a hid →
  ∃ e w' mid id, commit_ws dr x date msg o w = (Err e, w') ∧ left_dirs dr w w' mid id ∧ (e = EBranchNotFound ∨ e = EUnreachable).
Proof.
  intros F Fo Fr Rd D1 D2 Mc. destruct Rd as [W [R G] LP S _]. unfold commit_ws.
  destruct (get_Some' _ _ _ _ R G) as (an & n & Ea & Nn).
  pose proof (set_to_node_repr (w_tree w) a hid an (ws_head x) date msg R G Ea) as R1.
  set (t1 := set_to_node (w_tree w) (ws_head x) date msg) in *. set (a1 := put_node a hid (dated an date msg)) in *.
  unfold bind at 1, modify. fold t1.
  assert (get t1 hid = Some (ws_head x)) as G1 by (unfold t1; rewrite set_to_node_eq; exact G).
  assert (id_of (Some (ws_head x)) o (set_tree w t1) = (Ok hid, set_tree w t1)) as Ei.
  { unfold id_of, bind, gets. cbn [mbind option_bind w_tree set_tree]. by rewrite (repr_id _ _ _ _ R1 G1). }
  unfold bind at 1. rewrite Ei. clear Ei.
  assert (layers_present (w_fs w) (layers_root dr) a1) as LP1.
  { intros z Hz. apply LP. by apply (put_has' a hid an (dated an date msg)). }
  assert (has a1 hid) as Hh by (by eapply get_has).
  assert (runs (create_mount dr hid) o (set_tree w t1)) as ([m l] & w1 & E).
  { apply (runs_create_mount _ _ _ _ a1); cbn [w_fs w_tree w_tick set_tree]; try done; apply Fr; lia. }
  unfold bind at 1. rewrite E.
  apply (create_mount_ok _ _ _ (set_tree w t1) _ _ _ a1) in E; [|done|exact R1|exact LP1]. cbn [w_tick w_fs w_mounts w_tree set_tree] in E.
  destruct E as (Hc & Nh & N & _ & N1 & _ & (ch & C & ->) & t2 & k & -> & R2 & G2 & Gm & Np).
  set (mid := ch_uid (o (w_tick w))) in *. set (id := ch_uid (o (Datatypes.S (Datatypes.S (w_tick w))))) in *.
  cbn [snd fst]. destruct (decide (br_name (ws_current x) = [])) as [Eb|Nb]; [destruct Mc; by left|].
  assert (has (new_child a1 id hid) hid) as Hh2.
  { destruct Hh as (an1 & E1). exists an1. cbn. rewrite lookup_insert_ne; [done|]. intros ->. apply Nh. by exists an1. }
  destruct (get_Some _ _ _ R2 Hh2) as (hl & _ & _ & Gh & _). pose proof (repr_id _ _ _ _ R2 Gh) as Ni.
  assert (∃ e, update_branch t2 (full_name (ws_current x)) hid false = Err e ∧ (e = EBranchNotFound ∨ e = EUnreachable)) as (e & Eu & He).
  { destruct (update_branch_effect t2 _ (full_name (ws_current x)) hid false R2) as (_ & _ & H3 & H4).
    destruct (a_branches (new_child a1 id hid) !! full_name (ws_current x)) as [h|] eqn:Eh; [|exists EBranchNotFound; auto].
    exists EUnreachable. split; [|by right]. apply (H4 Hh2 h); [done|done|]. intros An. apply Mc. right. exists h. split; [exact Eh|].
    apply (new_child_anc a1 id hid h hid Nh (r_ok _ _ R1) Hc) in An. by apply (put_anc a hid an) in An. }
  exists e. eexists. exists mid, id. split; [|split; [|exact He]].
  - unfold bind at 1. unfold Manager.parent_of, bind at 1, bind at 1, gets. cbn [w_tree upd]. rewrite Np, Gh. unfold ret at 1.
    unfold bind at 1, id_of, bind at 1, gets. cbn [mbind option_bind w_tree upd]. rewrite Ni. unfold ret at 1. unfold tree_do. cbn [w_tree upd]. rewrite Eu. reflexivity.
  - constructor; try done; cbn [w_fs upd].
    + intros q Hq. rewrite mount_files_get. by rewrite decide_True.
    + intros q Q1 Q2 Q3. rewrite mount_files_get, decide_False; [done|]. tauto.
Qed.

(** ** A path where no link can be put *)
Lemma link_stuck x d o w : no_faults o → fs_wf (w_fs w) → runs_in w d → ¬ can_replace w (ws_path x) →
  ∃ e w', link_up x o w = (Err e, w') ∧ same_machine w w'.
Proof.
  intros F W R C. set (p := ws_path x) in *.
  assert (is_dir_at (w_fs w) [] = true) as D0 by (destruct R as [D _ _|_ _ D _]; by eapply wf_root).
  unfold link_up. unfold bind at 1. rewrite (getwd_fine _ _ _ F R).
  unfold bind at 1. rewrite (chdir_fine [] []); [|done|by apply real_dir|done].
  unfold bind at 1. fold p. rewrite exists_fine by done. cbn [w_fs set_cwd tick].
  set (w1 := tick (set_cwd (tick (tick w)) [])).
  assert (w_fs w1 = w_fs w ∧ w_mounts w1 = w_mounts w) as [F1 M1] by done.
  destruct (real_path (w_fs w) p) as [q|] eqn:Rq.
  - rewrite bool_decide_true by done.
    assert (∃ e, remove_in (tick w1) p = Err e) as [e Er].
    { unfold remove_in. change (w_fs (tick w1)) with (w_fs w). change (w_mounts (tick w1)) with (w_mounts w).
      destruct (fget (w_fs w) p) as [y|] eqn:Ey; [|by eexists].
      destruct y; try (exfalso; apply C; right; split; [by exists q|]; intros D; unfold is_dir_at in D; by rewrite Ey in D).
      destruct (mounted_at (w_mounts w) p) eqn:Em; [by eexists|]. destruct (children (w_fs w) p) as [|n l] eqn:Ec; [|by eexists].
      exfalso. apply C. right. split; [by exists q|]. intros _. split.
      - intros n. destruct (fget (w_fs w) (p ++ [n])) eqn:En; [|done]. assert (n ∈ children (w_fs w) p) as Hn by (apply children_elem; by rewrite En). rewrite Ec in Hn. by apply elem_of_nil in Hn.
      - intros m Hm Q. by rewrite (mounted_at_true _ _ _ Hm Q) in Em. }
    exists e. eexists. split.
    + unfold bind at 1. unfold os_remove, sys_atomic. rewrite F, Er. reflexivity.
    + done.
  - rewrite bool_decide_false by (intros [? ?]; done). unfold bind at 1. unfold ret at 1. unfold bind at 1. unfold create_symlink, bind at 1, os_symlink, sys_atomic. rewrite F.
    change (w_fs (tick w1)) with (w_fs w). destruct (fget (w_fs w) p) as [y|] eqn:Ey; [by eexists _, _|].
    destruct (is_dir_at (w_fs w) (parent_dir p)) eqn:Dp; [|by eexists _, _]. exfalso. apply C. by left.
Qed.
Lemma blocked_stuck dr w p : blocked dr w p → ¬ can_replace w p.
Proof.
  intros [[N D]|[[D H]|(s & E & _ & N)]] [[N' D']|[[q R] H']].
  - congruence.
  - unfold real_path in R. cbn [real] in R. by rewrite N in R.
  - unfold is_dir_at in D. by rewrite N' in D.
  - destruct (H' D) as [H1 H2]. destruct H as [(n & x & Hn)|(m & Hm & Q)]; [by rewrite H1 in Hn|by apply (H2 m)].
  - congruence.
  - unfold real_path in R. cbn [real] in R. by rewrite E, N in R.
Qed.
Lemma blocked_later dr w w' p : outside dr p → p ≠ [] → (∀ q, is_prefix dr q = false → fget (w_fs w') q = fget (w_fs w) q) → (∀ m, m ∈ w_mounts w → m ∈ w_mounts w') →
  blocked dr w p → blocked dr w' p.
Proof.
  intros O N0 Hs Hm. pose proof O as [O1 _].
  intros [[N D]|[[D H]|(s & E & Op & N)]].
  - left. rewrite Hs by done. split; [done|]. unfold is_dir_at in *. rewrite Hs; [done|]. apply not_true_is_false. intros [k Q]%is_prefix_spec.
    destruct p as [|n p _] using rev_ind; [done|]. rewrite parent_dir_app in Q. subst p. rewrite <-app_assoc, is_prefix_app in O1. done.
  - right. left. unfold is_dir_at in *. rewrite Hs by done. split; [done|]. destruct H as [[n H]|(m & H & Q)]; [left|right; eauto].
    exists n. rewrite Hs; [done|]. by apply outside_child.
  - right. right. exists s. rewrite !Hs by done. done.
Qed.
(** The mount is made, then Expand fails. *)
Lemma expand_stuck dr w w1 y mid id ch d o : plain_path dr → good_path dr → no_faults o → kept dr (w_fs w) (w_fs w1) → fs_wf (w_fs w1) →
  (∀ q, is_prefix dr q = false → fget (w_fs w1) q = fget (w_fs w) q) → w_mounts w1 = w_mounts w → w_cwd w1 = w_cwd w → w_pwd w1 = w_pwd w →
  ws_mount y = stack_mount (layers_root dr) (mount_dir dr mid) mid id ch → ch ≠ [] → fits dr (length ch) →
  is_dir_at (w_fs w1) (mount_dir dr mid) = true → (∀ n, fget (w_fs w1) (mount_dir dr mid ++ [n]) = None) →
  is_dir_at (w_fs w1) (diff_dir (layers_root dr) id) = true → (∀ i, i ∈ ch → is_dir_at (w_fs w1) (diff_dir (layers_root dr) i) = true) →
  outside dr (ws_path y) → blocked dr w (ws_path y) → runs_in w d →
  ∃ e w', expand y o w1 = (Err e, w') ∧ w_fs w' = mounted_fs dr mid (w_fs w1) ∧ w_mounts w' = stack_of dr mid id ch :: w_mounts w ∧ kept dr (w_fs w) (w_fs w').
Proof.
  intros P G N K1 W1 Hu Ems Pc Pp A1 NC Fi Dm Nn Du Dl Ho Hb R.
  assert (dr ≠ []) as ND by (intros ->; by destruct Ho).
  destruct (mount_fine dr mid id ch o w1 P G ND NC Fi N Dm (Nn _) (Nn _)) as (k & e & Em); [done|by apply Forall_forall|].
  set (w3 := add_owned (upd w1 _ _ _ k) e) in Em.
  pose proof (mounted_kept dr mid (w_fs w1) (Nn _) (Nn _)) as K2. pose proof (kept_trans _ _ _ _ K1 K2) as K3.
  assert (runs_in w3 d) as R3 by (eapply (kept_runs_in dr w w3); [exact K3|..|exact R]; done).
  assert (¬ can_replace w3 (ws_path y)) as C3.
  { apply (blocked_stuck dr). eapply (blocked_later dr w w3); [done| | | |exact Hb].
    - intros Q. rewrite Q in Ho. destruct Ho as [_ Ho]. by destruct dr.
    - intros q Hq. cbn [w3 add_owned upd w_fs]. rewrite mounted_get; [by apply Hu|..]; intros ->.
      + destruct (merged_in dr mid) as [k' Q]. by rewrite Q, is_prefix_app in Hq.
      + unfold mount_dir, mounts_root in Hq. rewrite <-!(app_assoc dr), is_prefix_app in Hq. done.
    - intros m Hm. cbn [w3 add_owned upd w_mounts]. rewrite Ems. by right. }
  destruct (link_stuck y d o w3 N) as (e' & w4 & El & F4 & M4); [by apply mounted_wf|done|done|].
  exists e', w4. split.
  - change (expand y) with (bind (mount_mount (ws_mount y)) (λ _, link_up y)). rewrite A1. unfold bind. rewrite Em. exact El.
  - rewrite F4, M4. cbn [w3 add_owned upd w_fs w_mounts]. by rewrite Ems.
Qed.
Lemma mounted_left dr w w1 w' mid id y ch a a' : in_order dr w → kept dr (w_fs w) (w_fs w') → w_fs w' = mounted_fs dr mid (w_fs w1) → w_mounts w' = stack_of dr mid id ch :: w_mounts w →
  machine dr (w_fs w') (w_mounts w') → space_ok dr (ws_space y) →
  (∀ q, is_prefix dr q = false → fget (w_fs w1) q = fget (w_fs w) q) → fget (w_fs w) (mount_dir dr mid) = None →
  fget (w_fs w1) (ws_file dr mid) = Some (FFile (marshal_wsinfo (ws_info y id))) → holds (w_fs w1) (ws_space y) (san_tree a') →
  (∀ i, i ≠ mid → fget (w_fs w1) (ws_file dr i) = fget (w_fs w) (ws_file dr i)) →
  (∀ s, s ≠ sp_id (ws_space y) → fget (w_fs w1) (tree_at dr s) = fget (w_fs w) (tree_at dr s)) →
  (holds (w_fs w) (the_space dr (sp_id (ws_space y))) a ∨ fget (w_fs w) (tree_at dr (sp_id (ws_space y))) = None) → (∀ z, has a z → has a' z) → untouched dr w w' →
  has a' id → fget (w_fs w) (layer_dir (layers_root dr) id) = None → new_empty dr w w1 →
  left_mounted dr w w' mid y id a'.
Proof.
  intros Io K3 Ef Em Mc S Hu Nm Hi Ht Hi' Ht' Ha Hh Hun Hid Nl Hem.
  assert (∀ q, vital dr q → fget (w_fs w') q = fget (w_fs w1) q) as Hv.
  { intros q V. rewrite Ef. apply mounted_get; by apply vital_below_mount. }
  assert (∀ i, vital dr (ws_file dr i)) as Vi by (intros i; right; left; by exists i).
  assert (∀ s, vital dr (tree_at dr s)) as Vt by (intros s; left; by exists s).
  assert (holds (w_fs w') (the_space dr (sp_id (ws_space y))) (san_tree a')) as Hl.
  { rewrite <-(the_space_ok _ _ S). unfold holds in *. rewrite (the_space_ok _ _ S) in *. rewrite Hv by apply Vt. exact Ht. }
  constructor; try done.
  - constructor; [done| |by apply (kept_dir _ _ _ _ K3), Io..].
    intros m Hm Hp. rewrite Em in Hm. apply elem_of_cons in Hm as [->|Hm]; [cbn [stack_of mn_at]; rewrite Ef; apply mounted_merged|]. apply (kept_dir _ _ _ _ K3). by apply Io.
  - intros q Hq. rewrite Ef, mounted_get; [by apply Hu|..]; intros ->.
    + destruct (merged_in dr mid) as [k' Q]. by rewrite Q, is_prefix_app in Hq.
    + unfold mount_dir, mounts_root in Hq. rewrite <-!(app_assoc dr), is_prefix_app in Hq. done.
  - eexists. split; [exact Em|done].
  - by rewrite Hv by apply Vi.
  - intros p2 mid2 y2 hid2 a2 Wa. pose proof (workspace_dir _ _ _ _ _ _ _ Io Wa) as Dm. pose proof Wa as [B1 B2 B3 B4 B5 B6].
    assert (mid2 ≠ mid) as Ne.
    { intros ->. apply dir_mount in Dm; [|apply (mc_wf _ _ _ (io_machine _ _ Io))]. unfold is_dir_at in Dm. by rewrite Nm in Dm. }
    constructor; try done.
    + by apply (ke_obj _ _ _ K3).
    + destruct B2 as [_ B2]. split; [by apply (kept_dir _ _ _ _ K3)|]. rewrite Em. unfold mounts_below. rewrite filter_cons, decide_False; [done|]. cbn [stack_of mn_at]. by rewrite merged_other.
    + rewrite Hv by apply Vi. by rewrite Hi'.
    + case_decide as D; [by rewrite D|]. unfold holds in *. change (tree_file (the_space dr (sp_id (ws_space y2)))) with (tree_at dr (sp_id (ws_space y2))) in *.
      rewrite Hv by apply Vt. by rewrite Ht'.
    + case_decide as D; [|done]. apply san_has, Hh. rewrite D in B5. destruct Ha as [Ha|Ha].
      * by rewrite (holds_det _ _ _ _ Ha B5).
      * destruct B5 as (raw & E & _). change (tree_file (the_space dr (sp_id (ws_space y)))) with (tree_at dr (sp_id (ws_space y))) in E. congruence.
  - intros i k Ni Nk. rewrite Ef, mounted_get by (apply (in_layer_below dr i), is_prefix_app). by apply Hem.
Qed.
Lemma touched_outside dr sp w w' : space_ok dr sp → touches dr sp w w' → ∀ q, is_prefix dr q = false → fget (w_fs w') q = fget (w_fs w) q.
Proof.
  intros S T q Hq.
  assert (¬ own dr sp (w_fs w) q) as No.
  { intros [->|(i & -> & _)].
    - unfold tree_file in Hq. rewrite S in Hq. unfold space_dir, spaces_root in Hq. rewrite <-!(app_assoc dr), is_prefix_app in Hq. done.
    - unfold ws_file, mounts_root in Hq. rewrite <-!(app_assoc dr), is_prefix_app in Hq. done. }
  destruct (fget (w_fs w) q) as [z|] eqn:E; [by apply (to_old _ _ _ _ T)|]. apply eq_None_not_Some. intros H. destruct (to_new _ _ _ _ T q E No H) as [_ Q].
  assert (∃ k, q = dr ++ k) as [k ->]; [|by rewrite is_prefix_app in Hq].
  unfold new_dir, mount_dir, space_dir, diff_dir, layer_dir, mounts_root, spaces_root, layers_root in Q. destruct Q as [[i ->]|[[i ->]|[[i ->]|[i ->]]]]; rewrite <-!(app_assoc dr); by eexists.
Qed.
Lemma left_upd dr w w' mid y id a' t k : left_mounted dr (upd w (w_fs w) (w_mounts w) t k) w' mid y id a' → left_mounted dr w w' mid y id a'.
Proof. intros [A1 A2 A3 A4 A5 A6 A7 A8 A9 A10 A11]. constructor; try done. intros p2 mid2 y2 hid2 a2 H. by apply A7, workspace_upd. Qed.

(** ** clone *)
Lemma clone_stuck dr source target o w d p mid y hid a c ch q : plain_path dr → good_path dr → fair o → no_faults o → new_ids dr o w → in_order dr w →
  workspace_at dr w p mid y hid a → runs_in w d → UsableCmdProofs.abs_from d source = p → UsableCmdProofs.abs_from d (default (B ".") target) = q → outside dr q → blocked dr w q →
  SpecTree.parent_of a hid c → chain a c ch → fits dr (length ch) →
  ∃ e w' mid' y' id a', cmd_clone dr source target o w = (Err e, w') ∧ op_tree (read_back y) hid (OClone q) a a' ∧ left_mounted dr w w' mid' y' id a' ∧
    ws_path y' = q ∧ sp_id (ws_space y') = sp_id (ws_space y) ∧ mid' ≠ mid ∧ ¬ has a id.
Proof.
  intros P G F N Nw Io Wa R Hs Ht Oq Bl Hp C Fi. unfold cmd_clone.
  destruct (abs_fine (default (B ".") target) _ _ _ N R) as (k0 & E & Hk0). rewrite Ht in E. unfold bind at 1. rewrite E. clear E.
  set (w0 := upd w (w_fs w) (w_mounts w) (w_tree w) k0).
  destruct (open_fine dr w0 p mid y hid a source d o G F N (order_upd _ _ _ _ Io) (workspace_upd _ _ _ _ _ _ _ _ _ Wa) (runs_in_upd _ _ _ _ R) Hs) as (h & t & k & E & Hk & Lv).
  set (x := WS _ _ _ _ h _) in *. unfold bind at 1. rewrite E. clear E. unfold w0 in *. rewrite upd_upd in *. cbn [w_tick w_fs w_mounts upd] in *.
  set (w1 := upd w (w_fs w) (w_mounts w) t k) in *.
  assert (machine dr (w_fs w1) (w_mounts w1)) as Mc by apply Io.
  assert (runs (clone_ws dr x q) o w1) as (y' & w2 & E).
  { apply (runs_clone_live dr x _ o w1 a hid c); try done; [apply ids_later; [done..|lia]|apply Io|apply Io]. }
  change (clone_ws dr x q) with (run_op dr x (OClone q)) in E |- *.
  assert ((∃ d m, OClone q = OCommit d m) ∨ (∃ k, OClone q = OCheckout k) ∨ (∃ p, OClone q = OClone p)) as Hop by eauto.
  destruct (op_body _ _ _ _ _ _ _ _ _ F Mc Lv E) as ([O U] & _ & T).
  pose proof E as E'. apply (op_mount _ _ _ _ _ _ _ a hid) in E' as (id' & a'' & Ns & Ep & _ & _ & _); [|done..].
  pose proof E as E'. apply (op_makes _ _ _ _ _ _ _ a hid) in E' as (mid' & id & ch' & a' & Ma); [|done..].
  pose proof (made_kept _ _ _ _ _ _ _ _ _ _ _ _ Mc Lv Ma) as K1.
  pose proof Ma as [A1 A2 A3 (base & Ab & Ac) A5 A6 A7 A8 A9 A10 A11 A12 A13]. cbn in A7.
  pose proof Lv as [W [Rp Gt] LP S D].
  assert (fs_wf (w_fs w2)) as W2 by (by apply A12).
  assert (∀ n, fget (w_fs w2) (mount_dir dr mid' ++ [n]) = None) as Nn by (intros n; exact (touches_merged _ _ _ _ _ n S W A12 A2)).
  assert (base = c) as -> by (destruct Hp as (n & H1 & H2), Ab as (n' & H1' & H2'); congruence). pose proof (chain_det _ _ _ _ Ac C) as ->.
  assert (ch ≠ []) as NC by (intros ->; by apply chain_not_nil in Ac).
  assert (is_dir_at (w_fs w2) (mount_dir dr mid') = true) as Dm.
  { pose proof (rd_mdir _ _ _ _ _ A5) as Q. rewrite A1 in Q. cbn [stack_mount mv_id] in Q. unfold is_dir_at. by rewrite Q. }
  pose proof (touched_outside _ _ _ _ S A12) as Hu. destruct (to_proc _ _ _ _ A12) as (Pc & Pp & _).
  destruct (expand_stuck dr w1 w2 y' mid' id ch d o P G N K1 W2 Hu (to_mounts _ _ _ _ A12) Pc Pp A1 NC Fi Dm Nn (live_diff _ _ _ _ _ (rd_live _ _ _ _ _ A5)) A11) as (e & w' & Ee & Ef & Em & K3).
  { by rewrite A7. }
  { rewrite A7. exact Bl. }
  { by apply runs_in_upd. }
  destruct (expand_after _ _ _ _ _ _ _ _ P G Mc O U Ns ltac:(by rewrite A7) Ee) as (O2 & U2 & _).
  exists e, w', mid', y', id, a'. split; [unfold bind; rewrite E; exact Ee|]. split; [exact A6|]. split; [|split; [done|]].
  - apply (left_upd dr w w' mid' y' id a' t k). fold w1.
    eapply (mounted_left dr w1 w2 w' mid' id y' ch a a'); try done.
    + by apply order_upd.
    + apply O2.
    + by rewrite A8.
    + pose proof (rd_info _ _ _ _ _ A5) as Ei. rewrite A1 in Ei. cbn [stack_mount mv_id] in Ei. exact Ei.
    + apply (rd_live _ _ _ _ _) in A5. by destruct A5 as [_ _ _ _ Q].
    + intros s Hs'. apply T. by rewrite <-A8.
    + left. rewrite A8. apply Wa.
    + intros z. eapply make_has; [exact Hop|exact A6].
    + apply (rd_live _ _ _ _ _) in A5. destruct A5 as [_ [R' Gt'] _ _ _]. by eapply get_has.
    + intros i k' Ni Nk. exact (touches_empty _ _ _ _ _ _ S W A12 Ni Nk).
  - split; [by rewrite A8|]. split.
    + intros ->. pose proof (workspace_dir _ _ _ _ _ _ _ Io Wa) as Do. apply dir_mount in Do; [|apply (io_machine _ _ Io)]. cbn [w_fs upd w1] in A2. unfold is_dir_at in Do. by rewrite A2 in Do.
    + intros Hn. destruct (LP id Hn) as [Q _]. unfold is_dir_at in Q. by rewrite A3 in Q.
Qed.

(** ** init *)
Lemma init_stuck dr args branch o w d p : plain_path dr → good_path dr → fair o → no_faults o → new_ids dr o w → in_order dr w →
  runs_in w d → UsableCmdProofs.abs_from d (default (B ".") (head args)) = p → outside dr p → blocked dr w p → real_path (w_fs w) p = None → fits dr 1 →
  ∃ e w' mid y id rid, cmd_init dr args branch o w = (Err e, w') ∧ left_mounted dr w w' mid y id (fresh_tree rid id (ws_id y) branch) ∧
    ws_path y = p ∧ fget (w_fs w) (tree_at dr (sp_id (ws_space y))) = None ∧ rid ≠ id.
Proof.
  intros P G F N Nw Io R Ha Op Bl Rn Fi. pose proof (io_machine _ _ Io) as Mc. unfold cmd_init.
  destruct (abs_fine (default (B ".") (head args)) _ _ _ N R) as (k0 & E & Hk0). rewrite Ha in E. unfold bind at 1. rewrite E. clear E.
  unfold bind at 1. rewrite exists_fine by done. cbn [w_fs upd]. change (tick (upd w (w_fs w) (w_mounts w) (w_tree w) k0)) with (upd w (w_fs w) (w_mounts w) (w_tree w) (S k0)).
  rewrite Rn, bool_decide_false by (intros [? ?]; done). unfold bind at 1. unfold ret at 1. set (k := S k0). set (w0 := upd w (w_fs w) (w_mounts w) (w_tree w) k).
  destruct (runs_create dr p branch o w0 N F) as (x & w1 & E); [|apply Mc|apply Io|apply Io|apply Io|].
  { intros n Hn. cbn [w_tick w_fs upd w0] in *. destruct (Nw n) as (A1 & A2 & A3 & A4 & A5); [lia|]. split_and!; try done. intros j Hj. apply A5. lia. }
  assert (machine dr (w_fs w0) (w_mounts w0)) as Mc0 by exact Mc. assert (fs_wf (w_fs w0)) as W0 by apply Mc.
  pose proof (create_workspace_any _ _ _ _ _ _ _ F W0 E) as Od. cbv zeta in Od. cbn [w_tick upd w0] in Od. set (sid := ch_uid (o k)) in *.
  destruct (op_orderly dr (the_space dr sid) w0 w1 _ _ _ Mc0 eq_refl Od) as (O & U & T1). destruct Od as [To _].
  destruct (create_kept _ _ _ _ _ _ _ F Mc0 E) as (K1 & Hi1 & Nt & Em1 & (Pc & Pp & _)).
  pose proof E as E'. apply (create_ready _ _ _ _ _ _ _ F W0) in E' as (rid & id & Ne & Rd & Hb & Hp & Em & N1 & N2 & N3 & Es).
  set (mid := mv_id (ws_mount x)) in *. set (a := init_tree rid id (ws_id x) branch) in *.
  pose proof (rd_live _ _ _ _ _ Rd) as Lv. pose proof Lv as [W1 [R1 G1] LP1 S1 D1].
  assert (∀ n, fget (w_fs w1) (mount_dir dr mid ++ [n]) = None) as Nn by (intros n; by eapply (touches_merged dr (the_space dr sid) w0)).
  assert (is_dir_at (w_fs w1) (mount_dir dr mid) = true) as Dm.
  { pose proof (rd_mdir _ _ _ _ _ Rd) as Q. fold mid in Q. unfold is_dir_at. by rewrite Q. }
  assert (∀ i, i ∈ [rid] → is_dir_at (w_fs w1) (diff_dir (layers_root dr) i) = true) as Dr.
  { intros i ->%elem_of_list_singleton. apply LP1. unfold a. rewrite (init_fresh _ _ _ _ Ne). eexists. cbn [fresh_tree a_nodes]. by rewrite lookup_insert. }
  pose proof (touched_outside dr (the_space dr sid) w0 w1 eq_refl To) as Hu.
  assert (outside dr (ws_path x)) as Ox by (by rewrite Hp).
  destruct (expand_stuck dr w0 w1 x mid id [rid] d o P G N K1 W1 Hu Em1 Pc Pp Em ltac:(done) Fi Dm Nn (live_diff _ _ _ _ _ Lv) Dr Ox) as (e & w' & Ee & Ef & Em' & K3).
  { rewrite Hp. exact Bl. }
  { by apply runs_in_upd. }
  assert (new_stack dr w0 w1 x id) as Ns.
  { eexists mid, [rid]. split; [done|]. split; [exact Em|]. split; [done|]. split; [|exact (live_diff _ _ _ _ _ Lv)]. apply Nn. }
  destruct (expand_after _ _ _ _ _ _ _ _ P G Mc0 O U Ns Ox Ee) as (O2 & U2 & _).
  assert (sp_id (ws_space x) = sid) as Esid by (by rewrite Es).
  assert (fget (w_fs w) (tree_at dr (sp_id (ws_space x))) = None) as Nt' by (rewrite <-(the_space_ok _ _ S1) in *; exact Nt).
  exists e, w', mid, x, id, rid. split; [unfold bind; rewrite E; exact Ee|]. rewrite <-(init_fresh rid id (ws_id x) branch Ne). fold a. split; [|done].
  apply (left_upd dr w w' mid x id a (w_tree w) k). fold w0.
  eapply (mounted_left dr w0 w1 w' mid id x [rid] a a); try done.
  - by apply order_upd.
  - apply O2.
  - exact (rd_info _ _ _ _ _ Rd).
  - intros s Hs. apply T1. by rewrite <-Esid.
  - by right.
  - by eapply get_has.
  - intros i k' Ni Nk. exact (touches_empty dr (the_space dr sid) w0 w1 i k' eq_refl W0 To Ni Nk).
Qed.
(** ** commit and checkout *)
Lemma search_node t wid head key ty : ws_search t wid head key = Ok (Some (None, ty)) → key ≠ B "HEAD" → False.
Proof.
  unfold ws_search. intros E N. rewrite decide_False in E by done. destruct (search t key) as [[[l ty']|]|e| | |]; try done.
  induction (parse_local wid key) as [|b bs IH]; [done|]. destruct (get_by_branch t (full_name b)); [done|]. by apply IH.
Qed.
Lemma commit_refused dr msg o w p mid y hid a : good_path dr → fair o → no_faults o → new_ids dr o w → in_order dr w →
  workspace_at dr w p mid y hid a → runs_in w p → ¬ may_commit (read_back y) a hid →
  ∃ e w' mid' id, cmd_commit dr msg o w = (Err e, w') ∧ left_dirs dr w w' mid' id ∧ (e = EBranchNotFound ∨ e = EUnreachable).
Proof.
  intros G F N Nw Io Wa R Nm. destruct (open_fine dr w p mid y hid a (B ".") p o G F N Io Wa R) as (h & t & k & E & Hk & Lv); [apply join_dot|].
  set (x := WS _ _ _ _ h _) in *. unfold cmd_commit. unfold bind at 1. rewrite E. clear E. unfold bind at 1, next_choice. cbn [w_tick upd].
  change (tick (upd w (w_fs w) (w_mounts w) t k)) with (upd w (w_fs w) (w_mounts w) t (S k)).
  set (w1 := upd w (w_fs w) (w_mounts w) t (S k)).
  assert (live dr w1 x a hid) as Lv1 by (destruct Lv as [A1 A2 A3 A4 A5]; by constructor).
  destruct (commit_stuck dr x (Some (fmt_rfc3339 (ch_time (o k)))) msg o w1 a hid N F) as (e & w' & mid' & id & E & L & He); [by apply ids_later; [..|lia]|done|apply Io|apply Io|done|].
  exists e, w', mid', id. split; [unfold bind; by rewrite E|]. split; [|done]. destruct L as [L1 L2 L3 L4 L5]. by constructor.
Qed.
Lemma checkout_refused dr key o w p mid y hid a : good_path dr → fair o → no_faults o → in_order dr w →
  workspace_at dr w p mid y hid a → runs_in w p → key = B "HEAD" ∨ decode_b32 key ≠ Panic → found_id (resolve a (ws_id y) hid key) = None →
  ∃ r w', cmd_checkout dr key o w = (r, w') ∧ (r = Err EKeyNotFound ∨ r = Panic ∧ key = B "HEAD") ∧ same_machine w w'.
Proof.
  intros G F N Io Wa R Hk Hn. destruct (open_fine dr w p mid y hid a (B ".") p o G F N Io Wa R) as (h & t & k & E & Hk' & Lv); [apply join_dot|].
  set (x := WS _ _ _ _ h _) in *. unfold cmd_checkout. unfold bind at 1. rewrite E. clear E. set (w1 := upd w (w_fs w) (w_mounts w) t k) in *.
  pose proof Lv as [W [Rp Gt] LP S D].
  destruct (ws_search_correct (w_tree w1) a (ws_id y) hid h key Rp Gt Hk) as (f & Ef & Fo).
  assert (search_ws x key o w1 = (Ok f, w1)) as Es by (apply runs_search; exact Ef).
  unfold checkout_ws. unfold bind at 1, bind at 1. rewrite Es.
  destruct f as [[[l|] ty]|].
  - exfalso. destruct (ws_search_resolve _ _ _ _ _ _ _ _ Rp Gt Ef) as (c' & Gc & Ec & Hc & Hr). rewrite Hr in Hn. by destruct ty.
  - exists Panic. eexists. split; [reflexivity|]. split; [|done]. right. split; [done|]. destruct (decide (key = B "HEAD")) as [?|Nk]; [done|]. exfalso. by apply search_node in Ef.
  - exists (Err EKeyNotFound). eexists. split; [reflexivity|]. split; [by left|done].
Qed.

(** ** clone over a workspace *)
Lemma clone_moved dr source target o w d p mid y hid a c ch q : plain_path dr → good_path dr → fair o → no_faults o → new_ids dr o w → in_order dr w →
  workspace_at dr w p mid y hid a → runs_in w d → UsableCmdProofs.abs_from d source = p → UsableCmdProofs.abs_from d (default (B ".") target) = q → outside dr q → can_replace w q →
  SpecTree.parent_of a hid c → chain a c ch → fits dr (length ch) →
  ∃ w' mid' sid m, cmd_clone dr source target o w = (Ok tt, w') ∧ moved dr w w' q None mid' sid m ∧ fget (w_fs w) (mount_dir dr mid') = None ∧
    fget (w_fs w') q = Some (FLink (path_str (merged_dir dr mid'))) ∧ ∀ p2, p2 ≠ q → is_prefix dr p2 = false → fget (w_fs w') p2 = fget (w_fs w) p2.
Proof.
  intros P G F N Nw Io Wa R Hs Ht Oq Cr Hp C Fi.
  destruct (clone_fine dr source target o w d p mid y hid a c ch q P G F N Nw Io Wa R Hs Ht Oq Cr Hp C Fi) as (w' & mid0 & y0 & id0 & a0 & E0 & _).
  pose proof E0 as Ec. unfold cmd_clone in E0.
  destruct (abs_fine (default (B ".") target) _ _ _ N R) as (k0 & E & Hk0). rewrite Ht in E. unfold bind at 1 in E0. rewrite E in E0. clear E.
  set (w0 := upd w (w_fs w) (w_mounts w) (w_tree w) k0) in *.
  destruct (open_fine dr w0 p mid y hid a source d o G F N (order_upd _ _ _ _ Io) (workspace_upd _ _ _ _ _ _ _ _ _ Wa) (runs_in_upd _ _ _ _ R) Hs) as (h & t & k & E & Hk & Lv).
  set (x := WS _ _ _ _ h _) in *. unfold bind at 1 in E0. rewrite E in E0. clear E. unfold w0 in *. rewrite upd_upd in *. cbn [w_tick w_fs w_mounts upd] in *.
  set (w1 := upd w (w_fs w) (w_mounts w) t k) in *.
  destruct (op_fine dr x (OClone q) o w1 a hid d P G F N) as (y' & w2 & w4 & mid' & id & ch' & a' & base & E1 & E2 & Gr); try done.
  - apply Io.
  - eauto.
  - apply (runs_clone_live dr x _ o w1 a hid c); try done; [apply ids_later; [done..|lia]|apply Io|apply Io].
  - by apply runs_in_upd.
  - cbn [based_on]. intros base ch0 Q C0. destruct Hp as (n & H1 & H2), Q as (n' & H1' & H2'). assert (base = c) as -> by congruence. by rewrite (chain_det _ _ _ _ C0 C).
  - pose proof (gr_begun _ _ _ _ _ _ _ _ _ _ _ _ _ _ Gr) as Bg. pose proof (bg_path _ _ _ _ _ _ _ _ _ _ _ Bg) as Ey. cbn in Ey.
    cbn [run_op] in E1. unfold bind in E0. rewrite E1, E2 in E0. injection E0 as <-.
    exists w4, mid', (sp_id (ws_space y')). eexists. split; [exact Ec|]. split; [|split; [|split]].
    + pose proof (grown_moved _ _ _ _ _ _ _ _ _ _ _ _ _ _ (order_upd _ _ t k Io) Gr) as [A1 A2 A3 A4 A5 A6 A7 A8 A9 A10]. rewrite Ey in *. constructor; try done.
    + exact (gr_mid _ _ _ _ _ _ _ _ _ _ _ _ _ _ Gr).
    + pose proof (gr_settled _ _ _ _ _ _ _ _ _ _ _ _ _ _ Gr) as St. rewrite <-Ey. apply St.
    + intros p2 N2 Hp2. pose proof (runs_in_upd w d t k R) as R1.
      destruct (op_body dr x (OClone q) o w1 _ _ a hid F ltac:(apply Io) Lv E1) as ([O U] & _ & T).
      pose proof E1 as E'. apply (op_makes dr x (OClone q) _ _ _ _ a hid F Lv ltac:(eauto)) in E' as (mid2 & id2 & ch2 & a2 & Ma).
      assert (fget (w_fs w2) p2 = fget (w_fs w) p2) as <- by (apply (touched_outside dr _ _ _ (rd_space _ _ _ _ _ Lv) (ma_touches _ _ _ _ _ _ _ _ _ _ _ _ Ma)); done).
      pose proof Ma as [B1 B2 B3 (base2 & Ab & Ac) B5 B6 B7 B8 B9 B10 B11 B12 B13].
      assert (exp_inv (w_fs w2) w2 (mount_dir dr mid2 ++ [B "merged"]) (mount_dir dr mid2 ++ [B "work"]) (ws_path y') (mounted_for (w_mounts w2) (mount_dir dr mid2 ++ [B "merged"]) (diff_dir (layers_root dr) id2)) w4) as Ei; [eapply (expand_inv dr y' mid2 id2 ch2 o w2 _ w4 P G); try done|].
      * intros ->. by apply chain_not_nil in Ac.
      * by rewrite B7.
      * apply B12. apply Lv.
      * pose proof Lv as [W _ _ S _]. exact (touches_merged _ _ _ _ _ _ S W B12 B2).
      * apply (live_diff _ _ _ _ _ (rd_live _ _ _ _ _ B5)).
      * apply Ei; [..|by rewrite B7].
        -- intros ->. destruct (merged_in dr mid2) as [k' Q']. by rewrite Q', is_prefix_app in Hp2.
        -- intros ->. unfold mount_dir, mounts_root in Hp2. rewrite <-!(app_assoc dr), is_prefix_app in Hp2. done.
Qed.
