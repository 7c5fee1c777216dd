(** * UsableProofs: commands on machines in working order succeed *)
From Verif Require Import Base Uid SpecUid UidProofs Tree SpecTree TreeRefine TreeObs Dump DumpProofs Json JsonProofs Save SaveProofs Branch BranchProofs Date Ws SpecWs WsProofs
  Fs Overlay Os Layers Mounts Space Manager Commands FsProofs OsProofs LayerProofs MountProofs SpaceProofs ManagerProofs SpecWorld SpecOps SavedProofs FaultProofs ReadyProofs OpProofs CalmProofs
  SpecMachine SpecCmds MachineProofs OpenProofs CmdProofs ExpandProofs DetProofs SpecTidy TidyProofs SpecUsable PropsMounts.
From Coq Require Import Lia.
From stdpp Require Import prelude gmap.

(** ** Paths *)
Lemma real_dir_at fuel fs p : is_dir_at fs p = true → real fuel fs p = Some p.
Proof. unfold is_dir_at. destruct fuel; cbn [real]; by destruct (fget fs p) as [[]|]. Qed.
Lemma link_real fs p q : fget fs p = Some (FLink (path_str q)) → good_path q → is_dir_at fs q = true → real_path fs p = Some q.
Proof. intros E G D. unfold real_path. cbn [real]. rewrite E, abs_path_str by done. by apply (real_dir_at 39). Qed.
Lemma dir_not_link fs p s : fget fs p = Some (FLink s) → is_dir_at fs p = false.
Proof. intros E. unfold is_dir_at. by rewrite E. Qed.
Lemma wf_up fs p k : fs_wf fs → is_Some (fget fs (p ++ k)) → k ≠ [] → is_dir_at fs p = true.
Proof.
  intros W. induction k as [|n k IH] using rev_ind; [done|]. intros [x E] _. rewrite app_assoc in E. apply W in E.
  destruct (decide (k = [])) as [->|N]; [by rewrite app_nil_r in E|]. apply IH; [|done]. apply is_dir_at_Some in E as [b E]. eauto.
Qed.
Lemma wf_root fs p : fs_wf fs → is_dir_at fs p = true → is_dir_at fs [] = true.
Proof. intros W D. destruct p as [|c p]; [done|]. apply (wf_up fs [] (c :: p)); [done| |done]. apply is_dir_at_Some in D as [b D]. by eexists. Qed.
Lemma wf_parent fs p : fs_wf fs → is_Some (fget fs p) → p ≠ [] → is_dir_at fs (parent_dir p) = true.
Proof.
  intros W [x E] N. destruct p as [|n p _] using rev_ind; [done|]. rewrite parent_dir_app. by eapply W.
Qed.
Lemma good_merged dr mid : good_path dr → good_path (merged_dir dr mid).
Proof.
  intros G. unfold mount_dir, mounts_root. rewrite <-(app_assoc dr). apply good_mount_dir; [done|]. unfold good_name. split_and!; try done.
  intros Q. repeat (apply elem_of_cons in Q as [Q|Q]; [vm_compute in Q; discriminate Q|]). by apply elem_of_nil in Q.
Qed.
Lemma outside_child dr p n : outside dr p → is_prefix dr (p ++ [n]) = false.
Proof.
  intros [H1 H2]. apply not_true_is_false. intros [k E]%is_prefix_spec. destruct k as [|c k _] using rev_ind.
  - rewrite app_nil_r in E. rewrite <-E, is_prefix_app in H2. done.
  - rewrite app_assoc in E. apply app_inj_tail in E as [-> _]. by rewrite is_prefix_app in H1.
Qed.
Lemma merged_in dr mid : ∃ k, merged_dir dr mid = dr ++ k.
Proof. unfold mount_dir, mounts_root. rewrite <-!(app_assoc dr). by eexists. Qed.
Lemma outside_merged dr p mid : outside dr p → p ≠ merged_dir dr mid.
Proof. intros O. destruct (merged_in dr mid) as [k ->]. by apply outside_ne. Qed.
Lemma outside_work dr p mid : outside dr p → p ≠ work_dir dr mid.
Proof. intros O. unfold mount_dir, mounts_root. rewrite <-!(app_assoc dr). by apply outside_ne. Qed.

(** ** File systems that only grow inside the data root *)
Record kept (dr : path) (fs fs' : files) : Prop := {
  ke_obj : ∀ q x, fget fs q = Some x → (∀ d, x ≠ FFile d) → fget fs' q = Some x;
  ke_file : ∀ q d, fget fs q = Some (FFile d) → ∃ d', fget fs' q = Some (FFile d');
  ke_none : ∀ q, fget fs q = None → is_prefix dr q = false → fget fs' q = None }.
Lemma kept_refl dr fs : kept dr fs fs.
Proof. constructor; eauto. Qed.
Lemma kept_trans dr fs fs1 fs2 : kept dr fs fs1 → kept dr fs1 fs2 → kept dr fs fs2.
Proof.
  intros [A1 A2 A3] [B1 B2 B3]. constructor; [eauto| |eauto]. intros q d E. destruct (A2 _ _ E) as [d' E']. eauto.
Qed.
Lemma kept_dir dr fs fs' p : kept dr fs fs' → is_dir_at fs p = true → is_dir_at fs' p = true.
Proof. intros K D. apply is_dir_at_Some in D as [b D]. apply is_dir_at_Some. exists b. by apply (ke_obj _ _ _ K). Qed.
Lemma kept_real dr fs fs' fuel p q : kept dr fs fs' → real fuel fs p = Some q → real fuel fs' p = Some q.
Proof.
  intros K. revert p. induction fuel as [|f IH]; intros p; cbn [real]; destruct (fget fs p) as [[]|] eqn:E; try done;
    try (by rewrite (ke_obj _ _ _ K _ _ E) by done); try (by destruct (ke_file _ _ _ K _ _ E) as [d ->]).
  rewrite (ke_obj _ _ _ K _ _ E) by done. apply IH.
Qed.
Lemma kept_runs_in dr w w' d : kept dr (w_fs w) (w_fs w') → w_cwd w' = w_cwd w → w_pwd w' = w_pwd w → runs_in w d → runs_in w' d.
Proof.
  intros K E1 E2 [D C P|E G D P].
  - apply in_dir; [by eapply kept_dir|by rewrite E1|by rewrite E2].
  - apply in_link; rewrite ?E1, ?E2; try done; [by apply (ke_obj _ _ _ K)|by eapply kept_dir].
Qed.
Lemma kept_can_replace dr w w' p : kept dr (w_fs w) (w_fs w') → outside dr p →
  (∀ m, m ∈ w_mounts w' → mn_at m = p → m ∈ w_mounts w) → can_replace w p → can_replace w' p.
Proof.
  intros K O Hm [[N D]|[[q R] H]].
  - left. split; [apply (ke_none _ _ _ K); [done|apply O]|by eapply kept_dir].
  - right. split; [exists q; by eapply kept_real|]. intros D.
    assert (is_dir_at (w_fs w) p = true) as D0.
    { unfold is_dir_at in *. destruct (fget (w_fs w) p) as [[]|] eqn:E; [done|..].
      - destruct (ke_file _ _ _ K _ _ E) as [d' E']. by rewrite E' in D.
      - by rewrite (ke_obj _ _ _ K _ _ E) in D.
      - by rewrite (ke_obj _ _ _ K _ _ E) in D.
      - rewrite (ke_none _ _ _ K _ E) in D; [done|apply O]. }
    destruct (H D0) as [H1 H2]. split.
    + intros n. apply (ke_none _ _ _ K); [done|by apply outside_child].
    + intros m Hm1 Em. by apply (H2 m); [apply Hm|].
Qed.
Lemma made_kept dr x hid op a w y w' mid id ch a' : machine dr (w_fs w) (w_mounts w) → live dr w x a hid → made dr x hid op a w y w' mid id ch a' → kept dr (w_fs w) (w_fs w').
Proof.
  intros Mc Lv Ma. pose proof Lv as [W _ _ S (raw & E & _)]. pose proof Ma as [A1 A2 A3 A4 A5 A6 A7 A8 A9 A10 A11 A12 A13].
  pose proof (rd_disk _ _ _ _ _ (rd_live _ _ _ _ _ A5)) as (raw' & E' & _). rewrite A8 in E'. pose proof (rd_info _ _ _ _ _ A5) as Ei. rewrite A1 in Ei. cbn [stack_mount mv_id] in Ei.
  assert (∀ q, own dr (ws_space x) (w_fs w) q → ∃ k, q = dr ++ k) as Ho.
  { intros q [->|(i & -> & _)].
    - unfold tree_file. rewrite S. unfold space_dir, spaces_root. rewrite <-!(app_assoc dr). by eexists.
    - unfold ws_file, mounts_root. rewrite <-!(app_assoc dr). by eexists. }
  assert (∀ q z, fget (w_fs w) q = Some z → q ≠ tree_file (ws_space x) → q ≠ ws_file dr mid → fget (w_fs w') q = Some z) as Hs.
  { intros q z Ez N1 N2. destruct (decide (fget (w_fs w') q = Some z)) as [?|Nz]; [done|]. exfalso. apply Nz. apply (to_old _ _ _ _ A12); [done|].
    intros [->|(i & -> & _)]; [done|]. apply Nz. rewrite A13; [done|]. by intros ->. }
  assert (∀ z, fget (w_fs w) (ws_file dr mid) = Some z → ∃ d, z = FFile d) as Hi by (intros z Ez; destruct (mc_info _ _ _ Mc _ _ Ez) as (r & -> & _); eauto).
  constructor.
  - intros q z Ez Nz. apply Hs; [done|..]; intros ->; [rewrite E in Ez; injection Ez as <-; by destruct (Nz raw)|]. destruct (Hi _ Ez) as [d ->]. by destruct (Nz d).
  - intros q d Ez. destruct (decide (q = tree_file (ws_space x))) as [->|N1]; [eauto|]. destruct (decide (q = ws_file dr mid)) as [->|N2]; [eauto|]. exists d. by apply Hs.
  - intros q Ez N. apply eq_None_not_Some. intros Hq. destruct (to_new _ _ _ _ A12 q Ez) as [_ Q]; [|done|].
    + intros Q. destruct (Ho _ Q) as [k ->]. by rewrite is_prefix_app in N.
    + assert (∃ k, q = dr ++ k) as [k ->]; [|by rewrite is_prefix_app in N].
      unfold new_dir, mount_dir, space_dir, diff_dir, layer_dir, mounts_root, spaces_root, layers_root in Q. destruct Q as [[i ->]|[[i ->]|[[i ->]|[i ->]]]]; rewrite <-!(app_assoc dr); by eexists.
Qed.

(** ** Calls that succeed *)
Lemma getwd_fine o w d : no_faults o → runs_in w d → os_getwd o w = (Ok d, tick w).
Proof.
  intros F R. unfold os_getwd. rewrite look_fine by done. destruct R as [D C P|E G D P]; unfold getwd_of; cbn [w_pwd w_cwd w_fs tick].
  - destruct P as [-> | ->]; [|rewrite C, decide_True by (by apply real_dir)]; rewrite ?C, D; done.
  - rewrite P, decide_True by (by apply link_real). assert (d ≠ w_cwd w) as N by (intros ->; unfold is_dir_at in D; by rewrite E in D).
    rewrite bool_decide_true by done. by rewrite orb_true_r.
Qed.
Lemma chdir_fine p q o w : no_faults o → real_path (w_fs w) p = Some q → is_dir_at (w_fs w) q = true → os_chdir p o w = (Ok tt, set_cwd (tick w) q).
Proof. intros F R D. unfold os_chdir, sys_atomic. rewrite F. cbn [w_fs tick]. by rewrite R, D. Qed.
Lemma mkdir_fine p o w : no_faults o → fget (w_fs w) p = None → is_dir_at (w_fs w) (parent_dir p) = true →
  os_mkdir p o w = (Ok tt, set_fs (tick w) (fset (w_fs w) p (FDir false))).
Proof. intros F N D. unfold os_mkdir, sys_atomic. rewrite F. unfold mkdir_in. cbn [w_fs tick]. apply is_dir_at_Some in D as [b D]. by rewrite N, D. Qed.
Lemma ensure_fine p o w : no_faults o → fget (w_fs w) p = None → is_dir_at (w_fs w) (parent_dir p) = true →
  ensure_dir p o w = (Ok tt, set_fs (tick (tick w)) (fset (w_fs w) p (FDir false))).
Proof. intros F N D. unfold ensure_dir, bind. rewrite is_dir_absent by done. unfold attempt. by rewrite mkdir_fine. Qed.
Lemma exists_fine p o w : no_faults o → fs_is_exists p o w = (Ok (bool_decide (is_Some (real_path (w_fs w) p))), tick w).
Proof.
  intros F. unfold fs_is_exists, bind, attempt, os_stat. rewrite look_fine by done. cbn [w_fs tick]. destruct (real_path (w_fs w) p) as [q|] eqn:R; [|done].
  destruct (real_exists _ _ _ _ R) as (x & E & _). by rewrite E.
Qed.

(** ** Mounting *)
Lemma fits_500 dr n : fits dr n → n ≤ 500.
Proof. unfold fits. intros H. nia. Qed.
Lemma stack_is dr mid id ch : overlay_data (diff_dir (layers_root dr) <$> ch) (diff_dir (layers_root dr) id) (work_dir dr mid) = stack_data dr ch id mid.
Proof. unfold stack_data, stack_upper. rewrite stack_lowers_eq, stack_diff, stack_work_eq. unfold layers_root, mount_dir, mounts_root. by rewrite <-(app_assoc dr). Qed.
Definition mounted_fs (dr : path) (mid : uid) (fs : files) : files := fset (fset fs (merged_dir dr mid) (FDir false)) (work_dir dr mid) (FDir false).
Lemma mounted_get dr mid fs q : q ≠ merged_dir dr mid → q ≠ work_dir dr mid → fget (mounted_fs dr mid fs) q = fget fs q.
Proof. intros N1 N2. unfold mounted_fs. by rewrite !fget_fset_ne by congruence. Qed.
Lemma mounted_dir dr mid fs p : is_dir_at fs p = true → is_dir_at (mounted_fs dr mid fs) p = true.
Proof. intros D. unfold mounted_fs, is_dir_at. rewrite !fget_fset. by repeat case_decide. Qed.
Lemma mounted_merged dr mid fs : is_dir_at (mounted_fs dr mid fs) (merged_dir dr mid) = true.
Proof. unfold mounted_fs, is_dir_at. rewrite fget_fset_ne, fget_fset_eq; [done|]. apply not_eq_sym, merged_work_ne. Qed.
Lemma mount_fine dr mid id ch o w : plain_path dr → good_path dr → dr ≠ [] → ch ≠ [] → fits dr (length ch) → no_faults o →
  is_dir_at (w_fs w) (mount_dir dr mid) = true → fget (w_fs w) (merged_dir dr mid) = None → fget (w_fs w) (work_dir dr mid) = None →
  is_dir_at (w_fs w) (diff_dir (layers_root dr) id) = true → Forall (λ i, is_dir_at (w_fs w) (diff_dir (layers_root dr) i) = true) ch →
  ∃ k e, mount_mount (stack_mount (layers_root dr) (mount_dir dr mid) mid id ch) o w =
    (Ok tt, add_owned (upd w (mounted_fs dr mid (w_fs w)) (stack_of dr mid id ch :: w_mounts w) (w_tree w) k) e).
Proof.
  intros P G ND NC Fi F Dm N1 N2 Du Dl. unfold mount_mount, stack_mount. cbn [mv_opts oo_path oo_work oo_lowers oo_upper].
  unfold bind at 1. rewrite ensure_fine; [|done|done|by rewrite parent_dir_app].
  unfold bind at 1. rewrite ensure_fine; cbn [w_fs set_fs tick]; [|done|rewrite fget_fset_ne; [done|apply merged_work_ne]|rewrite parent_dir_app; unfold is_dir_at; rewrite fget_fset; by case_decide].
  cbn [w_fs set_fs tick]. fold (mounted_fs dr mid (w_fs w)). rewrite stack_is.
  match goal with |- context [bind (sys_mount _ _) _ o ?v] => set (v0 := v) end.
  assert (w_fs v0 = mounted_fs dr mid (w_fs w)) as Ev by done.
  destruct (C33_mount_exact dr ch id mid (merged_dir dr mid) o v0 P G NC) as (R1 & R2 & R3); rewrite ?Ev.
  - by eapply fits_500.
  - rewrite stack_length by done. exact Fi.
  - rewrite stack_lowers_eq. apply Forall_fmap. eapply List.Forall_impl; [|exact Dl]. intros i Hi. by apply mounted_dir.
  - unfold stack_upper. rewrite stack_diff. by apply mounted_dir.
  - rewrite stack_work_eq. unfold mounted_fs, mount_dir, mounts_root. rewrite <-(app_assoc dr). unfold is_dir_at. by rewrite fget_fset_eq.
  - apply mounted_merged.
  - apply F.
  - unfold bind at 1. destruct (sys_mount _ _ o v0) as [r v1] eqn:Es. cbn [fst snd] in *. subst r.
    apply sys_mount_ok in Es as (q & dd & m & _ & _ & _ & _ & ->). cbn [w_mounts set_mounts tick] in R2. injection R2 as ->.
    unfold os_chown, sys_atomic. rewrite F. cbn [w_fs set_mounts tick]. rewrite Ev, (real_dir _ _ (mounted_merged dr mid _)).
    eexists _, _. unfold give, add_owned, upd, stack_of. f_equal. unfold set_mounts, tick. cbn [w_fs w_mounts w_tree w_cwd w_pwd w_out w_tick w_ids w_owned set_fs].
    rewrite stack_lowers_eq, stack_work_eq. unfold stack_upper. rewrite stack_diff. unfold layers_root, mount_dir, mounts_root. rewrite <-(app_assoc dr). reflexivity.
Qed.

(** ** The link *)
Lemma children_none fs p : (∀ n, fget fs (p ++ [n]) = None) → children fs p = [].
Proof.
  intros H. destruct (children fs p) as [|n l] eqn:E; [done|]. assert (n ∈ children fs p) as Hn by (rewrite E; left).
  apply children_elem in Hn as [x Hx]. by rewrite H in Hx.
Qed.
Lemma mounted_at_false ms p : (∀ m, m ∈ ms → mn_at m ≠ p) → mounted_at ms p = false.
Proof. intros H. apply not_true_is_false. unfold mounted_at. rewrite existsb_exists. intros (m & Hm & Q). apply bool_decide_eq_true in Q. apply elem_of_list_In in Hm. by apply (H m). Qed.
Lemma mounted_at_true ms m p : m ∈ ms → mn_at m = p → mounted_at ms p = true.
Proof. intros H E. unfold mounted_at. apply existsb_exists. exists m. split; [by apply elem_of_list_In|]. by apply bool_decide_eq_true. Qed.
Lemma link_fine x d o w : no_faults o → fs_wf (w_fs w) → runs_in w d → can_replace w (ws_path x) → ws_path x ≠ [] →
  good_path (mv_path (ws_mount x)) → is_dir_at (w_fs w) (mv_path (ws_mount x)) = true → mv_path (ws_mount x) ≠ ws_path x →
  ∃ w', link_up x o w = (Ok tt, w') ∧ w_mounts w' = w_mounts w ∧ w_pwd w' = w_pwd w ∧ fget (w_fs w') (ws_path x) = Some (FLink (path_str (mv_path (ws_mount x)))) ∧
    (∀ q, q ≠ ws_path x → fget (w_fs w') q = fget (w_fs w) q) ∧ real_path (w_fs w') d = Some (w_cwd w') ∧ is_dir_at (w_fs w') (w_cwd w') = true.
Proof.
  intros F W R C N0 Gm Dm Nm. set (p := ws_path x) in *. set (mp := mv_path (ws_mount x)) in *.
  assert (is_dir_at (w_fs w) [] = true) as D0 by (by eapply wf_root).
  unfold link_up. unfold bind at 1. rewrite (getwd_fine _ _ _ F R).
  unfold bind at 1. rewrite (chdir_fine [] []); [|done|by apply real_dir|done].
  unfold bind at 1. fold p. rewrite exists_fine by done. cbn [w_fs set_cwd tick].
  assert (∃ fs1 k, (if bool_decide (is_Some (real_path (w_fs w) p)) then os_remove p else ret tt) o (tick (set_cwd (tick (tick w)) [])) =
      (Ok tt, World fs1 (w_mounts w) (w_tree w) [] (w_pwd w) (w_out w) k (w_ids w) (w_owned w)) ∧
    fget fs1 p = None ∧ is_dir_at fs1 (parent_dir p) = true ∧ ∀ q, q ≠ p → fget fs1 q = fget (w_fs w) q) as (fs1 & k & E1 & Np & Dp & Hs).
  { destruct C as [[N D]|[[q Rq] H]].
    - assert (real_path (w_fs w) p = None) as -> by (unfold real_path; cbn [real]; by rewrite N). rewrite bool_decide_false by (intros [? ?]; done).
      exists (w_fs w). eexists. split; [reflexivity|]. done.
    - rewrite Rq, bool_decide_true by done. assert (∃ y, fget (w_fs w) p = Some y) as [y Ey].
      { destruct (fget (w_fs w) p) eqn:E; [eauto|]. unfold real_path in Rq. cbn [real] in Rq. by rewrite E in Rq. }
      assert (remove_in (tick (tick (set_cwd (tick (tick w)) []))) p = Ok (fdel (w_fs w) p)) as Er.
      { unfold remove_in. cbn [w_fs w_mounts tick set_cwd]. rewrite Ey. destruct y; try done. destruct (H ltac:(unfold is_dir_at; by rewrite Ey)) as [H1 H2].
        rewrite mounted_at_false by done. by rewrite children_none. }
      exists (fdel (w_fs w) p). eexists. split.
      { unfold os_remove, sys_atomic. rewrite F. rewrite Er. reflexivity. }
      split; [apply fget_fdel_eq|]. split; [|intros q' N; apply fget_fdel_ne; congruence].
      unfold is_dir_at. rewrite fget_fdel_ne; [apply wf_parent; eauto|]. destruct p as [|n p' _] using rev_ind; [done|]. rewrite parent_dir_app.
      intros Q. apply (f_equal length) in Q. rewrite app_length in Q. cbn in Q. lia. }
  unfold bind at 1. rewrite E1. clear E1.
  assert (∀ k, ∃ l, create_symlink (ws_mount x) p o (World fs1 (w_mounts w) (w_tree w) [] (w_pwd w) (w_out w) k (w_ids w) (w_owned w)) =
    (Ok tt, World (fset fs1 p (FLink (path_str mp))) (w_mounts w) (w_tree w) [] (w_pwd w) (w_out w) (S (S k)) (w_ids w) l)) as E2.
  { intros k0. unfold create_symlink, bind, os_symlink, sys_atomic. rewrite F. cbn [w_fs tick]. rewrite Np, Dp. unfold os_lchown, sys_atomic. rewrite F.
    cbn [w_fs set_fs tick]. rewrite fget_fset_eq. by eexists. }
  destruct (E2 k) as [l E2']. unfold bind at 1. rewrite E2'. clear E2 E2'. set (fs2 := fset fs1 p (FLink (path_str mp))) in *.
  assert (fget fs2 p = Some (FLink (path_str mp))) as Ep by apply fget_fset_eq.
  assert (∀ q, q ≠ p → fget fs2 q = fget (w_fs w) q) as Hs2 by (intros q N; unfold fs2; rewrite fget_fset_ne by congruence; auto).
  assert (is_dir_at fs2 mp = true) as Dm2 by (unfold is_dir_at; by rewrite Hs2).
  pose proof (link_real _ _ _ Ep Gm Dm2) as Rp.
  assert (∃ q, real_path fs2 d = Some q ∧ is_dir_at fs2 q = true) as (q & Rq & Dq).
  { destruct (decide (d = p)) as [->|Nd]; [eauto|]. destruct R as [D _ _|E G D _].
    - exists d. assert (is_dir_at fs2 d = true) as D2 by (unfold is_dir_at; by rewrite Hs2). split; [by apply real_dir|done].
    - assert (fget fs2 d = Some (FLink (path_str (w_cwd w)))) as E' by (by rewrite Hs2). destruct (decide (w_cwd w = p)) as [Q|Nc].
      + exists mp. split; [|done]. unfold real_path. cbn [real]. rewrite E', abs_path_str, Q by done. cbn [real]. rewrite Ep, abs_path_str by done. by apply (real_dir_at 38).
      + exists (w_cwd w). assert (is_dir_at fs2 (w_cwd w) = true) as D2 by (unfold is_dir_at; by rewrite Hs2). split; [by apply link_real|done]. }
  eexists. split; [by apply chdir_fine|]. cbn [w_fs w_mounts w_pwd w_cwd set_cwd tick]. done.
Qed.
