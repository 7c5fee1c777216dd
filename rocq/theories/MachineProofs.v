(** * MachineProofs: opening a workspace, Expand and RemoveWorkspaceMount under every fault *)
From Verif Require Import Base Uid SpecUid UidProofs Tree SpecTree TreeRefine TreeObs Dump DumpProofs Json JsonProofs Save SaveProofs Branch BranchProofs Date Ws SpecWs WsProofs
  Fs Overlay Os Layers Mounts Space Manager FsProofs OsProofs LayerProofs MountProofs SpaceProofs ManagerProofs SpecWorld SpecOps SavedProofs FaultProofs ReadyProofs OpProofs SpecMachine.
From Coq Require Import Lia.
From stdpp Require Import prelude gmap.

(** ** Rules *)
Lemma keeps_atomic {A} (full : Fs.choice → world → res A * world) (I : world → Prop) :
  timeless I → (∀ c w, I w → I (full c (tick w)).2) → keeps I (sys_atomic full).
Proof.
  intros T H. apply h_atomic; [done|]. intros c w Hw. specialize (H c w Hw).
  destruct (full c (tick w)) as [[a|e| | |] w']; cbn in H; auto.
Qed.
Lemma keeps_ret {A} (x : A) I : keeps I (ret x).
Proof. by apply h_ret. Qed.
Lemma keeps_fail {A} e I : keeps I (fail (A:=A) e).
Proof. by apply h_fail. Qed.
Lemma keeps_getwd I : timeless I → keeps I os_getwd.
Proof. apply look_keeps. Qed.
Lemma keeps_chdir p I : timeless I → (∀ w q, I w → I (set_cwd w q)) → keeps I (os_chdir p).
Proof.
  intros T H. apply keeps_atomic; [done|]. intros c w Hw. destruct (real_path _ _) as [q|]; [|by apply T].
  destruct (is_dir_at _ _); cbn; auto.
Qed.
Lemma keeps_chown p I : timeless I → (∀ w q, I w → I (give w q)) → keeps I (os_chown p).
Proof. intros T H. apply keeps_atomic; [done|]. intros c w Hw. destruct (real_path _ _) as [q|]; cbn; auto. Qed.
Lemma keeps_lchown p I : timeless I → (∀ w q, I w → I (give w q)) → keeps I (os_lchown p).
Proof. intros T H. apply keeps_atomic; [done|]. intros c w Hw. destruct (fget _ _) as [q|]; cbn; auto. Qed.
Lemma keeps_run {A} (I : world → Prop) (m : M A) o w r w' : keeps I m → I w → m o w = (r, w') → I w'.
Proof. intros K Hw E. specialize (K o w Hw). rewrite E in K. by destruct r. Qed.
Lemma hoare_run {A} (P : world → Prop) (m : M A) Q E o w r w' : hoare P m Q E → P w → m o w = (r, w') → (∃ x, r = Ok x ∧ Q x w') ∨ failed r ∧ E w'.
Proof. intros K Hw Eq. specialize (K o w Hw). rewrite Eq in K. destruct r; [left; eauto|right; done..]. Qed.

(** ** Paths *)
Lemma outside_ne dr p k : outside dr p → p ≠ dr ++ k.
Proof. intros [H _] ->. by rewrite is_prefix_app in H. Qed.
Lemma app_ne_prefix (a k : path) : is_prefix (a ++ k) a = true → k = [].
Proof. rewrite is_prefix_spec. intros [j E]. apply (f_equal length) in E. rewrite !app_length in E. destruct k; [done|]. cbn in E. lia. Qed.
Lemma merged_work_ne (d : path) : d ++ [B "merged"] ≠ d ++ [B "work"].
Proof. intros E. by apply app_inv_head in E. Qed.
(** The paths of a data root that matter *)
Definition vital (dr p : path) : Prop :=
  (∃ sid, p = tree_file (the_space dr sid)) ∨ (∃ mid, p = ws_file dr mid) ∨
  (∃ id, p = layer_dir (layers_root dr) id) ∨ (∃ id, p = diff_dir (layers_root dr) id).
Lemma vital_in dr p : vital dr p → ∃ k, p = dr ++ k.
Proof.
  intros [[i ->]|[[i ->]|[[i ->]|[i ->]]]]; unfold tree_file, the_space, space_dir, ws_file, diff_dir, layer_dir, layers_root, mounts_root, spaces_root; cbn [sp_dir]; rewrite <-?app_assoc; eauto.
Qed.
Lemma vital_outside dr p q : vital dr q → outside dr p → p ≠ q.
Proof. intros [k ->]%vital_in O. by apply outside_ne. Qed.
Lemma vital_below_mount dr mid n p : vital dr p → p ≠ mount_dir dr mid ++ [n].
Proof.
  intros [[i ->]|[[i ->]|[[i ->]|[i ->]]]]; unfold tree_file, the_space, sp_dir, space_dir, ws_file, diff_dir, layer_dir, mount_dir; rewrite <-?app_assoc; try (apply app_cons_ne; done).
  - intros E. apply (f_equal length) in E. rewrite !app_length in E. cbn in E. lia.
Qed.
Lemma vital_not_mount dr mid p : vital dr p → is_prefix (mount_dir dr mid) p = false.
Proof.
  intros V. apply not_true_is_false. rewrite is_prefix_spec. intros [k E]. revert E.
  unfold vital, tree_file, the_space, sp_dir, space_dir, ws_file, diff_dir, layer_dir, mount_dir in *.
  destruct V as [[i ->]|[[i ->]|[[i ->]|[i ->]]]]; rewrite <-?app_assoc; try (apply app_cons_ne; done).
  intros E. apply app_inv_head in E. cbn in E. injection E as E _. apply (f_equal length) in E.
  rewrite app_length, !uid_b32_length in E. cbn in E. lia.
Qed.
(** Nothing of that lies strictly inside a layer, except that a layer contains its diff directory. *)
Lemma vital_not_diff dr id p : vital dr p → under (diff_dir (layers_root dr) id) p = false.
Proof.
  intros V. apply not_true_is_false. rewrite under_spec. intros (k & N & E). revert E.
  unfold vital, tree_file, the_space, sp_dir, space_dir, ws_file, diff_dir, layer_dir in *.
  destruct V as [[i ->]|[[i ->]|[[i ->]|[i ->]]]]; rewrite <-?app_assoc; try (apply app_cons_ne; done).
  - intros E. apply (f_equal length) in E. rewrite !app_length in E. cbn in E. lia.
  - intros E. apply (f_equal length) in E. rewrite !app_length in E. destruct k; [done|]. cbn in E. lia.
Qed.

(** ** The invariant depends on the vital paths only *)
Lemma machine_frame dr fs ms fs' ms' : machine dr fs ms → fs_wf fs' →
  (∀ sid, fget fs' (tree_file (the_space dr sid)) = fget fs (tree_file (the_space dr sid))) →
  (∀ mid, fget fs' (ws_file dr mid) = fget fs (ws_file dr mid) ∨ fget fs' (ws_file dr mid) = None) →
  (∀ id, is_dir_at fs (layer_dir (layers_root dr) id) = true → is_dir_at fs' (layer_dir (layers_root dr) id) = true) →
  (∀ id, is_dir_at fs (diff_dir (layers_root dr) id) = true → is_dir_at fs' (diff_dir (layers_root dr) id) = true) →
  (∀ m, m ∈ ms' → m ∈ ms ∨ own_mount dr fs m) → machine dr fs' ms'.
Proof.
  intros [W I T Mo] W' Ht Hi H1 H2 Hm. constructor.
  - done.
  - intros mid raw E. destruct (Hi mid) as [Q|Q]; rewrite Q in E; [auto|done].
  - intros sid. specialize (Ht sid). destruct (T sid) as [N|[(raw & E & To)|(a & (raw & E & Lo) & LP)]].
    + left. by rewrite Ht.
    + right. left. exists raw. by rewrite Ht.
    + right. right. exists a. split; [exists raw; by rewrite Ht|]. intros z Hz. destruct (LP z Hz). auto.
  - intros m Hin Hp. assert (own_mount dr fs m) as [O1 O2] by (destruct (Hm m Hin) as [?|?]; auto).
    split; [done|]. intros u Hu. destruct (O2 u Hu) as (id & -> & D). eauto.
Qed.

(** ** Expand *)
(** The state while the mount of a workspace is set up: [mp] and [wk] are the directories of the mount, [p]
    the path of the user. *)
Record exp_inv (fs0 : files) (w0 : world) (mp wk p : path) (Ms : list mount → Prop) (w : world) : Prop := {
  ei_wf : fs_wf (w_fs w);
  ei_same : ∀ q, q ≠ mp → q ≠ wk → q ≠ p → fget (w_fs w) q = fget fs0 q;
  ei_mp : fget (w_fs w) mp = fget fs0 mp ∨ fget (w_fs w) mp = Some (FDir false);
  ei_wk : fget (w_fs w) wk = fget fs0 wk ∨ fget (w_fs w) wk = Some (FDir false);
  ei_p : fget (w_fs w) p = fget fs0 p ∨ fget (w_fs w) p = None ∨ fget (w_fs w) p = Some (FLink (path_str mp));
  ei_ms : Ms (w_mounts w);
  ei_proc : w_tree w = w_tree w0 ∧ w_pwd w = w_pwd w0 ∧ w_out w = w_out w0;
  ei_on : w_mounts w = w_mounts w0 ∨ fget (w_fs w) mp = Some (FDir false) }.
Section expand.
  Context (fs0 : files) (w0 : world) (mp wk p : path).
  Context (N1 : mp ≠ wk) (N2 : mp ≠ p) (N3 : wk ≠ p).
  Notation inv := (exp_inv fs0 w0 mp wk p).
  Lemma exp_timeless Ms : timeless (inv Ms).
  Proof. intros w [A1 A2 A3 A4 A5 A6 A7 A8]. by constructor. Qed.
  Lemma exp_cwd Ms w q : inv Ms w → inv Ms (set_cwd w q).
  Proof. intros [A1 A2 A3 A4 A5 A6 A7 A8]. by constructor. Qed.
  Lemma exp_own Ms w q : inv Ms w → inv Ms (give w q).
  Proof. intros [A1 A2 A3 A4 A5 A6 A7 A8]. by constructor. Qed.
  Lemma exp_ensure Ms q : q = mp ∨ q = wk → keeps (inv Ms) (ensure_dir q).
  Proof.
    intros Hq. unfold ensure_dir. apply keeps_bind; [apply is_dir_keeps, exp_timeless|]. intros [|]; [apply keeps_ret|].
    apply keeps_bind; [|intros [|e]; [apply keeps_ret|case_decide; [apply keeps_ret|apply keeps_fail]]].
    apply keeps_attempt. apply keeps_atomic; [apply exp_timeless|]. intros _ w Hw. cbn [w_fs tick].
    destruct (mkdir_in_cases (w_fs w) q) as [[f Ef]|[e Ef]]; rewrite Ef; [|by apply exp_timeless].
    apply mkdir_in_ok in Ef as (Nq & D & ->). destruct Hw as [A1 A2 A3 A4 A5 A6 A7 A8].
    constructor; cbn [snd w_fs set_fs w_mounts w_tree w_pwd w_out tick]; try done.
    - by apply wf_add.
    - intros r H1 H2 H3. rewrite fget_fset_ne; [auto|]. destruct Hq; congruence.
    - destruct Hq as [->| ->]; [right; by rewrite fget_fset_eq|by rewrite fget_fset_ne].
    - destruct Hq as [->| ->]; [by rewrite fget_fset_ne|right; by rewrite fget_fset_eq].
    - destruct Hq as [->| ->]; by rewrite fget_fset_ne.
    - destruct Hq as [->| ->]; [right; by rewrite fget_fset_eq|by rewrite fget_fset_ne].
  Qed.
  Lemma exp_remove Ms : keeps (inv Ms) (os_remove p).
  Proof.
    apply keeps_atomic; [apply exp_timeless|]. intros _ w Hw.
    destruct (remove_in_cases (tick w) p) as [[f Ef]|[e Ef]]; rewrite Ef; [|by apply exp_timeless].
    apply remove_in_ok in Ef as ([y Ey] & -> & Hd). destruct Hw as [A1 A2 A3 A4 A5 A6 A7 A8]. cbn [w_fs tick w_mounts] in *.
    constructor; cbn [snd w_fs set_fs w_mounts w_tree w_pwd w_out tick]; try done.
    - intros q n z. rewrite fget_fdel. case_decide as Q; [done|]. intros E.
      assert (p ≠ q) as Np.
      { intros <-. pose proof (A1 _ _ _ E) as D. apply is_dir_at_Some in D as [b D]. apply Hd in D as [_ D].
        assert (n ∈ children (w_fs w) p) as Hn by (apply children_elem; eauto). rewrite D in Hn. by apply elem_of_nil in Hn. }
      unfold is_dir_at. rewrite fget_fdel_ne by done. by apply (A1 q n z).
    - intros q H1 H2 H3. rewrite fget_fdel_ne by congruence. auto.
    - rewrite fget_fdel_ne by congruence. done.
    - rewrite fget_fdel_ne by congruence. done.
    - rewrite fget_fdel_eq. auto.
    - by rewrite fget_fdel_ne by congruence.
  Qed.
  Lemma exp_symlink Ms : keeps (inv Ms) (os_symlink (path_str mp) p).
  Proof.
    apply keeps_atomic; [apply exp_timeless|]. intros _ w Hw. cbn [w_fs tick].
    destruct (fget (w_fs w) p) eqn:Ep; [by apply exp_timeless|]. destruct (is_dir_at _ _) eqn:D; [|by apply exp_timeless].
    destruct Hw as [A1 A2 A3 A4 A5 A6 A7 A8]. constructor; cbn [snd w_fs set_fs w_mounts w_tree w_pwd w_out tick]; try done.
    - by apply wf_add.
    - intros q H1 H2 H3. rewrite fget_fset_ne by congruence. auto.
    - by rewrite fget_fset_ne by congruence.
    - by rewrite fget_fset_ne by congruence.
    - rewrite fget_fset_eq. auto.
    - by rewrite fget_fset_ne by congruence.
  Qed.
  Lemma exp_mount lowers upper ms : Forall plain_path lowers → plain_path upper → plain_path wk → lowers ≠ [] → good_path upper →
    is_dir_at fs0 upper = true → upper ≠ mp → upper ≠ wk → upper ≠ p → fget fs0 mp = None →
    let Ms := λ l, l = ms ∨ ∃ m, l = m :: ms ∧ mn_at m = mp ∧ (mn_upper m = None ∨ mn_upper m = Some upper) in
    hoare (inv (λ l, l = ms)) (sys_mount mp (overlay_data lowers upper wk)) (λ _, inv Ms) (inv Ms).
  Proof.
    intros PL PU PW NL GU DU U1 U2 U3 Nm Ms.
    assert (∀ w, inv (λ l, l = ms) w → inv Ms w) as Wk by (intros w [A1 A2 A3 A4 A5 A6 A7 A8]; constructor; try done; by left).
    apply h_atomic; [intros w Hw; by apply Wk, exp_timeless|]. intros _ w Hw. cbn [w_fs tick].
    pose proof (Wk _ (exp_timeless _ _ Hw)) as Hw'.
    destruct (real_path (w_fs w) mp) as [q|] eqn:Q; [|done]. destruct (is_dir_at (w_fs w) q) eqn:D; [|done].
    destruct (kernel_dirs _) as [d| | | |] eqn:K; try done. destruct (overlay_of _ _ _) as [m| | | |] eqn:Om; try done.
    destruct Hw as [A1 A2 A3 A4 A5 A6 A7 A8].
    assert (q = mp) as ->.
    { destruct A3 as [A3|A3]; [rewrite Nm in A3|].
      - unfold real_path in Q. cbn [real] in Q. by rewrite A3 in Q.
      - rewrite (real_not_link _ _ _ A3) in Q by done. congruence. }
    assert (inv Ms (set_mounts (tick w) (m :: w_mounts (tick w)))) as H; [|done].
    constructor; cbn [w_fs set_mounts w_mounts w_tree w_pwd w_out tick]; try done.
    2: { right. destruct A3 as [A3|A3]; [|done]. rewrite Nm in A3. unfold is_dir_at in D. by rewrite A3 in D. }
    right. exists m. rewrite A6. split; [done|].
    split; [by eapply overlay_of_at|]. eapply (mount_upper lowers upper wk (tick w)); try done.
    cbn [w_fs tick]. unfold is_dir_at. by rewrite A2.
  Qed.
End expand.

Definition mounted_for (ms : list mount) (mp upper : path) (l : list mount) : Prop :=
  l = ms ∨ ∃ m, l = m :: ms ∧ mn_at m = mp ∧ (mn_upper m = None ∨ mn_upper m = Some upper).
Lemma expand_inv dr x mid id ch o w r w' : plain_path dr → good_path dr → ch ≠ [] →
  ws_mount x = stack_mount (layers_root dr) (mount_dir dr mid) mid id ch → outside dr (ws_path x) → fs_wf (w_fs w) →
  fget (w_fs w) (mount_dir dr mid ++ [B "merged"]) = None → is_dir_at (w_fs w) (diff_dir (layers_root dr) id) = true →
  expand x o w = (r, w') →
  exp_inv (w_fs w) w (mount_dir dr mid ++ [B "merged"]) (mount_dir dr mid ++ [B "work"]) (ws_path x)
    (mounted_for (w_mounts w) (mount_dir dr mid ++ [B "merged"]) (diff_dir (layers_root dr) id)) w'.
Proof.
  intros P G NC Em O W Nm Du E. set (mp := mount_dir dr mid ++ [B "merged"]) in *. set (wk := mount_dir dr mid ++ [B "work"]) in *.
  set (up := diff_dir (layers_root dr) id) in *.
  assert (vital dr up) as V by (right; right; right; by exists id).
  assert (mp ≠ wk) as N1 by apply merged_work_ne.
  assert (∀ n, mount_dir dr mid ++ [n] ≠ ws_path x) as N0.
  { intros n Q. unfold mount_dir, mounts_root in Q. rewrite <-!app_assoc in Q. exact (outside_ne dr (ws_path x) _ O (eq_sym Q)). }
  assert (mp ≠ ws_path x) as N2 by apply N0. assert (wk ≠ ws_path x) as N3 by apply N0.
  assert (plain_path up ∧ good_path up ∧ plain_path wk ∧ Forall plain_path (diff_dir (layers_root dr) <$> ch)) as (PU & GU & PW & PL).
  { split_and!.
    - apply plain_diff. done.
    - apply good_diff. done.
    - unfold wk, mount_dir, mounts_root. repeat (apply Forall_app; split); try done; repeat constructor; try done. apply plain_uid.
    - apply Forall_fmap, Forall_true. intros i. by apply plain_diff. }
  set (Ms := mounted_for (w_mounts w) mp up).
  assert (∀ M, timeless (exp_inv (w_fs w) w mp wk (ws_path x) M)) as T by (intros; apply exp_timeless).
  assert (hoare (exp_inv (w_fs w) w mp wk (ws_path x) (λ l, l = w_mounts w)) (expand x)
    (λ _, exp_inv (w_fs w) w mp wk (ws_path x) Ms) (exp_inv (w_fs w) w mp wk (ws_path x) Ms)) as H.
  { assert (∀ v, exp_inv (w_fs w) w mp wk (ws_path x) (λ l, l = w_mounts w) v → exp_inv (w_fs w) w mp wk (ws_path x) Ms v) as Wk.
    { intros v [A1 A2 A3 A4 A5 A6 A7 A8]. constructor; try done. by left. }
    unfold expand. rewrite Em. eapply h_bind with (R := λ _, exp_inv (w_fs w) w mp wk (ws_path x) Ms).
    - unfold mount_mount, stack_mount. cbn [mv_opts oo_path oo_work oo_lowers oo_upper].
      eapply h_bind with (R := λ _, exp_inv (w_fs w) w mp wk (ws_path x) (λ l, l = w_mounts w)); [eapply h_weaken; [apply (exp_ensure (w_fs w) w mp wk (ws_path x) N1 N2 N3 (λ l, l = w_mounts w)); by left|..]; auto|]. intros ?. cbv beta.
      eapply h_bind with (R := λ _, exp_inv (w_fs w) w mp wk (ws_path x) (λ l, l = w_mounts w)); [eapply h_weaken; [apply (exp_ensure (w_fs w) w mp wk (ws_path x) N1 N2 N3 (λ l, l = w_mounts w)); by right|..]; auto|]. intros ?. cbv beta.
      eapply h_bind with (R := λ _, exp_inv (w_fs w) w mp wk (ws_path x) Ms); [apply (exp_mount (w_fs w) w mp wk (ws_path x) (diff_dir (layers_root dr) <$> ch) up (w_mounts w)); try done|].
      + by destruct ch.
      + apply vital_below_mount. done.
      + apply vital_below_mount. done.
      + intros Q. by apply (vital_outside _ _ _ V O).
      + intros ?. apply keeps_chown; [apply T|apply exp_own].
    - intros _. apply keeps_bind; [apply keeps_getwd, T|]. intros pwd.
      apply keeps_bind; [apply keeps_chdir; [apply T|apply exp_cwd]|]. intros _.
      apply keeps_bind; [apply exists_keeps, T|]. intros b.
      apply keeps_bind; [destruct b; [apply exp_remove; congruence|apply keeps_ret]|]. intros _.
      apply keeps_bind; [|intros _; apply keeps_chdir; [apply T|apply exp_cwd]].
      unfold create_symlink. cbn [stack_mount mv_path]. apply keeps_bind; [apply exp_symlink; congruence|]. intros _. apply keeps_lchown; [apply T|apply exp_own]. }
  assert (exp_inv (w_fs w) w mp wk (ws_path x) (λ l, l = w_mounts w) w) as H0 by (constructor; auto).
  specialize (H o w H0). rewrite E in H. by destruct r.
Qed.

(** ** Removing a mount *)
Lemma fget_whites (c : path → bool) l fs q : fget (foldr (λ q fs, if c q then fs else fset fs q FWhite) fs l) q =
  if decide (q ∈ l ∧ c q = false) then Some FWhite else fget fs q.
Proof.
  induction l as [|a l IH]; cbn [foldr].
  - rewrite decide_False; [done|]. intros [H _]. by apply elem_of_nil in H.
  - destruct (c a) eqn:Ca.
    + rewrite IH. destruct (decide (q ∈ l ∧ c q = false)) as [[H1 H2]|N].
      * rewrite decide_True; [done|]. split; [by right|done].
      * rewrite decide_False; [done|]. intros [[->|H]%elem_of_cons H2]; [congruence|auto].
    + rewrite fget_fset. destruct (decide (a = q)) as [->|Ne].
      * rewrite decide_True; [done|]. split; [left|done].
      * rewrite IH. destruct (decide (q ∈ l ∧ c q = false)) as [[H1 H2]|N].
        -- rewrite decide_True; [done|]. split; [by right|done].
        -- rewrite decide_False; [done|]. intros [[->|H]%elem_of_cons H2]; auto.
Qed.
Definition stays_or (fs : files) (ms : list mount) (p : path) (keep : path → bool) (q : path) : Prop :=
  removed_by ms p q = false ∨ stays fs keep q = true.
Lemma remove_all_get w p keep q : fget (remove_all_in w p keep) q =
  if decide (q ∈ whiteouts (w_fs w) (w_mounts w) p ∧ keep q || stays (w_fs w) keep q = false) then Some FWhite
  else if decide (stays_or (w_fs w) (w_mounts w) p keep q) then fget (w_fs w) q else None.
Proof.
  unfold remove_all_in. rewrite (fget_whites (λ q, keep q || stays (w_fs w) keep q)). destruct (decide (_ ∧ _)); [done|].
  pose proof (fget_filter (λ q, removed_by (w_mounts w) p q = false ∨ stays (w_fs w) keep q = true) (w_fs w) q) as H.
  etransitivity; [exact H|].
  repeat case_decide; try done; exfalso; auto.
Qed.
Lemma stays_up fs keep (p k : path) : stays fs keep (p ++ k) = true → stays fs keep p = true.
Proof.
  unfold stays. rewrite !existsb_exists. intros (kv & H & [H1 H2]%andb_true_iff). exists kv. split; [done|].
  rewrite H2, andb_true_r. apply is_prefix_spec in H1 as [j ->]. rewrite <-app_assoc. apply is_prefix_app.
Qed.
Lemma removed_down ms (p q k : path) : removed_by ms p q = true → removed_by ms p (q ++ k) = true.
Proof.
  unfold removed_by. rewrite !orb_true_iff, !andb_true_iff, !negb_true_iff. intros [[H1 H2]|H].
  - left. split; [eapply is_prefix_trans; [exact H1|apply is_prefix_app]|].
    apply not_true_is_false. rewrite existsb_exists. intros (m & Hm & Q).
    apply not_true_iff_false in H2. apply H2. apply existsb_exists. exists m. split; [done|].
    eapply is_prefix_trans; [apply is_prefix_app|exact Q].
  - right. apply existsb_exists in H as (m & Hm & Q). apply existsb_exists. exists m. split; [done|].
    destruct (mn_upper m); [|done]. apply under_spec in Q as (j & Nj & ->). apply under_spec. exists (j ++ k).
    rewrite app_assoc. split; [|done]. by destruct j.
Qed.
Lemma whiteouts_elem fs ms p q : q ∈ whiteouts fs ms p → ∃ m u n, m ∈ ms ∧ is_prefix p (mn_at m) = true ∧ mn_upper m = Some u ∧ q = u ++ [n].
Proof.
  unfold whiteouts. intros H. apply elem_of_list_In, in_concat in H as (l & Hl & H). apply elem_of_list_In in Hl, H.
  apply elem_of_list_fmap in Hl as (m & -> & Hm).
  apply elem_of_list_filter in Hm as [H1 H2]. destruct (mn_upper m) as [u|] eqn:E; [|by apply elem_of_nil in H].
  apply elem_of_list_fmap in H as (n & -> & _). exists m, u, n. done.
Qed.
Lemma remove_all_wf w p keep : fs_wf (w_fs w) →
  (∀ m u, m ∈ w_mounts w → is_prefix p (mn_at m) = true → mn_upper m = Some u →
    is_dir_at (w_fs w) u = true ∧ removed_by (w_mounts w) p u = false ∧ u ∉ whiteouts (w_fs w) (w_mounts w) p) →
  fs_wf (remove_all_in w p keep).
Proof.
  intros W U q n y. rewrite remove_all_get. destruct (decide _) as [[H1 H2]|N1].
  - intros _. apply whiteouts_elem in H1 as (m & u & n' & Hm & Hp & Hu & E). apply app_inj_tail in E as [-> ->].
    destruct (U m u Hm Hp Hu) as (D & R & Nw). unfold is_dir_at in *. rewrite remove_all_get.
    rewrite decide_False by tauto. rewrite decide_True by (by left). done.
  - destruct (decide (stays_or _ _ _ _ (q ++ [n]))) as [So|_]; [|done]. intros E. apply W in E. unfold is_dir_at in *. rewrite remove_all_get.
    rewrite decide_False; [rewrite decide_True; [done|]|].
    + destruct So as [So|So]; [left|right; by eapply stays_up].
      apply not_true_is_false. intros Q. apply (removed_down _ _ _ [n]) in Q. congruence.
    + intros [H1 H2]. apply orb_false_iff in H2 as [_ H2]. destruct So as [So|So]; [|apply stays_up in So; congruence].
      apply whiteouts_elem in H1 as (m & u & n' & Hm & Hp & Hu & ->).
      unfold removed_by in So. apply orb_false_iff in So as [_ So]. apply not_true_iff_false in So. apply So.
      apply existsb_exists. exists m. split.
      { apply elem_of_list_In. unfold mounts_below. apply elem_of_list_filter. done. }
      rewrite Hu. apply under_spec. exists ([n'] ++ [n]). split; [done|]. by rewrite app_assoc.
Qed.
(** What is neither below the path nor inside the layer of a mount below it *)
Lemma remove_all_same w p keep q : is_prefix p q = false →
  (∀ m u, m ∈ w_mounts w → is_prefix p (mn_at m) = true → mn_upper m = Some u → under u q = false) →
  fget (remove_all_in w p keep) q = fget (w_fs w) q.
Proof.
  intros Np U. rewrite remove_all_get. rewrite decide_False; [rewrite decide_True; [done|left]|].
  - unfold removed_by. rewrite Np. cbn [andb orb]. apply not_true_is_false. rewrite existsb_exists. intros (m & Hm & Q).
    apply elem_of_list_In in Hm. unfold mounts_below in Hm. apply elem_of_list_filter in Hm as [H1 H2].
    destruct (mn_upper m) as [u|] eqn:E; [|done]. rewrite (U m u) in Q by done. done.
  - intros [H _]. apply whiteouts_elem in H as (m & u & n & Hm & Hp & Hu & ->).
    specialize (U m u Hm Hp Hu). apply not_true_iff_false in U. apply U. apply under_spec. exists [n]. done.
Qed.
Lemma drop_mount_elem ms p m : m ∈ drop_mount ms p → m ∈ ms.
Proof.
  induction ms as [|a ms IH]; [done|]. cbn [drop_mount]. case_decide; [by right|]. intros [->|Hm]%elem_of_cons; [left|right; auto].
Qed.
(** A mount point is not removed. *)
Lemma rm_point w p keep m : m ∈ w_mounts w → is_prefix p (mn_at m) = true →
  (∀ m' u, m' ∈ w_mounts w → is_prefix p (mn_at m') = true → mn_upper m' = Some u → under u (mn_at m) = false) →
  fget (remove_all_in w p keep) (mn_at m) = fget (w_fs w) (mn_at m).
Proof.
  intros Hm Hp U. rewrite remove_all_get. rewrite decide_False; [rewrite decide_True; [done|left]|].
  - unfold removed_by. apply orb_false_iff. split.
    + apply andb_false_iff. right. apply negb_false_iff, existsb_exists. exists m. split; [by apply elem_of_list_In|apply is_prefix_refl].
    + apply not_true_is_false. rewrite existsb_exists. intros (m' & Hm' & Q).
      apply elem_of_list_In in Hm'. unfold mounts_below in Hm'. apply elem_of_list_filter in Hm' as [H1 H2].
      destruct (mn_upper m') as [u|] eqn:E; [|done]. rewrite (U m' u) in Q by done. done.
  - intros [H _]. apply whiteouts_elem in H as (m' & u & n & Hm' & Hp' & Hu & E).
    specialize (U m' u Hm' Hp' Hu). apply not_true_iff_false in U. apply U. apply under_spec. exists [n]. done.
Qed.
Lemma mount_not_diff dr mid id n : under (diff_dir (layers_root dr) id) (mount_dir dr mid ++ [n]) = false.
Proof.
  apply not_true_is_false. rewrite under_spec. intros (k & _ & E). revert E. unfold mount_dir, diff_dir, layer_dir. rewrite <-!app_assoc. apply app_cons_ne. done.
Qed.
(** The state while the mount of a workspace is removed *)
Definition in_layer_below (ms : list mount) (d q : path) : Prop :=
  ∃ m u, m ∈ ms ∧ is_prefix d (mn_at m) = true ∧ mn_upper m = Some u ∧ under u q = true.
Record rm_inv (fs0 : files) (w0 : world) (d f : path) (w : world) : Prop := {
  ri_wf : fs_wf (w_fs w);
  ri_same : ∀ q, is_prefix d q = false → q ≠ f → ¬ in_layer_below (w_mounts w0) d q → fget (w_fs w) q = fget fs0 q;
  ri_file : fget (w_fs w) f = fget fs0 f ∨ fget (w_fs w) f = None;
  ri_mounts : ∀ m, m ∈ w_mounts w → m ∈ w_mounts w0;
  ri_proc : w_tree w = w_tree w0 ∧ w_pwd w = w_pwd w0 ∧ w_out w = w_out w0;
  ri_points : ∀ m, m ∈ w_mounts w → is_prefix d (mn_at m) = true → fget (w_fs w) (mn_at m) = fget fs0 (mn_at m) }.
Definition os_remove_step (w : world) (p : path) : world := match remove_in w p with Ok f => set_fs w f | _ => w end.
Section remove.
  Context (dr : path) (mid : uid) (w0 : world) (Mc : machine dr (w_fs w0) (w_mounts w0)).
  Notation d := (mount_dir dr mid).
  Notation f := (ws_file dr mid).
  Notation inv := (rm_inv (w_fs w0) w0 d f).
  Lemma rm_timeless : timeless inv.
  Proof. intros w [A1 A2 A3 A4 A5 A6]. by constructor. Qed.
  Lemma rm_below m : m ∈ w_mounts w0 → is_prefix d (mn_at m) = true → own_mount dr (w_fs w0) m.
  Proof. intros Hm Hp. apply (mc_mounts _ _ _ Mc); [done|]. eapply is_prefix_trans; [|exact Hp]. apply is_prefix_app. Qed.
  Lemma rm_vital q : vital dr q → ¬ in_layer_below (w_mounts w0) d q.
  Proof.
    intros V (m & u & Hm & Hp & Hu & Q). destruct (rm_below m Hm Hp) as [_ O]. destruct (O u Hu) as (id & -> & _).
    by rewrite (vital_not_diff _ _ _ V) in Q.
  Qed.
  Lemma rm_file_not : is_prefix d f = false ∧ ¬ in_layer_below (w_mounts w0) d f.
  Proof. assert (vital dr f) as V by (right; left; eauto). split; [by apply vital_not_mount|by apply rm_vital]. Qed.
  Lemma rm_same_vital w q : inv w → vital dr q → q ≠ f → fget (w_fs w) q = fget (w_fs w0) q.
  Proof. intros H V N. apply (ri_same _ _ _ _ _ H); [by apply vital_not_mount|done|by apply rm_vital]. Qed.
  Lemma diff_ne_file id : diff_dir (layers_root dr) id ≠ f.
  Proof. unfold diff_dir, layer_dir, ws_file. rewrite <-!app_assoc. apply app_cons_ne. done. Qed.
  Lemma rm_uppers w m u : inv w → m ∈ w_mounts w → is_prefix d (mn_at m) = true → mn_upper m = Some u →
    vital dr u ∧ is_dir_at (w_fs w) u = true.
  Proof.
    intros H Hm Hp Hu. destruct (rm_below m (ri_mounts _ _ _ _ _ H _ Hm) Hp) as [_ O]. destruct (O u Hu) as (id & -> & D).
    assert (vital dr (diff_dir (layers_root dr) id)) as V by (right; right; right; eauto). split; [done|].
    unfold is_dir_at. rewrite (rm_same_vital w) by (done || apply diff_ne_file). done.
  Qed.
  Lemma rm_remove_all w keep : inv w → inv (set_fs w (remove_all_in w d keep)).
  Proof.
    intros H. assert (∀ m u q, m ∈ w_mounts w → is_prefix d (mn_at m) = true → mn_upper m = Some u → vital dr q → under u q = false) as Hv.
    { intros m u q Hm Hp Hu Vq. destruct (rm_below m (ri_mounts _ _ _ _ _ H _ Hm) Hp) as [_ O]. destruct (O u Hu) as (id & -> & _).
      by apply vital_not_diff. }
    pose proof H as [A1 A2 A3 A4 A5 A6]. constructor; cbn [w_fs set_fs w_mounts w_tree w_pwd w_out]; try done.
    - apply remove_all_wf; [done|]. intros m u Hm Hp Hu. destruct (rm_uppers w m u H Hm Hp Hu) as [V D]. split; [done|]. split.
      + unfold removed_by. rewrite (vital_not_mount dr mid u V). cbn [andb orb]. apply not_true_is_false. rewrite existsb_exists. intros (m' & Hm' & Q).
        apply elem_of_list_In in Hm'. unfold mounts_below in Hm'. apply elem_of_list_filter in Hm' as [H1 H2].
        destruct (mn_upper m') as [u'|] eqn:E; [|done]. rewrite (Hv m' u' u) in Q by done. done.
      + intros (m' & u' & n & Hm' & Hp' & Hu' & E)%whiteouts_elem.
        pose proof (Hv m' u' u Hm' Hp' Hu' V) as Q. apply not_true_iff_false in Q. apply Q. apply under_spec. by exists [n].
    - intros q H1 H2 H3. rewrite remove_all_same; [auto|done|]. intros m u Hm Hp Hu. apply not_true_is_false. intros Q.
      apply H3. exists m, u. auto.
    - destruct rm_file_not as [F1 F2]. rewrite remove_all_same; [done|done|]. intros m u Hm Hp Hu.
      apply (Hv m); [done..|]. right; left; eauto.
    - intros m Hm Hp. rewrite <-(A6 m Hm Hp). apply rm_point; [done|done|]. intros m' u Hm' Hp' Hu.
      destruct (rm_below m (A4 _ Hm) Hp) as [[mid' ->] _]. destruct (rm_below m' (A4 _ Hm') Hp') as [_ O]. destruct (O u Hu) as (id & -> & _).
      by apply mount_not_diff.
  Qed.
  Lemma rm_cwd w q : inv w → inv (set_cwd w q).
  Proof. intros [A1 A2 A3 A4 A5 A6]. by constructor. Qed.
  Lemma rm_remove_file w : inv w → inv (os_remove_step w f).
  Proof.
    intros [A1 A2 A3 A4 A5 A6]. unfold os_remove_step.
    destruct (remove_in_cases w f) as [[fs Ef]|[e Ef]]; rewrite Ef; [|by constructor].
    apply remove_in_ok in Ef as ([y Ey] & -> & Hd).
    constructor; cbn [snd w_fs set_fs w_mounts w_tree w_pwd w_out]; try done.
    - intros q n z. rewrite fget_fdel. case_decide as Q; [done|]. intros Eq.
      assert (f ≠ q) as Np.
      { intros <-. pose proof (A1 _ _ _ Eq) as D. apply is_dir_at_Some in D as [b D]. apply Hd in D as [_ D].
        assert (n ∈ children (w_fs w) f) as Hn by (apply children_elem; eauto). rewrite D in Hn. by apply elem_of_nil in Hn. }
      unfold is_dir_at. rewrite fget_fdel_ne by done. by apply (A1 q n z).
    - intros q H1 H2 H3. rewrite fget_fdel_ne by congruence. auto.
    - rewrite fget_fdel_eq. auto.
    - intros m Hm Hp. rewrite fget_fdel_ne; [auto|]. intros Q. destruct rm_file_not as [F1 _]. rewrite Q in F1. congruence.
  Qed.
  (** Everything after the unmount *)
  Definition rm_rest (pwd : path) : M unit :=
    os_remove_all d ;;;
    r <- attempt (os_remove f) ;;
    match r with
    | inr e => if decide (e = ENOENT) then os_chdir pwd else fail e
    | inl _ => os_chdir pwd
    end.
  Lemma rm_rest_keeps pwd ms : keeps (λ w, inv w ∧ w_mounts w = ms) (rm_rest pwd).
  Proof.
    assert (timeless (λ w, inv w ∧ w_mounts w = ms)) as T by (intros w [H E]; split; [by apply rm_timeless|done]).
    assert (∀ w q, inv w ∧ w_mounts w = ms → inv (set_cwd w q) ∧ w_mounts (set_cwd w q) = ms) as C by (intros w q [H E]; split; [by apply rm_cwd|done]).
    unfold rm_rest. apply keeps_bind.
    { unfold os_remove_all. intros o w Hw. unfold sys. pose proof (T _ Hw) as [Hw1 Hw2].
      destruct (ch_fault _) as [|e [|n]|[|n]]; try (split; [by first [done|apply rm_remove_all]|done]).
      destruct (mounts_below _ _); (split; [by apply rm_remove_all|done]). }
    intros ?. apply keeps_bind.
    { apply keeps_attempt. apply keeps_atomic; [done|]. intros c w [Hw Em]. pose proof (rm_timeless _ Hw) as H.
      apply rm_remove_file in H. unfold os_remove_step in H. by destruct (remove_in (tick w) f). }
    intros [?|e]; [by apply keeps_chdir|]. case_decide; [by apply keeps_chdir|apply keeps_fail].
  Qed.
  Lemma rm_keeps x : ws_mount x = mounted_mount mid d → keeps inv (remove_mount dr x).
  Proof.
    intros E. unfold remove_mount. pose proof rm_timeless as T. pose proof rm_cwd as C.
    apply keeps_bind; [by apply keeps_getwd|]. intros pwd.
    apply keeps_bind; [by apply keeps_chdir|]. intros ?.
    apply keeps_bind.
    { apply keeps_attempt. unfold mount_umount, sys_umount. apply keeps_atomic; [done|]. intros c w Hw.
      destruct (real_path _ _); [|by apply T]. destruct (mounted_at _ _); [|by apply T].
      destruct Hw as [A1 A2 A3 A4 A5 A6]. constructor; cbn [snd w_fs set_mounts w_mounts w_tree w_pwd w_out tick]; try done.
      - intros m Hm. apply drop_mount_elem in Hm. auto.
      - intros m Hm. apply drop_mount_elem in Hm. auto. }
    intros ?. rewrite E. cbn [mounted_mount mv_id]. intros o w Hw.
    pose proof (rm_rest_keeps pwd (w_mounts w) o w (conj Hw eq_refl)) as H. unfold rm_rest in H.
    revert H. match goal with |- context [let (_, _) := ?r in _] => destruct r as [[| | | |] w'] end; intros H; apply H.
  Qed.
  Lemma rm_machine w : inv w → machine dr (w_fs w) (w_mounts w).
  Proof.
    intros H. pose proof H as [A1 A2 A3 A4 A5 A6]. eapply machine_frame; [exact Mc|done|..].
    - intros sid. apply rm_same_vital; [done|left; eauto|]. unfold tree_file, the_space, sp_dir, space_dir, ws_file. rewrite <-!app_assoc. apply app_cons_ne. done.
    - intros mid'. destruct (decide (ws_file dr mid' = f)) as [->|N]; [done|]. left. apply rm_same_vital; [done|right; left; eauto|done].
    - intros id D. unfold is_dir_at. rewrite rm_same_vital; [done..|right; right; left; eauto|].
      unfold layer_dir, ws_file. rewrite <-?app_assoc. apply app_cons_ne. done.
    - intros id D. unfold is_dir_at. rewrite rm_same_vital; [done..|right; right; right; eauto|]. apply diff_ne_file.
    - auto.
  Qed.
End remove.

(** Removal of a mount: how it can end. [ms] are the mounts after the attempt to unmount. *)
Lemma remove_mount_cases dr x mid o w r w' : machine dr (w_fs w) (w_mounts w) → ws_mount x = mounted_mount mid (mount_dir dr mid) →
  remove_mount dr x o w = (r, w') →
  (w_mounts w' = w_mounts w ∨ ∃ q, real_path (w_fs w) (mount_dir dr mid ++ [B "merged"]) = Some q ∧ w_mounts w' = drop_mount (w_mounts w) q) ∧
  (∀ q, is_prefix (mount_dir dr mid) q = false → q ≠ ws_file dr mid → ¬ in_layer_below (w_mounts w') (mount_dir dr mid) q → fget (w_fs w') q = fget (w_fs w) q) ∧
  (fget (w_fs w') (ws_file dr mid) = fget (w_fs w) (ws_file dr mid) ∨ fget (w_fs w') (ws_file dr mid) = None) ∧
  (r = Ok tt → mounts_below (w_mounts w') (mount_dir dr mid) = [] ∧ (honest o → fget (w_fs w') (ws_file dr mid) = None) ∧
     ∀ q, is_prefix (mount_dir dr mid) q = true → fget (w_fs w') q = None).
Proof.
  intros Mc Em H. unfold remove_mount in H.
  assert (∀ w1 (r : res unit), failed r → w_fs w1 = w_fs w → w_mounts w1 = w_mounts w →
    (w_mounts w1 = w_mounts w ∨ ∃ q, real_path (w_fs w) (mount_dir dr mid ++ [B "merged"]) = Some q ∧ w_mounts w1 = drop_mount (w_mounts w) q) ∧
    (∀ q, is_prefix (mount_dir dr mid) q = false → q ≠ ws_file dr mid → ¬ in_layer_below (w_mounts w1) (mount_dir dr mid) q → fget (w_fs w1) q = fget (w_fs w) q) ∧
    (fget (w_fs w1) (ws_file dr mid) = fget (w_fs w) (ws_file dr mid) ∨ fget (w_fs w1) (ws_file dr mid) = None) ∧
    (r = Ok tt → mounts_below (w_mounts w1) (mount_dir dr mid) = [] ∧ (honest o → fget (w_fs w1) (ws_file dr mid) = None) ∧
      ∀ q, is_prefix (mount_dir dr mid) q = true → fget (w_fs w1) q = None)) as Fl.
  { intros w1 r1 Fr E1 E2. rewrite E1, E2. split; [by left|]. split; [done|]. split; [by left|]. intros ->. by destruct (Fr tt). }
  apply bind_any in H as [(pwd & w1 & E & H)|(r1 & E & Fr1 & Fr)].
  2: { unfold os_getwd in E. apply quiet_look in E as (k & ->). by apply Fl. }
  unfold os_getwd in E. apply quiet_look in E as (k & ->).
  assert (∀ p o w r w', os_chdir p o w = (r, w') → w_fs w' = w_fs w ∧ w_mounts w' = w_mounts w) as Cd.
  { intros p o0 w0 r0 w0' Q. unfold os_chdir, sys_atomic in Q. destruct (ch_fault _) as [|e n|[|n]]; repeat case_match; simplify_eq; done. }
  apply bind_any in H as [(u & w1 & E & H)|(r1 & E & Fr1 & Fr)]; apply Cd in E as [E1 E2].
  2: { cbn [w_fs w_mounts upd] in *. by apply Fl. }
  cbn [w_fs w_mounts upd] in *.
  apply bind_any in H as [(u' & w2 & E & H)|(r1 & E & Fr1 & Fr)].
  2: { unfold mount_umount, sys_umount, attempt, sys_atomic in E. rewrite Em in E. cbn [mounted_mount mv_path] in E.
       destruct (ch_fault _) as [|e n|[|n]]; repeat case_match; simplify_eq; try (by apply Fl); try (by edestruct Fr1).
       destruct (Fl (tick w1) r Fr E1 E2) as (_ & A2 & A3 & A4).
       split; [right; eexists; cbn [snd w_fs tick w_mounts set_mounts] in *; split; [rewrite <-E1; eassumption|by rewrite E2]|].
       cbn [snd w_fs tick w_mounts set_mounts] in *. split; [intros; by rewrite E1|]. split; [rewrite E1; by left|]. intros ->. by destruct (Fr tt). }
  assert (w_fs w2 = w_fs w ∧ (w_mounts w2 = w_mounts w ∨ ∃ q, real_path (w_fs w) (mount_dir dr mid ++ [B "merged"]) = Some q ∧ w_mounts w2 = drop_mount (w_mounts w) q)) as [E3 E4].
  { unfold mount_umount, sys_umount, attempt, sys_atomic in E. rewrite Em in E. cbn [mounted_mount mv_path] in E.
    destruct (ch_fault _) as [|e n|[|n]]; repeat case_match; simplify_eq; cbn [w_fs tick w_mounts set_mounts] in *; rewrite ?E1, ?E2; eauto.
    split; [done|]. right. eexists. split; [rewrite <-E1; eassumption|done]. }
  clear E. rewrite Em in H. cbn [mounted_mount mv_id] in H.
  assert (machine dr (w_fs w2) (w_mounts w2)) as Mc2.
  { rewrite E3. eapply machine_frame; [exact Mc|by apply Mc|auto..]. destruct E4 as [->|(q & _ & ->)]; [auto|]. intros m Hm. left. by eapply drop_mount_elem. }
  change (rm_rest dr mid pwd o w2 = (r, w')) in H.
  assert (rm_inv (w_fs w2) w2 (mount_dir dr mid) (ws_file dr mid) w2) as H0 by (constructor; auto; apply Mc2).
  pose proof (keeps_run _ _ _ _ _ _ (rm_rest_keeps dr mid w2 Mc2 pwd (w_mounts w2)) (conj H0 eq_refl) H) as [[A1 A2 A3 A4 A5 A6] Ew].
  rewrite Ew, E3 in *. split; [done|]. split; [done|]. split; [done|]. intros ->.
  unfold rm_rest in H. apply bind_ok in H as (u2 & w3 & E & H).
  assert (mounts_below (w_mounts w2) (mount_dir dr mid) = [] ∧ w3 = set_fs (tick w2) (remove_all_in (tick w2) (mount_dir dr mid) (λ _, false))) as [Em2 ->].
  { unfold os_remove_all, sys in E. destruct (ch_fault _) as [|e [|n]|[|n]]; try done. cbn [w_mounts tick] in E.
    destruct (mounts_below _ _); [|done]. injection E as _ <-. done. }
  split; [done|]. clear E A2 A3 A4 A5 A1.
  assert (∀ q, is_prefix (mount_dir dr mid) q = true → fget (remove_all_in (tick w2) (mount_dir dr mid) (λ _, false)) q = None) as Hn.
  { intros q Hq. rewrite remove_all_get. unfold whiteouts. cbn [w_mounts tick]. rewrite Em2. cbn [fmap list_fmap concat].
    rewrite decide_False by (intros [Q _]; by apply elem_of_nil in Q). rewrite decide_False; [done|].
    assert (existsb (λ m, is_prefix q (mn_at m)) (w_mounts w2) = false) as Ee.
    { apply not_true_is_false. rewrite existsb_exists. intros (m & Hm & Q). assert (m ∈ mounts_below (w_mounts w2) (mount_dir dr mid)) as Hm'.
      { unfold mounts_below. apply elem_of_list_filter. split; [|by apply elem_of_list_In]. by eapply is_prefix_trans. }
      rewrite Em2 in Hm'. by apply elem_of_nil in Hm'. }
    intros [Q|Q].
    - unfold removed_by in Q. rewrite Hq in Q. cbn [w_mounts tick] in Q. rewrite Ee in Q. done.
    - unfold stays in Q. apply existsb_exists in Q as (kv & _ & Q). by rewrite andb_false_r in Q. }
  apply bind_ok in H as (rr & w4 & E & H).
  set (w3 := set_fs (tick w2) (remove_all_in (tick w2) (mount_dir dr mid) (λ _, false))) in *.
  assert ((rr = inr ENOENT ∨ ∃ u, rr = inl u) → (honest o → fget (w_fs w4) (ws_file dr mid) = None) ∧ ∀ q, is_prefix (mount_dir dr mid) q = true → fget (w_fs w4) q = None) as Hf.
  { intros Hz. unfold attempt, os_remove, sys_atomic in E.
    assert (∀ q, is_prefix (mount_dir dr mid) q = true → fget (fdel (w_fs w3) (ws_file dr mid)) q = None) as Hn'.
    { intros q Hq. rewrite fget_fdel. case_decide; [done|]. by apply Hn. }
    destruct (ch_fault (o (w_tick w3))) as [|e n|[|n]] eqn:Ef.
    - destruct (remove_in_cases (tick w3) (ws_file dr mid)) as [[fs Er]|[e Er]]; rewrite Er in E.
      + injection E as <- <-. apply remove_in_ok in Er as (_ & -> & _). cbn [w_fs set_fs tick]. split; [intros _; by rewrite fget_fdel_eq|done].
      + injection E as <- <-. destruct Hz as [[= ->]|[? ?]]; [|done]. cbn [w_fs tick]. split; [intros _|done].
        unfold remove_in in Er. cbn [w_fs tick w_mounts] in Er. destruct (fget (w_fs w3) (ws_file dr mid)) as [[| | |]|]; try done.
        destruct (mounted_at _ _); [done|]. by destruct (children _ _).
    - injection E as <- <-. destruct Hz as [[= ->]|[? ?]]; [|done]. cbn [w_fs tick]. split; [|done]. intros Ho. by destruct (Ho _ _ Ef).
    - done.
    - destruct (remove_in_cases (tick w3) (ws_file dr mid)) as [[fs Er]|[e Er]]; rewrite Er in E; done. }
  destruct rr as [u3|e].
  - apply Cd in H as [-> _]. apply Hf. eauto.
  - case_decide as De; [|done]. apply Cd in H as [-> _]. subst e. apply Hf. auto.
Qed.
