(** * OwnerProofs: who is given what by the commands (for C74) *)
From Verif Require Import Base Uid SpecUid UidProofs Tree SpecTree TreeRefine TreeObs Dump DumpProofs Json JsonProofs Save SaveProofs Branch BranchProofs Date Ws SpecWs WsProofs
  Fs Overlay Os Layers Mounts Space Manager Commands Sample FsProofs OsProofs LayerProofs MountProofs SpaceProofs ManagerProofs SpecWorld SpecOps SavedProofs FaultProofs ReadyProofs OpProofs CalmProofs
  SpecMachine SpecCmds MachineProofs OpenProofs CmdProofs ExpandProofs TidyProofs SpecOwner.
From Coq Require Import Lia.
From stdpp Require Import prelude gmap.

(** ** Computations that give nothing away *)
Definition mute {A} (m : M A) : Prop := ∀ o w r w', m o w = (r, w') → w_ids w' = w_ids w ∧ w_owned w' = w_owned w.
Lemma mute_quiet {A} (m : M A) : quiet m → mute m.
Proof. intros Q o w r w' H. by apply Q in H as (k & ->). Qed.
Lemma mute_bind {A C} (m : M A) (f : A → M C) : mute m → (∀ x, mute (f x)) → mute (bind m f).
Proof.
  intros Hm Hf o w r w' [(x & w1 & E & H)|(r1 & E & _)]%bind_any; [|by eapply Hm].
  apply Hm in E as [E1 E2]. apply Hf in H as [H1 H2]. split; congruence.
Qed.
Lemma mute_attempt {A} (m : M A) : mute m → mute (attempt m).
Proof. intros Hm o w r w'. unfold attempt. destruct (m o w) as [[x|e| | |] w1] eqn:E; intros [= _ <-]; by eapply Hm. Qed.
Lemma mute_sys {A} (full : Fs.choice → world → res A * world) part : (∀ c w, w_ids (full c w).2 = w_ids w ∧ w_owned (full c w).2 = w_owned w) →
  (∀ c n w, w_ids (part c n w) = w_ids w ∧ w_owned (part c n w) = w_owned w) → mute (sys full part).
Proof.
  intros Hf Hp o w r w'. unfold sys. pose proof (Hf (o (w_tick w)) (tick w)) as Q.
  destruct (ch_fault _) as [|e [|n]|[|n]]; intros E; try (by injection E as _ <-); [by rewrite E in Q|..]; injection E as _ <-; apply (Hp _ _ (tick w)).
Qed.
Lemma mute_atomic {A} (full : Fs.choice → world → res A * world) : (∀ c w, w_ids (full c w).2 = w_ids w ∧ w_owned (full c w).2 = w_owned w) → mute (sys_atomic full).
Proof.
  intros Hf o w r w'. unfold sys_atomic. pose proof (Hf (o (w_tick w)) (tick w)) as Q.
  destruct (ch_fault _) as [|? ?|[|?]]; intros E; try (by injection E as _ <-). by rewrite E in Q.
Qed.
Lemma mute_modify f : (∀ w, w_ids (f w) = w_ids w ∧ w_owned (f w) = w_owned w) → mute (modify f).
Proof. intros Hf o w r w' [= _ <-]. apply Hf. Qed.
Lemma mute_mkdir p : mute (os_mkdir p).
Proof. apply mute_atomic. intros _ w. by destruct (mkdir_in _ _). Qed.
Lemma mute_write p d : mute (os_write_file p d).
Proof. apply mute_sys; [intros _ w; by destruct (write_in _ _ _)|intros _ n w; by destruct (write_in _ _ _)]. Qed.
Lemma mute_remove p : mute (os_remove p).
Proof. apply mute_atomic. intros _ w. by destruct (remove_in _ _). Qed.
Lemma mute_remove_all p : mute (os_remove_all p).
Proof. by apply mute_sys. Qed.
Lemma mute_symlink s p : mute (os_symlink s p).
Proof. apply mute_atomic. intros _ w. destruct (fget _ _); [done|]. by destruct (is_dir_at _ _). Qed.
Lemma mute_chdir p : mute (os_chdir p).
Proof. apply mute_atomic. intros _ w. destruct (real_path _ _); [|done]. by destruct (is_dir_at _ _). Qed.
Lemma mute_getwd : mute os_getwd.
Proof. apply mute_quiet, quiet_look. Qed.
Lemma mute_mount p d : mute (sys_mount p d).
Proof. apply mute_atomic. intros _ w. repeat case_match; done. Qed.
Lemma mute_umount p : mute (sys_umount p).
Proof. apply mute_atomic. intros _ w. repeat case_match; done. Qed.
Lemma mute_tree_do f : mute (tree_do f).
Proof. intros o w r w'. unfold tree_do. destruct (f _); by intros [= _ <-]. Qed.
Lemma mute_make_node id : mute (make_node id).
Proof. intros o w r w'. unfold make_node. destruct (alloc_node _ _). by intros [= _ <-]. Qed.
Ltac mute := repeat first
  [ apply mute_bind; [|intros ?] | apply mute_mkdir | apply mute_write | apply mute_remove | apply mute_remove_all | apply mute_symlink | apply mute_chdir | apply mute_getwd
  | apply mute_mount | apply mute_umount | apply mute_tree_do | apply mute_make_node | apply mute_attempt
  | apply mute_modify; by intros
  | apply mute_quiet; first [apply quiet_ret | apply quiet_fail | apply quiet_panic | apply quiet_lift | apply quiet_gets | apply quiet_look | apply quiet_next
      | apply quiet_is_dir | apply quiet_is_exists | apply quiet_is_symlink | apply quiet_is_empty_dir | apply quiet_collect | apply quiet_id_of | apply quiet_parent_of | apply quiet_search
      | apply quiet_read_file | apply quiet_abs | apply quiet_readlink | apply quiet_load_info]
  | case_match ].
Lemma mute_ensure p : mute (ensure_dir p).
Proof. unfold ensure_dir. mute. Qed.
Lemma mute_layer_create root : mute (layer_create root).
Proof. unfold layer_create, layer_save, new_random_uid. mute. Qed.
Lemma mute_save sp : mute (space_save sp).
Proof. unfold space_save. mute. Qed.
Lemma mute_load sp : mute (space_load sp).
Proof. unfold space_load. mute. Qed.
Lemma mute_save_info dr x : mute (save_ws_info dr x).
Proof. unfold save_ws_info. mute. Qed.
Lemma mute_create_mount dr c : mute (create_mount dr c).
Proof.
  unfold create_mount, space_create_mount, create_layer, new_random_uid. mute; apply mute_layer_create.
Qed.
Lemma mute_create_space dr : mute (create_space dr).
Proof. unfold create_space, space_init, new_random_uid. mute; apply mute_layer_create. Qed.
Lemma mute_create dr p branch : mute (create_workspace dr p branch).
Proof. unfold create_workspace, new_random_uid. mute; try apply mute_create_space; try apply mute_create_mount; try apply mute_save; try apply mute_save_info. Qed.
Lemma mute_get dr arg : mute (get_workspace dr arg).
Proof. unfold get_workspace. mute; apply mute_load. Qed.
Lemma mute_remove_mount dr x : mute (remove_mount dr x).
Proof. unfold remove_mount, mount_umount. mute. Qed.
Lemma mute_commit dr x d m : mute (commit_ws dr x d m).
Proof. unfold commit_ws. mute; try apply mute_create_mount; try apply mute_save; try apply mute_save_info. Qed.
Lemma mute_checkout dr x k : mute (checkout_ws dr x k).
Proof. unfold checkout_ws. mute; try apply mute_create_mount; try apply mute_save; try apply mute_save_info. Qed.
Lemma mute_clone dr x p : mute (clone_ws dr x p).
Proof. unfold clone_ws, new_random_uid. mute; try apply mute_create_mount; try apply mute_save; try apply mute_save_info. Qed.
Lemma mute_op dr x op : (∃ d m, op = OCommit d m) ∨ (∃ k, op = OCheckout k) ∨ (∃ p, op = OClone p) → mute (run_op dr x op).
Proof. intros [(d & m & ->)|[(k & ->)|(p & ->)]]; [apply mute_commit|apply mute_checkout|apply mute_clone]. Qed.
Lemma mute_for_each {A} (f : A → M unit) l : (∀ x, mute (f x)) → mute (for_each l f).
Proof. intros H. induction l; cbn [for_each]; mute; auto. Qed.
Lemma mute_print_all l : mute (print_all l).
Proof. induction l; cbn [print_all]; unfold println in *; mute; auto. Qed.
Lemma mute_change x f : mute (tree_do f) → mute (tree_do f ;;; space_save (ws_space x)).
Proof. intros H. apply mute_bind; [done|]. intros _. apply mute_save. Qed.
(** Commands that do not set up a workspace *)
Lemma mute_cmd dr c : ¬ writes_path c → mute (run_cmd dr c).
Proof.
  intros N. destruct c as [args branch|source target|msg|key|opts args|opts args|args]; try (by destruct N); cbn [run_cmd].
  - unfold cmd_branch, list_branches, println. mute; try apply mute_print_all; try apply mute_for_each; try intros ?; unfold ws_delete_branch, ws_add_branch; mute.
  - unfold cmd_tag, list_tags, println. mute; try apply mute_print_all; try apply mute_for_each; try intros ?; unfold ws_delete_tag, ws_add_tag; mute.
  - unfold cmd_log. mute; apply mute_for_each; intros ?. unfold log_one, println. mute.
Qed.

(** ** Expand *)
Lemma chown_at p o w r w' : os_chown p o w = (r, w') → w' = tick w ∨ ∃ q, real_path (w_fs w) p = Some q ∧ w' = give (tick w) q.
Proof. unfold os_chown, sys_atomic. destruct (ch_fault _) as [|? ?|[|?]]; cbn [w_fs tick]; try destruct (real_path _ _); intros [= _ <-]; cbn [snd]; eauto. Qed.
Lemma lchown_at p o w r w' : os_lchown p o w = (r, w') → w' = tick w ∨ w' = give (tick w) p.
Proof. unfold os_lchown, sys_atomic. destruct (ch_fault _) as [|? ?|[|?]]; cbn [w_fs tick]; try destruct (fget _ _); intros [= _ <-]; cbn [snd]; eauto. Qed.
(** What may be given while a workspace is set up at [p] with a mount at [mp] *)
Definition for_new (ids : Z * Z) (p mp : path) (e : owned) : Prop :=
  ow_ids e = ids ∧ (ow_at e = p ∧ ow_obj e = Some (FLink (path_str mp)) ∨ ow_at e = mp).
Lemma mute_step {A C} (m : M A) (f : A → M C) o w r w' : mute m → bind m f o w = (r, w') →
  (w_ids w' = w_ids w ∧ w_owned w' = w_owned w ∧ failed r) ∨ ∃ x w1, m o w = (Ok x, w1) ∧ w_ids w1 = w_ids w ∧ w_owned w1 = w_owned w ∧ f x o w1 = (r, w').
Proof.
  intros Hm [(x & w1 & E & H)|(r1 & E & _ & Fr)]%bind_any.
  - right. exists x, w1. pose proof (Hm _ _ _ _ E) as [E1 E2]. done.
  - left. apply Hm in E as [E1 E2]. done.
Qed.
Lemma link_gives x o w r w' : link_up x o w = (r, w') →
  w_ids w' = w_ids w ∧ ∃ l, w_owned w' = l ++ w_owned w ∧ Forall (for_new (w_ids w) (ws_path x) (mv_path (ws_mount x))) l ∧
    (r = Ok tt → ∃ m, l = [Owned (ws_path x) (Some (FLink (path_str (mv_path (ws_mount x))))) m (w_ids w)]).
Proof.
  unfold link_up. intros H. set (p := ws_path x) in *. set (mp := mv_path (ws_mount x)).
  assert (∀ v, w_ids v = w_ids w ∧ w_owned v = w_owned w ∧ failed r → w_ids v = w_ids w ∧ ∃ l, w_owned v = l ++ w_owned w ∧ Forall (for_new (w_ids w) p mp) l ∧
    (r = Ok tt → ∃ m, l = [Owned p (Some (FLink (path_str mp))) m (w_ids w)])) as Fl.
  { intros v (E1 & E2 & Fr). split; [done|]. exists []. split; [done|]. split; [done|]. intros ->. by apply failed_not_ok in Fr. }
  apply mute_step in H as [?|(pwd & w1 & _ & I1 & O1 & H)]; [by apply Fl| |apply mute_getwd].
  apply mute_step in H as [(E1 & E2 & Fr)|([] & w2 & _ & I2 & O2 & H)]; [apply Fl; split_and!; [congruence..|done]| |apply mute_chdir].
  apply mute_step in H as [(E1 & E2 & Fr)|(b & w3 & _ & I3 & O3 & H)]; [apply Fl; split_and!; [congruence..|done]| |mute].
  apply mute_step in H as [(E1 & E2 & Fr)|([] & w4 & _ & I4 & O4 & H)]; [apply Fl; split_and!; [congruence..|done]| |destruct b; mute].
  unfold create_symlink in H. fold mp p in H.
  assert (∀ r1 w5, (os_symlink (path_str mp) p;;; os_lchown p) o w4 = (r1, w5) → w_ids w5 = w_ids w ∧
    ((w_owned w5 = w_owned w ∧ failed r1) ∨ (∃ m, w_owned w5 = Owned p (Some (FLink (path_str mp))) m (w_ids w) :: w_owned w))) as Sy.
  { intros r1 w5 E. apply mute_step in E as [(E1 & E2 & Fr)|([] & w6 & E & I6 & O6 & E')]; [split; [congruence|]; left; split; [congruence|done]| |apply mute_symlink].
    apply symlink_ok in E as (_ & _ & Ew). destruct r1 as [[]|e| | |] eqn:Er.
    { apply lchown_ok in E' as [_ ->]. split; [cbn [w_ids give add_owned tick]; congruence|]. right. cbn [w_owned give add_owned w_ids tick]. subst w6. cbn [w_fs tick set_fs]. rewrite fget_fset_eq.
      eexists. f_equal; [|congruence]. f_equal. congruence. }
    all: apply lchown_at in E' as [-> | ->]; (split; [cbn [w_ids give add_owned tick]; congruence|]); [left; split; [cbn [w_owned tick]; congruence|by intros ?]|right].
    all: cbn [w_owned give add_owned w_ids tick]; subst w6; cbn [w_fs tick set_fs]; rewrite fget_fset_eq; eexists; f_equal; [|congruence]; f_equal; congruence. }
  assert (∀ m, for_new (w_ids w) p mp (Owned p (Some (FLink (path_str mp))) m (w_ids w))) as Hn by (intros m; split; [done|by left]).
  apply bind_any in H as [([] & w5 & E & H)|(r1 & E & Fr1 & Fr)].
  - destruct (Sy _ _ E) as [I5 [[_ Fr]|(m & O5)]]; [by apply failed_not_ok in Fr|]. apply mute_chdir in H as [I6 O6]. split; [congruence|].
    exists [Owned p (Some (FLink (path_str mp))) m (w_ids w)]. split; [by rewrite O6, O5|]. split; [by apply Forall_singleton|]. intros _. by exists m.
  - destruct (Sy _ _ E) as [I5 [[O5 _]|(m & O5)]]; [by apply Fl|]. split; [done|].
    exists [Owned p (Some (FLink (path_str mp))) m (w_ids w)]. split; [by rewrite O5|]. split; [by apply Forall_singleton|]. intros ->. by apply failed_not_ok in Fr.
Qed.
Lemma expand_gives dr x mid id ch o w r w' : plain_path dr → good_path dr → ch ≠ [] →
  ws_mount x = stack_mount (layers_root dr) (mount_dir dr mid) mid id ch → outside dr (ws_path x) → fs_wf (w_fs w) →
  fget (w_fs w) (merged_dir dr mid) = None → fget (w_fs w) (work_dir dr mid) = None → is_dir_at (w_fs w) (diff_dir (layers_root dr) id) = true →
  expand x o w = (r, w') →
  w_ids w' = w_ids w ∧ ∃ l, w_owned w' = l ++ w_owned w ∧ Forall (for_new (w_ids w) (ws_path x) (merged_dir dr mid)) l ∧
    (r = Ok tt → ∃ m om b, w_mounts w' = m :: w_mounts w ∧ mn_at m = merged_dir dr mid ∧
      l = [Owned (ws_path x) (Some (FLink (path_str (merged_dir dr mid)))) om (w_ids w); Owned (merged_dir dr mid) (Some (FDir b)) (Some m) (w_ids w)]).
Proof.
  intros P G NC Em O W Nm Nw Du H. assert (dr ≠ []) as ND by (intros ->; by destruct O).
  set (mp := merged_dir dr mid) in *. set (p' := mp ++ [B "x"]).
  assert (∀ n, mount_dir dr mid ++ [n] ≠ p') as N0 by (intros n Q; apply (f_equal length) in Q; unfold p', mp in Q; rewrite !app_length in Q; cbn in Q; lia).
  assert (∀ i, diff_dir (layers_root dr) i ≠ p') as Nu.
  { intros i. unfold p', mp, mount_dir, mounts_root, diff_dir, layer_dir, layers_root. rewrite <-!(app_assoc (dr ++ _)). apply app_cons_ne. done. }
  change (expand x) with (bind (mount_mount (ws_mount x)) (λ _, link_up x)) in H.
  assert (∀ r1 w1, mount_mount (ws_mount x) o w = (r1, w1) → w_ids w1 = w_ids w ∧ ∃ l, w_owned w1 = l ++ w_owned w ∧ Forall (for_new (w_ids w) (ws_path x) mp) l ∧
    (r1 = Ok tt → ∃ m b, w_mounts w1 = m :: w_mounts w ∧ mn_at m = mp ∧ l = [Owned mp (Some (FDir b)) (Some m) (w_ids w)])) as Mm.
  { intros r1 w1 E. rewrite Em in E.
    pose proof (mount_any dr mid id ch p' w P G ND NC N0 Nu W Nm Nw Du o w _ w1 eq_refl eq_refl ltac:(done) E) as (I1 & _ & Q).
    unfold mount_mount, stack_mount in E. cbn [mv_opts oo_path oo_work oo_lowers oo_upper] in E. fold mp in E.
    assert (∀ v, w_ids v = w_ids w ∧ w_owned v = w_owned w ∧ failed r1 → w_ids v = w_ids w ∧ ∃ l, w_owned v = l ++ w_owned w ∧ Forall (for_new (w_ids w) (ws_path x) mp) l ∧
      (r1 = Ok tt → ∃ m b, w_mounts v = m :: w_mounts w ∧ mn_at m = mp ∧ l = [Owned mp (Some (FDir b)) (Some m) (w_ids w)])) as Fl.
    { intros v (E1 & E2 & Fr). split; [done|]. exists []. split; [done|]. split; [done|]. intros ->. by apply failed_not_ok in Fr. }
    apply mute_step in E as [?|([] & v1 & _ & A1 & O1 & E)]; [by apply Fl| |apply mute_ensure].
    apply mute_step in E as [(E1 & E2 & Fr)|([] & v2 & _ & A2 & O2 & E)]; [apply Fl; split_and!; [congruence..|done]| |apply mute_ensure].
    apply mute_step in E as [(E1 & E2 & Fr)|([] & v3 & _ & A3 & O3 & E)]; [apply Fl; split_and!; [congruence..|done]| |apply mute_mount].
    pose proof (chown_at _ _ _ _ _ E) as [Ew|(q & Rq & Ew)].
    - apply Fl. split; [subst w1; cbn [w_ids tick]; congruence|]. split; [subst w1; cbn [w_owned tick]; congruence|]. intros [] ->.
      apply chown_ok in E as (q & _ & E). rewrite Ew in E. apply (f_equal w_owned) in E. cbn [w_owned tick give add_owned] in E. apply (f_equal length) in E. cbn in E. lia.
    - pose proof (ei_mp _ _ _ _ _ _ _ I1) as Dm. change (mount_dir dr mid ++ [B "merged"]) with mp in Dm.
      assert (w_fs w1 = w_fs v3) as Ef by (by rewrite Ew). assert (fget (w_fs v3) mp = Some (FDir false)) as Dm3.
      { rewrite <-Ef. destruct Dm as [Dm|Dm]; [|done]. rewrite Nm in Dm. rewrite <-Ef in Rq. unfold real_path in Rq. cbn [real] in Rq. by rewrite Dm in Rq. }
      assert (q = mp) as -> by (unfold real_path in Rq; cbn [real] in Rq; rewrite Dm3 in Rq; congruence).
      split; [subst w1; cbn [w_ids give add_owned tick]; congruence|].
      eexists [_]. split; [rewrite Ew; cbn [w_owned give add_owned tick app]; rewrite O3, O2, O1; reflexivity|].
      cbn [w_fs w_mounts tick w_ids]. rewrite Dm3. split; [apply Forall_singleton; split; [cbn [ow_ids w_ids tick]; congruence|by right]|].
      intros ->. destruct (Q eq_refl) as (m & Em1 & Ea & _). exists m, false. split; [done|]. split; [done|]. f_equal. f_equal; [|congruence].
      assert (w_mounts v3 = w_mounts w1) as -> by (by rewrite Ew). rewrite Em1. by apply mount_at_cons. }
  apply bind_any in H as [([] & w1 & E & H)|(r1 & E & Fr1 & Fr)].
  - destruct (Mm _ _ E) as (I1 & l & O1 & F1 & Q1). destruct (Q1 eq_refl) as (m & b & Hm & Ha & ->).
    pose proof (link_gives _ _ _ _ _ H) as (I2 & l2 & O2 & F2 & Q2). rewrite I1 in *.
    assert (mv_path (ws_mount x) = mp) as Emp by (by rewrite Em). rewrite Emp in *. split; [done|]. exists (l2 ++ [Owned mp (Some (FDir b)) (Some m) (w_ids w)]).
    split; [rewrite O2, O1; by rewrite <-app_assoc|]. split; [by apply Forall_app|]. intros Hr. destruct (Q2 Hr) as (om & ->). exists m, om, b. split; [|done].
    pose proof (keeps_run _ _ _ _ _ _ (link_keeps x (w_mounts w1) (w_fs w1)) ltac:(done) H) as [Ew _]. by rewrite Ew.
  - destruct (Mm _ _ E) as (I1 & l & O1 & F1 & Q1). split; [done|]. exists l. split; [done|]. split; [done|]. intros ->. by apply failed_not_ok in Fr.
Qed.

(** ** Operation, Expand and what follows *)
Definition given_new (dr : path) (w : world) (p : path) (e : owned) : Prop :=
  ∃ mid, fget (w_fs w) (mount_dir dr mid) = None ∧ for_new (w_ids w) p (merged_dir dr mid) e.
(** [Q]: when it is still there in the end *)
Definition gives (Q : Prop) (dr : path) (w : world) (p : path) (r : res unit) (w' : world) : Prop :=
  w_ids w' = w_ids w ∧ ∃ l, w_owned w' = l ++ w_owned w ∧ Forall (given_new dr w p) l ∧
  (r = Ok tt → ∃ mid m om b, fget (w_fs w) (mount_dir dr mid) = None ∧ mn_at m = merged_dir dr mid ∧
     l = [Owned p (Some (FLink (path_str (merged_dir dr mid)))) om (w_ids w); Owned (merged_dir dr mid) (Some (FDir b)) (Some m) (w_ids w)] ∧
     (Q → fget (w_fs w') p = Some (FLink (path_str (merged_dir dr mid))) ∧ mount_at (w_mounts w') (merged_dir dr mid) = Some m)).
Lemma gives_none Q dr w p r w' : w_ids w' = w_ids w → w_owned w' = w_owned w → failed r → gives Q dr w p r w'.
Proof. intros E1 E2 Fr. split; [done|]. exists []. split; [done|]. split; [done|]. intros ->. by apply failed_not_ok in Fr. Qed.
Lemma gives_before Q dr w w1 p r w' : w_fs w1 = w_fs w → w_ids w1 = w_ids w → w_owned w1 = w_owned w → gives Q dr w1 p r w' → gives Q dr w p r w'.
Proof. intros E1 E2 E3. unfold gives, given_new. by rewrite E1, E2, E3. Qed.
Lemma gives_then (Q : Prop) dr w p r1 w1 r w' : gives True dr w p r1 w1 → w_ids w' = w_ids w1 → w_owned w' = w_owned w1 → (r = Ok tt → r1 = Ok tt) →
  (Q → r = Ok tt → ∀ mid, fget (w_fs w) (mount_dir dr mid) = None → fget (w_fs w1) p = Some (FLink (path_str (merged_dir dr mid))) →
     fget (w_fs w') p = fget (w_fs w1) p ∧ mount_at (w_mounts w') (merged_dir dr mid) = mount_at (w_mounts w1) (merged_dir dr mid)) → gives Q dr w p r w'.
Proof.
  intros (I1 & l & O1 & F1 & Ql) E1 E2 Hr Hk. split; [congruence|]. exists l. split; [congruence|]. split; [done|]. intros Er.
  destruct (Ql (Hr Er)) as (mid & m & om & b & N & Ha & El & Sh). destruct (Sh I) as [S1 S2]. exists mid, m, om, b. do 3 (split; [done|]). intros q.
  destruct (Hk q Er mid N S1) as [-> ->]. done.
Qed.
Lemma stack_gives dr w w1 y mid id ch o r w' : plain_path dr → good_path dr → ch ≠ [] → outside dr (ws_path y) →
  w_ids w1 = w_ids w → w_owned w1 = w_owned w → fget (w_fs w) (mount_dir dr mid) = None →
  ws_mount y = stack_mount (layers_root dr) (mount_dir dr mid) mid id ch → fs_wf (w_fs w1) →
  fget (w_fs w1) (merged_dir dr mid) = None → fget (w_fs w1) (work_dir dr mid) = None → is_dir_at (w_fs w1) (diff_dir (layers_root dr) id) = true →
  expand y o w1 = (r, w') → gives True dr w (ws_path y) r w'.
Proof.
  intros P G NC Ho E1 E2 N Em W Nm Nw Du H. destruct (expand_gives _ _ _ _ _ _ _ _ _ P G NC Em Ho W Nm Nw Du H) as (I & l & O & Fo & Q). rewrite E1, E2 in *.
  split; [done|]. exists l. split; [done|]. split; [eapply List.Forall_impl; [|exact Fo]; intros e He; by exists mid|].
  intros Hr. destruct (Q Hr) as (m & om & b & Hm & Ha & ->). exists mid, m, om, b. do 3 (split; [done|]). intros _.
  destruct (expand_full _ _ _ _ _ _ _ _ _ P G NC Em Ho W Nm Nw Du H) as (_ & _ & Q'). destruct (Q' Hr) as (_ & _ & _ & _ & _ & El & _). split; [done|]. rewrite Hm. by apply mount_at_cons.
Qed.
Lemma body_gives (Q : Prop) dr x op o w r w' a hid (k : ws → M unit) : plain_path dr → good_path dr → fair o → machine dr (w_fs w) (w_mounts w) → live dr w x a hid →
  (∃ d m, op = OCommit d m) ∨ (∃ k, op = OCheckout k) ∨ (∃ p, op = OClone p) →
  outside dr (match op with OClone p => p | _ => ws_path x end) → (∀ y, mute (k y)) →
  (∀ y w2, Q → r = Ok tt → machine dr (w_fs w2) (w_mounts w2) → (∀ i, is_dir_at (w_fs w) (merged_dir dr i) = true → is_dir_at (w_fs w2) (merged_dir dr i) = true) → k y o w2 = (Ok tt, w') → ∀ mid,
     fget (w_fs w) (mount_dir dr mid) = None →
     fget (w_fs w') (match op with OClone p => p | _ => ws_path x end) = fget (w_fs w2) (match op with OClone p => p | _ => ws_path x end) ∧
     mount_at (w_mounts w') (merged_dir dr mid) = mount_at (w_mounts w2) (merged_dir dr mid)) →
  (y <- run_op dr x op ;; expand y ;;; k y) o w = (r, w') → gives Q dr w (match op with OClone p => p | _ => ws_path x end) r w'.
Proof.
  intros P G F Mc Lv Hop Ho Hk Kp H. pose proof Lv as [W [R Gt] LP S D].
  apply mute_step in H as [(E1 & E2 & Fr)|(y & w1 & E & I1 & O1 & H)]; [by apply gives_none| |by apply mute_op].
  destruct (op_body _ _ _ _ _ _ _ _ _ F Mc Lv E) as ([O U] & _ & T). pose proof E as E'. apply (op_mount _ _ _ _ _ _ _ a hid) in E' as (id' & a'' & Ns & Ep & _ & _ & _); [|done..].
  apply (op_makes _ _ _ _ _ _ _ a hid) in E as (mid & id & ch & a' & Ma); [|done..].
  pose proof Ma as [A1 A2 A3 (base & Ab & Ac) A5 A6 A7 A8 A9 A10 A11 A12 A13]. rewrite <-A7 in Ho, Kp |- *.
  assert (∀ r1 w2, expand y o w1 = (r1, w2) → gives True dr w (ws_path y) r1 w2) as Ex.
  { intros r1 w2 E. eapply (stack_gives dr w w1 y mid id ch); try done; [intros ->; by apply chain_not_nil in Ac|by apply A5|by eapply touches_merged|by eapply touches_merged|].
    apply (live_diff dr w1 y a'), A5. }
  apply bind_any in H as [([] & w2 & E & H)|(r1 & E & Fr1 & Fr)].
  - pose proof H as H'. apply Hk in H' as [E1 E2]. eapply gives_then; [exact (Ex _ _ E)|done..|]. intros q Er mid' N _. subst r. apply (Kp y w2); try done.
    + by destruct (expand_after _ _ _ _ _ _ _ _ P G Mc O U Ns Ho E) as ([? _ _] & _).
    + by destruct (made_settles _ _ _ _ _ _ _ _ _ _ _ _ _ _ P G Ho W S Ma E) as (_ & _ & Hd & _).
  - eapply gives_then; [exact (Ex _ _ E)|done..| |]; intros; subst r; by apply failed_not_ok in Fr.
Qed.
(** The old mount stands *)
Lemma remove_keeps dr x old o w w2 w' p mid : machine dr (w_fs w) (w_mounts w) → machine dr (w_fs w2) (w_mounts w2) → ws_mount x = mounted_mount old (mount_dir dr old) → outside dr p →
  is_dir_at (w_fs w) (merged_dir dr old) = true → is_dir_at (w_fs w2) (merged_dir dr old) = true → fget (w_fs w) (mount_dir dr mid) = None →
  remove_mount dr x o w2 = (Ok tt, w') →
  fget (w_fs w') p = fget (w_fs w2) p ∧ mount_at (w_mounts w') (merged_dir dr mid) = mount_at (w_mounts w2) (merged_dir dr mid).
Proof.
  intros Mc Mc2 Ex O Do Do2 N H. destruct (remove_mount_cases _ _ _ _ _ _ _ Mc2 Ex H) as (Hm & Hq & _ & Hr). destruct (Hr eq_refl) as (Hb & _). clear Hr. split.
  - apply Hq.
    + apply not_true_is_false. intros (k & E)%mount_dir_prefix. rewrite <-app_assoc in E. by apply (outside_ne _ _ _ O) in E.
    + intros Q. assert (vital dr (ws_file dr old)) as V by (right; left; by eexists). rewrite Q in O. by apply (vital_outside _ _ _ V O).
    + by apply none_below.
  - assert (old ≠ mid) as Ne.
    { intros ->. apply is_dir_at_Some in Do as [b Do]. apply (mc_wf _ _ _ Mc) in Do. unfold is_dir_at in Do. by rewrite N in Do. }
    assert (merged_dir dr mid ≠ merged_dir dr old) as Nd by (intros Q; apply mount_dir_inj in Q; congruence).
    destruct Hm as [->|(q & Rq & ->)]; [done|]. rewrite (real_dir _ _ Do2) in Rq. injection Rq as <-. by rewrite mount_at_drop.
Qed.
Lemma cmd_gives dr c o w r w' : plain_path dr → good_path dr → fair o → machine dr (w_fs w) (w_mounts w) → writes_path c →
  outside dr (abs_of w (cmd_target c)) → run_cmd dr c o w = (r, w') → gives (in_place dr w c) dr w (abs_of w (cmd_target c)) r w'.
Proof.
  intros P G F Mc Hc Ho H. destruct c as [args branch|source target|msg|key|opts args|opts args|args]; try done; cbn [run_cmd] in H.
  - unfold cmd_init in H.
    apply mute_step in H as [(E1 & E2 & Fr)|(p & w1 & E & _ & _ & H)]; [by apply gives_none| |mute]. pose proof (abs_ok _ _ _ _ _ E) as Ep. apply quiet_abs in E as (k1 & ->).
    apply mute_step in H as [(E1 & E2 & Fr)|(b & w1 & E & _ & _ & H)]; [by apply gives_none| |mute]. apply quiet_is_exists in E as (k2 & ->).
    assert (quiet (if b : bool then d <- fs_is_empty_dir p;; ret (negb d) else ret false)) as Q by (quiet; apply quiet_is_empty_dir).
    apply mute_step in H as [(E1 & E2 & Fr)|(b' & w1 & E & _ & _ & H)]; [by apply gives_none| |by apply mute_quiet]. apply Q in E as (k3 & ->). rewrite !upd_upd in H. cbn [w_fs w_mounts w_tree upd] in H.
    destruct b'; [injection H as <- <-; by apply gives_none|]. set (w0 := upd w (w_fs w) (w_mounts w) (w_tree w) k3) in *. apply (gives_before _ dr w w0); [done..|].
    apply mute_step in H as [(E1 & E2 & Fr)|(x & w1 & E & I1 & O1 & H)]; [by apply gives_none| |apply mute_create].
    pose proof (create_workspace_any _ _ _ _ _ _ _ F (mc_wf _ _ _ Mc : fs_wf (w_fs w0)) E) as [To _].
    apply (create_ready _ _ _ _ _ _ _ F (mc_wf _ _ _ Mc : fs_wf (w_fs w0))) in E as (rid' & id' & _ & Rd & _ & Hp & Em & N1 & N2 & _).
    rewrite Ep in Hp. assert (ws_path x = abs_of w (cmd_target (CInit args branch))) as Hp' by exact Hp. rewrite <-Hp' in *.
    change (gives True dr w0 (ws_path x) r w'). eapply (stack_gives dr w0 w1 x _ id' [rid']); try done; [apply Rd|eapply (touches_merged dr _ w0); [..|exact To|exact N1]; [done|apply Mc]..|].
    exact (live_diff _ _ _ _ _ (rd_live _ _ _ _ _ Rd)).
  - unfold cmd_clone in H.
    apply mute_step in H as [(E1 & E2 & Fr)|(p & w1 & E & _ & _ & H)]; [by apply gives_none| |mute]. pose proof (abs_ok _ _ _ _ _ E) as Ep. apply quiet_abs in E as (k & ->).
    apply mute_step in H as [(E1 & E2 & Fr)|(x & w1 & E & _ & _ & H)]; [by apply gives_none| |apply mute_get].
    pose proof (λ Q, get_workspace_any _ _ _ _ _ _ G F Q E) as Q. destruct (Q Mc) as (a & hid & Lv & Fa). clear Q.
    apply reader_get_workspace in E as (t & k1 & ->). rewrite !upd_upd in *. cbn [w_fs w_mounts upd] in *.
    apply (gives_before _ dr w (upd w (w_fs w) (w_mounts w) t k1)); [done..|]. cbn [cmd_target] in *. rewrite <-Ep in *.
    apply (body_gives _ dr x (OClone p) o _ r w' (san_tree a) hid (λ _, ret tt)); try done; [by eauto|intros _; mute|by intros y w2 _ _ _ _ [= <-]|].
    cbn [run_op]. unfold bind in *. destruct (clone_ws dr x p o _) as [[y| | | |] w2]; try done. destruct (expand y o w2) as [[[]| | | |] w3]; done.
  - unfold cmd_commit in H.
    apply mute_step in H as [(E1 & E2 & Fr)|(x & w1 & E & _ & _ & H)]; [by apply gives_none| |apply mute_get].
    pose proof (λ Q, get_workspace_any _ _ _ _ _ _ G F Q E) as Q. destruct (Q Mc) as (a & hid & Lv & Fa). clear Q.
    apply reader_get_workspace in E as (t & k1 & ->). rewrite bind_next in H. pose proof (fa_path _ _ _ _ _ Fa) as Ep. cbn [cmd_target] in *. rewrite <-Ep in *.
    apply (gives_before _ dr w (tick (upd w (w_fs w) (w_mounts w) t k1))); [done..|].
    apply (body_gives _ dr x (OCommit (Some (fmt_rfc3339 (ch_time (o k1)))) msg) o _ r w' (san_tree a) hid (λ _, remove_mount dr x)); try done; [|by eauto|intros _; apply mute_remove_mount|].
    { destruct Lv as [A1 A2 A3 A4 A5]; by constructor. }
    intros y w2 (old & Hl & Do) _ Mc2 Hd Hr mid N. pose proof (fa_mount _ _ _ _ _ Fa) as Ex. cbn [cmd_target] in Hl. rewrite <-Ep in Hl. rewrite (fa_link _ _ _ _ _ Fa old Ho Hl) in Ex.
    by eapply (remove_keeps dr x old o w w2); [..|exact Hr]; eauto.
  - unfold cmd_checkout in H.
    apply mute_step in H as [(E1 & E2 & Fr)|(x & w1 & E & _ & _ & H)]; [by apply gives_none| |apply mute_get].
    pose proof (λ Q, get_workspace_any _ _ _ _ _ _ G F Q E) as Q. destruct (Q Mc) as (a & hid & Lv & Fa). clear Q.
    apply reader_get_workspace in E as (t & k1 & ->). pose proof (fa_path _ _ _ _ _ Fa) as Ep. cbn [cmd_target] in *. rewrite <-Ep in *.
    apply (gives_before _ dr w (upd w (w_fs w) (w_mounts w) t k1)); [done..|].
    apply (body_gives _ dr x (OCheckout key) o _ r w' (san_tree a) hid (λ _, remove_mount dr x)); try done; [by eauto|intros _; apply mute_remove_mount|].
    intros y w2 (old & Hl & Do) _ Mc2 Hd Hr mid N. pose proof (fa_mount _ _ _ _ _ Fa) as Ex. cbn [cmd_target] in Hl. rewrite <-Ep in Hl. rewrite (fa_link _ _ _ _ _ Fa old Ho Hl) in Ex.
    by eapply (remove_keeps dr x old o w w2); [..|exact Hr]; eauto.
Qed.

(** ** To whom *)
Definition faithful {A} (m : M A) : Prop := ∀ o w r w', m o w = (r, w') →
  w_ids w' = w_ids w ∧ ∃ l, w_owned w' = l ++ w_owned w ∧ Forall (λ e, ow_ids e = w_ids w) l.
Lemma faithful_mute {A} (m : M A) : mute m → faithful m.
Proof. intros Q o w r w' H. apply Q in H as [E1 E2]. split; [done|]. by exists []. Qed.
Lemma faithful_bind {A C} (m : M A) (f : A → M C) : faithful m → (∀ x, faithful (f x)) → faithful (bind m f).
Proof.
  intros Hm Hf o w r w' [(x & w1 & E & H)|(r1 & E & _)]%bind_any; [|by eapply Hm].
  apply Hm in E as (E1 & l1 & E2 & E3). apply Hf in H as (H1 & l2 & H2 & H3). rewrite E1 in *. split; [congruence|]. exists (l2 ++ l1).
  split; [rewrite H2, E2; by rewrite <-app_assoc|]. by apply Forall_app.
Qed.
Lemma faithful_chown p : faithful (os_chown p).
Proof. intros o w r w' H. apply chown_at in H as [-> |(q & _ & ->)]; (split; [done|]); [by exists []|]. eexists [_]. split; [reflexivity|]. by apply Forall_singleton. Qed.
Lemma faithful_lchown p : faithful (os_lchown p).
Proof. intros o w r w' H. apply lchown_at in H as [-> | ->]; (split; [done|]); [by exists []|]. eexists [_]. split; [reflexivity|]. by apply Forall_singleton. Qed.
Lemma faithful_expand x : faithful (expand x).
Proof.
  unfold expand, mount_mount, create_symlink. apply faithful_bind.
  - destruct (mv_opts (ws_mount x)); [|apply faithful_mute; mute].
    do 3 (apply faithful_bind; [apply faithful_mute; first [apply mute_ensure|apply mute_mount]|intros _]). apply faithful_chown.
  - intros _. apply faithful_bind; [apply faithful_mute; mute|intros pwd]. apply faithful_bind; [apply faithful_mute; mute|intros _]. apply faithful_bind; [apply faithful_mute; mute|intros b].
    apply faithful_bind; [apply faithful_mute; destruct b; mute|intros _]. apply faithful_bind; [|intros _; apply faithful_mute; mute].
    apply faithful_bind; [apply faithful_mute; mute|intros _]. apply faithful_lchown.
Qed.
Lemma faithful_cmd dr c : faithful (run_cmd dr c).
Proof.
  destruct c as [args branch|source target|msg|key|opts args|opts args|args]; try (by apply faithful_mute, mute_cmd; intros []); cbn [run_cmd].
  - unfold cmd_init. do 3 (apply faithful_bind; [apply faithful_mute; mute|intros ?]). case_match; [apply faithful_mute; mute|].
    apply faithful_bind; [apply faithful_mute, mute_create|intros y]. apply faithful_expand.
  - unfold cmd_clone. apply faithful_bind; [apply faithful_mute; mute|intros p]. apply faithful_bind; [apply faithful_mute, mute_get|intros x].
    apply faithful_bind; [apply faithful_mute, mute_clone|intros y]. apply faithful_expand.
  - unfold cmd_commit. apply faithful_bind; [apply faithful_mute, mute_get|intros x]. apply faithful_bind; [apply faithful_mute; mute|intros d].
    apply faithful_bind; [apply faithful_mute, mute_commit|intros y]. apply faithful_bind; [apply faithful_expand|intros _]. apply faithful_mute, mute_remove_mount.
  - unfold cmd_checkout. apply faithful_bind; [apply faithful_mute, mute_get|intros x].
    apply faithful_bind; [apply faithful_mute, mute_checkout|intros y]. apply faithful_bind; [apply faithful_expand|intros _]. apply faithful_mute, mute_remove_mount.
Qed.
Lemma mute_mkdir_all p : mute (os_mkdir_all p).
Proof. apply mute_sys; [intros _ w|intros _ n w]; repeat case_match; done. Qed.
Lemma mute_manager d : mute (inject_manager d).
Proof. unfold inject_manager, prepare, do_prepare, ensure_dir_mk. mute; apply mute_mkdir_all. Qed.
Lemma faithful_with chdir d c : faithful (with_manager chdir d (λ dr, run_cmd dr c)).
Proof.
  unfold with_manager. apply faithful_bind; [apply faithful_mute|intros _].
  - unfold change_dir. mute.
  - apply faithful_bind; [apply faithful_mute, mute_manager|intros dr]. apply faithful_cmd.
Qed.
