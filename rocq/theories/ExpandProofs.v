(** * ExpandProofs: what is mounted and where the path leads after Expand, step by step *)
From Verif Require Import Base Uid SpecUid UidProofs Tree SpecTree TreeRefine TreeObs Dump DumpProofs Json JsonProofs Save SaveProofs Branch BranchProofs Date Ws SpecWs WsProofs
  Fs Overlay Os Layers Mounts Space Manager Commands FsProofs OsProofs LayerProofs MountProofs SpaceProofs ManagerProofs SpecWorld SpecOps SavedProofs FaultProofs ReadyProofs OpProofs CalmProofs
  SpecMachine SpecCmds MachineProofs OpenProofs CmdProofs.
From Coq Require Import Lia.
From stdpp Require Import prelude gmap.

Section mounting.
  Context (dr : path) (mid id : uid) (ch : list uid) (p : path) (w0 : world).
  Context (P : plain_path dr) (G : good_path dr) (ND : dr ≠ []) (NC : ch ≠ []) (N0 : ∀ n, mount_dir dr mid ++ [n] ≠ p) (Nu : ∀ i, diff_dir (layers_root dr) i ≠ p).
  Context (W : fs_wf (w_fs w0)) (Nm : fget (w_fs w0) (merged_dir dr mid) = None) (Nw : fget (w_fs w0) (work_dir dr mid) = None).
  Context (Du : is_dir_at (w_fs w0) (diff_dir (layers_root dr) id) = true).
  Notation mp := (merged_dir dr mid).
  Notation wk := (work_dir dr mid).
  Notation up := (diff_dir (layers_root dr) id).
  Notation inv := (exp_inv (w_fs w0) w0 mp wk p).
  Local Lemma ne1 : mp ≠ wk. Proof. apply merged_work_ne. Qed.
  Local Lemma ne2 : mp ≠ p. Proof. apply N0. Qed.
  Local Lemma ne3 : wk ≠ p. Proof. apply N0. Qed.
  Local Lemma vit : vital dr up. Proof. right. right. right. by exists id. Qed.
  Local Lemma shapes : plain_path up ∧ good_path up ∧ plain_path wk ∧ good_path wk ∧ Forall plain_path (diff_dir (layers_root dr) <$> ch) ∧ Forall good_path (diff_dir (layers_root dr) <$> ch).
  Proof using P G.
    split_and!.
    - by apply plain_diff.
    - by apply good_diff.
    - unfold mount_dir, mounts_root. repeat (apply Forall_app; split); try done; repeat constructor; try done. apply plain_uid.
    - unfold mount_dir, mounts_root. rewrite <-(app_assoc dr [B "mounts"] [uid_b32 mid]). apply good_mount_dir; [done|apply good_work].
    - apply Forall_fmap, Forall_true. intros i. by apply plain_diff.
    - apply Forall_fmap, Forall_true. intros i. by apply good_diff.
  Qed.
  Local Lemma dir_same w Ms i : inv Ms w → is_dir_at (w_fs w) (diff_dir (layers_root dr) i) = is_dir_at (w_fs w0) (diff_dir (layers_root dr) i).
  Proof using Nu.
    intros [A1 A2 A3 A4 A5 A6 A7 A8]. assert (vital dr (diff_dir (layers_root dr) i)) as V by (right; right; right; by exists i).
    unfold is_dir_at. rewrite A2; [done|..]; [by apply vital_below_mount..|apply Nu].
  Qed.
  Lemma mount_sys_ok o w w' : inv (λ l, l = w_mounts w0) w → sys_mount mp (overlay_data (diff_dir (layers_root dr) <$> ch) up wk) o w = (Ok tt, w') →
    ∃ m, w' = set_mounts (tick w) (m :: w_mounts w0) ∧ mn_at m = mp ∧ (mn_upper m = None ∨ mn_upper m = Some up) ∧
      (fits dr (length ch) → Forall (λ i, is_dir_at (w_fs w0) (diff_dir (layers_root dr) i) = true) ch → m = stack_of dr mid id ch).
  Proof using All.
    intros I H. pose proof I as [A1 A2 A3 A4 A5 A6 A7 A8]. destruct shapes as (PU & GU & PW & GW & PL & GL).
    unfold sys_mount, sys_atomic in H. destruct (ch_fault _) as [|? ?|[|?]]; try done. cbn [w_fs tick] in H.
    destruct (real_path (w_fs w) mp) as [q|] eqn:Q; [|done]. destruct (is_dir_at (w_fs w) q) eqn:D; [|done].
    destruct (kernel_dirs _) as [d| | | |] eqn:K; try done. destruct (overlay_of _ _ _) as [m| | | |] eqn:Om; try done.
    assert (q = mp) as ->.
    { destruct A3 as [A3|A3]; [rewrite Nm in A3|].
      - unfold real_path in Q. cbn [real] in Q. by rewrite A3 in Q.
      - rewrite (real_not_link _ _ _ A3) in Q by done. congruence. }
    injection H as <-. exists m. cbn [w_mounts tick]. rewrite A6. split; [done|]. split; [by eapply overlay_of_at|].
    assert (is_dir_at (w_fs w) up = true) as DU by (by rewrite (dir_same w _ id I)).
    split. { eapply (mount_upper _ up wk (tick w)); try done. by destruct ch. }
    intros Fi DL. rewrite kernel_exact in K; [|done..|by destruct ch|].
    2:{ unfold mount_dir, mounts_root, layers_root. rewrite <-(app_assoc dr [B "mounts"] [uid_b32 mid]). cbn [app]. rewrite overlay_length by done. exact Fi. }
    assert (ODirs (path_str <$> (diff_dir (layers_root dr) <$> ch)) (Some (path_str up)) (Some (path_str wk)) = d) as <- by congruence. unfold overlay_of in Om. cbn [od_upper od_work od_lowers] in Om.
    rewrite (kern_dir_dir (tick w) _ GU DU) in Om.
    assert (is_dir_at (w_fs w) wk = true) as DW.
    { unfold is_dir_at. destruct A4 as [A4|A4]; rewrite A4; [|done]. exfalso. rewrite Nw in A4.
      assert (kern_dir (tick w) (path_str wk) = Err ENOENT) as Qk; [|by rewrite Qk in Om].
      unfold kern_dir. destruct (path_str wk) eqn:Ep; [by destruct (path_str_ne wk)|]. rewrite <-Ep, abs_path_str by done.
      unfold real_path. cbn [real w_fs tick]. by rewrite A4. }
    rewrite (kern_dir_dir (tick w) _ GW DW) in Om. destruct (_ || _); [done|].
    rewrite (kern_dirs_dirs (tick w)) in Om; [|done|].
    - destruct (_ || _); [done|]. by injection Om as <-.
    - apply Forall_fmap. eapply Forall_impl; [exact DL|]. intros i Hi. cbn. by rewrite (dir_same w _ i I).
  Qed.
  Lemma mount_any o w r w' : w_fs w = w_fs w0 → w_mounts w = w_mounts w0 → w_tree w = w_tree w0 ∧ w_pwd w = w_pwd w0 ∧ w_out w = w_out w0 →
    mount_mount (stack_mount (layers_root dr) (mount_dir dr mid) mid id ch) o w = (r, w') →
    inv (mounted_for (w_mounts w0) mp up) w' ∧ w_cwd w' = w_cwd w ∧
    (r = Ok tt → ∃ m, w_mounts w' = m :: w_mounts w0 ∧ mn_at m = mp ∧ (mn_upper m = None ∨ mn_upper m = Some up) ∧ is_dir_at (w_fs w') mp = true ∧
      (fits dr (length ch) → Forall (λ i, is_dir_at (w_fs w0) (diff_dir (layers_root dr) i) = true) ch → m = stack_of dr mid id ch)).
  Proof using All.
    intros E1 E2 E3 H. unfold mount_mount, stack_mount in H. cbn [mv_opts oo_path oo_work oo_lowers oo_upper] in H.
    assert (inv (λ l, l = w_mounts w0) w) as I0 by (constructor; rewrite ?E1; auto).
    assert (∀ v, inv (λ l, l = w_mounts w0) v → inv (mounted_for (w_mounts w0) mp up) v) as Wk.
    { intros v [A1 A2 A3 A4 A5 A6 A7 A8]. constructor; try done. by left. }
    assert (∀ q, keeps (λ v, w_cwd v = w_cwd w) (ensure_dir q)) as Kc.
    { intros q. unfold ensure_dir. apply keeps_bind; [apply is_dir_keeps; by intros v Hv|]. intros [|]; [apply keeps_ret|].
      apply keeps_bind; [|intros [|e]; [apply keeps_ret|case_decide; [apply keeps_ret|apply keeps_fail]]].
      apply keeps_attempt. apply keeps_atomic; [by intros v Hv|]. intros _ v Hv. destruct (mkdir_in_cases (w_fs (tick v)) q) as [[f Ef]|[e Ef]]; by rewrite Ef. }
    apply bind_any in H as [([] & w1 & E & H)|(r1 & E & Fr1 & Fr)].
    2:{ split_and!; [exact (Wk _ (keeps_run _ _ _ _ _ _ (exp_ensure (w_fs w0) w0 mp wk p ne1 ne2 ne3 _ mp (or_introl eq_refl)) I0 E))|exact (keeps_run _ _ _ _ _ _ (Kc _) eq_refl E)|].
        intros ->. by apply failed_not_ok in Fr. }
    pose proof (keeps_run _ _ _ _ _ _ (exp_ensure (w_fs w0) w0 mp wk p ne1 ne2 ne3 _ mp (or_introl eq_refl)) I0 E) as I1. pose proof (keeps_run _ _ _ _ _ _ (Kc _) eq_refl E) as C1. clear E I0.
    apply bind_any in H as [([] & w2 & E & H)|(r1 & E & Fr1 & Fr)].
    2:{ split_and!; [exact (Wk _ (keeps_run _ _ _ _ _ _ (exp_ensure (w_fs w0) w0 mp wk p ne1 ne2 ne3 _ wk (or_intror eq_refl)) I1 E))|exact (keeps_run _ _ _ _ _ _ (Kc _) C1 E)|].
        intros ->. by apply failed_not_ok in Fr. }
    pose proof (keeps_run _ _ _ _ _ _ (exp_ensure (w_fs w0) w0 mp wk p ne1 ne2 ne3 _ wk (or_intror eq_refl)) I1 E) as I2. pose proof (keeps_run _ _ _ _ _ _ (Kc _) C1 E) as C2. clear E I1 C1.
    destruct shapes as (PU & GU & PW & GW & PL & GL).
    apply bind_any in H as [([] & w3 & E & H)|(r1 & E & Fr1 & Fr)].
    - destruct (mount_sys_ok o w2 w3 I2 E) as (m & -> & Hm1 & Hm2 & Hm3). pose proof (chown_any _ _ _ _ _ H) as Ew.
      assert (is_dir_at (w_fs w2) mp = true) as Dm.
      { unfold sys_mount, sys_atomic in E. destruct (ch_fault _) as [|? ?|[|?]]; try done. cbn [w_fs tick] in E.
        destruct (ei_mp _ _ _ _ _ _ _ I2) as [A3|A3]; [rewrite Nm in A3|by unfold is_dir_at; rewrite A3].
        assert (real_path (w_fs w2) mp = None) as Q by (unfold real_path; cbn [real]; by rewrite A3). by rewrite Q in E. }
      destruct Ew as [-> |[q ->]].
      + split; [|split; [done|]]; [|intros _; by exists m].
        destruct I2 as [A1 A2 A3 A4 A5 A6 A7 A8]. constructor; try done; right; [eauto|]. destruct A3 as [A3|A3]; [|done]. rewrite Nm in A3. unfold is_dir_at in Dm. by rewrite A3 in Dm.
      + split; [|split; [done|]]; [|intros _; by exists m].
        destruct I2 as [A1 A2 A3 A4 A5 A6 A7 A8]. constructor; try done; right; [eauto|]. destruct A3 as [A3|A3]; [|done]. rewrite Nm in A3. unfold is_dir_at in Dm. by rewrite A3 in Dm.
    - assert (inv (mounted_for (w_mounts w0) mp up) w') as I3.
      { assert (diff_dir (layers_root dr) <$> ch ≠ []) as NL by (by destruct ch).
        assert (up ≠ mp) as U1 by apply (vital_below_mount _ _ _ _ vit). assert (up ≠ wk) as U2 by apply (vital_below_mount _ _ _ _ vit).
        pose proof (exp_mount (w_fs w0) w0 mp wk p (diff_dir (layers_root dr) <$> ch) up (w_mounts w0) PL PU PW NL GU Du U1 U2 (Nu id) Nm) as Q. cbv zeta in Q.
        destruct (hoare_run _ _ _ _ _ _ _ _ Q I2 E) as [(x & _ & Q')|[_ Q']]; exact Q'. }
      split; [done|]. split; [|intros ->; by apply failed_not_ok in Fr].
      rewrite <-C2. unfold sys_mount, sys_atomic in E. destruct (ch_fault _) as [|? ?|[|?]]; try by injection E as _ <-.
      all: repeat case_match; simplify_eq; done.
  Qed.
End mounting.

(** The part of Expand after the mount: it touches only the path of the user. *)
Definition link_up (x : ws) : M unit :=
  pwd <- os_getwd ;;
  os_chdir [] ;;;
  e <- fs_is_exists (ws_path x) ;;
  (if e : bool then os_remove (ws_path x) else ret tt) ;;;
  create_symlink (ws_mount x) (ws_path x) ;;;
  os_chdir pwd.
Lemma link_keeps x ms fs : keeps (λ w, w_mounts w = ms ∧ ∀ q, q ≠ ws_path x → fget (w_fs w) q = fget fs q) (link_up x).
Proof.
  set (I := λ w, w_mounts w = ms ∧ _). assert (timeless I) as T by (by intros w Hw).
  apply keeps_bind; [by apply keeps_getwd|]. intros pwd.
  apply keeps_bind; [apply keeps_chdir; [done|]; by intros w q Hw|]. intros _.
  apply keeps_bind; [by apply exists_keeps|]. intros b.
  apply keeps_bind.
  - destruct b; [|apply keeps_ret]. apply keeps_atomic; [done|]. intros _ w [H1 H2]. destruct (remove_in_cases (tick w) (ws_path x)) as [[f Ef]|[e Ef]]; rewrite Ef; [|done].
    apply remove_in_ok in Ef as (_ & -> & _). split; [done|]. intros q Hq. cbn [snd w_fs set_fs tick]. rewrite fget_fdel_ne by congruence. auto.
  - intros _. apply keeps_bind; [|intros _; apply keeps_chdir; [done|]; by intros w q Hw].
    apply keeps_bind; [|intros _; apply keeps_lchown; [done|]; by intros w q Hw]. apply keeps_atomic; [done|]. intros _ w [H1 H2].
    destruct (fget _ _); [done|]. destruct (is_dir_at _ _); [|done]. split; [done|]. intros q Hq. cbn [snd w_fs set_fs tick]. rewrite fget_fset_ne by congruence. auto.
Qed.
Lemma link_ok x o w w' : link_up x o w = (Ok tt, w') → fget (w_fs w') (ws_path x) = Some (FLink (path_str (mv_path (ws_mount x)))).
Proof.
  unfold link_up. intros H. apply bind_ok in H as (pwd & w1 & _ & H). apply bind_ok in H as ([] & w2 & _ & H). apply bind_ok in H as (b & w3 & _ & H).
  apply bind_ok in H as ([] & w4 & _ & H). apply bind_ok in H as ([] & w5 & E & H). apply bind_ok in E as ([] & w6 & E1 & E2).
  apply symlink_ok in E1 as (_ & _ & ->). apply lchown_ok in E2 as [_ ->]. apply chdir_ok in H as (q & _ & _ & ->).
  cbn [w_fs set_cwd tick set_fs give add_owned]. by rewrite fget_fset_eq.
Qed.
Lemma expand_full dr x mid id ch o w r w' : plain_path dr → good_path dr → ch ≠ [] →
  ws_mount x = stack_mount (layers_root dr) (mount_dir dr mid) mid id ch → outside dr (ws_path x) → fs_wf (w_fs w) →
  fget (w_fs w) (merged_dir dr mid) = None → fget (w_fs w) (work_dir dr mid) = None → is_dir_at (w_fs w) (diff_dir (layers_root dr) id) = true →
  expand x o w = (r, w') →
  exp_inv (w_fs w) w (merged_dir dr mid) (work_dir dr mid) (ws_path x) (mounted_for (w_mounts w) (merged_dir dr mid) (diff_dir (layers_root dr) id)) w' ∧
  (fget (w_fs w') (ws_path x) = fget (w_fs w) (ws_path x) ∨
   ∃ m, w_mounts w' = m :: w_mounts w ∧ mn_at m = merged_dir dr mid ∧ is_dir_at (w_fs w') (merged_dir dr mid) = true) ∧
  (r = Ok tt → ∃ m, w_mounts w' = m :: w_mounts w ∧ mn_at m = merged_dir dr mid ∧ is_dir_at (w_fs w') (merged_dir dr mid) = true ∧
     (mn_upper m = None ∨ mn_upper m = Some (diff_dir (layers_root dr) id)) ∧
     fget (w_fs w') (ws_path x) = Some (FLink (path_str (merged_dir dr mid))) ∧
     (fits dr (length ch) → Forall (λ i, is_dir_at (w_fs w) (diff_dir (layers_root dr) i) = true) ch → m = stack_of dr mid id ch)).
Proof.
  intros P G NC Em O W Nm Nw Du H. pose proof (expand_inv _ _ _ _ _ _ _ _ _ P G NC Em O W Nm Du H) as I. split; [done|].
  assert (dr ≠ []) as ND by (intros ->; by destruct O).
  set (mp := merged_dir dr mid) in *. set (p' := mp ++ [B "x"]).
  assert (∀ n, mount_dir dr mid ++ [n] ≠ p') as N0 by (intros n Q; apply (f_equal length) in Q; unfold p', mp in Q; rewrite !app_length in Q; cbn in Q; lia).
  assert (∀ i, diff_dir (layers_root dr) i ≠ p') as Nu.
  { intros i. unfold p', mp, mount_dir, mounts_root, diff_dir, layer_dir, layers_root. rewrite <-!(app_assoc (dr ++ _)). apply app_cons_ne. done. }
  assert (ws_path x ≠ p' ∧ ws_path x ≠ mp ∧ ws_path x ≠ work_dir dr mid) as (X1 & X2 & X3).
  { unfold p', mp, mount_dir, mounts_root. rewrite <-!(app_assoc dr). split_and!; by apply outside_ne. }
  change (expand x) with (bind (mount_mount (ws_mount x)) (λ _, link_up x)) in H. rewrite Em in H.
  apply bind_any in H as [([] & w1 & E & H)|(r1 & E & Fr1 & Fr)].
  - pose proof (mount_any dr mid id ch p' w P G ND NC N0 Nu W Nm Nw Du o w _ w1 eq_refl eq_refl ltac:(done) E) as (I1 & _ & Q). destruct (Q eq_refl) as (m & Em1 & Ea & Eu & Dm & Ex). clear Q.
    pose proof (keeps_run _ _ _ _ _ _ (link_keeps x (w_mounts w1) (w_fs w1)) ltac:(done) H) as [Ew Es]. rewrite Em1 in Ew.
    assert (is_dir_at (w_fs w') mp = true) as Dm' by (unfold is_dir_at; by rewrite Es by congruence).
    split; [right; eauto|]. intros ->. exists m. do 4 (split; [done|]). split; [|done]. rewrite (link_ok _ _ _ _ H), Em. done.
  - pose proof (mount_any dr mid id ch p' w P G ND NC N0 Nu W Nm Nw Du o w _ w' eq_refl eq_refl ltac:(done) E) as (I1 & _ & _).
    split; [left; by apply (ei_same _ _ _ _ _ _ _ I1)|]. intros ->. by apply failed_not_ok in Fr.
Qed.

(** ** A workspace that has just been set up *)
Record settled (dr : path) (w : world) (y : ws) (mid id : uid) (ch : list uid) (a : atree) (m : mount) : Prop := {
  se_mount : ws_mount y = stack_mount (layers_root dr) (mount_dir dr mid) mid id ch;
  se_at : mount_at (w_mounts w) (merged_dir dr mid) = Some m;
  se_mn : mn_at m = merged_dir dr mid;
  se_exact : fits dr (length ch) → m = stack_of dr mid id ch;
  se_link : fget (w_fs w) (ws_path y) = Some (FLink (path_str (merged_dir dr mid)));
  se_empty : ∀ k, k ≠ [] → fget (w_fs w) (diff_dir (layers_root dr) id ++ k) = None;
  se_info : fget (w_fs w) (ws_file dr mid) = Some (FFile (marshal_wsinfo (ws_info y id)));
  se_tree : holds (w_fs w) (ws_space y) (san_tree a);
  se_space : space_ok dr (ws_space y);
  se_dir : is_dir_at (w_fs w) (merged_dir dr mid) = true;
  se_upper : mn_upper m = None ∨ mn_upper m = Some (diff_dir (layers_root dr) id) }.
Lemma covered_empty (L : layer) k : (∀ k, k ≠ [] → L k = None) → covered L k = false.
Proof.
  intros H. unfold covered. apply not_true_is_false. rewrite existsb_exists. intros (n & Hn & Hh). apply in_seq in Hn.
  rewrite H in Hh; [done|]. destruct k; [cbn in Hn; lia|]. destruct n; [lia|done].
Qed.
(** It shows what is stored for the layers below. *)
Lemma settled_shows dr w y mid id ch a m : settled dr w y mid id ch a m → fits dr (length ch) → visible w (ws_path y) (content dr (w_fs w) ch).
Proof.
  intros [A1 A2 A3 A4 A5 A6 A7 A8] Fi. specialize (A4 Fi). exists m. rewrite A3. split; [done|]. split; [done|].
  intros k Hk. rewrite A4. unfold mount_view, stack_of, content. cbn [mn_upper mn_lowers option_list app fmap list_fmap view].
  change (view (layer_at (w_fs w) (diff_dir (layers_root dr) id) :: (layer_at (w_fs w) <$> (diff_dir (layers_root dr) <$> ch))) k =
    view (layer_at (w_fs w) <$> (diff_dir (layers_root dr) <$> ch)) k). cbn [view].
  assert (layer_at (w_fs w) (diff_dir (layers_root dr) id) k = None) as -> by (by apply A6). by rewrite covered_empty.
Qed.
Lemma mount_at_cons m ms p : mn_at m = p → mount_at (m :: ms) p = Some m.
Proof. intros E. unfold mount_at. rewrite filter_cons, decide_True by done. done. Qed.
Lemma mount_at_drop ms p q : p ≠ q → mount_at (drop_mount ms q) p = mount_at ms p.
Proof.
  intros N. unfold mount_at. induction ms as [|m ms IH]; [done|]. cbn [drop_mount]. case_decide as D.
  - by rewrite filter_cons, decide_False by congruence.
  - rewrite !filter_cons. by case_decide.
Qed.
Lemma expand_settles dr w y mid id ch a o w' : plain_path dr → good_path dr → ch ≠ [] → outside dr (ws_path y) →
  ws_mount y = stack_mount (layers_root dr) (mount_dir dr mid) mid id ch → ready dr w y a id →
  fget (w_fs w) (merged_dir dr mid) = None → fget (w_fs w) (work_dir dr mid) = None → (∀ k, k ≠ [] → fget (w_fs w) (diff_dir (layers_root dr) id ++ k) = None) →
  Forall (λ i, is_dir_at (w_fs w) (diff_dir (layers_root dr) i) = true) ch → expand y o w = (Ok tt, w') →
  (∃ m, settled dr w' y mid id ch a m ∧ w_mounts w' = m :: w_mounts w) ∧
  ∀ q, q ≠ merged_dir dr mid → q ≠ work_dir dr mid → q ≠ ws_path y → fget (w_fs w') q = fget (w_fs w) q.
Proof.
  intros P G NC O Em Rd Nm Nw He Hl H. pose proof Rd as [Lv I M]. pose proof Lv as [W [R Gt] LP S D].
  pose proof (live_diff _ _ _ _ _ Lv) as Du.
  destruct (expand_full _ _ _ _ _ _ _ _ _ P G NC Em O W Nm Nw Du H) as (Ei & _ & Q). destruct (Q eq_refl) as (m & E1 & E2 & E3 & E4 & E5 & E6). clear Q.
  pose proof (ei_same _ _ _ _ _ _ _ Ei) as Hs. split; [|done]. exists m. split; [|done].
  assert (mv_id (ws_mount y) = mid) as Emid by (by rewrite Em). rewrite Emid in *.
  constructor; try done.
  - rewrite E1. by apply mount_at_cons.
  - intros Fi. by apply E6.
  - intros k Hk. rewrite Hs; [by apply He|..].
    + apply (in_layer_below dr id). apply is_prefix_app.
    + apply (in_layer_below dr id). apply is_prefix_app.
    + eapply in_layer_outside; [apply is_prefix_app|done].
  - assert (vital dr (ws_file dr mid)) as V by (right; left; by exists mid). rewrite Hs; [done|..]; [by apply vital_below_mount..|]. intros Q. by apply (vital_outside _ _ _ V O).
  - assert (vital dr (tree_file (ws_space y))) as V by (left; exists (sp_id (ws_space y)); by rewrite <-(the_space_ok _ _ S)).
    unfold holds. rewrite Hs; [done|..]; [by apply vital_below_mount..|]. intros Q. by apply (vital_outside _ _ _ V O).
Qed.
Lemma mount_dir_inj dr i j n m : mount_dir dr i ++ [n] = mount_dir dr j ++ [m] → i = j.
Proof. intros E. apply app_inj_tail in E as [E _]. unfold mount_dir in E. apply app_inj_tail in E as [_ E]. by apply uid_b32_inj. Qed.
Lemma none_below ms d q : mounts_below ms d = [] → ¬ MachineProofs.in_layer_below ms d q.
Proof. intros E (m & u & H1 & H2 & _). assert (m ∈ mounts_below ms d) as H by (by apply elem_of_list_filter). rewrite E in H. by apply elem_of_nil in H. Qed.
Lemma mount_dir_prefix dr i q : is_prefix (mount_dir dr i) q = true → ∃ k, q = (dr ++ [B "mounts"]) ++ [uid_b32 i] ++ k.
Proof. intros [k ->]%is_prefix_spec. exists k. unfold mount_dir, mounts_root. by rewrite <-(app_assoc (dr ++ _)). Qed.
Lemma vital_not_mount dr i q : vital dr q → is_prefix (mount_dir dr i) q = false.
Proof.
  intros V. apply not_true_is_false. intros (k & ->)%mount_dir_prefix. revert V.
  unfold vital, tree_file, the_space, sp_dir, space_dir, ws_file, diff_dir, layer_dir, layers_root, spaces_root, mounts_root.
  intros [[j H]|[[j H]|[[j H]|[j H]]]]; revert H; rewrite <-?(app_assoc (dr ++ _)); try (apply app_cons_ne; done).
  intros H. apply app_inv_head in H. cbn [app] in H. injection H as H _. apply (f_equal length) in H. rewrite app_length in H.
  rewrite !uid_b32_length in H. cbn in H. lia.
Qed.
Lemma merged_info_ne dr i j : merged_dir dr i ≠ ws_file dr j.
Proof. intros Q. apply (f_equal length) in Q. unfold mount_dir, ws_file in Q. rewrite !app_length in Q. cbn in Q. lia. Qed.
Lemma merged_other dr i j : i ≠ j → is_prefix (mount_dir dr i) (merged_dir dr j) = false.
Proof.
  intros Ne. apply not_true_is_false. intros (k & E)%mount_dir_prefix. unfold mount_dir, mounts_root in E. rewrite <-(app_assoc (dr ++ _)) in E.
  apply app_inv_head in E. cbn [app] in E. injection E as E _. apply uid_b32_inj in E. congruence.
Qed.
Lemma ws_file_inj dr i j : ws_file dr i = ws_file dr j → i = j.
Proof. intros Q. unfold ws_file in Q. apply app_inj_tail in Q as [_ Q]. apply app_inj_1 in Q as [Q _]; [|by rewrite !uid_b32_length]. by apply uid_b32_inj in Q. Qed.
(** Removing another mount without an error leaves it as it is. *)
Lemma remove_settles dr w x y mid old id ch a m o w' : machine dr (w_fs w) (w_mounts w) → settled dr w y mid id ch a m → outside dr (ws_path y) →
  ws_mount x = mounted_mount old (mount_dir dr old) → old ≠ mid → is_dir_at (w_fs w) (merged_dir dr old) = true →
  remove_mount dr x o w = (Ok tt, w') →
  settled dr w' y mid id ch a m ∧ (∀ i, same_layer dr (w_fs w) (w_fs w') i) ∧
  (∀ q, is_prefix (mount_dir dr old) q = false → q ≠ ws_file dr old → fget (w_fs w') q = fget (w_fs w) q) ∧ mounts_below (w_mounts w') (mount_dir dr old) = [] ∧
  (honest o → fget (w_fs w') (ws_file dr old) = None).
Proof.
  intros Mc [A1 A2 A3 A4 A5 A6 A7 A8 A9 A10 A11] O Ex Ne Do H.
  destruct (remove_mount_cases _ _ _ _ _ _ _ Mc Ex H) as (Hm & Hq & _ & Hr). destruct (Hr eq_refl) as (Hb & Hino & _). clear Hr.
  assert (∀ q, is_prefix (mount_dir dr old) q = false → q ≠ ws_file dr old → fget (w_fs w') q = fget (w_fs w) q) as Hs.
  { intros q H1 H2. apply Hq; [done..|]. by apply none_below. }
  assert (∀ q, vital dr q → q ≠ ws_file dr old → fget (w_fs w') q = fget (w_fs w) q) as Hv.
  { intros q V N. apply Hs; [by apply vital_not_mount|done]. }
  assert (∀ i, same_layer dr (w_fs w) (w_fs w') i) as Hl.
  { intros i q Hi. apply Hs; [by eapply in_layer_mount|by eapply in_layer_wsfile]. }
  split; [|done]. constructor; try done.
  - assert (merged_dir dr mid ≠ merged_dir dr old) as Nd by (intros Q; apply mount_dir_inj in Q; congruence).
    destruct Hm as [->|(q & Rq & ->)]; [done|]. rewrite (real_dir _ _ Do) in Rq. injection Rq as <-. by rewrite mount_at_drop.
  - rewrite Hs; [done|..].
    + apply not_true_is_false. intros (k & E)%mount_dir_prefix. rewrite <-app_assoc in E. by apply (outside_ne _ _ _ O) in E.
    + intros Q. assert (vital dr (ws_file dr old)) as V by (right; left; by eexists). by apply (vital_outside _ _ _ V O).
  - intros k Hk. rewrite Hl; [by apply A6|apply is_prefix_app].
  - rewrite Hv; [done|right; left; by eexists|]. intros Q. unfold ws_file in Q. apply app_inj_tail in Q as [_ Q]. apply app_inj_1 in Q as [Q _]; [|by rewrite !uid_b32_length]. apply uid_b32_inj in Q. congruence.
  - unfold holds. rewrite Hv; [done|left; exists (sp_id (ws_space y)); by rewrite <-(the_space_ok _ _ A9)|].
    apply (tree_file_ne dr _ A9).
  - unfold is_dir_at. rewrite Hs; [done|..].
    + by apply merged_other.
    + apply merged_info_ne.
Qed.

(** ** Operations that make a mount *)
Lemma touches_empty dr sp w w' id k : space_ok dr sp → fs_wf (w_fs w) → touches dr sp w w' → fget (w_fs w) (layer_dir (layers_root dr) id) = None →
  k ≠ [] → fget (w_fs w') (diff_dir (layers_root dr) id ++ k) = None.
Proof.
  intros S W T N Hk. apply eq_None_not_Some. intros H. assert (is_prefix (diff_dir (layers_root dr) id) (diff_dir (layers_root dr) id ++ k) = true) as Hp by apply is_prefix_app.
  pose proof (in_layer_not_own dr sp (w_fs w) _ _ S Hp) as No.
  assert (fget (w_fs w) (diff_dir (layers_root dr) id ++ k) = None) as N'.
  { unfold diff_dir. rewrite <-app_assoc. by apply fget_below_None. }
  destruct (to_new _ _ _ _ T _ N' No H) as [_ Q]. apply (in_layer_new dr id) in Q; [|done]. rewrite <-(app_nil_r (diff_dir (layers_root dr) id)) in Q at 2. by apply app_inv_head in Q.
Qed.
Record made (dr : path) (x : ws) (hid : uid) (op : wsop) (a : atree) (w : world) (y : ws) (w' : world) (mid id : uid) (ch : list uid) (a' : atree) : Prop := {
  ma_mount : ws_mount y = stack_mount (layers_root dr) (mount_dir dr mid) mid id ch;
  ma_mid : fget (w_fs w) (mount_dir dr mid) = None;
  ma_id : fget (w_fs w) (layer_dir (layers_root dr) id) = None;
  ma_chain : ∃ base, based_on x hid op a base ∧ chain a base ch;
  ma_ready : ready dr w' y a' id;
  ma_op : op_tree x hid op a a';
  ma_path : ws_path y = match op with OClone p => p | _ => ws_path x end;
  ma_space : ws_space y = ws_space x;
  ma_branch : ws_branch y = match op with OCheckout key => match resolve a (ws_id x) hid key with SpecTree.FBranch _ => key | _ => [] end | _ => ws_branch x end;
  ma_id_same : match op with OClone _ => True | _ => ws_id y = ws_id x end;
  ma_layers : ∀ i, i ∈ ch → is_dir_at (w_fs w') (diff_dir (layers_root dr) i) = true;
  ma_touches : touches dr (ws_space x) w w';
  ma_infos : ∀ i, i ≠ mid → fget (w_fs w') (ws_file dr i) = fget (w_fs w) (ws_file dr i) }.
Lemma saved_infos fs dr mid id y h raw i : space_ok dr (ws_space y) → i ≠ mv_id (ws_mount y) →
  fget (saved_files (mount_files fs dr mid id) dr y h raw) (ws_file dr i) = fget fs (ws_file dr i).
Proof.
  intros S N. unfold saved_files. rewrite fget_fset_ne by (intros Q; apply ws_file_inj in Q; congruence). rewrite fget_fset_ne by apply (tree_file_ne dr _ S).
  rewrite mount_files_get, decide_False; [done|]. unfold ws_file, mount_dir, diff_dir, layer_dir. intros [Q|[Q|Q]].
  - apply app_inj_tail in Q as [_ Q]. apply (f_equal length) in Q. rewrite app_length, !uid_b32_length in Q. cbn in Q. lia.
  - revert Q. unfold layers_root, mounts_root. rewrite <-!app_assoc. intros Q. apply app_inv_head in Q. done.
  - revert Q. unfold layers_root, mounts_root. rewrite <-!app_assoc. intros Q. apply app_inv_head in Q. done.
Qed.
Lemma op_infos dr x op o w y w' a hid : fair o → live dr w x a hid →
  (∃ d m, op = OCommit d m) ∨ (∃ k, op = OCheckout k) ∨ (∃ p, op = OClone p) → run_op dr x op o w = (Ok y, w') →
  ∀ i, i ≠ mv_id (ws_mount y) → fget (w_fs w') (ws_file dr i) = fget (w_fs w) (ws_file dr i).
Proof.
  intros F [W [R G] LP S D] Hop E i Hi. destruct Hop as [(d & m & ->)|[(k & ->)|(p & ->)]]; cbn [run_op] in E.
  - apply (commit_ws_ok _ _ _ _ _ _ _ _ a hid) in E; [|done..]. cbv zeta in E.
    destruct E as (an & ch & l & a' & t' & raw & e & k & Ea & C & Nh & N1 & N2 & D1 & D2 & -> & Hr & R' & G' & Er & C1 & C2 & ->). cbn [w_fs upd]. by apply saved_infos.
  - apply (checkout_ws_ok _ _ _ _ _ _ _ a hid) in E; [|done..]. cbv zeta in E.
    destruct E as (c & ty & ch & l & t' & raw & e & k' & Hr & C & Nh & N1 & N2 & D1 & D2 & -> & R' & G' & Er & C1 & C2 & ->). cbn [w_fs upd]. by apply saved_infos.
  - apply (clone_ws_ok _ _ _ _ _ _ _ a hid) in E; [|done..]. cbv zeta in E.
    destruct E as (c & ch & l & t' & raw & wk & e & k & Hp & C & Nh & N1 & N2 & D1 & D2 & -> & R' & G' & Er & C1 & C2 & ->). cbn [w_fs upd]. by apply saved_infos.
Qed.
Lemma op_makes dr x op o w y w' a hid : fair o → live dr w x a hid →
  (∃ d m, op = OCommit d m) ∨ (∃ k, op = OCheckout k) ∨ (∃ p, op = OClone p) → run_op dr x op o w = (Ok y, w') →
  ∃ mid id ch a', made dr x hid op a w y w' mid id ch a'.
Proof.
  intros F Lv Hop H. pose proof (run_op_any _ _ _ _ _ _ _ _ _ F Lv H) as [T _]. pose proof (op_infos _ _ _ _ _ _ _ _ _ F Lv Hop H) as Hin.
  pose proof Lv as [W [R Gt] LP S D].
  assert (∀ i c ch, chain a c ch → i ∈ ch → is_dir_at (w_fs w') (diff_dir (layers_root dr) i) = true) as Hl.
  { intros i c ch C Hi. assert (has a i) as Ha by (by eapply chain_has; [apply R|..]). destruct (LP i Ha) as [_ Dd].
    apply is_dir_at_Some in Dd as [b Dd]. unfold is_dir_at. rewrite (to_old _ _ _ _ T _ _ Dd); [done|]. apply (in_layer_not_own dr _ _ i); [done|apply is_prefix_refl]. }
  destruct Hop as [(d & m & ->)|[(k & ->)|(p & ->)]]; cbn [run_op] in H.
  - apply (commit_ready _ _ _ _ _ _ _ _ a hid) in H as (an & ch & id & a' & Ea & C & Nh & Hr & Rd' & H1 & H2 & H3 & H4 & H5 & H6 & H7); [|done..].
    exists (mv_id (ws_mount y)), id, ch, a'. constructor; try done.
    + by exists hid.
    + exists an, id. split; [done|]. split; [by apply not_has|]. exact Hr.
    + intros i Hi'. by eapply Hl.
  - apply (checkout_ready _ _ _ _ _ _ _ a hid) in H as (c & ty & ch & id & Hr & C & Nh & Rd' & H1 & H2 & H3 & H4 & H5 & H6 & H7); [|done..].
    eexists (mv_id (ws_mount y)), id, ch, _. constructor; try done.
    + exists c. split; [|done]. cbn. rewrite Hr. by destruct ty.
    + exists c, id. split; [by rewrite Hr; destruct ty|]. split; [by apply not_has|]. done.
    + rewrite H4, Hr. by destruct ty.
    + intros i Hi'. by eapply Hl.
  - apply (clone_ready _ _ _ _ _ _ _ a hid) in H as (c & ch & id & Hr & C & Nh & Rd' & H1 & H2 & H3 & H4 & H5 & H6 & H7); [|done..].
    eexists (mv_id (ws_mount y)), id, ch, _. constructor; try done.
    + exists c. done.
    + exists c, id. split; [done|]. split; [by apply not_has|]. done.
    + intros i Hi'. by eapply Hl.
Qed.
(** Operation and Expand *)
Lemma made_settles dr x hid op a w y w1 mid id ch a' o w' : plain_path dr → good_path dr → outside dr (ws_path y) → fs_wf (w_fs w) → space_ok dr (ws_space x) →
  made dr x hid op a w y w1 mid id ch a' → expand y o w1 = (Ok tt, w') →
  (∃ m, settled dr w' y mid id ch a' m ∧ w_mounts w' = m :: w_mounts w) ∧
  (∀ i, is_dir_at (w_fs w) (diff_dir (layers_root dr) i) = true → same_layer dr (w_fs w) (w_fs w') i) ∧
  (∀ i, is_dir_at (w_fs w) (merged_dir dr i) = true → is_dir_at (w_fs w') (merged_dir dr i) = true) ∧
  (∀ i, i ≠ mid → fget (w_fs w') (ws_file dr i) = fget (w_fs w) (ws_file dr i)).
Proof.
  intros P G O W S [A1 A2 A3 (base & Ab & Ac) A5 A6 A7 A8 A9 A10 A11 A12 A13] H.
  pose proof (expand_settles dr w1 y mid id ch a' o w' P G) as Q.
  destruct Q as [(m & St & Em) Hs]; [intros ->; by apply chain_not_nil in Ac|done..|by eapply touches_merged|by eapply touches_merged|intros k Hk; by eapply touches_empty|by apply Forall_forall|done|].
  split; [|split; [|split]].
  4: { intros i Ni. assert (vital dr (ws_file dr i)) as V by (right; left; by exists i). rewrite Hs; [by apply A13|by apply vital_below_mount..|]. intros Q. by apply (vital_outside _ _ _ V O). }
  - exists m. split; [done|]. by rewrite Em, (to_mounts _ _ _ _ A12).
  - intros i Di q Hq. rewrite Hs; [|by apply (in_layer_below dr i)|by apply (in_layer_below dr i)|by apply (in_layer_outside dr i)].
    pose proof (in_layer_not_own dr (ws_space x) (w_fs w) _ _ S Hq) as No.
    destruct (fget (w_fs w) q) as [z|] eqn:E; [by eapply to_old|]. apply eq_None_not_Some. intros Hn. destruct (to_new _ _ _ _ A12 _ E No Hn) as [_ Q].
    apply (in_layer_new dr i) in Q; [|done]. subst q. unfold is_dir_at in Di. by rewrite E in Di.
  - intros i Di. assert (i ≠ mid) as Ni.
    { intros ->. apply is_dir_at_Some in Di as [b Di]. apply W in Di. unfold is_dir_at in Di. by rewrite A2 in Di. }
    apply is_dir_at_Some in Di as [b Di]. unfold is_dir_at. rewrite Hs.
    + by rewrite (to_old _ _ _ _ A12 _ _ Di) by (by apply merged_not_own).
    + intros Q. by apply mount_dir_inj in Q.
    + intros Q. apply app_inj_tail in Q as [_ Q]. done.
    + intros Q. unfold mount_dir, mounts_root in Q. rewrite <-!app_assoc in Q. by eapply outside_ne.
Qed.

(** ** The commands *)
(** What is known about the new workspace [y] right after the operation, whichever follows *)
Record begun (dr : path) (x : ws) (hid : uid) (op : wsop) (a : atree) (y : ws) (mid id : uid) (ch : list uid) (a' : atree) (base : uid) : Prop := {
  bg_base : based_on x hid op a base;
  bg_chain : chain a base ch;
  bg_op : op_tree x hid op a a';
  bg_path : ws_path y = match op with OClone p => p | _ => ws_path x end;
  bg_space : ws_space y = ws_space x;
  bg_branch : ws_branch y = match op with OCheckout key => match resolve a (ws_id x) hid key with SpecTree.FBranch _ => key | _ => [] end | _ => ws_branch x end;
  bg_id : match op with OClone _ => True | _ => ws_id y = ws_id x end;
  bg_head : has a' id }.
Lemma body_settles dr x op o w w' a hid (k : ws → M unit) : plain_path dr → good_path dr → fair o → machine dr (w_fs w) (w_mounts w) → live dr w x a hid →
  (∃ d m, op = OCommit d m) ∨ (∃ k, op = OCheckout k) ∨ (∃ p, op = OClone p) →
  outside dr (match op with OClone p => p | _ => ws_path x end) →
  (y <- run_op dr x op ;; expand y ;;; k y) o w = (Ok tt, w') →
  ∃ y mid id ch a' base w2 m, begun dr x hid op a y mid id ch a' base ∧ settled dr w2 y mid id ch a' m ∧ w_mounts w2 = m :: w_mounts w ∧
    fget (w_fs w) (mount_dir dr mid) = None ∧ fget (w_fs w) (layer_dir (layers_root dr) id) = None ∧
    (∀ i, is_dir_at (w_fs w) (diff_dir (layers_root dr) i) = true → same_layer dr (w_fs w) (w_fs w2) i) ∧
    (∀ i, is_dir_at (w_fs w) (merged_dir dr i) = true → is_dir_at (w_fs w2) (merged_dir dr i) = true) ∧
    (∀ i, i ≠ mid → fget (w_fs w2) (ws_file dr i) = fget (w_fs w) (ws_file dr i)) ∧
    (∀ s, s ≠ sp_id (ws_space x) → fget (w_fs w2) (tree_at dr s) = fget (w_fs w) (tree_at dr s)) ∧
    machine dr (w_fs w2) (w_mounts w2) ∧ k y o w2 = (Ok tt, w').
Proof.
  intros P G F Mc Lv Hop Ho H. pose proof Lv as [W [R Gt] LP S D].
  apply bind_ok in H as (y & w1 & E & H). destruct (op_body _ _ _ _ _ _ _ _ _ F Mc Lv E) as ([O U] & _ & T).
  pose proof E as E'. apply (op_mount _ _ _ _ _ _ _ a hid) in E' as (id' & a'' & Ns & Ep & _ & _ & _); [|done..].
  apply (op_makes _ _ _ _ _ _ _ a hid) in E as (mid & id & ch & a' & Ma); [|done..].
  pose proof (ma_path _ _ _ _ _ _ _ _ _ _ _ _ Ma) as Ey. rewrite <-Ey in Ho.
  apply bind_ok in H as ([] & w2 & E & H).
  destruct (made_settles _ _ _ _ _ _ _ _ _ _ _ _ _ _ P G Ho W S Ma E) as ((m & St & Em) & Hl & Hd & Hi).
  destruct (expand_after _ _ _ _ _ _ _ _ P G Mc O U Ns Ho E) as (O2 & _ & T2).
  pose proof Ma as [A1 A2 A3 (base & Ab & Ac) A5 A6 A7 A8 A9 A10 A11 A12 _].
  exists y, mid, id, ch, a', base, w2, m. split; [|split; [done|]; split; [done|]; split; [done|]; split; [done|]; split; [done|]; split; [done|]; split; [done|]; split; [intros s Hs; rewrite T2; by apply T|split; [apply O2|done]]].
  constructor; try done. apply (rd_live _ _ _ _ _) in A5. destruct A5 as [_ [R' Gt'] _ _ _]. by eapply get_has.
Qed.
(** The new workspace; the old one, if it was mounted, is gone. *)
Record settles (dr : path) (w : world) (x : ws) (hid : uid) (op : wsop) (a : atree) (old : bool) (o : oracle) (w' : world) (y : ws) (mid id : uid) (ch : list uid) (a' : atree) (base : uid) : Prop := {
  ss_begun : begun dr x hid op a y mid id ch a' base;
  ss_mid : fget (w_fs w) (mount_dir dr mid) = None;
  ss_id : fget (w_fs w) (layer_dir (layers_root dr) id) = None;
  ss_done : old = true ∨ is_dir_at (w_fs w) (merged_dir dr (mv_id (ws_mount x))) = true →
     (∃ m, settled dr w' y mid id ch a' m ∧ (∀ m', m' ∈ w_mounts w' → m' = m ∨ m' ∈ w_mounts w)) ∧
     (∀ i, is_dir_at (w_fs w) (diff_dir (layers_root dr) i) = true → same_layer dr (w_fs w) (w_fs w') i) ∧
     (old = true ∨ mounts_below (w_mounts w') (mount_dir dr (mv_id (ws_mount x))) = [] ∧ (honest o → fget (w_fs w') (ws_file dr (mv_id (ws_mount x))) = None)) ∧
     (∀ i, old = true ∨ i ≠ mv_id (ws_mount x) → is_dir_at (w_fs w) (merged_dir dr i) = true → is_dir_at (w_fs w') (merged_dir dr i) = true) ∧
     (∀ i, old = true ∨ i ≠ mv_id (ws_mount x) → i ≠ mid → fget (w_fs w') (ws_file dr i) = fget (w_fs w) (ws_file dr i)) ∧
     (∀ s, s ≠ sp_id (ws_space x) → fget (w_fs w') (tree_at dr s) = fget (w_fs w) (tree_at dr s)) }.
Lemma swap_settles dr x op o w w' a hid : plain_path dr → good_path dr → fair o → machine dr (w_fs w) (w_mounts w) → live dr w x a hid →
  (∃ d m, op = OCommit d m) ∨ (∃ k, op = OCheckout k) → outside dr (ws_path x) →
  ws_mount x = mounted_mount (mv_id (ws_mount x)) (mount_dir dr (mv_id (ws_mount x))) →
  (y <- run_op dr x op ;; expand y ;;; remove_mount dr x) o w = (Ok tt, w') →
  ∃ y mid id ch a' base, settles dr w x hid op a false o w' y mid id ch a' base.
Proof.
  intros P G F Mc Lv Hop Ho Ex H.
  assert (match op with OClone p => p | _ => ws_path x end = ws_path x) as Ep by (by destruct Hop as [(d & m & ->)|(k & ->)]).
  destruct (body_settles dr x op o w w' a hid (λ _, remove_mount dr x) P G F Mc Lv) as (y & mid & id & ch & a' & base & w2 & m & Bg & St & Em & N1 & N2 & Hl & Hd & Hi & Ht & Mc2 & E);
    [by destruct Hop; auto|by rewrite Ep|exact H|].
  exists y, mid, id, ch, a', base. constructor; [done..|]. intros [?|Do]; [done|].
  assert (mv_id (ws_mount x) ≠ mid) as Ne.
  { intros Q. rewrite Q in Do. apply is_dir_at_Some in Do as [b Do]. apply (mc_wf _ _ _ Mc) in Do. unfold is_dir_at in Do. by rewrite N1 in Do. }
  assert (outside dr (ws_path y)) as Oy by (by rewrite (bg_path _ _ _ _ _ _ _ _ _ _ _ Bg), Ep).
  destruct (remove_settles _ _ _ _ _ _ _ _ _ _ _ _ Mc2 St Oy Ex Ne (Hd _ Do) E) as (St' & Hl' & Hs & Hb & Hn).
  destruct (remove_mount_cases _ _ _ _ _ _ _ Mc2 Ex E) as (Hm & _).
  split; [|split; [|split; [by right|split; [|split]]]].
  - exists m. split; [done|]. intros m' Hm'. assert (m' ∈ w_mounts w2) as Hm2.
    { destruct Hm as [Q|(q & _ & Q)]; rewrite Q in Hm'; [done|]. by apply drop_mount_elem in Hm'. }
    rewrite Em in Hm2. apply elem_of_cons in Hm2 as [->|?]; auto.
  - intros i Di q Hq. by rewrite (Hl' i q Hq), (Hl i Di q Hq).
  - intros i [?|Ni] Di; [done|]. apply Hd in Di. unfold is_dir_at. rewrite Hs; [done|apply merged_other; congruence|apply merged_info_ne].
  - intros i [?|Ni] Nm; [done|]. rewrite Hs; [by apply Hi|apply vital_not_mount; right; left; by eexists|]. intros Q. by apply ws_file_inj in Q.
  - intros s Hs'. rewrite Hs; [by apply Ht|apply vital_not_mount; left; by eexists|]. apply (tree_file_ne dr (the_space dr s) eq_refl).
Qed.
Lemma settles_same dr w0 w x hid op a old o w' y mid id ch a' base : w_fs w0 = w_fs w → w_mounts w0 = w_mounts w →
  settles dr w0 x hid op a old o w' y mid id ch a' base → settles dr w x hid op a old o w' y mid id ch a' base.
Proof. intros E1 E2 [A B C D]. rewrite E1, E2 in *. by constructor. Qed.
Definition is_clone (c : command) : bool := match c with CClone _ _ => true | _ => false end.
Lemma cmd_settles dr c o w w' : plain_path dr → good_path dr → fair o → machine dr (w_fs w) (w_mounts w) → makes_mount c →
  outside dr (abs_of w (cmd_target c)) → run_cmd dr c o w = (Ok tt, w') →
  ∃ x hid a op, (found_at dr w (cmd_source c) x hid ∧ space_ok dr (ws_space x) ∧ holds (w_fs w) (ws_space x) a ∧ layers_present (w_fs w) (layers_root dr) a ∧
    has a hid ∧ rooted a) ∧ cmd_does o c [op] ∧
    ∃ y mid id ch a' base, settles dr w x hid op a (is_clone c) o w' y mid id ch a' base ∧ ws_path y = abs_of w (cmd_target c).
Proof.
  intros P G F Mc Hc Ho H.
  assert (∀ t k x a hid arg w0, live dr (upd w (w_fs w) (w_mounts w) t k) x (san_tree a) hid → abs_of w0 arg = abs_of w arg → w_fs w0 = w_fs w → found_at dr w0 arg x hid →
    found_at dr w arg x hid ∧ space_ok dr (ws_space x) ∧ holds (w_fs w) (ws_space x) (san_tree a) ∧ layers_present (w_fs w) (layers_root dr) (san_tree a) ∧ has (san_tree a) hid ∧ rooted (san_tree a)) as Hopen.
  { intros t k x a hid arg w0 Lv Ea Ef Fa. pose proof (rd_disk _ _ _ _ _ Lv) as Hh. rewrite san_idemp in Hh.
    split; [by eapply found_at_same|]. split; [apply Lv|]. split; [done|]. split; [apply Lv|]. split; [by eapply ready_has|]. destruct Lv as [_ [R _] _ _ _]. apply R. }
  destruct c as [args branch|source target|msg|key|opts args|opts args|args]; try done; cbn [run_cmd] in H; cbn [cmd_source cmd_target is_clone] in *.
  - unfold cmd_clone in H. apply bind_ok in H as (p & w1 & E & H). pose proof (abs_ok _ _ _ _ _ E) as Ep. apply quiet_abs in E as (k & ->).
    apply bind_ok in H as (x & w1 & E & H). pose proof (λ Q, get_workspace_any _ _ _ _ _ _ G F Q E) as Q. destruct (Q Mc) as (a & hid & Lv & Fa). clear Q.
    apply reader_get_workspace in E as (t & k1 & ->). rewrite !upd_upd in *. cbn [w_fs w_mounts upd] in *.
    destruct (body_settles dr x (OClone p) o (upd w (w_fs w) (w_mounts w) t k1) w' (san_tree a) hid (λ _, ret tt) P G F Mc Lv)
      as (y & mid & id & ch & a' & base & w2 & m & Bg & St & Em & N1 & N2 & Hl & Hd & Hi & Ht & Mc2 & E); [by eauto|subst p; exact Ho| |].
    { cbn [run_op]. unfold bind in *. destruct (clone_ws dr x p o _) as [[y| | | |] w2]; try done. destruct (expand y o w2) as [[[]| | | |] w3]; done. }
    injection E as <-. cbn [w_fs w_mounts upd] in *. exists x, hid, (san_tree a), (OClone p).
    split; [eapply Hopen; [exact Lv|..|exact Fa]; done|]. split; [by exists p|]. exists y, mid, id, ch, a', base. split; [|by rewrite (bg_path _ _ _ _ _ _ _ _ _ _ _ Bg)].
    constructor; [done..|]. intros _. split; [|by auto 15]. exists m. split; [done|]. rewrite Em. intros m' [->|?]%elem_of_cons; auto.
  - unfold cmd_commit in H.
    apply bind_ok in H as (x & w1 & E & H). pose proof (λ Q, get_workspace_any _ _ _ _ _ _ G F Q E) as Q. destruct (Q Mc) as (a & hid & Lv & Fa). clear Q.
    apply reader_get_workspace in E as (t & k1 & ->). rewrite bind_next in H. pose proof (fa_path _ _ _ _ _ Fa) as Ep.
    destruct (swap_settles dr x (OCommit (Some (fmt_rfc3339 (ch_time (o k1)))) msg) o (tick (upd w (w_fs w) (w_mounts w) t k1)) w' (san_tree a) hid P G F Mc)
      as (y & mid & id & ch & a' & base & Ss); [destruct Lv as [A1 A2 A3 A4 A5]; by constructor|by eauto|by rewrite Ep|by apply Fa|exact H|].
    exists x, hid, (san_tree a), (OCommit (Some (fmt_rfc3339 (ch_time (o k1)))) msg). split; [eapply Hopen; [exact Lv|..|exact Fa]; done|]. split; [by eexists|].
    exists y, mid, id, ch, a', base. split; [by eapply (settles_same dr _ w); [..|exact Ss]|]. by rewrite (bg_path _ _ _ _ _ _ _ _ _ _ _ (ss_begun _ _ _ _ _ _ _ _ _ _ _ _ _ _ _ Ss)).
  - unfold cmd_checkout in H.
    apply bind_ok in H as (x & w1 & E & H). pose proof (λ Q, get_workspace_any _ _ _ _ _ _ G F Q E) as Q. destruct (Q Mc) as (a & hid & Lv & Fa). clear Q.
    apply reader_get_workspace in E as (t & k1 & ->). pose proof (fa_path _ _ _ _ _ Fa) as Ep.
    destruct (swap_settles dr x (OCheckout key) o (upd w (w_fs w) (w_mounts w) t k1) w' (san_tree a) hid P G F Mc)
      as (y & mid & id & ch & a' & base & Ss); [done|by eauto|by rewrite Ep|by apply Fa|exact H|].
    exists x, hid, (san_tree a), (OCheckout key). split; [eapply Hopen; [exact Lv|..|exact Fa]; done|]. split; [done|].
    exists y, mid, id, ch, a', base. split; [by eapply (settles_same dr _ w); [..|exact Ss]|]. by rewrite (bg_path _ _ _ _ _ _ _ _ _ _ _ (ss_begun _ _ _ _ _ _ _ _ _ _ _ _ _ _ _ Ss)).
Qed.
(** CreateWorkspace and Expand *)
Lemma create_settles dr p branch o w x w1 w' : plain_path dr → good_path dr → fair o → machine dr (w_fs w) (w_mounts w) → outside dr p →
  create_workspace dr p branch o w = (Ok x, w1) → expand x o w1 = (Ok tt, w') →
  ∃ mid rid id m, rid ≠ id ∧ settled dr w' x mid id [rid] (init_tree rid id (ws_id x) branch) m ∧ ws_path x = p ∧ ws_branch x = branch ∧
    get (w_tree w1) id = Some (ws_head x) ∧ repr (w_tree w1) (init_tree rid id (ws_id x) branch) ∧ machine dr (w_fs w') (w_mounts w').
Proof.
  intros P G F Mc Ho E H. pose proof (mc_wf _ _ _ Mc) as W.
  pose proof (create_workspace_any _ _ _ _ _ _ _ F W E) as Od. cbv zeta in Od. set (sid := ch_uid (o (w_tick w))) in *.
  destruct (op_orderly dr (the_space dr sid) w w1 _ _ _ Mc eq_refl Od) as (O & U & _). destruct Od as [To _].
  apply (create_ready _ _ _ _ _ _ _ F W) in E as (rid & id & Ne & Rd & Hb & Hp & Em & N1 & N2 & N3 & Es).
  set (mid := mv_id (ws_mount x)) in *. exists mid, rid, id. rewrite <-Hp in Ho.
  pose proof (rd_live _ _ _ _ _ Rd) as Lv. pose proof Lv as [W1 [R1 G1] LP1 S1 D1].
  destruct (expand_settles dr w1 x mid id [rid] (init_tree rid id (ws_id x) branch) o w' P G ltac:(done) Ho Em Rd) as [(m & St & _) _]; try done.
  - by eapply (touches_merged dr (the_space dr sid) w).
  - by eapply (touches_merged dr (the_space dr sid) w).
  - intros k Hk. by eapply (touches_empty dr (the_space dr sid) w).
  - apply Forall_singleton. apply LP1. rewrite (init_fresh _ _ _ _ Ne). eexists. cbn [fresh_tree a_nodes]. by rewrite lookup_insert.
  - exists m. split_and!; try done.
    assert (new_stack dr w w1 x id) as Ns.
    { eexists mid, [rid]. split; [done|]. split; [exact Em|]. split; [done|]. split; [|exact (live_diff _ _ _ _ _ Lv)]. by eapply (touches_merged dr (the_space dr sid) w). }
    by destruct (expand_after _ _ _ _ _ _ _ _ P G Mc O U Ns Ho H) as ([Q _ _] & _ & _).
Qed.

(** ** Opening it again *)
Lemma path_eq_link fs p q t : fget fs p = Some (FLink t) → is_dir_at fs q = true → p ≠ q.
Proof. intros E D ->. unfold is_dir_at in D. by rewrite E in D. Qed.
Lemma load_calm sp a o w : fair o → no_faults o → holds (w_fs w) sp a →
  ∃ t k, space_load sp o w = (Ok tt, upd w (w_fs w) (w_mounts w) t k) ∧ repr t a.
Proof.
  intros F N (raw & E & Lo & _). unfold space_load, bind, os_read_file, real_path. cbv zeta. cbn [real]. rewrite E, E, N. cbn [fst snd]. rewrite decide_False by done.
  unfold next_choice. destruct (Lo (ch_names (o (w_tick (tick w)))) (ch_names (o (w_tick (tick (tick w)))))) as (t & Et & R); [apply F..|]. rewrite Et.
  unfold lift, modify. eexists t, _. split; [reflexivity|done].
Qed.
Lemma abs_calm s o w p : no_faults o → finds w s p → ∃ k, fp_abs s o w = (Ok p, upd w (w_fs w) (w_mounts w) (w_tree w) k).
Proof.
  intros N [<- H]. unfold fp_abs, abs_of. destruct (is_abs s) eqn:Ea; [eexists (w_tick w); by destruct w|].
  exists (S (w_tick w)). unfold bind, os_getwd. rewrite look_fine by done. destruct H as [?|H]; [done|].
  assert (is_dir_at (w_fs (tick w)) (getwd_of (tick w)) || bool_decide (getwd_of (tick w) ≠ w_cwd (tick w)) = true) as ->; [|done].
  apply orb_true_iff. destruct H as [H|H]; [by left|right; by apply bool_decide_eq_true].
Qed.
Lemma reopen dr w y mid id ch a m arg o : good_path dr → fair o → no_faults o → settled dr w y mid id ch a m → has a id →
  finds w arg (ws_path y) →
  ∃ x w', get_workspace dr arg o w = (Ok x, w') ∧ ws_id x = ws_id y ∧ ws_path x = ws_path y ∧ ws_space x = ws_space y ∧ mv_id (ws_mount x) = mid ∧
    ws_mount x = mounted_mount mid (mount_dir dr mid) ∧
    ws_branch x = sanitize (ws_branch y) ∧ get (w_tree w') id = Some (ws_head x) ∧ repr (w_tree w') (san_tree a).
Proof.
  intros G F N [A1 A2 A3 A4 A5 A6 A7 A8 A9] Hi Ha. unfold get_workspace.
  destruct (abs_calm _ _ _ _ N Ha) as [k1 E]. unfold bind at 1. rewrite E. clear E.
  assert (∀ k, fs_is_symlink (ws_path y) o (upd w (w_fs w) (w_mounts w) (w_tree w) k) = (Ok true, upd w (w_fs w) (w_mounts w) (w_tree w) (S k))) as E1.
  { intros k. unfold fs_is_symlink, bind, attempt, os_lstat. rewrite look_fine by done. cbn [w_fs tick upd]. by rewrite A5. }
  unfold bind at 1. rewrite E1. clear E1.
  assert (good_path (merged_dir dr mid)) as Gm.
  { unfold mount_dir, mounts_root. rewrite <-(app_assoc dr). apply good_mount_dir; [done|]. unfold good_name. split_and!; try done.
    intros Q. repeat (apply elem_of_cons in Q as [Q|Q]; [vm_compute in Q; discriminate Q|]). by apply elem_of_nil in Q. }
  assert (∀ k, (s <- os_readlink (ws_path y);; fp_abs s) o (upd w (w_fs w) (w_mounts w) (w_tree w) k) = (Ok (merged_dir dr mid), upd w (w_fs w) (w_mounts w) (w_tree w) (S k))) as E1.
  { intros k. unfold bind, os_readlink. rewrite look_fine by done. cbn [w_fs tick upd]. rewrite A5. unfold fp_abs. rewrite is_abs_path_str. by rewrite join_path_str. }
  unfold bind at 1. rewrite E1. clear E1.
  unfold bind at 1, lift at 1. unfold mount_dir at 1. rewrite <-app_assoc, rel_first_below. cbn [app]. rewrite decode_b32_b32.
  assert (∀ k, load_ws_info dr mid o (upd w (w_fs w) (w_mounts w) (w_tree w) k) = (Ok (san_wsinfo (ws_info y id)), upd w (w_fs w) (w_mounts w) (w_tree w) (S k))) as E1.
  { intros k. unfold load_ws_info, bind, os_read_file, real_path. cbv zeta. cbn [real w_fs upd]. rewrite A7, A7, N. cbn [fst snd]. unfold lift. by rewrite wsinfo_round. }
  unfold bind at 1. rewrite E1. clear E1. unfold san_wsinfo, ws_info. cbn [wi_id wi_path wi_head wi_space wi_mount wi_branch].
  rewrite !sanitize_b32, sanitize_uid_hex. unfold bind at 1, lift at 1. rewrite decode_b32_b32. unfold bind at 1, lift at 1. rewrite decode_b32_b32. cbv zeta.
  rewrite !join_name by apply good_uid.
  change (Space (sp_id (ws_space y)) (spaces_root dr ++ [uid_b32 (sp_id (ws_space y))])) with (the_space dr (sp_id (ws_space y))).
  pose proof (the_space_ok _ _ A9) as Es. rewrite <-Es.
  match goal with |- context [bind (space_load _) _ o ?v] => destruct (load_calm (ws_space y) (san_tree a) o v F N A8) as (t & k & El & R) end.
  unfold bind at 1. rewrite El. clear El. unfold bind at 1, lift at 1. rewrite decode_hex_hex. rewrite bind_gets. cbn [w_tree upd].
  destruct (get t id) as [h|] eqn:Eg.
  2:{ assert (has (san_tree a) id) as Hs by (by apply san_has). destruct (get_Some _ _ _ R Hs) as (l & an & n & Q & _). congruence. }
  eexists _, _. split; [reflexivity|]. cbn [ws_id ws_path ws_space ws_mount ws_branch ws_head mounted_mount mv_id w_tree upd]. rewrite A1. done.
Qed.
