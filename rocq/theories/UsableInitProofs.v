(** * UsableInitProofs: init succeeds *)
From Verif Require Import Base Uid SpecUid UidProofs Tree SpecTree TreeRefine TreeObs Dump DumpProofs Json JsonProofs Save SaveProofs Branch BranchProofs Date Ws SpecWs WsProofs
  Fs Overlay Os Layers Mounts Space Manager Commands FsProofs OsProofs LayerProofs MountProofs SpaceProofs ManagerProofs SpecWorld SpecOps SavedProofs FaultProofs ReadyProofs OpProofs CalmProofs
  SpecMachine SpecCmds MachineProofs OpenProofs CmdProofs ExpandProofs DetProofs SpecTidy TidyProofs SpecUsable UsableProofs UsableCmdProofs PropsCommit.
From Coq Require Import Lia.
From stdpp Require Import prelude gmap.

(** ** CreateWorkspace *)
Lemma layer_create_fine root o w : no_faults o → fs_wf (w_fs w) → fget (w_fs w) (layer_dir root (ch_uid (o (w_tick w)))) = None → is_dir_at (w_fs w) root = true →
  layer_create root o w = (Ok (ch_uid (o (w_tick w))), upd w (with_layer (w_fs w) root (ch_uid (o (w_tick w)))) (w_mounts w) (w_tree w) (4 + w_tick w)).
Proof.
  intros F W N D. unfold layer_create, new_random_uid. rewrite bind_next. set (id := ch_uid (o (w_tick w))) in *.
  unfold bind at 1. rewrite mkdir_fine; [|done|done|by rewrite parent_layer]. cbn [w_fs tick].
  assert (fget (fset (w_fs w) (layer_dir root id) (FDir false)) (diff_dir root id) = None) as Nd by (rewrite fget_fset_ne by apply layer_diff_ne; by apply fget_parent_None).
  unfold layer_save. unfold bind at 1. unfold bind at 1. rewrite is_dir_absent by done.
  rewrite mkdir_fine; [|done|done|]. 2:{ rewrite parent_diff. unfold is_dir_at. cbn [w_fs set_fs tick]. by rewrite fget_fset_eq. }
  reflexivity.
Qed.
Lemma space_init_fine lroot o w : no_faults o → fs_wf (w_fs w) → fget (w_fs w) (layer_dir lroot (ch_uid (o (w_tick w)))) = None → is_dir_at (w_fs w) lroot = true →
  ∃ t', space_init lroot o w = (Ok tt, upd w (with_layer (w_fs w) lroot (ch_uid (o (w_tick w)))) (w_mounts w) t' (4 + w_tick w)).
Proof.
  intros F W N D. unfold space_init. unfold bind at 1, modify. unfold bind at 1. rewrite layer_create_fine by done. cbn [w_tick w_fs w_mounts w_tree set_tree].
  set (rid := ch_uid (o (w_tick w))) in *.
  assert (¬ has empty_atree rid) as Nh. { intros [x Hx]. cbn in Hx. by rewrite lookup_empty in Hx. }
  assert (∀ r, ¬ is_root empty_atree r) as Nr. { intros r (x & Hx & _). cbn in Hx. by rewrite lookup_empty in Hx. }
  pose proof (add_node_fresh new_tree empty_atree rid None repr_new Nh) as AF.
  pose proof (repr_grow new_tree empty_atree rid None repr_new Nh Nr) as RG. cbn [mbind option_bind] in RG.
  unfold bind at 1, make_node. cbn [w_tree upd]. destruct (alloc_node new_tree (new_node rid)) as [t1 l2] eqn:Eal. cbn [fst snd] in AF.
  unfold bind at 1, tree_do at 1. cbn [w_tree set_tree upd]. cbn [mbind option_bind] in AF. rewrite AF.
  unfold tree_do. cbn [w_tree set_tree upd].
  match type of RG with repr ?t ?a => destruct (add_tag_effect t a root_tag rid RG) as [[Q _]|(_ & t3 & E & _)] end.
  - destruct Q. eexists. cbn. by rewrite lookup_insert.
  - exists t3. cbn. cbn in E. rewrite E. reflexivity.
Qed.
Definition ids_soon (dr : path) (o : oracle) (w : world) : Prop := ∀ n, w_tick w ≤ n ≤ 8 + w_tick w →
  fget (w_fs w) (mount_dir dr (ch_uid (o n))) = None ∧ fget (w_fs w) (ws_file dr (ch_uid (o n))) = None ∧
  fget (w_fs w) (layer_dir (layers_root dr) (ch_uid (o n))) = None ∧ fget (w_fs w) (space_dir dr (ch_uid (o n))) = None ∧
  ∀ k, w_tick w ≤ k < n → ch_uid (o k) ≠ ch_uid (o n).
Lemma runs_create dr p branch o w : no_faults o → fair o → ids_soon dr o w → fs_wf (w_fs w) →
  is_dir_at (w_fs w) (layers_root dr) = true → is_dir_at (w_fs w) (spaces_root dr) = true → is_dir_at (w_fs w) (mounts_root dr) = true →
  runs (create_workspace dr p branch) o w.
Proof.
  intros F Fo Nw W D1 D2 D3. unfold create_workspace.
  set (sid := ch_uid (o (w_tick w))). set (rid := ch_uid (o (S (S (w_tick w))))).
  destruct (Nw (w_tick w)) as (_ & _ & _ & N0 & _); [lia|]. fold sid in N0.
  destruct (Nw (S (S (w_tick w)))) as (_ & _ & N1 & _); [lia|]. fold rid in N1.
  set (fs0 := fset (w_fs w) (space_dir dr sid) (FDir false)).
  assert (fs_wf fs0) as W0 by (apply wf_add; [done|done|by rewrite parent_space]).
  assert (∀ q, is_dir_at (w_fs w) q = true → is_dir_at fs0 q = true) as Hd by (intros q Hq; by apply is_dir_fset_other).
  assert (fget fs0 (layer_dir (layers_root dr) rid) = None) as N1' by (unfold fs0; by rewrite fget_fset_ne by apply space_layer_ne).
  set (fs1 := with_layer fs0 (layers_root dr) rid).
  assert (∃ t1, create_space dr o w = (Ok (Space sid (space_dir dr sid)), upd w fs1 (w_mounts w) t1 (6 + w_tick w))) as [t1 E].
  { unfold create_space, new_random_uid. rewrite bind_next. fold sid. unfold bind at 1. rewrite mkdir_fine; [|done|done|by rewrite parent_space].
    cbn [w_fs tick]. fold fs0. unfold bind at 1. destruct (space_init_fine (layers_root dr) o (set_fs (tick (tick w)) fs0) F W0 N1') as [t1 E]; [by apply Hd|].
    rewrite E. exists t1. reflexivity. }
  assert (repr t1 (root_tree rid) ∧ root t1 = get t1 rid) as [R1 Rt1].
  { pose proof E as E'. unfold create_space, new_random_uid in E'. rewrite bind_next in E'. fold sid in E'. unfold bind at 1 in E'.
    rewrite mkdir_fine in E'; [|done|done|by rewrite parent_space]. cbn [w_fs tick] in E'. fold fs0 in E'.
    apply bind_ok in E' as (u1 & w2 & E1 & E'). injection E' as E'. apply space_init_ok in E1; [|done]. destruct E1 as (_ & _ & t' & k & -> & R & Rt).
    injection E' as <- _. done. }
  apply runs_bind; [by eexists _, _|]. rewrite E. intros sp w1 [= <- <-].
  apply runs_bind; [apply runs_gets|]. intros t w1 [= <- <-]. cbn [w_tree upd].
  assert (has (root_tree rid) rid) as Hr by (by apply root_tree_has).
  destruct (get_Some _ _ _ R1 Hr) as (rl & ran & rn & Grl & _).
  apply runs_bind; [apply (runs_id_of _ rid); cbn [w_tree upd]; rewrite Rt1, Grl; cbn [mbind option_bind]; by eapply repr_id|].
  intros rid' w1 (-> & rl' & Erl & Er)%id_of_ok. cbn [w_tree upd] in Er. rewrite Rt1 in Erl. apply (node_id_get _ _ _ _ _ R1 Erl) in Er as ->.
  assert (fs_wf fs1) as W1 by (apply with_layer_wf; [done|done|by apply Hd]).
  assert (layers_present fs1 (layers_root dr) (root_tree rid)) as LP.
  { intros z ->%root_tree_has. unfold fs1, is_dir_at. rewrite !with_layer_get, !decide_True by auto. done. }
  assert (∀ q, fget (w_fs w) q = None → q ≠ space_dir dr sid → q ≠ layer_dir (layers_root dr) rid → q ≠ diff_dir (layers_root dr) rid → fget fs1 q = None) as Hn.
  { intros q Hq A1 A2 A3. unfold fs1. rewrite with_layer_get, decide_False by tauto. unfold fs0. by rewrite fget_fset_ne. }
  destruct (Nw (6 + w_tick w)) as (N2 & N3 & _ & _ & _); [lia|]. destruct (Nw (8 + w_tick w)) as (_ & _ & N4 & _ & Ne); [lia|].
  assert (rid ≠ ch_uid (o (8 + w_tick w))) as Nr by (apply Ne; lia). clear Ne.
  set (mid := ch_uid (o (6 + w_tick w))) in *. set (id := ch_uid (o (8 + w_tick w))) in *.
  assert (∀ q, is_dir_at (w_fs w) q = true → is_dir_at fs1 q = true) as Hd1 by (intros q Hq; apply with_layer_dir; [done|done|by apply Hd]).
  assert (fget fs1 (mount_dir dr mid) = None) as N2' by (apply Hn; [done|exact (λ E, space_mount_ne _ _ _ (eq_sym E))|apply mount_layer_ne|apply mount_diff_ne]).
  assert (fget fs1 (layer_dir (layers_root dr) id) = None) as N4' by (apply Hn; [done|exact (λ E, space_layer_ne _ _ _ (eq_sym E))|intros Q%layer_dir_inj; congruence|apply layer_diff_ne]).
  apply runs_bind.
  { apply (runs_create_mount _ _ _ _ (root_tree rid)); cbn [w_tick w_fs w_tree upd]; try done; by apply Hd1. }
  intros [m l] w1 E1. apply (create_mount_ok _ _ _ (upd _ _ _ _ _) _ _ _ (root_tree rid)) in E1; [|done..]. cbn [w_tick w_fs w_mounts w_tree upd] in E1.
  destruct E1 as (_ & Nh & _ & _ & _ & _ & (ch & C & ->) & t2 & k2 & -> & R2 & G2 & Gm & Np). fold mid id in Nh, R2, G2, C |- *. cbn [fst snd].
  apply runs_bind; [apply runs_next|]. intros wid w1 [= <- <-].
  apply runs_bind; [eexists _, _; reflexivity|]. intros pl w1 (-> & ->)%parent_of_ok. cbn [w_tree upd tick]. rewrite Np.
  pose proof (Gm _ _ Grl) as Grl2. rewrite Grl2.
  apply runs_bind; [apply (runs_id_of _ rid); cbn [mbind option_bind w_tree upd tick]; by eapply repr_id|].
  intros pid w1 (-> & rl3 & [= <-] & Ep)%id_of_ok. cbn [w_tree upd tick] in Ep. apply (node_id_get _ _ _ _ _ R2 Grl2) in Ep as ->.
  assert (has (new_child (root_tree rid) id rid) rid) as Hc by (by eapply get_has).
  destruct (add_branch_effect t2 _ (full_name (local_branch (ch_uid (o k2)) branch)) rid R2) as [[Q _]|(_ & t3 & Eb & _)]; [done|].
  apply runs_bind; [eapply runs_tree_do; exact Eb|]. intros u w1 (t4 & Et & ->)%tree_do_ok. cbn [w_tree upd tick] in Et.
  apply (add_branch_repr _ _ _ _ _ R2) in Et as (_ & R3 & (Sr & Sg & _)).
  set (x := WS (ch_uid (o k2)) p (Space sid (space_dir dr sid)) (stack_mount (layers_root dr) (mount_dir dr mid) mid id ch) l branch).
  change (runs (space_save (ws_space x) ;;; save_ws_info dr x ;;; ret x) o (set_tree (tick (upd w (mount_files fs1 dr mid id) (w_mounts w) t2 k2)) t4)).
  eapply (runs_finish dr x id); [exact F|exact Fo|reflexivity|exact R3|..].
  - change (get t4 id = Some l). by rewrite Sg.
  - change (can_write (mount_files fs1 dr mid id) (tree_file (Space sid (space_dir dr sid)))). apply can_write_mounted; [done|]. right. unfold tree_file. cbn [sp_dir]. split.
    + assert (fget (w_fs w) (space_dir dr sid ++ [B "tree.json"]) = None) as Nt by (by apply fget_parent_None).
      unfold fs1. rewrite with_layer_get, decide_False; [unfold fs0; rewrite fget_fset_ne; [done|]|].
      * intros Q. apply (f_equal length) in Q. rewrite app_length in Q. cbn in Q. lia.
      * unfold space_dir, spaces_root, diff_dir, layer_dir, layers_root. rewrite <-!(app_assoc (dr ++ _)). intros [Q|Q]; revert Q; apply app_cons_ne; done.
    + rewrite parent_dir_app. unfold fs1. unfold is_dir_at. rewrite with_layer_get. case_decide; [done|]. unfold fs0. by rewrite fget_fset_eq.
  - change (can_write (mount_files fs1 dr mid id) (ws_file dr mid)). apply can_write_wsfile; [|by apply Hd1]. apply Hn; [done|..].
    + unfold space_dir, spaces_root, ws_file, mounts_root. apply app_cons_ne. done.
    + apply wsfile_layer_ne.
    + apply wsfile_diff_ne.
Qed.
Lemma in_root dr k q : q = dr ++ k → is_prefix dr q = false → False.
Proof. intros ->. by rewrite is_prefix_app. Qed.
Lemma create_kept dr p branch o w x w1 : fair o → machine dr (w_fs w) (w_mounts w) → create_workspace dr p branch o w = (Ok x, w1) →
  kept dr (w_fs w) (w_fs w1) ∧ (∀ i, i ≠ mv_id (ws_mount x) → fget (w_fs w1) (ws_file dr i) = fget (w_fs w) (ws_file dr i)) ∧
  fget (w_fs w) (tree_file (ws_space x)) = None ∧ w_mounts w1 = w_mounts w ∧ same_proc w w1.
Proof.
  intros F Mc E. pose proof (mc_wf _ _ _ Mc) as W.
  destruct (create_ready _ _ _ _ _ _ _ F W E) as (rid0 & id0 & _ & Rd & _). pose proof (rd_info _ _ _ _ _ Rd) as Ei.
  destruct (C35_init_files _ _ _ _ _ _ _ W E) as (sid & rid & id & mid & Es & Em & N & _ & Sb & Hm & Sp). rewrite Em in *.
  assert (fget (w_fs w) (tree_file (ws_space x)) = None) as Nt by (apply N; left).
  assert (tree_file (ws_space x) = dr ++ [B "spaces"; uid_b32 sid; B "tree.json"]) as Ht.
  { rewrite Es. unfold tree_file, space_dir, spaces_root. cbn [sp_dir]. rewrite <-!app_assoc. done. }
  set (l := [space_dir dr sid; _; _; _; _; _]) in *. split; [constructor|split; [|done]].
  - intros q z Eq Nz. rewrite Sb; [done|]. rewrite !elem_of_cons. intros [->|[->|Hq]].
    + congruence.
    + destruct (mc_info _ _ _ Mc _ _ Eq) as (raw & -> & _). by destruct (Nz raw).
    + rewrite N in Eq; [done|]. by right.
  - intros q d Eq. destruct (decide (q = ws_file dr mid)) as [->|Nq]; [eauto|]. exists d. rewrite Sb; [done|]. rewrite !elem_of_cons. intros [->|[->|Hq]].
    + congruence.
    + done.
    + rewrite N in Eq; [done|]. by right.
  - intros q Eq Np. rewrite Sb; [done|]. rewrite !elem_of_cons. intros [->|[->|Hq]].
    + by apply (in_root _ _ _ Ht).
    + apply (in_root dr (B "mounts" :: [uid_b32 mid ++ B ".workspace"]) (ws_file dr mid)); [|done]. unfold ws_file, mounts_root. rewrite <-!app_assoc. done.
    + unfold l, space_dir, diff_dir, layer_dir, mount_dir, spaces_root, layers_root, mounts_root in Hq. rewrite <-!app_assoc in Hq.
      repeat (apply elem_of_cons in Hq as [Hq|Hq]; [by apply (in_root _ _ _ Hq)|]). by apply elem_of_nil in Hq.
  - intros i Ni. apply Sb. destruct (tree_file_ne dr (ws_space x)) as (_ & T2 & _); [by rewrite Es|]. unfold l. rewrite !not_elem_of_cons. split_and!.
    + by apply not_eq_sym.
    + intros Q. by apply ws_file_inj in Q.
    + unfold ws_file, space_dir, mounts_root, spaces_root. apply app_cons_ne. done.
    + apply wsfile_layer_ne.
    + apply wsfile_diff_ne.
    + apply wsfile_layer_ne.
    + apply wsfile_diff_ne.
    + apply wsfile_mount_ne.
    + apply not_elem_of_nil.
Qed.
Lemma empty_fine p o w : no_faults o → is_dir_at (w_fs w) p = true → (∀ n, fget (w_fs w) (p ++ [n]) = None) → (∀ m, m ∈ w_mounts w → mn_at m ≠ p) →
  ∃ k, fs_is_empty_dir p o w = (Ok true, upd w (w_fs w) (w_mounts w) (w_tree w) k) ∧ w_tick w ≤ k ≤ 2 + w_tick w.
Proof.
  intros F D N Nm. apply is_dir_at_Some in D as [b D]. assert (real_path (w_fs w) p = Some p) as R by (apply real_dir; apply is_dir_at_Some; eauto).
  exists (2 + w_tick w). split; [|lia]. unfold fs_is_empty_dir, bind at 1, fs_is_dir, bind at 1, attempt at 1, os_stat. rewrite look_fine by done. cbn [w_fs tick]. rewrite R, D.
  unfold ret at 1. unfold bind, attempt, os_readdir. rewrite look_fine by done. cbn [w_fs w_mounts tick]. rewrite R, D.
  assert (mount_at (w_mounts w) p = None) as ->.
  { unfold mount_at. destruct (filter _ (w_mounts w)) as [|m l] eqn:E; [done|]. assert (m ∈ filter (λ m, mn_at m = p) (w_mounts w)) as Hm by (rewrite E; left).
    apply elem_of_list_filter in Hm as [Q Hm]. by apply Nm in Hm. }
  rewrite children_none by done. done.
Qed.
Lemma init_fine dr args branch o w d p : plain_path dr → good_path dr → fair o → no_faults o → new_ids dr o w → in_order dr w →
  runs_in w d → abs_from d (default (B ".") (head args)) = p → outside dr p → can_replace w p → fget (w_fs w) p = None ∨ is_dir_at (w_fs w) p = true → fits dr 1 →
  ∃ w' mid y id rid, cmd_init dr args branch o w = (Ok tt, w') ∧ put_at dr w w' p None mid y id (fresh_tree rid id (ws_id y) branch) ∧
    ws_path y = p ∧ ws_branch y = branch ∧ fget (w_fs w) (tree_at dr (sp_id (ws_space y))) = None ∧ rid ≠ id ∧ fget (w_fs w) (mount_dir dr mid) = None ∧
    fget (w_fs w) (layer_dir (layers_root dr) rid) = None.
Proof.
  intros P G F N Nw Io R Ha Op Cr He Fi. pose proof (io_machine _ _ Io) as Mc. unfold cmd_init.
  destruct (abs_fine (default (B ".") (head args)) _ _ _ N R) as (k0 & E & Hk0). rewrite Ha in E. unfold bind at 1. rewrite E. clear E.
  unfold bind at 1. rewrite exists_fine by done. cbn [w_fs upd]. change (tick (upd w (w_fs w) (w_mounts w) (w_tree w) k0)) with (upd w (w_fs w) (w_mounts w) (w_tree w) (S k0)).
  assert (∃ k, (if bool_decide (is_Some (real_path (w_fs w) p)) then d <- fs_is_empty_dir p;; ret (negb d) else ret false) o (upd w (w_fs w) (w_mounts w) (w_tree w) (S k0)) =
    (Ok false, upd w (w_fs w) (w_mounts w) (w_tree w) k) ∧ w_tick w ≤ k ≤ 6 + w_tick w) as (k & E & Hk).
  { destruct He as [He|He].
    - assert (real_path (w_fs w) p = None) as -> by (unfold real_path; cbn [real]; by rewrite He). rewrite bool_decide_false by (intros [? ?]; done). exists (S k0). split; [done|lia].
    - rewrite (real_dir _ _ He), bool_decide_true by done. destruct Cr as [[Q _]|[_ Cr]]; [unfold is_dir_at in He; by rewrite Q in He|]. destruct (Cr He) as [C1 C2].
      destruct (empty_fine p o (upd w (w_fs w) (w_mounts w) (w_tree w) (S k0)) N He C1 C2) as (k & E & Hk). exists k. unfold bind. rewrite E. split; [done|].
      cbn [w_tick upd] in Hk. lia. }
  unfold bind at 1. rewrite E. clear E. cbv beta iota. set (w0 := upd w (w_fs w) (w_mounts w) (w_tree w) k).
  destruct (runs_create dr p branch o w0 N F) as (x & w1 & E); [|apply Mc|apply Io|apply Io|apply Io|].
  { intros n Hn. cbn [w_tick w_fs upd w0] in *. destruct (Nw n) as (A1 & A2 & A3 & A4 & A5); [lia|]. split_and!; try done. intros j Hj. apply A5. lia. }
  assert (machine dr (w_fs w0) (w_mounts w0)) as Mc0 by exact Mc. assert (fs_wf (w_fs w0)) as W0 by apply Mc.
  pose proof (create_workspace_any _ _ _ _ _ _ _ F W0 E) as Od. cbv zeta in Od. cbn [w_tick upd w0] in Od. set (sid := ch_uid (o k)) in *.
  destruct (op_orderly dr (the_space dr sid) w0 w1 _ _ _ Mc0 eq_refl Od) as (O & U & T1). destruct Od as [To _].
  destruct (create_kept _ _ _ _ _ _ _ F Mc0 E) as (K1 & Hi1 & Nt & Em1 & (Pc & Pp & _)).
  pose proof E as E'. apply (create_ready _ _ _ _ _ _ _ F W0) in E' as (rid & id & Ne & Rd & Hb & Hp & Em & N1 & N2 & N3 & Es).
  set (mid := mv_id (ws_mount x)) in *. set (a := init_tree rid id (ws_id x) branch) in *.
  pose proof (rd_live _ _ _ _ _ Rd) as Lv. pose proof Lv as [W1 [R1 G1] LP1 S1 D1].
  assert (∀ n, fget (w_fs w1) (mount_dir dr mid ++ [n]) = None) as Nn by (intros n; by eapply (touches_merged dr (the_space dr sid) w0)).
  assert (dr ≠ []) as ND by (intros ->; by destruct Op).
  assert (is_dir_at (w_fs w1) (mount_dir dr mid) = true) as Dm.
  { pose proof (rd_mdir _ _ _ _ _ Rd) as Q. fold mid in Q. unfold is_dir_at. by rewrite Q. }
  assert (Forall (λ i, is_dir_at (w_fs w1) (diff_dir (layers_root dr) i) = true) [rid]) as Dr.
  { apply Forall_singleton. apply LP1. unfold a. rewrite (init_fresh _ _ _ _ Ne). eexists. cbn [fresh_tree a_nodes]. by rewrite lookup_insert. }
  destruct (mount_fine dr mid id [rid] o w1 P G ND ltac:(done) Fi N Dm (Nn _) (Nn _)) as (k3 & e3 & Emm); [apply (live_diff _ _ _ _ _ Lv)|done|].
  set (w3 := add_owned (upd w1 _ _ _ k3) e3) in Emm.
  pose proof (mounted_kept dr mid (w_fs w1) (Nn _) (Nn _)) as K2. pose proof (kept_trans _ _ _ _ K1 K2) as K3.
  assert (runs_in w3 d) as R3 by (eapply (kept_runs_in dr w w3); [exact K3|..|exact R]; done).
  assert (p ≠ merged_dir dr mid) as Nm by (by apply outside_merged).
  assert (can_replace w3 p) as C3.
  { eapply (kept_can_replace dr w w3); [exact K3|done| |exact Cr]. intros m Hm Q. cbn [w_mounts upd w3 add_owned] in Hm. rewrite Em1 in Hm. apply elem_of_cons in Hm as [->|?]; [|done].
    by cbn [stack_of mn_at] in Q. }
  destruct (link_fine x d o w3 N) as (w4 & El & L1 & L2 & L3 & L4 & L5 & L6).
  { by apply mounted_wf. }
  { exact R3. }
  { by rewrite Hp. }
  { intros Q. rewrite Hp in Q. rewrite Q in Op. destruct Op as [_ Op]. by destruct dr. }
  { rewrite Em. by apply good_merged. }
  { rewrite Em. apply mounted_merged. }
  { rewrite Em, Hp. by apply not_eq_sym. }
  assert (expand x o w1 = (Ok tt, w4)) as Ee.
  { change (expand x) with (bind (mount_mount (ws_mount x)) (λ _, link_up x)). rewrite Em. unfold bind. rewrite Emm. exact El. }
  assert (outside dr (ws_path x)) as Ox by (by rewrite Hp).
  destruct (expand_settles dr w1 x mid id [rid] a o w4 P G ltac:(done) Ox Em Rd (Nn _) (Nn _)) as [(m & St & Ew) Hs]; [|done|done|].
  { intros k' Hk'. by eapply (touches_empty dr (the_space dr sid) w0). }
  assert (new_stack dr w0 w1 x id) as Ns.
  { eexists mid, [rid]. split; [done|]. split; [exact Em|]. split; [done|]. split; [|exact (live_diff _ _ _ _ _ Lv)]. apply Nn. }
  destruct (expand_after _ _ _ _ _ _ _ _ P G Mc0 O U Ns Ox Ee) as (O2 & U2 & T2).
  assert (sp_id (ws_space x) = sid) as Esid by (by rewrite Es).
  assert (fget (w_fs w) (tree_at dr (sp_id (ws_space x))) = None) as Nt' by (rewrite <-(the_space_ok _ _ S1) in *; exact Nt).
  exists w4, mid, x, id, rid. split; [unfold bind; rewrite E; exact Ee|]. rewrite <-(init_fresh rid id (ws_id x) branch Ne). fold a. split; [|done].
  apply (moved_put dr w w4 p None mid x id [rid] a a m); try done; [|by eapply get_has|by apply san_chain, init_chain|by right].
  constructor; try done.
  - intros q z Eq Nz Np _. rewrite L4 by (by rewrite Hp). by apply (ke_obj _ _ _ K3).
  - intros i Ni _. rewrite Ew, Em1. unfold mounts_below. rewrite filter_cons, decide_False; [done|]. rewrite (se_mn _ _ _ _ _ _ _ _ St). by rewrite merged_other.
  - rewrite Ew, Em1. unfold mounts_below. rewrite filter_cons, decide_True by (rewrite (se_mn _ _ _ _ _ _ _ _ St); apply is_prefix_app). f_equal. apply (new_below dr w mid Io N1).
  - intros m' Hm. rewrite Ew, Em1 in Hm. apply elem_of_cons in Hm as [->|Hm]; [by left|by right].
  - intros i Ni _. rewrite <-Hi1 by done. assert (vital dr (ws_file dr i)) as V by (right; left; by exists i).
    apply Hs; [by apply vital_below_mount..|]. intros Q. by apply (vital_outside _ _ _ V Ox).
  - intros s Hs'. rewrite T2. apply T1. by rewrite <-Esid.
  - apply O2.
  - intros i k' Ni Nk. assert (is_prefix (diff_dir (layers_root dr) i) (diff_dir (layers_root dr) i ++ k') = true) as Hq by apply is_prefix_app.
    rewrite Hs by (try (by apply (in_layer_below dr i)); by apply (in_layer_outside dr i)). exact (touches_empty dr (the_space dr sid) w0 w1 i k' eq_refl W0 To Ni Nk).
Qed.
