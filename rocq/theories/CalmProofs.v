(** * CalmProofs: when the system calls do not fail, the operations succeed *)
From Verif Require Import Base Uid SpecUid UidProofs Tree SpecTree TreeRefine TreeObs Dump DumpProofs Json JsonProofs Save SaveProofs Branch Date Ws BranchProofs SpecWs WsProofs
  Fs Overlay Os Layers Mounts Space Manager FsProofs OsProofs LayerProofs MountProofs SpaceProofs ManagerProofs SpecWorld SpecOps SavedProofs FaultProofs ReadyProofs.
From Coq Require Import Lia.
From stdpp Require Import prelude gmap.

Definition runs {A} (m : M A) (o : oracle) (w : world) : Prop := ∃ x w', m o w = (Ok x, w').
Lemma runs_bind {A C} (m : M A) (f : A → M C) o w : runs m o w → (∀ x w', m o w = (Ok x, w') → runs (f x) o w') → runs (bind m f) o w.
Proof. intros (x & w' & E) H. destruct (H x w' E) as (y & w2 & E2). exists y, w2. unfold bind. by rewrite E. Qed.
Lemma runs_ret {A} (x : A) o w : runs (ret x) o w.
Proof. eexists _, _. reflexivity. Qed.
Lemma runs_gets {A} (f : world → A) o w : runs (gets f) o w.
Proof. eexists _, _. reflexivity. Qed.
Lemma runs_modify f o w : runs (modify f) o w.
Proof. eexists _, _. reflexivity. Qed.
Lemma runs_next {A} (f : Fs.choice → A) o w : runs (next_choice f) o w.
Proof. eexists _, _. reflexivity. Qed.
Lemma runs_lift {A} (r : res A) x o w : r = Ok x → runs (lift r) o w.
Proof. intros ->. eexists _, _. reflexivity. Qed.
Lemma runs_look {A} (f : world → res A) o w x : no_faults o → f (tick w) = Ok x → runs (look f) o w.
Proof. intros F E. unfold look, sys_atomic. eexists _, _. rewrite F, E. reflexivity. Qed.
Lemma runs_mkdir p o w : no_faults o → fget (w_fs w) p = None → is_dir_at (w_fs w) (parent_dir p) = true → runs (os_mkdir p) o w.
Proof.
  intros F N D. apply is_dir_at_Some in D as (b & D). unfold os_mkdir, sys_atomic. eexists _, _. rewrite F.
  unfold mkdir_in. cbn [w_fs tick]. rewrite N, D. reflexivity.
Qed.
Lemma runs_write p d o w : no_faults o → can_write (w_fs w) p → runs (os_write_file p d) o w.
Proof.
  intros F C. unfold os_write_file, sys. eexists _, _. rewrite F. unfold write_in. cbn [w_fs tick].
  destruct C as [[x ->]|[-> ->]]; reflexivity.
Qed.
Lemma look_fine {A} (f : world → res A) o w : no_faults o → look f o w = (f (tick w), tick w).
Proof. intros F. unfold look, sys_atomic. by rewrite F. Qed.
Lemma is_dir_fine p o w : no_faults o → is_dir_at (w_fs w) p = true → fs_is_dir p o w = (Ok true, tick w).
Proof.
  intros F D. unfold fs_is_dir, bind, attempt, os_stat. rewrite look_fine by done. cbn [w_fs tick].
  rewrite (real_dir _ _ D). apply is_dir_at_Some in D as (b & D). by rewrite D.
Qed.
Lemma is_dir_absent p o w : no_faults o → fget (w_fs w) p = None → fs_is_dir p o w = (Ok false, tick w).
Proof.
  intros F D. unfold fs_is_dir, bind, attempt, os_stat. rewrite look_fine by done. cbn [w_fs tick].
  unfold real_path. cbn [real]. by rewrite D.
Qed.

(** ** Layers *)
Lemma runs_layer_create root o w : no_faults o → fs_wf (w_fs w) → fget (w_fs w) (layer_dir root (ch_uid (o (w_tick w)))) = None →
  is_dir_at (w_fs w) root = true → runs (layer_create root) o w.
Proof.
  intros F W N D. unfold layer_create. apply runs_bind; [apply runs_next|]. intros id w1 [= <- <-].
  apply runs_bind; [apply runs_mkdir; [done|done|by rewrite parent_layer]|]. intros u w1 (_ & _ & ->)%mkdir_ok.
  apply runs_bind; [|intros; apply runs_ret]. unfold layer_save. cbn [w_fs tick set_fs].
  apply runs_bind.
  - eexists _, _. apply is_dir_absent; [done|]. cbn [w_fs tick set_fs]. rewrite fget_fset_ne by apply layer_diff_ne. by apply fget_parent_None.
  - intros b w1 (-> & Hb)%is_dir_ok. destruct b; [apply runs_ret|]. apply runs_mkdir; [done|..]; cbn [w_fs tick set_fs].
    + rewrite fget_fset_ne by apply layer_diff_ne. by apply fget_parent_None.
    + rewrite parent_diff. unfold is_dir_at. by rewrite fget_fset_eq.
Qed.
Lemma runs_layer_get root id o w : no_faults o → is_dir_at (w_fs w) (layer_dir root id) = true → runs (layer_get root id) o w.
Proof. intros F D. unfold layer_get. apply runs_bind; [eexists _, _; by apply is_dir_fine|]. intros b w1. rewrite is_dir_fine by done. intros [= <- <-]. apply runs_ret. Qed.
Lemma runs_tree_do (f : tstate → res tstate) t o w : f (w_tree w) = Ok t → runs (tree_do f) o w.
Proof. intros E. unfold tree_do. eexists _, _. rewrite E. reflexivity. Qed.
Lemma runs_create_layer lroot base o w a : no_faults o → fs_wf (w_fs w) → repr (w_tree w) a → layers_present (w_fs w) lroot a →
  has a base → fget (w_fs w) (layer_dir lroot (ch_uid (o (w_tick w)))) = None → is_dir_at (w_fs w) lroot = true → runs (create_layer lroot base) o w.
Proof.
  intros F W R LP Hb N D. unfold create_layer. apply runs_bind; [apply runs_gets|]. intros t w1 [= <- <-].
  destruct (get_Some _ _ _ R Hb) as (b & ? & ? & G & _). rewrite G. apply runs_bind; [by apply runs_layer_create|].
  intros id w1 E. apply layer_create_ok in E as (-> & _ & _ & k & ->); [|done]. set (id := ch_uid (o (w_tick w))) in *.
  pose proof (present_fresh _ _ _ _ LP N) as Nh.
  pose proof (add_node_fresh (w_tree w) a id (Some base) R Nh) as AF.
  apply runs_bind; [unfold make_node; destruct (alloc_node _ _) eqn:?; eexists _, _; reflexivity|].
  intros l w1 E. unfold make_node in E. cbn [w_tree upd] in E. rewrite (repr_id _ _ _ _ R G).
  destruct (alloc_node (w_tree w) (new_node id)) as [t1 l2]. cbn [fst snd] in AF. injection E as <- <-.
  apply runs_bind; [|intros; apply runs_ret]. rewrite G in AF. eapply runs_tree_do. exact AF.
Qed.
Lemma runs_collect lroot a c ch : chain a c ch → ∀ fuel cl o w, no_faults o → repr (w_tree w) a → get (w_tree w) c = Some cl →
  layers_present (w_fs w) lroot a → length ch ≤ fuel → runs (collect_layers fuel lroot (Some cl)) o w.
Proof.
  induction 1 as [c Hr|c p ch Hp Hc IH]; intros fuel cl o w F R G LP Hf; (destruct fuel as [|fuel]; [cbn in Hf; lia|]); cbn [collect_layers].
  - apply runs_bind; [apply runs_gets|]. intros t w1 [= <- <-].
    destruct (get_Some' _ _ _ _ R G) as (an & n & Ea & Nn). rewrite (ni_at _ _ _ _ _ _ Nn), (ni_id _ _ _ _ _ _ Nn).
    apply runs_bind. { apply runs_layer_get; [done|]. apply LP. by exists an. }
    intros id w1 (-> & -> & _)%layer_get_ok.
    rewrite (ni_parent _ _ _ _ _ _ Nn). destruct Hr as (an' & Ea' & P). rewrite Ea in Ea'. injection Ea' as <-. rewrite P. cbn.
    apply runs_bind; [destruct fuel; apply runs_ret|]. intros; apply runs_ret.
  - apply runs_bind; [apply runs_gets|]. intros t w1 [= <- <-].
    destruct (get_Some' _ _ _ _ R G) as (an & n & Ea & Nn). rewrite (ni_at _ _ _ _ _ _ Nn), (ni_id _ _ _ _ _ _ Nn).
    apply runs_bind. { apply runs_layer_get; [done|]. apply LP. by exists an. }
    intros id w1 (-> & -> & _)%layer_get_ok.
    rewrite (ni_parent _ _ _ _ _ _ Nn). destruct Hp as (an' & Ea' & P). rewrite Ea in Ea'. injection Ea' as <-. rewrite P. cbn.
    assert (has a p) as Hpa by (apply (ro_parent _ (r_ok _ _ R) c p); eexists; eauto).
    destruct (get_Some _ _ _ R Hpa) as (pl & _ & _ & Gp & _). rewrite Gp.
    apply runs_bind; [|intros; apply runs_ret]. apply IH; try done. cbn in Hf. lia.
Qed.
Lemma runs_space_mount lroot commit mid mroot o w a : no_faults o → fs_wf (w_fs w) → repr (w_tree w) a → layers_present (w_fs w) lroot a →
  has a commit → fget (w_fs w) (layer_dir lroot (ch_uid (o (w_tick w)))) = None → is_dir_at (w_fs w) lroot = true →
  runs (space_create_mount lroot commit mid mroot) o w.
Proof.
  intros F W R LP Hc N D. unfold space_create_mount. apply runs_bind; [by apply (runs_create_layer _ _ _ _ a)|].
  intros l w1 E. destruct (create_layer_ok _ _ _ _ _ _ _ W R LP E) as (_ & Nh & _ & _ & t' & k & -> & R' & G & Gm & Np).
  set (id := ch_uid (o (w_tick w))) in *.
  apply runs_bind; [apply runs_gets|]. intros t w1 [= <- <-]. cbn [w_tree upd].
  destruct (chain_exists a commit (r_ok _ _ R) Hc) as [ch C]. pose proof (chain_new a id commit ch Nh C) as C'.
  assert (length (id :: ch) ≤ S (size (t_heap t'))) as Hl by (pose proof (chain_heap_size _ _ _ _ R' C'); lia).
  apply runs_bind.
  - apply (runs_collect _ _ _ _ C'); [done|done|done| |done]. by apply present_with_layer.
  - intros ls w1 E1. apply (collect_layers_ok _ _ _ _ C') in E1 as (-> & k1 & ->); [|done|done].
    apply runs_bind; [|intros; apply runs_ret]. eapply runs_lift. rewrite fmap_cons. apply mounts_new_stack. by destruct C.
Qed.
Lemma runs_create_mount dr commit o w a : no_faults o → fs_wf (w_fs w) → repr (w_tree w) a → layers_present (w_fs w) (layers_root dr) a →
  has a commit → fget (w_fs w) (mount_dir dr (ch_uid (o (w_tick w)))) = None →
  fget (w_fs w) (layer_dir (layers_root dr) (ch_uid (o (S (S (w_tick w)))))) = None →
  is_dir_at (w_fs w) (layers_root dr) = true → is_dir_at (w_fs w) (mounts_root dr) = true → runs (create_mount dr commit) o w.
Proof.
  intros F W R LP Hc N1 N2 D1 D2. unfold create_mount. apply runs_bind; [apply runs_next|]. intros mid w1 [= <- <-].
  apply runs_bind; [apply runs_mkdir; [done|done|by rewrite parent_mount]|]. intros u w1 (_ & _ & ->)%mkdir_ok.
  apply (runs_space_mount _ _ _ _ _ _ a); cbn [w_fs w_tree tick set_fs w_tick]; try done.
  - apply wf_add; [done|done|by rewrite parent_mount].
  - intros z Hz. destruct (LP z Hz). split; by apply is_dir_fset_other.
  - rewrite fget_fset_ne; [done|]. apply mount_layer_ne.
  - by apply is_dir_fset_other.
Qed.

(** ** Saving *)
Lemma runs_space_save sp o w a : no_faults o → fair o → repr (w_tree w) a → can_write (w_fs w) (tree_file sp) → runs (space_save sp) o w.
Proof.
  intros F Fo R C. unfold space_save. apply runs_bind; [apply runs_next|]. intros e w1 [= <- <-].
  apply runs_bind; [apply runs_gets|]. intros t w1 [= <- <-]. cbn [w_tree tick].
  destruct (save_load (w_tree w) a (ch_dump (o (w_tick w))) (λ l, l) (λ l, l) R) as (raw & _ & E & _); [apply Fo|done|done|].
  apply runs_bind; [by eapply runs_lift|]. intros raw' w1 (_ & ->)%lift_ok. by apply runs_write.
Qed.
Lemma runs_id_of l id o w : l ≫= node_id (w_tree w) = Some id → runs (id_of l) o w.
Proof. intros E. unfold id_of. apply runs_bind; [apply runs_gets|]. intros t w1 [= <- <-]. rewrite E. apply runs_ret. Qed.
Lemma runs_save_info dr x hid o w a : no_faults o → repr (w_tree w) a → get (w_tree w) hid = Some (ws_head x) →
  can_write (w_fs w) (ws_file dr (mv_id (ws_mount x))) → runs (save_ws_info dr x) o w.
Proof.
  intros F R G C. unfold save_ws_info. apply runs_bind; [by eapply runs_id_of, repr_id|].
  intros h w1 (-> & _)%id_of_ok. by apply runs_write.
Qed.
Lemma runs_finish dr x hid o w a : no_faults o → fair o → space_ok dr (ws_space x) → repr (w_tree w) a → get (w_tree w) hid = Some (ws_head x) →
  can_write (w_fs w) (tree_file (ws_space x)) → can_write (w_fs w) (ws_file dr (mv_id (ws_mount x))) →
  runs (space_save (ws_space x) ;;; save_ws_info dr x ;;; ret x) o w.
Proof.
  intros F Fo S R G C1 C2. apply runs_bind; [by eapply runs_space_save|]. intros u w1 (raw & k & _ & _ & ->)%space_save_ok.
  apply runs_bind; [|intros; apply runs_ret]. apply (runs_save_info _ _ hid _ _ a); [done..|]. cbn [w_fs upd].
  destruct (tree_file_ne dr _ S) as (T1 & T2 & T3 & T4 & T5). 
  destruct C2 as [[x' E]|[E D]].
  - left. exists x'. rewrite fget_fset_ne; [done|]. apply T2.
  - right. split; [rewrite fget_fset_ne; [done|]; apply T2|]. apply is_dir_write; [done|]. by apply can_write_not_dir.
Qed.

(** ** Operations on an open workspace *)
Lemma ready_roots dr w x a hid : ready dr w x a hid → is_dir_at (w_fs w) (layers_root dr) = true ∧ is_dir_at (w_fs w) (mounts_root dr) = true.
Proof.
  intros Rd. pose proof (ready_has _ _ _ _ _ Rd) as H. destruct Rd as [[W _ LP _ _] _ M]. split.
  - destruct (LP hid H) as [D _]. apply is_dir_at_Some in D as (b & D). unfold layer_dir in D. by apply W in D.
  - unfold mount_dir in M. by apply W in M.
Qed.
Lemma can_write_mounted fs dr sp mid id : space_ok dr sp → can_write fs (tree_file sp) → can_write (mount_files fs dr mid id) (tree_file sp).
Proof.
  intros S C. destruct (tree_file_ne dr _ S) as (T1 & T2 & T3 & T4 & T5). unfold can_write. rewrite mount_files_get, decide_False.
  - destruct C as [C|[C D]]; [by left|right]. split; [done|]. by apply mount_files_dir.
  - intros [E|[E|E]]; [by eapply T1|by eapply T3|by eapply T4].
Qed.
Lemma can_write_wsfile fs dr mid id : fget fs (ws_file dr mid) = None → is_dir_at fs (mounts_root dr) = true →
  can_write (mount_files fs dr mid id) (ws_file dr mid).
Proof.
  intros N D. right. rewrite parent_wsfile. split; [|by apply mount_files_dir].
  rewrite mount_files_get, decide_False; [done|].
  intros [E|[E|E]]; [by apply wsfile_mount_ne in E|by apply wsfile_layer_ne in E|by apply wsfile_diff_ne in E].
Qed.
Lemma runs_commit_live dr x date msg o w a hid : no_faults o → fair o → fresh_ids dr o w → live dr w x a hid →
  is_dir_at (w_fs w) (layers_root dr) = true → is_dir_at (w_fs w) (mounts_root dr) = true →
  may_commit x a hid → runs (commit_ws dr x date msg) o w.
Proof.
  intros F Fo Fr Rd D1 D2 Mc. pose proof (ready_write _ _ _ _ _ Rd) as C0.
  destruct Rd as [W [R G] LP S _]. unfold commit_ws.
  destruct (get_Some' _ _ _ _ R G) as (an & n & Ea & Nn).
  pose proof (set_to_node_repr (w_tree w) a hid an (ws_head x) date msg R G Ea) as R1.
  set (t1 := set_to_node (w_tree w) (ws_head x) date msg) in *. set (a1 := put_node a hid (dated an date msg)) in *.
  apply runs_bind; [apply runs_modify|]. intros u w1 [= _ <-]. fold t1.
  assert (get t1 hid = Some (ws_head x)) as G1 by (unfold t1; rewrite set_to_node_eq; exact G).
  apply runs_bind; [eapply runs_id_of; cbn [mbind option_bind w_tree set_tree]; by eapply repr_id|].
  intros hid' w1 (-> & c & [= <-] & E)%id_of_ok. cbn [w_tree set_tree] in E. apply (node_id_get _ _ _ _ _ R1 G1) in E as ->.
  assert (layers_present (w_fs w) (layers_root dr) a1) as LP1.
  { intros z Hz. apply LP. by apply (put_has' a hid an (dated an date msg)). }
  assert (has a1 hid) as Hh by (by eapply get_has).
  apply runs_bind. { apply (runs_create_mount _ _ _ _ a1); cbn [w_fs w_tree w_tick set_tree]; try done; apply Fr; lia. }
  intros [m l] w1 E. apply (create_mount_ok _ _ _ (set_tree w t1) _ _ _ a1) in E; [|done|exact R1|exact LP1]. cbn [w_tick w_fs w_mounts w_tree set_tree] in E.
  destruct E as (Hc & Nh & N & _ & N1 & _ & (ch & C & ->) & t2 & k & -> & R2 & G2 & Gm & Np).
  pose proof (proj1 (proj2 (Fr (w_tick w) ltac:(lia)))) as Nf.
  set (mid := ch_uid (o (w_tick w))) in *. set (id := ch_uid (o (Datatypes.S (Datatypes.S (w_tick w))))) in *.
  assert (∀ w3, (∃ t3 a3, w3 = upd w (mount_files (w_fs w) dr mid id) (w_mounts w) t3 k ∧ repr t3 a3 ∧ get t3 id = Some l) →
    let y := WS (ws_id x) (ws_path x) (ws_space x) (stack_mount (layers_root dr) (mount_dir dr mid) mid id ch) l (local_name (ws_current x)) in
    runs (space_save (ws_space x) ;;; save_ws_info dr y ;;; ret y) o w3) as Fin.
  { intros w3 (t3 & a3 & -> & R3 & G3). cbv zeta. apply (runs_finish dr (WS _ _ _ _ _ _) id _ _ a3); cbn [ws_space ws_mount stack_mount mv_id w_fs w_tree upd]; try done.
    - by apply can_write_mounted.
    - by apply can_write_wsfile. }
  cbn [snd fst]. destruct (decide (br_name (ws_current x) = [])) as [Eb|Nb].
  - apply runs_bind; [apply runs_ret|]. intros u' w1 [= _ <-]. apply Fin. eauto.
  - destruct Mc as [Mc|(h & Eh & Ah)]; [by destruct Nb|].
    assert (has (new_child a1 id hid) hid) as Hh2.
    { destruct Hh as (an1 & E1). exists an1. cbn. rewrite lookup_insert_ne; [done|]. intros ->. apply Nh. by exists an1. }
    destruct (proj1 (update_branch_effect t2 _ (full_name (ws_current x)) hid false R2) Hh2 h) as (t3 & E3 & _ & _ & _ & _ & Sg & _).
    { exact Eh. }
    { right. apply (new_child_anc a1 id hid h hid Nh (r_ok _ _ R1) Hc). by apply (put_anc a hid an). }
    apply runs_bind.
    + unfold Manager.parent_of. apply runs_bind; [eexists _, _; reflexivity|]. intros pl w1 [= <- <-]. cbn [w_tree upd]. rewrite Np.
      destruct (get_Some _ _ _ R2 Hh2) as (hl & _ & _ & Gh & _). rewrite Gh.
      pose proof (repr_id _ _ _ _ R2 Gh) as Ni.
      apply runs_bind; [by eapply runs_id_of|]. intros pid w1 (-> & c & [= <-] & E)%id_of_ok. cbn [w_tree upd] in E. rewrite Ni in E. injection E as <-.
      by eapply runs_tree_do.
    + intros u' w1 E. apply bind_ok in E as (pl & w2 & E1 & E). apply parent_of_ok in E1 as (-> & ->).
      apply bind_ok in E as (pid & w2 & E1 & E). apply id_of_ok in E1 as (-> & c & Ec & E1).
      cbn [w_tree upd] in Ec, E1. rewrite Np in Ec. apply (node_id_get _ _ _ _ _ R2 Ec) in E1 as ->.
      apply tree_do_ok in E as (t4 & E & ->). cbn [w_tree upd] in E.
      apply (update_branch_repr _ _ _ _ _ _ R2) in E as (_ & _ & R4 & (_ & Sg4 & _)).
      apply Fin. eexists t4, _. split; [reflexivity|]. split; [exact R4|]. by rewrite Sg4.
Qed.
Lemma runs_commit dr x date msg o w a hid : no_faults o → fair o → fresh_ids dr o w → ready dr w x a hid →
  may_commit x a hid → runs (commit_ws dr x date msg) o w.
Proof. intros F Fo Fr Rd. destruct (ready_roots _ _ _ _ _ Rd). by apply runs_commit_live; [..|apply Rd| |]. Qed.
Lemma runs_new_mount dr x y c o w a hid : no_faults o → fair o → fresh_ids dr o w → live dr w x a hid →
  is_dir_at (w_fs w) (layers_root dr) = true → is_dir_at (w_fs w) (mounts_root dr) = true → has a c →
  (∀ m l, ws_space (y m l) = ws_space x ∧ ws_mount (y m l) = m ∧ ws_head (y m l) = l) →
  runs (ml <- create_mount dr c ;; space_save (ws_space x) ;;; save_ws_info dr (y ml.1 ml.2) ;;; ret (y ml.1 ml.2)) o w.
Proof.
  intros F Fo Fr Rd D1 D2 Hc Hy. pose proof (ready_write _ _ _ _ _ Rd) as C0.
  destruct Rd as [W [R G] LP S _].
  apply runs_bind. { apply (runs_create_mount _ _ _ _ a); try done; apply Fr; lia. }
  intros [m l] w1 E. apply (create_mount_ok _ _ _ w _ _ _ a) in E; [|done..].
  destruct E as (_ & Nh & N & _ & N1 & _ & (ch & C & ->) & t2 & k & -> & R2 & G2 & Gm & Np).
  pose proof (proj1 (proj2 (Fr (w_tick w) ltac:(lia)))) as Nf.
  set (mid := ch_uid (o (w_tick w))) in *. set (id := ch_uid (o (Datatypes.S (Datatypes.S (w_tick w))))) in *. cbn [fst snd].
  destruct (Hy (stack_mount (layers_root dr) (mount_dir dr mid) mid id ch) l) as (Y1 & Y2 & Y3). rewrite <-Y1.
  apply (runs_finish dr _ id _ _ (new_child a id c)); rewrite ?Y1, ?Y2, ?Y3; cbn [stack_mount mv_id w_fs w_tree upd]; try done.
  - by apply can_write_mounted.
  - by apply can_write_wsfile.
Qed.
Lemma runs_search x ref o w r : ws_search (w_tree w) (ws_id x) (ws_head x) ref = Ok r → search_ws x ref o w = (Ok r, w).
Proof. intros E. unfold search_ws, bind, gets, lift. by rewrite E. Qed.
Lemma found_search (t : tstate) a w hid head ref c : repr t a → get t hid = Some head → ref = B "HEAD" ∨ decode_b32 ref ≠ Panic →
  found_id (resolve a w hid ref) = Some c → ∃ l ty, ws_search t w head ref = Ok (Some (Some l, ty)) ∧ get t c = Some l ∧ node_id t l = Some c.
Proof.
  intros R G P E. destruct (ws_search_correct t a w hid head ref R G P) as (o & Eo & Fo).
  destruct o as [[[l|] ty]|]; cbn [ws_found] in Fo.
  - destruct (ws_search_resolve _ _ _ _ _ _ _ _ R G Eo) as (c' & Gc & Ec & Hc & Hr). rewrite Hr in E. destruct ty; cbn in E; injection E as ->; eauto.
  - injection Fo as Fo. by rewrite <-Fo in E.
  - injection Fo as Fo. by rewrite <-Fo in E.
Qed.
Lemma runs_checkout_live dr x key o w a hid c : no_faults o → fair o → fresh_ids dr o w → live dr w x a hid →
  is_dir_at (w_fs w) (layers_root dr) = true → is_dir_at (w_fs w) (mounts_root dr) = true →
  key = B "HEAD" ∨ decode_b32 key ≠ Panic → found_id (resolve a (ws_id x) hid key) = Some c → runs (checkout_ws dr x key) o w.
Proof.
  intros F Fo Fr Rd D1 D2 P E. pose proof (ready_repr _ _ _ _ _ Rd) as R. pose proof (ready_get _ _ _ _ _ Rd) as G.
  destruct (found_search _ _ _ _ _ _ _ R G P E) as (l & ty & Es & Gc & Nc).
  unfold checkout_ws. apply runs_bind; [eexists _, _; by apply runs_search|]. intros f w1. rewrite (runs_search _ _ _ _ _ Es). intros [= <- <-].
  apply runs_bind; [by eapply runs_id_of|]. intros nid w1 (-> & c' & [= <-] & E')%id_of_ok. rewrite Nc in E'. injection E' as <-.
  apply (runs_new_mount dr x (λ m l, WS _ _ _ m l _) c _ _ a hid); try done. by eapply get_has.
Qed.
Lemma runs_checkout dr x key o w a hid c : no_faults o → fair o → fresh_ids dr o w → ready dr w x a hid →
  key = B "HEAD" ∨ decode_b32 key ≠ Panic → found_id (resolve a (ws_id x) hid key) = Some c → runs (checkout_ws dr x key) o w.
Proof. intros F Fo Fr Rd. destruct (ready_roots _ _ _ _ _ Rd). by apply runs_checkout_live; [..|apply Rd| |]. Qed.
Lemma runs_clone_live dr x target o w a hid c : no_faults o → fair o → fresh_ids dr o w → live dr w x a hid →
  is_dir_at (w_fs w) (layers_root dr) = true → is_dir_at (w_fs w) (mounts_root dr) = true →
  SpecTree.parent_of a hid c → runs (clone_ws dr x target) o w.
Proof.
  intros F Fo Fr Rd D1 D2 (an & Ea & Pa). pose proof (ready_repr _ _ _ _ _ Rd) as R. pose proof (ready_get _ _ _ _ _ Rd) as G.
  pose proof (ready_write _ _ _ _ _ Rd) as C0.
  assert (has a c) as Hc by (apply (ro_parent _ (r_ok _ _ R) hid c); by exists an).
  destruct (get_Some' _ _ _ _ R G) as (an' & n & Ea' & Nn). rewrite Ea in Ea'. injection Ea' as <-.
  destruct (get_Some _ _ _ R Hc) as (cl & _ & _ & Gc & _).
  unfold clone_ws, Manager.parent_of. apply runs_bind; [eexists _, _; reflexivity|]. intros pl w1 [= <- <-].
  rewrite (node_is_parent _ _ _ _ _ _ Nn), Pa. cbn. rewrite Gc. pose proof (repr_id _ _ _ _ R Gc) as Ni.
  apply runs_bind; [by eapply runs_id_of|]. intros pid w1 (-> & c' & [= <-] & E')%id_of_ok. rewrite Ni in E'. injection E' as <-.
  destruct Rd as [W _ LP S _].
  apply runs_bind. { apply (runs_create_mount _ _ _ _ a); try done; apply Fr; lia. }
  intros [m l] w1 E. apply (create_mount_ok _ _ _ w _ _ _ a) in E; [|done..].
  destruct E as (_ & Nh & N & _ & N1 & _ & (ch & C & ->) & t2 & k & -> & R2 & G2 & Gm & Np).
  pose proof (proj1 (proj2 (Fr (w_tick w) ltac:(lia)))) as Nf.
  set (mid := ch_uid (o (w_tick w))) in *. set (id := ch_uid (o (Datatypes.S (Datatypes.S (w_tick w))))) in *.
  apply runs_bind; [apply runs_next|]. intros wid w1 [= <- <-]. cbn [fst snd].
  apply (runs_finish dr (WS _ _ _ _ _ _) id _ _ (new_child a id c)); cbn [ws_space ws_mount stack_mount mv_id w_fs w_tree upd tick]; try done.
  - by apply can_write_mounted.
  - by apply can_write_wsfile.
Qed.
Lemma runs_clone dr x target o w a hid c : no_faults o → fair o → fresh_ids dr o w → ready dr w x a hid →
  SpecTree.parent_of a hid c → runs (clone_ws dr x target) o w.
Proof. intros F Fo Fr Rd. destruct (ready_roots _ _ _ _ _ Rd). by apply runs_clone_live; [..|apply Rd| |]. Qed.

(** ** Names are plain text *)
Lemma b32_plain id : Forall (λ c, (b2n c < 128)%N) (uid_b32 id).
Proof.
  eapply Forall_impl; [apply uid_b32_alpha|]. intros c Hc.
  unfold b32_alphabet in Hc. repeat (apply elem_of_cons in Hc as [->|Hc]; [vm_compute; reflexivity|]). by apply elem_of_nil in Hc.
Qed.
Lemma b32_valid id : valid_utf8 (uid_b32 id) = true.
Proof. apply plain_valid, b32_plain. Qed.
Lemma local_key_valid wid name : valid_utf8 (local_key wid name) = valid_utf8 name.
Proof. unfold local_key. rewrite plain_valid_app by apply b32_plain. apply plain_valid_app. by repeat constructor. Qed.
