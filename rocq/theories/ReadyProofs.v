(** * ReadyProofs: the state of machine and process after each successful operation on a workspace *)
From Verif Require Import Base Uid SpecUid UidProofs Tree SpecTree TreeRefine TreeObs Dump DumpProofs Save SaveProofs Branch BranchProofs Date Ws SpecWs WsProofs
  Fs Overlay Os Layers Mounts Space Manager FsProofs OsProofs LayerProofs MountProofs SpaceProofs ManagerProofs SpecWorld SavedProofs FaultProofs.
From Coq Require Import Lia.
From stdpp Require Import prelude gmap.

(** Workspace [x] is open, with tree [a] and working layer [hid]; the tree is saved. *)
Record live (dr : path) (w : world) (x : ws) (a : atree) (hid : uid) : Prop := {
  rd_wf : fs_wf (w_fs w);
  rd_open : opened w x a hid;
  rd_layers : layers_present (w_fs w) (layers_root dr) a;
  rd_space : space_ok dr (ws_space x);
  rd_disk : holds (w_fs w) (ws_space x) (san_tree a) }.
(** Everything about it is saved. *)
Record ready (dr : path) (w : world) (x : ws) (a : atree) (hid : uid) : Prop := {
  rd_live :> live dr w x a hid;
  rd_info : fget (w_fs w) (ws_file dr (mv_id (ws_mount x))) = Some (FFile (marshal_wsinfo (ws_info x hid)));
  rd_mdir : fget (w_fs w) (mount_dir dr (mv_id (ws_mount x))) = Some (FDir false) }.
Lemma ready_write dr w x a hid : live dr w x a hid → can_write (w_fs w) (tree_file (ws_space x)).
Proof. intros [_ _ _ _ (raw & E & _)]. left. eauto. Qed.
Lemma ready_get dr w x a hid : live dr w x a hid → get (w_tree w) hid = Some (ws_head x).
Proof. by intros [_ [_ ?] _ _ _]. Qed.
Lemma ready_repr dr w x a hid : live dr w x a hid → repr (w_tree w) a.
Proof. by intros [_ [? _] _ _ _]. Qed.
Lemma ready_has dr w x a hid : live dr w x a hid → has a hid.
Proof. intros [_ [R G] _ _ _]. by eapply get_has. Qed.

Lemma ready_saved dr w w0 x a hid fs t' raw e k o : fair o → fs_wf fs → layers_present fs (layers_root dr) a → space_ok dr (ws_space x) →
  repr t' a → get t' hid = Some (ws_head x) → tree_bytes t' (ch_dump (o e)) = Ok raw →
  can_write fs (tree_file (ws_space x)) → can_write (fset fs (tree_file (ws_space x)) (FFile raw)) (ws_file dr (mv_id (ws_mount x))) →
  fget fs (mount_dir dr (mv_id (ws_mount x))) = Some (FDir false) →
  w = upd w0 (saved_files fs dr x hid raw) (w_mounts w0) t' k → ready dr w x a hid.
Proof.
  intros F W LP S R G Er C1 C2 M ->. destruct (tree_file_ne dr _ S) as (T1 & T2 & _). constructor; [constructor|..]; cbn [w_fs w_tree upd].
  - by apply saved_wf.
  - done.
  - intros z Hz. destruct (LP z Hz). split; by apply saved_dir.
  - done.
  - exists raw. unfold saved_files. rewrite fget_fset_ne by exact (λ E, T2 _ (eq_sym E)). rewrite fget_fset_eq. split; [done|].
    eapply bytes_load; [exact R| |exact Er]. apply F.
  - unfold saved_files. by rewrite fget_fset_eq.
  - unfold saved_files. rewrite fget_fset_ne by apply wsfile_mount_ne. by rewrite fget_fset_ne by apply T1.
Qed.

Lemma init_present fs dr rid mid id wid branch : layers_present (mount_files (with_layer fs (layers_root dr) rid) dr mid id) (layers_root dr)
  (init_tree rid id wid branch).
Proof.
  change (layers_present (mount_files (with_layer fs (layers_root dr) rid) dr mid id) (layers_root dr) (new_child (root_tree rid) id rid)).
  apply mount_files_present. intros z ->%root_tree_has. unfold is_dir_at. rewrite !with_layer_get, !decide_True by auto. done.
Qed.
Lemma mount_get fs dr mid id : fget (mount_files fs dr mid id) (mount_dir dr mid) = Some (FDir false).
Proof. rewrite mount_files_get. by rewrite decide_True by auto. Qed.

Lemma create_ready dr p branch o w x w' : fair o → fs_wf (w_fs w) → create_workspace dr p branch o w = (Ok x, w') →
  ∃ rid id, rid ≠ id ∧ ready dr w' x (init_tree rid id (ws_id x) branch) id ∧ ws_branch x = branch ∧ ws_path x = p ∧
    ws_mount x = stack_mount (layers_root dr) (mount_dir dr (mv_id (ws_mount x))) (mv_id (ws_mount x)) id [rid] ∧
    fget (w_fs w) (mount_dir dr (mv_id (ws_mount x))) = None ∧ fget (w_fs w) (layer_dir (layers_root dr) id) = None ∧
    fget (w_fs w) (layer_dir (layers_root dr) rid) = None ∧ ws_space x = Space (ch_uid (o (w_tick w))) (space_dir dr (ch_uid (o (w_tick w)))).
Proof.
  intros F W E. apply create_workspace_ok in E; [|done]. cbv zeta in E. set (sid := ch_uid (o (w_tick w))) in *. set (rid := ch_uid (o (Datatypes.S (Datatypes.S (w_tick w))))) in *.
  destruct E as (mid & id & wid & l & t' & raw & e & k & N & N0 & N1 & N2 & N3 & D1 & D2 & D3 & -> & R & G & Et & C1 & C2 & Ew).
  exists rid, id. split; [done|]. split; [|done]. eapply ready_saved; [exact F|..|exact Ew]; try done; cbn [ws_id ws_space ws_mount ws_head stack_mount mv_id].
  - set (fs0 := fset (w_fs w) (space_dir dr sid) (FDir false)).
    assert (fs_wf fs0) as W0 by (apply wf_add; [done|done|by rewrite parent_space]).
    assert (∀ q, is_dir_at (w_fs w) q = true → is_dir_at fs0 q = true) as Hd by (intros q Hq; by apply is_dir_fset_other).
    assert (fget fs0 (layer_dir (layers_root dr) rid) = None) as N1' by (unfold fs0; by rewrite fget_fset_ne by apply space_layer_ne).
    assert (fs_wf (with_layer fs0 (layers_root dr) rid)) as W1 by (apply with_layer_wf; auto).
    assert (∀ q, fget (w_fs w) q = None → q ≠ space_dir dr sid → q ≠ layer_dir (layers_root dr) rid → q ≠ diff_dir (layers_root dr) rid →
      fget (with_layer fs0 (layers_root dr) rid) q = None) as Hn.
    { intros q Hq A1 A2 A3. rewrite with_layer_get, decide_False by tauto. unfold fs0. by rewrite fget_fset_ne. }
    apply mount_files_wf; [done|..].
    + apply Hn; [done|exact (λ E, space_layer_ne _ _ _ (eq_sym E))|by intros E%layer_dir_inj|apply layer_diff_ne].
    + apply with_layer_dir; auto.
    + apply Hn; [done|exact (λ E, space_mount_ne _ _ _ (eq_sym E))|apply mount_layer_ne|apply mount_diff_ne].
    + apply with_layer_dir; auto.
  - apply init_present.
  - apply mount_get.
Qed.
Lemma commit_ready dr x date msg o w y w' a hid : fair o → live dr w x a hid → commit_ws dr x date msg o w = (Ok y, w') →
  ∃ an ch id a', a_nodes a !! hid = Some an ∧ chain a hid ch ∧ ¬ has a id ∧ commit_result a x an hid id date msg a' ∧ ready dr w' y a' id ∧
    ws_id y = ws_id x ∧ ws_path y = ws_path x ∧ ws_space y = ws_space x ∧ ws_branch y = ws_branch x ∧
    ws_mount y = stack_mount (layers_root dr) (mount_dir dr (mv_id (ws_mount y))) (mv_id (ws_mount y)) id ch ∧
    fget (w_fs w) (mount_dir dr (mv_id (ws_mount y))) = None ∧ fget (w_fs w) (layer_dir (layers_root dr) id) = None.
Proof.
  intros F [W [R G] LP S D] E. apply (commit_ws_ok _ _ _ _ _ _ _ _ a hid) in E; [|done..]. cbv zeta in E.
  set (mid := ch_uid (o (w_tick w))) in *. set (id := ch_uid (o (Datatypes.S (Datatypes.S (w_tick w))))) in *.
  destruct E as (an & ch & l & a' & t' & raw & e & k & Ea & C & Nh & N1 & N2 & D1 & D2 & -> & Hr & R' & G' & Er & C1 & C2 & Ew).
  exists an, ch, id, a'. do 3 (split; [done|]). split; [exact Hr|]. split; [|done].
  eapply ready_saved; [exact F|..|exact Ew]; try done; cbn [ws_id ws_space ws_mount ws_head stack_mount mv_id].
  - by apply mount_files_wf.
  - assert (layers_present (mount_files (w_fs w) dr mid id) (layers_root dr) (commit_tree a an hid id date msg)) as LP'.
    { apply mount_files_present. intros z Hz. apply LP. by apply (put_has a hid an) in Hz. }
    by destruct Hr as [[_ ->]|(_ & -> & _)].
  - apply mount_get.
Qed.
Lemma checkout_ready dr x key o w y w' a hid : fair o → live dr w x a hid → checkout_ws dr x key o w = (Ok y, w') →
  ∃ c ty ch id, resolve a (ws_id x) hid key = kind ty c ∧ chain a c ch ∧ ¬ has a id ∧ ready dr w' y (new_child a id c) id ∧
    ws_id y = ws_id x ∧ ws_path y = ws_path x ∧ ws_space y = ws_space x ∧ ws_branch y = match ty with KBranch => key | _ => [] end ∧
    ws_mount y = stack_mount (layers_root dr) (mount_dir dr (mv_id (ws_mount y))) (mv_id (ws_mount y)) id ch ∧
    fget (w_fs w) (mount_dir dr (mv_id (ws_mount y))) = None ∧ fget (w_fs w) (layer_dir (layers_root dr) id) = None.
Proof.
  intros F [W [R G] LP S D] E. apply (checkout_ws_ok _ _ _ _ _ _ _ a hid) in E; [|done..]. cbv zeta in E.
  set (mid := ch_uid (o (w_tick w))) in *. set (id := ch_uid (o (Datatypes.S (Datatypes.S (w_tick w))))) in *.
  destruct E as (c & ty & ch & l & t' & raw & e & k & Hr & C & Nh & N1 & N2 & D1 & D2 & -> & R' & G' & Er & C1 & C2 & Ew).
  exists c, ty, ch, id. do 3 (split; [done|]). split; [|done].
  eapply ready_saved; [exact F|..|exact Ew]; try done; cbn [ws_id ws_space ws_mount ws_head stack_mount mv_id].
  - by apply mount_files_wf.
  - by apply mount_files_present.
  - apply mount_get.
Qed.
Lemma clone_ready dr x target o w y w' a hid : fair o → live dr w x a hid → clone_ws dr x target o w = (Ok y, w') →
  ∃ c ch id, SpecTree.parent_of a hid c ∧ chain a c ch ∧ ¬ has a id ∧ ready dr w' y (new_child a id c) id ∧
    (∃ n, ws_id y = ch_uid (o n)) ∧ ws_path y = target ∧ ws_space y = ws_space x ∧ ws_branch y = ws_branch x ∧
    ws_mount y = stack_mount (layers_root dr) (mount_dir dr (mv_id (ws_mount y))) (mv_id (ws_mount y)) id ch ∧
    fget (w_fs w) (mount_dir dr (mv_id (ws_mount y))) = None ∧ fget (w_fs w) (layer_dir (layers_root dr) id) = None.
Proof.
  intros F [W [R G] LP S D] E. apply (clone_ws_ok _ _ _ _ _ _ _ a hid) in E; [|done..]. cbv zeta in E.
  set (mid := ch_uid (o (w_tick w))) in *. set (id := ch_uid (o (Datatypes.S (Datatypes.S (w_tick w))))) in *.
  destruct E as (c & ch & l & t' & raw & wk & e & k & Hp & C & Nh & N1 & N2 & D1 & D2 & -> & R' & G' & Er & C1 & C2 & Ew).
  exists c, ch, id. do 3 (split; [done|]). split; [|eauto 10].
  eapply ready_saved; [exact F|..|exact Ew]; try done; cbn [ws_id ws_space ws_mount ws_head stack_mount mv_id].
  - by apply mount_files_wf.
  - by apply mount_files_present.
  - apply mount_get.
Qed.
