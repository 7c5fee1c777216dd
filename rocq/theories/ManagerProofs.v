(** * ManagerProofs: what the operations of the manager do when they succeed *)
From Verif Require Import Base Uid SpecUid UidProofs Tree SpecTree TreeRefine TreeObs Dump DumpProofs Save SaveProofs Branch Date Ws SpecWs WsProofs
  Fs Overlay Os Layers Mounts Space Manager FsProofs OsProofs LayerProofs MountProofs SpaceProofs.
From Coq Require Import Lia.
From stdpp Require Import prelude gmap.

(** ** The paths of the data root *)
Lemma app_cons_ne (d : path) a b k k' : a ≠ b → (d ++ [a]) ++ k ≠ (d ++ [b]) ++ k'.
Proof. intros N. rewrite <-!app_assoc. by apply diverge. Qed.
Lemma mount_layer_ne dr mid id : mount_dir dr mid ≠ layer_dir (layers_root dr) id.
Proof. apply app_cons_ne. done. Qed.
Lemma mount_diff_ne dr mid id : mount_dir dr mid ≠ diff_dir (layers_root dr) id.
Proof. unfold diff_dir, layer_dir. rewrite <-app_assoc. apply app_cons_ne. done. Qed.
Lemma space_layer_ne dr mid id : space_dir dr mid ≠ layer_dir (layers_root dr) id.
Proof. apply app_cons_ne. done. Qed.
Lemma space_diff_ne dr mid id : space_dir dr mid ≠ diff_dir (layers_root dr) id.
Proof. unfold diff_dir, layer_dir. rewrite <-app_assoc. apply app_cons_ne. done. Qed.
Lemma space_mount_ne dr sid mid : space_dir dr sid ≠ mount_dir dr mid.
Proof. apply app_cons_ne. done. Qed.
Lemma wsfile_layer_ne dr mid id : ws_file dr mid ≠ layer_dir (layers_root dr) id.
Proof. apply app_cons_ne. done. Qed.
Lemma wsfile_diff_ne dr mid id : ws_file dr mid ≠ diff_dir (layers_root dr) id.
Proof. unfold diff_dir, layer_dir. rewrite <-app_assoc. apply app_cons_ne. done. Qed.
Lemma wsfile_mount_ne dr mid mid' : ws_file dr mid ≠ mount_dir dr mid'.
Proof.
  unfold ws_file, mount_dir. intros E. apply app_inv_head in E. injection E as E. apply (f_equal length) in E.
  rewrite app_length, !uid_b32_length in E. cbn in E. lia.
Qed.
Lemma wsfile_inj dr mid mid' : ws_file dr mid = ws_file dr mid' → mid = mid'.
Proof. unfold ws_file. intros E. apply app_inv_head in E. injection E as E. apply app_inv_tail in E. by apply uid_b32_inj. Qed.
Lemma mount_dir_inj dr mid mid' : mount_dir dr mid = mount_dir dr mid' → mid = mid'.
Proof. unfold mount_dir. intros E. apply app_inv_head in E. injection E as E. by apply uid_b32_inj. Qed.
Lemma space_dir_inj dr mid mid' : space_dir dr mid = space_dir dr mid' → mid = mid'.
Proof. unfold space_dir. intros E. apply app_inv_head in E. injection E as E. by apply uid_b32_inj. Qed.
Lemma parent_mount dr mid : parent_dir (mount_dir dr mid) = mounts_root dr.
Proof. apply parent_dir_app. Qed.
Lemma parent_wsfile dr mid : parent_dir (ws_file dr mid) = mounts_root dr.
Proof. apply parent_dir_app. Qed.
Lemma parent_space dr sid : parent_dir (space_dir dr sid) = spaces_root dr.
Proof. apply parent_dir_app. Qed.

(** ** Small steps *)
Lemma ret_ok {A} (x : A) o w y w' : ret x o w = (Ok y, w') → y = x ∧ w' = w.
Proof. by intros [= <- <-]. Qed.
Lemma id_of_ok l o w id w' : id_of l o w = (Ok id, w') → w' = w ∧ ∃ c, l = Some c ∧ node_id (w_tree w) c = Some id.
Proof.
  unfold id_of. intros H. apply bind_ok in H as (t & w1 & E & H). injection E as <- <-.
  destruct l as [c|]; cbn in H; [|done]. destruct (node_id (w_tree w) c) eqn:E; [|done]. injection H as <- <-. eauto.
Qed.
Lemma parent_of_ok c o w p w' : Manager.parent_of c o w = (Ok p, w') → w' = w ∧ p = node_parent (w_tree w) c.
Proof. unfold Manager.parent_of. intros H. apply bind_ok in H as (t & w1 & E & H). injection E as <- <-. by injection H as <- <-. Qed.
Lemma node_id_get (t : tstate) a id l id' : repr t a → get t id = Some l → node_id t l = Some id' → id' = id.
Proof. intros R G E. rewrite (repr_id _ _ _ _ R G) in E. by injection E as <-. Qed.

(** ** createMount *)
Definition mount_files (fs : files) (dr : path) (mid id : uid) : files :=
  with_layer (fset fs (mount_dir dr mid) (FDir false)) (layers_root dr) id.
Lemma mount_files_get fs dr mid id p : fget (mount_files fs dr mid id) p =
  if decide (p = mount_dir dr mid ∨ p = layer_dir (layers_root dr) id ∨ p = diff_dir (layers_root dr) id) then Some (FDir false) else fget fs p.
Proof.
  unfold mount_files. rewrite with_layer_get, fget_fset. destruct (decide (p = layer_dir _ id ∨ p = diff_dir _ id)) as [D|D].
  - by rewrite decide_True by tauto.
  - destruct (decide (mount_dir dr mid = p)) as [<-|N]; [by rewrite decide_True by tauto|]. rewrite decide_False; [done|]. intros [->|?]; tauto.
Qed.
Lemma create_mount_ok dr commit o w m l w' a : fs_wf (w_fs w) → repr (w_tree w) a → layers_present (w_fs w) (layers_root dr) a →
  create_mount dr commit o w = (Ok (m, l), w') →
  let mid := ch_uid (o (w_tick w)) in
  let id := ch_uid (o (S (S (w_tick w)))) in
  has a commit ∧ ¬ has a id ∧ fget (w_fs w) (layer_dir (layers_root dr) id) = None ∧ is_dir_at (w_fs w) (layers_root dr) = true ∧
  fget (w_fs w) (mount_dir dr mid) = None ∧ is_dir_at (w_fs w) (mounts_root dr) = true ∧
  (∃ ch, chain a commit ch ∧ m = stack_mount (layers_root dr) (mount_dir dr mid) mid id ch) ∧
  ∃ t' k, w' = upd w (mount_files (w_fs w) dr mid id) (w_mounts w) t' k ∧ repr t' (new_child a id commit) ∧
    get t' id = Some l ∧ (∀ x l', get (w_tree w) x = Some l' → get t' x = Some l') ∧ node_parent t' l = get t' commit.
Proof.
  intros W R LP H. unfold create_mount in H. apply bind_ok in H as (mid & w1 & E & H). injection E as <- <-.
  set (mid := ch_uid (o (w_tick w))) in *.
  apply bind_ok in H as (u & w1 & E & H). apply mkdir_ok in E as (N1 & D1 & ->). cbn [w_fs tick] in N1, D1. rewrite parent_mount in D1.
  assert (fs_wf (fset (w_fs w) (mount_dir dr mid) (FDir false))) as W1 by (apply wf_add; [done|done|by rewrite parent_mount]).
  assert (layers_present (fset (w_fs w) (mount_dir dr mid) (FDir false)) (layers_root dr) a) as LP1.
  { intros x Hx. destruct (LP x Hx). split; by apply is_dir_fset_other. }
  apply (space_create_mount_ok _ _ _ _ _ _ _ _ _ a) in H; [|done|done|done].
  cbn [w_tick w_fs w_mounts w_tree tick set_fs] in H. destruct H as (Hc & Nh & N & D & Hm & t' & k & -> & R' & G & Gm & Np).
  set (id := ch_uid (o (S (S (w_tick w))))) in *. cbv zeta.
  split; [done|]. split; [done|]. rewrite fget_fset_ne in N by apply mount_layer_ne. split; [done|].
  split. { unfold is_dir_at in D |- *. rewrite fget_fset_ne in D; [done|]. intros E. unfold mount_dir, layers_root, mounts_root in E.
           apply (f_equal length) in E. rewrite !app_length in E. cbn in E. lia. }
  split; [done|]. split; [done|]. split; [done|]. exists t', k. done.
Qed.
Lemma mount_files_wf fs dr mid id : fs_wf fs → fget fs (layer_dir (layers_root dr) id) = None → is_dir_at fs (layers_root dr) = true →
  fget fs (mount_dir dr mid) = None → is_dir_at fs (mounts_root dr) = true → fs_wf (mount_files fs dr mid id).
Proof.
  intros W N D N1 D1. unfold mount_files. apply with_layer_wf.
  - apply wf_add; [done|done|by rewrite parent_mount].
  - by rewrite fget_fset_ne by apply mount_layer_ne.
  - by apply is_dir_fset_other.
Qed.
Lemma mount_files_dir fs dr mid id p : is_dir_at fs p = true → is_dir_at (mount_files fs dr mid id) p = true.
Proof. intros H. unfold is_dir_at. rewrite mount_files_get. by case_decide. Qed.
Lemma mount_files_present fs dr mid id a base : layers_present fs (layers_root dr) a →
  layers_present (mount_files fs dr mid id) (layers_root dr) (new_child a id base).
Proof.
  intros LP x Hx. destruct (decide (x = id)) as [->|Ne].
  - unfold is_dir_at. rewrite !mount_files_get. by rewrite !decide_True by auto.
  - assert (has a x) as Ha. { unfold has in *. cbn in Hx. by rewrite lookup_insert_ne in Hx. }
    destruct (LP x Ha). split; by apply mount_files_dir.
Qed.

(** ** Saving the tree and the workspace *)
Definition can_write (fs : files) (p : path) : Prop :=
  (∃ x, fget fs p = Some (FFile x)) ∨ (fget fs p = None ∧ is_dir_at fs (parent_dir p) = true).
Lemma save_ws_info_ok dr x o w u w' : save_ws_info dr x o w = (Ok u, w') →
  ∃ h k, node_id (w_tree w) (ws_head x) = Some h ∧ can_write (w_fs w) (ws_file dr (mv_id (ws_mount x))) ∧
    w' = upd w (fset (w_fs w) (ws_file dr (mv_id (ws_mount x))) (FFile (marshal_wsinfo (ws_info x h)))) (w_mounts w) (w_tree w) k.
Proof.
  unfold save_ws_info. intros H. apply bind_ok in H as (h & w1 & E & H). apply id_of_ok in E as (-> & c & [= <-] & E).
  apply write_ok in H as (C & ->). exists h. eexists. split; [done|]. split; [done|]. reflexivity.
Qed.
(** The end of every operation: both files are written. *)
Definition saved_files (fs : files) (dr : path) (x : ws) (head : uid) (raw : bytes) : files :=
  fset (fset fs (tree_file (ws_space x)) (FFile raw)) (ws_file dr (mv_id (ws_mount x))) (FFile (marshal_wsinfo (ws_info x head))).
Lemma finish_ok dr x o w y w' : (space_save (ws_space x) ;;; save_ws_info dr x ;;; ret x) o w = (Ok y, w') →
  y = x ∧ ∃ raw h k, tree_bytes (w_tree w) (ch_dump (o (w_tick w))) = Ok raw ∧ node_id (w_tree w) (ws_head x) = Some h ∧
    can_write (w_fs w) (tree_file (ws_space x)) ∧
    can_write (fset (w_fs w) (tree_file (ws_space x)) (FFile raw)) (ws_file dr (mv_id (ws_mount x))) ∧
    w' = upd w (saved_files (w_fs w) dr x h raw) (w_mounts w) (w_tree w) k.
Proof.
  intros H. apply bind_ok in H as (u & w1 & E & H). apply space_save_ok in E as (raw & k & E & C & ->).
  apply bind_ok in H as (u' & w1 & E1 & H). injection H as <- <-.
  apply save_ws_info_ok in E1 as (h & k1 & E1 & C1 & ->). cbn [w_tree w_fs upd] in E1, C1.
  split; [done|]. exists raw, h. eexists. split; [done|]. split; [done|]. split.
  { unfold can_write, tree_file. by rewrite parent_dir_app. }
  split; [done|]. reflexivity.
Qed.
Lemma can_write_not_dir fs p : can_write fs p → is_dir_at fs p = false.
Proof. unfold can_write, is_dir_at. by intros [[x ->]|[-> _]]. Qed.
Lemma saved_dir fs dr x h raw p : can_write fs (tree_file (ws_space x)) →
  can_write (fset fs (tree_file (ws_space x)) (FFile raw)) (ws_file dr (mv_id (ws_mount x))) →
  is_dir_at fs p = true → is_dir_at (saved_files fs dr x h raw) p = true.
Proof.
  intros C1 C2 D. unfold saved_files. apply is_dir_write; [|by apply can_write_not_dir].
  apply is_dir_write; [done|by apply can_write_not_dir].
Qed.
Lemma saved_wf fs dr x h raw : fs_wf fs → can_write fs (tree_file (ws_space x)) →
  can_write (fset fs (tree_file (ws_space x)) (FFile raw)) (ws_file dr (mv_id (ws_mount x))) → fs_wf (saved_files fs dr x h raw).
Proof. intros W C1 C2. unfold saved_files. apply wf_write; [|done]. by apply wf_write. Qed.

(** ** Commit *)
Lemma current_name x : local_name (ws_current x) = ws_branch x ∧ br_name (ws_current x) = ws_branch x.
Proof. done. Qed.
(** The tree after a commit of working layer [hid] with new working layer [id] *)
Definition commit_tree (a : atree) (an : anode) (hid id : uid) (date : option bytes) (msg : bytes) : atree :=
  new_child (put_node a hid (dated an date msg)) id hid.
Definition move_branch (a : atree) (fn : bytes) (id : uid) : atree := put_branches a (<[fn := id]> (a_branches a)).
Lemma put_parent a id an an' x p : a_nodes a !! id = Some an → an_parent an' = an_parent an →
  SpecTree.parent_of (put_node a id an') x p ↔ SpecTree.parent_of a x p.
Proof.
  intros E P. unfold SpecTree.parent_of. cbn. destruct (decide (x = id)) as [->|N].
  - rewrite lookup_insert, E. split; intros (n & [= <-] & H); [exists an|exists an']; split; congruence.
  - by rewrite lookup_insert_ne.
Qed.
Lemma put_root a id an an' x : a_nodes a !! id = Some an → an_parent an' = an_parent an →
  is_root (put_node a id an') x ↔ is_root a x.
Proof.
  intros E P. unfold is_root. cbn. destruct (decide (x = id)) as [->|N].
  - rewrite lookup_insert, E. split; intros (n & [= <-] & H); [exists an|exists an']; split; congruence.
  - by rewrite lookup_insert_ne.
Qed.
Lemma put_chain a id an an' c l : a_nodes a !! id = Some an → an_parent an' = an_parent an →
  chain (put_node a id an') c l ↔ chain a c l.
Proof.
  intros E P. split; apply chain_mono; intros x *; first [by apply (put_parent a id an an')|by apply (put_root a id an an')].
Qed.
Lemma put_anc a id an an' x y : a_nodes a !! id = Some an → an_parent an' = an_parent an →
  ancestor_or_self (put_node a id an') x y ↔ ancestor_or_self a x y.
Proof.
  intros E P. unfold ancestor_or_self. split; (induction 1 as [|u v z H1 H2 IH]; [constructor|]);
    (econstructor; [|exact IH]); by apply (put_parent a id an an').
Qed.
Lemma new_child_anc a id base x y : ¬ has a id → rooted a → has a y → ancestor_or_self (new_child a id base) x y ↔ ancestor_or_self a x y.
Proof.
  intros N Ro Hy. unfold ancestor_or_self. split.
  - intros H. induction H as [u|u v z H1 H2 IH]; [constructor|].
    assert (SpecTree.parent_of a u v) as Pa.
    { destruct H1 as (n & E & P). cbn in E. rewrite lookup_insert_ne in E by (intros ->; done). by exists n. }
    econstructor; [exact Pa|]. apply IH. by eapply ro_parent.
  - intros H. induction H as [u|u v z H1 H2 IH]; [constructor|].
    econstructor; [|apply IH; by eapply ro_parent].
    destruct H1 as (n & E & P). exists n. split; [|done]. cbn. rewrite lookup_insert_ne; [done|]. intros ->. apply N. by exists n.
Qed.
Lemma put_has' a id an an' x : a_nodes a !! id = Some an → has (put_node a id an') x ↔ has a x.
Proof. intros E. by rewrite (put_has a id an an' x). Qed.

Lemma commit_ws_ok dr x date msg o w y w' a hid : fs_wf (w_fs w) → repr (w_tree w) a → layers_present (w_fs w) (layers_root dr) a →
  get (w_tree w) hid = Some (ws_head x) → commit_ws dr x date msg o w = (Ok y, w') →
  let mid := ch_uid (o (w_tick w)) in
  let id := ch_uid (o (S (S (w_tick w)))) in
  ∃ an ch l a' t' raw e k,
    a_nodes a !! hid = Some an ∧ chain a hid ch ∧ ¬ has a id ∧
    fget (w_fs w) (layer_dir (layers_root dr) id) = None ∧ fget (w_fs w) (mount_dir dr mid) = None ∧
    is_dir_at (w_fs w) (layers_root dr) = true ∧ is_dir_at (w_fs w) (mounts_root dr) = true ∧
    y = WS (ws_id x) (ws_path x) (ws_space x) (stack_mount (layers_root dr) (mount_dir dr mid) mid id ch) l (ws_branch x) ∧
    (ws_branch x = [] ∧ a' = commit_tree a an hid id date msg ∨
     ws_branch x ≠ [] ∧ a' = move_branch (commit_tree a an hid id date msg) (full_name (ws_current x)) hid ∧
       ∃ h, a_branches a !! full_name (ws_current x) = Some h ∧ ancestor_or_self a h hid) ∧
    repr t' a' ∧ get t' id = Some l ∧ tree_bytes t' (ch_dump (o e)) = Ok raw ∧
    can_write (mount_files (w_fs w) dr mid id) (tree_file (ws_space x)) ∧
    can_write (fset (mount_files (w_fs w) dr mid id) (tree_file (ws_space x)) (FFile raw)) (ws_file dr mid) ∧
    w' = upd w (saved_files (mount_files (w_fs w) dr mid id) dr y id raw) (w_mounts w) t' k.
Proof.
  intros W R LP G H. unfold commit_ws in H.
  destruct (get_Some' _ _ _ _ R G) as (an & n & Ea & Nn).
  pose proof (set_to_node_repr (w_tree w) a hid an (ws_head x) date msg R G Ea) as R1.
  set (t1 := set_to_node (w_tree w) (ws_head x) date msg) in *. set (a1 := put_node a hid (dated an date msg)) in *.
  apply bind_ok in H as (u & w1 & E & H). injection E as _ <-. fold t1 in H.
  assert (get t1 hid = Some (ws_head x)) as G1 by (unfold t1; rewrite set_to_node_eq; exact G).
  apply bind_ok in H as (hid' & w1 & E & H). apply id_of_ok in E as (-> & c & [= <-] & E). cbn [w_tree set_tree] in E.
  apply (node_id_get _ _ _ _ _ R1 G1) in E as ->.
  apply bind_ok in H as ([m l] & w1 & E & H).
  assert (layers_present (w_fs w) (layers_root dr) a1) as LP1.
  { intros z Hz. apply LP. by apply (put_has' a hid an (dated an date msg)). }
  apply (create_mount_ok _ _ _ (set_tree w t1) _ _ _ a1) in E; [|done|exact R1|exact LP1]. cbn [w_tick w_fs w_mounts w_tree set_tree] in E.
  destruct E as (Hc & Nh & N & D & N1 & D1 & (ch & C & ->) & t2 & k & -> & R2 & G2 & Gm & Np).
  set (mid := ch_uid (o (w_tick w))) in *. set (id := ch_uid (o (S (S (w_tick w))))) in *. cbv zeta.
  assert (¬ has a id) as Nh' by (intros Hx; apply Nh; by apply (put_has' a hid an)).
  apply (put_chain a hid an) in C; [|done|done].
  apply bind_ok in H as (u1 & w1 & E & H). cbn [snd] in E, H.
  assert (∃ t3 a3, w1 = upd w (mount_files (w_fs w) dr mid id) (w_mounts w) t3 k ∧ repr t3 a3 ∧ get t3 id = Some l ∧
     (ws_branch x = [] ∧ a3 = commit_tree a an hid id date msg ∨
      ws_branch x ≠ [] ∧ a3 = move_branch (commit_tree a an hid id date msg) (full_name (ws_current x)) hid ∧
       ∃ h, a_branches a !! full_name (ws_current x) = Some h ∧ ancestor_or_self a h hid)) as (t3 & a3 & -> & R3 & G3 & Hb).
  { destruct (decide (br_name (ws_current x) = [])) as [Eb|Nb].
    - injection E as _ <-. exists t2, (commit_tree a an hid id date msg). split; [done|]. split; [done|]. split; [done|]. left. done.
    - apply bind_ok in E as (pl & w2 & E1 & E). apply parent_of_ok in E1 as (-> & ->).
      apply bind_ok in E as (pid & w2 & E1 & E). apply id_of_ok in E1 as (-> & c & Ec & E1).
      cbn [w_tree upd] in Ec, E1. rewrite Np in Ec. apply (node_id_get _ _ _ _ _ R2 Ec) in E1 as ->.
      apply tree_do_ok in E as (t3 & E & ->). cbn [w_tree upd] in E.
      apply (update_branch_repr _ _ _ _ _ _ R2) in E as (_ & (h & Eh & Hh) & R3 & (_ & Sg & _)).
      exists t3, (move_branch (commit_tree a an hid id date msg) (full_name (ws_current x)) hid).
      split; [done|]. split; [exact R3|]. split; [by rewrite Sg|]. right. split; [done|]. split; [done|].
      exists h. cbn in Eh. split; [done|]. destruct Hh as [?|Hh]; [done|].
      apply (new_child_anc a1 id hid h hid Nh (r_ok _ _ R1) Hc) in Hh. by apply (put_anc a hid an) in Hh. }
  apply (finish_ok dr (WS _ _ _ _ _ _)) in H as (-> & raw & h & k1 & Er & Eh & C1 & C2 & ->).
  cbn [w_tree upd w_fs w_mounts ws_head ws_space ws_mount mv_id stack_mount] in Er, Eh, C1, C2.
  apply (node_id_get _ _ _ _ _ R3 G3) in Eh as ->.
  exists an, ch, l, a3, t3, raw. eexists _, _. repeat (split; [first [done|exact Er]|]). reflexivity.
Qed.

(** ** Finding a commit *)
Lemma search_no_panic t ref r : search t ref = Ok r → decode_b32 ref ≠ Panic.
Proof.
  unfold search. intros H E. destruct (decode_hex ref) as [id| | | |] eqn:Eh; try done; [|by rewrite E in H].
  unfold decode_hex in Eh. unfold decode_b32 in E. do 2 case_decide; try done. congruence.
Qed.
Lemma ws_search_no_panic t w head ref r : ws_search t w head ref = Ok r → ref = B "HEAD" ∨ decode_b32 ref ≠ Panic.
Proof.
  unfold ws_search. case_decide; [by left|]. destruct (search t ref) eqn:E; try done. intros _. right. by eapply search_no_panic.
Qed.
(** The kind of a reference *)
Definition kind (ty : key_type) (id : uid) : found := match ty with KCommit => FCommit id | KTag => FTag id | KBranch => FBranch id end.
Lemma ws_search_resolve (t : tstate) a w hid head ref l ty : repr t a → get t hid = Some head →
  ws_search t w head ref = Ok (Some (Some l, ty)) → ∃ id, get t id = Some l ∧ node_id t l = Some id ∧ has a id ∧ resolve a w hid ref = kind ty id.
Proof.
  intros R G E. destruct (ws_search_indexed _ _ _ _ _ _ _ _ R G E) as (id & Gi). exists id. split; [done|].
  pose proof (repr_id _ _ _ _ R Gi) as Ei. split; [done|]. split; [by eapply get_has|].
  destruct (ws_search_correct t a w hid head ref R G (ws_search_no_panic _ _ _ _ _ E)) as (o & E' & F).
  rewrite E in E'. injection E' as <-. cbn in F. rewrite Ei in F. injection F as <-. by destruct ty.
Qed.

(** ** Checkout and Clone *)
Lemma checkout_ws_ok dr x key o w y w' a hid : fs_wf (w_fs w) → repr (w_tree w) a → layers_present (w_fs w) (layers_root dr) a →
  get (w_tree w) hid = Some (ws_head x) → checkout_ws dr x key o w = (Ok y, w') →
  let mid := ch_uid (o (w_tick w)) in
  let id := ch_uid (o (S (S (w_tick w)))) in
  ∃ c ty ch l t' raw e k,
    resolve a (ws_id x) hid key = kind ty c ∧ chain a c ch ∧ ¬ has a id ∧
    fget (w_fs w) (layer_dir (layers_root dr) id) = None ∧ fget (w_fs w) (mount_dir dr mid) = None ∧
    is_dir_at (w_fs w) (layers_root dr) = true ∧ is_dir_at (w_fs w) (mounts_root dr) = true ∧
    y = WS (ws_id x) (ws_path x) (ws_space x) (stack_mount (layers_root dr) (mount_dir dr mid) mid id ch) l
           (match ty with KBranch => key | _ => [] end) ∧
    repr t' (new_child a id c) ∧ get t' id = Some l ∧ tree_bytes t' (ch_dump (o e)) = Ok raw ∧
    can_write (mount_files (w_fs w) dr mid id) (tree_file (ws_space x)) ∧
    can_write (fset (mount_files (w_fs w) dr mid id) (tree_file (ws_space x)) (FFile raw)) (ws_file dr mid) ∧
    w' = upd w (saved_files (mount_files (w_fs w) dr mid id) dr y id raw) (w_mounts w) t' k.
Proof.
  intros W R LP G H. unfold checkout_ws in H. apply bind_ok in H as (f & w1 & E & H).
  unfold search_ws in E. apply bind_ok in E as (t & w2 & E2 & E). injection E2 as <- <-. apply lift_ok in E as (E & ->).
  destruct f as [[l ty]|]; [|done]. apply bind_ok in H as (nid & w1 & E1 & H). apply id_of_ok in E1 as (-> & lc & -> & E1).
  destruct (ws_search_resolve _ _ _ _ _ _ _ _ R G E) as (c & Gc & Ec & Hc & Hr). rewrite Ec in E1. injection E1 as <-.
  apply bind_ok in H as ([m l] & w1 & E1 & H).
  apply (create_mount_ok _ _ _ w _ _ _ a) in E1; [|done|done|done].
  destruct E1 as (_ & Nh & N & D & N1 & D1 & (ch & C & ->) & t2 & k & -> & R2 & G2 & Gm & Np).
  set (mid := ch_uid (o (w_tick w))) in *. set (id := ch_uid (o (S (S (w_tick w))))) in *. cbv zeta. cbn [fst snd] in H.
  apply (finish_ok dr (WS _ _ _ _ _ _)) in H as (-> & raw & h & k1 & Er & Eh & C1 & C2 & ->).
  cbn [w_tree upd w_fs w_mounts ws_head ws_space ws_mount mv_id stack_mount] in Er, Eh, C1, C2.
  apply (node_id_get _ _ _ _ _ R2 G2) in Eh as ->.
  exists c, ty, ch, l, t2, raw. eexists _, _. repeat (split; [first [done|exact Er]|]). reflexivity.
Qed.
Lemma clone_ws_ok dr x target o w y w' a hid : fs_wf (w_fs w) → repr (w_tree w) a → layers_present (w_fs w) (layers_root dr) a →
  get (w_tree w) hid = Some (ws_head x) → clone_ws dr x target o w = (Ok y, w') →
  let mid := ch_uid (o (w_tick w)) in
  let id := ch_uid (o (S (S (w_tick w)))) in
  ∃ c ch l t' raw wk e k,
    SpecTree.parent_of a hid c ∧ chain a c ch ∧ ¬ has a id ∧
    fget (w_fs w) (layer_dir (layers_root dr) id) = None ∧ fget (w_fs w) (mount_dir dr mid) = None ∧
    is_dir_at (w_fs w) (layers_root dr) = true ∧ is_dir_at (w_fs w) (mounts_root dr) = true ∧
    y = WS (ch_uid (o wk)) target (ws_space x) (stack_mount (layers_root dr) (mount_dir dr mid) mid id ch) l (ws_branch x) ∧
    repr t' (new_child a id c) ∧ get t' id = Some l ∧ tree_bytes t' (ch_dump (o e)) = Ok raw ∧
    can_write (mount_files (w_fs w) dr mid id) (tree_file (ws_space x)) ∧
    can_write (fset (mount_files (w_fs w) dr mid id) (tree_file (ws_space x)) (FFile raw)) (ws_file dr mid) ∧
    w' = upd w (saved_files (mount_files (w_fs w) dr mid id) dr y id raw) (w_mounts w) t' k.
Proof.
  intros W R LP G H. unfold clone_ws in H. apply bind_ok in H as (pl & w1 & E & H). apply parent_of_ok in E as (-> & ->).
  destruct (get_Some' _ _ _ _ R G) as (an & n & Ea & Nn).
  rewrite (node_is_parent _ _ _ _ _ _ Nn) in H.
  apply bind_ok in H as (c & w1 & E & H). apply id_of_ok in E as (-> & lc & Elc & E1).
  destruct (an_parent an) as [c'|] eqn:Ep; [|done]. cbn in Elc. pose proof (node_id_get _ _ _ _ _ R Elc E1) as ->.
  apply bind_ok in H as ([m l] & w1 & E & H).
  apply (create_mount_ok _ _ _ w _ _ _ a) in E; [|done|done|done].
  destruct E as (_ & Nh & N & D & N1 & D1 & (ch & C & ->) & t2 & k & -> & R2 & G2 & Gm & Np).
  set (mid := ch_uid (o (w_tick w))) in *. set (id := ch_uid (o (S (S (w_tick w))))) in *. cbv zeta. cbn [fst snd] in H.
  apply bind_ok in H as (wid & w1 & E & H). injection E as <- <-.
  apply (finish_ok dr (WS _ _ _ _ _ _)) in H as (-> & raw & h & k1 & Er & Eh & C1 & C2 & ->).
  cbn [w_tree upd w_fs w_mounts ws_head ws_space ws_mount mv_id stack_mount tick] in Er, Eh, C1, C2.
  apply (node_id_get _ _ _ _ _ R2 G2) in Eh as ->.
  exists c', ch, l, t2, raw. eexists _, _, _. split; [by exists an|]. repeat (split; [first [done|exact Er]|]). reflexivity.
Qed.

(** ** Init *)
Definition root_tree (rid : uid) : atree :=
  put_tags (put_node empty_atree rid (ANode None ∅ ∅)) {[root_tag := rid]}.
Lemma root_tree_has rid x : has (root_tree rid) x ↔ x = rid.
Proof.
  unfold has. cbn. destruct (decide (x = rid)) as [->|N]; [rewrite lookup_insert; split; eauto|].
  rewrite lookup_insert_ne, lookup_empty by done. split; [by intros []|done].
Qed.
Lemma space_init_ok lroot o w u w' : fs_wf (w_fs w) → space_init lroot o w = (Ok u, w') →
  let rid := ch_uid (o (w_tick w)) in
  fget (w_fs w) (layer_dir lroot rid) = None ∧ is_dir_at (w_fs w) lroot = true ∧
  ∃ t' k, w' = upd w (with_layer (w_fs w) lroot rid) (w_mounts w) t' k ∧ repr t' (root_tree rid) ∧ root t' = get t' rid.
Proof.
  intros W H. unfold space_init in H. apply bind_ok in H as (u0 & w1 & E & H). injection E as _ <-.
  apply bind_ok in H as (id & w1 & E & H). apply layer_create_ok in E as (-> & N & D & k & ->); [|done].
  cbn [w_tick set_tree w_fs w_mounts w_tree] in *. set (rid := ch_uid (o (w_tick w))) in *. cbv zeta.
  split; [done|]. split; [done|].
  apply bind_ok in H as (l1 & w1 & E & H). unfold make_node in E. cbn [w_tree upd] in E.
  assert (¬ has empty_atree rid) as Nh. { intros [x Hx]. cbn in Hx. by rewrite lookup_empty in Hx. }
  assert (∀ r, ¬ is_root empty_atree r) as Nr. { intros r (x & Hx & _). cbn in Hx. by rewrite lookup_empty in Hx. }
  pose proof (add_node_fresh new_tree empty_atree rid None repr_new Nh) as AF.
  pose proof (repr_grow new_tree empty_atree rid None repr_new Nh Nr) as RG. cbn [mbind option_bind] in RG.
  destruct (alloc_node new_tree (new_node rid)) as [t1 l2] eqn:Eal. cbn [fst snd] in AF. injection E as <- <-.
  apply bind_ok in H as (u1 & w1 & E & H). apply tree_do_ok in E as (t2 & E & ->).
  cbn [w_tree set_tree upd] in E. rewrite AF in E. cbn in E. injection E as <-.
  apply tree_do_ok in H as (t3 & E & ->). cbn [w_tree set_tree upd] in E.
  apply (add_tag_repr _ _ _ _ _ RG) in E as (_ & R3 & (Sr & Sg & _)).
  exists t3, k. split; [done|]. split; [exact R3|]. rewrite Sr, Sg. rewrite grow_get, decide_True by done. done.
Qed.
Lemma create_workspace_ok dr p branch o w x w' : fs_wf (w_fs w) → create_workspace dr p branch o w = (Ok x, w') →
  let sid := ch_uid (o (w_tick w)) in
  let rid := ch_uid (o (S (S (w_tick w)))) in
  ∃ mid id wid l t' raw e k,
    let fs1 := with_layer (fset (w_fs w) (space_dir dr sid) (FDir false)) (layers_root dr) rid in
    let sp := Space sid (space_dir dr sid) in
    let a' := move_branch (new_child (root_tree rid) id rid) (uid_b32 wid ++ B "/" ++ branch) rid in
    rid ≠ id ∧
    fget (w_fs w) (space_dir dr sid) = None ∧ fget (w_fs w) (layer_dir (layers_root dr) rid) = None ∧
    fget (w_fs w) (layer_dir (layers_root dr) id) = None ∧ fget (w_fs w) (mount_dir dr mid) = None ∧
    is_dir_at (w_fs w) (layers_root dr) = true ∧ is_dir_at (w_fs w) (mounts_root dr) = true ∧ is_dir_at (w_fs w) (spaces_root dr) = true ∧
    x = WS wid p sp (stack_mount (layers_root dr) (mount_dir dr mid) mid id [rid]) l branch ∧
    repr t' a' ∧ get t' id = Some l ∧ tree_bytes t' (ch_dump (o e)) = Ok raw ∧
    can_write (mount_files fs1 dr mid id) (tree_file sp) ∧
    can_write (fset (mount_files fs1 dr mid id) (tree_file sp) (FFile raw)) (ws_file dr mid) ∧
    w' = upd w (saved_files (mount_files fs1 dr mid id) dr x id raw) (w_mounts w) t' k.
Proof.
  intros W H. unfold create_workspace in H. apply bind_ok in H as (sp & w1 & E & H).
  unfold create_space in E. apply bind_ok in E as (sid & w2 & E1 & E). injection E1 as <- <-.
  set (sid := ch_uid (o (w_tick w))) in *.
  apply bind_ok in E as (u & w2 & E1 & E). apply mkdir_ok in E1 as (N0 & D0 & ->). cbn [w_fs tick] in N0, D0. rewrite parent_space in D0.
  assert (fs_wf (fset (w_fs w) (space_dir dr sid) (FDir false))) as W1 by (apply wf_add; [done|done|by rewrite parent_space]).
  apply bind_ok in E as (u1 & w2 & E1 & E). injection E as <- <-.
  apply space_init_ok in E1; [|done]. cbn [w_tick w_fs w_mounts w_tree tick set_fs] in E1.
  destruct E1 as (N1 & D1 & t1 & k1 & -> & R1 & Rt1). set (rid := ch_uid (o (S (S (w_tick w))))) in *.
  set (fs1 := with_layer _ _ rid) in *.
  pose proof (with_layer_wf _ _ _ W1 N1 D1) as W2. fold fs1 in W2.
  apply bind_ok in H as (t & w2 & E & H). injection E as <- <-. cbn [w_tree upd] in H.
  apply bind_ok in H as (rid' & w2 & E & H). apply id_of_ok in E as (-> & rl & Erl & E). cbn [w_tree upd] in E. rewrite Rt1 in Erl.
  apply (node_id_get _ _ _ _ _ R1 Erl) in E as ->.
  apply bind_ok in H as ([m l] & w2 & E & H).
  assert (layers_present fs1 (layers_root dr) (root_tree rid)) as LP.
  { intros z ->%root_tree_has. unfold fs1, is_dir_at. rewrite !with_layer_get, !decide_True by auto. done. }
  apply (create_mount_ok _ _ _ (upd _ _ _ _ _) _ _ _ (root_tree rid)) in E; [|done|done|done]. cbn [w_tick w_fs w_mounts w_tree upd] in E.
  destruct E as (_ & Nh & N2 & D2 & N3 & D3 & (ch & C & ->) & t2 & k2 & -> & R2 & G2 & Gm & Np).
  set (mid := ch_uid (o k1)) in *. set (id := ch_uid (o (S (S k1)))) in *. cbn [fst snd] in H.
  apply bind_ok in H as (wid & w1 & E & H). injection E as <- <-. set (wid := ch_uid (o k2)) in *.
  apply bind_ok in H as (pl & w1 & E & H). apply parent_of_ok in E as (-> & ->). cbn [w_tree upd tick] in H. rewrite Np in H.
  apply bind_ok in H as (pid & w1 & E & H). apply id_of_ok in E as (-> & rl2 & Erl2 & E). cbn [w_tree upd tick] in E.
  apply (node_id_get _ _ _ _ _ R2 Erl2) in E as ->.
  apply bind_ok in H as (u2 & w1 & E & H). apply tree_do_ok in E as (t3 & E & ->). cbn [w_tree upd tick] in E.
  apply (add_branch_repr _ _ _ _ _ R2) in E as (_ & R3 & (Sr & Sg & _)).
  assert (get t3 id = Some l) as G3 by (by rewrite Sg).
  apply (finish_ok dr (WS _ _ _ _ _ _)) in H as (-> & raw & h & k3 & Er & Eh & C1 & C2 & ->).
  cbn [w_tree upd w_fs w_mounts ws_head ws_space ws_mount mv_id stack_mount set_tree tick] in Er, Eh, C1, C2.
  apply (node_id_get _ _ _ _ _ R3 G3) in Eh as ->.
  assert (rid ≠ id) as Ne. { intros Ee. apply Nh, root_tree_has. done. }
  assert (ch = [rid]) as ->.
  { apply (chain_det (root_tree rid) rid); [done|]. constructor. exists (ANode None ∅ ∅). cbn. by rewrite lookup_insert. }
  exists mid, id, wid, l, t3, raw. eexists _, _. cbv zeta.
  assert (fget (w_fs w) (layer_dir (layers_root dr) id) = None ∧ fget (w_fs w) (mount_dir dr mid) = None) as [Q1 Q2].
  { unfold fs1 in N2, N3. rewrite with_layer_get in N2, N3. do 2 (case_decide; [done|]).
    rewrite fget_fset_ne in N2 by apply space_layer_ne. by rewrite fget_fset_ne in N3 by apply space_mount_ne. }
  assert (∀ q, length q = S (length dr) → is_dir_at fs1 q = true → is_dir_at (w_fs w) q = true) as Q.
  { intros q Lq. unfold fs1, is_dir_at. rewrite with_layer_get. case_decide as Eq.
    - exfalso. destruct Eq as [-> | ->]; unfold layer_dir, diff_dir, layer_dir, layers_root in Lq; rewrite !app_length in Lq; cbn in Lq; lia.
    - rewrite fget_fset_ne; [done|]. intros <-. unfold space_dir, spaces_root in Lq. rewrite !app_length in Lq. cbn in Lq. lia. }
  rewrite fget_fset_ne in N1 by apply space_layer_ne.
  assert (is_dir_at (w_fs w) (layers_root dr) = true) as Q3 by (apply Q; [by unfold layers_root; rewrite app_length, Nat.add_1_r|done]).
  assert (is_dir_at (w_fs w) (mounts_root dr) = true) as Q4 by (apply Q; [by unfold mounts_root; rewrite app_length, Nat.add_1_r|done]).
  repeat (split; [first [done|exact Er]|]). reflexivity.
Qed.
