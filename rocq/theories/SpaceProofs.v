(** * SpaceProofs: what the operations on a space do when they succeed *)
From Verif Require Import Base Uid SpecUid UidProofs Tree SpecTree TreeRefine TreeObs Dump DumpProofs Save SaveProofs Branch Date
  Fs Overlay Os Layers Mounts Space FsProofs OsProofs LayerProofs MountProofs.
From Coq Require Import Lia.
From stdpp Require Import prelude gmap.

(** ** Tree calls, against the abstract tree *)
Lemma add_branch_repr (t : tstate) a n id t' : repr t a → add_branch t n id = Ok t' →
  has a id ∧ repr t' (put_branches a (<[n := id]> (a_branches a))) ∧ same_nodes t t'.
Proof.
  intros R E. destruct (run_call_refines t a (TAddBranch n id) R I) as (t1 & a1 & r & E1 & S & R1).
  cbn [run_call] in E1. rewrite E in E1. injection E1 as <- <-. inversion S; subst. split; [done|]. split; [done|].
  destruct (add_branch_effect t a n id R) as [[_ H]|[_ (t2 & H & _ & _ & _ & N)]]; congruence.
Qed.
Lemma add_tag_repr (t : tstate) a n id t' : repr t a → add_tag t n id = Ok t' →
  has a id ∧ repr t' (put_tags a (<[n := id]> (a_tags a))) ∧ same_nodes t t'.
Proof.
  intros R E. destruct (run_call_refines t a (TAddTag n id) R I) as (t1 & a1 & r & E1 & S & R1).
  cbn [run_call] in E1. rewrite E in E1. injection E1 as <- <-. inversion S; subst. split; [done|]. split; [done|].
  destruct (add_tag_effect t a n id R) as [[_ H]|[_ (t2 & H & _ & _ & _ & N)]]; congruence.
Qed.
Lemma update_branch_repr (t : tstate) a n id force t' : repr t a → update_branch t n id force = Ok t' →
  has a id ∧ (∃ h, a_branches a !! n = Some h ∧ (force = true ∨ ancestor_or_self a h id)) ∧
  repr t' (put_branches a (<[n := id]> (a_branches a))) ∧ same_nodes t t'.
Proof.
  intros R E. destruct (run_call_refines t a (TUpdateBranch n id force) R I) as (t1 & a1 & r & E1 & S & R1).
  cbn [run_call] in E1. rewrite E in E1. injection E1 as <- <-. inversion S; subst. split; [done|]. split; [eauto|]. split; [done|].
  destruct (update_branch_effect t a n id force R) as (H & _).
  destruct (H ltac:(done) head ltac:(done) ltac:(done)) as (t2 & E2 & _ & _ & _ & N). congruence.
Qed.
Lemma put_delete_branch a n : a_branches a !! n = None → put_branches a (delete n (a_branches a)) = a.
Proof. intros H. rewrite delete_notin by done. by destruct a. Qed.
Lemma put_delete_tag a n : a_tags a !! n = None → put_tags a (delete n (a_tags a)) = a.
Proof. intros H. rewrite delete_notin by done. by destruct a. Qed.
Lemma delete_branch_repr (t : tstate) a n : repr t a →
  repr (delete_branch t n).1 (put_branches a (delete n (a_branches a))) ∧
  ((delete_branch t n).2 = true ↔ is_Some (a_branches a !! n)) ∧ same_nodes t (delete_branch t n).1.
Proof.
  intros R. destruct (run_call_refines t a (TDeleteBranch n) R I) as (t1 & a1 & r & E1 & S & R1).
  cbn [run_call] in E1. pose proof (delete_branch_effect t n) as De. destruct (delete_branch t n) as [t2 b] eqn:Ed. cbn [fst snd].
  injection E1 as <- <-. inversion S; subst.
  - split; [done|]. split; [split; eauto|]. apply De.
  - split.
    + by rewrite put_delete_branch.
    + split; [split; [done|]|apply De]. intros [? ?]. congruence.
Qed.
Lemma delete_tag_repr (t : tstate) a n : repr t a →
  repr (delete_tag t n).1 (put_tags a (delete n (a_tags a))) ∧
  ((delete_tag t n).2 = true ↔ is_Some (a_tags a !! n)) ∧ same_nodes t (delete_tag t n).1.
Proof.
  intros R. destruct (run_call_refines t a (TDeleteTag n) R I) as (t1 & a1 & r & E1 & S & R1).
  cbn [run_call] in E1. pose proof (delete_tag_effect t n) as De. destruct (delete_tag t n) as [t2 b] eqn:Ed. cbn [fst snd].
  injection E1 as <- <-. inversion S; subst.
  - split; [done|]. split; [split; eauto|]. apply De.
  - split.
    + by rewrite put_delete_tag.
    + split; [split; [done|]|apply De]. intros [? ?]. congruence.
Qed.
Lemma grow_get (t : tstate) id pl x : get (grow t id pl) x = if decide (x = id) then Some (t_next t) else get t x.
Proof.
  unfold get, grow; cbn. destruct (decide (x = id)) as [->|]; [by rewrite lookup_insert|].
  rewrite lookup_insert_ne; [done|]. intros E%uid_hex_inj. congruence.
Qed.

(** ** Success of tree steps in programs *)
Lemma tree_do_ok f o w u w' : tree_do f o w = (Ok u, w') → ∃ t, f (w_tree w) = Ok t ∧ w' = set_tree w t.
Proof. unfold tree_do. destruct (f (w_tree w)); try done. intros [= _ <-]. eauto. Qed.
Lemma lift_ok {A} (r : res A) o w x w' : lift r o w = (Ok x, w') → r = Ok x ∧ w' = w.
Proof. unfold lift. by intros [= -> <-]. Qed.

(** The layers of all commits of [a] are there. *)
Definition layers_present (fs : files) (lroot : path) (a : atree) : Prop :=
  ∀ id, has a id → is_dir_at fs (layer_dir lroot id) = true ∧ is_dir_at fs (diff_dir lroot id) = true.
Lemma present_fresh fs lroot a id : layers_present fs lroot a → fget fs (layer_dir lroot id) = None → ¬ has a id.
Proof. intros H N Ha. destruct (H id Ha) as [D _]. unfold is_dir_at in D. by rewrite N in D. Qed.
Lemma with_layer_dir fs lroot id p : fget fs (layer_dir lroot id) = None → fs_wf fs → is_dir_at fs p = true → is_dir_at (with_layer fs lroot id) p = true.
Proof.
  intros N W D. unfold is_dir_at. rewrite with_layer_get. by case_decide.
Qed.
Lemma present_with_layer fs lroot a id an : fs_wf fs → fget fs (layer_dir lroot id) = None →
  layers_present fs lroot a → layers_present (with_layer fs lroot id) lroot (put_node a id an).
Proof.
  intros W N H x Hx. destruct (decide (x = id)) as [->|Ne].
  - unfold is_dir_at. rewrite !with_layer_get. by rewrite !decide_True by auto.
  - assert (has a x) as Ha. { unfold has in *. cbn in Hx. by rewrite lookup_insert_ne in Hx. }
    destruct (H x Ha). split; by apply with_layer_dir.
Qed.

(** ** CreateLayer *)
Definition new_child (a : atree) (id base : uid) : atree := put_node a id (ANode (Some base) ∅ ∅).
Lemma create_layer_ok lroot base o w l w' a : fs_wf (w_fs w) → repr (w_tree w) a → layers_present (w_fs w) lroot a →
  create_layer lroot base o w = (Ok l, w') →
  let id := ch_uid (o (w_tick w)) in
  has a base ∧ ¬ has a id ∧ fget (w_fs w) (layer_dir lroot id) = None ∧ is_dir_at (w_fs w) lroot = true ∧
  ∃ t' k, w' = upd w (with_layer (w_fs w) lroot id) (w_mounts w) t' k ∧ repr t' (new_child a id base) ∧
    get t' id = Some l ∧ (∀ x l', get (w_tree w) x = Some l' → get t' x = Some l') ∧ node_parent t' l = get t' base.
Proof.
  intros W R LP H. unfold create_layer in H. apply bind_ok in H as (t & w1 & E & H). injection E as <- <-.
  destruct (get (w_tree w) base) as [b|] eqn:G; [|done].
  pose proof (get_has _ _ _ _ R G) as Hb.
  apply bind_ok in H as (id & w1 & E & H). apply layer_create_ok in E as (-> & N & D & k & ->); [|done].
  set (id := ch_uid (o (w_tick w))) in *. cbv zeta. pose proof (present_fresh _ _ _ _ LP N) as Nh.
  split; [done|]. split; [done|]. split; [done|]. split; [done|].
  apply bind_ok in H as (l1 & w1 & E & H). unfold make_node in E. cbn [w_tree upd] in E.
  rewrite (repr_id _ _ _ _ R G) in H.
  pose proof (add_node_fresh (w_tree w) a id (Some base) R Nh) as AF.
  destruct (alloc_node (w_tree w) (new_node id)) as [t1 l2] eqn:Eal. cbn [fst snd] in AF. injection E as <- <-.
  apply bind_ok in H as (u & w1 & E & H). injection H as <- <-. apply tree_do_ok in E as (t2 & E & ->).
  cbn [w_tree set_tree upd] in E. rewrite AF, G in E. injection E as <-.
  assert (l2 = t_next (w_tree w)) as -> by (by injection Eal as _ <-).
  assert (repr (grow (w_tree w) id (Some b)) (new_child a id base)) as R'.
  { pose proof (repr_grow (w_tree w) a id (Some base) R Nh Hb) as RG. cbn in RG. by rewrite G in RG. }
  assert (get (grow (w_tree w) id (Some b)) id = Some (t_next (w_tree w))) as G'.
  { rewrite grow_get. by rewrite decide_True. }
  exists (grow (w_tree w) id (Some b)), k. split; [done|]. split; [done|]. split; [done|]. split.
  - intros x l' Gx. rewrite grow_get. rewrite decide_False; [done|]. intros ->. by apply Nh, (get_has _ _ _ _ R Gx).
  - destruct (get_Some' _ _ _ _ R' G') as (an & n & Ea & Nn). rewrite (node_is_parent _ _ _ _ _ _ Nn).
    cbn in Ea. rewrite lookup_insert in Ea. injection Ea as <-. done.
Qed.

(** ** The stack of layers *)
Lemma upd_upd w f ms t k f' ms' t' k' : upd (upd w f ms t k) f' ms' t' k' = upd w f' ms' t' k'.
Proof. done. Qed.
Lemma tick_upd w : tick w = upd w (w_fs w) (w_mounts w) (w_tree w) (S (w_tick w)).
Proof. by destruct w. Qed.
Lemma upd_self w : w = upd w (w_fs w) (w_mounts w) (w_tree w) (w_tick w).
Proof. by destruct w. Qed.
Lemma collect_layers_ok lroot a c ch : chain a c ch → ∀ fuel cl o w ls w', repr (w_tree w) a → get (w_tree w) c = Some cl →
  collect_layers fuel lroot (Some cl) o w = (Ok ls, w') →
  ls = diff_dir lroot <$> ch ∧ ∃ k, w' = upd w (w_fs w) (w_mounts w) (w_tree w) k.
Proof.
  induction 1 as [c Hr|c p ch Hp Hc IH]; intros fuel cl o w ls w' R G H.
  - destruct fuel as [|fuel]; [done|]. cbn [collect_layers] in H. apply bind_ok in H as (t & w1 & E & H). injection E as <- <-.
    destruct (get_Some' _ _ _ _ R G) as (an & n & Ea & Nn). rewrite (ni_at _ _ _ _ _ _ Nn) in H.
    apply bind_ok in H as (id & w1 & E & H). apply layer_get_ok in E as (-> & -> & _).
    apply bind_ok in H as (ls' & w1 & E & H). injection H as <- <-.
    rewrite (ni_parent _ _ _ _ _ _ Nn) in E. destruct Hr as (an' & Ea' & P). rewrite Ea in Ea'. injection Ea' as <-. rewrite P in E. cbn in E.
    assert (ls' = [] ∧ w1 = tick w) as [-> ->] by (destruct fuel; by injection E as <- <-).
    rewrite (ni_id _ _ _ _ _ _ Nn). split; [done|]. eexists. apply tick_upd.
  - destruct fuel as [|fuel]; [done|]. cbn [collect_layers] in H. apply bind_ok in H as (t & w1 & E & H). injection E as <- <-.
    destruct (get_Some' _ _ _ _ R G) as (an & n & Ea & Nn). rewrite (ni_at _ _ _ _ _ _ Nn) in H.
    apply bind_ok in H as (id & w1 & E & H). apply layer_get_ok in E as (-> & -> & _).
    apply bind_ok in H as (ls' & w1 & E & H). injection H as <- <-.
    rewrite (ni_parent _ _ _ _ _ _ Nn) in E. destruct Hp as (an' & Ea' & P). rewrite Ea in Ea'. injection Ea' as <-. rewrite P in E. cbn in E.
    assert (has a p) as Hpa by (apply (ro_parent _ (r_ok _ _ R) c p); eexists; eauto).
    destruct (get_Some _ _ _ R Hpa) as (pl & _ & _ & Gp & _). rewrite Gp in E.
    apply (IH fuel pl o (tick w)) in E as (-> & k & ->); [|done|done].
    rewrite (ni_id _ _ _ _ _ _ Nn). split; [done|]. eexists. rewrite tick_upd. apply upd_upd.
Qed.
Lemma chain_mono a a' c l : (∀ x p, parent_of a x p → parent_of a' x p) → (∀ x, is_root a x → is_root a' x) → chain a c l → chain a' c l.
Proof. intros P Ro. induction 1; [constructor; auto|econstructor; eauto]. Qed.
Lemma chain_put a id an c l : ¬ has a id → chain a c l → chain (put_node a id an) c l.
Proof.
  intros N. apply chain_mono.
  - intros x p (an' & E & H). exists an'. split; [|done]. cbn. rewrite lookup_insert_ne; [done|]. intros ->. apply N. by exists an'.
  - intros x (an' & E & H). exists an'. split; [|done]. cbn. rewrite lookup_insert_ne; [done|]. intros ->. apply N. by exists an'.
Qed.
Lemma chain_new a id base ch : ¬ has a id → chain a base ch → chain (new_child a id base) id (id :: ch).
Proof.
  intros N C. apply chain_step with base; [|by apply chain_put].
  exists (ANode (Some base) ∅ ∅). split; [|done]. cbn. by rewrite lookup_insert.
Qed.
Lemma chain_not_nil a c ch : chain a c ch → ch ≠ [].
Proof. by destruct 1. Qed.
Lemma mounts_new_stack mid ls top mroot : ls ≠ [] →
  mounts_new mid (reverse (top :: ls)) mroot =
  Ok (MountV mid (mroot ++ [B "merged"]) (Some (OvlOpts (mroot ++ [B "merged"]) ls top (mroot ++ [B "work"])))).
Proof.
  intros N. unfold mounts_new. rewrite reverse_length. cbn [length].
  assert (S (length ls) <? 2 = false) as -> by (apply Nat.ltb_ge; destruct ls; [done|cbn; lia]).
  do 4 f_equal.
  - cbn [pred]. rewrite reverse_cons, take_app_alt by (by rewrite reverse_length). apply reverse_involutive.
  - rewrite reverse_cons, last_snoc. done.
Qed.

(** ** CreateMount of the space and of the manager *)
(** The mount value: the layers of [ch] below, layer [id] on top *)
Definition stack_mount (lroot mroot : path) (mid id : uid) (ch : list uid) : mountv :=
  MountV mid (mroot ++ [B "merged"])
    (Some (OvlOpts (mroot ++ [B "merged"]) (diff_dir lroot <$> ch) (diff_dir lroot id) (mroot ++ [B "work"]))).
Lemma space_create_mount_ok lroot commit mid mroot o w m l w' a : fs_wf (w_fs w) → repr (w_tree w) a → layers_present (w_fs w) lroot a →
  space_create_mount lroot commit mid mroot o w = (Ok (m, l), w') →
  let id := ch_uid (o (w_tick w)) in
  has a commit ∧ ¬ has a id ∧ fget (w_fs w) (layer_dir lroot id) = None ∧ is_dir_at (w_fs w) lroot = true ∧
  (∃ ch, chain a commit ch ∧ m = stack_mount lroot mroot mid id ch) ∧
  ∃ t' k, w' = upd w (with_layer (w_fs w) lroot id) (w_mounts w) t' k ∧ repr t' (new_child a id commit) ∧
    get t' id = Some l ∧ (∀ x l', get (w_tree w) x = Some l' → get t' x = Some l') ∧ node_parent t' l = get t' commit.
Proof.
  intros W R LP H. unfold space_create_mount in H. apply bind_ok in H as (l1 & w1 & E & H).
  destruct (create_layer_ok _ _ _ _ _ _ _ W R LP E) as (Hc & Nh & N & D & t' & k & -> & R' & G & Gm & Np).
  set (id := ch_uid (o (w_tick w))) in *. cbv zeta.
  apply bind_ok in H as (t & w1 & E1 & H). injection E1 as <- <-. cbn [w_tree upd] in H.
  apply bind_ok in H as (ls & w1 & E1 & H).
  destruct (chain_exists a commit (r_ok _ _ R) Hc) as [ch C]. pose proof (chain_new a id commit ch Nh C) as C'.
  apply (collect_layers_ok _ _ _ _ C') in E1 as (-> & k1 & ->); [|done|done].
  apply bind_ok in H as (m1 & w1 & E1 & H). apply lift_ok in E1 as (E1 & ->). injection H as <- <- <-.
  rewrite fmap_cons, mounts_new_stack in E1 by (by destruct C). injection E1 as <-.
  split; [done|]. split; [done|]. split; [done|]. split; [done|]. split; [exists ch; done|].
  exists t', k1. done.
Qed.

(** ** Save *)
Lemma space_save_ok sp o w u w' : space_save sp o w = (Ok u, w') →
  ∃ raw k, tree_bytes (w_tree w) (ch_dump (o (w_tick w))) = Ok raw ∧
    ((∃ x, fget (w_fs w) (tree_file sp) = Some (FFile x)) ∨ (fget (w_fs w) (tree_file sp) = None ∧ is_dir_at (w_fs w) (sp_dir sp) = true)) ∧
    w' = upd w (fset (w_fs w) (tree_file sp) (FFile raw)) (w_mounts w) (w_tree w) k.
Proof.
  intros H. unfold space_save in H. apply bind_ok in H as (e & w1 & E & H). injection E as <- <-.
  apply bind_ok in H as (t & w1 & E & H). injection E as <- <-.
  apply bind_ok in H as (raw & w1 & E & H). apply lift_ok in E as (E & ->).
  apply write_ok in H as (Hx & ->). exists raw. eexists. split; [exact E|]. split; [|reflexivity].
  cbn [w_fs tick] in Hx. unfold tree_file in *. by rewrite parent_dir_app in Hx.
Qed.
