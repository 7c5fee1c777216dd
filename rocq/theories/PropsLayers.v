(** * PropsLayers: the layer store, C31. [o] ranges over everything the environment may do: generator
    outputs, failures and crashes of the system calls. *)
From Verif Require Import Base Uid SpecUid UidProofs Tree Dump Branch Date Ws Fs Overlay Os Layers Mounts Space Manager Commands Sample
  FsProofs OsProofs LayerProofs MachineProofs.
From Coq Require Import Lia.
From stdpp Require Import prelude sorting.

(** ** C31 *)
(** Whatever Create returns or wherever it is interrupted: everything that existed is as before, and the
    only paths that may have appeared are the directory of the generated ID and its diff directory. *)
Theorem C31_create_only_adds : ∀ root o w,
  let id := ch_uid (o (w_tick w)) in
  let w' := (layer_create root o w).2 in
  (∀ p x, fget (w_fs w) p = Some x → fget (w_fs w') p = Some x) ∧
  (∀ p, fget (w_fs w') p ≠ fget (w_fs w) p →
     (p = root ++ [uid_b32 id] ∨ p = root ++ [uid_b32 id; B "diff"]) ∧ fget (w_fs w) p = None) ∧
  w_mounts w' = w_mounts w ∧ w_tree w' = w_tree w.
Proof.
  intros root o w id w'. destruct (layer_create root o w) as [r x] eqn:E. cbn in w'. subst w'.
  destruct (layer_create_any _ _ _ _ _ E) as [A1 A2 A3 A4 _ _ _]. split; [done|]. split; [|done].
  intros p N. destruct (decide (p = layer_dir root id)) as [->|N1].
  { split; [by left|]. destruct (fget (w_fs w) _) eqn:F; [|done]. by rewrite (A2 _ _ F) in N. }
  destruct (decide (p = diff_dir root id)) as [->|N2].
  { split; [right; unfold diff_dir, layer_dir; by rewrite <-app_assoc|].
    destruct (fget (w_fs w) _) eqn:F; [|done]. by rewrite (A2 _ _ F) in N. }
  by rewrite (A1 p N1 N2) in N.
Qed.
(** A success means: a new directory that did not exist, with an empty diff directory. *)
Theorem C31_create_success : ∀ root o w id w', fs_wf (w_fs w) → layer_create root o w = (Ok id, w') →
  id = ch_uid (o (w_tick w)) ∧ fget (w_fs w) (root ++ [uid_b32 id]) = None ∧
  fget (w_fs w') (root ++ [uid_b32 id]) = Some (FDir false) ∧
  fget (w_fs w') (root ++ [uid_b32 id; B "diff"]) = Some (FDir false) ∧
  (∀ k, k ≠ [] → fget (w_fs w') (root ++ [uid_b32 id; B "diff"] ++ k) = None) ∧
  (∀ p, p ≠ root ++ [uid_b32 id] → p ≠ root ++ [uid_b32 id; B "diff"] → fget (w_fs w') p = fget (w_fs w) p).
Proof.
  intros root o w id w' W H. destruct (layer_create_ok _ _ _ _ _ W H) as (-> & N & D & k & ->). cbn [w_fs upd].
  set (id := ch_uid (o (w_tick w))) in *.
  assert (root ++ [uid_b32 id; B "diff"] = diff_dir root id) as Ed by (unfold diff_dir, layer_dir; by rewrite <-app_assoc).
  split; [done|]. split; [done|]. rewrite !with_layer_get. rewrite decide_True by (by left).
  split; [done|]. rewrite Ed. rewrite decide_True by (by right). split; [done|]. split.
  - intros k' Nk. change (root ++ [uid_b32 id; B "diff"] ++ k') with (root ++ [uid_b32 id] ++ (B "diff" :: k')).
    rewrite app_assoc, with_layer_get. rewrite decide_False; [by apply fget_below_None|].
    unfold diff_dir, layer_dir. intros [E|E]; apply (f_equal length) in E; rewrite !app_length in E; cbn in E; [lia|]. destruct k'; [done|cbn in E; lia].
  - intros p N1 N2. rewrite with_layer_get, decide_False; [done|]. unfold layer_dir. tauto.
Qed.
(** A generator output that is already in use makes Create fail without any change. *)
Theorem C31_create_collision : ∀ root o w, is_Some (fget (w_fs w) (root ++ [uid_b32 (ch_uid (o (w_tick w)))])) →
  w_fs (layer_create root o w).2 = w_fs w ∧ ∀ id, (layer_create root o w).1 ≠ Ok id.
Proof.
  intros root o w H. destruct (layer_create root o w) as [r x] eqn:E. by apply (layer_create_collision root o w r x).
Qed.
(** Get answers the ID only if its directory is there (possibly through a link); without faults a
    directory is always found, and a missing one never. *)
Theorem C31_get : ∀ root id o w,
  (∀ id' w', layer_get root id o w = (Ok id', w') → id' = id ∧ is_Some (fget (w_fs w) (root ++ [uid_b32 id]))) ∧
  (ch_fault (o (w_tick w)) = FNone → is_dir_at (w_fs w) (root ++ [uid_b32 id]) = true → (layer_get root id o w).1 = Ok id) ∧
  (ch_fault (o (w_tick w)) = FNone → fget (w_fs w) (root ++ [uid_b32 id]) = None → (layer_get root id o w).1 = Err ELayerNotFound) ∧
  w_fs (layer_get root id o w).2 = w_fs w.
Proof.
  intros root id o w. split; [|split; [|split]].
  - intros id' w' H. apply layer_get_ok in H as (-> & _ & q & H & _). split; [done|].
    unfold real_path in H. cbn [real] in H. unfold layer_dir in H. destruct (fget _ _); eauto; done.
  - intros F D. by rewrite (layer_get_calm _ _ _ _ F D).
  - intros F D. unfold layer_get. by rewrite (bind_eq _ _ _ _ _ _ (fs_is_dir_calm_no _ _ _ F D)).
  - assert (keeps (λ x, w_fs x = w_fs w) (layer_get root id)) as K.
    { unfold layer_get. apply keeps_bind; [apply is_dir_keeps; intros ? ?; done|]. intros [|]; [by apply h_ret|by apply h_fail]. }
    specialize (K o w eq_refl). by destruct (layer_get root id o w) as [[]?].
Qed.
(** List, without faults: exactly the IDs whose directories exist, each once, by name. For stores whose
    directories carry standard names or names the decoder rejects. *)
Theorem C31_list : ∀ root o w, ch_fault (o (w_tick w)) = FNone → is_dir_at (w_fs w) root = true → mount_at (w_mounts w) root = None →
  clean_store (w_fs w) root →
  ∃ ids, (layer_list root o w).1 = Ok ids ∧ (∀ id, id ∈ ids ↔ is_dir_at (w_fs w) (root ++ [uid_b32 id]) = true) ∧
    NoDup ids ∧ StronglySorted (λ x y, bytes_leb (uid_b32 x) (uid_b32 y) = true) ids ∧ w_fs (layer_list root o w).2 = w_fs w.
Proof.
  intros root o w F D Mt C. destruct (layer_ids_spec (w_fs w) root (children (w_fs w) root) C) as (ids & E1 & E2 & E3).
  exists ids.
  assert (layer_list root o w = (Ok ids, tick w)) as ->.
  { unfold layer_list, os_readdir, look, sys_atomic, bind. rewrite F. cbn [w_fs tick w_mounts].
    rewrite (real_dir _ _ D). apply is_dir_at_Some in D as [b ->]. rewrite Mt. cbn. by rewrite E1. }
  split; [done|]. split.
  - intros id. rewrite E2. unfold layer_dir. split; [tauto|]. intros H. split; [|done]. apply children_elem.
    apply is_dir_at_Some in H as [b ->]. eauto.
  - split; [|split; [|done]].
    + apply (NoDup_fmap_1 uid_b32). eapply sub_nodup; [exact E3|]. apply children_nodup.
    + assert (StronglySorted name_leq (uid_b32 <$> ids)) as S.
      { assert (StronglySorted name_leq (children (w_fs w) root)) as S by apply children_sorted.
        revert E3 S. generalize (uid_b32 <$> ids) (children (w_fs w) root). clear.
        induction 1 as [|x l k S IH|x l k S IH]; intros H; [done| |].
        - inversion_clear H as [|? ? S' F]. constructor; [auto|]. rewrite Forall_forall in F. apply Forall_forall.
          intros y Hy. apply F. by eapply sub_elem.
        - inversion_clear H. auto. }
      revert S. clear. induction ids as [|x ids IH]; intros S; [constructor|]. rewrite fmap_cons in S.
      inversion_clear S as [|? ? S' F]. constructor; [auto|]. rewrite Forall_forall in F. apply Forall_forall. intros y Hy.
      apply F. by apply elem_of_list_fmap_1.
Qed.
(** For other stores the claim is false: a directory whose name is a second spelling of an ID (C05) is
    listed as a layer that Get does not find. *)
Theorem C31_list_foreign_refuted : ∃ root w id, fs_wf (w_fs w) ∧ (layer_list root calm w).1 = Ok [id] ∧
  (layer_get root id calm w).1 = Err ELayerNotFound.
Proof.
  exists [], (World [([], FDir false); ([B "PMWUGCC2MJGDMIAB5FBGGBSHEJ"], FDir false)] [] new_tree [] None [] 0 (-1, -1)%Z []), 
    (match decode_b32 (B "PMWUGCC2MJGDMIAB5FBGGBSHEI") with Ok u => u | _ => sample_id 0 end).
  split.
  - intros p n x H. apply fget_elem, elem_of_list_In in H. cbn in H. 
    destruct H as [H|[H|[]]]; [destruct p; discriminate H|]. destruct p as [|c p]; [done|]. injection H as _ H _. destruct p; discriminate H.
  - vm_compute. done.
Qed.
(** And a name with a line break makes List panic (C04). *)
Theorem C31_list_panic_refuted : ∃ root w, (layer_list root calm w).1 = Panic.
Proof.
  exists [], (World [([], FDir false); ([LF :: B "PMWUGCC2MJGDMIAB5FBGGBSHE"], FDir false)] [] new_tree [] None [] 0 (-1, -1)%Z []).
  vm_compute. done.
Qed.
(** Delete, whatever happens: nothing outside the directory of the layer changes, nothing new appears, no mount changes. A success
    means that the directory is gone with everything in it. Layers in which something is mounted are not deleted. *)
Lemma remove_all_gone w p q : mounts_below (w_mounts w) p = [] → is_prefix p q = true → fget (remove_all_in w p (λ _, false)) q = None.
Proof.
  intros Em Hq. rewrite remove_all_get. unfold whiteouts. rewrite Em. cbn [fmap list_fmap concat].
  rewrite decide_False by (intros [Q _]; by apply elem_of_nil in Q). rewrite decide_False; [done|].
  assert (existsb (λ m, is_prefix q (mn_at m)) (w_mounts w) = false) as Ee.
  { apply not_true_is_false. rewrite existsb_exists. intros (m & Hm & Q). assert (m ∈ mounts_below (w_mounts w) p) as Hm'.
    { unfold mounts_below. apply elem_of_list_filter. split; [|by apply elem_of_list_In]. by eapply is_prefix_trans. }
    rewrite Em in Hm'. by apply elem_of_nil in Hm'. }
  intros [Q|Q].
  - unfold removed_by in Q. by rewrite Hq, Ee in Q.
  - unfold stays in Q. apply existsb_exists in Q as (kv & _ & Q). by rewrite andb_false_r in Q.
Qed.
Lemma remove_all_less w p keep q x : mounts_below (w_mounts w) p = [] → fget (remove_all_in w p keep) q = Some x → fget (w_fs w) q = Some x.
Proof.
  intros Em. rewrite remove_all_get. unfold whiteouts. rewrite Em. cbn [fmap list_fmap concat].
  rewrite decide_False by (intros [Q _]; by apply elem_of_nil in Q). by destruct (decide _).
Qed.
Theorem C31_delete : ∀ root id o w r w', layer_delete root id o w = (r, w') → mounts_below (w_mounts w) (root ++ [uid_b32 id]) = [] →
  (∀ q, is_prefix (root ++ [uid_b32 id]) q = false → fget (w_fs w') q = fget (w_fs w) q) ∧ (∀ q x, fget (w_fs w') q = Some x → fget (w_fs w) q = Some x) ∧
  w_mounts w' = w_mounts w ∧ w_tree w' = w_tree w ∧
  (∀ id', r = Ok id' → id' = id ∧ ∀ k, fget (w_fs w') ((root ++ [uid_b32 id]) ++ k) = None) ∧
  ((∀ n, ch_fault (o n) = FNone) → is_dir_at (w_fs w) (root ++ [uid_b32 id]) = true → r = Ok id) ∧
  ((∀ n, ch_fault (o n) = FNone) → fget (w_fs w) (root ++ [uid_b32 id]) = None → r = Err ELayerNotFound ∧ w_fs w' = w_fs w).
Proof.
  intros root id o w r w' E Em. unfold layer_delete in E. change (root ++ [uid_b32 id]) with (layer_dir root id) in *. set (p := layer_dir root id) in *.
  unfold bind at 1 in E. destruct (fs_is_dir p o w) as [r1 w1] eqn:Ed.
  assert (w1 = tick w ∧ (∀ e, r1 ≠ Err e)) as [-> Ne1].
  { unfold fs_is_dir, bind, attempt, os_stat, look, sys_atomic in Ed. destruct (ch_fault (o (w_tick w))) as [|e n|[|n]].
    - destruct (real_path _ _) as [q|]; [destruct (fget _ q)|]; cbn in Ed; injection Ed as <- <-; done.
    - cbn in Ed. injection Ed as <- <-. done.
    - by injection Ed as <- <-.
    - by injection Ed as <- <-. }
  assert (∀ keep, let w2 := set_fs (tick (tick w)) (remove_all_in (tick (tick w)) p keep) in
    (∀ q, is_prefix p q = false → fget (w_fs w2) q = fget (w_fs w) q) ∧ (∀ q x, fget (w_fs w2) q = Some x → fget (w_fs w) q = Some x)) as Hr.
  { intros keep w2. split.
    - intros q Nq. unfold w2. cbn [w_fs set_fs]. rewrite remove_all_same; [done|done|]. intros m u Hm Hp. cbn [w_mounts tick] in Hm.
      assert (m ∈ mounts_below (w_mounts w) p) as Hm' by (unfold mounts_below; by apply elem_of_list_filter). rewrite Em in Hm'. by apply elem_of_nil in Hm'.
    - intros q x. unfold w2. cbn [w_fs set_fs]. exact (remove_all_less (tick (tick w)) p keep q x Em). }
  assert ((∀ n, ch_fault (o n) = FNone) → is_dir_at (w_fs w) p = true → r1 = Ok true) as Y1 by (intros F D; rewrite (fs_is_dir_calm p o w (F _) D) in Ed; by injection Ed).
  assert ((∀ n, ch_fault (o n) = FNone) → fget (w_fs w) p = None → r1 = Ok false) as Y2 by (intros F D; rewrite (fs_is_dir_calm_no p o w (F _) D) in Ed; by injection Ed).
  destruct r1 as [[|]|e| | |]; [| |by destruct (Ne1 e)|..].
  2: { injection E as <- <-. split_and!; try done; intros F D; first [by specialize (Y1 F D)|done]. }
  2-4: injection E as <- <-; split_and!; try done; intros F D; first [by specialize (Y1 F D)|by specialize (Y2 F D)].
  assert (∀ r2 w2, os_remove_all p o (tick w) = (r2, w2) →
    (∃ keep, w2 = set_fs (tick (tick w)) (remove_all_in (tick (tick w)) p keep) ∧ ∀ u, r2 = Ok u → keep = λ _, false) ∨ w2 = tick (tick w) ∧ ∀ u, r2 ≠ Ok u) as Hw.
  { intros r2 w2 H. unfold os_remove_all, sys in H. destruct (ch_fault _) as [|e [|n]|[|n]]; injection H as <- <-; [left|right|left|right|left]; eauto; eexists; split; try done. }
  assert ((∀ n, ch_fault (o n) = FNone) → ∃ w2, os_remove_all p o (tick w) = (Ok tt, w2)) as Hc.
  { intros F. unfold os_remove_all, sys. rewrite F. cbn [w_mounts tick]. rewrite Em. by eexists. }
  unfold bind in E. destruct (os_remove_all p o (tick w)) as [r2 w2] eqn:Er.
  assert (w2 = w' ∧ ∀ id', r = Ok id' → id' = id ∧ ∃ u, r2 = Ok u) as [-> Hi] by (destruct r2; injection E as <- <-; split; try done; intros id' [= ->]; eauto).
  split; [|split; [|split; [|split; [|split; [|split]]]]].
  - destruct (Hw _ _ eq_refl) as [(keep & -> & _)|[-> _]]; [apply (Hr keep)|done].
  - destruct (Hw _ _ eq_refl) as [(keep & -> & _)|[-> _]]; [apply (Hr keep)|done].
  - by destruct (Hw _ _ eq_refl) as [(keep & -> & _)|[-> _]].
  - by destruct (Hw _ _ eq_refl) as [(keep & -> & _)|[-> _]].
  - intros id' Q. destruct (Hi _ Q) as [-> [u ->]]. split; [done|]. intros k. destruct (Hw _ _ eq_refl) as [(keep & -> & K)|[_ K]]; [|by destruct (K u)].
    rewrite (K u eq_refl). cbn [w_fs set_fs]. apply remove_all_gone; [exact Em|apply is_prefix_app].
  - intros F _. destruct (Hc F) as [w2 Q]. injection Q as -> ->. by injection E as <-.
  - intros F D. by specialize (Y2 F D).
Qed.
(** Something mounted inside the layer: Delete does not succeed. *)
Theorem C31_delete_mounted : ∀ root id o w id' w', layer_delete root id o w = (Ok id', w') → mounts_below (w_mounts w) (root ++ [uid_b32 id]) = [].
Proof.
  intros root id o w id' w' E. unfold layer_delete in E. apply bind_ok in E as ([|] & w1 & Ed & E); [|done]. apply bind_ok in E as (u & w2 & Er & _).
  assert (w_mounts w1 = w_mounts w) as <-.
  { unfold fs_is_dir in Ed. apply bind_ok in Ed as (x & w3 & Ea & Ed). injection Ed as _ <-. unfold attempt, os_stat, look, sys_atomic in Ea.
    destruct (ch_fault _) as [|e n|[|n]]; [|by injection Ea as _ <-|done|done]. destruct (real_path _ _) as [q|]; [destruct (fget _ q)|]; by injection Ea as _ <-. }
  unfold os_remove_all, sys in Er. destruct (ch_fault _) as [|e [|n]|[|n]]; try done. cbn [w_mounts tick] in Er. unfold layer_dir in Er. by destruct (mounts_below _ _).
Qed.
Print Assumptions C31_create_only_adds.
Print Assumptions C31_create_success.
Print Assumptions C31_create_collision.
Print Assumptions C31_get.
Print Assumptions C31_list.
Print Assumptions C31_delete.
Print Assumptions C31_delete_mounted.
Print Assumptions C31_list_foreign_refuted.
Print Assumptions C31_list_panic_refuted.
(** Two layers made in the sample machine, listed and found; an interrupted Create leaves the first intact. *)
Example C31_sat :
  let r := layers_root sample_dr in
  let m := a <- layer_create r ;; b <- layer_create r ;; l <- layer_list r ;; ret (a, b, l) in
  match m calm sample_world with (Ok (a, b, l), w) => bool_decide (l = [a; b]) && is_dir_at (w_fs w) (diff_dir r b) | _ => false end = true ∧
  match m (with_fault calm 6 (FKill 0)) sample_world with (Crash, w) => is_dir_at (w_fs w) (diff_dir r (sample_id 0)) | _ => false end = true ∧
  clean_store sample_fs r.
Proof.
  cbv zeta. split; [vm_compute; reflexivity|]. split; [vm_compute; reflexivity|].
  intros n H. exfalso. apply is_dir_at_Some in H as [b H]. apply fget_elem, elem_of_list_In in H. cbn in H.
  repeat destruct H as [H|H]; try done.
Qed.
(** Of two layers the first is deleted; the second stays. *)
Example C31_delete_sat :
  let r := layers_root sample_dr in
  let m := a <- layer_create r ;; b <- layer_create r ;; layer_delete r a ;;; l <- layer_list r ;; ret (a, b, l) in
  match m calm sample_world with (Ok (a, b, l), w) => bool_decide (l = [b]) && bool_decide (fget (w_fs w) (diff_dir r a) = None) && is_dir_at (w_fs w) (diff_dir r b) | _ => false end = true.
Proof. cbv zeta. vm_compute. reflexivity. Qed.
