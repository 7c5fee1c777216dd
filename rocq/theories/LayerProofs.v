(** * LayerProofs: lemmas about the layer store *)
From Verif Require Import Base Uid SpecUid UidProofs Tree Dump Branch Date SaveProofs Fs Overlay Os Layers FsProofs OsProofs.
From Coq Require Import Lia.
From stdpp Require Import prelude sorting.

(** A file system is a tree: whatever exists lies in a directory. *)
Definition fs_wf (fs : files) : Prop := ∀ p n x, fget fs (p ++ [n]) = Some x → is_dir_at fs p = true.
(** The world with other files, mounts and tree, later *)
Definition upd (w : world) (f : files) (ms : list mount) (t : tstate) (k : nat) : world :=
  World f ms t (w_cwd w) (w_pwd w) (w_out w) k (w_ids w) (w_owned w).

Lemma layer_diff_ne root id id' : layer_dir root id ≠ diff_dir root id'.
Proof. unfold diff_dir, layer_dir. intros E. apply (f_equal length) in E. rewrite !app_length in E. cbn in E. lia. Qed.
Lemma layer_dir_inj root id id' : layer_dir root id = layer_dir root id' → id = id'.
Proof. unfold layer_dir. intros E. apply app_inv_head in E. apply uid_b32_inj. congruence. Qed.
Lemma diff_dir_inj root id id' : diff_dir root id = diff_dir root id' → id = id'.
Proof. unfold diff_dir, layer_dir. intros E. rewrite <-!app_assoc in E. apply app_inv_head in E. apply uid_b32_inj. cbn in E. congruence. Qed.
Lemma diff_prefix_ne root id id' k : id ≠ id' → is_prefix (diff_dir root id) (diff_dir root id' ++ k) = false.
Proof.
  intros N. unfold diff_dir, layer_dir. rewrite <-!app_assoc. cbn. apply diverge_prefix. intros E. by apply N, uid_b32_inj.
Qed.
Lemma layer_prefix_ne root id id' k : id ≠ id' → is_prefix (layer_dir root id) (layer_dir root id' ++ k) = false.
Proof.
  intros N. unfold layer_dir. rewrite <-!app_assoc. cbn. apply diverge_prefix. intros E. by apply N, uid_b32_inj.
Qed.

(** ** Well-formedness is kept *)
Lemma fget_parent_None fs p n : fs_wf fs → fget fs p = None → fget fs (p ++ [n]) = None.
Proof.
  intros W H. destruct (fget fs (p ++ [n])) eqn:E; [|done]. apply W in E. unfold is_dir_at in E. by rewrite H in E.
Qed.
Lemma fget_below_None fs p k : fs_wf fs → fget fs p = None → fget fs (p ++ k) = None.
Proof.
  intros W H. induction k as [|n k IH] using rev_ind; [by rewrite app_nil_r|].
  rewrite app_assoc. by apply fget_parent_None.
Qed.
(** Nothing lies below what is not a directory. *)
Lemma fget_below_not_dir fs p k : fs_wf fs → is_dir_at fs p = false → k ≠ [] → fget fs (p ++ k) = None.
Proof.
  intros W H N. induction k as [|n k IH] using rev_ind; [done|]. rewrite app_assoc.
  destruct (fget fs ((p ++ k) ++ [n])) eqn:E; [|done]. apply W in E. destruct k as [|c k'] eqn:Ek.
  - rewrite app_nil_r in E. congruence.
  - unfold is_dir_at in E. by rewrite IH in E by done.
Qed.
Lemma is_dir_fset_other fs p x q : is_dir_at fs q = true → fget fs p = None → is_dir_at (fset fs p x) q = true.
Proof. intros H N. unfold is_dir_at. rewrite fget_fset. case_decide; [|exact H]. subst. unfold is_dir_at in H. by rewrite N in H. Qed.
Lemma is_dir_write fs p d q : is_dir_at fs q = true → is_dir_at fs p = false → is_dir_at (fset fs p (FFile d)) q = true.
Proof. intros H H'. unfold is_dir_at. rewrite fget_fset. case_decide; [subst; congruence|exact H]. Qed.

Lemma wf_add fs p x : fs_wf fs → fget fs p = None → is_dir_at fs (parent_dir p) = true → fs_wf (fset fs p x).
Proof.
  intros W N D q n y. rewrite fget_fset. case_decide as E.
  - intros [= <-]. subst p. rewrite parent_dir_app in D. unfold is_dir_at in *. rewrite fget_fset_ne; [done|].
    intros E. apply (f_equal length) in E. rewrite app_length in E. cbn in E. lia.
  - intros H. apply W in H. by apply is_dir_fset_other.
Qed.
Lemma wf_write fs p d : fs_wf fs → (∃ x, fget fs p = Some (FFile x)) ∨ (fget fs p = None ∧ is_dir_at fs (parent_dir p) = true) →
  fs_wf (fset fs p (FFile d)).
Proof.
  intros W [[x E]|[? ?]]; [|by apply wf_add]. intros q n y. rewrite fget_fset. case_decide as Eq.
  - intros _. subst p. apply W in E. unfold is_dir_at in *. rewrite fget_fset_ne; [done|].
    intros E'. apply (f_equal length) in E'. rewrite app_length in E'. cbn in E'. lia.
  - intros H. apply W in H. apply is_dir_write; [done|]. unfold is_dir_at. by rewrite E.
Qed.
(** ** Create *)
(** The files after a successful Create *)
Definition with_layer (fs : files) (root : path) (id : uid) : files :=
  fset (fset fs (layer_dir root id) (FDir false)) (diff_dir root id) (FDir false).
Lemma with_layer_get fs root id p : fget (with_layer fs root id) p =
  if decide (p = layer_dir root id ∨ p = diff_dir root id) then Some (FDir false) else fget fs p.
Proof.
  unfold with_layer. rewrite !fget_fset. destruct (decide (diff_dir root id = p)) as [<-|N1].
  - by rewrite decide_True by (by right).
  - destruct (decide (layer_dir root id = p)) as [<-|N2]; [by rewrite decide_True by (by left)|].
    rewrite decide_False; [done|]. by intros [->| ->].
Qed.
Lemma parent_layer root id : parent_dir (layer_dir root id) = root.
Proof. apply parent_dir_app. Qed.
Lemma parent_diff root id : parent_dir (diff_dir root id) = layer_dir root id.
Proof. apply parent_dir_app. Qed.

Lemma layer_create_ok root o w id w' : fs_wf (w_fs w) → layer_create root o w = (Ok id, w') →
  id = ch_uid (o (w_tick w)) ∧ fget (w_fs w) (layer_dir root id) = None ∧ is_dir_at (w_fs w) root = true ∧
  ∃ k, w' = upd w (with_layer (w_fs w) root id) (w_mounts w) (w_tree w) k.
Proof.
  intros W H. unfold layer_create in H. apply bind_ok in H as (i & w1 & E & H). injection E as <- <-.
  set (i := ch_uid (o (w_tick w))) in *.
  apply bind_ok in H as ([] & w2 & E & H). apply mkdir_ok in E as (E1 & E2 & ->).
  apply bind_ok in H as ([] & w3 & E & H). injection H as <- <-.
  cbn [w_fs tick] in E1, E2. rewrite parent_layer in E2.
  split; [done|]. split; [done|]. split; [done|].
  unfold layer_save in E. apply bind_ok in E as (b & w4 & E3 & E). apply is_dir_ok in E3 as (-> & Hb).
  assert (fget (fset (w_fs w) (layer_dir root i) (FDir false)) (diff_dir root i) = None) as N.
  { rewrite fget_fset_ne by apply layer_diff_ne. by apply fget_parent_None. }
  destruct b.
  - exfalso. destruct (Hb eq_refl) as (q & Hq & _). cbn [w_fs tick set_fs] in Hq.
    unfold real_path in Hq. cbn [real] in Hq. by rewrite N in Hq.
  - apply mkdir_ok in E as (_ & _ & ->). eexists. reflexivity.
Qed.
Lemma with_layer_wf fs root id : fs_wf fs → fget fs (layer_dir root id) = None → is_dir_at fs root = true → fs_wf (with_layer fs root id).
Proof.
  intros W N D. unfold with_layer.
  assert (fs_wf (fset fs (layer_dir root id) (FDir false))) as W1 by (apply wf_add; [done|done|by rewrite parent_layer]).
  apply wf_add; [done| |].
  - rewrite fget_fset_ne by apply layer_diff_ne. by apply fget_parent_None.
  - rewrite parent_diff. unfold is_dir_at. by rewrite fget_fset_eq.
Qed.

(** Whatever happens, only the two directories of the new ID may appear; nothing changes. *)
Record only_adds (root : path) (id : uid) (w w' : world) : Prop := {
  oa_fs : ∀ p, p ≠ layer_dir root id → p ≠ diff_dir root id → fget (w_fs w') p = fget (w_fs w) p;
  oa_old : ∀ p x, fget (w_fs w) p = Some x → fget (w_fs w') p = Some x;
  oa_mounts : w_mounts w' = w_mounts w;
  oa_tree : w_tree w' = w_tree w;
  oa_cwd : w_cwd w' = w_cwd w;
  oa_pwd : w_pwd w' = w_pwd w;
  oa_out : w_out w' = w_out w }.
Lemma only_adds_refl root id w k : only_adds root id w (upd w (w_fs w) (w_mounts w) (w_tree w) k).
Proof. by constructor. Qed.
Lemma only_adds_mkdir root id w w' p : only_adds root id w w' → p = layer_dir root id ∨ p = diff_dir root id →
  fget (w_fs w') p = None → only_adds root id w (set_fs w' (fset (w_fs w') p (FDir false))).
Proof.
  intros [A1 A2 A3 A4 A5 A6 A7] Hp N. constructor; cbn [w_fs set_fs w_mounts w_tree w_cwd w_pwd w_out]; try done.
  - intros q N1 N2. rewrite fget_fset_ne; [auto|]. destruct Hp; congruence.
  - intros q x E. rewrite fget_fset. case_decide; [|auto]. subst. apply A2 in E. congruence.
Qed.
Lemma layer_create_any root o w r w' : layer_create root o w = (r, w') → only_adds root (ch_uid (o (w_tick w))) w w'.
Proof.
  intros H. set (id := ch_uid (o (w_tick w))).
  assert (hoare (λ x, only_adds root id w x) (os_mkdir (layer_dir root id) ;;; layer_save root id ;;; ret id)
            (λ _ x, only_adds root id w x) (λ x, only_adds root id w x)) as K.
  { eapply h_bind with (R := λ _ x, only_adds root id w x).
    - apply h_mkdir; [intros x X; by destruct X; constructor|]. intros x X N _.
      assert (only_adds root id w (tick x)) as X' by (by destruct X; constructor).
      pose proof (only_adds_mkdir root id w (tick x) (layer_dir root id) X' (or_introl eq_refl) N). done.
    - intros _. eapply h_bind with (R := λ _ x, only_adds root id w x); [|intros _; by apply h_ret].
      apply (h_create_dir [] (diff_dir root id)); [intros x X; by destruct X; constructor|done|done|].
      intros x X N _. pose proof (only_adds_mkdir root id w x (diff_dir root id) X (or_intror eq_refl) N). done. }
  specialize (K o (tick w) ltac:(by constructor)). unfold layer_create in H. rewrite (bind_eq _ _ _ _ id (tick w) eq_refl) in H.
  rewrite H in K. by destruct r.
Qed.
(** An ID whose directory exists is never returned, and nothing changes. *)
Lemma layer_create_collision root o w r w' : is_Some (fget (w_fs w) (layer_dir root (ch_uid (o (w_tick w))))) →
  layer_create root o w = (r, w') → w_fs w' = w_fs w ∧ ∀ id, r ≠ Ok id.
Proof.
  intros [x X] H. unfold layer_create in H. rewrite (bind_eq _ _ _ _ _ (tick w) eq_refl) in H.
  set (id := ch_uid (o (w_tick w))) in *.
  assert (mkdir_in (w_fs (tick (tick w))) (layer_dir root id) = Err EEXIST) as Mk.
  { unfold mkdir_in. cbn [w_fs tick]. by rewrite X. }
  unfold os_mkdir, sys_atomic, bind in H. cbv beta in H. rewrite Mk in H.
  destruct (ch_fault (o (w_tick (tick w)))) as [|e n|[|n]]; injection H as <- <-; done.
Qed.

(** ** Get and List *)
Lemma layer_get_ok root id o w id' w' : layer_get root id o w = (Ok id', w') →
  id' = id ∧ w' = tick w ∧ ∃ q, real_path (w_fs w) (layer_dir root id) = Some q ∧ is_dir_at (w_fs w) q = true.
Proof.
  unfold layer_get. intros (b & w1 & E & H)%bind_ok. apply is_dir_ok in E as (-> & Hb). destruct b; [|done].
  injection H as <- <-. eauto.
Qed.
Lemma fs_is_dir_calm p o w : ch_fault (o (w_tick w)) = FNone → is_dir_at (w_fs w) p = true → fs_is_dir p o w = (Ok true, tick w).
Proof.
  intros F D. unfold fs_is_dir, bind, attempt, os_stat, look, sys_atomic. rewrite F. cbn [w_fs tick].
  rewrite (real_dir _ _ D). apply is_dir_at_Some in D as [b ->]. done.
Qed.
Lemma fs_is_dir_calm_no p o w : ch_fault (o (w_tick w)) = FNone → fget (w_fs w) p = None → fs_is_dir p o w = (Ok false, tick w).
Proof.
  intros F D. unfold fs_is_dir, bind, attempt, os_stat, look, sys_atomic. rewrite F. cbn [w_fs tick].
  unfold real_path. cbn [real]. by rewrite D.
Qed.
Lemma layer_get_calm root id o w : ch_fault (o (w_tick w)) = FNone → is_dir_at (w_fs w) (layer_dir root id) = true →
  layer_get root id o w = (Ok id, tick w).
Proof. intros F D. unfold layer_get. by rewrite (bind_eq _ _ _ _ _ _ (fs_is_dir_calm _ _ _ F D)). Qed.

Lemma child_of_Some p q n : child_of p q = Some n ↔ q = p ++ [n].
Proof.
  unfold child_of. destruct (is_prefix p q) eqn:E.
  - apply is_prefix_spec in E as [k ->]. rewrite drop_app. split.
    + destruct k as [|c [|d k]]; try done. intros [= ->]. done.
    + intros H. apply app_inv_head in H as ->. done.
  - split; [done|]. intros ->. by rewrite is_prefix_app in E.
Qed.
Lemma children_elem fs p n : n ∈ children fs p ↔ is_Some (fget fs (p ++ [n])).
Proof.
  unfold children. rewrite merge_sort_Permutation, elem_of_remove_dups, elem_of_list_omap. split.
  - intros ([q x] & H & E). cbn [fst] in E. apply child_of_Some in E as ->. by eapply elem_fget.
  - intros [x E]. exists (p ++ [n], x). split; [by apply fget_elem|]. cbn [fst]. by apply child_of_Some.
Qed.
Lemma children_nodup fs p : NoDup (children fs p).
Proof. unfold children. rewrite merge_sort_Permutation. apply NoDup_remove_dups. Qed.
Lemma children_sorted fs p : StronglySorted name_leq (children fs p).
Proof.
  unfold children. apply StronglySorted_merge_sort.
  - intros x y z. apply bytes_leb_trans.
  - intros x y. apply bytes_leb_total.
Qed.

Lemma sub_elem {A} (l k : list A) x : l `sublist_of` k → x ∈ l → x ∈ k.
Proof. induction 1 as [|y l k S IH|y l k S IH]; [done| |]; rewrite ?elem_of_cons; tauto. Qed.
Lemma sub_nodup {A} (l k : list A) : l `sublist_of` k → NoDup k → NoDup l.
Proof.
  induction 1 as [|y l k S IH|y l k S IH]; [done| |]; rewrite ?NoDup_cons; [|tauto].
  intros [N1 N2]. split; [|auto]. intros H. by apply N1, (sub_elem l k).
Qed.
(** A layer store: every directory in it is named by an ID in its standard form or by something the
    decoder rejects. *)
Definition clean_store (fs : files) (root : path) : Prop :=
  ∀ n, is_dir_at fs (root ++ [n]) = true → (∃ id, n = uid_b32 id) ∨ (∃ e, decode_b32 n = Err e).
Lemma layer_ids_spec fs root names : clean_store fs root → ∃ ids, layer_ids fs root names = Ok ids ∧
  (∀ id, id ∈ ids ↔ uid_b32 id ∈ names ∧ is_dir_at fs (layer_dir root id) = true) ∧
  (uid_b32 <$> ids) `sublist_of` names.
Proof.
  intros C. induction names as [|n names (ids & IH1 & IH2 & IH3)]; cbn [layer_ids].
  - exists []. split; [done|]. split; [|done]. intros id. rewrite !elem_of_nil. tauto.
  - specialize (C n). unfold layer_dir in *. unfold is_dir_at in C, IH2 |- *.
    assert (∀ id, uid_b32 id = n → match fget fs (root ++ [n]) with Some (FDir _) => false | _ => true end = true →
      (uid_b32 id ∈ n :: names ∧ match fget fs (root ++ [uid_b32 id]) with Some (FDir _) => true | _ => false end = true)
      → False) as Skip.
    { intros id <- H [_ H']. destruct (fget fs (root ++ [uid_b32 id])) as [[]|]; done. }
    assert (∀ id, uid_b32 id ≠ n → (uid_b32 id ∈ n :: names) ↔ uid_b32 id ∈ names) as Other.
    { intros id N. rewrite elem_of_cons. tauto. }
    destruct (fget fs (root ++ [n])) as [[b| | |]|] eqn:E.
    1:{ destruct (C eq_refl) as [[id ->]|[e He]].
      - rewrite decode_b32_b32, IH1. exists (id :: ids). split; [done|]. split.
        + intros id'. rewrite elem_of_cons, IH2, elem_of_cons. split.
          * intros [->|[? ?]]; [|tauto]. rewrite E. tauto.
          * intros [[?%uid_b32_inj|?] ?]; [by left|by right].
        + rewrite fmap_cons. by apply sublist_skip.
      - rewrite He, IH1. exists ids. split; [done|]. split; [|by apply sublist_cons].
        intros id'. rewrite IH2, elem_of_cons. split; [tauto|]. intros [[<-|?] ?]; [|tauto]. by rewrite decode_b32_b32 in He. }
    all: rewrite IH1; exists ids; split; [done|]; split; [|by apply sublist_cons];
      intros id'; rewrite IH2; destruct (decide (uid_b32 id' = n)) as [Eq|Ne]; [|by rewrite Other];
      split; [intros [_ H]; by rewrite Eq, E in H|intros H; exfalso; by apply (Skip id')].
Qed.
