(** * SavedProofs: what the branch and tag operations do, with every fault *)
From Verif Require Import Base Uid SpecUid UidProofs Tree SpecTree TreeRefine TreeObs Dump DumpProofs Save SaveProofs Branch BranchProofs Date Ws SpecWs WsProofs
  Fs Overlay Os Layers Mounts Space Manager FsProofs OsProofs LayerProofs MountProofs SpaceProofs ManagerProofs SpecWorld.
From Coq Require Import Lia.
From stdpp Require Import prelude gmap.

Lemma bytes_cut t e raw n : tree_bytes t e = Ok raw → take n raw = raw ∨ torn (take n raw).
Proof.
  intros E. unfold tree_bytes in E. destruct (dump t e) as [d| | | |]; try done. injection E as E.
  destruct (decide (drop n raw = [])) as [N|N].
  - left. rewrite <-(take_drop n raw) at 2. by rewrite N, app_nil_r.
  - right. intros m ordb ordt. exists EJson. rewrite take_take.
    eapply (truncated_rejected _ _ _ (take (m `min` n) raw) (drop (m `min` n) raw)); [by rewrite E, take_drop|].
    intros Q. apply N. apply (f_equal length) in Q. rewrite drop_length in Q. cbn in Q. apply length_zero_iff_nil. rewrite drop_length. lia.
Qed.
Lemma bytes_load (t : tstate) a e raw : repr t a → dumpenv_ok e → tree_bytes t e = Ok raw → loads_as raw (san_tree a).
Proof.
  intros R He E. split; [|intros n; by eapply bytes_cut].
  intros ordb ordt Hb Ht. destruct (save_load t a e ordb ordt R He Hb Ht) as (raw' & t' & E' & L & R').
  rewrite E in E'. injection E' as <-. eauto.
Qed.
Lemma write_any p d o w r w' : os_write_file p d o w = (r, w') →
  ∃ f, w' = upd w f (w_mounts w) (w_tree w) (S (w_tick w)) ∧
    (f = w_fs w ∧ failed r ∨
     can_write (w_fs w) p ∧ ∃ n, f = fset (w_fs w) p (FFile (take n d)) ∧ (failed r ∧ ¬ whole o ∨ take n d = d)).
Proof.
  unfold os_write_file, sys. destruct (ch_fault _) as [|e [|n]|[|n]] eqn:Ef; cbn [w_fs tick].
  - destruct (write_in_cases (w_fs w) p d) as [[f F]|[e F]]; rewrite F; intros [= <- <-].
    + apply write_in_ok in F as (F1 & ->). eexists. split; [reflexivity|]. right. split; [done|].
      exists (length d). rewrite (take_ge d (length d)) by lia. auto.
    + eexists. split; [reflexivity|]. by left.
  - intros [= <- <-]. eexists. split; [reflexivity|]. by left.
  - destruct (write_in_cases (w_fs w) p (take (pred (S n)) d)) as [[f F]|[e' F]]; rewrite F; intros [= <- <-].
    + apply write_in_ok in F as (F1 & ->). eexists. split; [reflexivity|]. right. split; [done|]. eexists. split; [reflexivity|]. left. split; [done|]. intros Wh. specialize (Wh (w_tick w)). by rewrite Ef in Wh.
    + eexists. split; [reflexivity|]. by left.
  - intros [= <- <-]. eexists. split; [reflexivity|]. by left.
  - destruct (write_in_cases (w_fs w) p (take (pred (S n)) d)) as [[f F]|[e' F]]; rewrite F; intros [= <- <-].
    + apply write_in_ok in F as (F1 & ->). eexists. split; [reflexivity|]. right. split; [done|]. eexists. split; [reflexivity|]. left. split; [done|]. intros Wh. specialize (Wh (w_tick w)). by rewrite Ef in Wh.
    + eexists. split; [reflexivity|]. by left.
Qed.
(** What an attempt to save tree [a] does *)
Definition save_step {A} (cut : Prop) (sp : space) (a : atree) (r : res A) (w w' : world) : Prop :=
  ∃ f k, w' = upd w f (w_mounts w) (w_tree w) k ∧
    (f = w_fs w ∧ failed r ∨
     can_write (w_fs w) (tree_file sp) ∧ ∃ raw, f = fset (w_fs w) (tree_file sp) (FFile raw) ∧
       (loads_as raw (san_tree a) ∨ torn raw ∧ failed r ∧ cut)).
Lemma space_save_any sp o w r w' a : fair o → repr (w_tree w) a → space_save sp o w = (r, w') → save_step (¬ whole o) sp a r w w'.
Proof.
  intros F R H. unfold space_save in H. unfold bind at 1, next_choice in H.
  unfold bind at 1, gets in H. cbn [w_tree tick] in H. set (e := ch_dump (o (w_tick w))) in *.
  destruct (save_load (w_tree w) a e id id R (proj1 (F (w_tick w))) ltac:(done) ltac:(done)) as (raw & t' & E & _).
  unfold bind, lift in H. rewrite E in H. apply write_any in H as (f & -> & H). exists f. eexists. split; [reflexivity|].
  destruct H as [H|(C & n & -> & H)]; [by left|]. right. split; [done|]. eexists. split; [reflexivity|].
  destruct (decide (take n raw = raw)) as [->|N]; [left; by eapply bytes_load; [| |exact E]; [|apply F]|].
  destruct H as [[H Hw]|H]; [|done]. right. split; [|done]. by destruct (bytes_cut _ _ _ n E).
Qed.
Lemma save_step_ok cut sp a (u : unit) w w' : save_step cut sp a (Ok u) w w' →
  holds (w_fs w') sp (san_tree a) ∧ can_write (w_fs w) (tree_file sp).
Proof.
  intros (f & k & -> & [[_ H]|(C & raw & -> & [H|(_ & H & _)])]); try by destruct (H u).
  split; [|done]. exists raw. cbn [w_fs upd]. by rewrite fget_fset_eq.
Qed.
Lemma save_step_same {A} cut sp a (r : res A) w w' : save_step cut sp a r w w' →
  same_but [tree_file sp] (w_fs w) (w_fs w') ∧ w_mounts w' = w_mounts w ∧ w_tree w' = w_tree w ∧ same_proc w w'.
Proof.
  intros (f & k & -> & H). split; [|done]. intros p Hp. cbn [w_fs upd].
  destruct H as [[-> _]|(C & raw & -> & _)]; [done|]. rewrite fget_fset_ne; [done|]. set_solver.
Qed.
(** The saved tree after an attempt: the old one, the new one, or an error *)
Lemma save_step_disk {A} cut sp a (r : res A) w w' : save_step cut sp a r w w' →
  fget (w_fs w') (tree_file sp) = fget (w_fs w) (tree_file sp) ∨ holds (w_fs w') sp (san_tree a) ∨ holds_torn (w_fs w') sp.
Proof.
  intros (f & k & -> & H). cbn [w_fs upd]. destruct H as [[-> _]|(C & raw & -> & H)]; [by left|]. right.
  unfold holds, holds_torn. cbn [w_fs upd]. rewrite fget_fset_eq. destruct H as [H|[H _]]; eauto.
Qed.

(** ** Search *)
Lemma search_ws_any x ref o w r w' : search_ws x ref o w = (r, w') → w' = w ∧ r = ws_search (w_tree w) (ws_id x) (ws_head x) ref.
Proof. unfold search_ws, bind, gets, lift. by intros [= <- <-]. Qed.

(** ** Branches *)
(** A failing call that changed nothing, or an attempt to save the tree with that name moved *)
Definition local_full (x : ws) (name : bytes) : bytes := uid_b32 (ws_id x) ++ B "/" ++ name.
Lemma ws_add_branch_any x name ref force o w r w' a hid : fair o → repr (w_tree w) a → get (w_tree w) hid = Some (ws_head x) →
  ws_add_branch x name ref force o w = (r, w') →
  w' = w ∧ failed r ∨
  ∃ id t', found_id (resolve a (ws_id x) hid ref) = Some id ∧ has a id ∧ (force = true ∨ a_branches a !! local_full x name = None) ∧
    repr t' (move_branch a (local_full x name) id) ∧ same_nodes (w_tree w) t' ∧
    save_step (¬ whole o) (ws_space x) (move_branch a (local_full x name) id) r (set_tree w t') w'.
Proof.
  intros F R G H. unfold ws_add_branch in H. unfold bind at 1 in H.
  destruct (search_ws x ref o w) as [r1 w1] eqn:E. apply search_ws_any in E as [-> ->].
  destruct (ws_search (w_tree w) (ws_id x) (ws_head x) ref) as [f| | | |] eqn:Es; try (left; by injection H as <- <-).
  destruct f as [[l ty]|]; [|left; by injection H as <- <-].
  unfold bind at 1, gets in H. case_decide as D; [left; by injection H as <- <-|].
  unfold bind at 1 in H. destruct (id_of l o w) as [r1 w1] eqn:E.
  unfold id_of, bind at 1, gets in E. destruct l as [lc|]; [|injection E as <- <-; left; by injection H as <- <-].
  cbn [mbind option_bind] in E. destruct (ws_search_resolve _ _ _ _ _ _ _ _ R G Es) as (id & Gi & Ni & Hi & Rs).
  rewrite Ni in E. injection E as <- <-.
  unfold bind at 1, tree_do in H. change (full_name (local_branch (ws_id x) name)) with (local_full x name) in *.
  destruct (add_branch_effect (w_tree w) a (local_full x name) id R) as [[N _]|(_ & t' & E & _)]; [done|].
  rewrite E in H. pose proof (add_branch_repr _ _ _ _ _ R E) as (_ & R' & Sn). right.
  apply (space_save_any _ _ (set_tree w t') _ _ _ F R') in H. exists id, t'.
  split; [rewrite Rs; by destruct ty|]. split; [done|]. split; [|done].
  destruct force; [by left|right]. apply eq_None_not_Some. intros [i Hi']. apply D. split; [|done].
  unfold get_by_branch. rewrite (r_br _ _ R), Hi'. cbn.
  destruct (get_Some _ _ _ R (ro_branch _ (r_ok _ _ R) _ _ Hi')) as (? & ? & ? & -> & _). eauto.
Qed.
Lemma ws_add_tag_any x name ref force o w r w' a hid : fair o → repr (w_tree w) a → get (w_tree w) hid = Some (ws_head x) →
  ws_add_tag x name ref force o w = (r, w') →
  w' = w ∧ failed r ∨
  ∃ id t', found_id (resolve a (ws_id x) hid ref) = Some id ∧ has a id ∧ (force = true ∨ a_tags a !! name = None) ∧
    repr t' (put_tags a (<[name := id]> (a_tags a))) ∧ same_nodes (w_tree w) t' ∧
    save_step (¬ whole o) (ws_space x) (put_tags a (<[name := id]> (a_tags a))) r (set_tree w t') w'.
Proof.
  intros F R G H. unfold ws_add_tag in H. unfold bind at 1 in H.
  destruct (search_ws x ref o w) as [r1 w1] eqn:E. apply search_ws_any in E as [-> ->].
  destruct (ws_search (w_tree w) (ws_id x) (ws_head x) ref) as [f| | | |] eqn:Es; try (left; by injection H as <- <-).
  destruct f as [[l ty]|]; [|left; by injection H as <- <-].
  unfold bind at 1, gets in H. case_decide as D; [left; by injection H as <- <-|].
  unfold bind at 1 in H. destruct (id_of l o w) as [r1 w1] eqn:E.
  unfold id_of, bind at 1, gets in E. destruct l as [lc|]; [|injection E as <- <-; left; by injection H as <- <-].
  cbn [mbind option_bind] in E. destruct (ws_search_resolve _ _ _ _ _ _ _ _ R G Es) as (id & Gi & Ni & Hi & Rs).
  rewrite Ni in E. injection E as <- <-.
  unfold bind at 1, tree_do in H.
  destruct (add_tag_effect (w_tree w) a name id R) as [[N _]|(_ & t' & E & _)]; [done|].
  rewrite E in H. pose proof (add_tag_repr _ _ _ _ _ R E) as (_ & R' & Sn). right.
  apply (space_save_any _ _ (set_tree w t') _ _ _ F R') in H. exists id, t'.
  split; [rewrite Rs; by destruct ty|]. split; [done|]. split; [|done].
  destruct force; [by left|right]. apply eq_None_not_Some. intros [i Hi']. apply D. split; [|done].
  unfold get_by_tag. rewrite (r_tag _ _ R), Hi'. cbn.
  destruct (get_Some _ _ _ R (ro_tag _ (r_ok _ _ R) _ _ Hi')) as (? & ? & ? & -> & _). eauto.
Qed.
Lemma ws_delete_tag_any x name o w r w' a : fair o → repr (w_tree w) a → ws_delete_tag x name o w = (r, w') →
  w' = w ∧ r = Err ETagNotFound ∧ a_tags a !! name = None ∨
  is_Some (a_tags a !! name) ∧ ∃ t', repr t' (put_tags a (delete name (a_tags a))) ∧ same_nodes (w_tree w) t' ∧
    save_step (¬ whole o) (ws_space x) (put_tags a (delete name (a_tags a))) r (set_tree w t') w'.
Proof.
  intros F R H. unfold ws_delete_tag, bind at 1, gets in H.
  pose proof (delete_tag_repr (w_tree w) a name R) as D. destruct (delete_tag (w_tree w) name) as [t' b] eqn:E. cbn [fst snd] in D, H.
  destruct D as (R' & Hb & Sn). destruct b.
  - unfold bind at 1, modify in H. rewrite E in H. cbn [fst] in H. right. split; [by apply Hb|].
    apply (space_save_any _ _ (set_tree w t') _ _ _ F R') in H. eauto.
  - left. injection H as <- <-. split; [done|]. split; [done|]. apply eq_None_not_Some. intros Hs. by apply Hb in Hs.
Qed.
Definition branch_full (x : ws) (name : bytes) (global : bool) : bytes :=
  if global then B "global/" ++ name else local_full x name.
Lemma ws_delete_branch_any x name global o w r w' a : fair o → repr (w_tree w) a → ws_delete_branch x name global o w = (r, w') →
  w' = w ∧ r = Err ECheckedOut ∧ global = false ∧ name = ws_branch x ∨
  (global = true ∨ name ≠ ws_branch x) ∧
  (w' = w ∧ r = Err EBranchNotFound ∧ a_branches a !! branch_full x name global = None ∨
   is_Some (a_branches a !! branch_full x name global) ∧ ∃ t', repr t' (put_branches a (delete (branch_full x name global) (a_branches a))) ∧
     same_nodes (w_tree w) t' ∧
     save_step (¬ whole o) (ws_space x) (put_branches a (delete (branch_full x name global) (a_branches a))) r (set_tree w t') w').
Proof.
  intros F R H. unfold ws_delete_branch in H. case_decide as C.
  { left. injection H as <- <-. tauto. }
  right. split. { destruct global; [by left|right]. intros ->. by apply C. }
  assert (full_name (if global then global_branch name else local_branch (ws_id x) name) = branch_full x name global) as Ef by (by destruct global).
  rewrite Ef in H. unfold bind at 1, gets in H. set (fn := branch_full x name global) in *.
  pose proof (delete_branch_repr (w_tree w) a fn R) as D. destruct (delete_branch (w_tree w) fn) as [t' b] eqn:E. cbn [fst snd] in D, H.
  destruct D as (R' & Hb & Sn). destruct b.
  - unfold bind at 1, modify in H. rewrite E in H. cbn [fst] in H. right. split; [by apply Hb|].
    apply (space_save_any _ _ (set_tree w t') _ _ _ F R') in H. eauto.
  - left. injection H as <- <-. split; [done|]. split; [done|]. apply eq_None_not_Some. intros Hs. by apply Hb in Hs.
Qed.
