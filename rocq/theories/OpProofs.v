(** * OpProofs: every operation on an open workspace does what [op_tree] says, under every fault *)
From Verif Require Import Base Uid SpecUid UidProofs Tree SpecTree TreeRefine TreeObs Dump DumpProofs Save SaveProofs Branch BranchProofs Date Ws SpecWs WsProofs
  Fs Overlay Os Layers Mounts Space Manager FsProofs OsProofs LayerProofs MountProofs SpaceProofs ManagerProofs SpecWorld SpecOps SavedProofs FaultProofs ReadyProofs.
From Coq Require Import Lia.
From stdpp Require Import prelude gmap.

(** The same without a statement about the tree on disk: other processes may have written to it. *)
Record loaded (dr : path) (w : world) (x : ws) (a : atree) (hid : uid) : Prop := {
  ld_wf : fs_wf (w_fs w);
  ld_open : opened w x a hid;
  ld_layers : layers_present (w_fs w) (layers_root dr) a;
  ld_space : space_ok dr (ws_space x) }.
Lemma live_loaded dr w x a hid : live dr w x a hid → loaded dr w x a hid.
Proof. intros [W O LP S _]. by constructor. Qed.
(** Saving a tree with the same nodes *)
Lemma save_step_done cut dr x {A} (r : res A) w w' a a' t' hid (new : atree → Prop) : loaded dr w x a hid →
  a_nodes a' = a_nodes a → new a' → repr t' a' → save_step cut (ws_space x) a' r (set_tree w t') w' →
  op_done dr (ws_space x) w w' (failed r) cut new.
Proof.
  intros [W [R G] LP S] Hn Hnew R' (f & k & -> & H). cbn [w_fs w_mounts w_tree set_tree] in *.
  assert (layers_present (w_fs w) (layers_root dr) a') as LP' by (intros z Hz; apply LP; unfold has in *; by rewrite <-Hn).
  destruct H as [[-> Fr]|(C & raw & -> & H)].
  - constructor; [by apply touches_refl|]. left. done.
  - constructor.
    { destruct (touches_write dr (ws_space x) w (tree_file (ws_space x)) raw k) as [A1 A2 AI A3 A4 A5]; [by left|done| |by constructor].
      intros i Q. destruct (tree_file_ne dr _ S) as (_ & Q2 & _). by destruct (Q2 i). }
    right. exists a'. cbn [w_fs w_tree upd]. split; [done|]. split; [done|].
    split. { intros z Hz. destruct (LP' z Hz). split; apply is_dir_write; auto using can_write_not_dir. }
    unfold holds, holds_torn. rewrite fget_fset_eq. destruct H as [H|[H Fr]]; eauto.
Qed.
Lemma init_fresh rid id wid branch : rid ≠ id → init_tree rid id wid branch = fresh_tree rid id wid branch.
Proof.
  intros N. unfold init_tree, fresh_tree, move_branch, new_child, root_tree, put_branches, put_node, put_tags, empty_atree, local_key.
  cbn [a_nodes a_branches a_tags]. f_equal. rewrite <-(insert_empty id). by apply insert_commute.
Qed.
Lemma nothing_done dr sp {A} (r : res A) w cut new : failed r → op_done dr sp w w (failed r) cut new.
Proof. intros Fr. constructor; [by apply touches_refl|]. by left. Qed.
Lemma then_ret {A C} (m : M A) (c : C) o w r w' : (m ;;; ret c) o w = (r, w') →
  ∃ r1, m o w = (r1, w') ∧ (failed r1 ↔ failed r) ∧ (∀ y, r = Ok y → y = c ∧ ∃ u, r1 = Ok u).
Proof.
  intros H. unfold bind in H. destruct (m o w) as [r1 w1]. exists r1.
  destruct r1; injection H as <- <-; (split; [done|]); unfold failed; (split; [split; intros H y; first [done|by destruct (H a)|by destruct (H c)]|]);
    intros y Hy; try done. injection Hy as <-. eauto.
Qed.
Lemma op_done_fail dr sp w w' (f f' cut : Prop) new : (f → f') → op_done dr sp w w' f cut new → op_done dr sp w w' f' cut new.
Proof. intros H [T D]. constructor; [done|]. destruct D as [[D ?]|(a' & ? & ? & ? & [?|(? & ? & ?)])]; [left; auto|right; eauto 10|right; eauto 10]. Qed.
Lemma op_done_new dr sp w w' f cut (new new' : atree → Prop) : (∀ a, new a → new' a) → op_done dr sp w w' f cut new → op_done dr sp w w' f cut new'.
Proof. intros H [T D]. constructor; [done|]. destruct D as [D|(a' & ? & ? & ? & ?)]; [by left|right; eauto 10]. Qed.
Lemma not_has a id : ¬ has a id → a_nodes a !! id = None.
Proof. unfold has. intros H. destruct (a_nodes a !! id) eqn:E; [|done]. by destruct H; eexists. Qed.

Lemma run_op_loaded dr x op o w r w' a hid : fair o → loaded dr w x a hid → run_op dr x op o w = (r, w') →
  op_done dr (ws_space x) w w' (failed r) (¬ whole o) (λ a', op_tree x hid op a a' ∧ ∀ i, has a' i → has a i ∨ fget (w_fs w) (layer_dir (layers_root dr) i) = None).
Proof.
  intros F Rd H. pose proof Rd as [W [R G] LP S]. destruct op as [n ref f|n g|n ref f|n|d m|key|p]; cbn [run_op] in H.
  - apply then_ret in H as (r1 & H & Fr & _). eapply op_done_fail; [exact (proj1 Fr)|].
    apply (ws_add_branch_any _ _ _ _ _ _ _ _ a hid) in H as [[-> Fl]|(id & t' & Hf & Hi & Hx & R' & _ & S1)]; [by apply nothing_done| |done..].
    eapply save_step_done; [exact Rd| | |exact R'|exact S1]; [done|]. split; [exists id; done|by left].
  - apply then_ret in H as (r1 & H & Fr & _). eapply op_done_fail; [exact (proj1 Fr)|].
    apply (ws_delete_branch_any _ _ _ _ _ _ _ a) in H as [(-> & -> & _)|(Hx & [(-> & -> & _)|(Hs & t' & R' & _ & S1)])]; [by apply nothing_done|by apply nothing_done| |done..].
    eapply save_step_done; [exact Rd| | |exact R'|exact S1]; [done|]. split; [done|by left].
  - apply then_ret in H as (r1 & H & Fr & _). eapply op_done_fail; [exact (proj1 Fr)|].
    apply (ws_add_tag_any _ _ _ _ _ _ _ _ a hid) in H as [[-> Fl]|(id & t' & Hf & Hi & Hx & R' & _ & S1)]; [by apply nothing_done| |done..].
    eapply save_step_done; [exact Rd| | |exact R'|exact S1]; [done|]. split; [exists id; done|by left].
  - apply then_ret in H as (r1 & H & Fr & _). eapply op_done_fail; [exact (proj1 Fr)|].
    apply (ws_delete_tag_any _ _ _ _ _ _ a) in H as [(-> & -> & _)|(Hs & t' & R' & _ & S1)]; [by apply nothing_done| |done..].
    eapply save_step_done; [exact Rd| | |exact R'|exact S1]; [done|]. split; [done|by left].
  - apply (commit_ws_any _ _ _ _ _ _ _ _ a hid) in H; [|done..]. eapply op_done_new; [|exact H].
    intros a' (an & id & Ea & Nh & N & Hr). split; [exists an, id; split; [done|]; split; [by apply not_has|]; exact Hr|].
    intros i Hi. destruct (decide (i = id)) as [->|Ni]; [by right|left]. unfold has in *.
    assert (a_nodes a' = <[id := ANode (Some hid) ∅ ∅]> (<[hid := dated an d m]> (a_nodes a))) as En by (by destruct Hr as [[_ ->]|(_ & -> & _)]).
    rewrite En, lookup_insert_ne in Hi by done. destruct (decide (i = hid)) as [->|Ni2]; [by rewrite Ea|]. by rewrite lookup_insert_ne in Hi.
  - apply (checkout_ws_any _ _ _ _ _ _ _ a hid) in H; [|done..]. eapply op_done_new; [|exact H].
    intros a' (id & c & Ea & Nh & N & ->). split; [exists c, id; split; [done|]; split; [by apply not_has|]; done|].
    intros i Hi. destruct (decide (i = id)) as [->|Ni]; [by right|left]. unfold has in *. cbn in Hi. by rewrite lookup_insert_ne in Hi.
  - apply (clone_ws_any _ _ _ _ _ _ _ a hid) in H; [|done..]. eapply op_done_new; [|exact H].
    intros a' (id & c & Ea & Nh & N & ->). split; [exists c, id; split; [done|]; split; [by apply not_has|]; done|].
    intros i Hi. destruct (decide (i = id)) as [->|Ni]; [by right|left]. unfold has in *. cbn in Hi. by rewrite lookup_insert_ne in Hi.
Qed.
Lemma run_op_any dr x op o w r w' a hid : fair o → live dr w x a hid → run_op dr x op o w = (r, w') →
  op_done dr (ws_space x) w w' (failed r) (¬ whole o) (op_tree x hid op a).
Proof. intros F Lv H. eapply op_done_new; [|exact (run_op_loaded _ _ _ _ _ _ _ _ _ F (live_loaded _ _ _ _ _ Lv) H)]. by intros a' [? _]. Qed.

(** The workspace to go on with *)
Definition op_next (x : ws) (hid : uid) (op : wsop) (a : atree) (y : ws) : Prop :=
  ws_space y = ws_space x ∧
  match op with
  | OCheckout key => ws_id y = ws_id x ∧ ws_path y = ws_path x ∧
      ws_branch y = (match resolve a (ws_id x) hid key with FBranch _ => key | _ => [] end)
  | OClone p => ws_path y = p ∧ ws_branch y = ws_branch x
  | _ => ws_id y = ws_id x ∧ ws_path y = ws_path x ∧ ws_branch y = ws_branch x
  end.
Lemma live_saved_step cut dr x w w' a a' t' hid : live dr w x a hid → a_nodes a' = a_nodes a → repr t' a' → same_nodes (w_tree w) t' →
  save_step cut (ws_space x) a' (Ok tt) (set_tree w t') w' → live dr w' x a' hid.
Proof.
  intros [W [R G] LP S D] Hn R' (_ & Sg & _) St. pose proof (save_step_ok _ _ _ _ _ _ St) as [Hh C].
  pose proof (save_step_same _ _ _ _ _ _ St) as (Sb & _ & Et & _).
  cbn [w_fs w_tree set_tree] in *.
  assert (∀ p, is_dir_at (w_fs w) p = true → is_dir_at (w_fs w') p = true) as Hd.
  { intros p Hp. unfold is_dir_at. rewrite Sb; [done|]. rewrite elem_of_list_singleton. intros ->. by rewrite (can_write_not_dir _ _ C) in Hp. }
  constructor; try done.
  - destruct St as (f & k & -> & [[-> _]|(C' & raw & -> & _)]); [done|]. by apply wf_write.
  - split; [by rewrite Et|]. rewrite Et. by rewrite Sg.
  - intros z Hz. destruct (LP z) as [D1 D2]; [unfold has in *; by rewrite <-Hn|]. auto.
Qed.
Lemma ready_saved_step cut dr x w w' a a' t' hid : ready dr w x a hid → a_nodes a' = a_nodes a → repr t' a' → same_nodes (w_tree w) t' →
  save_step cut (ws_space x) a' (Ok tt) (set_tree w t') w' → ready dr w' x a' hid.
Proof.
  intros [L I M] Hn R' Sn St. pose proof (live_saved_step _ _ _ _ _ _ _ _ _ L Hn R' Sn St) as L'.
  pose proof (save_step_same _ _ _ _ _ _ St) as (Sb & _). destruct (tree_file_ne dr _ (rd_space _ _ _ _ _ L)) as (T1 & T2 & _).
  cbn [w_fs set_tree] in Sb. constructor; [done|..].
  - rewrite Sb; [done|]. rewrite elem_of_list_singleton. exact (λ E, T2 _ (eq_sym E)).
  - rewrite Sb; [done|]. rewrite elem_of_list_singleton. exact (λ E, T1 _ (eq_sym E)).
Qed.
(** Deleting a name leaves the workspace open with the new tree. *)
Lemma run_del_live dr x op o w y w' a hid : (∃ n g, op = ODelBranch n g) ∨ (∃ n, op = ODelTag n) ∨ (∃ n r f, op = OAddBranch n r f) ∨ (∃ n r f, op = OAddTag n r f) →
  fair o → live dr w x a hid → run_op dr x op o w = (Ok y, w') → ∃ a', op_tree x hid op a a' ∧ live dr w' x a' hid ∧ y = x.
Proof.
  intros Hop F Rd H. pose proof Rd as [W [R G] LP S D].
  destruct Hop as [(n & g & ->)|[(n & ->)|[(n & ref & f & ->)|(n & ref & f & ->)]]]; cbn [run_op] in H; apply then_ret in H as (r1 & H & Fr & Hy); destruct (Hy y eq_refl) as [-> [[] ->]].
  - apply (ws_delete_branch_any _ _ _ _ _ _ _ a) in H as [(-> & ? & _)|(Hx & [(-> & ? & _)|(Hs & t' & R' & Sn & S1)])]; try done.
    eexists. split; [|split; [by eapply live_saved_step; [exact Rd| |exact R'|exact Sn|exact S1]|done]]. done.
  - apply (ws_delete_tag_any _ _ _ _ _ _ a) in H as [(-> & ? & _)|(Hs & t' & R' & Sn & S1)]; try done.
    eexists. split; [|split; [by eapply live_saved_step; [exact Rd| |exact R'|exact Sn|exact S1]|done]]. done.
  - apply (ws_add_branch_any _ _ _ _ _ _ _ _ a hid) in H as [[-> Fl]|(id & t' & Hf & Hi & Hx & R' & Sn & S1)]; [by destruct (Fl tt)| |done..].
    eexists. split; [|split; [by eapply live_saved_step; [exact Rd| |exact R'|exact Sn|exact S1]|done]]. exists id. done.
  - apply (ws_add_tag_any _ _ _ _ _ _ _ _ a hid) in H as [[-> Fl]|(id & t' & Hf & Hi & Hx & R' & Sn & S1)]; [by destruct (Fl tt)| |done..].
    eexists. split; [|split; [by eapply live_saved_step; [exact Rd| |exact R'|exact Sn|exact S1]|done]]. exists id. done.
Qed.
Lemma run_op_ready dr x op o w y w' a hid : fair o → ready dr w x a hid → run_op dr x op o w = (Ok y, w') →
  ∃ a' hid', op_tree x hid op a a' ∧ ready dr w' y a' hid' ∧ op_next x hid op a y.
Proof.
  intros F Rd H. pose proof Rd as [[W [R G] LP S D] I M]. destruct op as [n ref f|n g|n ref f|n|d m|key|p]; cbn [run_op] in H.
  - apply then_ret in H as (r1 & H & Fr & Hy). destruct (Hy y eq_refl) as [-> [[] ->]].
    apply (ws_add_branch_any _ _ _ _ _ _ _ _ a hid) in H as [[-> Fl]|(id & t' & Hf & Hi & Hx & R' & Sn & S1)]; [by destruct (Fl tt)| |done..].
    eexists _, hid. split; [|split; [by eapply ready_saved_step; [exact Rd| |exact R'|exact Sn|exact S1]|done]]. exists id. done.
  - apply then_ret in H as (r1 & H & Fr & Hy). destruct (Hy y eq_refl) as [-> [[] ->]].
    apply (ws_delete_branch_any _ _ _ _ _ _ _ a) in H as [(-> & ? & _)|(Hx & [(-> & ? & _)|(Hs & t' & R' & Sn & S1)])]; try done.
    eexists _, hid. split; [|split; [by eapply ready_saved_step; [exact Rd| |exact R'|exact Sn|exact S1]|done]]. done.
  - apply then_ret in H as (r1 & H & Fr & Hy). destruct (Hy y eq_refl) as [-> [[] ->]].
    apply (ws_add_tag_any _ _ _ _ _ _ _ _ a hid) in H as [[-> Fl]|(id & t' & Hf & Hi & Hx & R' & Sn & S1)]; [by destruct (Fl tt)| |done..].
    eexists _, hid. split; [|split; [by eapply ready_saved_step; [exact Rd| |exact R'|exact Sn|exact S1]|done]]. exists id. done.
  - apply then_ret in H as (r1 & H & Fr & Hy). destruct (Hy y eq_refl) as [-> [[] ->]].
    apply (ws_delete_tag_any _ _ _ _ _ _ a) in H as [(-> & ? & _)|(Hs & t' & R' & Sn & S1)]; try done.
    eexists _, hid. split; [|split; [by eapply ready_saved_step; [exact Rd| |exact R'|exact Sn|exact S1]|done]]. done.
  - apply (commit_ready _ _ _ _ _ _ _ _ a hid) in H as (an & ch & id & a' & Ea & C & Nh & Hr & Rd' & H1 & H2 & H3 & H4 & _); [|done..].
    exists a', id. split; [|by split]. exists an, id. split; [done|]. split; [by apply not_has|]. exact Hr.
  - apply (checkout_ready _ _ _ _ _ _ _ a hid) in H as (c & ty & ch & id & Hr & C & Nh & Rd' & H1 & H2 & H3 & H4 & _); [|done..].
    eexists _, id. split; [|split; [exact Rd'|]].
    + exists c, id. split; [by rewrite Hr; destruct ty|]. split; [by apply not_has|]. done.
    + split; [done|]. do 2 (split; [done|]). rewrite H4, Hr. by destruct ty.
  - apply (clone_ready _ _ _ _ _ _ _ a hid) in H as (c & ch & id & Hr & C & Nh & Rd' & H1 & H2 & H3 & H4 & _); [|done..].
    eexists _, id. split; [|split; [exact Rd'|done]]. exists c, id. split; [done|]. split; [by apply not_has|]. done.
Qed.
