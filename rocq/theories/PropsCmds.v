(** * PropsCmds: whole commands, under every fault, and any sequence of them (C42, C45, C49, C58, C59) *)
From Verif Require Import Base Uid SpecUid UidProofs Tree SpecTree TreeRefine TreeObs Dump DumpProofs Json JsonProofs Save SaveProofs Branch BranchProofs Date Ws SpecWs WsProofs
  Fs Overlay Os Layers Mounts Space Manager Commands Sample FsProofs OsProofs LayerProofs MountProofs SpaceProofs ManagerProofs SpecWorld SpecOps SavedProofs FaultProofs ReadyProofs OpProofs CalmProofs
  SpecMachine SpecCmds MachineProofs OpenProofs CmdProofs SampleProofs PropsBranch.
From Coq Require Import Lia.
From stdpp Require Import prelude gmap.

(** ** A machine on which nothing has been done yet *)
Lemma machine_fresh dr fs ms : fs_wf fs → (∀ n, fget fs (mounts_root dr ++ [n]) = None) → (∀ n, fget fs (spaces_root dr ++ [n]) = None) →
  (∀ m, m ∈ ms → is_prefix (mounts_root dr) (mn_at m) = false) → machine dr fs ms.
Proof.
  intros W N1 N2 N3. constructor.
  - done.
  - intros mid y E. unfold ws_file in E. rewrite N1 in E. done.
  - intros sid. left. apply eq_None_not_Some. intros [y E]. unfold tree_file, the_space, sp_dir, space_dir in E. apply W in E. unfold is_dir_at in E. by rewrite N2 in E.
  - intros m Hm E. by rewrite (N3 m Hm) in E.
Qed.
Definition no_children (fs : files) (d : path) : bool := forallb (λ e, negb (bool_decide (parent_dir e.1 = d)) || bool_decide (e.1 = [])) fs.
Lemma no_children_ok fs d n : no_children fs d = true → fget fs (d ++ [n]) = None.
Proof.
  intros H. apply eq_None_not_Some. intros [y E]. apply fget_elem in E. unfold no_children in H. rewrite forallb_forall in H. apply elem_of_list_In, H in E. cbn [fst] in E.
  rewrite parent_dir_app, bool_decide_true in E by done. cbn [negb orb] in E. apply bool_decide_eq_true in E. by destruct d.
Qed.
Lemma sample_machine : machine sample_dr (w_fs sample_world) (w_mounts sample_world).
Proof.
  apply machine_fresh; [exact sample_wf| | |].
  - intros n. apply no_children_ok. vm_compute. reflexivity.
  - intros n. apply no_children_ok. vm_compute. reflexivity.
  - intros m Hm. by apply elem_of_nil in Hm.
Qed.
Lemma sample_plain : plain_path sample_dr ∧ good_path sample_dr.
Proof.
  split; apply Forall_singleton.
  - apply Forall_singleton. unfold plain_char. split_and!; intros E; vm_compute in E; discriminate E.
  - unfold good_name. split_and!; try done. intros E%elem_of_list_singleton. vm_compute in E. discriminate E.
Qed.
(** Commands one after the other on the sample machine. *)
Definition as_runs (l : list (path * command)) : list (path * M unit) := (λ dc, (dc.1, run_cmd sample_dr dc.2)) <$> l.
Definition outside_b (dr p : path) : bool := negb (is_prefix dr p) && negb (is_prefix p dr).
Fixpoint checked (o : oracle) (l : list (path * command)) (w : world) : bool :=
  match l with
  | [] => true
  | (d, c) :: l' =>
      let w0 := set_pwd (set_cwd (set_tree w new_tree) (default d (real_path (w_fs w) d))) (Some d) in
      outside_b sample_dr (abs_of w0 (cmd_target c)) &&
      match run_cmd sample_dr c o w0 with (Ok _, w1) => checked o l' w1 | _ => true end
  end.
Lemma outside_b_ok dr p : outside_b dr p = true → outside dr p.
Proof. unfold outside_b, outside. rewrite andb_true_iff, !negb_true_iff. done. Qed.
Lemma checked_machine o l : fair o → ∀ w r w', machine sample_dr (w_fs w) (w_mounts w) → checked o l w = true → run_all o (as_runs l) w = (r, w') →
  machine sample_dr (w_fs w') (w_mounts w') ∧ rtc (step sample_dr) w w'.
Proof.
  intros F. induction l as [|[d c] l IH]; intros w r w' Mc Hc H.
  { cbn in H. injection H as _ <-. split; [done|constructor]. }
  cbn [checked] in Hc. unfold as_runs in H. cbn [fmap list_fmap run_all fst snd] in H.
  set (w0 := set_pwd _ _) in Hc, H. apply andb_true_iff in Hc as [Ho Hc]. apply outside_b_ok in Ho.
  assert (same_disk w w0) as Sd by done. clearbody w0.
  destruct (run_cmd sample_dr c o w0) as [r1 w1] eqn:E.
  assert (step sample_dr w w1) as St by exact (step_cmd _ _ _ c o w0 r1 Sd F (λ _, Ho) E).
  destruct (step_orderly _ _ _ (proj1 sample_plain) (proj2 sample_plain) Mc St) as [Mc1 _].
  destruct r1; try by (injection H as _ <-; split; [done|by apply rtc_once]).
  destruct (IH w1 r w' Mc1 Hc H) as [Mc2 R2]. split; [done|]. by eapply rtc_l.
Qed.

(** ** C45 *)
(** Whatever fails and wherever the process ends: the saved trees of all spaces are as [cmd_trees] and
    [init_trees] say, and the data root stays in order, so that this applies to the next command again. *)
Theorem C45_saved_tree : ∀ dr c o w r w', plain_path dr → good_path dr → fair o → machine dr (w_fs w) (w_mounts w) →
  (writes_path c → outside dr (abs_of w (cmd_target c))) → run_cmd dr c o w = (r, w') →
  machine dr (w_fs w') (w_mounts w') ∧
  match c with CInit _ branch => init_trees dr branch o w r w' | _ => cmd_trees dr c o w r w' end.
Proof. intros dr c o w r w' P G F Mc Ho H. destruct (cmd_any _ _ _ _ _ _ P G F Mc Ho H) as [[O _ _] T]. done. Qed.
(** In every state that any sequence of commands (with any faults), users' changes and lost mounts can
    reach from an empty data root, each space has no tree file, a file that no Load accepts, or a complete
    tree whose layers all exist. *)
Theorem C45_any_history : ∀ dr w w' sid, plain_path dr → good_path dr → fs_wf (w_fs w) →
  (∀ n, fget (w_fs w) (mounts_root dr ++ [n]) = None) → (∀ n, fget (w_fs w) (spaces_root dr ++ [n]) = None) →
  (∀ m, m ∈ w_mounts w → is_prefix (mounts_root dr) (mn_at m) = false) → rtc (step dr) w w' →
  fget (w_fs w') (tree_at dr sid) = None ∨ holds_torn (w_fs w') (the_space dr sid) ∨
  ∃ a, holds (w_fs w') (the_space dr sid) (san_tree a) ∧ layers_present (w_fs w') (layers_root dr) a.
Proof.
  intros dr w w' sid P G W N1 N2 N3 H. destruct (steps_orderly _ _ _ P G (machine_fresh dr _ _ W N1 N2 N3) H) as [[_ _ T _] _]. apply T.
Qed.
Print Assumptions C45_saved_tree.
Print Assumptions C45_any_history.
(** Init, two commits, and then a third during which the write of the tree is cut off: the data root is in
    order before and after. *)
Definition two_commits : list (path * command) :=
  [(home, CInit [B "w"] (B "main")); (wdir, CCommit (B "one")); (wdir, CCommit (B "two"))].
Example C45_sat : ∃ w, machine sample_dr (w_fs w) (w_mounts w) ∧ rtc (step sample_dr) sample_world w ∧ run_all calm (as_runs two_commits) sample_world = (Ok tt, w).
Proof.
  assert (is_ok (run_all calm (as_runs two_commits) sample_world).1 = true) as H by (vm_compute; reflexivity). destruct (is_ok_ex _ H) as ([] & w & E).
  assert (checked calm two_commits sample_world = true) as Hc by (vm_compute; reflexivity).
  destruct (checked_machine calm two_commits fair_calm sample_world (Ok tt) w sample_machine Hc E) as [Mc R]. exists w. exact (conj Mc (conj R E)).
Qed.
