(** * PropsOwner: workspaces belong to the caller (C74) *)
From Verif Require Import Base Uid SpecUid UidProofs Tree SpecTree TreeRefine TreeObs Dump DumpProofs Json JsonProofs Save SaveProofs Branch BranchProofs Date Ws SpecWs WsProofs
  Fs Overlay Os Layers Mounts Space Manager Commands Sample FsProofs OsProofs LayerProofs MountProofs SpaceProofs ManagerProofs SpecWorld SpecOps SavedProofs FaultProofs ReadyProofs OpProofs CalmProofs
  SpecMachine SpecCmds MachineProofs OpenProofs CmdProofs ExpandProofs TidyProofs SpecOwner OwnerProofs SampleProofs Story StoryProofs PropsCmds PropsShow.
From Verif Require Errors Cli CliProofs PropsCli PropsOptions.
From stdpp Require Import prelude gmap.

(** After init, clone, commit or checkout the link to the workspace and the root of what is mounted belong to the user and group of
    the process. *)
Theorem C74_owner dr c o w w' : plain_path dr → good_path dr → fair o → machine dr (w_fs w) (w_mounts w) → writes_path c →
  outside dr (abs_of w (cmd_target c)) → in_place dr w c → run_cmd dr c o w = (Ok tt, w') →
  belongs_to w' (abs_of w (cmd_target c)) (w_ids w).
Proof.
  intros P G F Mc Hc Ho Hi H. destruct (cmd_gives _ _ _ _ _ _ P G F Mc Hc Ho H) as (_ & l & El & _ & Q).
  destruct (Q eq_refl) as (mid & m & om & b & _ & _ & -> & Sh). destruct (Sh Hi) as [S1 S2]. clear Q Sh.
  set (p := abs_of w (cmd_target c)) in *. assert (p ≠ merged_dir dr mid) as Ne by (unfold mount_dir, mounts_root; rewrite <-!(app_assoc dr); by apply outside_ne).
  eexists (merged_dir dr mid), m, _, _. split; [exact S1|]. split; [exact S2|]. unfold owner_of. rewrite El.
  split; [rewrite filter_app, filter_cons, decide_True by done; reflexivity|]. split; [by rewrite S1|]. split; [done|].
  split; [rewrite filter_app, filter_cons, decide_False by done; rewrite filter_cons, decide_True by done; reflexivity|]. done.
Qed.
(** Whatever a command is and however it ends: what it gives, it gives to that user and group, and no file that was there before
    changes hands. These are the new link, as a link, and the root of the new mount. The other commands give nothing. *)
Theorem C74_nothing_else dr c o w r w' : plain_path dr → good_path dr → fair o → machine dr (w_fs w) (w_mounts w) →
  (writes_path c → outside dr (abs_of w (cmd_target c))) → run_cmd dr c o w = (r, w') →
  w_ids w' = w_ids w ∧ ∃ l, w_owned w' = l ++ w_owned w ∧
    ∀ e, e ∈ l → writes_path c ∧ ow_ids e = w_ids w ∧ ∃ mid, fget (w_fs w) (mount_dir dr mid) = None ∧
      (ow_at e = abs_of w (cmd_target c) ∧ ow_obj e = Some (FLink (path_str (merged_dir dr mid))) ∨ ow_at e = merged_dir dr mid).
Proof.
  intros P G F Mc Ho H. assert (writes_path c ∨ ¬ writes_path c) as [Hc|Hc] by (destruct c; cbn; auto).
  - destruct (cmd_gives _ _ _ _ _ _ P G F Mc Hc (Ho Hc) H) as (E & l & El & Fl & _). split; [done|]. exists l. split; [done|]. intros e He.
    rewrite Forall_forall in Fl. destruct (Fl e He) as (mid & N & Hi & Hp). eauto.
  - apply (mute_cmd dr c Hc) in H as [E1 E2]. split; [done|]. exists []. split; [done|]. intros e He. by apply elem_of_nil in He.
Qed.
(** From the command line: a command that is called by user [uid] of group [gid], not root, runs with these as its user and group, so
    that all it gives goes to them; called by root it leaves the owners as they are. *)
Theorem C74_caller name l q uid gid :
  PropsOptions.meant name l = Some q → Forall (PropsOptions.item_ok name) l → (uid < 2 ^ 63)%N → (gid < 2 ^ 63)%N →
  let line := name :: concat (PropsOptions.written <$> l) in
  let ids := if decide (name = B "log" ∨ uid = 0%N) then (-1, -1)%Z else (Z.of_N uid, Z.of_N gid) in
  ∃ i, (Cli.start uid gid line = Cli.ARun i ∨ ∃ args', Cli.start uid gid line = Cli.ASudo args' ∧ Cli.start 0 0 args' = Cli.ARun i) ∧
    ∀ o w r w', Cli.run_command i o w = (r, w') →
      w_ids w' = ids ∧ ∃ l, w_owned w' = l ++ w_owned w ∧ ∀ e, e ∈ l → ow_ids e = ids.
Proof.
  intros Hq Hl Hu Hg line ids. destruct (PropsOptions.C70_options name l q uid gid Hq Hl Hu Hg) as (i & Hs & Hr). exists i. fold line in Hs.
  split; [destruct (decide (uid ≠ 0%N ∧ name ≠ B "log")); [destruct Hs as (args' & ? & ? & _); eauto|auto]|].
  intros o w r w' H. rewrite Hr in H. unfold Cli.as_user in H.
  assert ((if decide (name = B "log") then (-1, -1)%Z else PropsCli.identity uid gid) = ids) as Ei.
  { unfold ids, PropsCli.identity. destruct (decide (name = B "log")); [by rewrite decide_True by auto|]. destruct (N.eqb_spec uid 0); [by rewrite decide_True by auto|].
    rewrite decide_False; [done|]. by intros [?|?]. }
  rewrite Ei in H. change (bind _ _ o w) with (with_manager (PropsOptions.value l (B "chdir") []) (PropsOptions.value l (B "data-root") (B "/var/lib/stackcrisp")) (λ dr, run_cmd dr q) o (set_ids w ids)) in H.
  destruct (faithful_with _ _ _ _ _ _ _ H) as (E & l' & El & Fl). split; [done|]. exists l'. split; [done|]. by apply Forall_forall.
Qed.

(** ** Concrete cases *)
#[local] Instance mount_eq_dec : EqDecision mount.
Proof. solve_decision. Defined.
Definition user_world : world := set_ids sample_world (1000, 100)%Z.
Definition owner_test (w : world) (p : path) : bool :=
  match owner_of w p with
  | Some e1 => bool_decide (ow_ids e1 = (1000, 100)%Z) &&
      match mount_of w p with
      | Some m => match owner_of w (mn_at m) with Some e2 => bool_decide (ow_ids e2 = (1000, 100)%Z) && bool_decide (ow_mount e2 = Some m) | None => false end
      | None => false
      end
  | None => false
  end.
(** init in /h/w and a commit there, by user 1000 of group 100; every entry in the record of owners is one of these four *)
Lemma owner_run : then_ok (run_cmd sample_dr (CInit [] (B "main")) calm (enter wdir user_world)) (λ _ w,
  bool_decide (abs_of (enter wdir user_world) (cmd_target (CInit [] (B "main"))) = wdir) && bool_decide (abs_of (enter wdir w) (cmd_target (CCommit (B "one"))) = wdir) && owner_test w wdir &&
  then_ok (run_cmd sample_dr (CCommit (B "one")) calm (enter wdir w)) (λ _ w2, owner_test w2 wdir && (length (w_owned w2) =? 4))) = true.
Proof. vm_compute. reflexivity. Qed.
Lemma init_in_place o w0 w p branch msg : fair o → machine sample_dr (w_fs w0) (w_mounts w0) → outside sample_dr p → abs_of w0 (cmd_target (CInit [] branch)) = p →
  run_cmd sample_dr (CInit [] branch) o w0 = (Ok tt, w) → abs_of (enter p w) (cmd_target (CCommit msg)) = p →
  machine sample_dr (w_fs (enter p w)) (w_mounts (enter p w)) ∧ in_place sample_dr (enter p w) (CCommit msg).
Proof.
  intros F Mc Ho Ea E Eb. destruct sample_plain as [P G]. apply cmd_init_parts in E as (k & x & w1 & Ec & Ee). cbv zeta in Ec. rewrite Ea in Ec.
  destruct (create_settles sample_dr p branch o (upd w0 (w_fs w0) (w_mounts w0) (w_tree w0) k) x w1 w P G F Mc Ho Ec Ee) as (mid & rid & id & m & _ & St & Ep & _ & _ & _ & Mc').
  split; [done|]. exists mid. rewrite Eb. split; [rewrite <-Ep; exact (se_link _ _ _ _ _ _ _ _ St)|exact (se_dir _ _ _ _ _ _ _ _ St)].
Qed.
Example C74_sat : ∃ w w2,
  machine sample_dr (w_fs (enter wdir user_world)) (w_mounts (enter wdir user_world)) ∧ outside sample_dr (abs_of (enter wdir user_world) (cmd_target (CInit [] (B "main")))) ∧
  run_cmd sample_dr (CInit [] (B "main")) calm (enter wdir user_world) = (Ok tt, w) ∧ owner_test w wdir = true ∧
  machine sample_dr (w_fs (enter wdir w)) (w_mounts (enter wdir w)) ∧ outside sample_dr (abs_of (enter wdir w) (cmd_target (CCommit (B "one")))) ∧
  in_place sample_dr (enter wdir w) (CCommit (B "one")) ∧
  run_cmd sample_dr (CCommit (B "one")) calm (enter wdir w) = (Ok tt, w2) ∧ owner_test w2 wdir = true ∧ length (w_owned w2) = 4.
Proof.
  destruct (then_ok_inv _ _ owner_run) as ([] & w & E & H). cbv beta in H. apply andb_true_iff in H as [H H2]. apply andb_true_iff in H as [H H1]. apply andb_true_iff in H as [Ea Eb].
  apply bool_decide_eq_true in Ea, Eb. destruct (then_ok_inv _ _ H2) as ([] & w2 & E2 & H3). clear H2. cbv beta in H3. apply andb_true_iff in H3 as [H3 H4]. apply Nat.eqb_eq in H4.
  destruct (init_in_place calm (enter wdir user_world) w wdir (B "main") (B "one") fair_calm sample_machine sample_outside Ea E Eb) as [Mc Hi].
  exists w, w2. split; [exact sample_machine|]. split; [rewrite Ea; exact sample_outside|]. split; [exact E|]. split; [exact H1|]. split; [exact Mc|]. split; [rewrite Eb; exact sample_outside|].
  split; [exact Hi|]. exact (conj E2 (conj H3 H4)).
Qed.
(** User 1000 calls init. *)
Example C74_caller_sat : PropsOptions.meant (B "init") [PropsOptions.Word (B "w")] = Some (CInit [B "w"] (B "main")) ∧ Forall (PropsOptions.item_ok (B "init")) [PropsOptions.Word (B "w")] ∧
  (1000 < 2 ^ 63)%N ∧ (100 < 2 ^ 63)%N.
Proof. split; [vm_compute; reflexivity|]. split; [|split; vm_compute; reflexivity]. apply Forall_singleton. intros s [=]. Qed.
Print Assumptions C74_owner.
Print Assumptions C74_nothing_else.
Print Assumptions C74_caller.
Print Assumptions C74_sat.
