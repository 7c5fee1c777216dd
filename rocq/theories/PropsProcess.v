(** * PropsProcess: from command lines to the version control system (C82) *)
From Verif Require Import Base Uid SpecUid UidProofs Tree SpecTree TreeRefine TreeObs Dump DumpProofs Json JsonProofs Save SaveProofs Branch BranchProofs Date Ws SpecWs WsProofs
  Fs Overlay Os Layers Mounts Space Manager Commands FsProofs OsProofs LayerProofs MountProofs SpaceProofs ManagerProofs SpecWorld SpecOps SavedProofs FaultProofs ReadyProofs OpProofs CalmProofs
  SpecMachine SpecCmds SpecLog MachineProofs OpenProofs CmdProofs ExpandProofs DetProofs SpecTidy TidyProofs Sample SampleProofs Story StoryProofs SpecUsable UsableProofs UsableCmdProofs UsableInitProofs UsableSeqProofs
  SpecNames NamesProofs LongerProofs SpecVcs VcsProofs PrintProofs SpecOrder OrderProofs SpecProcess ProcessProofs PropsCommit PropsCmds PropsShow PropsFaults PropsUsable PropsOrder PropsRound PropsVcs PropsFiles.
From Verif Require Cli PropsOptions.
From Coq Require Import Lia.
From stdpp Require Import prelude gmap.

(** ** C82 *)
(** A process with any valid command line, of any user, in any directory: parsing, sudo, --chdir, --data-root (which may be relative), Prepare and the command together do what
    the version control system does. *)
Theorem C82_process : ∀ dr V n j c o w w1 r w', plain_path dr → good_path dr → stands dr w V → depth V n → 1 ≤ n → fits dr n →
  PropsOptions.meant (j_name j) (j_items j) = Some c → j_valid dr j →
  meanwhile dr w w1 → (∀ p, is_Some (v_places V !! p) → fget (w_fs w1) p = fget (w_fs w) p) → below_dirs dr w1 →
  fair o → no_faults o → many_new_ids dr o (enter (j_dir j) w1) → runs_in (enter (j_dir j) w1) (j_dir j) → allowed dr V w1 (j_at j) c →
  Cli.process (j_uid j) (j_gid j) (j_line j) o (enter (j_dir j) w1) = (r, w') →
  ∃ V' lines, vstep w1 V (j_at j) c r V' ∧ models dr w' V' ∧ files_step dr w1 w' V V' ∧ depth V' (S n) ∧ screen w' = screen w1 ++ lines ∧ vlines V (j_at j) c r lines.
Proof.
  intros dr V n j c o w w1 r w' P G St Hd Hn Fi Hm Hj U Hl Bd F N Nw R Al E. pose proof (stands_user _ _ _ _ P G St U Hl) as St1.
  destruct (process_is dr j c Hm Hj) as [ids Ep]. rewrite Ep in E. unfold Cli.as_user in E. unfold bind at 1, modify at 1 in E.
  destruct (manager_step dr V n (PropsOptions.value (j_items j) (B "chdir") []) (j_root j) (j_dir j) c o w1 (set_ids (enter (j_dir j) w1) ids) r w' P G St1 Hd Hn Fi F N Bd eq_refl eq_refl) as (V' & lines & A & (B1 & B2) & C & D1 & D2).
  - exact Nw.
  - eapply runs_same; [..|exact R]; done.
  - exact Al.
  - exact (proj2 (proj2 (proj2 Hj))).
  - exact E.
  - exists V', lines. split; [exact A|]. done.
Qed.
(** Any number of them *)
Theorem C82_session : ∀ dr l V n w, plain_path dr → good_path dr → stands dr w V → depth V n → 1 ≤ n → fits dr (n + length l) →
  serves dr l (λ V' w', stands dr w' V' ∧ depth V' (n + length l)) V w.
Proof.
  intros dr l. induction l as [|j l IH]; intros V n w P G St Hd Hn Fi; cbn [serves length]; [by rewrite Nat.add_0_r|].
  intros c w1 o r w' Hm Hj U Hl Bd F N Nw R Al E. cbn [length] in Fi. rewrite Nat.add_succ_r in *.
  destruct (C82_process dr V n j c o w w1 r w' P G St Hd Hn) as (V' & lines & A & B & C & D & K1 & K2); try done; [eapply fits_less; [exact Fi|lia]|]. exists V', lines. do 4 (split; [done|]).
  apply (IH V' (S n) w'); try done; [by left|lia].
Qed.
(** It starts on a machine on which the program has never run. *)
Theorem C82_nothing : ∀ dr w, fs_wf (w_fs w) → fget (w_fs w) dr = None → (∀ m, m ∈ w_mounts w → is_prefix (mounts_root dr) (mn_at m) = false) →
  stands dr w (Vcs ∅ ∅) ∧ depth (Vcs ∅ ∅) 1.
Proof.
  intros dr w W N Nm. split; [right; split; [by apply C77_nothing|done]|]. intros p pl a c ch E. cbn [v_places] in E. by rewrite lookup_empty in E.
Qed.
(** The exit status is 0 exactly if the command succeeded; a valid line that names a directory which is not there, and an invalid line, change nothing. *)
Theorem C82_status : ∀ r, (Cli.exit_status r = Some 0 ↔ r = Ok tt) ∧ (failed r → Cli.exit_status r ≠ Some 0).
Proof. intros r. split; [split; [destruct r as [[]| | | |]; done|by intros ->]|]. intros Fr. destruct r as [[]| | | |]; try done. by destruct (Fr tt). Qed.
Theorem C82_no_directory : ∀ dr j c o w r w', PropsOptions.meant (j_name j) (j_items j) = Some c → j_valid dr j → no_faults o → runs_in (enter (j_dir j) w) (j_dir j) →
  j_at j ≠ j_dir j → (∀ q, real_path (w_fs w) (j_at j) = Some q → is_dir_at (w_fs w) q = false) →
  Cli.process (j_uid j) (j_gid j) (j_line j) o (enter (j_dir j) w) = (r, w') → (∃ e, r = Err e) ∧ w_fs w' = w_fs w ∧ w_mounts w' = w_mounts w.
Proof.
  intros dr j c o w r w' Hm Hj N R Nj Hq E. destruct (process_is dr j c Hm Hj) as [ids Ep]. rewrite Ep in E. unfold Cli.as_user in E. unfold bind at 1, modify at 1 in E.
  unfold with_manager, change_dir in E. unfold j_at in *. set (arg := PropsOptions.value (j_items j) (B "chdir") []) in *. destruct arg as [|b arg]; [done|].
  assert (runs_in (set_ids (enter (j_dir j) w) ids) (j_dir j)) as R' by (eapply runs_same; [..|exact R]; done).
  destruct (abs_fine (b :: arg) (j_dir j) o _ N R') as (k & Ea & _). unfold bind at 1 in E. unfold bind at 1 in E. rewrite Ea in E.
  unfold bind at 1, os_chdir, sys_atomic in E. cbn [w_tick upd] in E. rewrite N in E. cbn [w_fs upd tick set_ids enter set_pwd set_cwd set_tree] in E. change (abs_from (j_dir j) (b :: arg)) with (Fs.abs_from (j_dir j) (b :: arg)) in E.
  destruct (real_path (w_fs w) (Fs.abs_from (j_dir j) (b :: arg))) as [q|] eqn:Er; [rewrite (Hq q eq_refl) in E|]; injection E as <- <-; (split; [by eexists|done]).
Qed.
Theorem C82_invalid : ∀ uid gid args o w r w', Cli.start uid gid args = Cli.AFail → Cli.process uid gid args o w = (r, w') → (∃ e, r = Err e) ∧ w' = w.
Proof. intros uid gid args o w r w' Hs E. unfold Cli.process in E. rewrite Hs in E. injection E as <- <-. split; [by eexists|done]. Qed.
Print Assumptions C82_process.
Print Assumptions C82_session.
Print Assumptions C82_nothing.
Print Assumptions C82_status.
Print Assumptions C82_no_directory.
Print Assumptions C82_invalid.

(** On a machine without a data root user 1000 runs three command lines in their home directory: init w, commit in w, and clone. A fourth, a commit without a workspace, is refused. *)
Definition root_opt : PropsOptions.item := PropsOptions.Text (B "data-root") (B "/d").
Definition job1 : job := Job home 1000 1000 (B "init") [root_opt; PropsOptions.Word (B "w")].
Definition job2 : job := Job home 1000 1000 (B "commit") [PropsOptions.Text (B "chdir") (B "w"); PropsOptions.Text (B "data-root") (B "../../d"); PropsOptions.Text (B "message") (B "one")].
Definition job3 : job := Job home 1000 1000 (B "clone") [PropsOptions.Word (B "w"); PropsOptions.Word (B "c"); root_opt].
Definition job4 : job := Job home 1000 1000 (B "commit") [root_opt; PropsOptions.Text (B "message") (B "two")].
Definition run_job (j : job) (w : world) : res unit * world := Cli.process (j_uid j) (j_gid j) (j_line j) calm (enter (j_dir j) w).
Definition above_ok (w : world) : bool := is_dir_at (w_fs w) [] && home_ok w.
Lemma jobs_test : many_ids_check sample_dr calm (enter home bare) && above_ok bare &&
  then_ok (run_job job1 bare) (λ _ w1, many_ids_check sample_dr calm (enter home w1) && above_ok w1 &&
  then_ok (run_job job2 w1) (λ _ w2, many_ids_check sample_dr calm (enter home w2) && above_ok w2 &&
  then_ok (run_job job3 w2) (λ _ w3, many_ids_check sample_dr calm (enter home w3) && is_dir_at (w_fs w3) [] && is_dir_at (w_fs w3) home && bool_decide (real_path (w_fs w3) home = Some home) &&
  match run_job job4 w3 with (Err _, _) => true | _ => false end))) = true.
Proof. vm_compute. reflexivity. Qed.
Lemma calm_said V n j c w r w' : stands sample_dr w V → depth V n → 1 ≤ n → fits sample_dr n → PropsOptions.meant (j_name j) (j_items j) = Some c → j_valid sample_dr j → is_dir_at (w_fs w) [] = true →
  many_ids_check sample_dr calm (enter (j_dir j) w) = true → runs_in (enter (j_dir j) w) (j_dir j) → allowed sample_dr V w (j_at j) c → run_job j w = (r, w') →
  ∃ V', vstep w V (j_at j) c r V' ∧ models sample_dr w' V' ∧ depth V' (S n) ∧ ∃ lines, screen w' = screen w ++ lines ∧ vlines V (j_at j) c r lines.
Proof.
  intros St Hd Hn Fi Hm Hj Dr Hi R Al E. destruct sample_plain as [P G].
  destruct (C82_process sample_dr V n j c calm w w r w' P G St Hd Hn Fi Hm Hj) as (V' & lines & A & B & _ & D & K); try exact (many_ids_check_ok _ _ _ Hi).
  - apply user_while. split; [apply (mc_wf _ _ _ (fo_machine _ _ (stands_founded _ _ _ St)))|]. split; [reflexivity|]. intros q. left. reflexivity.
  - intros p _. reflexivity.
  - split; [exact Dr|]. intros q Hq Nq. destruct (prefix_sample q Hq) as [->|Q]; [exact Dr|]. destruct (Nq Q).
  - exact fair_calm.
  - exact calm_no_faults.
  - exact R.
  - exact Al.
  - exact E.
  - exists V'. split; [exact A|]. split; [exact B|]. split; [exact D|]. exists lines. exact K.
Qed.
Lemma calm_job V n j c w r w' : stands sample_dr w V → depth V n → 1 ≤ n → fits sample_dr n → PropsOptions.meant (j_name j) (j_items j) = Some c → j_valid sample_dr j → is_dir_at (w_fs w) [] = true →
  many_ids_check sample_dr calm (enter (j_dir j) w) = true → runs_in (enter (j_dir j) w) (j_dir j) → allowed sample_dr V w (j_at j) c → run_job j w = (r, w') →
  ∃ V', vstep w V (j_at j) c r V' ∧ models sample_dr w' V' ∧ depth V' (S n).
Proof.
  intros St Hd Hn Fi Hm Hj Dr Hi R Al E. destruct (calm_said V n j c w r w' St Hd Hn Fi Hm Hj Dr Hi R Al E) as (V' & A & B & C & _). exists V'. split; [exact A|]. split; [exact B|exact C].
Qed.
Lemma above_inv w : above_ok w = true → is_dir_at (w_fs w) [] = true ∧ runs_in (enter home w) home ∧ fget (w_fs w) cdir = None.
Proof. unfold above_ok. intros H. apply andb_true_iff in H as [H1 H2]. split; [exact H1|]. exact (home_runs _ H2). Qed.
Lemma bare_wf : fs_wf (w_fs bare).
Proof. apply wf_check_ok. vm_compute. reflexivity. Qed.
Lemma bare_none m : m ∈ w_mounts bare → False.
Proof. change (w_mounts bare) with (@nil mount). intros H. exact (not_elem_of_nil m H). Qed.
Lemma bare_mounts : ∀ m, m ∈ w_mounts bare → is_prefix (mounts_root sample_dr) (mn_at m) = false.
Proof. intros m H. destruct (bare_none m H). Qed.
Lemma items_12 : Forall (PropsOptions.item_ok (B "init")) (j_items job1) ∧ Forall (PropsOptions.item_ok (B "commit")) (j_items job2).
Proof. split; repeat constructor; cbn [PropsOptions.item_ok]; try PropsOptions.dec. intros s E. discriminate E. Qed.
Lemma items_34 : Forall (PropsOptions.item_ok (B "clone")) (j_items job3) ∧ Forall (PropsOptions.item_ok (B "commit")) (j_items job4).
Proof. split; repeat constructor; cbn [PropsOptions.item_ok]; try PropsOptions.dec; intros s E; discriminate E. Qed.
Example C82_sat : ∃ w1 w2 w3 w4 V1 V2 V3 e,
  stands sample_dr bare (Vcs ∅ ∅) ∧ fget (w_fs bare) sample_dr = None ∧
  run_job job1 bare = (Ok tt, w1) ∧ vstep bare (Vcs ∅ ∅) home (CInit [B "w"] (B "main")) (Ok tt) V1 ∧ models sample_dr w1 V1 ∧
  run_job job2 w1 = (Ok tt, w2) ∧ vstep w1 V1 wdir (CCommit (B "one")) (Ok tt) V2 ∧ models sample_dr w2 V2 ∧ depth V2 3 ∧
  run_job job3 w2 = (Ok tt, w3) ∧ vstep w2 V2 home (CClone (B "w") (Some (B "c"))) (Ok tt) V3 ∧ models sample_dr w3 V3 ∧
  run_job job4 w3 = (Err e, w4) ∧ vstep w3 V3 home (CCommit (B "two")) (Err e) V3 ∧ models sample_dr w4 V3.
Proof.
  pose proof jobs_test as H. apply andb_true_iff in H as [I0 H]. apply andb_true_iff in I0 as [I0 O0].
  destruct (then_ok_inv _ _ H) as ([] & w1 & E1 & H1). clear H. cbv beta in H1. apply andb_true_iff in H1 as [I1 H1]. apply andb_true_iff in I1 as [I1 O1].
  destruct (then_ok_inv _ _ H1) as ([] & w2 & E2 & H2). clear H1. cbv beta in H2. apply andb_true_iff in H2 as [I2 H2]. apply andb_true_iff in I2 as [I2 O2].
  destruct (then_ok_inv _ _ H2) as ([] & w3 & E3 & H3). clear H2. cbv beta in H3. apply andb_true_iff in H3 as [I3 H3]. apply andb_true_iff in I3 as [I3 Q3]. apply andb_true_iff in I3 as [I3 Q2]. apply andb_true_iff in I3 as [I3 Q1].
  apply bool_decide_eq_true in Q3.
  destruct (run_job job4 w3) as [r w4] eqn:E4. destruct r as [?|e| | |]; [discriminate H3| |discriminate H3..]. clear H3.
  destruct sample_plain as [P G]. assert (∀ k, k ≤ 40 → fits sample_dr k) as Fi by (intros k Hk; by apply sample_fits).
  assert (∀ name items, Forall (PropsOptions.item_ok name) items → Fs.abs_from (j_at (Job home 1000 1000 name items)) (j_root (Job home 1000 1000 name items)) = sample_dr → j_valid sample_dr (Job home 1000 1000 name items)) as Jv.
  { intros name items A1 A2. split; [exact A1|]. split; [vm_compute; reflexivity|]. split; [vm_compute; reflexivity|exact A2]. }
  assert (Fs.abs_from home (default (B ".") (head [B "w"])) = wdir) as Ah by (vm_compute; reflexivity). assert (Fs.abs_from home (B "w") = wdir) as Aw by (vm_compute; reflexivity). assert (Fs.abs_from home (default (B ".") (Some (B "c"))) = cdir) as Ac by (vm_compute; reflexivity).
  assert (outside sample_dr wdir) as Ow by (split; vm_compute; reflexivity). assert (outside sample_dr cdir) as Oc by (split; vm_compute; reflexivity). assert (outside sample_dr home) as Oh by (split; vm_compute; reflexivity).
  destruct (above_inv _ O0) as (D0 & R0 & _). destruct (above_inv _ O1) as (D1 & R1 & _). destruct (above_inv _ O2) as (D2 & R2 & N2).
  assert (fget (w_fs bare) sample_dr = None) as Nd by (vm_compute; reflexivity).
  destruct (C82_nothing sample_dr bare) as [S0 P0]; [exact bare_wf|exact Nd|exact bare_mounts|].
  destruct (calm_job (Vcs ∅ ∅) 1 job1 (CInit [B "w"] (B "main")) bare (Ok tt) w1 S0 P0 (le_n 1) (Fi 1 ltac:(lia))) as (V1 & X1 & M1 & L1).
  { vm_compute. reflexivity. }
  { apply Jv; [exact (proj1 items_12)|vm_compute; reflexivity]. }
  { exact D0. }
  { exact I0. }
  { exact R0. }
  { split; [exact R0|]. cbv zeta. change (j_at job1) with home. rewrite Ah. split; [split; [exact Ow|]|].
    - intros s Q. vm_compute in Q. discriminate Q.
    - intros m Hm. destruct (bare_none m Hm). }
  { exact E1. }
  change (j_at job1) with home in X1.
  assert (is_Some (v_places V1 !! wdir)) as P1.
  { cbn [vstep] in X1. rewrite Ah in X1. destruct X1 as [(_ & _ & pl & rid & -> & _)|(_ & Q & _)]; [|by destruct (Q tt)]. cbn [put_place v_places]. rewrite lookup_insert. by eexists. }
  assert (j_at job2 = wdir) as J2 by (vm_compute; reflexivity).
  destruct (calm_job V1 2 job2 (CCommit (B "one")) w1 (Ok tt) w2 (or_introl M1) L1 ltac:(lia) (Fi 2 ltac:(lia))) as (V2 & X2 & M2 & L2).
  { vm_compute. reflexivity. }
  { apply Jv; [exact (proj2 items_12)|vm_compute; reflexivity]. }
  { exact D1. }
  { exact I1. }
  { exact R1. }
  { rewrite J2. split; [exact (place_runs _ _ _ _ G M1 P1)|]. left. exact P1. }
  { exact E2. }
  rewrite J2 in X2. assert (is_Some (v_places V2 !! wdir)) as P2.
  { destruct P1 as [pl1 P1]. cbn [vstep] in X2. rewrite P1 in X2. destruct X2 as (x & a & _ & _ & [(_ & _ & t & a' & id & _ & _ & ->)|(_ & Q & _)]); [|by destruct (Q tt)]. cbn [put_place v_places]. rewrite lookup_insert. by eexists. }
  destruct (calm_job V2 3 job3 (CClone (B "w") (Some (B "c"))) w2 (Ok tt) w3 (or_introl M2) L2 ltac:(lia) (Fi 3 ltac:(lia))) as (V3 & X3 & M3 & L3).
  { vm_compute. reflexivity. }
  { apply Jv; [exact (proj1 items_34)|vm_compute; reflexivity]. }
  { exact D2. }
  { exact I2. }
  { exact R2. }
  { change (j_at job3) with home. split; [exact R2|]. cbv zeta. rewrite Aw, Ac. split; [left; exact P2|]. split; [exact Oc|]. intros [s Q]. rewrite N2 in Q. discriminate Q. }
  { exact E3. }
  change (j_at job3) with home in X3.
  assert (runs_in (enter home w3) home) as R3.
  { apply in_dir; [exact Q2| |by right]. unfold enter. cbn [set_pwd set_cwd set_tree w_cwd]. by rewrite Q3. }
  assert (plain_spot sample_dr w3 home) as Ph by (split; [exact Oh|]; intros s Q; pose proof Q2 as Q2'; unfold is_dir_at in Q2'; rewrite Q in Q2'; discriminate Q2').
  destruct (calm_job V3 4 job4 (CCommit (B "two")) w3 (Err e) w4 (or_introl M3) L3 ltac:(lia) (Fi 4 ltac:(lia))) as (V4 & X4 & M4 & _).
  { vm_compute. reflexivity. }
  { apply Jv; [exact (proj2 items_34)|vm_compute; reflexivity]. }
  { exact Q1. }
  { exact I3. }
  { exact R3. }
  { change (j_at job4) with home. split; [exact R3|]. right. exact Ph. }
  { exact E4. }
  change (j_at job4) with home in X4. assert (v_places V3 !! home = None) as N3 by (destruct M3 as [_ (mids & Hi & Hp)]; exact (place_not_plain _ _ _ mids _ (conj Hi Hp) Ph)).
  assert (V4 = V3) as -> by (cbn [vstep] in X4; rewrite N3 in X4; apply X4).
  exists w1, w2, w3, w4, V1, V2, V3, e. split; [exact S0|]. split; [exact Nd|]. split; [exact E1|]. split; [exact X1|]. split; [exact M1|]. split; [exact E2|]. split; [exact X2|]. split; [exact M2|]. split; [exact L2|].
  split; [exact E3|]. split; [exact X3|]. split; [exact M3|]. split; [exact E4|]. split; [exact X4|exact M4].
Qed.
Print Assumptions C82_sat.
