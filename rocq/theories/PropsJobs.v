(** * PropsJobs: from command lines to the version control system by the kernel's rules for paths (C99) *)
From Verif Require Import Base Uid SpecUid UidProofs Tree SpecTree TreeRefine TreeObs Dump DumpProofs Json JsonProofs Save SaveProofs Branch BranchProofs Date Ws SpecWs WsProofs
  Fs Overlay Os Layers Mounts Space Manager Commands FsProofs OsProofs LayerProofs MountProofs SpaceProofs ManagerProofs SpecWorld SpecOps SavedProofs FaultProofs ReadyProofs OpProofs CalmProofs
  SpecMachine SpecCmds SpecLog MachineProofs OpenProofs CmdProofs ExpandProofs DetProofs SpecTidy TidyProofs Sample SampleProofs Story StoryProofs SpecUsable UsableProofs UsableCmdProofs UsableInitProofs UsableSeqProofs
  SpecNames NamesProofs LongerProofs SpecVcs VcsProofs PrintProofs SpecOrder OrderProofs SpecProcess ProcessProofs PropsCommit PropsCmds PropsShow PropsFaults PropsUsable PropsOrder PropsRound PropsVcs SpecHarm HarmProofs SpecWhole PropsFiles PropsProcess PropsWhole
  Deep SpecDeep DeepProofs DeepMoveProofs PropsDeep DeepStart SpecStart DeepStartProofs PropsStart SpecKernel PropsKernel DeepProcess SpecJobs.
From Verif Require Cli PropsOptions.
From Coq Require Import Lia.
From stdpp Require Import prelude gmap.

Lemma stands_usual dr V w p : good_path dr → stands dr w V → clear_of (w_mounts w) (mounts_root dr) → reachable V w p → usual w p.
Proof.
  intros G [Md|[_ Ev]] Cm Re; [by eapply (reachable_usual dr V)|]. destruct Re as (Gp & C & [[pl E]|D]); [by rewrite Ev, lookup_empty in E|].
  left. split; [done|]. split; [done|]. intros m Hm Q. by rewrite (C m Hm) in Q.
Qed.
Lemma prepares_reaches dr V w w' d c : prepares dr w w' → allowed dr V w d c → reaches dr V w d c → reaches dr V w' d c.
Proof.
  intros Pp [_ Al] (Cm & Rd & Rc). pose proof (pp_mounts _ _ _ Pp) as Em.
  assert (∀ p, reachable V w p → reachable V w' p) as Hr.
  { intros p (A1 & A2 & A3). split; [done|]. rewrite Em. split; [done|]. destruct A3 as [A3|A3]; [by left|right]. by eapply prepares_dir. }
  assert (∀ p, outside dr p → plain_place w p → plain_place w' p) as Hp.
  { intros p O (A1 & A2 & A3 & A4 & A5). split; [done|]. split; [done|]. rewrite Em. split; [done|]. split; [by eapply prepares_dir|]. intros s Q.
    pose proof (prepares_away _ _ _ _ Pp O []) as Ha. rewrite app_nil_r in Ha. rewrite Ha in Q. destruct (A5 s Q) as (t & -> & U1 & U2 & U3). exists t. split; [done|]. split; [done|]. rewrite Em. split; [by eapply prepares_dir|done]. }
  split; [by rewrite Em|]. split; [by apply Hr|]. destruct c; try done.
  - apply Hp; [apply Al|done].
  - destruct Rc as [R1 R2]. split; [by apply Hr|]. apply Hp; [apply Al|done].
Qed.
Lemma wd_ext w w' : w_fs w' = w_fs w → w_mounts w' = w_mounts w → w_cwd w' = w_cwd w → w_pwd w' = w_pwd w → usual_wd w → usual_wd w'.
Proof. intros E1 E2 E3 E4 [H1 H2]. split; [rewrite E3; by eapply usual_dir_ext|]. intros q. rewrite E4. intros Q. eapply usual_ext; [done|done|by apply H2]. Qed.
Lemma enter_again d v : w_tree v = new_tree → w_pwd v = Some d → real_path (w_fs v) d = Some (w_cwd v) → enter d v = v.
Proof. intros E1 E2 E3. unfold enter. rewrite E3. destruct v. cbn in *. by subst. Qed.
(** Where a process is after the option --chdir *)
Lemma chdir_same arg d0 o w ids : fs_wf (w_fs w) → usual w d0 → let d := match arg with [] => d0 | _ => abs_from d0 arg end in usual w d → let v := set_ids (enter d0 w) ids in runs_in v d0 →
  deep_change_dir arg o v = change_dir arg o v ∧
  ∀ v', change_dir arg o v = (Ok tt, v') → w_fs v' = w_fs w ∧ w_mounts v' = w_mounts w ∧ w_tree v' = new_tree ∧ w_pwd v' = Some d ∧ real_path (w_fs w) d = Some (w_cwd v') ∧ usual_wd v'.
Proof.
  intros W U0 d U v Rv. destruct (enter_usual w d0 W U0) as (W0 & _ & G0). destruct (usual_real _ _ W U0) as (t0 & R0 & _).
  assert (usual_wd v) as Wv by (eapply (wd_ext (enter d0 w)); done). destruct arg as [|a arg].
  - split; [done|]. cbn [change_dir]. intros v' E. injection E as <-. do 4 (split; [done|]). split; [|done]. unfold v, enter. cbn [w_cwd set_ids set_pwd set_cwd set_tree]. by rewrite R0.
  - destruct (usual_real _ _ W U) as (t & R & Ut). assert (deep_abs (a :: arg) o v = fp_abs (a :: arg) o v) as Ea by exact (deep_abs_same (a :: arg) o v W Wv).
    assert (∀ p v1, fp_abs (a :: arg) o v = (Ok p, v1) → p = d ∧ ∃ k, v1 = upd v (w_fs v) (w_mounts v) (w_tree v) k) as Hp.
    { intros p v1 E. pose proof (abs_ok _ _ _ _ _ E) as ->. split; [exact (runs_abs_from _ _ _ Rv)|]. by apply quiet_abs in E as (k & ->); exists k. }
    unfold change_dir, deep_change_dir. split.
    + unfold bind at 1. rewrite Ea. unfold bind at 2. destruct (fp_abs (a :: arg) o v) as [[p|e| | |] v1] eqn:E; try done. destruct (Hp _ _ eq_refl) as [-> (k & ->)].
      apply bind_same, deep_chdir_same; [exact W|]. eapply (usual_ext w); done.
    + intros v' E. apply bind_any in E as [(p & v1 & E1 & E)|(r1 & _ & _ & Fr)]; [|by destruct (Fr tt)]. destruct (Hp _ _ E1) as [-> (k & ->)].
      apply bind_any in E as [([] & v2 & E2 & E)|(r1 & _ & _ & Fr)]; [|by destruct (Fr tt)]. injection E as <-.
      unfold os_chdir, sys_atomic in E2. cbv zeta in E2. change (w_fs (tick (upd v (w_fs v) (w_mounts v) (w_tree v) k))) with (w_fs w) in E2. rewrite R, (proj1 (proj2 Ut)) in E2.
      destruct (ch_fault _) as [|e n|[|n]]; try discriminate E2. injection E2 as <-. do 4 (split; [done|]). split; [done|].
      split; [eapply (usual_dir_ext w); done|]. intros q Q. injection Q as <-. eapply (usual_ext w); done.
Qed.
(** What the set-up leaves if it succeeds *)
Lemma inject_any dr s o v d r v' : founded dr v → is_dir_at (w_fs v) [] = true → runs_in v d → abs_from d s = dr → inject_manager s o v = (r, v') → ∀ x, r = Ok x → x = dr ∧ in_order dr v' ∧ prepares dr v v'.
Proof.
  intros Fo D R Es Ei x ->. unfold inject_manager in Ei. apply bind_any in Ei as [(p & v2 & Ea & Ei)|(r2 & _ & _ & Fq)]; [|by destruct (Fq x)].
  pose proof (abs_ok _ _ _ _ _ Ea) as ->. apply quiet_abs in Ea as (m & ->). assert (abs_of v s = dr) as Ed by (rewrite <-Es; exact (runs_abs_from _ _ _ R)). rewrite Ed in Ei. clear Ed.
  set (v2 := upd v (w_fs v) (w_mounts v) (w_tree v) m) in *. assert (founded dr v2) as Fo2 by (destruct Fo as [A1 A2 A3]; constructor; done).
  apply bind_any in Ei as [([st e] & v3 & Ep & Ei)|(r2 & _ & _ & Fq)]; [|by destruct (Fq x)].
  pose proof (prepare_any _ _ _ _ _ _ (mc_wf _ _ _ (fo_machine _ _ Fo2)) D Ep) as Pv. assert (prepares dr v v3) as Pp by (destruct Pv; constructor; done). cbn [snd] in Ei.
  destruct e as [e|]; [discriminate Ei|]. injection Ei as <- <-. split; [done|]. split; [by eapply C77_prepare|done].
Qed.
(** A process does what the simpler model says, whatever fails in it and wherever it is killed. *)
Theorem C99_same : ∀ dr V ids arg s d0 c o w, plain_path dr → good_path dr → stands dr w V → is_dir_at (w_fs w) [] = true → fair o →
  let d := match arg with [] => d0 | _ => abs_from d0 arg end in
  runs_in (enter d0 w) d0 → reachable V w d0 → allowed dr V w d c → reaches dr V w d c → abs_from d s = dr →
  deep_process ids arg s c o (deep_enter d0 w) = Cli.as_user ids (with_manager arg s (λ dr, run_cmd dr c)) o (enter d0 w).
Proof.
  intros dr V ids arg s d0 c o w P G St Dr F d R Rd0 Al Re Es. pose proof (stands_founded _ _ _ St) as Fo. pose proof (mc_wf _ _ _ (fo_machine _ _ Fo)) as W.
  pose proof (proj1 Re) as Cm. pose proof (stands_usual dr V w d0 G St Cm Rd0) as U0. pose proof (stands_usual dr V w d G St Cm (proj1 (proj2 Re))) as U.
  rewrite (enter_same _ _ W U0). unfold deep_process, Cli.as_user. unfold bind at 1, modify at 1. unfold bind at 3, modify at 1. unfold with_manager.
  assert (runs_in (set_ids (enter d0 w) ids) d0) as Rv by (eapply runs_same; [..|exact R]; done).
  destruct (chdir_same arg d0 o w ids W U0 U Rv) as [Ed Hf]. fold d in Hf. unfold bind at 1. rewrite Ed. unfold bind at 2.
  destruct (change_dir arg o (set_ids (enter d0 w) ids)) as [[[]|e| | |] v1] eqn:Ec; try done.
  destruct (Hf _ eq_refl) as (F1 & F2 & T1 & P1 & Q1 & Wv). destruct (chdir_any arg d0 o w (set_ids (enter d0 w) ids) _ _ eq_refl Rv (proj1 Al) Ec) as (_ & _ & C3). specialize (C3 eq_refl). fold d in C3.
  pose proof (stands_disk dr w v1 V F1 F2 St) as St1. pose proof (stands_founded _ _ _ St1) as Fo1.
  assert (deep_inject s o v1 = inject_manager s o v1) as Ei' by (apply bind_same, deep_abs_same; [by rewrite F1|done]).
  unfold bind at 1. rewrite Ei'. unfold bind at 1. destruct (inject_manager s o v1) as [[x|e| | |] v2] eqn:Ei; try done.
  destruct (inject_any dr s o v1 d _ _ Fo1 ltac:(by rewrite F1) C3 Es Ei x eq_refl) as (-> & Io & Pp). pose proof (prepares_models _ _ _ _ Pp Io St1) as Md2.
  pose proof (disk_allowed dr w v1 V d c F1 F2 Al) as Al1.
  assert (allowed dr V v2 d c) as Al2 by (eapply prepares_allowed; [exact Pp| |exact Al1]; eapply prepares_enter; [exact Pp|apply Al1]).
  assert (reaches dr V v1 d c) as Re1.
  { destruct Re as (A1 & A2 & A3). unfold reaches, reachable, plain_place, usual_dir in *. rewrite !F1, !F2. done. }
  pose proof (prepares_reaches _ _ _ _ _ _ Pp Al1 Re1) as Re2. destruct (pp_proc _ _ _ Pp) as (X1 & X2 & X3 & _).
  assert (enter d v2 = v2) as Ev.
  { apply enter_again; [congruence|congruence|]. rewrite X1. eapply real_extends; [|exact Q1]. intros x y. rewrite <-F1. by apply (prepares_keeps dr v1). }
  pose proof (C98_same dr V v2 d c o P G F Md2 Al2 Re2) as Hc. rewrite enter_same, Ev in Hc; [exact Hc|exact (pp_wf _ _ _ Pp)|].
  eapply (stands_usual dr V); [done|by left|apply Re2|apply Re2].
Qed.
Print Assumptions C99_same.
(** So does each valid command line, with the parser and sudo of Cli.v. *)
Theorem C99_line : ∀ dr V j c, plain_path dr → good_path dr → PropsOptions.meant (j_name j) (j_items j) = Some c → j_valid dr j →
  ∃ ids, ∀ o w, stands dr w V → is_dir_at (w_fs w) [] = true → fair o → runs_in (enter (j_dir j) w) (j_dir j) → reachable V w (j_dir j) → allowed dr V w (j_at j) c → reaches dr V w (j_at j) c →
  deep_process ids (PropsOptions.value (j_items j) (B "chdir") []) (j_root j) c o (deep_enter (j_dir j) w) = Cli.process (j_uid j) (j_gid j) (j_line j) o (enter (j_dir j) w).
Proof.
  intros dr V j c P G Hm Hj. destruct (process_is dr j c Hm Hj) as [ids Ep]. exists ids. intros o w St Dr F R Rd Al Re. rewrite Ep.
  exact (C99_same dr V ids _ _ _ c o w P G St Dr F R Rd Al Re (proj2 (proj2 (proj2 Hj)))).
Qed.
Print Assumptions C99_line.
(** A process with any valid command line, of any user, in any directory, does what the version control system does and prints what it should. *)
Theorem C99_process : ∀ dr V n j c ids o w w1 r w', plain_path dr → good_path dr → stands dr w V → depth V n → 1 ≤ n → fits dr n →
  j_valid dr j → meanwhile dr w w1 → (∀ p, is_Some (v_places V !! p) → fget (w_fs w1) p = fget (w_fs w) p) → below_dirs dr w1 →
  fair o → no_faults o → many_new_ids dr o (enter (j_dir j) w1) → runs_in (enter (j_dir j) w1) (j_dir j) → reachable V w1 (j_dir j) → allowed dr V w1 (j_at j) c → reaches dr V w1 (j_at j) c →
  deep_process ids (PropsOptions.value (j_items j) (B "chdir") []) (j_root j) c o (deep_enter (j_dir j) w1) = (r, w') →
  ∃ V' lines, vstep w1 V (j_at j) c r V' ∧ models dr w' V' ∧ files_step dr w1 w' V V' ∧ depth V' (S n) ∧ screen w' = screen w1 ++ lines ∧ vlines V (j_at j) c r lines.
Proof.
  intros dr V n j c ids o w w1 r w' P G St Hd Hn Fi Hj U Hl Bd F N Nw R Rd Al Re E. pose proof (stands_user _ _ _ _ P G St U Hl) as St1.
  rewrite (C99_same dr V ids _ _ _ c o w1 P G St1 (proj1 Bd) F R Rd Al Re (proj2 (proj2 (proj2 Hj)))) in E. unfold Cli.as_user in E. unfold bind at 1, modify at 1 in E.
  destruct (manager_step dr V n (PropsOptions.value (j_items j) (B "chdir") []) (j_root j) (j_dir j) c o w1 (set_ids (enter (j_dir j) w1) ids) r w' P G St1 Hd Hn Fi F N Bd eq_refl eq_refl) as (V' & lines & A & (B1 & B2) & C & D1 & D2).
  - exact Nw.
  - eapply runs_same; [..|exact R]; done.
  - exact Al.
  - exact (proj2 (proj2 (proj2 Hj))).
  - exact E.
  - exists V', lines. split; [exact A|]. done.
Qed.
Print Assumptions C99_process.
(** Whatever fails in it and wherever it is killed, no more is lost than C85 says. *)
Theorem C99_harm : ∀ dr V n j c ids o w w1 r w', plain_path dr → good_path dr → stands dr w V → depth V n →
  j_valid dr j → meanwhile dr w w1 → (∀ p, is_Some (v_places V !! p) → fget (w_fs w1) p = fget (w_fs w) p) → is_dir_at (w_fs w1) [] = true →
  fair o → runs_in (enter (j_dir j) w1) (j_dir j) → reachable V w1 (j_dir j) → allowed dr V w1 (j_at j) c → reaches dr V w1 (j_at j) c →
  deep_process ids (PropsOptions.value (j_items j) (B "chdir") []) (j_root j) c o (deep_enter (j_dir j) w1) = (r, w') →
  ∃ V', partly o V (j_at j) c V' ∧ stands dr w' V' ∧ depth V' (S n) ∧ spared dr V (j_at j) c w1 w' ∧ stay_awake dr V' w1 w'.
Proof.
  intros dr V n j c ids o w w1 r w' P G St Hd Hj U Hl Dr F R Rd Al Re E. pose proof (stands_user _ _ _ _ P G St U Hl) as St1.
  rewrite (C99_same dr V ids _ _ _ c o w1 P G St1 Dr F R Rd Al Re (proj2 (proj2 (proj2 Hj)))) in E. unfold Cli.as_user in E. unfold bind at 1, modify at 1 in E.
  apply (manager_harm dr V n (PropsOptions.value (j_items j) (B "chdir") []) (j_root j) (j_dir j) c o w1 (set_ids (enter (j_dir j) w1) ids) r w' P G St1 Hd F Dr eq_refl eq_refl).
  - eapply runs_same; [..|exact R]; done.
  - exact Al.
  - exact (proj2 (proj2 (proj2 Hj))).
  - exact E.
Qed.
Print Assumptions C99_harm.
(** Any number of them, from a machine on which the program has never run (C82_nothing) *)
Theorem C99_session : ∀ dr l V n w, plain_path dr → good_path dr → stands dr w V → depth V n → 1 ≤ n → fits dr (n + length l) →
  deep_endures dr l (λ V' w', stands dr w' V' ∧ depth V' (n + length l)) V w.
Proof.
  intros dr l. induction l as [|j l IH]; intros V n w P G St Hd Hn Fi; cbn [deep_endures length]; [by rewrite Nat.add_0_r|].
  intros c ids w1 o r w' Hm Hj U Hl Bd F R Rd Al Re E. cbn [length] in Fi. rewrite Nat.add_succ_r in *. split.
  - intros N Nw. destruct (C99_process dr V n j c ids o w w1 r w' P G St Hd Hn) as (V' & lines & A & B & C & D & K1 & K2); try done; [eapply fits_less; [exact Fi|lia]|]. exists V', lines. do 4 (split; [done|]).
    apply (IH V' (S n) w'); try done; [by left|lia].
  - destruct (C99_harm dr V n j c ids o w w1 r w' P G St Hd Hj U Hl (proj1 Bd) F R Rd Al Re E) as (V' & A & B & C & D & Sa). exists V'. do 3 (split; [done|]). apply (IH V' (S n) w'); try done. lia.
Qed.
Print Assumptions C99_session.

(** On a machine without a data root user 1000 runs init w in their home directory, and then commit with --chdir w and a relative data root. *)
Definition whole_job (j : job) (c : command) (w : world) : res unit * world :=
  deep_process (1000, 1000)%Z (PropsOptions.value (j_items j) (B "chdir") []) (j_root j) c calm (deep_enter (j_dir j) w).
Definition near_ok (w : world) : bool := clear_test (w_mounts w) (mounts_root sample_dr) && (clear_test (w_mounts w) home && clear_test (w_mounts w) wdir).
Lemma near_inv w : near_ok w = true → clear_of (w_mounts w) (mounts_root sample_dr) ∧ clear_of (w_mounts w) home ∧ clear_of (w_mounts w) wdir.
Proof. unfold near_ok. intros H. apply andb_true_iff in H as [T1 H]. apply andb_true_iff in H as [T2 T3]. split; [exact (clear_test_ok _ _ T1)|]. split; [exact (clear_test_ok _ _ T2)|exact (clear_test_ok _ _ T3)]. Qed.
Lemma jobs_deep_test : many_ids_check sample_dr calm (enter home bare) && above_ok bare &&
  then_ok (whole_job job1 (CInit [B "w"] (B "main")) bare) (λ _ w1, many_ids_check sample_dr calm (enter home w1) && above_ok w1 && near_ok w1 && is_dir_at (w_fs w1) home &&
  then_ok (whole_job job2 (CCommit (B "one")) w1) (λ _ w2, true)) = true.
Proof. vm_compute. reflexivity. Qed.
Lemma calm_whole V n j c w r w' : stands sample_dr w V → depth V n → 1 ≤ n → fits sample_dr n → j_valid sample_dr j → is_dir_at (w_fs w) [] = true →
  many_ids_check sample_dr calm (enter (j_dir j) w) = true → runs_in (enter (j_dir j) w) (j_dir j) → reachable V w (j_dir j) → allowed sample_dr V w (j_at j) c → reaches sample_dr V w (j_at j) c → whole_job j c w = (r, w') →
  ∃ V', vstep w V (j_at j) c r V' ∧ models sample_dr w' V' ∧ depth V' (S n).
Proof.
  intros St Hd Hn Fi Hj Dr Hi R Rd Al Re E. destruct sample_plain as [P G].
  destruct (C99_process sample_dr V n j c (1000, 1000)%Z calm w w r w' P G St Hd Hn Fi Hj) as (V' & lines & A & B & _ & D & K); try exact (many_ids_check_ok _ _ _ Hi).
  - apply user_while. split; [apply (mc_wf _ _ _ (fo_machine _ _ (stands_founded _ _ _ St)))|]. split; [reflexivity|]. intros q. left. reflexivity.
  - intros p _. reflexivity.
  - split; [exact Dr|]. intros q Hq Nq. destruct (prefix_sample q Hq) as [->|Q]; [exact Dr|]. destruct (Nq Q).
  - exact fair_calm.
  - exact calm_no_faults.
  - exact R.
  - exact Rd.
  - exact Al.
  - exact Re.
  - exact E.
  - exists V'. split; [exact A|]. split; [exact B|exact D].
Qed.
Lemma bare_place : plain_place bare wdir.
Proof.
  destruct home_good as (_ & Gw & _). split; [exact Gw|]. split; [discriminate|]. split; [intros m Hm; destruct (bare_none m Hm)|]. split; [vm_compute; reflexivity|]. intros s Q. vm_compute in Q. discriminate Q.
Qed.
Example C99_sat : ∃ w1 w2 V1 V2, fget (w_fs bare) sample_dr = None ∧
  whole_job job1 (CInit [B "w"] (B "main")) bare = (Ok tt, w1) ∧ vstep bare (Vcs ∅ ∅) home (CInit [B "w"] (B "main")) (Ok tt) V1 ∧ models sample_dr w1 V1 ∧
  whole_job job2 (CCommit (B "one")) w1 = (Ok tt, w2) ∧ vstep w1 V1 wdir (CCommit (B "one")) (Ok tt) V2 ∧ models sample_dr w2 V2 ∧ depth V2 3.
Proof.
  pose proof jobs_deep_test as H. apply andb_true_iff in H as [I0 H]. apply andb_true_iff in I0 as [I0 O0].
  destruct (then_ok_inv _ _ H) as ([] & w1 & E1 & H1). clear H. cbv beta in H1. apply andb_true_iff in H1 as [I1 H1]. apply andb_true_iff in I1 as [I1 Dh]. apply andb_true_iff in I1 as [I1 T1]. apply andb_true_iff in I1 as [I1 O1].
  destruct (then_ok_inv _ _ H1) as ([] & w2 & E2 & _). clear H1. destruct (near_inv _ T1) as (C1 & C1h & C1w). destruct home_good as (Gh & Gw & _).
  destruct sample_plain as [P G]. assert (∀ k, k ≤ 40 → fits sample_dr k) as Fi by (intros k Hk; by apply sample_fits).
  assert (∀ name items, Forall (PropsOptions.item_ok name) items → Fs.abs_from (j_at (Job home 1000 1000 name items)) (j_root (Job home 1000 1000 name items)) = sample_dr → j_valid sample_dr (Job home 1000 1000 name items)) as Jv.
  { intros name items A1 A2. split; [exact A1|]. split; [vm_compute; reflexivity|]. split; [vm_compute; reflexivity|exact A2]. }
  assert (Fs.abs_from home (default (B ".") (head [B "w"])) = wdir) as Ah by (vm_compute; reflexivity). assert (outside sample_dr wdir) as Ow by (split; vm_compute; reflexivity).
  destruct (above_inv _ O0) as (D0 & R0 & _). destruct (above_inv _ O1) as (D1 & R1 & _).
  assert (fget (w_fs bare) sample_dr = None) as Nd by (vm_compute; reflexivity).
  destruct (C82_nothing sample_dr bare) as [S0 P0]; [exact bare_wf|exact Nd|exact bare_mounts|].
  assert (reachable (Vcs ∅ ∅) bare home) as Rh by (split; [exact Gh|]; split; [intros m Hm; destruct (bare_none m Hm)|right; vm_compute; reflexivity]).
  destruct (calm_whole (Vcs ∅ ∅) 1 job1 (CInit [B "w"] (B "main")) bare (Ok tt) w1 S0 P0 (le_n 1) (Fi 1 ltac:(lia))) as (V1 & X1 & M1 & L1).
  { apply Jv; [exact (proj1 items_12)|vm_compute; reflexivity]. }
  { exact D0. }
  { exact I0. }
  { exact R0. }
  { exact Rh. }
  { split; [exact R0|]. cbv zeta. change (j_at job1) with home. rewrite Ah. split; [split; [exact Ow|]|].
    - intros s Q. vm_compute in Q. discriminate Q.
    - intros m Hm. destruct (bare_none m Hm). }
  { split; [intros m Hm; destruct (bare_none m Hm)|]. split; [exact Rh|]. cbn [target_of]. change (j_at job1) with home. rewrite Ah. exact bare_place. }
  { exact E1. }
  change (j_at job1) with home in X1.
  assert (is_Some (v_places V1 !! wdir)) as P1.
  { cbn [vstep] in X1. rewrite Ah in X1. destruct X1 as [(_ & _ & pl & rid & -> & _)|(_ & Q & _)]; [|by destruct (Q tt)]. cbn [put_place v_places]. rewrite lookup_insert. by eexists. }
  assert (j_at job2 = wdir) as J2 by (vm_compute; reflexivity).
  destruct (calm_whole V1 2 job2 (CCommit (B "one")) w1 (Ok tt) w2 (or_introl M1) L1 ltac:(lia) (Fi 2 ltac:(lia))) as (V2 & X2 & M2 & L2).
  { apply Jv; [exact (proj2 items_12)|vm_compute; reflexivity]. }
  { exact D1. }
  { exact I1. }
  { exact R1. }
  { split; [exact Gh|]. split; [exact C1h|right; exact Dh]. }
  { rewrite J2. split; [exact (place_runs _ _ _ _ G M1 P1)|]. left. exact P1. }
  { rewrite J2. split; [exact C1|]. split; [|exact P1]. split; [exact Gw|]. split; [exact C1w|left; exact P1]. }
  { exact E2. }
  rewrite J2 in X2. exists w1, w2, V1, V2. split; [exact Nd|]. split; [exact E1|]. split; [exact X1|]. split; [exact M1|]. split; [exact E2|]. split; [exact X2|]. split; [exact M2|exact L2].
Qed.
Print Assumptions C99_sat.
