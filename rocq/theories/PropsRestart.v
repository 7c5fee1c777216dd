(** * PropsRestart: the computer is restarted (C86, C87) *)
From Verif Require Import Base Uid SpecUid UidProofs Tree SpecTree TreeRefine TreeObs Dump DumpProofs Json JsonProofs Save SaveProofs Branch BranchProofs Date Ws SpecWs WsProofs
  Fs Overlay Os Layers Mounts Space Manager Commands FsProofs OsProofs LayerProofs MountProofs SpaceProofs ManagerProofs SpecWorld SpecOps SavedProofs FaultProofs ReadyProofs OpProofs CalmProofs
  SpecMachine SpecCmds SpecLog MachineProofs OpenProofs CmdProofs ExpandProofs DetProofs SpecTidy TidyProofs Sample SampleProofs Story StoryProofs SpecUsable UsableProofs UsableCmdProofs UsableInitProofs UsableSeqProofs SpecNames NamesProofs LongerProofs SpecVcs VcsProofs
  PropsCommit PropsCmds PropsShow PropsUsable PropsRound PropsVcs PropsFiles.
From Coq Require Import Lia.
From Coq Require Import Lia.
From stdpp Require Import prelude gmap.

(** The computer was restarted: the files are those that were there, and nothing is mounted. *)
Definition restarted (w w1 : world) : Prop := w_fs w1 = w_fs w ∧ w_mounts w1 = [].

Lemma restarted_while dr w w1 : in_order dr w → restarted w w1 → meanwhile dr w w1.
Proof.
  intros Io [E1 E2]. exists w. split; [|split; [done|]].
  - split; [apply (mc_wf _ _ _ (io_machine _ _ Io))|]. split; [done|]. by left.
  - rewrite E2. apply sublist_nil_l.
Qed.

(** After a restart the machine still holds the same workspaces and histories. No workspace is mounted or shows anything. *)
Theorem C86_restart : ∀ dr w w1 V, models dr w V → restarted w w1 → models dr w1 V ∧ (∀ p, ¬ awake dr w1 p) ∧ ∀ p S, ¬ visible w1 p S.
Proof.
  intros dr w w1 V Md Re. pose proof Re as [E1 E2]. split; [|split].
  - eapply models_while; [exact Md|eapply restarted_while; [apply Md|done]|]. intros p _. by rewrite E1.
  - intros p (i & _ & H). apply H. by rewrite E2.
  - intros p S (m & _ & H & _). by rewrite E2 in H.
Qed.
(** Any command works after a restart as it would have before: it follows the version control system, and changes no layer. commit, checkout
    and clone mount the workspace they start, and it shows what was stored before the restart. commit keeps the work that was not committed. *)
Theorem C86_step : ∀ dr V n d c o w w1 r w', plain_path dr → good_path dr → models dr w V → depth V n → 1 ≤ n → fits dr n → restarted w w1 →
  fair o → no_faults o → new_ids dr o (enter d w1) → allowed dr V w1 d c → run_cmd dr c o (enter d w1) = (r, w') →
  ∃ V', vstep w1 V d c r V' ∧ models dr w' V' ∧ depth V' (S n) ∧ untouched dr w w' ∧ ∀ ch, r = Ok tt → next_base V d c ch → visible w' (target_of d c) (content dr (w_fs w) ch).
Proof.
  intros dr V n d c o w w1 r w' P G Md Hd Hn Fi Re F N Nw Al E. pose proof Re as [E1 E2].
  destruct (C81_step dr V n d c o w w1 r w' P G Md Hd Hn Fi) as (V' & A & B & [C _] & D & _ & X); try done.
  - by apply restarted_while; [apply Md|].
  - intros p _. by rewrite E1.
  - exists V'. split; [done|]. split; [done|]. split; [done|]. unfold untouched, same_layer in *. rewrite E1 in C. split; [done|]. intros ch R Nb. rewrite <-E1. by apply X.
Qed.
(** In particular a workspace that may commit can be brought back by a commit, with everything that was in it. *)
Theorem C86_recover : ∀ dr V n p pl a ch msg o w w1, plain_path dr → good_path dr → models dr w V → depth V n → 1 ≤ n → fits dr n → restarted w w1 →
  fair o → no_faults o → new_ids dr o (enter p w1) → v_places V !! p = Some pl → v_trees V !! pl_space pl = Some a → chain a (pl_head pl) ch →
  awake dr w p → (∀ x, stands_for x pl → may_commit x a (pl_head pl)) →
  ∃ w', run_cmd dr (CCommit msg) o (enter p w1) = (Ok tt, w') ∧ visible w p (content dr (w_fs w) ch) ∧ visible w' p (content dr (w_fs w) ch).
Proof.
  intros dr V n p pl a ch msg o w w1 P G Md Hd Hn Fi Re F N Nw Ep T C Aw Mc. destruct (C86_restart _ _ _ _ Md Re) as [Md1 _].
  destruct (run_cmd dr (CCommit msg) o (enter p w1)) as [r w'] eqn:E.
  destruct (C86_step dr V n p (CCommit msg) o w w1 r w' P G Md Hd Hn Fi Re F N Nw) as (V' & A & B & _ & D & X); [|done|].
  { split; [by eapply place_runs|]. by left. }
  pose proof A as A'. cbn [vstep] in A'. rewrite Ep in A'. destruct A' as (y & b & Hy & Tb & A'). assert (b = a) as -> by congruence.
  destruct A' as [(_ & -> & _)|(Q & _)]; [|by destruct (Q (Mc _ Hy))]. exists w'. split; [done|]. split; [by eapply C81_shows|]. apply (X ch eq_refl). by exists pl, a.
Qed.
Print Assumptions C86_restart.
Print Assumptions C86_step.
Print Assumptions C86_recover.

(** ** A restart after init and one file that is not committed *)
Definition reboot (w : world) : world := set_mounts w [].
(** Somebody writes file [n] where the link at [p] leads, whether anything is mounted there or not. *)
Definition put_under (w : world) (p : path) (n data : bytes) : option world :=
  match fget (w_fs w) p with Some (FLink s) => Some (set_fs w (fset (w_fs w) (pjoin [] s ++ [n]) (FFile data))) | _ => None end.
Definition anywhere (w : world) (data : bytes) : bool := existsb (λ e, match e.2 with FFile d => bool_decide (d = data) | _ => false end) (w_fs w).
Lemma restart_test : let f := B "f" in let hi := B "hi" in let bye := B "bye" in
  ids_check sample_dr calm (enter home sample_world) && home_ok sample_world &&
  then_ok (run_cmd sample_dr (CInit [B "w"] (B "main")) calm (enter home sample_world)) (λ _ w1, put_test sample_dr w1 wdir f hi &&
  then_some (put w1 wdir f hi) (λ u1, bool_decide (shown u1 wdir f = Some hi) &&
  (then_ok (run_cmd sample_dr (CLog []) calm (enter wdir (reboot u1))) (λ _ w2, bool_decide (w_mounts w2 = [])) &&
  (then_some (put_under (reboot u1) wdir (B "g") bye) (λ u2, anywhere u2 bye && 
     then_ok (run_cmd sample_dr (CCommit (B "one")) calm (enter wdir u2)) (λ _ w3, negb (anywhere w3 bye) && bool_decide (shown w3 wdir f = Some hi))) &&
  (ids_check sample_dr calm (enter wdir (reboot u1)) &&
  then_ok (run_cmd sample_dr (CCommit (B "one")) calm (enter wdir (reboot u1))) (λ _ w2, bool_decide (shown w2 wdir f = Some hi))))))) = true.
Proof. vm_compute. reflexivity. Qed.
(** It follows the theorems: the commit after the restart brings back the file that was never committed. *)
Example C86_sat : ∃ w1 u1 w2 V1 pl a ch, let f := B "f" in
  run_cmd sample_dr (CInit [B "w"] (B "main")) calm (enter home sample_world) = (Ok tt, w1) ∧ put w1 wdir f (B "hi") = Some u1 ∧ shown u1 wdir f = Some (B "hi") ∧
  models sample_dr u1 V1 ∧ depth V1 2 ∧ v_places V1 !! wdir = Some pl ∧ awake sample_dr u1 wdir ∧ v_trees V1 !! pl_space pl = Some a ∧ chain a (pl_head pl) ch ∧
  restarted u1 (reboot u1) ∧ new_ids sample_dr calm (enter wdir (reboot u1)) ∧
  run_cmd sample_dr (CCommit (B "one")) calm (enter wdir (reboot u1)) = (Ok tt, w2) ∧ visible w2 wdir (content sample_dr (w_fs u1) ch) ∧ shown w2 wdir f = Some (B "hi").
Proof.
  pose proof restart_test as H. cbv zeta in H. apply andb_true_iff in H as [I0 H]. apply andb_true_iff in I0 as [I0 O0].
  destruct (then_ok_inv _ _ H) as ([] & w1 & E1 & H1). clear H. cbv beta in H1. apply andb_true_iff in H1 as [T1 H1].
  destruct (then_some_inv _ _ H1) as (u1 & Q1 & H2). clear H1. cbv beta in H2. apply andb_true_iff in H2 as [S1 H2]. apply andb_true_iff in H2 as [_ H2]. apply andb_true_iff in H2 as [_ H2]. apply andb_true_iff in H2 as [I1 H2].
  destruct (then_ok_inv _ _ H2) as ([] & w2 & E2 & S2). clear H2. cbv beta in S2. apply bool_decide_eq_true in S1. apply bool_decide_eq_true in S2.
  destruct sample_plain as [P G]. assert (∀ k, k ≤ 40 → fits sample_dr k) as Fi by (intros k Hk; by apply sample_fits).
  assert (Fs.abs_from home (default (B ".") (head [B "w"])) = wdir) as Ah by (vm_compute; reflexivity).
  assert (outside sample_dr wdir) as Ow by (split; vm_compute; reflexivity). destruct (home_runs _ O0) as [R0 _].
  destruct (C80_empty sample_dr sample_world sample_order) as [M0 D0].
  assert (apart (Vcs ∅ ∅)) as A0 by (intros p q pl pq Q; cbn [v_places] in Q; rewrite lookup_empty in Q; discriminate Q).
  destruct (calm_files (Vcs ∅ ∅) 1 home (CInit [B "w"] (B "main")) sample_world sample_world (Ok tt) w1 M0 A0 D0 (le_n 1) (Fi 1 ltac:(lia)) (user_none _ _ _ sample_order) I0) as (V1 & X1 & M1 & A1 & D1 & F1).
  { split; [exact R0|]. cbv zeta. rewrite Ah. split; [split; [exact Ow|]|].
    - intros s Q. vm_compute in Q. discriminate Q.
    - intros m Hm. apply elem_of_nil in Hm. destruct Hm. }
  { exact E1. }
  assert (is_Some (v_places V1 !! wdir)) as [pl P1].
  { cbn [vstep] in X1. rewrite Ah in X1. destruct X1 as [(_ & _ & pl & rid & -> & _)|(_ & Q & _)]; [|by destruct (Q tt)]. cbn [put_place v_places]. rewrite lookup_insert. by eexists. }
  pose proof (put_edits _ _ _ _ _ _ _ _ G M1 P1 T1 Q1) as U1. pose proof (models_while _ _ _ _ M1 (proj1 U1) (proj1 (proj2 U1))) as Mu1.
  assert (awake sample_dr w1 wdir) as Aw1.
  { destruct (proj2 (proj2 F1) _ _ P1) as [[Q _]|(_ & _ & Q)]; [|exact Q]. cbn [v_places] in Q. rewrite lookup_empty in Q. discriminate Q. }
  assert (awake sample_dr u1 wdir) as Aw.
  { destruct Aw1 as (i & L & Hm). exists i. split; [rewrite (proj1 (proj2 U1)); [exact L|by eexists]|]. unfold put in Q1. destruct (mount_of w1 wdir) as [m|]; [|discriminate Q1].
    cbn [mbind option_bind] in Q1. destruct (mn_upper m); [|discriminate Q1]. cbn [mbind option_bind] in Q1. injection Q1 as <-. exact Hm. }
  pose proof Mu1 as [Io1 (mids & _ & Hpl)]. destruct (Hpl _ _ P1) as (_ & y & a & _ & T & _ & _ & _ & _ & lows & _ & C). clear mids Hpl.
  assert (restarted u1 (reboot u1)) as Re by (split; reflexivity).
  destruct (C86_step sample_dr V1 2 wdir (CCommit (B "one")) calm u1 (reboot u1) (Ok tt) w2 P G Mu1 D1 ltac:(lia) (Fi 2 ltac:(lia)) Re fair_calm calm_no_faults (ids_check_ok _ _ _ I1)) as (V2 & X2 & M2 & D2 & _ & Vi).
  { split; [exact (place_runs _ _ _ _ G (proj1 (C86_restart _ _ (reboot u1) _ Mu1 Re)) (ex_intro _ _ P1))|]. left. exact (ex_intro _ _ P1). }
  { exact E2. }
  exists w1, u1, w2, V1, pl, a, (pl_head pl :: lows). cbv zeta. split; [exact E1|]. split; [exact Q1|]. split; [exact S1|]. split; [exact Mu1|]. split; [exact D1|]. split; [exact P1|]. split; [exact Aw|]. split; [exact T|].
  split; [exact C|]. split; [split; reflexivity|]. split; [exact (ids_check_ok _ _ _ I1)|]. split; [exact E2|]. split; [|exact S2].
  apply (Vi _ eq_refl). exists pl, a. split; [exact P1|]. split; [exact T|exact C].
Qed.
(** The other commands leave a workspace unmounted after a restart, although they succeed. *)
Theorem C87_sleeps_refuted : ¬ ∀ dr V c o w w1 p w', plain_path dr → good_path dr → models dr w V → is_Some (v_places V !! p) → awake dr w p → restarted w w1 → fair o → no_faults o →
  run_cmd dr c o (enter p w1) = (Ok tt, w') → awake dr w' p.
Proof.
  intros H. destruct C86_sat as (w1 & u1 & w2 & V1 & pl & a & ch & E1 & Q1 & _ & M & _ & Ep & Aw & _ & _ & Re & _). destruct sample_plain as [P G].
  pose proof restart_test as T. cbv zeta in T. apply andb_true_iff in T as [_ T]. destruct (then_ok_inv _ _ T) as ([] & w1' & E1' & T1). clear T. cbv beta in T1. apply andb_true_iff in T1 as [_ T1].
  rewrite E1 in E1'. injection E1' as <-. destruct (then_some_inv _ _ T1) as (u1' & Q1' & T2). clear T1. cbv zeta in Q1. rewrite Q1 in Q1'. injection Q1' as <-.
  cbv beta in T2. apply andb_true_iff in T2 as [_ T2]. apply andb_true_iff in T2 as [T2 _]. destruct (then_ok_inv _ _ T2) as ([] & w3 & E3 & T3). cbv beta in T3. apply bool_decide_eq_true in T3.
  destruct (H sample_dr V1 (CLog []) calm u1 (reboot u1) wdir w3 P G M (ex_intro _ _ Ep) Aw Re fair_calm calm_no_faults E3) as (i & _ & Hm). apply Hm. rewrite T3. reflexivity.
Qed.
(** What is written to a workspace between the restart and the next commit is lost: it gets under the mount, not into a layer, and commit deletes it. *)
Theorem C87_under_refuted : ¬ ∀ dr V o w w1 p n data w2 msg w', plain_path dr → good_path dr → models dr w V → is_Some (v_places V !! p) → restarted w w1 → fair o → no_faults o →
  put_under w1 p n data = Some w2 → run_cmd dr (CCommit msg) o (enter p w2) = (Ok tt, w') → anywhere w2 data = true → anywhere w' data = true.
Proof.
  intros H. destruct C86_sat as (w1 & u1 & w2 & V1 & pl & a & ch & E1 & Q1 & _ & M & _ & Ep & Aw & _ & _ & Re & _). destruct sample_plain as [P G].
  pose proof restart_test as T. cbv zeta in T. apply andb_true_iff in T as [_ T]. destruct (then_ok_inv _ _ T) as ([] & w1' & E1' & T1). clear T. cbv beta in T1. apply andb_true_iff in T1 as [_ T1].
  rewrite E1 in E1'. injection E1' as <-. destruct (then_some_inv _ _ T1) as (u1' & Q1' & T2). clear T1. cbv zeta in Q1. rewrite Q1 in Q1'. injection Q1' as <-.
  cbv beta in T2. apply andb_true_iff in T2 as [_ T2]. apply andb_true_iff in T2 as [_ T2]. apply andb_true_iff in T2 as [T2 _]. destruct (then_some_inv _ _ T2) as (u2 & Q2 & T3). cbv beta in T3. apply andb_true_iff in T3 as [T3 T4].
  destruct (then_ok_inv _ _ T4) as ([] & w3 & E3 & T5). cbv beta in T5. apply andb_true_iff in T5 as [T5 _].
  rewrite (H sample_dr V1 calm u1 (reboot u1) wdir (B "g") (B "bye") u2 (B "one") w3 P G M (ex_intro _ _ Ep) Re fair_calm calm_no_faults Q2 E3 T3) in T5. discriminate T5.
Qed.
Print Assumptions C86_sat.
Print Assumptions C87_sleeps_refuted.
Print Assumptions C87_under_refuted.
