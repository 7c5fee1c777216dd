(** * PropsWhole: whole processes, whatever fails (C85) *)
From Verif Require Import Base Uid SpecUid UidProofs Tree SpecTree TreeRefine TreeObs Dump DumpProofs Json JsonProofs Save SaveProofs Branch BranchProofs Date Ws SpecWs WsProofs
  Fs Overlay Os Layers Mounts Space Manager Commands FsProofs OsProofs LayerProofs MountProofs SpaceProofs ManagerProofs SpecWorld SpecOps SavedProofs FaultProofs ReadyProofs OpProofs CalmProofs
  SpecMachine SpecCmds SpecLog MachineProofs OpenProofs CmdProofs ExpandProofs DetProofs SpecTidy TidyProofs Sample SampleProofs Story StoryProofs SpecUsable UsableProofs UsableCmdProofs UsableInitProofs UsableSeqProofs
  SpecNames NamesProofs LongerProofs SpecVcs VcsProofs PrintProofs SpecOrder OrderProofs SpecProcess ProcessProofs SpecHarm HarmProofs SpecWhole PropsCommit PropsCmds PropsShow PropsFaults PropsUsable PropsOrder PropsRound PropsVcs PropsFiles PropsProcess PropsHarm.
From Verif Require Cli PropsOptions.
From Coq Require Import Lia.
From stdpp Require Import prelude gmap.

Lemma stands_disk dr w v V : w_fs v = w_fs w → w_mounts v = w_mounts w → stands dr w V → stands dr v V.
Proof.
  intros F1 F2 [[Io (mids & Hi & Hp)]|[[A1 A2 A3] Ev]].
  - left. split; [eapply (same_order dr w); [split; congruence|done]|]. exists mids. split; [exact Hi|]. intros p pl Ep. destruct (Hp _ _ Ep) as (O & y & a & Wa & T & B1 & B2 & B3 & B4 & B5).
    split; [done|]. exists y, a. split; [eapply (same_workspaces dr w); [split; congruence|done]|]. do 5 (split; [done|]). unfold stacked in *. by rewrite F2.
  - right. split; [|done]. constructor; rewrite ?F1, ?F2; done.
Qed.
Lemma chdir_any arg d0 o w v r v' : w_fs v = w_fs w → runs_in v d0 →
  let d := match arg with [] => d0 | _ => abs_from d0 arg end in runs_in (enter d w) d → change_dir arg o v = (r, v') →
  w_fs v' = w_fs v ∧ w_mounts v' = w_mounts v ∧ (r = Ok tt → runs_in v' d).
Proof.
  intros E1 R d Rd E. destruct arg as [|a arg]; [injection E as <- <-; done|]. cbn [change_dir] in E. apply bind_any in E as [(p & v1 & Ea & E)|(r1 & Ea & _ & Fr)].
  2: { apply quiet_abs in Ea as (k & ->). split; [done|]. split; [done|]. intros Q. by destruct (Fr tt). }
  pose proof (abs_ok _ _ _ _ _ Ea) as ->. apply quiet_abs in Ea as (k & ->). assert (abs_of v (a :: arg) = d) as Ed by exact (runs_abs_from _ _ _ R). rewrite Ed in E. clear Ed.
  destruct (enter_real _ _ Rd) as (q & Rq & Dq & Cq). unfold bind at 1, os_chdir, sys_atomic in E. cbn [w_tick upd w_fs tick] in E. rewrite E1, Rq, Dq in E.
  destruct (ch_fault _) as [|e n|[|n]]; injection E as <- <-; (split; [done|]); (split; [done|]); try done. intros _.
  eapply (runs_same (enter d w)); [done|by rewrite Cq|done|exact Rd].
Qed.
Lemma prepares_runs dr w w' d : prepares dr w w' → runs_in w d → runs_in w' d.
Proof.
  intros Pp R. destruct (pp_proc _ _ _ Pp) as (Q5 & Q6 & _). destruct R as [D C Pw|El Gl D Pw].
  - apply in_dir; [by apply (prepares_dir dr w)|congruence|by rewrite Q6].
  - apply in_link; [rewrite Q5; by apply (prepares_keeps dr w)|by rewrite Q5|rewrite Q5; by apply (prepares_dir dr w)|by rewrite Q6].
Qed.
Lemma prepares_stands dr w w' V : prepares dr w w' → stands dr w V → stands dr w' V.
Proof.
  intros Pp [Md|[Fo Ev]]; [|right; split; [by eapply prepares_founded|done]]. left. eapply prepares_models; [exact Pp| |by left].
  apply order_founded. pose proof (proj1 (order_founded _ _) (md_order _ _ _ Md)) as [Fo Hq]. split; [by eapply prepares_founded|]. intros q Q. eapply prepares_dir; [exact Pp|auto].
Qed.
Lemma prepares_spared dr V d c w w' w2 : prepares dr w w' → spared dr V d c w' w2 → spared dr V d c w w2.
Proof.
  intros Pp H i D Nr. unfold same_layer in *.
  assert (∀ q, is_prefix (diff_dir (layers_root dr) i) q = true → fget (w_fs w') q = fget (w_fs w) q) as Hd.
  { intros q [k ->]%is_prefix_spec. eapply (prepares_deep dr w w' _ (B "overlay") (uid_b32 i) (B "diff" :: k)); [done|]. unfold diff_dir, layer_dir, layers_root. by rewrite <-!app_assoc. }
  intros q Hq. rewrite <-(Hd q Hq). refine (H i _ Nr q Hq). by eapply prepares_dir.
Qed.
(** The set-up and the command, with any faults *)
Lemma manager_harm dr V n arg s d0 c o w v r w' : plain_path dr → good_path dr → stands dr w V → depth V n → fair o → is_dir_at (w_fs w) [] = true →
  w_fs v = w_fs w → w_mounts v = w_mounts w → runs_in v d0 → let d := match arg with [] => d0 | _ => abs_from d0 arg end in allowed dr V w d c → abs_from d s = dr →
  with_manager arg s (λ dr, run_cmd dr c) o v = (r, w') →
  ∃ V', partly o V d c V' ∧ stands dr w' V' ∧ depth V' (S n) ∧ spared dr V d c w w' ∧ stay_awake dr V' w w'.
Proof.
  intros P G St Hd F Dr E1 E2 R d Al Es E. unfold with_manager in E.
  assert (∀ v', stands dr v' V → stay_awake dr V w v' → (∀ i q, is_dir_at (w_fs w) (diff_dir (layers_root dr) i) = true → is_prefix (diff_dir (layers_root dr) i) q = true → fget (w_fs v') q = fget (w_fs w) q) →
    ∃ V', partly o V d c V' ∧ stands dr v' V' ∧ depth V' (S n) ∧ spared dr V d c w v' ∧ stay_awake dr V' w v') as Same.
  { intros v' S' Ha Hs. exists V. split; [by left|]. split; [done|]. split; [eapply depth_more; [exact Hd|lia]|]. split; [|done]. intros i Di _ q Hq. by eapply Hs. }
  assert (∀ v', w_fs v' = w_fs w → w_mounts v' = w_mounts w → stay_awake dr V w v') as Aw.
  { intros v' A1 A2 p _ (i & L & Hm). exists i. by rewrite A1, A2. }
  apply bind_any in E as [([] & v1 & Ec & E)|(r1 & Ec & _)].
  2: { destruct (chdir_any arg d0 o w v _ _ E1 R (proj1 Al) Ec) as (C1 & C2 & _). apply Same; [eapply (stands_disk dr w); [congruence..|done]|apply Aw; congruence|]. intros i q _ _. by rewrite C1, E1. }
  destruct (chdir_any arg d0 o w v _ _ E1 R (proj1 Al) Ec) as (C1 & C2 & C3). specialize (C3 eq_refl). fold d in C3.
  assert (w_fs v1 = w_fs w) as F1 by congruence. assert (w_mounts v1 = w_mounts w) as F2 by congruence.
  assert (∀ q k, inject_manager s o v1 = (q, k) → prepares dr v1 k ∧ (∀ x, q = Ok x → x = dr ∧ in_order dr k) ∨ w_fs k = w_fs v1 ∧ w_mounts k = w_mounts v1 ∧ ∀ x, q ≠ Ok x) as Inj.
  { intros q k Ei. unfold inject_manager in Ei. apply bind_any in Ei as [(p & v2 & Ea & Ei)|(r2 & Ea & _ & Fq)].
    2: { apply quiet_abs in Ea as (m & ->). right. split; [done|]. split; [done|]. exact Fq. }
    left. pose proof (abs_ok _ _ _ _ _ Ea) as ->. apply quiet_abs in Ea as (m & ->). assert (abs_of v1 s = dr) as Ed by (rewrite <-Es; exact (runs_abs_from _ _ _ C3)). rewrite Ed in Ei. clear Ed.
    set (v2 := upd v1 (w_fs v1) (w_mounts v1) (w_tree v1) m) in *. assert (founded dr v2) as Fo by (destruct (stands_founded _ _ _ (stands_disk dr w v1 V F1 F2 St)) as [A1 A2 A3]; constructor; done).
    assert (is_dir_at (w_fs v2) [] = true) as D2 by (change (w_fs v2) with (w_fs v1); by rewrite F1).
    apply bind_any in Ei as [([st e] & v3 & Ep & Ei)|(r2 & Ep & _ & Fq)].
    - pose proof (prepare_any _ _ _ _ _ _ (mc_wf _ _ _ (fo_machine _ _ Fo)) D2 Ep) as Pv. assert (prepares dr v1 v3) as Pp by (destruct Pv; constructor; done). cbn [snd] in Ei.
      destruct e as [e|]; injection Ei as <- <-; (split; [exact Pp|]); [done|]. intros x [= <-]. split; [done|]. by eapply C77_prepare.
    - pose proof (prepare_any _ _ _ _ _ _ (mc_wf _ _ _ (fo_machine _ _ Fo)) D2 Ep) as Pv. split; [destruct Pv; constructor; done|]. intros x Q. by destruct (Fq x). }
  pose proof (stands_disk dr w v1 V F1 F2 St) as St1.
  assert (∀ k, prepares dr v1 k → ∀ i q, is_dir_at (w_fs w) (diff_dir (layers_root dr) i) = true → is_prefix (diff_dir (layers_root dr) i) q = true → fget (w_fs k) q = fget (w_fs w) q) as Hl.
  { intros k Pp i q _ [m ->]%is_prefix_spec. rewrite <-F1. eapply (prepares_deep dr v1 k _ (B "overlay") (uid_b32 i) (B "diff" :: m)); [done|]. unfold diff_dir, layer_dir, layers_root. by rewrite <-!app_assoc. }
  apply bind_any in E as [(x & v2 & Ei & E)|(r2 & Ei & _)].
  2: { destruct (Inj _ _ Ei) as [[Pp _]|(A1 & A2 & _)].
       - apply Same; [by eapply prepares_stands| |by apply Hl]. intros p Hp Ha. eapply prepares_awake; [exact Pp|]. by apply (Aw v1).
       - apply Same; [eapply (stands_disk dr w); [congruence..|done]|apply Aw; congruence|]. intros i q _ _. by rewrite A1, F1. }
  destruct (Inj _ _ Ei) as [[Pp Hx]|(_ & _ & Nx)]; [|by destruct (Nx x)]. destruct (Hx _ eq_refl) as [-> Io].
  pose proof (prepares_models _ _ _ _ Pp Io St1) as Md. destruct Md as [_ (mids & Hi & Hp)].
  pose proof (disk_allowed dr w v1 V d c F1 F2 Al) as Al1.
  assert (allowed dr V v2 d c) as Al2 by (eapply prepares_allowed; [exact Pp| |exact Al1]; eapply prepares_enter; [exact Pp|apply Al1]).
  destruct (harm_any dr V mids n d c o v2 r w' P G F Io (conj Hi Hp) Hd (prepares_runs _ _ _ _ Pp C3) Al2 E) as (V' & A & (B & Sa) & C & D).
  exists V'. split; [done|]. split; [by left|]. split; [done|]. pose proof (prepares_spared _ _ _ _ _ _ _ Pp D) as Sp.
  split; [|intros p Ep Ha; apply Sa; [done|]; eapply prepares_awake; [exact Pp|]; destruct Ha as (i & L & Hw); exists i; by rewrite F1, F2]. intros i Di Nr. unfold same_layer. rewrite <-F1. apply Sp; [by rewrite F1|done].
Qed.

(** ** C85 *)
(** A process with any valid command line, whatever fails in it and wherever it is killed *)
Theorem C85_process : ∀ dr V n j c o w w1 r w', plain_path dr → good_path dr → stands dr w V → depth V n →
  PropsOptions.meant (j_name j) (j_items j) = Some c → j_valid dr j →
  meanwhile dr w w1 → (∀ p, is_Some (v_places V !! p) → fget (w_fs w1) p = fget (w_fs w) p) → is_dir_at (w_fs w1) [] = true →
  fair o → runs_in (enter (j_dir j) w1) (j_dir j) → allowed dr V w1 (j_at j) c →
  Cli.process (j_uid j) (j_gid j) (j_line j) o (enter (j_dir j) w1) = (r, w') →
  ∃ V', partly o V (j_at j) c V' ∧ stands dr w' V' ∧ depth V' (S n) ∧ spared dr V (j_at j) c w1 w' ∧ stay_awake dr V' w1 w'.
Proof.
  intros dr V n j c o w w1 r w' P G St Hd Hm Hj U Hl Dr F R Al E. pose proof (stands_user _ _ _ _ P G St U Hl) as St1.
  destruct (process_is dr j c Hm Hj) as [ids Ep]. rewrite Ep in E. unfold Cli.as_user in E. unfold bind at 1, modify at 1 in E.
  apply (manager_harm dr V n (PropsOptions.value (j_items j) (B "chdir") []) (j_root j) (j_dir j) c o w1 (set_ids (enter (j_dir j) w1) ids) r w' P G St1 Hd F Dr eq_refl eq_refl).
  - eapply runs_same; [..|exact R]; done.
  - exact Al.
  - exact (proj2 (proj2 (proj2 Hj))).
  - exact E.
Qed.
(** Any number of them *)
Theorem C85_session : ∀ dr l V n w, plain_path dr → good_path dr → stands dr w V → depth V n → 1 ≤ n → fits dr (n + length l) →
  endures dr l (λ V' w', stands dr w' V' ∧ depth V' (n + length l)) V w.
Proof.
  intros dr l. induction l as [|j l IH]; intros V n w P G St Hd Hn Fi; cbn [endures length]; [by rewrite Nat.add_0_r|].
  intros c w1 o r w' Hm Hj U Hl Bd F R Al E. cbn [length] in Fi. rewrite Nat.add_succ_r in *. split.
  - intros N Nw. destruct (C82_process dr V n j c o w w1 r w' P G St Hd Hn) as (V' & lines & A & B & C & D & K1 & K2); try done; [eapply fits_less; [exact Fi|lia]|]. exists V', lines. do 4 (split; [done|]).
    apply (IH V' (S n) w'); try done; [by left|lia].
  - destruct (C85_process dr V n j c o w w1 r w' P G St Hd Hm Hj U Hl (proj1 Bd) F R Al E) as (V' & A & B & C & D & Sa). exists V'. do 3 (split; [done|]). apply (IH V' (S n) w'); try done. lia.
Qed.
Print Assumptions C85_process.
Print Assumptions C85_session.

(** On a machine without a data root "init w" is killed while it prepares the data root, which is left incomplete. There is still nothing, and a second attempt succeeds. *)
Definition early : oracle := with_fault calm 3 (FKill 1).
Lemma whole_test : above_ok bare &&
  killed_then (Cli.process 1000 1000 (j_line job1) early (enter home bare)) (λ w1, is_dir_at (w_fs w1) (layers_root sample_dr) && bool_decide (fget (w_fs w1) (spaces_root sample_dr) = None) &&
  is_dir_at (w_fs w1) wdir && match w_mounts w1 with [] => true | _ => false end && many_ids_check sample_dr calm (enter home w1) && above_ok w1 &&
  then_ok (run_job job1 w1) (λ _ _, true)) = true.
Proof. vm_compute. reflexivity. Qed.
Example C85_sat : ∃ w1 w2 V1 V2, let c := CInit [B "w"] (B "main") in
  stands sample_dr bare (Vcs ∅ ∅) ∧ Cli.process 1000 1000 (j_line job1) early (enter home bare) = (Crash, w1) ∧ partly early (Vcs ∅ ∅) home c V1 ∧ V1 = Vcs ∅ ∅ ∧ stands sample_dr w1 V1 ∧
  is_dir_at (w_fs w1) (layers_root sample_dr) = true ∧ fget (w_fs w1) (spaces_root sample_dr) = None ∧
  run_job job1 w1 = (Ok tt, w2) ∧ vstep w1 V1 home c (Ok tt) V2 ∧ models sample_dr w2 V2 ∧ is_Some (v_places V2 !! wdir).
Proof.
  pose proof whole_test as H. apply andb_true_iff in H as [O0 H]. destruct (killed_then_inv _ _ H) as (w1 & E1 & H1). clear H. cbv beta in H1.
  apply andb_true_iff in H1 as [H1 H2]. apply andb_true_iff in H1 as [H1 O1]. apply andb_true_iff in H1 as [H1 I1]. apply andb_true_iff in H1 as [H1 Nm]. apply andb_true_iff in H1 as [H1 Nw]. apply andb_true_iff in H1 as [Dl Ns].
  apply bool_decide_eq_true in Ns. assert (w_mounts w1 = []) as Mt by (destruct (w_mounts w1); [reflexivity|discriminate Nm]). clear Nm.
  destruct (then_ok_inv _ _ H2) as ([] & w2 & E2 & _). clear H2.
  destruct sample_plain as [P G]. assert (∀ k, k ≤ 40 → fits sample_dr k) as Fi by (intros k Hk; by apply sample_fits).
  assert (Fs.abs_from home (default (B ".") (head [B "w"])) = wdir) as Ah by (vm_compute; reflexivity). assert (outside sample_dr wdir) as Ow by (split; vm_compute; reflexivity).
  destruct (above_inv _ O0) as (D0 & R0 & _). destruct (above_inv _ O1) as (D1 & R1 & _).
  destruct (C82_nothing sample_dr bare) as [S0 P0]; [exact bare_wf|vm_compute; reflexivity|exact bare_mounts|].
  assert (PropsOptions.meant (j_name job1) (j_items job1) = Some (CInit [B "w"] (B "main"))) as Hm by (vm_compute; reflexivity).
  assert (j_valid sample_dr job1) as Hj by (split; [exact (proj1 items_12)|]; split; [vm_compute; reflexivity|]; split; vm_compute; reflexivity).
  assert (meanwhile sample_dr bare bare) as U by (apply user_while; split; [exact bare_wf|]; split; [reflexivity|]; intros q; left; reflexivity).
  assert (∀ w, is_dir_at (w_fs w) wdir = true → w_mounts w = [] → runs_in (enter home w) home → allowed sample_dr (Vcs ∅ ∅) w home (CInit [B "w"] (B "main"))) as Al.
  { intros w Q1 Q2 R. split; [exact R|]. cbv zeta. rewrite Ah. split; [split; [exact Ow|]|].
    - intros s Q. unfold is_dir_at in Q1. rewrite Q in Q1. discriminate Q1.
    - intros m Hx. rewrite Q2 in Hx. destruct (not_elem_of_nil m Hx). }
  destruct (C85_process sample_dr (Vcs ∅ ∅) 1 job1 (CInit [B "w"] (B "main")) early bare bare Crash w1 P G S0 P0 Hm Hj U (λ _ _, eq_refl) D0 (fair_with_fault _ _ _ fair_calm)) as (V1 & A & St & C & _).
  { exact R0. }
  { apply Al; [vm_compute; reflexivity|vm_compute; reflexivity|exact R0]. }
  { exact E1. }
  change (j_at job1) with home in A.
  assert (V1 = Vcs ∅ ∅) as Ev. { destruct A as [->|(pl & x & a & l & k & a' & Q & _)]; [done|]. cbn [v_places] in Q. rewrite lookup_empty in Q. discriminate Q. }
  assert (depth (Vcs ∅ ∅) 2) as P1 by (rewrite <-Ev; exact C).
  destruct (calm_job (Vcs ∅ ∅) 2 job1 (CInit [B "w"] (B "main")) w1 (Ok tt) w2) as (V2 & X2 & M2 & _).
  { rewrite <-Ev. exact St. }
  { exact P1. }
  { lia. }
  { apply Fi. lia. }
  { exact Hm. }
  { exact Hj. }
  { exact D1. }
  { exact I1. }
  { exact R1. }
  { apply Al; [exact Nw|exact Mt|exact R1]. }
  { exact E2. }
  change (j_at job1) with home in X2.
  exists w1, w2, V1, V2. cbv zeta. split; [exact S0|]. split; [exact E1|]. split; [exact A|]. split; [exact Ev|]. split; [exact St|]. split; [exact Dl|]. split; [exact Ns|]. split; [exact E2|].
  split; [rewrite Ev; exact X2|]. split; [exact M2|].
  cbn [vstep] in X2. rewrite Ah in X2. destruct X2 as [(_ & _ & pl & rid & -> & _)|(_ & Q & _)]; [|by destruct (Q tt)]. cbn [put_place v_places]. rewrite lookup_insert. by eexists.
Qed.
Print Assumptions C85_sat.
