(** * PropsStart: init and clone by the kernel's rules for paths (C95) *)
From Verif Require Import Base Uid SpecUid UidProofs Tree SpecTree TreeRefine TreeObs Dump DumpProofs Json JsonProofs Save SaveProofs Branch BranchProofs Date Ws SpecWs WsProofs
  Fs Overlay Os Layers Mounts Space Manager Commands FsProofs OsProofs LayerProofs MountProofs SpaceProofs ManagerProofs SpecWorld SpecOps SavedProofs FaultProofs ReadyProofs OpProofs CalmProofs
  SpecMachine SpecCmds SpecLog MachineProofs OpenProofs CmdProofs ExpandProofs DetProofs DatedProofs SpecTidy TidyProofs Sample SampleProofs Story StoryProofs SpecUsable UsableProofs UsableCmdProofs UsableInitProofs UsableSeqProofs SpecSerial SerialProofs
  SpecNames NamesProofs LongerProofs UserProofs SpecVcs VcsProofs HarmProofs PropsCommit PropsCmds PropsShow PropsUsable PropsRound PropsVcs PropsFiles Edits SpecEdits EditProofs PropsEdits SpecSnap SnapProofs PropsSnap Deep SpecDeep DeepProofs DeepMoveProofs
  PropsDeep DeepStart SpecStart DeepStartProofs.
From Coq Require Import Lia.
From stdpp Require Import prelude gmap.

Lemma quiet_apart {A} (m : M A) o w r w' : quiet m → m o w = (r, w') → apart w w'.
Proof. intros Q E. apply Q in E as (k & ->). done. Qed.
Lemma apart_getwd w w' : apart w w' → getwd_of w' = getwd_of w.
Proof. intros (E1 & E2 & E3 & E4). unfold getwd_of. by rewrite E1, E3, E4. Qed.
Lemma apart_order dr w w' : apart w w' → in_order dr w → in_order dr w'.
Proof. intros (E1 & E2 & _) [B1 B2 B3 B4 B5]. constructor; by rewrite ?E1, ?E2. Qed.
Lemma apart_place w w' p : apart w w' → plain_place w p → plain_place w' p.
Proof. intros (E1 & E2 & _). by apply place_ext. Qed.
Lemma apart_trans w1 w2 w3 : apart w1 w2 → apart w2 w3 → apart w1 w3.
Proof. intros (A1 & A2 & A3 & A4) (B1 & B2 & B3 & B4). split; [congruence|]. split; [congruence|]. split; congruence. Qed.
(** At a plain place init does what the simpler model says, whatever fails, from any directory or from the link of any workspace. *)
Theorem C95_init : ∀ dr w d args branch o, let p := abs_of (enter d w) (default (B ".") (head args)) in
  plain_path dr → good_path dr → fair o → in_order dr w → clear_of (w_mounts w) (mounts_root dr) → usual w d → outside dr p → plain_place w p → (real_path (w_fs w) d = Some p → d = p) →
  deep_run dr (CInit args branch) o (deep_enter d w) = run_cmd dr (CInit args branch) o (enter d w).
Proof.
  intros dr w d args branch o p P G F Io Cm Ud O Pl Hd. pose proof (mc_wf _ _ _ (io_machine _ _ Io)) as W.
  rewrite (enter_same _ _ W Ud). destruct (enter_usual w d W Ud) as (U & _ & Eg). cbn [deep_run run_cmd]. unfold deep_init, cmd_init.
  apply bind_then; [by apply deep_abs_same|]. intros p' w1 E. apply abs_ok in E as Ep. subst p'. fold p. apply (quiet_apart _ _ _ _ _ (quiet_abs _)) in E as A1.
  assert (plain_place w1 p) as P1 by (apply (apart_place (enter d w)); [done|]; by apply (place_ext w)). assert (fs_wf (w_fs w1)) as W1 by (destruct A1 as (-> & _); exact W).
  apply bind_then; [by apply place_exists_same|]. intros e w2 E2. apply (quiet_apart _ _ _ _ _ (quiet_is_exists _)) in E2 as A2.
  assert (plain_place w2 p) as P2 by (by apply (apart_place w1)). assert (fs_wf (w_fs w2)) as W2 by (destruct A2 as (-> & _); exact W1).
  apply bind_then. { destruct e; [|reflexivity]. apply bind_then; [by apply place_empty_same|reflexivity]. }
  intros bad w3 E3. assert (quiet (if e : bool then d <- fs_is_empty_dir p;; ret (negb d) else ret false)) as Q by (quiet; apply quiet_is_empty_dir). apply (quiet_apart _ _ _ _ _ Q) in E3 as A3.
  destruct bad; [reflexivity|]. pose proof (apart_trans _ _ _ A1 (apart_trans _ _ _ A2 A3)) as A.
  apply create_place_same; try done.
  - apply (apart_order _ _ _ A). by destruct Io.
  - destruct A as (_ & -> & _). exact Cm.
  - by apply (apart_place w2).
  - by apply (apart_wd _ _ A).
  - rewrite (apart_getwd _ _ A), Eg. destruct A as (-> & _). exact Hd.
Qed.
Print Assumptions C95_init.
(** So does clone, from any workspace to any plain place. *)
Theorem C95_clone : ∀ dr w d source target o, let p := abs_of (enter d w) (default (B ".") target) in
  plain_path dr → good_path dr → fair o → in_order dr w → clear_of (w_mounts w) (mounts_root dr) → usual w d → usual w (abs_of (enter d w) source) → outside dr p → plain_place w p →
  (real_path (w_fs w) d = Some p → d = p) →
  deep_run dr (CClone source target) o (deep_enter d w) = run_cmd dr (CClone source target) o (enter d w).
Proof.
  intros dr w d source target o p P G F Io Cm Ud Us O Pl Hd. pose proof (mc_wf _ _ _ (io_machine _ _ Io)) as W.
  rewrite (enter_same _ _ W Ud). destruct (enter_usual w d W Ud) as (U & _ & Eg). cbn [deep_run run_cmd]. unfold deep_clone, cmd_clone.
  apply bind_then; [by apply deep_abs_same|]. intros p' w1 E. apply abs_ok in E as Ep. subst p'. fold p. apply (quiet_apart _ _ _ _ _ (quiet_abs _)) in E as A1.
  assert (abs_of w1 source = abs_of (enter d w) source) as Es by (unfold abs_of; by rewrite (apart_getwd _ _ A1)).
  pose proof (apart_wd _ _ A1 U) as U1. assert (fs_wf (w_fs w1)) as W1 by (destruct A1 as (-> & _); exact W).
  apply bind_then. { apply deep_open_same; [done|done|]. rewrite Es. apply (apart_usual _ _ _ A1). exact Us. }
  assert (machine dr (w_fs w1) (w_mounts w1)) as Mc1 by (destruct A1 as (-> & -> & _); apply Io).
  intros x w2 E2. destruct (get_workspace_any _ _ _ _ _ _ G F Mc1 E2) as (a & hid & Lv & _).
  apply reader_get_workspace in E2 as (t & k & ->). set (w2 := upd w1 (w_fs w1) (w_mounts w1) t k) in *. assert (apart w1 w2) as A2 by done. pose proof (apart_trans _ _ _ A1 A2) as A.
  apply (clone_place_same dr x p o w2 (san_tree a) hid P G F); try done.
  - apply (apart_order _ _ _ A). by destruct Io.
  - destruct A as (_ & -> & _). exact Cm.
  - apply (apart_place _ _ _ A). by apply (place_ext w).
  - rewrite (apart_getwd _ _ A), Eg. destruct A as (-> & _). exact Hd.
Qed.
Print Assumptions C95_clone.

(** ** A workspace and its clone *)
Lemma start_test :
  ids_check sample_dr calm (enter home sample_world) && home_ok sample_world &&
  then_ok (deep_run sample_dr (CInit [B "w"] (B "main")) calm (deep_enter home sample_world)) (λ _ w1,
  then_ok (deep_run sample_dr (CClone (B "w") (Some (B "c"))) calm (deep_enter home w1)) (λ _ w2,
    clear_test (w_mounts w1) (mounts_root sample_dr) && (clear_test (w_mounts w1) cdir && (bool_decide (fget (w_fs w1) cdir = None) && (is_dir_at (w_fs w1) home && (clear_test (w_mounts w1) wdir &&
    (bool_decide (leads w2 wdir = leads w1 wdir) && (bool_decide (leads w2 cdir ≠ leads w2 wdir) && bool_decide (is_Some (leads w2 cdir)))))))))) = true.
Proof. vm_compute. reflexivity. Qed.
Lemma home_good : good_path home ∧ good_path wdir ∧ good_path cdir.
Proof. split; [|split]; repeat apply Forall_cons_2; try apply Forall_nil_2; (split; [done|]; split; [done|]; split; [done|]; by apply (bool_decide_unpack _); vm_compute). Qed.
Lemma sample_place : plain_place sample_world wdir.
Proof.
  split; [apply home_good|]. split; [discriminate|]. split; [intros m H; by apply elem_of_nil in H|]. split; [vm_compute; reflexivity|].
  intros s H. vm_compute in H. discriminate H.
Qed.
Lemma clear_above ms p n : clear_of ms (p ++ [n]) → clear_of ms p.
Proof. intros C m H. pose proof (C m H) as Q. destruct (is_prefix (mn_at m) p) eqn:E; [|reflexivity]. rewrite (is_prefix_trans _ _ _ E (is_prefix_app p [n])) in Q. discriminate Q. Qed.
Example C95_sat : ∃ w1 w2 t1 t2, let dr := sample_dr in let w := sample_world in
  (in_order dr w ∧ usual w home ∧ plain_place w wdir ∧ outside dr wdir ∧ real_path (w_fs w) home ≠ Some wdir) ∧
  (in_order dr w1 ∧ clear_of (w_mounts w1) (mounts_root dr) ∧ usual w1 home ∧ usual w1 wdir ∧ plain_place w1 cdir ∧ outside dr cdir ∧ real_path (w_fs w1) home ≠ Some cdir) ∧
  run_cmd dr (CInit [B "w"] (B "main")) calm (enter home w) = (Ok tt, w1) ∧ run_cmd dr (CClone (B "w") (Some (B "c"))) calm (enter home w1) = (Ok tt, w2) ∧
  leads w2 wdir = Some t1 ∧ leads w2 cdir = Some t2 ∧ t1 ≠ t2.
Proof.
  pose proof start_test as H. apply andb_true_iff in H as [I0 H]. apply andb_true_iff in I0 as [I0 O0].
  destruct (then_ok_inv _ _ H) as ([] & w1 & E1 & H1). clear H. cbv beta in H1. destruct (then_ok_inv _ _ H1) as ([] & w2 & E2 & H2). clear H1. cbv beta in H2.
  apply andb_true_iff in H2 as [T1 H2]. apply andb_true_iff in H2 as [T2 H2]. apply andb_true_iff in H2 as [T3 H2]. apply andb_true_iff in H2 as [T4 H2]. apply andb_true_iff in H2 as [T5 H2].
  apply andb_true_iff in H2 as [T6 H2]. apply andb_true_iff in H2 as [T7 T8].
  apply clear_test_ok in T1. apply clear_test_ok in T2. apply clear_test_ok in T5. apply bool_decide_eq_true in T3. apply bool_decide_eq_true in T6. apply bool_decide_eq_true in T7. apply bool_decide_eq_true in T8. destruct T8 as [t2 T8].
  destruct sample_plain as [P G]. destruct home_good as (Gh & Gw & Gc). assert (∀ k, k ≤ 40 → fits sample_dr k) as Fi by (intros k Hk; by apply sample_fits).
  assert (Fs.abs_from home (default (B ".") (head [B "w"])) = wdir) as Ah by (vm_compute; reflexivity).
  assert (outside sample_dr wdir) as Ow by (split; vm_compute; reflexivity). assert (outside sample_dr cdir) as Oc by (split; vm_compute; reflexivity).
  assert (usual sample_world home) as Uh. { left. split; [exact Gh|]. split; [vm_compute; reflexivity|]. intros m Hm. apply elem_of_nil in Hm. destruct Hm. }
  assert (real_path (w_fs sample_world) home = Some home) as Rh by (vm_compute; reflexivity).
  assert (abs_of (enter home sample_world) (default (B ".") (head [B "w"])) = wdir) as Aw by (vm_compute; reflexivity).
  assert (clear_of (w_mounts sample_world) (mounts_root sample_dr)) as C0. { intros m Hm. apply elem_of_nil in Hm. destruct Hm. }
  assert (real_path (w_fs sample_world) home ≠ Some wdir) as R0'. { rewrite Rh. discriminate. }
  pose proof (C95_init sample_dr sample_world home [B "w"] (B "main") calm) as Q1. cbv zeta in Q1. rewrite Aw in Q1.
  specialize (Q1 P G fair_calm sample_order C0 Uh Ow sample_place (λ Q, False_ind _ (R0' Q))). rewrite Q1 in E1. clear Q1.
  destruct (home_runs _ O0) as [R0 _].
  destruct (C89_empty sample_dr sample_world (λ _ _, None) sample_order) as [M0 D0].
  destruct (calm_snap (Vcs ∅ ∅) _ 1 home (CInit [B "w"] (B "main")) sample_world (Ok tt) w1 M0 D0 (le_n 1) (Fi 1 ltac:(lia)) I0) as (V1 & Sn1 & _ & [_ X1] & [_ A1] & M1 & D1).
  { split; [exact R0|]. cbv zeta. rewrite Ah. split; [split; [exact Ow|]|].
    - intros s Q. vm_compute in Q. discriminate Q.
    - intros m Hm. apply elem_of_nil in Hm. destruct Hm. }
  { exact I. }
  { exact E1. }
  destruct (X1 I eq_refl) as (F1 & pl & _ & P1 & _). clear X1. cbn [target_of] in P1. rewrite Ah in P1.
  pose proof (sn_models _ _ _ _ M1) as [Io (mids & _ & Hp)]. destruct (Hp _ _ P1) as (_ & y & a & Wa & _). clear Hp M1 M0 A1 D0 D1.
  pose proof (mc_wf _ _ _ (io_machine _ _ Io)) as W. pose proof (wa_link _ _ _ _ _ _ _ Wa) as L. pose proof (clear_mount sample_dr w1 (mids wdir) Io T1) as Cd.
  pose proof (point_usual sample_dr w1 (mids wdir) G (wa_mount _ _ _ _ _ _ _ Wa) Cd) as Um.
  pose proof (link_usual_to w1 wdir _ Gw T5 L Um) as Uw.
  assert (usual_dir w1 home) as Uh1. { split; [exact Gh|]. split; [exact T4|]. intros m Hm Q. rewrite (clear_above _ home (B "w") T5 m Hm) in Q. discriminate Q. }
  pose proof (usual_real_dir w1 home Uh1) as Rh1.
  assert (plain_place w1 cdir) as Pc. { split; [exact Gc|]. split; [discriminate|]. split; [exact T2|]. split; [exact T4|]. intros s Q. rewrite T3 in Q. discriminate Q. }
  assert (real_path (w_fs w1) home ≠ Some cdir) as R1'. { rewrite Rh1. discriminate. }
  assert (getwd_of (enter home w1) = home) as Eg by (exact (proj2 (proj2 (enter_usual w1 home W (or_introl Uh1))))).
  assert (abs_of (enter home w1) (B "w") = wdir) as Aw1. { unfold abs_of. change (is_abs (B "w")) with false. cbv iota. rewrite Eg. vm_compute. reflexivity. }
  assert (abs_of (enter home w1) (default (B ".") (Some (B "c"))) = cdir) as Ac1. { unfold abs_of. change (is_abs (default (B ".") (Some (B "c")))) with false. cbv iota. rewrite Eg. vm_compute. reflexivity. }
  pose proof (C95_clone sample_dr w1 home (B "w") (Some (B "c")) calm) as Q2. cbv zeta in Q2. rewrite Aw1, Ac1 in Q2.
  specialize (Q2 P G fair_calm Io T1 (or_introl Uh1) Uw Oc Pc (λ Q, False_ind _ (R1' Q))). rewrite Q2 in E2. clear Q2.
  pose proof (usual_leads w1 wdir W Uw) as Lw. destruct (usual_real w1 wdir W Uw) as (t1 & Et & _). rewrite Et in Lw. rewrite Lw in T6.
  exists w1, w2, t1, t2. cbv zeta. split.
  - split; [exact sample_order|]. split; [exact Uh|]. split; [exact sample_place|]. split; [exact Ow|exact R0'].
  - split.
    + split; [exact Io|]. split; [exact T1|]. split; [left; exact Uh1|]. split; [exact Uw|]. split; [exact Pc|]. split; [exact Oc|exact R1'].
    + split; [exact E1|]. split; [exact E2|]. split; [exact T6|]. split; [exact T8|]. intros ->. apply T7. rewrite T6. exact T8.
Qed.
