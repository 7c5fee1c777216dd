(** * PropsKernel: the program is a version control system of whole trees of files by the kernel's rules for paths too (C98) *)
From Verif Require Import Base Uid SpecUid UidProofs Tree SpecTree TreeRefine TreeObs Dump DumpProofs Json JsonProofs Save SaveProofs Branch BranchProofs Date Ws SpecWs WsProofs
  Fs Overlay Os Layers Mounts Space Manager Commands FsProofs OsProofs LayerProofs MountProofs SpaceProofs ManagerProofs SpecWorld SpecOps SavedProofs FaultProofs ReadyProofs OpProofs CalmProofs
  SpecMachine SpecCmds SpecLog MachineProofs OpenProofs CmdProofs ExpandProofs DetProofs DatedProofs SpecTidy TidyProofs Sample SampleProofs Story StoryProofs SpecUsable UsableProofs UsableCmdProofs UsableInitProofs UsableSeqProofs SpecSerial SerialProofs
  SpecNames NamesProofs LongerProofs UserProofs SpecVcs VcsProofs HarmProofs PropsCommit PropsCmds PropsShow PropsUsable PropsRound PropsVcs PropsFiles Edits SpecEdits EditProofs PropsEdits SpecSnap SnapProofs PropsSnap Deep SpecDeep DeepProofs DeepMoveProofs
  PropsDeep DeepStart SpecStart DeepStartProofs PropsStart SpecKernel.
From Coq Require Import Lia.
From stdpp Require Import prelude gmap.

Lemma reachable_usual dr V w p : good_path dr → models dr w V → clear_of (w_mounts w) (mounts_root dr) → reachable V w p →
  usual w p ∧ ∀ q, outside dr q → real_path (w_fs w) p = Some q → p = q.
Proof.
  intros G [Io (mids & _ & Hp)] Cm (Gp & C & [[pl E]|D]).
  - destruct (Hp _ _ E) as (_ & y & a & Wa & _). pose proof (wa_link _ _ _ _ _ _ _ Wa) as L.
    pose proof (point_usual dr w (mids p) G (wa_mount _ _ _ _ _ _ _ Wa) (clear_mount dr w (mids p) Io Cm)) as Um. split; [exact (link_usual_to w p _ Gp C L Um)|].
    intros q O R. rewrite (link_real _ _ _ L) in R; [|apply Um..]. injection R as <-. exfalso. destruct O as [O _]. unfold mount_dir, mounts_root in O. rewrite <-!(app_assoc dr) in O. by rewrite is_prefix_app in O.
  - assert (usual_dir w p) as U. { split; [done|]. split; [done|]. intros m Hm Q. by rewrite (C m Hm) in Q. }
    split; [by left|]. intros q _ R. rewrite usual_real_dir in R by done. congruence.
Qed.
(** Where commands are reached without mounts in the way they do what the simpler model says, whatever fails. *)
Theorem C98_same : ∀ dr V w d c o, plain_path dr → good_path dr → fair o → models dr w V → allowed dr V w d c → reaches dr V w d c →
  deep_run dr c o (deep_enter d w) = run_cmd dr c o (enter d w).
Proof.
  intros dr V w d c o P G F Md [Ri Al] (Cm & Rd & Rc). pose proof (md_order _ _ _ Md) as Io. pose proof (mc_wf _ _ _ (io_machine _ _ Io)) as W.
  destruct (reachable_usual dr V w d G Md Cm Rd) as [Ud Hd].
  assert (is_Some (v_places V !! d) → ∃ mid y hid a, workspace_at dr w d mid y hid a ∧ outside dr d) as Hw.
  { intros [pl E]. destruct Md as [_ (mids & _ & Hp)]. destruct (Hp _ _ E) as (O & y & a & Wa & _). eauto 6. }
  assert (∀ c, stays_mounted c → deep_cmd dr c o (deep_enter d w) = run_cmd dr c o (enter d w)) as Hs.
  { intros c' St. rewrite (enter_same _ _ W Ud). apply cmd_same; [done|done|]. by apply enter_usual. }
  destruct Rd as (Gd & Cd & Rd).
  destruct c as [args branch|source target|msg|key|opts args|opts args|args].
  - cbn [target_of] in Rc. cbv zeta in Al. pose proof (runs_abs_from _ _ (default (B ".") (head args)) Ri) as Ea. destruct Al as [[O _] _].
    apply C95_init; try done; rewrite Ea; [done|done|]. by apply Hd.
  - cbn [target_of] in Rc. cbv zeta in Al. destruct Rc as [Rs Rc]. pose proof (runs_abs_from _ _ (default (B ".") target) Ri) as Ea. pose proof (runs_abs_from _ _ source Ri) as Es. destruct Al as [_ [O _]].
    apply C95_clone; try done; rewrite ?Ea, ?Es; [by eapply (reachable_usual dr V)|done|done|]. by apply Hd.
  - destruct (Hw Rc) as (mid & y & hid & a & Wa & O). by apply (C91_moves dr w d mid y hid a).
  - destruct (Hw Rc) as (mid & y & hid & a & Wa & O). by apply (C91_moves dr w d mid y hid a).
  - by apply Hs.
  - by apply Hs.
  - by apply Hs.
Qed.
Print Assumptions C98_same.
(** If only mounts of the program are mounted, none is in the way of the data root or of a path of the user. *)
Theorem C98_clear : ∀ dr w, (∀ m, m ∈ w_mounts w → ∃ mid, mn_at m = merged_dir dr mid) →
  clear_of (w_mounts w) (mounts_root dr) ∧ ∀ p, outside dr p → clear_of (w_mounts w) p.
Proof.
  intros dr w H. split; [|intros p O]; intros m Hm; destruct (H m Hm) as [mid ->]; apply not_true_is_false; intros Q.
  - apply is_prefix_spec in Q as [k Q]. apply (f_equal length) in Q. unfold mount_dir in Q. rewrite !app_length in Q. cbn in Q. lia.
  - pose proof (proj1 O) as O1. apply is_prefix_spec in Q as [k ->]. unfold mount_dir, mounts_root in O1. rewrite <-!(app_assoc dr) in O1. by rewrite is_prefix_app in O1.
Qed.
Print Assumptions C98_clear.
(** Any number of commands and edits of users have the effect on workspaces, trees and snapshots that they should have. *)
Theorem C98_session : ∀ dr l V Sn n w, plain_path dr → good_path dr → snapped dr w V Sn → depth V n → 1 ≤ n → fits dr (n + length l) →
  deep_lives dr l (λ V' Sn' w', snapped dr w' V' Sn' ∧ ∀ i, sealed dr w V i → sealed dr w' V' i ∧ Sn' i = Sn i) V Sn w.
Proof.
  intros dr l. assert (∀ V Sn n w w0 V0 Sn0, plain_path dr → good_path dr → snapped dr w V Sn → depth V n → 1 ≤ n → fits dr (n + length l) →
    (∀ i, sealed dr w0 V0 i → sealed dr w V i ∧ Sn i = Sn0 i) → deep_lives dr l (λ V' Sn' w', snapped dr w' V' Sn' ∧ ∀ i, sealed dr w0 V0 i → sealed dr w' V' i ∧ Sn' i = Sn0 i) V Sn w) as H.
  2:{ intros V Sn n w P G Hs Hd Hn Fi. by apply (H V Sn n w w V Sn). }
  induction l as [|[d c|p e] l IH]; intros V Sn n w w0 V0 Sn0 P G Hs Hd Hn Fi Hk; cbn [deep_lives length] in *; [done|..]; rewrite Nat.add_succ_r in Fi.
  - intros w1 o r w' As F N Nw Al Re Pr E. pose proof (C89_aside _ _ _ _ _ Hs As) as Hs1. pose proof (sealed_aside _ _ _ _ As) as Ha.
    rewrite (C98_same dr V w1 d c o P G F (sn_models _ _ _ _ Hs1) Al Re) in E.
    destruct (C89_command dr V Sn n d c o w1 r w' P G Hs1 Hd Hn ltac:(eapply fits_less; [exact Fi|lia]) F N Nw Al Pr E) as (V' & Sn' & H1 & H2 & H3 & H4 & H5 & H6).
    exists V', Sn'. split; [done|]. split; [done|]. split; [done|]. apply (IH V' Sn' (S n)); try done; [lia|]. intros i Hi. destruct (Hk i Hi) as [S1 <-]. apply Ha in S1.
    destruct (C81_sealed _ _ _ _ _ _ (sn_models _ _ _ _ Hs1) S1 H6) as [S2 _]. split; [done|]. apply H2. destruct S1 as [D _]. intros Q.
    apply (fget_parent_None _ _ (B "diff")) in Q; [|exact (mc_wf _ _ _ (io_machine _ _ (md_order _ _ _ (sn_models _ _ _ _ Hs1))))]. unfold is_dir_at, diff_dir in D. by rewrite Q in D.
  - intros w1 pl As Ep. pose proof (C89_aside _ _ _ _ _ Hs As) as Hs1. pose proof (sealed_aside _ _ _ _ As) as Ha. destruct (C89_edit dr w1 V Sn p pl e G Hs1 Ep) as [H1 H2].
    assert (fits dr (n + length l)) as Fi' by (eapply fits_less; [exact Fi|lia]). destruct (edit_at w1 p e) as [w'|] eqn:E.
    + left. destruct H1 as [H1 _]. destruct (H1 ltac:(by eexists)) as [Aw Ce]. split; [done|]. split; [done|]. exists w'. split; [done|]. destruct (H2 _ eq_refl) as (H3 & H4 & _ & _ & H5). split; [done|]. apply (IH V _ n); try done.
      intros i Hi. destruct (Hk i Hi) as [S1 <-]. apply Ha in S1. destruct S1 as [D Nh]. split.
      * split; [|done]. unfold is_dir_at in *. by rewrite (H5 i Nh _ (is_prefix_refl _)).
      * unfold redone. rewrite decide_False; [done|]. intros ->. by apply (Nh p pl).
    + right. split; [|split; [done|apply (IH V _ n); try done]].
      * intros Q. apply H1 in Q as [x Q]. done.
      * intros i Hi. destruct (Hk i Hi) as [S1 S2]. split; [by apply Ha|done].
Qed.
Print Assumptions C98_session.

(** ** init, a new file, commit and clone *)
Definition in_reach (w : world) : bool := clear_test (w_mounts w) (mounts_root sample_dr) && (clear_test (w_mounts w) wdir && clear_test (w_mounts w) cdir).
Lemma kernel_test : let hi := B "hi" in
  ids_check sample_dr calm (enter home sample_world) && home_ok sample_world &&
  then_ok (deep_run sample_dr (CInit [B "w"] (B "main")) calm (deep_enter home sample_world)) (λ _ w1,
  then_some (edit_at w1 wdir (EWrite [B "f"] hi)) (λ u1, ids_check sample_dr calm (enter wdir u1) && in_reach u1 &&
  then_ok (deep_run sample_dr (CCommit (B "one")) calm (deep_enter wdir u1)) (λ _ w2, ids_check sample_dr calm (enter home w2) && home_ok w2 && in_reach w2 && is_dir_at (w_fs w2) home &&
  then_ok (deep_run sample_dr (CClone (B "w") (Some (B "c"))) calm (deep_enter home w2)) (λ _ w3, bool_decide (sees w3 cdir [B "f"] = Some (FFile hi)))))) = true.
Proof. vm_compute. reflexivity. Qed.
Lemma in_reach_ok w : in_reach w = true → clear_of (w_mounts w) (mounts_root sample_dr) ∧ clear_of (w_mounts w) wdir ∧ clear_of (w_mounts w) cdir.
Proof. unfold in_reach. intros H. apply andb_true_iff in H as [T1 H]. apply andb_true_iff in H as [T2 T3]. split; [exact (clear_test_ok _ _ T1)|]. split; [exact (clear_test_ok _ _ T2)|exact (clear_test_ok _ _ T3)]. Qed.
Example C98_sat : ∃ u1 w2 w3 V1 V2 V3 Sn1 Sn2 Sn3, let dr := sample_dr in
  allowed dr (Vcs ∅ ∅) sample_world home (CInit [B "w"] (B "main")) ∧ reaches dr (Vcs ∅ ∅) sample_world home (CInit [B "w"] (B "main")) ∧
  snapped dr u1 V1 Sn1 ∧ allowed dr V1 u1 wdir (CCommit (B "one")) ∧ reaches dr V1 u1 wdir (CCommit (B "one")) ∧ deep_run dr (CCommit (B "one")) calm (deep_enter wdir u1) = (Ok tt, w2) ∧
  snapped dr w2 V2 Sn2 ∧ allowed dr V2 w2 home (CClone (B "w") (Some (B "c"))) ∧ reaches dr V2 w2 home (CClone (B "w") (Some (B "c"))) ∧
  deep_run dr (CClone (B "w") (Some (B "c"))) calm (deep_enter home w2) = (Ok tt, w3) ∧ snapped dr w3 V3 Sn3 ∧ sees w3 cdir [B "f"] = Some (FFile (B "hi")).
Proof.
  pose proof kernel_test as H. cbv zeta in H. apply andb_true_iff in H as [I0 H]. apply andb_true_iff in I0 as [I0 O0].
  destruct (then_ok_inv _ _ H) as ([] & w1 & E1 & H1). clear H. cbv beta in H1. destruct (then_some_inv _ _ H1) as (u1 & Q1 & H2). clear H1. cbv beta in H2.
  apply andb_true_iff in H2 as [I1 H2]. apply andb_true_iff in I1 as [I1 T1]. destruct (then_ok_inv _ _ H2) as ([] & w2 & E2 & H3). clear H2. cbv beta in H3.
  apply andb_true_iff in H3 as [I2 H3]. apply andb_true_iff in I2 as [I2 Dh]. apply andb_true_iff in I2 as [I2 T2]. apply andb_true_iff in I2 as [I2 O2].
  destruct (then_ok_inv _ _ H3) as ([] & w3 & E3 & S3). clear H3. cbv beta in S3. apply bool_decide_eq_true in S3.
  destruct (in_reach_ok _ T1) as (C1 & C1w & _). destruct (in_reach_ok _ T2) as (C2 & C2w & C2c).
  destruct sample_plain as [P G]. destruct home_good as (Gh & Gw & Gc). assert (∀ k, k ≤ 40 → fits sample_dr k) as Fi by (intros k Hk; by apply sample_fits).
  assert (Fs.abs_from home (default (B ".") (head [B "w"])) = wdir) as Ah by (vm_compute; reflexivity). assert (Fs.abs_from home (B "w") = wdir) as Aw by (vm_compute; reflexivity). assert (Fs.abs_from home (default (B ".") (Some (B "c"))) = cdir) as Ac by (vm_compute; reflexivity).
  assert (outside sample_dr wdir) as Ow by (split; vm_compute; reflexivity). assert (outside sample_dr cdir) as Oc by (split; vm_compute; reflexivity).
  destruct (home_runs _ O0) as [R0 _]. destruct (home_runs _ O2) as [R2 N2].
  destruct (C89_empty sample_dr sample_world (λ _ _, None) sample_order) as [M0 D0].
  assert (allowed sample_dr (Vcs ∅ ∅) sample_world home (CInit [B "w"] (B "main"))) as Al0.
  { split; [exact R0|]. cbv zeta. rewrite Ah. split; [split; [exact Ow|]|].
    - intros s Q. vm_compute in Q. discriminate Q.
    - intros m Hm. apply elem_of_nil in Hm. destruct Hm. }
  assert (∀ p, clear_of (w_mounts sample_world) p) as C0 by (intros p m Hm; apply elem_of_nil in Hm; destruct Hm).
  assert (reaches sample_dr (Vcs ∅ ∅) sample_world home (CInit [B "w"] (B "main"))) as Re0.
  { split; [apply C0|]. split; [split; [exact Gh|]; split; [apply C0|right; vm_compute; reflexivity]|]. cbn [target_of]. rewrite Ah. exact sample_place. }
  rewrite (C98_same sample_dr (Vcs ∅ ∅) sample_world home _ calm P G fair_calm (sn_models _ _ _ _ M0) Al0 Re0) in E1.
  destruct (calm_snap (Vcs ∅ ∅) _ 1 home (CInit [B "w"] (B "main")) sample_world (Ok tt) w1 M0 D0 (le_n 1) (Fi 1 ltac:(lia)) I0 Al0 I E1) as (V1 & Sn1 & _ & [_ X1] & _ & M1 & D1).
  destruct (X1 I eq_refl) as (F1 & pl & _ & P1 & _). clear X1. cbn [target_of] in P1. rewrite Ah in P1.
  destruct (C89_edit _ _ _ _ _ _ (EWrite [B "f"] (B "hi")) G M1 P1) as [_ Y1]. destruct (Y1 _ Q1) as (Mu1 & _ & _). clear Y1.
  assert (allowed sample_dr V1 u1 wdir (CCommit (B "one"))) as Al1.
  { split; [exact (place_runs _ _ _ _ G (sn_models _ _ _ _ Mu1) (ex_intro _ _ P1))|]. left. exact (ex_intro _ _ P1). }
  assert (reaches sample_dr V1 u1 wdir (CCommit (B "one"))) as Re1.
  { split; [exact C1|]. split; [split; [exact Gw|]; split; [exact C1w|left; exact (ex_intro _ _ P1)]|exact (ex_intro _ _ P1)]. }
  pose proof E2 as E2'. rewrite (C98_same sample_dr V1 u1 wdir _ calm P G fair_calm (sn_models _ _ _ _ Mu1) Al1 Re1) in E2'.
  destruct (calm_snap V1 _ 2 wdir (CCommit (B "one")) u1 (Ok tt) w2 Mu1 D1 ltac:(lia) (Fi 2 ltac:(lia)) I1 Al1 I E2') as (V2 & Sn2 & _ & [_ X2] & _ & M2 & D2).
  destruct (X2 I eq_refl) as (F2 & pl2 & _ & P2 & _). clear X2. cbn [target_of] in P2.
  assert (allowed sample_dr V2 w2 home (CClone (B "w") (Some (B "c")))) as Al2.
  { split; [exact R2|]. cbv zeta. rewrite Aw, Ac. split; [left; exact (ex_intro _ _ P2)|]. split; [exact Oc|]. intros [s Q]. rewrite N2 in Q. discriminate Q. }
  assert (reaches sample_dr V2 w2 home (CClone (B "w") (Some (B "c")))) as Re2.
  { split; [exact C2|]. split; [split; [exact Gh|]; split; [exact (clear_above _ home (B "w") C2w)|right; exact Dh]|]. cbn [target_of]. rewrite Aw, Ac. split.
    - split; [exact Gw|]. split; [exact C2w|left; exact (ex_intro _ _ P2)].
    - split; [exact Gc|]. split; [discriminate|]. split; [exact C2c|]. split; [exact Dh|]. intros s Q. rewrite N2 in Q. discriminate Q. }
  pose proof E3 as E3'. rewrite (C98_same sample_dr V2 w2 home _ calm P G fair_calm (sn_models _ _ _ _ M2) Al2 Re2) in E3'.
  destruct (calm_snap V2 _ 3 home (CClone (B "w") (Some (B "c"))) w2 (Ok tt) w3 M2 D2 ltac:(lia) (Fi 3 ltac:(lia)) I2 Al2 I E3') as (V3 & Sn3 & _ & _ & _ & M3 & _).
  exists u1, w2, w3, V1, V2, V3. eexists _, Sn2, Sn3. cbv zeta. split; [exact Al0|]. split; [exact Re0|]. split; [exact Mu1|]. split; [exact Al1|]. split; [exact Re1|]. split; [exact E2|].
  split; [exact M2|]. split; [exact Al2|]. split; [exact Re2|]. split; [exact E3|]. split; [exact M3|exact S3].
Qed.
