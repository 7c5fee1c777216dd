(** * PropsSnap: the program is version control of whole trees of files (C89) *)
From Verif Require Import Base Uid SpecUid UidProofs Tree SpecTree TreeRefine TreeObs Dump DumpProofs Json JsonProofs Save SaveProofs Branch BranchProofs Date Ws SpecWs WsProofs
  Fs Overlay Os Layers Mounts Space Manager Commands FsProofs OsProofs LayerProofs MountProofs SpaceProofs ManagerProofs SpecWorld SpecOps SavedProofs FaultProofs ReadyProofs OpProofs CalmProofs
  SpecMachine SpecCmds SpecLog MachineProofs OpenProofs CmdProofs ExpandProofs DetProofs SpecTidy TidyProofs Sample SampleProofs Story StoryProofs SpecUsable UsableProofs UsableCmdProofs UsableInitProofs UsableSeqProofs SpecNames NamesProofs LongerProofs SpecVcs VcsProofs
  PropsCommit PropsCmds PropsShow PropsUsable PropsRound PropsVcs PropsFiles Edits SpecEdits EditProofs PropsEdits SpecSnap SnapProofs.
From Coq Require Import Lia.
From stdpp Require Import prelude gmap.

(** ** C89 *)
(** A workspace that is mounted shows the snapshot it works on. *)
Theorem C89_shows : ∀ dr w V Sn p pl, good_path dr → snapped dr w V Sn → v_places V !! p = Some pl → awake dr w p → visible w p (Sn (pl_head pl)).
Proof.
  intros dr w V Sn p pl G Hs Ep Aw. pose proof (sn_models _ _ _ _ Hs) as [_ (mids & _ & Hpl)]. destruct (Hpl _ _ Ep) as (_ & y & a & _ & T & _ & _ & _ & _ & lows & _ & C).
  eapply visible_ext; [|eapply C81_shows; [done|apply Hs|done|done|done|exact C]]. intros k Hk. eapply (sn_files _ _ _ _ Hs); [|exact C|done]. split; [by exists p, pl|done].
Qed.
(** The computer may be restarted, and users may change what does not belong to the program. *)
Theorem C89_aside : ∀ dr w w' V Sn, snapped dr w V Sn → aside dr V w w' → snapped dr w' V Sn.
Proof.
  intros dr w w' V Sn [A1 A2 A3 A4 A5] (U & Hl & Hs). constructor; try done; [by eapply models_while|]. intros sid a i ch k Us C Hk. rewrite (content_same dr (w_fs w)); [by eapply A5|]. apply Forall_forall. intros j _. apply Hs.
Qed.
Lemma sealed_aside dr V w w' : aside dr V w w' → ∀ i, sealed dr w V i → sealed dr w' V i.
Proof. intros (_ & _ & Hs) i [D N]. split; [|done]. unfold is_dir_at in *. by rewrite (Hs i _ (is_prefix_refl _)). Qed.
(** Any command has the effect on workspaces, trees and snapshots that it should have. *)
Theorem C89_command : ∀ dr V Sn n d c o w r w', plain_path dr → good_path dr → snapped dr w V Sn → depth V n → 1 ≤ n → fits dr n →
  fair o → no_faults o → new_ids dr o (enter d w) → allowed dr V w d c → proper V d c → run_cmd dr c o (enter d w) = (r, w') →
  ∃ V' Sn', vstep w V d c r V' ∧ sstep dr w V Sn d c r V' Sn' ∧ mounted_step dr V d c r w w' ∧ snapped dr w' V' Sn' ∧ depth V' (S n) ∧ files_step dr w w' V V'.
Proof.
  intros dr V Sn n d c o w r w' P G Hs Hd Hn Fi F N Nw Al Pr E. pose proof (sn_models _ _ _ _ Hs) as Md.
  destruct (models_step dr V n d c o w r w' P G Md Hd Hn Fi F N Nw Al E) as (V' & Vs & (Md' & Fs) & D'). destruct (snap_step _ _ _ _ _ _ _ _ _ Hs Md' Vs Fs Pr) as (Sn' & H1 & H2 & H3).
  exists V', Sn'. split; [done|]. split; [done|]. split; [|done]. pose proof Fs as (_ & _ & Fh). split.
  - intros p Hp Aw. destruct (vstep_keeps _ _ _ _ _ _ _ Vs Hp) as [pl Ep]. destruct (Fh _ _ Ep) as [[_ Q]|(_ & _ & Q)]; [by apply Q|done].
  - intros Hc ->. destruct H2 as [_ H2]. destruct (H2 Hc eq_refl) as (F0 & pl & _ & Ep & _). destruct (Fh _ _ Ep) as [[Q _]|(_ & _ & Q)]; [|done]. destruct (H3 Hc eq_refl). congruence.
Qed.
(** An edit succeeds exactly if the workspace is mounted and the edit is possible in the snapshot, and changes no other snapshot. *)
Theorem C89_edit : ∀ dr w V Sn p pl e, good_path dr → snapped dr w V Sn → v_places V !! p = Some pl →
  (is_Some (edit_at w p e) ↔ awake dr w p ∧ can_edit e (Sn (pl_head pl))) ∧
  ∀ w', edit_at w p e = Some w' → snapped dr w' V (redone Sn (pl_head pl) e) ∧ awake dr w' p ∧ user_edits dr V w w'.
Proof.
  intros dr w V Sn p pl e G Hs Ep. pose proof (sn_models _ _ _ _ Hs) as Md. pose proof Md as [_ (mids & _ & Hpl)]. destruct (Hpl _ _ Ep) as (_ & y & a & _ & T & _ & _ & _ & _ & lows & _ & C).
  assert (used V (pl_space pl) a) as U by (split; [by exists p, pl|done]).
  assert (∀ k, k ≠ [] → content dr (w_fs w) (pl_head pl :: lows) k = Sn (pl_head pl) k) as Ec by (intros k Hk; by eapply (sn_files _ _ _ _ Hs)).
  assert (awake dr w p → _) as H by (intros Aw; exact (C88_workspace _ _ _ _ _ _ _ e G Md Ep Aw T C)).
  assert (is_Some (edit_at w p e) → awake dr w p) as Ha.
  { intros [w' Q]. destruct (awake_dec _ _ _ _ _ G Md Ep) as [|Na]; [done|]. unfold edit_at in Q. by rewrite (asleep_mount _ _ _ _ _ G Md Ep Na) in Q. }
  split.
  - split.
    + intros Q. pose proof (Ha Q) as Aw. split; [done|]. destruct (H Aw) as [H1 _]. eapply can_edit_ext; [exact Ec|]. by apply H1.
    + intros [Aw Q]. destruct (H Aw) as [H1 _]. apply H1. eapply can_edit_ext; [|exact Q]. intros k Hk. by rewrite Ec.
  - intros w' Q. destruct (H (Ha ltac:(by eexists))) as [_ H2]. destruct (H2 _ Q) as (Ue & Md' & Aw' & Sl & _ & _ & Ec'). split; [|done].
    destruct Hs as [A1 A2 A3 A4 A5]. constructor; try done. intros sid b i ch k Ub Cb Hk. unfold redone. case_decide as D.
    + subst i. assert (sid = pl_space pl) as -> by (eapply A4; [exact Ub|exact U|by eapply chain_start|by eapply chain_start]). assert (b = a) as -> by (destruct Ub as [_ Tb]; congruence).
      rewrite (chain_det _ _ _ _ Cb C), Ec'. apply edited_ext; [done| |done]. destruct (H (Ha ltac:(by eexists))) as [H1 _]. apply H1. by eexists.
    + rewrite (content_same dr (w_fs w)); [by eapply A5|]. apply Forall_forall. intros j Hj. apply Sl. intros ->. apply D. eapply (head_only V Sn dr w); [by constructor|exact Ep|exact Ub|exact Cb|done].
Qed.
(** So the program is version control of whole trees of files, whatever commands and edits there are. And snapshots of layers that no workspace works on stay as
    they are. *)
Theorem C89_session : ∀ dr l V Sn n w, plain_path dr → good_path dr → snapped dr w V Sn → depth V n → 1 ≤ n → fits dr (n + length l) →
  lives dr l (λ V' Sn' w', snapped dr w' V' Sn' ∧ ∀ i, sealed dr w V i → sealed dr w' V' i ∧ Sn' i = Sn i) V Sn w.
Proof.
  intros dr l. assert (∀ V Sn n w w0 V0 Sn0, plain_path dr → good_path dr → snapped dr w V Sn → depth V n → 1 ≤ n → fits dr (n + length l) →
    (∀ i, sealed dr w0 V0 i → sealed dr w V i ∧ Sn i = Sn0 i) → lives dr l (λ V' Sn' w', snapped dr w' V' Sn' ∧ ∀ i, sealed dr w0 V0 i → sealed dr w' V' i ∧ Sn' i = Sn0 i) V Sn w) as H.
  2:{ intros V Sn n w P G Hs Hd Hn Fi. by apply (H V Sn n w w V Sn). }
  induction l as [|[d c|p e] l IH]; intros V Sn n w w0 V0 Sn0 P G Hs Hd Hn Fi Hk; cbn [lives length] in *; [done|..]; rewrite Nat.add_succ_r in Fi.
  - intros w1 o r w' As F N Nw Al Pr E. pose proof (C89_aside _ _ _ _ _ Hs As) as Hs1. pose proof (sealed_aside _ _ _ _ As) as Ha.
    destruct (C89_command dr V Sn n d c o w1 r w' P G Hs1 Hd Hn ltac:(eapply fits_less; [exact Fi|lia]) F N Nw Al Pr E) as (V' & Sn' & H1 & H2 & H3 & H4 & H5 & H6).
    exists V', Sn'. split; [done|]. split; [done|]. split; [done|]. apply (IH V' Sn' (S n)); try done; [lia|]. intros i Hi. destruct (Hk i Hi) as [S1 <-]. apply Ha in S1.
    destruct (C81_sealed _ _ _ _ _ _ (sn_models _ _ _ _ Hs1) S1 H6) as [S2 _]. split; [done|]. apply H2. destruct S1 as [D _]. intros Q.
    apply (fget_parent_None _ _ (B "diff")) in Q; [|exact (mc_wf _ _ _ (io_machine _ _ (md_order _ _ _ (sn_models _ _ _ _ Hs1))))]. unfold is_dir_at, diff_dir in D. by rewrite Q in D.
  - intros w1 pl As Ep. pose proof (C89_aside _ _ _ _ _ Hs As) as Hs1. pose proof (sealed_aside _ _ _ _ As) as Ha. destruct (C89_edit dr w1 V Sn p pl e G Hs1 Ep) as [H1 H2].
    assert (fits dr (n + length l)) as Fi' by (eapply fits_less; [exact Fi|lia]). destruct (edit_at w1 p e) as [w'|] eqn:E.
    + left. destruct H1 as [H1 _]. destruct (H1 ltac:(by eexists)) as [Aw Ce]. split; [done|]. split; [done|]. exists w'. split; [done|]. destruct (H2 _ eq_refl) as (H3 & H4 & _ & _ & H5). split; [done|]. apply (IH V _ n); try done.
      intros i Hi. destruct (Hk i Hi) as [S1 <-]. apply Ha in S1. destruct S1 as [D Nh]. split.
      * split; [|done]. unfold is_dir_at in *. by rewrite (H5 i Nh _ (is_prefix_refl _)).
      * unfold redone. rewrite decide_False; [done|]. intros ->. by apply (Nh p pl).
    + right. split; [|split; [done|apply (IH V _ n); try done]].
      * intros Q. apply H1 in Q as [x Q]. done.
      * intros i Hi. destruct (Hk i Hi) as [S1 S2]. split; [by apply Ha|done].
Qed.
(** At first there is no snapshot. *)
Theorem C89_empty : ∀ dr w Sn, in_order dr w → snapped dr w (Vcs ∅ ∅) Sn ∧ depth (Vcs ∅ ∅) 1.
Proof.
  intros dr w Sn Io. destruct (C80_empty dr w Io) as [Md Hd]. split; [|done]. assert (∀ sid a, ¬ used (Vcs ∅ ∅) sid a) as N by (intros sid a [_ Q]; cbn [v_trees] in Q; by rewrite lookup_empty in Q). constructor; try done.
  - intros s1 s2 a1 a2 i U. by destruct (N s1 a1).
  - intros sid a i ch k U. by destruct (N sid a).
Qed.
Print Assumptions C89_shows.
Print Assumptions C89_aside.
Print Assumptions C89_command.
Print Assumptions C89_edit.
Print Assumptions C89_session.
Print Assumptions C89_empty.
(** Nothing is based on the layers that workspaces work on. So checkout names none of them if something is based on what it names, as is HEAD. *)
Theorem C89_proper : ∀ dr w V Sn d key, snapped dr w V Sn →
  (∀ pl a x i, v_places V !! d = Some pl → v_trees V !! pl_space pl = Some a → stands_for x pl → meant x (pl_head pl) a key = Some i → ∃ j, SpecTree.parent_of a j i) → proper V d (CCheckout key).
Proof.
  intros dr w V Sn d key Hs H. intros pl a x i Ep T St Hm q pq Eq Nq Q. destruct (H _ _ _ _ Ep T St Hm) as [j Hj]. rewrite <-Q in Hj. eapply (sn_tips _ _ _ _ Hs q pq); [done| |exact Hj]. split; [by exists d, pl|exact T].
Qed.
Theorem C89_head : ∀ dr w V Sn d, snapped dr w V Sn → proper V d (CCheckout (B "HEAD")).
Proof.
  intros dr w V Sn d Hs. eapply C89_proper; [exact Hs|]. intros pl a x i Ep T _ Hm. destruct (used_head _ _ _ _ _ (sn_models _ _ _ _ Hs) Ep) as (b & [_ Tb] & _ & c & Hc). assert (b = a) as -> by congruence.
  exists (pl_head pl). assert (found_id (resolve a (ws_id x) (pl_head pl) (B "HEAD")) = Some i) as Q by (unfold meant in Hm; by destruct (decode_b32 (B "HEAD"))). clear Hm.
  unfold resolve in Q. rewrite decide_True in Q by done. destruct Hc as (n & E & En). rewrite E in Q. cbn [mbind option_bind] in Q. rewrite En in Q. cbn [found_id] in Q. injection Q as <-. by exists n.
Qed.
Print Assumptions C89_proper.
Print Assumptions C89_head.

(** ** Work that was not committed is given up, and a clone shows what was committed *)
Lemma snap_test : let hi := B "hi" in
  ids_check sample_dr calm (enter home sample_world) && home_ok sample_world &&
  then_ok (run_cmd sample_dr (CInit [B "w"] (B "main")) calm (enter home sample_world)) (λ _ w1,
  then_some (edit_at w1 wdir (EMkdir a_dir)) (λ u1,
  then_some (edit_at u1 wdir (EWrite a_file hi)) (λ u2, ids_check sample_dr calm (enter wdir u2) &&
  then_ok (run_cmd sample_dr (CCommit (B "one")) calm (enter wdir u2)) (λ _ w2,
  then_some (edit_at w2 wdir (ERemove a_file)) (λ u3, bool_decide (sees u3 wdir a_file = None) && (ids_check sample_dr calm (enter wdir u3) &&
  then_ok (run_cmd sample_dr (CCheckout (B "HEAD")) calm (enter wdir u3)) (λ _ w3, bool_decide (sees w3 wdir a_file = Some (FFile hi)) && (ids_check sample_dr calm (enter home w3) && home_ok w3 &&
  then_ok (run_cmd sample_dr (CClone (B "w") (Some (B "c"))) calm (enter home w3)) (λ _ w4, bool_decide (sees w4 cdir a_file = Some (FFile hi)) &&
  then_some (edit_at w4 cdir (EWrite a_file (B "ho"))) (λ u5, bool_decide (sees u5 cdir a_file = Some (FFile (B "ho"))) && bool_decide (sees u5 wdir a_file = Some (FFile hi)))))))))))) = true.
Proof. vm_compute. reflexivity. Qed.
Lemma calm_snap V Sn n d c w r w' : snapped sample_dr w V Sn → depth V n → 1 ≤ n → fits sample_dr n → ids_check sample_dr calm (enter d w) = true → allowed sample_dr V w d c → proper V d c →
  run_cmd sample_dr c calm (enter d w) = (r, w') → ∃ V' Sn', vstep w V d c r V' ∧ sstep sample_dr w V Sn d c r V' Sn' ∧ mounted_step sample_dr V d c r w w' ∧ snapped sample_dr w' V' Sn' ∧ depth V' (S n).
Proof.
  intros Hs Hd Hn Fi Hi Al Pr E. destruct sample_plain as [P G].
  destruct (C89_command sample_dr V Sn n d c calm w r w' P G Hs Hd Hn Fi fair_calm calm_no_faults (ids_check_ok _ _ _ Hi) Al Pr E) as (V' & Sn' & A1 & A2 & A3 & A4 & A5 & _). exists V', Sn'. done.
Qed.
Example C89_sat : ∃ w2 u3 w3 w4 u5 V2 V3 V4 Sn2 Sn3 Sn4 pl2 pl3 pl4, let dr := sample_dr in let hi := Some (FFile (B "hi")) in
  snapped dr w2 V2 Sn2 ∧ v_places V2 !! wdir = Some pl2 ∧ edit_at w2 wdir (ERemove a_file) = Some u3 ∧ snapped dr u3 V2 (redone Sn2 (pl_head pl2) (ERemove a_file)) ∧ sees u3 wdir a_file = None ∧
  proper V2 wdir (CCheckout (B "HEAD")) ∧ run_cmd dr (CCheckout (B "HEAD")) calm (enter wdir u3) = (Ok tt, w3) ∧ snapped dr w3 V3 Sn3 ∧ v_places V3 !! wdir = Some pl3 ∧ sees w3 wdir a_file = hi ∧
  run_cmd dr (CClone (B "w") (Some (B "c"))) calm (enter home w3) = (Ok tt, w4) ∧ snapped dr w4 V4 Sn4 ∧ v_places V4 !! cdir = Some pl4 ∧ sees w4 cdir a_file = hi ∧ Sn4 (pl_head pl3) = Sn3 (pl_head pl3) ∧
  edit_at w4 cdir (EWrite a_file (B "ho")) = Some u5 ∧ snapped dr u5 V4 (redone Sn4 (pl_head pl4) (EWrite a_file (B "ho"))) ∧ sees u5 cdir a_file = Some (FFile (B "ho")) ∧ sees u5 wdir a_file = hi.
Proof.
  pose proof snap_test as H. cbv zeta in H. apply andb_true_iff in H as [I0 H]. apply andb_true_iff in I0 as [I0 O0].
  destruct (then_ok_inv _ _ H) as ([] & w1 & E1 & H1). clear H. cbv beta in H1. destruct (then_some_inv _ _ H1) as (u1 & Q1 & H2). clear H1. cbv beta in H2.
  destruct (then_some_inv _ _ H2) as (u2 & Q2 & H3). clear H2. cbv beta in H3. apply andb_true_iff in H3 as [I1 H3]. destruct (then_ok_inv _ _ H3) as ([] & w2 & E2 & H4). clear H3. cbv beta in H4.
  destruct (then_some_inv _ _ H4) as (u3 & Q3 & H5). clear H4. cbv beta in H5. apply andb_true_iff in H5 as [S1 H5]. apply andb_true_iff in H5 as [I2 H5].
  destruct (then_ok_inv _ _ H5) as ([] & w3 & E3 & H6). clear H5. cbv beta in H6. apply andb_true_iff in H6 as [S2 H6]. apply andb_true_iff in H6 as [I3 H6]. apply andb_true_iff in I3 as [I3 O3].
  destruct (then_ok_inv _ _ H6) as ([] & w4 & E4 & H7). clear H6. cbv beta in H7. apply andb_true_iff in H7 as [S3 H7]. destruct (then_some_inv _ _ H7) as (u5 & Q5 & H8). clear H7. cbv beta in H8. apply andb_true_iff in H8 as [S4 S5].
  apply bool_decide_eq_true in S1. apply bool_decide_eq_true in S2. apply bool_decide_eq_true in S3. apply bool_decide_eq_true in S4. apply bool_decide_eq_true in S5.
  destruct sample_plain as [P G]. assert (∀ k, k ≤ 40 → fits sample_dr k) as Fi by (intros k Hk; by apply sample_fits).
  assert (Fs.abs_from home (default (B ".") (head [B "w"])) = wdir) as Ah by (vm_compute; reflexivity). assert (Fs.abs_from home (B "w") = wdir) as Aw by (vm_compute; reflexivity). assert (Fs.abs_from home (default (B ".") (Some (B "c"))) = cdir) as Ac by (vm_compute; reflexivity).
  assert (outside sample_dr wdir) as Ow by (split; vm_compute; reflexivity). assert (outside sample_dr cdir) as Oc by (split; vm_compute; reflexivity).
  destruct (home_runs _ O0) as [R0 _]. destruct (home_runs _ O3) as [R3 N3].
  destruct (C89_empty sample_dr sample_world (λ _ _, None) sample_order) as [M0 D0].
  destruct (calm_snap (Vcs ∅ ∅) _ 1 home (CInit [B "w"] (B "main")) sample_world (Ok tt) w1 M0 D0 (le_n 1) (Fi 1 ltac:(lia)) I0) as (V1 & Sn1 & _ & [_ X1] & [_ A1] & M1 & D1).
  { split; [exact R0|]. cbv zeta. rewrite Ah. split; [split; [exact Ow|]|].
    - intros s Q. vm_compute in Q. discriminate Q.
    - intros m Hm. apply elem_of_nil in Hm. destruct Hm. }
  { exact I. }
  { exact E1. }
  destruct (X1 I eq_refl) as (F1 & pl & _ & P1 & _). clear X1. cbn [target_of] in P1. rewrite Ah in P1.
  destruct (C89_edit _ _ _ _ _ _ (EMkdir a_dir) G M1 P1) as [_ Y1]. destruct (Y1 _ Q1) as (Mu1 & _ & _). clear Y1.
  destruct (C89_edit _ _ _ _ _ _ (EWrite a_file (B "hi")) G Mu1 P1) as [_ Y2]. destruct (Y2 _ Q2) as (Mu2 & _ & _). clear Y2.
  destruct (calm_snap V1 _ 2 wdir (CCommit (B "one")) u2 (Ok tt) w2 Mu2 D1 ltac:(lia) (Fi 2 ltac:(lia)) I1) as (V2 & Sn2 & _ & [_ X2] & [_ A2] & M2 & D2).
  { split; [exact (place_runs _ _ _ _ G (sn_models _ _ _ _ Mu2) (ex_intro _ _ P1))|]. left. exact (ex_intro _ _ P1). }
  { exact I. }
  { exact E2. }
  destruct (X2 I eq_refl) as (F2 & pl2 & _ & P2 & _). clear X2. cbn [target_of] in P2.
  destruct (C89_edit _ _ _ _ _ _ (ERemove a_file) G M2 P2) as [_ Y3]. destruct (Y3 _ Q3) as (Mu3 & _ & _). clear Y3.
  pose proof (C89_head _ _ _ _ wdir M2) as Pr.
  destruct (calm_snap V2 _ 3 wdir (CCheckout (B "HEAD")) u3 (Ok tt) w3 Mu3 D2 ltac:(lia) (Fi 3 ltac:(lia)) I2) as (V3 & Sn3 & _ & [_ X3] & [_ A3] & M3 & D3).
  { split; [exact (place_runs _ _ _ _ G (sn_models _ _ _ _ Mu3) (ex_intro _ _ P2))|]. left. exact (ex_intro _ _ P2). }
  { exact Pr. }
  { exact E3. }
  destruct (X3 I eq_refl) as (F3 & pl3 & _ & P3 & _). clear X3. cbn [target_of] in P3.
  destruct (calm_snap V3 _ 4 home (CClone (B "w") (Some (B "c"))) w3 (Ok tt) w4 M3 D3 ltac:(lia) (Fi 4 ltac:(lia)) I3) as (V4 & Sn4 & _ & [K4 X4] & _ & M4 & D4).
  { split; [exact R3|]. cbv zeta. rewrite Aw, Ac. split; [left; exact (ex_intro _ _ P3)|]. split; [exact Oc|]. intros [s Q]. rewrite N3 in Q. discriminate Q. }
  { exact I. }
  { exact E4. }
  destruct (X4 I eq_refl) as (F4 & pl4 & _ & P4 & _). clear X4. cbn [target_of] in P4. rewrite Ac in P4.
  destruct (C89_edit _ _ _ _ _ _ (EWrite a_file (B "ho")) G M4 P4) as [_ Y5]. destruct (Y5 _ Q5) as (Mu5 & _ & _). clear Y5.
  assert (Sn4 (pl_head pl3) = Sn3 (pl_head pl3)) as K.
  { apply K4. destruct (used_head _ _ _ _ _ (sn_models _ _ _ _ M3) P3) as (a & U & Hh & _). exact (used_there _ _ _ _ _ _ (sn_models _ _ _ _ M3) U Hh). }
  exists w2, u3, w3, w4, u5, V2, V3, V4, Sn2, Sn3, Sn4, pl2, pl3, pl4. cbv zeta. split; [exact M2|]. split; [exact P2|]. split; [exact Q3|]. split; [exact Mu3|]. split; [exact S1|]. split; [exact Pr|]. split; [exact E3|].
  split; [exact M3|]. split; [exact P3|]. split; [exact S2|]. split; [exact E4|]. split; [exact M4|]. split; [exact P4|]. split; [exact S3|]. split; [exact K|]. split; [exact Q5|]. split; [exact Mu5|]. split; [exact S4|exact S5].
Qed.
Print Assumptions C89_sat.
