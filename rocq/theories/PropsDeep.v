(** * PropsDeep: commands in the subdirectories of a workspace (C91) *)
From Verif Require Import Base Uid SpecUid UidProofs Tree SpecTree TreeRefine TreeObs Dump DumpProofs Json JsonProofs Save SaveProofs Branch BranchProofs Date Ws SpecWs WsProofs
  Fs Overlay Os Layers Mounts Space Manager Commands FsProofs OsProofs LayerProofs MountProofs SpaceProofs ManagerProofs SpecWorld SpecOps SavedProofs FaultProofs ReadyProofs OpProofs CalmProofs
  SpecMachine SpecCmds SpecLog MachineProofs OpenProofs CmdProofs ExpandProofs DetProofs DatedProofs SpecTidy TidyProofs Sample SampleProofs Story StoryProofs SpecUsable UsableProofs UsableCmdProofs UsableInitProofs UsableSeqProofs SpecSerial SerialProofs
  SpecNames NamesProofs LongerProofs UserProofs SpecVcs VcsProofs HarmProofs PropsCommit PropsCmds PropsShow PropsUsable PropsRound PropsVcs PropsFiles Edits SpecEdits EditProofs PropsEdits SpecSnap SnapProofs PropsSnap Deep SpecDeep DeepProofs DeepMoveProofs.
From Coq Require Import Lia.
From stdpp Require Import prelude gmap.

(** In a workspace, at the path of its link, branch, tag and log do what the simpler model says, in which paths are not followed through links
    and into mounts. *)
Theorem C91_agree : ∀ dr w p mid y hid a c o, good_path dr → good_path p → in_order dr w → workspace_at dr w p mid y hid a → clear_of (w_mounts w) (mounts_root dr) → clear_of (w_mounts w) p →
  stays_mounted c → deep_cmd dr c o (deep_enter p w) = run_cmd dr c o (enter p w).
Proof.
  intros dr w p mid y hid a c o G Gp Io Wa Cm Cp St.
  pose proof (clear_mount dr w mid Io Cm) as Cd. destruct (wa_mount _ _ _ _ _ _ _ Wa) as [D Mo]. pose proof (mc_wf _ _ _ (io_machine _ _ Io)) as Wf.
  assert (usual w p) as U. { right. split; [done|]. split; [done|]. eexists. split; [exact (wa_link _ _ _ _ _ _ _ Wa)|]. by apply point_usual. }
  rewrite (enter_same _ _ Wf U). apply cmd_same; [done|done|]. by apply enter_usual.
Qed.
Print Assumptions C91_agree.
(** So do commit and checkout, whatever fails, although they replace the link and the mount that the working directory is reached by. *)
Theorem C91_moves : ∀ dr w p mid y hid a c o, plain_path dr → good_path dr → good_path p → outside dr p → fair o → in_order dr w → workspace_at dr w p mid y hid a →
  clear_of (w_mounts w) (mounts_root dr) → clear_of (w_mounts w) p → moves c → deep_cmd dr c o (deep_enter p w) = run_cmd dr c o (enter p w).
Proof. exact moves_same. Qed.
Print Assumptions C91_moves.
(** Below the link, in any directory [k] that the workspace shows, every command refuses to work, whatever fails: it looks for a workspace there and not
    above. Nothing changes. *)
Theorem C91_below_link : ∀ dr w p mid y hid a m k c o r w', good_path dr → good_path p → outside dr p → in_order dr w → workspace_at dr w p mid y hid a →
  clear_of (w_mounts w) (mounts_root dr) → clear_of (w_mounts w) p → mounts_below (w_mounts w) (mount_dir dr mid) = [m] → mn_at m = merged_dir dr mid → shown_dir (w_fs w) m k → k ≠ [] →
  deep_cmd dr c o (deep_enter (p ++ k) w) = (r, w') →
  failed r ∧ same_disk w w' ∧ w_out w' = w_out w ∧ w_owned w' = w_owned w ∧ (no_faults o → r = Err EWrongLen).
Proof.
  intros dr w p mid y hid a m k c o r w' G Gp Op Io Wa Cm Cp Em Ea Sh N E.
  pose proof (clear_mount dr w mid Io Cm) as Cd. destruct (wa_mount _ _ _ _ _ _ _ Wa) as [D _]. pose proof (mc_wf _ _ _ (io_machine _ _ Io)) as Wf. pose proof (wa_link _ _ _ _ _ _ _ Wa) as L.
  pose proof (leads_link dr w mid m G Wf D Cd Em Ea p Gp L Cp k Sh) as El.
  pose proof (dir_inside dr w mid m G D Cd Em Ea k Sh) as Ed.
  pose proof (spot_link dr w mid m G Wf D Cd Em Ea p Gp L Cp k N Sh) as Es.
  assert (outside dr (p ++ k)) as Ok. { destruct Op as [O1 O2]. split; [|]; apply not_true_is_false; intros Q.
    - destruct (prefix_comparable _ _ _ Q (is_prefix_app p k)) as [R|R]; congruence.
    - rewrite (is_prefix_trans _ _ _ (is_prefix_app p k) Q) in O2. done. }
  unfold deep_cmd, bind at 1 in E. destruct (deep_get_workspace dr (B ".") o (deep_enter (p ++ k) w)) as [r1 w1] eqn:E1.
  destruct (open_refused dr o (deep_enter (p ++ k) w) (p ++ k) (merged_dir dr mid ++ k) r1 w1) as (Hf & Hl2 & Hn).
  - reflexivity.
  - rewrite (leads_ext w) by reflexivity. unfold deep_enter. rewrite El. reflexivity.
  - rewrite (dir_ext w) by reflexivity. unfold deep_enter. rewrite El. exact Ed.
  - rewrite (spot_ext w) by reflexivity. exact Es.
  - rewrite (dir_ext w) by reflexivity. exact Ed.
  - unfold mounts_root. by apply rel_first_outside.
  - exact E1.
  - assert (failed r ∧ w' = w1 ∧ (r1 = Err EWrongLen → r = Err EWrongLen)) as (H1 & -> & H2).
    { destruct r1 as [x| | | |]; [exfalso; exact (Hf x eq_refl)|injection E as <- <-; (split; [by intros x|]); (split; [done|]); intros Q; first [discriminate Q|by injection Q as ->]..]. }
    destruct Hl2 as ((A1 & A2 & A3 & A4) & A5 & A6 & A7 & A8). split; [done|]. split; [by split|]. split; [done|]. split; [done|]. intros Nf. by apply H2, Hn.
Qed.
Print Assumptions C91_below_link.
(** By the physical path, below the mount point, branch, tag and log do exactly what they do at the mount point. *)
Theorem C91_physical : ∀ dr w mid m k c o, good_path dr → in_order dr w → is_dir_at (w_fs w) (merged_dir dr mid) = true →
  clear_of (w_mounts w) (mounts_root dr) → mounts_below (w_mounts w) (mount_dir dr mid) = [m] → mn_at m = merged_dir dr mid → shown_dir (w_fs w) m k → stays_mounted c →
  deep_cmd dr c o (deep_enter (merged_dir dr mid ++ k) w) = (let (r, w') := run_cmd dr c o (enter (merged_dir dr mid) w) in (r, at_dir (merged_dir dr mid ++ k) w')).
Proof.
  intros dr w mid m k c o G Io D Cm Em Ea Sh St.
  pose proof (clear_mount dr w mid Io Cm) as Cd. pose proof (mc_wf _ _ _ (io_machine _ _ Io)) as Wf.
  by apply (cmd_inside dr w mid m).
Qed.
Print Assumptions C91_physical.

(** ** A workspace with a directory *)
Definition mount_point (w : world) : path := match fget (w_fs w) wdir with Some (FLink s) => pjoin [] s | _ => [] end.
Definition upper_of (w : world) : path := match w_mounts w with m :: _ => default [] (mn_upper m) | [] => [] end.
Definition clear_test (ms : list mount) (p : path) : bool := forallb (λ m, negb (is_prefix (mn_at m) p)) ms.
Lemma clear_test_ok ms p : clear_test ms p = true → clear_of ms p.
Proof. intros H m Hm. unfold clear_test in H. rewrite forallb_forall in H. apply elem_of_list_In in Hm. specialize (H m Hm). by destruct (is_prefix _ _). Qed.
Definition new_name : command := CBranch (BranchOpts false false false false false false) [B "b"].
Lemma deep_test :
  ids_check sample_dr calm (enter home sample_world) && home_ok sample_world &&
  then_ok (run_cmd sample_dr (CInit [B "w"] (B "main")) calm (enter home sample_world)) (λ _ w1,
  then_some (edit_at w1 wdir (EMkdir a_dir)) (λ u1,
    clear_test (w_mounts u1) (mounts_root sample_dr) && (clear_test (w_mounts u1) wdir && (forallb (λ m, bool_decide (mount_view (w_fs u1) m a_dir = Some (FDir false))) (w_mounts u1) &&
    (bool_decide (fst (deep_cmd sample_dr new_name calm (deep_enter wdir u1)) = Ok tt) && (bool_decide (fst (deep_cmd sample_dr new_name calm (deep_enter (mount_point u1 ++ a_dir) u1)) = Ok tt) &&
    (is_dir_at (w_fs u1) (upper_of u1 ++ a_dir) &&
    (let (r, w2) := deep_cmd sample_dr (CCommit (B "one")) calm (deep_enter (mount_point u1 ++ a_dir) u1) in
     bool_decide (r = Err ENOENT) && (bool_decide (leads w2 wdir = None) && match fget (w_fs w2) (upper_of u1 ++ a_dir) with Some (FLink _) => true | _ => false end)))))))) ) = true.
Proof. vm_compute. reflexivity. Qed.
Lemma a_dir_good : good_path a_dir.
Proof. constructor; [|constructor]. split; [discriminate|]. split; [discriminate|]. split; [discriminate|]. apply (bool_decide_unpack _). vm_compute. exact I. Qed.
Example C91_sat : ∃ u mid y hid a m, let dr := sample_dr in
  in_order dr u ∧ workspace_at dr u wdir mid y hid a ∧ outside dr wdir ∧ clear_of (w_mounts u) (mounts_root dr) ∧ clear_of (w_mounts u) wdir ∧
  mounts_below (w_mounts u) (mount_dir dr mid) = [m] ∧ mn_at m = merged_dir dr mid ∧ shown_dir (w_fs u) m a_dir ∧ stays_mounted new_name ∧
  fst (deep_cmd dr new_name calm (deep_enter wdir u)) = Ok tt ∧ fst (deep_cmd dr new_name calm (deep_enter (merged_dir dr mid ++ a_dir) u)) = Ok tt.
Proof.
  pose proof deep_test as H. apply andb_true_iff in H as [I0 H]. apply andb_true_iff in I0 as [I0 O0].
  destruct (then_ok_inv _ _ H) as ([] & w1 & E1 & H1). clear H. cbv beta in H1. destruct (then_some_inv _ _ H1) as (u1 & Q1 & H2). clear H1. cbv beta in H2.
  apply andb_true_iff in H2 as [T1 H2]. apply andb_true_iff in H2 as [T2 H2]. apply andb_true_iff in H2 as [T3 H2]. apply andb_true_iff in H2 as [T4 H2]. apply andb_true_iff in H2 as [T5 _].
  apply clear_test_ok in T1. apply clear_test_ok in T2. apply bool_decide_eq_true in T4. apply bool_decide_eq_true in T5.
  destruct sample_plain as [P G]. assert (∀ k, k ≤ 40 → fits sample_dr k) as Fi by (intros k Hk; by apply sample_fits).
  assert (Fs.abs_from home (default (B ".") (head [B "w"])) = wdir) as Ah by (vm_compute; reflexivity).
  assert (outside sample_dr wdir) as Ow by (split; vm_compute; reflexivity).
  destruct (home_runs _ O0) as [R0 _].
  destruct (C89_empty sample_dr sample_world (λ _ _, None) sample_order) as [M0 D0].
  destruct (calm_snap (Vcs ∅ ∅) _ 1 home (CInit [B "w"] (B "main")) sample_world (Ok tt) w1 M0 D0 (le_n 1) (Fi 1 ltac:(lia)) I0) as (V1 & Sn1 & _ & [_ X1] & [_ A1] & M1 & D1).
  { split; [exact R0|]. cbv zeta. rewrite Ah. split; [split; [exact Ow|]|].
    - intros s Q. vm_compute in Q. discriminate Q.
    - intros m Hm. apply elem_of_nil in Hm. destruct Hm. }
  { exact I. }
  { exact E1. }
  destruct (X1 I eq_refl) as (F1 & pl & _ & P1 & _). clear X1. cbn [target_of] in P1. rewrite Ah in P1.
  destruct (C89_edit _ _ _ _ _ _ (EMkdir a_dir) G M1 P1) as [_ Y1]. destruct (Y1 _ Q1) as (Mu1 & (mid & L & Ne) & _). clear Y1 Q1 E1 .
  pose proof (sn_models _ _ _ _ Mu1) as [Io (mids & _ & Hp)]. destruct (Hp _ _ P1) as (_ & y & a & Wa & _).
  assert (mids wdir = mid) as Em.
  { pose proof (wa_link _ _ _ _ _ _ _ Wa) as L'. rewrite L in L'. apply (inj Some) in L'. apply (f_equal (λ f, match f with FLink s => s | _ => [] end)) in L'. cbv beta iota in L'. symmetry. exact (path_str_merged _ _ _ G L'). }
  rewrite Em in Wa. destruct (wa_mount _ _ _ _ _ _ _ Wa) as [D [Z|(m & Z1 & Z2)]]; [destruct (Ne Z)|].
  assert (mount_point u1 = merged_dir sample_dr mid) as Emp. { unfold mount_point. rewrite L. apply join_path_str. exact (UsableProofs.good_merged _ mid G). }
  rewrite Emp in T5.
  exists u1, mid, y, (pl_head pl), a, m. cbv zeta. split; [exact Io|]. split; [exact Wa|]. split; [exact Ow|]. split; [exact T1|]. split; [exact T2|]. split; [exact Z1|]. split; [exact Z2|]. split.
  - split; [exact a_dir_good|]. intros n Hn. assert (take n a_dir = a_dir) as ->. { apply take_ge. change (length a_dir) with 1 in Hn |- *. lia. }
    rewrite forallb_forall in T3. assert (In m (w_mounts u1)) as Hm. { apply elem_of_list_In. exact (in_mounts _ _ _ _ Z1). }
    specialize (T3 m Hm). apply bool_decide_eq_true in T3. exact T3.
  - split; [exact I|]. split; [exact T4|exact T5].
Qed.
Print Assumptions C91_sat.
(** But commit in an empty directory, by the physical path, breaks the workspace: it replaces the directory by a link to the new mount, in
    the layer that it has just committed, and removes the old mount, to which the link of the workspace still leads. *)
Theorem C91_commit_inside_refuted : ∃ w u w', let dr := sample_dr in
  run_cmd dr (CInit [B "w"] (B "main")) calm (enter home sample_world) = (Ok tt, w) ∧ edit_at w wdir (EMkdir a_dir) = Some u ∧
  is_dir_at (w_fs u) (upper_of u ++ a_dir) = true ∧ deep_cmd dr (CCommit (B "one")) calm (deep_enter (mount_point u ++ a_dir) u) = (Err ENOENT, w') ∧
  leads w' wdir = None ∧ ∃ s, fget (w_fs w') (upper_of u ++ a_dir) = Some (FLink s).
Proof.
  pose proof deep_test as H. apply andb_true_iff in H as [_ H].
  destruct (then_ok_inv _ _ H) as ([] & w1 & E1 & H1). clear H. cbv beta in H1. destruct (then_some_inv _ _ H1) as (u1 & Q1 & H2). clear H1. cbv beta in H2.
  apply andb_true_iff in H2 as [_ H2]. apply andb_true_iff in H2 as [_ H2]. apply andb_true_iff in H2 as [_ H2]. apply andb_true_iff in H2 as [_ H2]. apply andb_true_iff in H2 as [_ H2]. apply andb_true_iff in H2 as [T6 H2].
  destruct (deep_cmd sample_dr (CCommit (B "one")) calm (deep_enter (mount_point u1 ++ a_dir) u1)) as [r w2] eqn:E2. apply andb_true_iff in H2 as [T7 H2]. apply andb_true_iff in H2 as [T8 T9].
  apply bool_decide_eq_true in T7. apply bool_decide_eq_true in T8. subst r.
  destruct (fget (w_fs w2) (upper_of u1 ++ a_dir)) as [[]|] eqn:E3; try discriminate T9.
  exists w1, u1, w2. cbv zeta. split; [exact E1|]. split; [exact Q1|]. split; [exact T6|]. split; [exact E2|]. split; [exact T8|]. eexists. exact E3.
Qed.
Print Assumptions C91_commit_inside_refuted.
(** Commit at the link, by the kernel's rules for paths: the link leads to the new mount, and a checkout follows. *)
Lemma moves_test :
  then_ok (run_cmd sample_dr (CInit [B "w"] (B "main")) calm (enter home sample_world)) (λ _ w1,
  then_ok (deep_cmd sample_dr (CCommit (B "one")) calm (deep_enter wdir w1)) (λ _ w2,
  then_ok (deep_cmd sample_dr (CCheckout (B "HEAD")) calm (deep_enter wdir w2)) (λ _ w3,
    bool_decide (leads w1 wdir ≠ leads w2 wdir) && (bool_decide (leads w2 wdir ≠ leads w3 wdir) && bool_decide (is_Some (leads w3 wdir)))))) = true.
Proof. vm_compute. reflexivity. Qed.
Example C91_sat_moves : ∃ w1 w2 w3 t1 t2 t3, run_cmd sample_dr (CInit [B "w"] (B "main")) calm (enter home sample_world) = (Ok tt, w1) ∧
  deep_cmd sample_dr (CCommit (B "one")) calm (deep_enter wdir w1) = (Ok tt, w2) ∧ deep_cmd sample_dr (CCheckout (B "HEAD")) calm (deep_enter wdir w2) = (Ok tt, w3) ∧
  leads w1 wdir = t1 ∧ leads w2 wdir = t2 ∧ leads w3 wdir = Some t3 ∧ t1 ≠ t2 ∧ t2 ≠ Some t3.
Proof.
  pose proof moves_test as H. destruct (then_ok_inv _ _ H) as ([] & w1 & E1 & H1). clear H. cbv beta in H1. destruct (then_ok_inv _ _ H1) as ([] & w2 & E2 & H2). clear H1. cbv beta in H2.
  destruct (then_ok_inv _ _ H2) as ([] & w3 & E3 & H3). clear H2. cbv beta in H3. apply andb_true_iff in H3 as [T1 H3]. apply andb_true_iff in H3 as [T2 T3].
  apply bool_decide_eq_true in T1. apply bool_decide_eq_true in T2. apply bool_decide_eq_true in T3. destruct T3 as [t3 T3].
  exists w1, w2, w3, (leads w1 wdir), (leads w2 wdir), t3. split; [exact E1|]. split; [exact E2|]. split; [exact E3|]. split; [reflexivity|]. split; [reflexivity|]. split; [exact T3|]. split; [exact T1|].
  rewrite <-T3. exact T2.
Qed.
