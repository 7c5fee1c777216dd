(** * PropsThrough: init and clone at paths that go through a link, and at mounts (C97) *)
From Verif Require Import Base Uid SpecUid UidProofs Tree SpecTree TreeRefine TreeObs Dump DumpProofs Json JsonProofs Save SaveProofs Branch BranchProofs Date Ws SpecWs WsProofs
  Fs Overlay Os Layers Mounts Space Manager Commands FsProofs OsProofs LayerProofs MountProofs SpaceProofs ManagerProofs SpecWorld SpecOps SavedProofs FaultProofs ReadyProofs OpProofs CalmProofs
  SpecMachine SpecCmds SpecLog MachineProofs OpenProofs CmdProofs ExpandProofs DetProofs DatedProofs SpecTidy TidyProofs Sample SampleProofs Story StoryProofs SpecUsable UsableProofs UsableCmdProofs UsableInitProofs UsableSeqProofs SpecSerial SerialProofs
  SpecNames NamesProofs LongerProofs UserProofs SpecVcs VcsProofs HarmProofs PropsCommit PropsCmds PropsShow PropsUsable PropsRound PropsVcs PropsFiles Edits SpecEdits EditProofs PropsEdits SpecSnap SnapProofs PropsSnap Deep SpecDeep DeepProofs DeepMoveProofs
  PropsDeep DeepStart SpecStart DeepStartProofs PropsStart ThroughProofs.
From Coq Require Import Lia.
From stdpp Require Import prelude gmap.

Lemma apart_through w w' p q : apart w w' → through w p q → through w' p q.
Proof. intros (E1 & E2 & _). by apply through_ext. Qed.
(** When the path goes through a link, init works at the place where it leads: the link of the new workspace is there, whatever fails nothing is done at the path as it is
    written, and the record names the path as it was given. *)
Theorem C97_init : ∀ dr w d args branch o q, let p := abs_of (enter d w) (default (B ".") (head args)) in
  plain_path dr → good_path dr → fair o → in_order dr w → clear_of (w_mounts w) (mounts_root dr) → usual w d → outside dr q → plain_place w q → through w p q → (real_path (w_fs w) d = Some q → d = q) →
  deep_run dr (CInit args branch) o (deep_enter d w) = init_at dr args branch q o (enter d w) ∧
  ∀ w', deep_run dr (CInit args branch) o (deep_enter d w) = (Ok tt, w') → put_at dr p q w'.
Proof.
  intros dr w d args branch o q p P G F Io Cm Ud O Pl Th Hd. pose proof (mc_wf _ _ _ (io_machine _ _ Io)) as W.
  rewrite (enter_same _ _ W Ud). destruct (enter_usual w d W Ud) as (U & _ & Eg). cbn [deep_run].
  assert (deep_init dr args branch o (enter d w) = init_at dr args branch q o (enter d w)) as Eq.
  { unfold deep_init, init_at.
    apply bind_then; [by apply deep_abs_same|]. intros p' w1 E. apply abs_ok in E as Ep. subst p'. fold p. apply (quiet_apart _ _ _ _ _ (quiet_abs _)) in E as A1.
    assert (plain_place w1 q) as P1 by (apply (apart_place (enter d w)); [done|]; by apply (place_ext w)). assert (fs_wf (w_fs w1)) as W1 by (destruct A1 as (-> & _); exact W).
    assert (through w1 p q) as T1 by (apply (apart_through (enter d w)); [done|]; by apply (through_ext w)).
    apply bind_then; [by apply via_exists|]. intros e w2 E2. apply (quiet_apart _ _ _ _ _ (quiet_is_exists _)) in E2 as A2.
    assert (plain_place w2 q) as P2 by (by apply (apart_place w1)). assert (fs_wf (w_fs w2)) as W2 by (destruct A2 as (-> & _); exact W1). assert (through w2 p q) as T2 by (by apply (apart_through w1)).
    apply bind_then. { destruct e; [|reflexivity]. apply bind_then; [by apply via_empty|reflexivity]. }
    intros bad w3 E3. assert (quiet (if e : bool then d <- fs_is_empty_dir q;; ret (negb d) else ret false)) as Q by (quiet; apply quiet_is_empty_dir). apply (quiet_apart _ _ _ _ _ Q) in E3 as A3.
    destruct bad; [reflexivity|]. pose proof (apart_trans _ _ _ A1 (apart_trans _ _ _ A2 A3)) as A.
    apply create_through_same; try done.
    - apply (apart_order _ _ _ A). by destruct Io.
    - destruct A as (_ & -> & _). exact Cm.
    - by apply (apart_place w2).
    - by apply (apart_through w2).
    - by apply (apart_wd _ _ A).
    - rewrite (apart_getwd _ _ A), Eg. destruct A as (-> & _). exact Hd. }
  split; [exact Eq|]. rewrite Eq. clear Eq. intros w' Run. unfold init_at in Run.
  apply bind_ok in Run as (p' & w1 & E & Run). apply abs_ok in E as Ep. subst p'. fold p in Run. apply (quiet_apart _ _ _ _ _ (quiet_abs _)) in E as A1.
  apply bind_ok in Run as (e & w2 & E2 & Run). apply (quiet_apart _ _ _ _ _ (quiet_is_exists _)) in E2 as A2.
  apply bind_ok in Run as (bad & w3 & E3 & Run). assert (quiet (if e : bool then d <- fs_is_empty_dir q;; ret (negb d) else ret false)) as Q by (quiet; apply quiet_is_empty_dir). apply (quiet_apart _ _ _ _ _ Q) in E3 as A3.
  destruct bad; [discriminate Run|]. pose proof (apart_trans _ _ _ A1 (apart_trans _ _ _ A2 A3)) as A.
  apply (create_puts dr p q branch o w3 w' P G F); try done.
  - apply (apart_order _ _ _ A). by destruct Io.
  - destruct A as (_ & -> & _). exact Cm.
  - apply (apart_place _ _ _ A). by apply (place_ext w).
  - apply (apart_through _ _ _ _ A). by apply (through_ext w).
Qed.
Print Assumptions C97_init.
(** So does clone. *)
Theorem C97_clone : ∀ dr w d source target o q, let p := abs_of (enter d w) (default (B ".") target) in
  plain_path dr → good_path dr → fair o → in_order dr w → clear_of (w_mounts w) (mounts_root dr) → usual w d → usual w (abs_of (enter d w) source) → outside dr q → plain_place w q → through w p q →
  (real_path (w_fs w) d = Some q → d = q) →
  deep_run dr (CClone source target) o (deep_enter d w) = clone_at dr source target q o (enter d w) ∧
  ∀ w', deep_run dr (CClone source target) o (deep_enter d w) = (Ok tt, w') → put_at dr p q w'.
Proof.
  intros dr w d source target o q p P G F Io Cm Ud Us O Pl Th Hd. pose proof (mc_wf _ _ _ (io_machine _ _ Io)) as W.
  rewrite (enter_same _ _ W Ud). destruct (enter_usual w d W Ud) as (U & _ & Eg). cbn [deep_run].
  assert (∀ w1 x w2, apart (enter d w) w1 → get_workspace dr source o w1 = (Ok x, w2) → ∃ a hid, live dr w2 x a hid ∧ apart (enter d w) w2) as Gw.
  { intros w1 x w2 A1 E2. assert (machine dr (w_fs w1) (w_mounts w1)) as Mc1 by (destruct A1 as (-> & -> & _); apply Io). destruct (get_workspace_any _ _ _ _ _ _ G F Mc1 E2) as (a & hid & Lv & _).
    exists (san_tree a), hid. split; [exact Lv|]. apply reader_get_workspace in E2 as (t & k & ->). apply (apart_trans _ _ _ A1). done. }
  assert (deep_clone dr source target o (enter d w) = clone_at dr source target q o (enter d w)) as Eq.
  { unfold deep_clone, clone_at.
    apply bind_then; [by apply deep_abs_same|]. intros p' w1 E. apply abs_ok in E as Ep. subst p'. fold p. apply (quiet_apart _ _ _ _ _ (quiet_abs _)) in E as A1.
    assert (abs_of w1 source = abs_of (enter d w) source) as Es by (unfold abs_of; by rewrite (apart_getwd _ _ A1)).
    pose proof (apart_wd _ _ A1 U) as U1. assert (fs_wf (w_fs w1)) as W1 by (destruct A1 as (-> & _); exact W).
    apply bind_then. { apply deep_open_same; [done|done|]. rewrite Es. apply (apart_usual _ _ _ A1). exact Us. }
    intros x w2 E2. destruct (Gw _ _ _ A1 E2) as (a & hid & Lv & A).
    apply (clone_through_same dr x p q o w2 a hid P G F); try done.
    - apply (apart_order _ _ _ A). by destruct Io.
    - destruct A as (_ & -> & _). exact Cm.
    - apply (apart_place _ _ _ A). by apply (place_ext w).
    - apply (apart_through _ _ _ _ A). by apply (through_ext w).
    - by apply (apart_wd _ _ A).
    - rewrite (apart_getwd _ _ A), Eg. destruct A as (-> & _). exact Hd. }
  split; [exact Eq|]. rewrite Eq. clear Eq. intros w' Run. unfold clone_at in Run.
  apply bind_ok in Run as (p' & w1 & E & Run). apply abs_ok in E as Ep. subst p'. fold p in Run. apply (quiet_apart _ _ _ _ _ (quiet_abs _)) in E as A1.
  apply bind_ok in Run as (x & w2 & E2 & Run). destruct (Gw _ _ _ A1 E2) as (a & hid & Lv & A).
  apply (clone_puts dr x p q o w2 a hid w' P G F); try done.
  - apply (apart_order _ _ _ A). by destruct Io.
  - destruct A as (_ & -> & _). exact Cm.
  - apply (apart_place _ _ _ A). by apply (place_ext w).
  - apply (apart_through _ _ _ _ A). by apply (through_ext w).
Qed.
Print Assumptions C97_clone.
(** Where something else is mounted, both fail, even in an empty directory. What is mounted there stays. *)
Theorem C97_busy : ∀ dr w d c o p r w', (∃ args branch, c = CInit args branch ∧ p = abs_of (enter d w) (default (B ".") (head args))) ∨
    (∃ source target, c = CClone source target ∧ p = abs_of (enter d w) (default (B ".") target) ∧ usual w (abs_of (enter d w) source)) →
  plain_path dr → good_path dr → fair o → in_order dr w → usual w d → outside dr p → busy w p →
  deep_run dr c o (deep_enter d w) = (r, w') → r ≠ Ok tt ∧ left_alone p w w'.
Proof.
  intros dr w d c o p r w' Hc P G F Io Ud O Bs. pose proof (mc_wf _ _ _ (io_machine _ _ Io)) as W.
  rewrite (enter_same _ _ W Ud). destruct (enter_usual w d W Ud) as (U & _ & Eg).
  cut (refused p (deep_run dr c) o (enter d w)). { intros R E. apply R in E. exact E. }
  destruct Hc as [(args & branch & -> & Hp)|(source & target & -> & Hp & Us)]; cbn [deep_run].
  - unfold deep_init. apply refused_bind.
    { intros r1 w1 E. rewrite deep_abs_same in E by done. eapply alone_quiet; [apply quiet_abs|exact E]. }
    intros p' w1 E. rewrite deep_abs_same in E by done. apply abs_ok in E as Ep. rewrite <-Hp in Ep. subst p'. apply (quiet_apart _ _ _ _ _ (quiet_abs _)) in E as A1.
    assert (quiet (deep_exists p)) as Q1 by (unfold deep_exists; quiet). apply refused_bind; [intros r1 w2 E2; by eapply alone_quiet|]. intros e w2 E2. apply (quiet_apart _ _ _ _ _ Q1) in E2 as A2.
    assert (quiet (if e : bool then d <- deep_is_empty_dir p ;; ret (negb d) else ret false)) as Q2 by (unfold deep_is_empty_dir, deep_is_dir, deep_readdir; quiet).
    apply refused_bind; [intros r1 w3 E3; by eapply alone_quiet|]. intros bad w3 E3. apply (quiet_apart _ _ _ _ _ Q2) in E3 as A3. pose proof (apart_trans _ _ _ A1 (apart_trans _ _ _ A2 A3)) as A.
    destruct bad; [intros r1 w4 [= <- <-]; split; [discriminate|by apply alone_same]|].
    apply busy_create; try done.
    + apply (apart_order _ _ _ A). by destruct Io.
    + destruct A as (X1 & X2 & _). by apply (busy_ext w).
  - unfold deep_clone. apply refused_bind.
    { intros r1 w1 E. rewrite deep_abs_same in E by done. eapply alone_quiet; [apply quiet_abs|exact E]. }
    intros p' w1 E. rewrite deep_abs_same in E by done. apply abs_ok in E as Ep. rewrite <-Hp in Ep. subst p'. apply (quiet_apart _ _ _ _ _ (quiet_abs _)) in E as A1.
    assert (abs_of w1 source = abs_of (enter d w) source) as Es by (unfold abs_of; by rewrite (apart_getwd _ _ A1)).
    pose proof (apart_wd _ _ A1 U) as U1. assert (fs_wf (w_fs w1)) as W1 by (destruct A1 as (-> & _); exact W).
    assert (deep_get_workspace dr source o w1 = get_workspace dr source o w1) as Eo. { apply deep_open_same; [done|done|]. rewrite Es. apply (apart_usual _ _ _ A1). exact Us. }
    assert (machine dr (w_fs w1) (w_mounts w1)) as Mc1 by (destruct A1 as (-> & -> & _); apply Io).
    apply refused_bind; [intros r1 w2 E2; rewrite Eo in E2; apply reader_get_workspace in E2 as (t & k & ->); by apply alone_same|]. intros x w2 E2. rewrite Eo in E2.
    destruct (get_workspace_any _ _ _ _ _ _ G F Mc1 E2) as (a & hid & Lv & _). apply reader_get_workspace in E2 as (t & k & ->). set (w2 := upd w1 (w_fs w1) (w_mounts w1) t k) in *.
    assert (apart w1 w2) as A2 by done. pose proof (apart_trans _ _ _ A1 A2) as A. apply (busy_clone dr x p o w2 (san_tree a) hid P G F); try done.
    + apply (apart_order _ _ _ A). by destruct Io.
    + destruct A as (X1 & X2 & _). by apply (busy_ext w).
Qed.
Print Assumptions C97_busy.

(** ** A directory [/h/t], and a link [/h/l] to it *)
Definition tdir : path := [B "h"; B "t"].
Definition ldir : path := [B "h"; B "l"].
Definition linked_fs : files := sample_fs ++ [(tdir, FDir false); (ldir, FLink (path_str tdir))].
Definition linked : world := set_fs sample_world linked_fs.
Lemma dirs_good : good_path tdir ∧ good_path ldir ∧ good_path (tdir ++ [B "n"]).
Proof. split; [|split]; repeat apply Forall_cons_2; try apply Forall_nil_2; (split; [done|]; split; [done|]; split; [done|]; by apply (bool_decide_unpack _); vm_compute). Qed.
Lemma linked_order : in_order sample_dr linked.
Proof.
  constructor; [|intros m Hm; by apply elem_of_nil in Hm|reflexivity..]. apply machine_fresh.
  - apply wf_check_ok. vm_compute. reflexivity.
  - intros n. apply no_children_ok. vm_compute. reflexivity.
  - intros n. apply no_children_ok. vm_compute. reflexivity.
  - intros m Hm. by apply elem_of_nil in Hm.
Qed.
(** Where the link is as it was, and nothing is mounted there *)
Definition still (w : world) : bool :=
  bool_decide (fget (w_fs w) ldir = Some (FLink (path_str tdir))) && (is_dir_at (w_fs w) tdir && (is_dir_at (w_fs w) home && (clear_test (w_mounts w) ldir && (clear_test (w_mounts w) (tdir ++ [B "n"]) &&
  (bool_decide (fget (w_fs w) (tdir ++ [B "n"]) = None) && clear_test (w_mounts w) (mounts_root sample_dr)))))).
Lemma still_ok w : still w = true →
  usual_dir w home ∧ usual_dir w tdir ∧ plain_place w (tdir ++ [B "n"]) ∧ through w (ldir ++ [B "n"]) (tdir ++ [B "n"]) ∧ clear_of (w_mounts w) (mounts_root sample_dr).
Proof.
  unfold still. intros H. apply andb_true_iff in H as [T1 H]. apply andb_true_iff in H as [T2 H]. apply andb_true_iff in H as [T3 H]. apply andb_true_iff in H as [T4 H]. apply andb_true_iff in H as [T5 H].
  apply andb_true_iff in H as [T6 T7]. apply bool_decide_eq_true in T1. apply clear_test_ok in T4. apply clear_test_ok in T5. apply bool_decide_eq_true in T6. apply clear_test_ok in T7.
  destruct dirs_good as (Gt & Gl & Gn). pose proof (clear_above _ tdir (B "n") T5) as C1.
  assert (usual_dir w home) as Uh. { split; [apply home_good|]. split; [exact T3|]. intros m Hm Q. rewrite (clear_above _ home (B "l") T4 m Hm) in Q. discriminate Q. }
  assert (usual_dir w tdir) as Ut. { split; [exact Gt|]. split; [exact T2|]. intros m Hm Q. rewrite (C1 m Hm) in Q. discriminate Q. }
  split; [exact Uh|]. split; [exact Ut|]. split.
  - split; [exact Gn|]. split; [discriminate|]. split; [exact T5|]. split; [exact T2|]. intros s Q. rewrite T6 in Q. discriminate Q.
  - split; [|exact T7]. right. exists ldir, tdir, [], (B "n"). split; [reflexivity|]. split; [reflexivity|]. split; [exact (link_usual_to w ldir tdir Gl T4 T1 Ut)|].
    split; [apply link_real; [exact T1|apply Ut|exact T2]|]. split; [exact Ut|]. intros Q. vm_compute in Q. discriminate Q.
Qed.
Lemma through_test :
  ids_check sample_dr calm (enter home linked) && home_ok linked && still linked &&
  then_ok (deep_run sample_dr (CInit [B "l/n"] (B "main")) calm (deep_enter home linked)) (λ _ w1, bool_decide (w_fs w1 ≠ w_fs linked)) &&
  then_ok (run_cmd sample_dr (CInit [B "w"] (B "main")) calm (enter home linked)) (λ _ w1,
  then_ok (deep_run sample_dr (CClone (B "w") (Some (B "l/n"))) calm (deep_enter home w1)) (λ _ w2,
    still w1 && clear_test (w_mounts w1) wdir)) = true.
Proof. vm_compute. reflexivity. Qed.
Definition disk : mount := Mnt tdir [wdir] None None.
Lemma busy_order dr w m : is_prefix (mounts_root dr) (mn_at m) = false → in_order dr w → in_order dr (set_mounts w (m :: w_mounts w)).
Proof.
  intros N [[A1 A2 A3 A4] A5 A6 A7 A8]. constructor; [|intros m' Hm Q|exact A6|exact A7|exact A8].
  - constructor; [exact A1|exact A2|exact A3|]. intros m' Hm Q. cbn [w_mounts set_mounts] in Hm. apply elem_of_cons in Hm as [->|Hm]; [rewrite N in Q; discriminate Q|]. apply (A4 m' Hm Q).
  - cbn [w_mounts set_mounts] in Hm. apply elem_of_cons in Hm as [->|Hm]; [rewrite N in Q; discriminate Q|]. apply (A5 m' Hm Q).
Qed.
Lemma disk_dir w t : t = tdir ∨ is_prefix tdir t = false → usual_dir w t → usual_dir (set_mounts w (disk :: w_mounts w)) t.
Proof. intros H (U1 & U2 & U3). split; [exact U1|]. split; [exact U2|]. intros m Hm Q. cbn [w_mounts set_mounts] in Hm. apply elem_of_cons in Hm as [->|Hm]; [|by apply U3]. destruct H as [->|H]; [reflexivity|]. cbn [disk mn_at] in Q. congruence. Qed.
Example C97_sat : ∃ wi w1 w2, let dr := sample_dr in let p := ldir ++ [B "n"] in let q := tdir ++ [B "n"] in
  (in_order dr linked ∧ usual linked home ∧ plain_place linked q ∧ through linked p q ∧ outside dr q ∧ p ≠ q) ∧
  (in_order dr w1 ∧ usual w1 home ∧ usual w1 wdir ∧ plain_place w1 q ∧ through w1 p q ∧ clear_of (w_mounts w1) (mounts_root dr)) ∧
  deep_run dr (CInit [B "l/n"] (B "main")) calm (deep_enter home linked) = (Ok tt, wi) ∧ put_at dr p q wi ∧
  deep_run dr (CClone (B "w") (Some (B "l/n"))) calm (deep_enter home w1) = (Ok tt, w2) ∧ put_at dr p q w2 ∧
  let v := set_mounts w1 (disk :: w_mounts w1) in in_order dr v ∧ busy v tdir ∧ usual v home ∧ outside dr tdir.
Proof.
  pose proof through_test as H. apply andb_true_iff in H as [H Hc]. apply andb_true_iff in H as [H Hi]. apply andb_true_iff in H as [H S0]. apply andb_true_iff in H as [I0 O0].
  destruct (then_ok_inv _ _ Hi) as ([] & wi & Ei & _). clear Hi.
  destruct (then_ok_inv _ _ Hc) as ([] & w1 & E1 & H1). clear Hc. cbv beta in H1. destruct (then_ok_inv _ _ H1) as ([] & w2 & E2 & H2). clear H1. cbv beta in H2. apply andb_true_iff in H2 as [S1 T5]. apply clear_test_ok in T5.
  destruct (still_ok _ S0) as (Uh0 & _ & P0 & Th0 & C0). destruct (still_ok _ S1) as (Uh1 & Ut1 & P1 & Th1 & C1).
  destruct sample_plain as [P G]. destruct home_good as (Gh & Gw & Gc). assert (∀ k, k ≤ 40 → fits sample_dr k) as Fi by (intros k Hk; by apply sample_fits).
  assert (Fs.abs_from home (default (B ".") (head [B "w"])) = wdir) as Ah by (vm_compute; reflexivity).
  assert (outside sample_dr wdir) as Ow by (split; vm_compute; reflexivity). assert (outside sample_dr (tdir ++ [B "n"])) as Oq by (split; vm_compute; reflexivity).
  assert (real_path (w_fs linked) home ≠ Some (tdir ++ [B "n"])) as R0'. { rewrite (usual_real_dir _ _ Uh0). intros Q. vm_compute in Q. discriminate Q. }
  assert (abs_of (enter home linked) (default (B ".") (head [B "l/n"])) = ldir ++ [B "n"]) as Al by (vm_compute; reflexivity).
  pose proof (C97_init sample_dr linked home [B "l/n"] (B "main") calm (tdir ++ [B "n"])) as Q1. cbv zeta in Q1. rewrite Al in Q1.
  specialize (Q1 P G fair_calm linked_order C0 (or_introl Uh0) Oq P0 Th0 (λ Q, False_ind _ (R0' Q))). destruct Q1 as [_ Q1]. specialize (Q1 wi Ei).
  destruct (home_runs _ O0) as [R0 _].
  destruct (C89_empty sample_dr linked (λ _ _, None) linked_order) as [M0 D0].
  destruct (calm_snap (Vcs ∅ ∅) _ 1 home (CInit [B "w"] (B "main")) linked (Ok tt) w1 M0 D0 (le_n 1) (Fi 1 ltac:(lia)) I0) as (V1 & Sn1 & _ & [_ X1] & [_ A1] & M1 & D1).
  { split; [exact R0|]. cbv zeta. rewrite Ah. split; [split; [exact Ow|]|].
    - intros s Q. vm_compute in Q. discriminate Q.
    - intros m Hm. apply elem_of_nil in Hm. destruct Hm. }
  { exact I. }
  { exact E1. }
  destruct (X1 I eq_refl) as (F1 & pl & _ & Pl & _). clear X1. cbn [target_of] in Pl. rewrite Ah in Pl.
  pose proof (sn_models _ _ _ _ M1) as [Io (mids & _ & Hp)]. destruct (Hp _ _ Pl) as (_ & y & a & Wa & _). clear Hp M1 M0 A1 D0 D1.
  pose proof (mc_wf _ _ _ (io_machine _ _ Io)) as W. pose proof (wa_link _ _ _ _ _ _ _ Wa) as L. pose proof (clear_mount sample_dr w1 (mids wdir) Io C1) as Cd.
  pose proof (point_usual sample_dr w1 (mids wdir) G (wa_mount _ _ _ _ _ _ _ Wa) Cd) as Um.
  pose proof (link_usual_to w1 wdir _ Gw T5 L Um) as Uw.
  assert (real_path (w_fs w1) home ≠ Some (tdir ++ [B "n"])) as R1'. { rewrite (usual_real_dir _ _ Uh1). intros Q. vm_compute in Q. discriminate Q. }
  assert (getwd_of (enter home w1) = home) as Eg by (exact (proj2 (proj2 (enter_usual w1 home W (or_introl Uh1))))).
  assert (abs_of (enter home w1) (B "w") = wdir) as Aw1. { unfold abs_of. change (is_abs (B "w")) with false. cbv iota. rewrite Eg. vm_compute. reflexivity. }
  assert (abs_of (enter home w1) (default (B ".") (Some (B "l/n"))) = ldir ++ [B "n"]) as Ac1. { unfold abs_of. change (is_abs (default (B ".") (Some (B "l/n")))) with false. cbv iota. rewrite Eg. vm_compute. reflexivity. }
  pose proof (C97_clone sample_dr w1 home (B "w") (Some (B "l/n")) calm (tdir ++ [B "n"])) as Q2. cbv zeta in Q2. rewrite Aw1, Ac1 in Q2.
  specialize (Q2 P G fair_calm Io C1 (or_introl Uh1) Uw Oq P1 Th1 (λ Q, False_ind _ (R1' Q))). destruct Q2 as [_ Q2]. specialize (Q2 w2 E2).
  exists wi, w1, w2. cbv zeta. split; [|split; [|split; [exact Ei|split; [exact Q1|split; [exact E2|split; [exact Q2|]]]]]].
  - split; [exact linked_order|]. split; [left; exact Uh0|]. split; [exact P0|]. split; [exact Th0|]. split; [exact Oq|]. intros Q. vm_compute in Q. discriminate Q.
  - split; [exact Io|]. split; [left; exact Uh1|]. split; [exact Uw|]. split; [exact P1|]. split; [exact Th1|exact C1].
  - split; [apply busy_order; [vm_compute; reflexivity|exact Io]|]. split; [|split].
    + split; [apply disk_dir; [left; reflexivity|exact Ut1]|]. split; [discriminate|]. exists disk. split; [cbn [w_mounts set_mounts]; left|reflexivity].
    + left. apply disk_dir; [right; vm_compute; reflexivity|exact Uh1].
    + split; vm_compute; reflexivity.
Qed.
(** An empty disk is mounted: init gets as far as its own mount. *)
Example C97_leaves : match deep_run sample_dr (CInit [B "t"] (B "main")) calm (deep_enter home (set_mounts linked [disk])) with
  | (Err EBUSY, w') => bool_decide (length (w_mounts w') = 2 ∧ children (w_fs w') (mounts_root sample_dr) ≠ [] ∧ children (w_fs w') (spaces_root sample_dr) ≠ [])
  | _ => false
  end = true.
Proof. vm_compute. reflexivity. Qed.
