(** * PropsCommitted: what may happen to the content of commits (C42, C43, C44) *)
From Verif Require Import Base Uid SpecUid UidProofs Tree SpecTree TreeRefine TreeObs Dump DumpProofs Json JsonProofs Save SaveProofs Branch BranchProofs Date Ws SpecWs WsProofs
  Fs Overlay Os Layers Mounts Space Manager Commands Sample FsProofs OsProofs LayerProofs MountProofs SpaceProofs ManagerProofs SpecWorld SpecOps SavedProofs FaultProofs ReadyProofs OpProofs CalmProofs
  SpecMachine SpecCmds SpecTidy DetProofs MachineProofs OpenProofs CmdProofs SampleProofs ExpandProofs TidyProofs Story StoryProofs PropsBranch PropsCommit PropsCmds PropsShow.
From Coq Require Import Lia.
From stdpp Require Import prelude gmap.

Lemma fresh_tidy dr w : fresh_machine dr w → machine dr (w_fs w) (w_mounts w) ∧ tidy dr w.
Proof.
  intros [W N1 N2 N3]. split; [apply machine_fresh; [done..|]; intros m Hm; by apply N3|]. constructor.
  - intros sid a c p m _ _ Hm. by apply N3.
  - intros mid y hid E. unfold ws_file in E. by rewrite N1 in E.
  - intros m id Hm E. destruct (N3 m Hm) as [_ Q]. by destruct (Q id).
Qed.
Lemma chain_parents a c p ch : SpecTree.parent_of a c p → chain a p ch → ∀ i, i ∈ ch → ∃ c', SpecTree.parent_of a c' i.
Proof.
  intros Hp C. revert c Hp. induction C as [p|p q l Hq C IH]; intros c Hp i Hi.
  - apply elem_of_list_singleton in Hi as ->. eauto.
  - apply elem_of_cons in Hi as [->|Hi]; [eauto|]. by eapply IH.
Qed.
Lemma commit_frozen dr w sid p ch : machine dr (w_fs w) (w_mounts w) → tidy dr w → commit_in dr (w_fs w) sid p ch → Forall (frozen dr w) ch.
Proof.
  intros Mc [T1 _ _] (a & c & H & Hp & C). apply Forall_forall. intros i Hi. destruct (chain_parents _ _ _ _ Hp C i Hi) as [c' Hc].
  destruct (machine_present _ _ _ _ Mc H) as [LP Ro]. split; [apply LP; by eapply ro_parent|]. intros m Hm. by eapply T1.
Qed.
Lemma frozen_content dr w w' ch k : layers_kept dr w w' → Forall (frozen dr w) ch → content dr (w_fs w') ch k = content dr (w_fs w) ch k.
Proof. intros K F. apply content_same. eapply Forall_impl; [exact F|]. intros i Fi. by apply K. Qed.

(** ** C42 *)
(** If no operation stopped half way so far, then whatever happens from now on, including faults, killed
    processes and failing unmounts, changes no commit there is now: neither its content nor, if its layers
    can still be read, any single layer. *)
Theorem C42_committed_partial : ∀ dr w0 w w' sid p ch, plain_path dr → good_path dr → fresh_machine dr w0 → rtc (good_step dr) w0 w →
  commit_in dr (w_fs w) sid p ch → rtc (step dr) w w' →
  (∀ k, content dr (w_fs w') ch k = content dr (w_fs w) ch k) ∧ Forall (same_layer dr (w_fs w) (w_fs w')) ch.
Proof.
  intros dr w0 w w' sid p ch P G Fr H Hc Hs. destruct (fresh_tidy _ _ Fr) as [Mc0 Ti0]. destruct (tidy_steps _ _ _ P G Mc0 Ti0 H) as [Mc Ti].
  destruct (steps_orderly _ _ _ P G Mc Hs) as [_ K]. pose proof (commit_frozen _ _ _ _ _ Mc Ti Hc) as Fz.
  split; [intros k; by apply frozen_content|]. eapply Forall_impl; [exact Fz|]. intros i Fi. by apply K.
Qed.
(** The layer that a successful commit closes is a commit of this kind: [hid] has the new working layer as
    child, so the theorem above covers it from then on. *)
Theorem C42_commit_closes : ∀ dr msg o w w', plain_path dr → good_path dr → fair o → machine dr (w_fs w) (w_mounts w) → outside dr (abs_of w (B ".")) →
  run_cmd dr (CCommit msg) o w = (Ok tt, w') →
  ∃ x hid ch, found_at dr w (B ".") x hid ∧ (is_dir_at (w_fs w) (merged_dir dr (mv_id (ws_mount x))) = true → commit_in dr (w_fs w') (sp_id (ws_space x)) hid ch).
Proof.
  intros dr msg o w w' P G F Mc Ho H.
  destruct (cmd_settles dr (CCommit msg) o w w' P G F Mc I Ho H) as (x & hid & a & op & (Fa & Sx & Hd & LP & Hh & Ro) & (now & Hop) & y & mid & id & ch & a' & base & [Bg N3 N4 Dn] & Ep).
  injection Hop as ->. exists x, hid, ch. split; [exact Fa|]. intros L2. destruct (Dn (or_intror L2)) as ((m & St & Hm) & _).
  pose proof Bg as [B1 B2 B3 B4 B5 B6 B7 B8]. pose proof (se_tree _ _ _ _ _ _ _ _ St) as Ht. rewrite B5, (the_space_ok _ _ Sx) in Ht.
  cbn [based_on] in B1. subst base. exists (san_tree a'). destruct B3 as (n & id' & En & Ei & Ha). exists id'. split; [done|]. split.
  - apply san_parent. cbv zeta in Ha. exists (ANode (Some hid) ∅ ∅). split; [|done]. destruct Ha as [[_ ->]|(_ & -> & _)]; cbn; by rewrite lookup_insert.
  - apply san_chain. cbv zeta in Ha. eapply chain_mono; [..|exact B2].
    + intros c q (nc & E & Eq). assert (c ≠ id') as Nc by (intros ->; congruence).
      assert (∃ nc', (<[id' := ANode (Some hid) ∅ ∅]> (<[hid := committed n (Some (fmt_rfc3339 (ch_time (o now)))) msg]> (a_nodes a))) !! c = Some nc' ∧ an_parent nc' = Some q) as Q.
      { rewrite lookup_insert_ne by done. destruct (decide (c = hid)) as [->|Nh]; [rewrite lookup_insert|rewrite lookup_insert_ne by done; eauto].
        eexists. split; [done|]. cbn. congruence. }
      destruct Ha as [[_ ->]|(_ & -> & _)]; exact Q.
    + intros c (nc & E & Eq). assert (c ≠ id') as Nc by (intros ->; congruence).
      assert (∃ nc', (<[id' := ANode (Some hid) ∅ ∅]> (<[hid := committed n (Some (fmt_rfc3339 (ch_time (o now)))) msg]> (a_nodes a))) !! c = Some nc' ∧ an_parent nc' = None) as Q.
      { rewrite lookup_insert_ne by done. destruct (decide (c = hid)) as [->|Nh]; [rewrite lookup_insert|rewrite lookup_insert_ne by done; eauto].
        eexists. split; [done|]. cbn. congruence. }
      destruct Ha as [[_ ->]|(_ & -> & _)]; exact Q.
Qed.

(** ** C44 *)
(** One command, with any faults and any result: the commits there were before it are as before. *)
Theorem C44_older_commits : ∀ dr c o w r w' sid p ch, plain_path dr → good_path dr → fair o → machine dr (w_fs w) (w_mounts w) → tidy dr w →
  (writes_path c → outside dr (abs_of w (cmd_target c))) → run_cmd dr c o w = (r, w') → commit_in dr (w_fs w) sid p ch →
  ∀ k, content dr (w_fs w') ch k = content dr (w_fs w) ch k.
Proof.
  intros dr c o w r w' sid p ch P G F Mc Ti Ho H Hc k. destruct (cmd_any _ _ _ _ _ _ P G F Mc Ho H) as [[_ S _] _]. apply safe_kept in S; [|apply Mc].
  apply frozen_content; [done|]. by eapply commit_frozen.
Qed.
(** Checkout of a committed layer, with any faults and any result: every commit there is afterwards has the
    content that its layers had before. So for checkout the claim holds. *)
Theorem C44_checkout_partial : ∀ dr key o w r w' sid p ch, plain_path dr → good_path dr → fair o → machine dr (w_fs w) (w_mounts w) → tidy dr w →
  outside dr (abs_of w (B ".")) → ref_committed dr (CCheckout key) w → run_cmd dr (CCheckout key) o w = (r, w') → commit_in dr (w_fs w') sid p ch →
  ∀ k, content dr (w_fs w') ch k = content dr (w_fs w) ch k.
Proof.
  intros dr key o w r w' sid p ch P G F Mc Ti Ho Hr H (a' & c & Ha & Hp & C) k. destruct (cmd_any dr (CCheckout key) o w r w' P G F Mc (λ _, Ho) H) as [[Mc' S _] Ct].
  apply safe_kept in S; [|apply Mc]. apply frozen_content; [done|]. apply Forall_forall. intros i Hi. destruct (chain_parents _ _ _ _ Hp C i Hi) as [c' Hc]. clear Hp C Hi c.
  pose proof Ti as [T1 _ _].
  assert (∀ b, holds (w_fs w) (the_space dr sid) b → SpecTree.parent_of b c' i → frozen dr w i) as Old.
  { intros b Hb Hp. destruct (machine_present _ _ _ _ Mc Hb) as [LP Ro]. split; [apply LP; by eapply ro_parent|]. intros m Hm. by eapply T1. }
  destruct Ct as [[_ E]|(x & s & hid & a & l & n & a1 & Fa & Sx & Hb & -> & Hn & _ & Hop & Hh & E)]; [apply (Old a'); [unfold holds in *; by rewrite <-E|done]|].
  destruct (decide (sid = s)) as [->|Ns]; [|apply (Old a'); [unfold holds in *; by rewrite <-E|done]].
  destruct Hh as [Hh|(_ & _ & raw & Q1 & Q2)]; [|destruct Ha as (raw' & E' & L); rewrite Q1 in E'; injection E' as <-; by destruct (torn_not_loads raw a' Q2 L)].
  pose proof (holds_det _ _ _ _ Ha Hh) as ->. apply (proj1 (san_parent _ c' i)) in Hc.
  destruct n as [|n]; cbn [take op_all] in Hop; [subst a1; by apply (Old a)|]. rewrite take_nil in Hop. destruct Hop as (a2 & Ho1 & ->).
  destruct (op_parents _ _ _ _ _ _ _ Ho1 Hc) as [Q|Q]; [by apply (Old a)|]. cbn [based_on] in Q.
  destruct (machine_present _ _ _ _ Mc Hb) as [LP Ro]. split; [apply LP; by eapply resolve_has|].
  intros m Hm Hw. eapply (Hr key x hid a i m); try done. by rewrite Sx.
Qed.

Print Assumptions C42_committed_partial.
Print Assumptions C42_commit_closes.
Print Assumptions C44_older_commits.
Print Assumptions C44_checkout_partial.

(** ** Concrete cases *)
Lemma sample_fresh : fresh_machine sample_dr sample_world.
Proof.
  constructor; [exact sample_wf| | |].
  - intros n. apply no_children_ok. vm_compute. reflexivity.
  - intros n. apply no_children_ok. vm_compute. reflexivity.
  - intros m Hm. by apply elem_of_nil in Hm.
Qed.
Definition good_event (e : event) : Prop :=
  match e with Do o _ c => fair o ∧ honest o ∧ ∀ key, c ≠ CCheckout key | Put _ _ _ => True end.
Lemma story_good dr l : Forall good_event l → ∀ w bs w', story_test dr l w = true → story dr l w = (bs, w') → forallb id bs = true → rtc (good_step dr) w w'.
Proof.
  intros F. induction F as [|[o d c|p n data] l Fe F IH]; intros w bs w' H E Hr; cbn [story_test story] in *; [injection E as <- <-; constructor| |]; apply andb_true_iff in H as [H1 H2].
  - apply outside_test_ok in H1. cbv zeta in E. destruct (run_cmd dr c o (enter d w)) as [r w1] eqn:E1. cbn [fst snd] in *.
    destruct (story dr l w1) as [bs' w2] eqn:E2. cbn [fst snd] in E. injection E as <- <-. cbn [forallb] in Hr.
    apply andb_true_iff in Hr as [Ok Hr]. apply rtc_l with w1; [|by eapply IH]. assert (same_disk w (enter d w)) as Sd by done. destruct Fe as (F1 & F2 & F3).
    destruct r as [[]| | | |]; try done. eapply gs_cmd; [exact Sd|exact F1|exact F2|by intros _| |exact E1]. intros key x hid a base m Q. by destruct (F3 key).
  - destruct (put w p n data) as [w1|] eqn:E1; cbv zeta in *; cbn [fst snd default] in *.
    + destruct (story dr l w1) as [bs' w2] eqn:E2. cbn [fst snd] in E. injection E as <- <-. cbn [forallb] in Hr. apply andb_true_iff in Hr as [_ Hr].
      apply rtc_l with w1; [|by eapply IH]. apply gs_user. by eapply put_step.
    + destruct (story dr l w) as [bs' w2] eqn:E2. cbn [fst snd] in E. injection E as <- <-. done.
Qed.
Definition first_commit : list event :=
  [Do calm home (CInit [B "w"] (B "main")); Put wdir (B "f") (B "one")].
Lemma honest_calm : honest calm.
Proof. intros n k. done. Qed.
Lemma first_commit_test : story_test sample_dr first_commit sample_world = true.
Proof. vm_compute. reflexivity. Qed.
Lemma second_test : told sample_dr first_commit sample_world [true; true] (λ w1,
   bool_decide (abs_of (enter wdir w1) (B ".") = wdir) &&
   then_ok (run_cmd sample_dr (CCommit (B "one")) calm (enter wdir w1)) (λ _ w2,
     put_test sample_dr w2 wdir (B "f") (B "two") && then_some (put w2 wdir (B "f") (B "two")) (λ w3,
       bool_decide (shown w2 wdir (B "f") = Some (B "one") ∧ shown w3 wdir (B "f") = Some (B "two"))))) = true.
Proof. vm_compute. reflexivity. Qed.
Lemma first_commit_good : Forall good_event first_commit.
Proof. apply Forall_cons. split; [split; [exact fair_calm|split; [exact honest_calm|intros key Q; discriminate Q]]|]. apply Forall_singleton. exact I. Qed.
(** A file is written and committed; then the user changes it, and the commit does not change. *)
Example C42_sat : ∃ w w' sid p ch, rtc (good_step sample_dr) sample_world w ∧ commit_in sample_dr (w_fs w) sid p ch ∧ rtc (step sample_dr) w w' ∧
  shown w wdir (B "f") = Some (B "one") ∧ shown w' wdir (B "f") = Some (B "two").
Proof.
  destruct sample_plain as [P G]. destruct (told_inv _ _ _ _ _ second_test) as (w1 & E1 & H).
  pose proof (story_good sample_dr first_commit first_commit_good sample_world [true; true] w1 first_commit_test E1 eq_refl) as R1. clear E1.
  apply andb_true_iff in H as [H1 H3]. apply bool_decide_eq_true in H1.
  destruct (then_ok_inv _ _ H3) as ([] & w2 & E & H4). clear H3. apply andb_true_iff in H4 as [H4 H5]. apply then_some_inv in H5 as (w3 & E3 & H5). apply bool_decide_eq_true in H5 as [H5 H6].
  destruct (tidy_steps _ _ _ P G sample_machine (proj2 (fresh_tidy _ _ sample_fresh)) R1) as [Mc Ti].
  assert (good_step sample_dr w1 w2) as S2.
  { assert (same_disk w1 (enter wdir w1)) as Sd by (split; reflexivity). apply (gs_cmd sample_dr w1 w2 (CCommit (B "one")) calm (enter wdir w1) Sd fair_calm honest_calm); [| |exact E].
    - intros _. change (cmd_target (CCommit (B "one"))) with (B "."). rewrite H1. exact sample_outside.
    - intros key x hid a base m Q. discriminate Q. }
  destruct (C42_commit_closes sample_dr (B "one") calm (enter wdir w1) w2 P G fair_calm Mc ltac:(rewrite H1; exact sample_outside) E) as (x & hid & ch & Fa & Cm). clear E.
  exists w2, w3, (sp_id (ws_space x)), hid, ch. split; [exact (rtc_r _ _ _ R1 S2)|]. split; [|split; [exact (rtc_once _ _ (step_user _ _ _ (put_step _ _ _ _ _ _ H4 E3)))|exact (conj H5 H6)]].
  apply Cm. destruct (fa_info _ _ _ _ _ Fa) as (y & I1 & _). by destruct (ti_info _ _ Ti _ _ _ I1) as (_ & D & _).
Qed.

(** ** Counterexamples *)
Definition cdir : path := [B "h"; B "c"].
Definition physical (w : world) (p : path) : path := match mount_of w p with Some m => mn_at m | None => [] end.
Definition plain_tag (n ref : bytes) : command := CTag (TagOpts false false false) [n; ref].
(** The workspace is entered by the path of its mount, as a shell does after [cd -P]: commit closes the layer
    in the saved tree and then fails, because the mount point is busy. The old mount goes on writing to the
    layer of the commit: what another workspace sees that has checked out this commit changes with every
    write in the first one. No system call failed for an outside reason. *)
Theorem C42_any_commands_refuted : told sample_dr first_commit sample_world [true; true] (λ w1,
  told sample_dr
    [Do calm (physical w1 wdir) (CCommit (B "m")); Do calm home (CClone (B "w") (Some (B "c"))); Do calm wdir (plain_tag (B "v1") (B "main")); Do calm cdir (CCheckout (B "v1"))]
    w1 [false; true; true; true] (λ w2, bool_decide (shown w2 cdir (B "f") = Some (B "one")) &&
  told sample_dr [Put wdir (B "f") (B "two")] w2 [true] (λ w3, bool_decide (shown w3 cdir (B "f") = Some (B "two"))))) = true.
Proof. vm_compute. reflexivity. Qed.
(** The same with the normal path, when the mount call of the commit fails. *)
Theorem C42_failed_mount_refuted : ∃ k, told sample_dr first_commit sample_world [true; true] (λ w1,
  told sample_dr
    [Do (with_fault calm (k + w_tick w1) (FFail EIO 0)) wdir (CCommit (B "m")); Do calm home (CClone (B "w") (Some (B "c"))); Do calm wdir (plain_tag (B "v1") (B "main")); Do calm cdir (CCheckout (B "v1"))]
    w1 [false; true; true; true] (λ w2, bool_decide (shown w2 cdir (B "f") = Some (B "one")) && bool_decide (length (w_mounts w2) = 2) &&
  told sample_dr [Put wdir (B "f") (B "two")] w2 [true] (λ w3, bool_decide (shown w3 cdir (B "f") = Some (B "two"))))) = true.
Proof. exists 24. vm_compute. reflexivity. Qed.

(** ** C43 *)
(** The working layer of another workspace is accepted as a reference, though nobody committed it: what the
    checkout shows changes when the user of the other workspace writes. [BQGA...] is the ID of the working
    layer of /h/w. *)
Theorem C43_references_refuted : told sample_dr first_commit sample_world [true; true] (λ w1,
  told sample_dr [Do calm home (CClone (B "w") (Some (B "c"))); Do calm cdir (CCheckout (B "BQGAYDAMBQGAYDAMBQGAYDAMBQ"))] w1 [true; true] (λ w2,
    bool_decide (shown w2 cdir (B "f") = Some (B "one")) &&
  told sample_dr [Put wdir (B "f") (B "two")] w2 [true] (λ w3, bool_decide (shown w3 cdir (B "f") = Some (B "two"))))) = true.
Proof. vm_compute. reflexivity. Qed.
(** ... and so by tag and by branch, which accept the same references. *)
Theorem C43_tags_refuted : told sample_dr first_commit sample_world [true; true] (λ w1,
  told sample_dr [Do calm home (CClone (B "w") (Some (B "c"))); Do calm wdir (plain_tag (B "v1") (B "BQGAYDAMBQGAYDAMBQGAYDAMBQ")); Do calm cdir (CCheckout (B "v1"))] w1 [true; true; true] (λ w2,
    bool_decide (shown w2 cdir (B "f") = Some (B "one")) &&
  told sample_dr [Put wdir (B "f") (B "two")] w2 [true] (λ w3, bool_decide (shown w3 cdir (B "f") = Some (B "two"))))) = true.
Proof. vm_compute. reflexivity. Qed.

(** ** C44 *)
(** The unmount of the old mount fails during commit, because a process still uses it. The directory of the old
    mount is then removed recursively through the mount that is still there, which empties the layer that
    was just committed: the file is gone, though log lists the commit. *)
Theorem C44_failed_unmount_refuted : ∃ k, told sample_dr first_commit sample_world [true; true] (λ w1, bool_decide (shown w1 wdir (B "f") = Some (B "one")) &&
  told sample_dr [Do (with_fault calm (k + w_tick w1) (FFail EBUSY 0)) wdir (CCommit (B "m")); Do calm wdir (CLog [])] w1 [false; true] (λ w2,
    bool_decide (shown w2 wdir (B "f") = None) && bool_decide (B "    m" ∈ w_out w2) && bool_decide (is_Some (mount_at (w_mounts w2) (physical w1 wdir))))) = true.
Proof. exists 35. vm_compute. reflexivity. Qed.
Print Assumptions C42_any_commands_refuted.
Print Assumptions C42_failed_mount_refuted.
Print Assumptions C43_references_refuted.
Print Assumptions C43_tags_refuted.
Print Assumptions C44_failed_unmount_refuted.
