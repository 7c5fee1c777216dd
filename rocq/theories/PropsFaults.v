(** * PropsFaults: what faults may do to the history, to the workspace path and to the user's files
    (C46, C47, C49, C50, C51) *)
From Verif Require Import Base Uid SpecUid UidProofs Tree SpecTree TreeRefine TreeObs Dump DumpProofs Json JsonProofs Save SaveProofs Branch BranchProofs Date Ws SpecWs WsProofs
  Fs Overlay Os Layers Mounts Space Manager Commands Sample FsProofs OsProofs LayerProofs MountProofs SpaceProofs ManagerProofs SpecWorld SpecOps SavedProofs FaultProofs ReadyProofs OpProofs CalmProofs
  SpecMachine SpecCmds SpecTidy DetProofs MachineProofs OpenProofs CmdProofs SampleProofs ExpandProofs TidyProofs UserProofs Story StoryProofs PropsBranch PropsCommit PropsCmds PropsShow PropsCommitted.
From Coq Require Import Lia.
From stdpp Require Import prelude gmap.

(** ** C46 *)
(** Everything of history [a] is in [a']: the nodes with their parents, and what was written down with a node,
    unless it is the working layer [hid], which a commit changes. *)
Definition keeps_history (hid : uid) (a a' : atree) : Prop :=
  ∀ id n, a_nodes a !! id = Some n → ∃ n', a_nodes a' !! id = Some n' ∧ an_parent n' = an_parent n ∧ (id ≠ hid → n' = n).
Lemma keeps_history_refl hid a : keeps_history hid a a.
Proof. intros id n E. eauto. Qed.
Lemma keeps_history_trans hid a b c : keeps_history hid a b → keeps_history hid b c → keeps_history hid a c.
Proof.
  intros H1 H2 id n E. destruct (H1 _ _ E) as (n1 & E1 & P1 & Q1). destruct (H2 _ _ E1) as (n2 & E2 & P2 & Q2).
  exists n2. split; [done|]. split; [congruence|]. intros Ne. rewrite Q2, Q1 by done. done.
Qed.
Lemma keeps_history_same hid a a' : a_nodes a' = a_nodes a → keeps_history hid a a'.
Proof. intros E id n H. rewrite E. eauto. Qed.
Lemma keeps_history_add hid a id n : a_nodes a !! id = None → keeps_history hid a (plus_node a id n).
Proof. intros N i m H. exists m. cbn [plus_node a_nodes]. rewrite lookup_insert_ne; [done|]. intros ->. congruence. Qed.
Lemma keeps_history_put a id n n' : a_nodes a !! id = Some n → an_parent n' = an_parent n → keeps_history id a (plus_node a id n').
Proof.
  intros E P i m H. cbn [plus_node a_nodes]. destruct (decide (i = id)) as [->|Ne]; [|rewrite lookup_insert_ne by done; eauto].
  rewrite lookup_insert. exists n'. split; [done|]. split; [congruence|]. done.
Qed.
Lemma op_keeps_history x hid op a a' : op_tree x hid op a a' → keeps_history hid a a'.
Proof.
  destruct op; cbn [op_tree].
  - intros (id & _ & _ & ->). by apply keeps_history_same.
  - intros (_ & _ & ->). by apply keeps_history_same.
  - intros (id & _ & _ & ->). by apply keeps_history_same.
  - intros (_ & ->). by apply keeps_history_same.
  - intros (n & id & E & N & H).
    assert (keeps_history hid a (plus_node (plus_node a hid (committed n date msg)) id (ANode (Some hid) ∅ ∅))) as K.
    { eapply keeps_history_trans; [by eapply (keeps_history_put a hid n (committed n date msg))|]. apply keeps_history_add. cbn [plus_node a_nodes]. rewrite lookup_insert_ne; [done|]. intros ->. congruence. }
    destruct H as [[_ ->]|(_ & -> & _)]; [done|]. eapply keeps_history_trans; [exact K|]. by apply keeps_history_same.
  - intros (c & id & _ & N & ->). by apply keeps_history_add.
  - intros (c & id & _ & N & ->). by apply keeps_history_add.
Qed.
Lemma ops_keep_history x hid l : ∀ a a', op_all x hid l a a' → keeps_history hid a a'.
Proof.
  induction l as [|op l IH]; intros a a'; cbn [op_all]; [intros ->; apply keeps_history_refl|]. intros (a1 & H1 & H2).
  eapply keeps_history_trans; [by eapply op_keeps_history|by apply IH].
Qed.
Lemma keeps_history_san hid a b : san_tree a = a → keeps_history hid a b → keeps_history hid a (san_tree b).
Proof.
  intros Es H id n E. destruct (H _ _ E) as (n1 & E1 & P1 & Q1). exists (san_anode n1). unfold san_tree. cbn [a_nodes]. rewrite lookup_fmap, E1.
  split; [done|]. split; [by rewrite <-P1|]. intros Ne. rewrite (Q1 Ne). rewrite <-Es in E. unfold san_tree in E. cbn [a_nodes] in E. rewrite lookup_fmap in E.
  destruct (a_nodes a !! id) as [m|] eqn:Em; [|done]. cbn in E. destruct (H _ _ Em) as (n2 & E2 & _ & Q2). rewrite E1 in E2. injection E2 as <-. rewrite (Q1 Ne) in Q2.
  rewrite <-(Q2 Ne) in E. congruence.
Qed.
Lemma machine_san dr fs ms sid a : machine dr fs ms → holds fs (the_space dr sid) a → san_tree a = a.
Proof.
  intros Mc H. destruct (mc_tree _ _ _ Mc sid) as [N|[T|(b & Hb & _)]].
  - destruct H as (raw & E & _). congruence.
  - destruct H as (raw & E & L), T as (raw' & E' & T). rewrite E in E'. injection E' as <-. by destruct (torn_not_loads raw a T L).
  - pose proof (holds_det _ _ _ _ H Hb) as ->. apply san_idemp.
Qed.
(** One command, with any faults. If it succeeds, or if no write takes place partly, then every space that could
    be loaded can be loaded afterwards, and the history is still in it. *)
Theorem C46_history_partial : ∀ dr c o w r w' sid a, plain_path dr → good_path dr → fair o → machine dr (w_fs w) (w_mounts w) →
  (writes_path c → outside dr (abs_of w (cmd_target c))) → run_cmd dr c o w = (r, w') → r = Ok tt ∨ whole o →
  holds (w_fs w) (the_space dr sid) a →
  ∃ a', holds (w_fs w') (the_space dr sid) a' ∧
    (a' = a ∨ ∃ x hid, found_at dr w (cmd_source c) x hid ∧ ws_space x = the_space dr sid ∧ keeps_history hid a a').
Proof.
  intros dr c o w r w' sid a P G F Mc Ho H Hr Ha. destruct (cmd_any _ _ _ _ _ _ P G F Mc Ho H) as [_ Ct].
  assert (failed r → ¬ whole o → False) as Nt by (intros Fr Nw; destruct Hr as [->|Hw]; [by destruct (Fr tt)|done]).
  assert ((∀ s, fget (w_fs w') (tree_at dr s) = fget (w_fs w) (tree_at dr s)) → ∃ a', holds (w_fs w') (the_space dr sid) a' ∧ (a' = a ∨ ∃ x hid, found_at dr w (cmd_source c) x hid ∧ ws_space x = the_space dr sid ∧ keeps_history hid a a')) as Same.
  { intros E. exists a. split; [|by left]. unfold holds in *. by rewrite E. }
  assert (cmd_trees dr c o w r w' → ∃ a', holds (w_fs w') (the_space dr sid) a' ∧ (a' = a ∨ ∃ x hid, found_at dr w (cmd_source c) x hid ∧ ws_space x = the_space dr sid ∧ keeps_history hid a a')) as Main.
  { intros [[_ E]|(x & s & hid & b & l & k & b' & Fa & Sx & Hb & _ & _ & _ & Hop & Hh & E)]; [by apply Same|].
    destruct (decide (sid = s)) as [->|Ns]; [|exists a; split; [|by left]; unfold holds in *; by rewrite E].
    destruct Hh as [Hh|(Fr & Nw & _)]; [|by destruct (Nt Fr Nw)]. pose proof (holds_det _ _ _ _ Ha Hb) as <-.
    exists (san_tree b'). split; [done|]. right. exists x, hid. split; [done|]. split; [done|]. apply keeps_history_san; [by eapply machine_san|]. by eapply ops_keep_history. }
  destruct c; try by apply Main. destruct Ct as [[_ E]|(s & rid & id & wid & N & _ & _ & E)]; [by apply Same|].
  exists a. split; [|by left]. unfold holds in *. rewrite E; [done|]. intros ->. destruct Ha as (raw & Ea & _). apply (mc_wf _ _ _ Mc) in Ea. unfold is_dir_at in Ea. cbn [the_space sp_dir] in Ea. by rewrite N in Ea.
Qed.
(** What holds a tree can be loaded. *)
Theorem C46_loadable : ∀ sp a o w, fair o → no_faults o → holds (w_fs w) sp a → ∃ w', space_load sp o w = (Ok tt, w') ∧ repr (w_tree w') a.
Proof. intros sp a o w F N H. destruct (load_calm sp a o w F N H) as (t & k & E & R). eexists. split; [exact E|]. exact R. Qed.
Print Assumptions C46_history_partial.
Print Assumptions C46_loadable.
(** The process ends inside the write of the tree of a commit: after that no command works in the workspace any
    more, also when nothing else goes wrong. The first commit is lost. *)
Definition one_commit : list event := first_commit ++ [Do calm wdir (CCommit (B "one")); Do calm wdir (CLog [])].
Theorem C46_crash_refuted : ∃ k n, told sample_dr one_commit sample_world [true; true; true; true] (λ w1,
  told sample_dr [Do (with_fault calm (k + w_tick w1) (FKill n)) wdir (CCommit (B "two")); Do calm wdir (CLog []); Do calm wdir (CBranch (BranchOpts true false false false false false) []);
    Do calm wdir (CCommit (B "three")); Do calm home (CClone (B "w") (Some (B "c")))] w1 [false; false; false; false; false] (λ _, true)) = true.
Proof. exists 19, 5. vm_compute. reflexivity. Qed.
(** The same when the disk is full: the write fails after some bytes. *)
Theorem C46_full_disk_refuted : ∃ k n, told sample_dr one_commit sample_world [true; true; true; true] (λ w1,
  told sample_dr [Do (with_fault calm (k + w_tick w1) (FFail EIO n)) wdir (CCommit (B "two")); Do calm wdir (CLog []); Do calm wdir (CBranch (BranchOpts true false false false false false) []);
    Do calm wdir (CCommit (B "three")); Do calm home (CClone (B "w") (Some (B "c")))] w1 [false; false; false; false; false] (λ _, true)) = true.
Proof. exists 19, 5. vm_compute. reflexivity. Qed.
(** The same fault without a partial write: all commands work. *)
Example C46_whole : told sample_dr one_commit sample_world [true; true; true; true] (λ w1,
  told sample_dr [Do (with_fault calm (19 + w_tick w1) (FFail EIO 0)) wdir (CCommit (B "two")); Do calm wdir (CLog []); Do calm wdir (CCommit (B "three"))]
    w1 [false; true; true] (λ _, true)) = true.
Proof. vm_compute. reflexivity. Qed.
Print Assumptions C46_crash_refuted.
Print Assumptions C46_full_disk_refuted.

(** ** C49 *)
(** Whatever fails: if nothing is mounted below the directory of the mount afterwards, so the unmount succeeded, then
    only that directory and the file of the mount may have gone. *)
Theorem C49_nothing_else : ∀ dr x mid o w r w' q, machine dr (w_fs w) (w_mounts w) → ws_mount x = mounted_mount mid (mount_dir dr mid) →
  remove_mount dr x o w = (r, w') → mounts_below (w_mounts w') (mount_dir dr mid) = [] →
  is_prefix (mount_dir dr mid) q = false → q ≠ ws_file dr mid → fget (w_fs w') q = fget (w_fs w) q.
Proof.
  intros dr x mid o w r w' q Mc Ex H Hb H1 H2. destruct (remove_mount_cases _ _ _ _ _ _ _ Mc Ex H) as (_ & Hq & _). apply Hq; [done..|]. by apply none_below.
Qed.
(** If it succeeds, then the unmount did, and both are gone. *)
Theorem C49_removed : ∀ dr x mid o w w', machine dr (w_fs w) (w_mounts w) → ws_mount x = mounted_mount mid (mount_dir dr mid) →
  remove_mount dr x o w = (Ok tt, w') →
  mounts_below (w_mounts w') (mount_dir dr mid) = [] ∧
  (∀ q, is_prefix (mount_dir dr mid) q = true → fget (w_fs w') q = None) ∧ (honest o → fget (w_fs w') (ws_file dr mid) = None) ∧
  ∀ q, is_prefix (mount_dir dr mid) q = false → q ≠ ws_file dr mid → fget (w_fs w') q = fget (w_fs w) q.
Proof.
  intros dr x mid o w w' Mc Ex H. destruct (remove_mount_cases _ _ _ _ _ _ _ Mc Ex H) as (_ & _ & _ & Hr). destruct (Hr eq_refl) as (Hb & Hf & Hn).
  do 3 (split; [done|]). intros q. by eapply C49_nothing_else.
Qed.
(** The other mounts stay. *)
Theorem C49_other_mounts : ∀ dr x mid o w r w' p, machine dr (w_fs w) (w_mounts w) → ws_mount x = mounted_mount mid (mount_dir dr mid) →
  is_dir_at (w_fs w) (merged_dir dr mid) = true → remove_mount dr x o w = (r, w') → p ≠ merged_dir dr mid →
  mount_at (w_mounts w') p = mount_at (w_mounts w) p.
Proof.
  intros dr x mid o w r w' p Mc Ex D H Np. destruct (remove_mount_cases _ _ _ _ _ _ _ Mc Ex H) as (Hm & _). destruct Hm as [->|(q & Rq & ->)]; [done|].
  rewrite (real_dir _ _ D) in Rq. injection Rq as <-. by rewrite mount_at_drop.
Qed.
Print Assumptions C49_nothing_else.
Print Assumptions C49_removed.
Print Assumptions C49_other_mounts.
Lemma remove_test : told sample_dr first_commit sample_world [true; true] (λ w1,
  then_ok (get_workspace sample_dr (B "w") calm (enter home w1)) (λ x w2, then_ok (remove_mount sample_dr x calm w2) (λ _ w3,
    bool_decide (length (w_mounts w2) = 1 ∧ length (w_mounts w3) = 0)))) = true.
Proof. vm_compute. reflexivity. Qed.
Example C49_sat : ∃ x w w', machine sample_dr (w_fs w) (w_mounts w) ∧ ws_mount x = mounted_mount (mv_id (ws_mount x)) (mount_dir sample_dr (mv_id (ws_mount x))) ∧
  remove_mount sample_dr x calm w = (Ok tt, w') ∧ length (w_mounts w) = 1 ∧ length (w_mounts w') = 0.
Proof.
  destruct sample_plain as [P G]. destruct (told_inv _ _ _ _ _ remove_test) as (w1 & E1 & H).
  pose proof (story_good sample_dr first_commit first_commit_good sample_world [true; true] w1 first_commit_test E1 eq_refl) as R1. clear E1.
  destruct (tidy_steps _ _ _ P G sample_machine (proj2 (fresh_tidy _ _ sample_fresh)) R1) as [Mc Ti].
  destruct (then_ok_inv _ _ H) as (x & w2 & E & H2). clear H. destruct (then_ok_inv _ _ H2) as ([] & w3 & E3 & H3). clear H2. apply bool_decide_eq_true in H3 as [H3 H4].
  assert (machine sample_dr (w_fs (enter home w1)) (w_mounts (enter home w1))) as Mc1 by exact Mc.
  destruct (get_workspace_any _ _ _ _ _ _ G fair_calm Mc1 E) as (a & hid & Lv & Fa). apply reader_get_workspace in E as (t & k & ->).
  exists x, (upd (enter home w1) (w_fs (enter home w1)) (w_mounts (enter home w1)) t k), w3. split; [exact Mc|]. split; [exact (fa_mount _ _ _ _ _ Fa)|]. split; [exact E3|]. exact (conj H3 H4).
Qed.

(** ** C47 *)
(** The part that replaces one mount by another, with any faults and any result *)
Lemma swap_path dr x op o w r w' a hid old m0 L : plain_path dr → good_path dr → fair o → machine dr (w_fs w) (w_mounts w) → live dr w x a hid →
  (∃ d m, op = OCommit d m) ∨ (∃ k, op = OCheckout k) → outside dr (ws_path x) → ws_mount x = mounted_mount old (mount_dir dr old) →
  is_dir_at (w_fs w) (merged_dir dr old) = true → mount_at (w_mounts w) (merged_dir dr old) = Some m0 → fget (w_fs w) (ws_path x) = Some L →
  (y <- run_op dr x op ;; expand y ;;; remove_mount dr x) o w = (r, w') →
  (fget (w_fs w') (ws_path x) = Some L ∧ mount_at (w_mounts w') (merged_dir dr old) = Some m0 ∧ is_dir_at (w_fs w') (merged_dir dr old) = true) ∨
  (fget (w_fs w') (ws_path x) = None ∧ mount_at (w_mounts w') (merged_dir dr old) = Some m0 ∧ failed r) ∨
  ∃ mid m, fget (w_fs w') (ws_path x) = Some (FLink (path_str (merged_dir dr mid))) ∧ mount_at (w_mounts w') (merged_dir dr mid) = Some m ∧ is_dir_at (w_fs w') (merged_dir dr mid) = true.
Proof.
  intros P G F Mc Lv Hop Ho Ex Do M0 HL H. pose proof (rd_space _ _ _ _ _ Lv) as S. pose proof (mc_wf _ _ _ Mc) as W.
  assert (∀ v, touches dr (ws_space x) w v → fget (w_fs v) (ws_path x) = Some L) as To.
  { intros v T. eapply to_old; [exact T|exact HL|]. intros [Q|(i & Q & _)]; revert Q.
    - unfold tree_file. rewrite S. unfold space_dir, spaces_root. rewrite <-!(app_assoc dr). by apply outside_ne.
    - unfold ws_file, mounts_root. rewrite <-!(app_assoc dr). by apply outside_ne. }
  apply bind_any in H as [(y & w1 & E & H)|(r1 & E & Fr1 & Fr)].
  2:{ apply (run_op_any _ _ _ _ _ _ _ a hid) in E as [T _]; [|done..]. left. split; [by apply To|]. rewrite (to_mounts _ _ _ _ T). split; [done|].
      apply is_dir_at_Some in Do as [b Do]. unfold is_dir_at. by rewrite (to_old _ _ _ _ T _ _ Do) by (by apply merged_not_own). }
  destruct (op_body _ _ _ _ _ _ _ _ _ F Mc Lv E) as ([O U] & _ & _).
  assert (match op with OClone p => p | _ => ws_path x end = ws_path x) as Ep by (by destruct Hop as [(d & m & ->)|(k & ->)]).
  assert ((∃ d m, op = OCommit d m) ∨ (∃ k, op = OCheckout k) ∨ (∃ p, op = OClone p)) as Hop' by tauto.
  pose proof E as E'. apply (op_mount _ _ _ _ _ _ _ a hid) in E' as (id' & a'' & Ns & Ey' & _ & _ & _); [|done..].
  apply (op_makes _ _ _ _ _ _ _ a hid) in E as (mid & id & ch & a' & Ma); [|done..].
  pose proof Ma as [A1 A2 A3 (base & Ab & Ac) A5 A6 A7 A8 A9 A10 A11 A12 _]. rewrite Ep in A7. rewrite Ep in Ey'.
  assert (mid ≠ old) as Ne.
  { intros ->. apply is_dir_at_Some in Do as [b Do]. apply W in Do. unfold is_dir_at in Do. by rewrite A2 in Do. }
  assert (merged_dir dr mid ≠ merged_dir dr old) as Nd by (intros Q; by apply mount_dir_inj in Q).
  assert (is_dir_at (w_fs w1) (diff_dir (layers_root dr) id) = true) as Du by exact (live_diff _ _ _ _ _ (rd_live _ _ _ _ _ A5)).
  assert (ch ≠ []) as NC by (intros ->; by apply chain_not_nil in Ac).
  assert (is_dir_at (w_fs w1) (merged_dir dr old) = true) as Do1.
  { apply is_dir_at_Some in Do as [b Do]. unfold is_dir_at. by rewrite (to_old _ _ _ _ A12 _ _ Do) by (by apply merged_not_own). }
  assert (∀ r2 w2, expand y o w1 = (r2, w2) → orderly dr w w2 ∧ is_dir_at (w_fs w2) (merged_dir dr old) = true ∧ mount_at (w_mounts w2) (merged_dir dr old) = Some m0 ∧
    (fget (w_fs w2) (ws_path x) = Some L ∨ fget (w_fs w2) (ws_path x) = None ∨
     (fget (w_fs w2) (ws_path x) = Some (FLink (path_str (merged_dir dr mid))) ∧ ∃ m, mount_at (w_mounts w2) (merged_dir dr mid) = Some m ∧ is_dir_at (w_fs w2) (merged_dir dr mid) = true)) ∧
    (r2 = Ok tt → fget (w_fs w2) (ws_path x) = Some (FLink (path_str (merged_dir dr mid))) ∧ ∃ m, mount_at (w_mounts w2) (merged_dir dr mid) = Some m ∧ is_dir_at (w_fs w2) (merged_dir dr mid) = true)) as Ex1.
  { intros r2 w2 E. rewrite <-A7 in Ho. destruct (expand_after _ _ _ _ _ _ _ _ P G Mc O U Ns Ho E) as (O2 & _ & _). split; [done|].
    destruct (expand_full dr y mid id ch o w1 r2 w2 P G NC A1) as (I & Hp & Hk); [done|by apply (to_wf _ _ _ _ A12)|by eapply touches_merged|by eapply touches_merged|done|done|].
    pose proof I as [_ I2 _ _ I5 I6 _]. rewrite A7 in *. split_and!.
    - unfold is_dir_at in *. rewrite I2; [done|congruence| |].
      + intros Q. by apply app_inj_tail in Q as [_ Q].
      + intros Q. unfold mount_dir, mounts_root in Q. rewrite <-!app_assoc in Q. by eapply (outside_ne dr (ws_path x)).
    - rewrite (to_mounts _ _ _ _ A12) in *. destruct I6 as [->|(m & -> & Em & _)]; [done|]. unfold mount_at in *. rewrite filter_cons_False; [done|]. congruence.
    - rewrite (To _ A12) in *. destruct I5 as [I5|[I5|I5]]; [by left|right; by left|].
      destruct Hp as [Hp|(m & Em & Ea & Hd)]; [left; congruence|]. right. right. split; [done|]. exists m. split; [|done]. rewrite Em. by apply mount_at_cons.
    - intros ->. destruct (Hk eq_refl) as (m & Em & Ea & Hd & _ & Hf & _). split; [done|]. exists m. split; [|done]. rewrite Em. by apply mount_at_cons. }
  apply bind_any in H as [([] & w2 & E & H)|(r1 & E & Fr1 & Fr)].
  2:{ destruct (Ex1 _ _ E) as (_ & Q0 & Q1 & [Q2|[Q2|[Q2 (m & Q3 & Q4)]]] & _); [by left|right; by left|]. right. right. by exists mid, m. }
  destruct (Ex1 _ _ E) as (O2 & Do2 & Q1 & _ & Q2). destruct (Q2 eq_refl) as (Q3 & m & Q4 & Q5). clear Ex1 Q2. right. right. exists mid, m.
  destruct (remove_mount_cases _ _ _ _ _ _ _ (or_machine _ _ _ O2) Ex H) as (Hm & Hq & _).
  assert (∀ q, (∀ k, q ≠ (dr ++ [B "overlay"]) ++ k) → is_prefix (mount_dir dr old) q = false → q ≠ ws_file dr old → fget (w_fs w') q = fget (w_fs w2) q) as Hs.
  { intros q N1 N2 N3. apply Hq; [done..|]. intros (m' & u & Hm' & Hp & Hu & Hun). assert (m' ∈ w_mounts w2) as Hm2.
    { destruct Hm as [Q|(z & _ & Q)]; rewrite Q in Hm'; [done|]. by apply drop_mount_elem in Hm'. }
    destruct (mc_mounts _ _ _ (or_machine _ _ _ O2) m' Hm2) as [_ Ow]; [eapply is_prefix_trans; [|exact Hp]; apply is_prefix_app|].
    destruct (Ow u Hu) as (i & -> & _). apply under_spec in Hun as (k & _ & ->). unfold diff_dir, layer_dir, layers_root in N1. eapply N1. rewrite <-!app_assoc. reflexivity. }
  split_and!.
  - rewrite Hs; [done|..].
    + intros k Q. rewrite <-app_assoc in Q. by eapply outside_ne.
    + apply not_true_is_false. intros (k & Q)%mount_dir_prefix. rewrite <-app_assoc in Q. by eapply outside_ne.
    + intros Q. assert (vital dr (ws_file dr old)) as V by (right; left; by eexists). by apply (vital_outside _ _ _ V Ho).
  - destruct Hm as [->|(q & Rq & ->)]; [done|]. rewrite (real_dir _ _ Do2) in Rq. injection Rq as <-. by rewrite mount_at_drop by done.
  - unfold is_dir_at in *. rewrite Hs; [done|..].
    + intros k. unfold mount_dir, mounts_root. rewrite <-!(app_assoc (dr ++ _)). apply app_cons_ne. done.
    + by apply merged_other.
    + apply merged_info_ne.
Qed.

(** A workspace path that can be used: a link to a directory on which something is mounted *)
Definition usable (dr : path) (w : world) (p : path) : Prop :=
  ∃ mid m, fget (w_fs w) p = Some (FLink (path_str (merged_dir dr mid))) ∧ mount_at (w_mounts w) (merged_dir dr mid) = Some m ∧ is_dir_at (w_fs w) (merged_dir dr mid) = true.
(** Partial: the claim has one gap, between the removal of the old link and the creation of the new one. When the path is
    missing afterwards the command did not report success. What else may happen: nothing but these two. *)
Theorem C47_usable_partial : ∀ dr c o w r w', plain_path dr → good_path dr → fair o → machine dr (w_fs w) (w_mounts w) →
  match c with CCommit _ | CCheckout _ => True | _ => False end → outside dr (abs_of w (B ".")) →
  usable dr w (abs_of w (B ".")) → run_cmd dr c o w = (r, w') →
  usable dr w' (abs_of w (B ".")) ∨ (fget (w_fs w') (abs_of w (B ".")) = None ∧ failed r).
Proof.
  intros dr c o w r w' P G F Mc Hc Ho (old & m0 & U1 & U2 & U3) H.
  assert (∀ x op w1 a hid, found_at dr w (B ".") x hid → w_fs w1 = w_fs w → w_mounts w1 = w_mounts w → live dr w1 x a hid → (∃ d m, op = OCommit d m) ∨ (∃ k, op = OCheckout k) →
    (y <- run_op dr x op ;; expand y ;;; remove_mount dr x) o w1 = (r, w') → usable dr w' (abs_of w (B ".")) ∨ (fget (w_fs w') (abs_of w (B ".")) = None ∧ failed r)) as Main.
  { intros x op w1 a hid Fa E1 E2 Lv Hop Hb. pose proof (fa_path _ _ _ _ _ Fa) as Ep. pose proof (fa_mount _ _ _ _ _ Fa) as Em.
    pose proof (fa_link _ _ _ _ _ Fa old) as El. rewrite Ep in El. specialize (El Ho U1). rewrite El in Em.
    destruct (swap_path dr x op o w1 r w' a hid old m0 (FLink (path_str (merged_dir dr old))) P G F) as [(Q1 & Q2 & Q3)|[(Q1 & Q2 & Q3)|(mid & m & Q1 & Q2 & Q3)]];
      rewrite ?E1, ?E2, ?Ep in *; try done.
    - left. by exists old, m0.
    - by right.
    - left. by exists mid, m. }
  destruct c as [| |msg|key| | |]; try done; cbn [run_cmd] in H.
  - unfold cmd_commit in H. apply bind_any in H as [(x & w1 & E & H)|(r1 & E & Fr1 & Fr)].
    2:{ apply reader_get_workspace in E as (t & k & ->). left. by exists old, m0. }
    destruct (get_workspace_any _ _ _ _ _ _ G F Mc E) as (a & hid & Lv & Fa). apply reader_get_workspace in E as (t & k & ->). rewrite bind_next in H.
    eapply (Main x (OCommit (Some (fmt_rfc3339 (ch_time (o k)))) msg) (tick (upd w (w_fs w) (w_mounts w) t k))); try done; [|by eauto]. destruct Lv as [A1 A2 A3 A4 A5]; by constructor.
  - unfold cmd_checkout in H. apply bind_any in H as [(x & w1 & E & H)|(r1 & E & Fr1 & Fr)].
    2:{ apply reader_get_workspace in E as (t & k & ->). left. by exists old, m0. }
    destruct (get_workspace_any _ _ _ _ _ _ G F Mc E) as (a & hid & Lv & Fa). apply reader_get_workspace in E as (t & k & ->).
    eapply (Main x (OCheckout key) (upd w (w_fs w) (w_mounts w) t k)); try done. by eauto.
Qed.
Print Assumptions C47_usable_partial.

Definition usable_test (dr : path) (mid : uid) (w : world) (p : path) : bool :=
  bool_decide (fget (w_fs w) p = Some (FLink (path_str (merged_dir dr mid)))) && is_dir_at (w_fs w) (merged_dir dr mid) && bool_decide (is_Some (mount_at (w_mounts w) (merged_dir dr mid))).
Lemma usable_test_ok dr mid w p : usable_test dr mid w p = true → usable dr w p.
Proof.
  unfold usable_test. intros [[Q1 Q2]%andb_true_iff Q3]%andb_true_iff. apply bool_decide_eq_true in Q1, Q3. destruct Q3 as [m Q3]. by exists mid, m.
Qed.
Lemma usable_first_test : told sample_dr first_commit sample_world [true; true] (λ w1, bool_decide (abs_of (enter wdir w1) (B ".") = wdir) && usable_test sample_dr (sample_id 10) w1 wdir) = true.
Proof. vm_compute. reflexivity. Qed.
(** The hypotheses hold for the workspace of [first_commit] at any command. *)
Example C47_sat : ∃ w, machine sample_dr (w_fs w) (w_mounts w) ∧ outside sample_dr (abs_of (enter wdir w) (B ".")) ∧ usable sample_dr (enter wdir w) (abs_of (enter wdir w) (B ".")).
Proof.
  destruct sample_plain as [P G]. destruct (told_inv _ _ _ _ _ usable_first_test) as (w1 & E1 & H).
  pose proof (story_good sample_dr first_commit first_commit_good sample_world [true; true] w1 first_commit_test E1 eq_refl) as R1. clear E1.
  destruct (tidy_steps _ _ _ P G sample_machine (proj2 (fresh_tidy _ _ sample_fresh)) R1) as [Mc Ti].
  apply andb_true_iff in H as [H1 H2]. apply bool_decide_eq_true in H1. exists w1. split; [exact Mc|]. rewrite H1. split; [exact sample_outside|].
  apply usable_test_ok in H2. exact H2.
Qed.
(** The process ends between the two calls: nothing is left at the path, and no command finds the workspace. *)
Theorem C47_gap_refuted : ∃ k, told sample_dr first_commit sample_world [true; true] (λ w1,
  usable_test sample_dr (sample_id 10) w1 wdir &&
  told sample_dr [Do (with_fault calm (k + w_tick w1) (FKill 0)) wdir (CCommit (B "m"))] w1 [false] (λ w2, bool_decide (fget (w_fs w2) wdir = None) &&
  told sample_dr [Do calm home (CClone (B "w") (Some (B "c"))); Do calm wdir (CLog [])] w2 [false; false] (λ _, true))) = true.
Proof. exists 30. vm_compute. reflexivity. Qed.
(** The same when only the creation of the link fails: the command reports the error and leaves the path empty. *)
Theorem C47_failed_link_refuted : ∃ k, told sample_dr first_commit sample_world [true; true] (λ w1,
  told sample_dr [Do (with_fault calm (k + w_tick w1) (FFail EIO 0)) wdir (CCommit (B "m"))] w1 [false] (λ w2, bool_decide (fget (w_fs w2) wdir = None))) = true.
Proof. exists 30. vm_compute. reflexivity. Qed.
Print Assumptions C47_gap_refuted.
Print Assumptions C47_failed_link_refuted.

(** ** C50 *)
(** A directory, or a link that leads to one *)
Definition dir_there (fs : files) (p : path) : Prop := ∃ q, real_path fs p = Some q ∧ is_dir_at fs q = true.
Definition extends (fs fs' : files) : Prop := ∀ p x, fget fs p = Some x → fget fs' p = Some x.
Lemma real_extends f fs fs' p q : extends fs fs' → real f fs p = Some q → real f fs' p = Some q.
Proof.
  intros H. revert p. induction f as [|f IH]; intros p; cbn [real]; destruct (fget fs p) as [[]|] eqn:E; try done; rewrite (H _ _ E); auto.
Qed.
Lemma dir_there_extends fs fs' p : extends fs fs' → dir_there fs p → dir_there fs' p.
Proof.
  intros H (q & R & D). exists q. split; [by eapply real_extends|]. apply is_dir_at_Some in D as [b D]. apply H in D. unfold is_dir_at. by rewrite D.
Qed.
Lemma dir_there_dir fs p : is_dir_at fs p = true → dir_there fs p.
Proof. intros D. exists p. split; [by apply real_dir|done]. Qed.
Lemma extends_refl fs : extends fs fs.
Proof. intros p x E. exact E. Qed.
Lemma extends_fset fs p x : fget fs p = None → extends fs (fset fs p x).
Proof. intros N q y E. rewrite fget_fset_ne; [done|]. congruence. Qed.
Lemma mkdir_all_extends todo : ∀ fs dn fs', mkdir_all_in fs dn todo = Ok fs' → extends fs fs' ∧ (is_dir_at fs dn = true → is_dir_at fs' (dn ++ todo) = true).
Proof.
  induction todo as [|n todo IH]; intros fs dn fs' H; cbn [mkdir_all_in] in H.
  - injection H as <-. rewrite app_nil_r. split; [intros p x Q; exact Q|intros Q; exact Q].
  - cbv zeta in H. replace (dn ++ n :: todo) with ((dn ++ [n]) ++ todo) by (by rewrite <-app_assoc). destruct (fget fs (dn ++ [n])) as [[]|] eqn:E; try done.
    + apply IH in H as [H1 H2]. split; [done|]. intros _. apply H2. unfold is_dir_at. by rewrite E.
    + apply IH in H as [H1 H2]. split.
      * intros q y Q. apply H1. by apply extends_fset.
      * intros _. apply H2. unfold is_dir_at. by rewrite fget_fset_eq.
Qed.
Lemma ensure_there p o w r w' : attempt (ensure_dir_mk p) o w = (Ok r, w') → (r = inl tt → dir_there (w_fs w') p) ∧ extends (w_fs w) (w_fs w').
Proof.
  intros H. apply attempt_ok in H as [([] & -> & H)|(e & -> & H)].
  - unfold ensure_dir_mk in H. apply bind_ok in H as (b & w1 & E & H). apply is_dir_ok in E as [-> Hb]. destruct b.
    + injection H as <-. split; [|apply extends_refl]. intros _. by apply Hb.
    + unfold os_mkdir, sys_atomic in H. destruct (ch_fault _) as [|? ?|[|?]]; try done. unfold mkdir_in in H. cbn [w_fs tick] in H.
      destruct (fget (w_fs w) p) eqn:E; [done|]. destruct (fget (w_fs w) (parent_dir p)) as [[]|]; try done. injection H as <-. cbn [w_fs set_fs]. split; [|by apply extends_fset].
      intros _. apply dir_there_dir. unfold is_dir_at. by rewrite fget_fset_eq.
  - split; [done|]. unfold ensure_dir_mk in H. apply bind_any in H as [(b & w1 & E & H)|(r1 & E & Fr1 & Fr)].
    + apply is_dir_ok in E as [-> Hb]. destruct b; [done|]. unfold os_mkdir, sys_atomic in H. destruct (ch_fault _) as [|? ?|[|?]]; try done; [|injection H as _ <-; apply extends_refl].
      unfold mkdir_in in H. cbn [w_fs tick] in H. destruct (fget (w_fs w) p) eqn:E; [injection H as _ <-; apply extends_refl|]. destruct (fget (w_fs w) (parent_dir p)) as [[]|]; try done; injection H as _ <-; apply extends_refl.
    + apply quiet_is_dir in E as (k & ->). apply extends_refl.
Qed.
(** The first Prepare of a manager, whatever fails *)
Theorem C50_first_prepare : ∀ dr s o w s' w', ms_once s = false → is_dir_at (w_fs w) [] = true → prepare dr s o w = (Ok (s', None), w') →
  dir_there (w_fs w') dr ∧ dir_there (w_fs w') (layers_root dr) ∧ dir_there (w_fs w') (spaces_root dr) ∧ dir_there (w_fs w') (mounts_root dr) ∧
  is_Some (ms_layers s') ∧ ms_once s' = true ∧ (ms_layers s = None → ms_layers s' = Some (layers_root dr)) ∧ extends (w_fs w) (w_fs w') ∧ w_mounts w' = w_mounts w.
Proof.
  intros dr s o w s' w' Hs Hr H. unfold prepare in H. rewrite Hs in H. apply bind_ok in H as ([s1 e] & w1 & E & H). injection H as <- -> ->. cbn [fst snd ms_once ms_layers].
  unfold do_prepare in E. apply bind_ok in E as (r1 & v1 & E1 & E).
  assert (∃ v, r1 = inl v ∧ dir_there (w_fs v1) dr ∧ extends (w_fs w) (w_fs v1) ∧ w_mounts v1 = w_mounts w) as (v & -> & D1 & X1 & M1).
  { destruct r1 as [v|e]; [|done]. exists v. split; [done|]. apply attempt_ok in E1 as [(v' & [= <-] & E1)|(e & [=] & _)].
    apply bind_ok in E1 as (b & v2 & Eb & E1). apply is_dir_ok in Eb as [-> Hb]. destruct b.
    - injection E1 as _ <-. split; [by apply Hb|]. split; [apply extends_refl|done].
    - unfold os_mkdir_all, sys in E1. destruct (ch_fault _) as [|? [|?]|[|?]]; try done. cbn [w_fs tick] in E1. destruct (mkdir_all_in (w_fs w) [] dr) as [f| | | |] eqn:Em; try done.
      injection E1 as _ <-. apply mkdir_all_extends in Em as [Q1 Q2]. split; [apply dir_there_dir; by apply Q2|]. done. }
  assert (∀ p r v v', attempt (ensure_dir_mk p) o v = (Ok r, v') → w_mounts v' = w_mounts v) as Hm.
  { intros p r v0 v0' Q. assert (w_mounts v0' = w_mounts v0) as Z; [|done]. unfold attempt in Q.
    destruct (ensure_dir_mk p o v0) as [r0 u] eqn:Q1. assert (u = v0') as -> by (by destruct r0; injection Q). clear Q. unfold ensure_dir_mk in Q1.
    apply bind_any in Q1 as [(b & w2 & E2 & Q1)|(r2 & E2 & _)]; [|apply quiet_is_dir in E2 as (k & ->); done].
    apply quiet_is_dir in E2 as (k & ->). destruct b; [by injection Q1 as _ <-|]. unfold os_mkdir, sys_atomic in Q1.
    destruct (ch_fault _) as [|? ?|[|?]]; try (by injection Q1 as _ <-); destruct (mkdir_in _ _); by injection Q1 as _ <-. }
  apply bind_ok in E as (r2 & v2 & E2 & E). destruct r2 as [[]|]; [|done]. cbv zeta in E. pose proof (Hm _ _ _ _ E2) as M2. apply ensure_there in E2 as [D2 X2]. specialize (D2 eq_refl).
  apply bind_ok in E as (r3 & v3 & E3 & E). destruct r3 as [[]|]; [|done]. pose proof (Hm _ _ _ _ E3) as M3. apply ensure_there in E3 as [D3 X3]. specialize (D3 eq_refl).
  apply bind_ok in E as (r4 & v4 & E4 & E). destruct r4 as [[]|]; [|done]. pose proof (Hm _ _ _ _ E4) as M4. apply ensure_there in E4 as [D4 X4]. specialize (D4 eq_refl).
  injection E as <- <-. cbn [ms_layers ms_once]. split; [|split; [|split; [|split; [done|split; [by destruct (ms_layers s); eexists|split; [done|split; [by intros ->|split; [|congruence]]]]]]]].
  - eapply dir_there_extends; [exact X4|]. eapply dir_there_extends; [exact X3|]. by eapply dir_there_extends.
  - eapply dir_there_extends; [exact X4|]. by eapply dir_there_extends.
  - by eapply dir_there_extends.
  - intros q y Q. by apply X4, X3, X2, X1.
Qed.
Print Assumptions C50_first_prepare.
(** On an empty disk it succeeds. *)
Example C50_runs : then_ok (prepare sample_dr (MState false None) calm (set_fs sample_world [([], FDir false)])) (λ s w,
  bool_decide (s.2 = None ∧ ms_layers s.1 = Some (layers_root sample_dr)) && is_dir_at (w_fs w) (mounts_root sample_dr)) = true.
Proof. vm_compute. reflexivity. Qed.
(** A second call after a failed first one reports success, and nothing is there: sync.Once. *)
Theorem C50_retry_refuted : ∃ o, then_ok (prepare sample_dr (MState false None) o (set_fs sample_world [([], FDir false)])) (λ s w,
  bool_decide (s.2 = Some EIO) && then_ok (prepare sample_dr s.1 calm w) (λ s' w', bool_decide (s'.2 = None ∧ ms_layers s'.1 = None) && negb (is_dir_at (w_fs w') sample_dr))) = true.
Proof. exists (with_fault calm 1 (FFail EIO 0)). vm_compute. reflexivity. Qed.
Print Assumptions C50_retry_refuted.

(** ** C51 *)
(** Outside the data root no command changes any file of the user except at its target path, whatever fails. *)
Theorem C51_other_files : ∀ dr c o w r w' q, plain_path dr → good_path dr → fair o → machine dr (w_fs w) (w_mounts w) →
  (writes_path c → outside dr (abs_of w (cmd_target c))) → run_cmd dr c o w = (r, w') →
  is_prefix dr q = false → q ≠ abs_of w (cmd_target c) → fget (w_fs w') q = fget (w_fs w) q.
Proof. intros dr c o w r w' q P G F Mc Ho H. by eapply cmd_away. Qed.
Lemma child_outside dr p n : outside dr p → is_prefix dr (p ++ [n]) = false.
Proof.
  intros [H1 H2]. apply not_true_is_false. rewrite is_prefix_spec. intros [k E]. destruct k as [|c k] using rev_ind.
  - rewrite app_nil_r in E. rewrite <-E in H2. by rewrite is_prefix_app in H2.
  - rewrite app_assoc in E. apply app_inj_tail in E as [E _]. rewrite E in H1. by rewrite is_prefix_app in H1.
Qed.
(** A directory with anything in it stays, with everything in it, and the command fails. *)
Theorem C51_directory : ∀ dr c o w r w' n, plain_path dr → good_path dr → fair o → machine dr (w_fs w) (w_mounts w) →
  match c with CInit _ _ | CClone _ _ => True | _ => False end → outside dr (abs_of w (cmd_target c)) →
  is_Some (fget (w_fs w) (abs_of w (cmd_target c) ++ [n])) → run_cmd dr c o w = (r, w') →
  is_dir_at (w_fs w') (abs_of w (cmd_target c)) = true ∧ (∀ k, k ≠ [] → fget (w_fs w') (abs_of w (cmd_target c) ++ k) = fget (w_fs w) (abs_of w (cmd_target c) ++ k) ∨ is_prefix dr (abs_of w (cmd_target c) ++ k) = true) ∧ failed r.
Proof.
  intros dr c o w r w' n P G F Mc Hc Ho [y Hn] H. set (p := abs_of w (cmd_target c)) in *.
  pose proof (cmd_away _ _ _ _ _ _ P G F Mc (λ _, Ho) H) as A. fold p in A.
  assert (is_dir_at (w_fs w') p = true) as D.
  { destruct (cmd_any _ _ _ _ _ _ P G F Mc (λ _, Ho) H) as [O _]. apply (mc_wf _ _ _ (or_machine _ _ _ O) p n y). rewrite A; [done|by apply child_outside|].
    intros Q. apply (f_equal length) in Q. rewrite app_length in Q. cbn in Q. lia. }
  split; [done|]. split.
  - intros k Hk. destruct (is_prefix dr (p ++ k)) eqn:Ep; [by right|]. left. apply A; [done|]. intros Q. apply (f_equal length) in Q. rewrite app_length in Q. destruct k; [done|]. cbn in Q. lia.
  - intros [] ->. destruct c as [args branch|source target|msg|key|opts args|opts args|args]; try done.
    + cbn [run_cmd] in H. unfold cmd_init in H. apply bind_ok in H as (p' & w1 & E & H). pose proof (abs_ok _ _ _ _ _ E) as Ep. apply quiet_abs in E as (k1 & ->).
      apply bind_ok in H as (b & w1 & E & H). apply quiet_is_exists in E as (k2 & ->).
      apply bind_ok in H as (b' & w1 & E & H). assert (quiet (if b : bool then d <- fs_is_empty_dir p';; ret (negb d) else ret false)) as Q by (quiet; apply quiet_is_empty_dir).
      apply Q in E as (k3 & ->). destruct b'; [done|]. apply bind_ok in H as (x & w1 & E & H). rewrite !upd_upd in E.
      destruct (create_settles dr p' branch o (upd w (w_fs w) (w_mounts w) (w_tree w) k3) x w1 w' P G F Mc) as (mid & rid & id & m & _ & St & Ep' & _); [by rewrite Ep|exact E|exact H|].
      pose proof (se_link _ _ _ _ _ _ _ _ St) as L. rewrite Ep', Ep in L. unfold is_dir_at in D. unfold p in D. cbn [cmd_target] in D. by rewrite L in D.
    + destruct (cmd_settles dr (CClone source target) o w w' P G F Mc I Ho H) as (x & hid & a & op & _ & _ & y' & mid & id & ch & a' & base & Ss & Ey).
      destruct (ss_done _ _ _ _ _ _ _ _ _ _ _ _ _ _ _ Ss (or_introl eq_refl)) as ((m & St & _) & _).
      pose proof (se_link _ _ _ _ _ _ _ _ St) as L. rewrite Ey in L. unfold is_dir_at in D. unfold p in D. by rewrite L in D.
Qed.
(** What init takes for a path in use: a file, a directory with something in it, or a link that leads to one *)
Definition in_use (w : world) (p : path) : Prop :=
  ∃ q y, real_path (w_fs w) p = Some q ∧ fget (w_fs w) q = Some y ∧ (is_dir_at (w_fs w) q = true → mount_at (w_mounts w) q = None ∧ children (w_fs w) q ≠ []).
(** Without faults, init changes nothing at all there. *)
Theorem C51_init : ∀ dr args branch o w r w', no_faults o → in_use w (abs_of w (default (B ".") (head args))) → run_cmd dr (CInit args branch) o w = (r, w') →
  failed r ∧ w_fs w' = w_fs w ∧ w_mounts w' = w_mounts w.
Proof.
  intros dr args branch o w r w' N (q & y & R & E & Hd) H. cbn [run_cmd] in H. unfold cmd_init in H.
  apply bind_any in H as [(p & w1 & E1 & H)|(r1 & E1 & Fr1 & Fr)]; [|apply quiet_abs in E1 as (k & ->); done].
  pose proof (abs_ok _ _ _ _ _ E1) as Ep. apply quiet_abs in E1 as (k1 & ->). rewrite <-Ep in R.
  unfold bind at 1 in H. unfold fs_is_exists, bind at 1, attempt, os_stat in H. rewrite look_fine in H by done. cbn [w_fs tick upd] in H. rewrite R, E in H. cbv beta iota in H. unfold ret at 1 in H. cbv beta iota in H.
  unfold bind at 1 in H. unfold bind at 1 in H. unfold fs_is_empty_dir, bind at 1, fs_is_dir, bind at 1, attempt, os_stat in H. rewrite look_fine in H by done. cbn [w_fs tick upd] in H. rewrite R, E in H. cbv beta iota in H.
  unfold ret at 1 in H. destruct y as [op|d|s|].
  - destruct Hd as [Hm Hc]; [unfold is_dir_at; by rewrite E|]. unfold bind at 1, attempt, os_readdir in H. rewrite look_fine in H by done. cbn [w_fs w_mounts tick upd] in H. rewrite R, E, Hm in H.
    destruct (children (w_fs w) q) as [|c l] eqn:Ec; [done|]. cbv beta iota in H. unfold ret in H. cbv beta iota in H. cbn [negb] in H. injection H as <- <-. done.
  - unfold ret in H. cbn [negb] in H. injection H as <- <-. done.
  - unfold ret in H. cbn [negb] in H. injection H as <- <-. done.
  - unfold ret in H. cbn [negb] in H. injection H as <- <-. done.
Qed.
Print Assumptions C51_other_files.
Print Assumptions C51_directory.
Print Assumptions C51_init.
(** The user has a file [c] in the home directory. *)
Definition with_file (w : world) : world := set_fs w (fset (w_fs w) cdir (FFile (B "mine"))).
Example C51_sat : in_use (with_file sample_world) (abs_of (with_file sample_world) (B "c")) ∧ outside sample_dr (abs_of (with_file sample_world) (B "c")).
Proof. split; [|split; vm_compute; reflexivity]. exists cdir, (FFile (B "mine")). vm_compute. split_and!; try reflexivity. intros Q. discriminate Q. Qed.
(** clone does not look: a file at the target is gone, and nothing failed. *)
Theorem C51_clone_refuted : told sample_dr first_commit sample_world [true; true] (λ w1,
  bool_decide (fget (w_fs (with_file w1)) cdir = Some (FFile (B "mine"))) &&
  told sample_dr [Do calm home (CClone (B "w") (Some (B "c")))] (with_file w1) [true] (λ w2, bool_decide (fget (w_fs w2) cdir ≠ Some (FFile (B "mine"))))) = true.
Proof. vm_compute. reflexivity. Qed.
(** init does the same when its first look at the target fails: an error counts as "nothing there". *)
Theorem C51_init_refuted : ∃ k, told sample_dr [Do (with_fault calm k (FFail EIO 0)) home (CInit [B "c"] (B "main"))] (with_file sample_world) [true] (λ w2,
  bool_decide (fget (w_fs w2) cdir ≠ Some (FFile (B "mine")))) = true.
Proof. exists 1. vm_compute. reflexivity. Qed.
Print Assumptions C51_clone_refuted.
Print Assumptions C51_init_refuted.
