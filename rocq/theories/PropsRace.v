(** * PropsRace: two processes at work in the same space (C48) *)
From Verif Require Import Base Uid SpecUid UidProofs Tree SpecTree TreeRefine TreeObs Dump DumpProofs Json JsonProofs Save SaveProofs Branch BranchProofs Date DateProofs Ws SpecWs WsProofs
  Fs Overlay Os Layers Mounts Space Manager Commands Sample FsProofs OsProofs LayerProofs MountProofs SpaceProofs ManagerProofs SpecWorld SpecOps SavedProofs FaultProofs ReadyProofs OpProofs CalmProofs
  SpecMachine SpecCmds SpecTidy SpecLog MachineProofs OpenProofs CmdProofs DetProofs DatedProofs Story StoryProofs SampleProofs PropsCmds PropsBranch PropsCommitted PropsFaults.
From Coq Require Import Lia.
From stdpp Require Import prelude gmap.

(** A process stops after [w1], others change files and mounts into those of [wm], and it goes on. Its memory
    and working directory are its own. *)
Definition interrupted (w1 wm : world) : world := World (w_fs wm) (w_mounts wm) (w_tree w1) (w_cwd w1) (w_pwd w1) (w_out w1) (w_tick wm) (w_ids w1) (w_owned wm).
Lemma machine_present dr fs ms sid a : machine dr fs ms → holds fs (the_space dr sid) a → layers_present fs (layers_root dr) a.
Proof.
  intros Mc H. destruct (mc_tree _ _ _ Mc sid) as [N|[T|(b & Hb & L)]].
  - destruct H as (raw & E & _). congruence.
  - by apply torn_holds in H.
  - rewrite (holds_det _ _ _ _ H Hb). intros i Hi. apply L. by apply san_has.
Qed.
(** ** C48 *)
(** Every command first loads the tree of the space and saves it at the end. What the process saves then depends on
    the tree that it loaded, and not on what others saved in between. All that they added is gone: no layer
    of theirs is in the saved tree. *)
Theorem C48_stale_tree : ∀ dr o w x w1 wm op o' y w' a am, good_path dr → fair o → fair o' → machine dr (w_fs w) (w_mounts w) →
  get_workspace dr (B ".") o w = (Ok x, w1) → holds (w_fs w) (ws_space x) a →
  machine dr (w_fs wm) (w_mounts wm) → holds (w_fs wm) (ws_space x) am → (∀ c, has a c → has am c) →
  run_op dr x op o' (interrupted w1 wm) = (Ok y, w') →
  ∃ hid a', found_at dr w (B ".") x hid ∧ op_tree x hid op a a' ∧ holds (w_fs w') (ws_space x) (san_tree a') ∧
    ∀ c, has am c → ¬ has a c → ¬ has (san_tree a') c.
Proof.
  intros dr o w x w1 wm op o' y w' a am G F F' Mc E Ha Mcm Hm Sub H.
  destruct (get_workspace_any _ _ _ _ _ _ G F Mc E) as (b & hid & Lv & Fa). pose proof (reader_get_workspace _ _ _ _ _ _ E) as (t & k & Ew).
  pose proof (the_space_ok _ _ (rd_space _ _ _ _ _ Lv)) as Es.
  assert (san_tree b = a) as Eb.
  { pose proof (rd_disk _ _ _ _ _ Lv) as Hd. rewrite san_idemp, Ew in Hd. by eapply holds_det. }
  rewrite Eb in Lv. rewrite Es in Hm. pose proof (machine_present _ _ _ _ _ Mcm Hm) as LPm.
  assert (loaded dr (interrupted w1 wm) x a hid) as Ld.
  { constructor; [apply Mcm|apply Lv|intros i Hi; apply LPm; by apply Sub|apply Lv]. }
  destruct (run_op_loaded _ _ _ _ _ _ _ _ _ F' Ld H) as [_ [[_ Fl]|(a' & [Ho Hn] & _ & _ & Hd)]]; [by destruct (Fl y)|].
  exists hid, a'. split; [done|]. split; [done|]. split; [destruct Hd as [Hd|(_ & Fl & _)]; [done|by destruct (Fl y)]|].
  intros c Hc Nc Hs. destruct (Hn c (proj1 (san_has _ _) Hs)) as [?|N]; [done|]. destruct (LPm c Hc) as [D _].
  unfold is_dir_at in D. cbn [interrupted w_fs] in N. by rewrite N in D.
Qed.
Print Assumptions C48_stale_tree.
(** Two processes commit in two workspaces of a space: the first has loaded the tree when the second runs. Both
    succeed. The commit of the second is lost, and its workspace cannot be opened any more. *)
Definition commit_rest (dr : path) (msg : bytes) (x : ws) : M unit :=
  now <- next_choice ch_time ;; y <- commit_ws dr x (Some (fmt_rfc3339 now)) msg ;; expand y ;;; remove_mount dr x.
Lemma commit_parts dr msg : run_cmd dr (CCommit msg) = (x <- get_workspace dr (B ".") ;; commit_rest dr msg x).
Proof. reflexivity. Qed.
Definition vdir : path := home ++ [B "v"].
Definition two_workspaces : list event :=
  [Do calm home (CInit [B "w"] (B "main")); Do calm home (CClone (B "w") (Some (B "v"))); Do calm vdir (CCheckout (B "ROOT"))].
Definition says (w : world) (s : bytes) : bool := bool_decide (B "    " ++ s ∈ w_out w).
Theorem C48_both_survive_refuted : told sample_dr two_workspaces sample_world [true; true; true] (λ w,
  then_ok (get_workspace sample_dr (B ".") calm (enter wdir w)) (λ x w1,
  then_ok (run_cmd sample_dr (CCommit (B "theirs")) calm (enter vdir w1)) (λ _ wm,
  then_ok (run_cmd sample_dr (CLog []) calm (enter vdir wm)) (λ _ wl, says wl (B "theirs")) &&
  then_ok (commit_rest sample_dr (B "mine") x calm (interrupted w1 wm)) (λ _ w2,
  then_ok (run_cmd sample_dr (CLog []) calm (enter wdir w2)) (λ _ wl, says wl (B "mine")) &&
  match run_cmd sample_dr (CLog []) calm (enter vdir w2) with (Err _, _) => true | _ => false end)))) = true.
Proof. vm_compute. reflexivity. Qed.
Print Assumptions C48_both_survive_refuted.
(** One after the other, both survive: the layers that the commands committed carry their messages in the
    saved tree. Between and in the two commands any faults. *)
Definition message (a : atree) (c : uid) (m : bytes) : Prop := ∃ n, a_nodes a !! c = Some n ∧ an_anno n !! B "commit-message" = Some m.
Lemma commit_said dr msg o w w' : plain_path dr → good_path dr → fair o → machine dr (w_fs w) (w_mounts w) → outside dr (abs_of w (B ".")) → run_cmd dr (CCommit msg) o w = (Ok tt, w') →
  machine dr (w_fs w') (w_mounts w') ∧ ∃ x sid hid a a', found_at dr w (B ".") x hid ∧ ws_space x = the_space dr sid ∧ holds (w_fs w) (the_space dr sid) a ∧ holds (w_fs w') (the_space dr sid) a' ∧
    message a' hid (sanitize msg) ∧ keeps_history hid a a' ∧ ∃ id, has a' id ∧ ¬ has a id.
Proof.
  intros P G F Mc Ho H. destruct (cmd_any _ (CCommit msg) _ _ _ _ P G F Mc (λ _, Ho) H) as [O Ct]. split; [apply O|].
  destruct Ct as [[Fl _]|(x & sid & hid & a & l & k & a' & Fa & Es & Ha & (t & ->) & Hk & Hr & Ho' & Hh & _)]; [by destruct (Fl tt)|].
  exists x, sid, hid, a, (san_tree a'). split; [done|]. split; [done|]. split; [done|].
  split; [destruct Hh as [Hh|(Fl & _)]; [done|by destruct (Fl tt)]|].
  destruct Hr as [Fl| ->]; [by destruct (Fl tt)|]. cbn [length take op_all] in Ho'. destruct Ho' as (a1 & Ho' & <-). split; [|split].
  - destruct Ho' as (n & id & En & Ni & Hx). assert (hid ≠ id) as Ne by congruence.
    assert (a_nodes a' !! hid = Some (committed n (Some (fmt_rfc3339 (ch_time (o t)))) msg)) as E.
    { destruct Hx as [[_ ->]|(_ & -> & _)]; cbn [plus_branch plus_node a_nodes]; rewrite lookup_insert_ne by done; apply lookup_insert. }
    eexists. unfold san_tree. cbn [a_nodes]. rewrite lookup_fmap, E. split; [reflexivity|]. unfold san_anode, committed. cbn [an_anno].
    apply san_map_ascii; [vm_compute; repeat constructor|]. apply lookup_insert.
  - apply keeps_history_san; [by eapply machine_san|]. by eapply op_keeps_history.
  - destruct Ho' as (n & id & En & Ni & Hx). exists id. split; [|unfold has; rewrite Ni; by intros [? ?]]. apply san_has. unfold has.
    destruct Hx as [[_ ->]|(_ & -> & _)]; cbn [plus_branch plus_node a_nodes]; rewrite lookup_insert; by eexists.
Qed.
Theorem C48_serial_partial : ∀ dr msg1 msg2 o1 o2 w w1 w1' w2, plain_path dr → good_path dr → fair o1 → fair o2 → machine dr (w_fs w) (w_mounts w) →
  outside dr (abs_of w (B ".")) → outside dr (abs_of w1' (B ".")) →
  run_cmd dr (CCommit msg1) o1 w = (Ok tt, w1) → same_disk w1 w1' → run_cmd dr (CCommit msg2) o2 w1' = (Ok tt, w2) →
  ∃ x1 hid1 x2 hid2, found_at dr w (B ".") x1 hid1 ∧ found_at dr w1' (B ".") x2 hid2 ∧
    (ws_space x1 = ws_space x2 → hid1 ≠ hid2 → ∃ a, holds (w_fs w2) (ws_space x1) a ∧ message a hid1 (sanitize msg1) ∧ message a hid2 (sanitize msg2)).
Proof.
  intros dr msg1 msg2 o1 o2 w w1 w1' w2 P G F1 F2 Mc Ho1 Ho2 E1 [S1 S2] E2.
  destruct (commit_said _ _ _ _ _ P G F1 Mc Ho1 E1) as (Mc1 & x1 & sid1 & hid1 & a & a1 & Fa1 & Es1 & _ & H1 & M1 & _ & _).
  rewrite <-S1, <-S2 in Mc1. destruct (commit_said _ _ _ _ _ P G F2 Mc1 Ho2 E2) as (_ & x2 & sid2 & hid2 & b & b' & Fa2 & Es2 & Hb & H2 & M2 & K & _).
  exists x1, hid1, x2, hid2. split; [done|]. split; [done|]. intros Es Ne. exists b'. rewrite Es, Es2. split; [done|]. split; [|done].
  rewrite Es1, Es2 in Es. injection Es as <-. rewrite <-S1 in H1. rewrite (holds_det _ _ _ _ Hb H1) in K. destruct M1 as (n & En & Em).
  destruct (K _ _ En) as (n' & En' & _ & Q). exists n'. split; [done|]. by rewrite (Q Ne).
Qed.
Print Assumptions C48_serial_partial.
(** The premises of both theorems on a concrete machine *)
Lemma two_workspaces_test : story_test sample_dr two_workspaces sample_world = true.
Proof. vm_compute. reflexivity. Qed.
Lemma two_workspaces_fair : Forall fair_event two_workspaces.
Proof. repeat (constructor; [exact fair_calm|]). constructor. Qed.
Definition subtree (t t' : tstate) : bool := forallb (λ e, bool_decide (is_Some (t_nodes t' !! e.1))) (map_to_list (t_nodes t)).
Lemma race_test : told sample_dr two_workspaces sample_world [true; true; true] (λ w,
  then_ok (get_workspace sample_dr (B ".") calm (enter wdir w)) (λ x w1,
  outside_test sample_dr (abs_of (enter vdir w1) (B ".")) &&
  then_ok (run_cmd sample_dr (CCommit (B "theirs")) calm (enter vdir w1)) (λ _ wm,
  then_ok (get_workspace sample_dr (B ".") calm (enter vdir wm)) (λ x2 w2, bool_decide (sp_id (ws_space x2) = sp_id (ws_space x)) && subtree (w_tree w1) (w_tree w2) && negb (subtree (w_tree w2) (w_tree w1))) &&
  then_ok (run_op sample_dr x (OCommit None (B "mine")) calm (interrupted w1 wm)) (λ _ _, true)))) = true.
Proof. vm_compute. reflexivity. Qed.
Lemma subtree_has t t' a a' : repr t a → repr t' a' → subtree t t' = true ↔ ∀ c, has a c → has a' c.
Proof.
  intros R R'. unfold subtree. rewrite forallb_forall. split.
  - intros H c Hc. destruct (get_Some _ _ _ R Hc) as (l & _ & _ & E & _). unfold get in E.
    specialize (H (uid_hex c, l) ltac:(by apply elem_of_list_In, elem_of_map_to_list)). apply bool_decide_eq_true in H as [l' H]. by eapply get_has.
  - intros H [k l] E. apply elem_of_list_In, elem_of_map_to_list in E. destruct (r_dom _ _ R _ _ E) as (c & -> & Hc).
    destruct (get_Some _ _ _ R' (H c Hc)) as (l' & _ & _ & E' & _). apply bool_decide_eq_true. by exists l'.
Qed.
Example C48_sat : ∃ o w x w1 wm op o' y w' a am, good_path sample_dr ∧ fair o ∧ fair o' ∧ machine sample_dr (w_fs w) (w_mounts w) ∧
  get_workspace sample_dr (B ".") o w = (Ok x, w1) ∧ holds (w_fs w) (ws_space x) a ∧ machine sample_dr (w_fs wm) (w_mounts wm) ∧ holds (w_fs wm) (ws_space x) am ∧
  (∀ c, has a c → has am c) ∧ ¬ (∀ c, has am c → has a c) ∧ run_op sample_dr x op o' (interrupted w1 wm) = (Ok y, w').
Proof.
  destruct sample_plain as [P G]. destruct (told_inv _ _ _ _ _ race_test) as (w & E & H).
  pose proof (story_steps sample_dr two_workspaces two_workspaces_fair sample_world two_workspaces_test) as R. rewrite E in R. cbn [snd] in R. clear E.
  destruct (steps_orderly _ _ _ P G sample_machine R) as [Mc _].
  destruct (then_ok_inv _ _ H) as (x & w1 & E1 & H1). clear H. apply andb_true_iff in H1 as [H0 H1]. apply outside_test_ok in H0.
  destruct (then_ok_inv _ _ H1) as ([] & wm & Em & H2). clear H1. apply andb_true_iff in H2 as [H2 H3].
  destruct (then_ok_inv _ _ H2) as (x2 & w2 & E2 & H4). clear H2. apply andb_true_iff in H4 as [H4 H6]. apply andb_true_iff in H4 as [H4 H5]. apply bool_decide_eq_true in H4.
  destruct (then_ok_inv _ _ H3) as (y & w' & E3 & _). clear H3.
  destruct (get_workspace_any _ _ _ (enter wdir w) _ _ G fair_calm Mc E1) as (a & hid & Lv & _). pose proof (reader_get_workspace _ _ _ _ _ _ E1) as (t & k & Ew).
  assert (machine sample_dr (w_fs (enter vdir w1)) (w_mounts (enter vdir w1))) as Mc1 by (rewrite Ew; exact Mc).
  destruct (cmd_any _ (CCommit (B "theirs")) _ _ _ _ P G fair_calm Mc1 (λ _, H0) Em) as [[Mcm _ _] _].
  destruct (get_workspace_any _ _ _ (enter vdir wm) _ _ G fair_calm Mcm E2) as (am & hid2 & Lv2 & _). pose proof (reader_get_workspace _ _ _ _ _ _ E2) as (t2 & k2 & Ew2).
  pose proof (rd_disk _ _ _ _ _ Lv) as D1. rewrite san_idemp, Ew in D1. pose proof (rd_disk _ _ _ _ _ Lv2) as D2. rewrite san_idemp, Ew2 in D2.
  assert (ws_space x2 = ws_space x) as Es by (rewrite (the_space_ok _ _ (rd_space _ _ _ _ _ Lv2)), (the_space_ok _ _ (rd_space _ _ _ _ _ Lv)); by f_equal). rewrite Es in D2.
  pose proof (subtree_has _ _ _ _ (ready_repr _ _ _ _ _ Lv) (ready_repr _ _ _ _ _ Lv2)) as S1.
  pose proof (subtree_has _ _ _ _ (ready_repr _ _ _ _ _ Lv2) (ready_repr _ _ _ _ _ Lv)) as S2.
  exists calm, (enter wdir w), x, w1, wm, (OCommit None (B "mine")), calm, y, w', (san_tree a), (san_tree am).
  split; [exact G|]. split; [exact fair_calm|]. split; [exact fair_calm|]. split; [exact Mc|]. split; [exact E1|]. split; [exact D1|]. split; [exact Mcm|]. split; [exact D2|].
  split; [exact (proj1 S1 H5)|]. split; [|exact E3]. intros Q. apply (proj2 S2) in Q. rewrite Q in H6. discriminate H6.
Qed.
