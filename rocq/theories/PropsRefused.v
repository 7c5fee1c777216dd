(** * PropsRefused: what refused commands leave behind (C78), and workspaces that are cut off from their path (C79) *)
From Verif Require Import Base Uid SpecUid UidProofs Tree SpecTree TreeRefine TreeObs Dump DumpProofs Json JsonProofs Save SaveProofs Branch BranchProofs Date Ws SpecWs WsProofs
  Fs Overlay Os Layers Mounts Space Manager Commands FsProofs OsProofs LayerProofs MountProofs SpaceProofs ManagerProofs SpecWorld SpecOps SavedProofs FaultProofs ReadyProofs OpProofs CalmProofs
  SpecMachine SpecCmds SpecLog MachineProofs OpenProofs CmdProofs DetProofs SpecTidy Sample SampleProofs Story StoryProofs SpecUsable UsableProofs UsableCmdProofs UsableSeqProofs SpecNames NamesProofs SpecRefused RefusedProofs
  PropsCommit PropsCmds PropsShow PropsUsable PropsRound PropsNames.
From Coq Require Import Lia.
From stdpp Require Import prelude gmap.

(** ** C78 *)
(** checkout of a name that means nothing changes nothing at all. *)
Theorem C78_checkout : ∀ dr key o w p mid y hid a, good_path dr → fair o → no_faults o → in_order dr w →
  workspace_at dr w p mid y hid a → runs_in w p → key = B "HEAD" ∨ decode_b32 key ≠ Panic → found_id (resolve a (ws_id y) hid key) = None →
  ∃ r w', cmd_checkout dr key o w = (r, w') ∧ (r = Err EKeyNotFound ∨ r = Panic ∧ key = B "HEAD") ∧ same_machine w w'.
Proof. exact checkout_refused. Qed.
(** The commands that delete more than one name *)
Definition deletes_many (c : command) : Prop :=
  match c with
  | CBranch opts args => bo_list opts || bo_current opts = false ∧ bo_delete opts = true ∧ 2 ≤ length args
  | CTag opts args => to_list opts = false ∧ to_delete opts = true ∧ 2 ≤ length args
  | _ => False
  end.
(** branch, tag and log that fail leave every workspace with the tree it had, except when they delete several names: then those before the
    one that is refused are gone (C59). *)
Lemma one_deletion x hid l a a' r : deletions x hid l a a' r → length l ≤ 1 → failed r → a' = a.
Proof.
  intros D L Fr. destruct D as [a|op l a a1 a' r Ht D|op l a e Hr]; [done| |done]. destruct l as [|op' l]; [|cbn [length] in L; lia].
  inversion D; subst. by destruct (Fr tt).
Qed.
Theorem C78_names : ∀ dr c o w p mid y hid a r w', plain_path dr → good_path dr → fair o → no_faults o → in_order dr w →
  workspace_at dr w p mid y hid a → runs_in w p → names_cmd c → run_cmd dr c o w = (r, w') → failed r → ¬ deletes_many c →
  in_order dr w' ∧ same_but [tree_at dr (sp_id (ws_space y))] (w_fs w) (w_fs w') ∧ w_mounts w' = w_mounts w ∧
  ∀ p2 mid2 y2 hid2 a2, workspace_at dr w p2 mid2 y2 hid2 a2 → workspace_at dr w' p2 mid2 y2 hid2 a2.
Proof.
  intros dr c o w p mid y hid a r w' P G F N Io Wa R Hc E Fr Nd.
  destruct (C75_names _ _ _ _ _ _ _ _ _ _ _ P G F N Io Wa R Hc E) as (a' & Hr & Rl).
  assert (a' = a) as ->.
  { destruct c as [| | | |opts args|opts args|]; try done; cbn [names_result deletes_many] in Hr, Nd.
    - destruct (bo_list opts || bo_current opts); [by destruct Hr|]. destruct (bo_delete opts).
      + apply (one_deletion _ _ _ _ _ _ Hr); [|done]. rewrite fmap_length. destruct (decide (2 ≤ length args)); [by destruct Nd|lia].
      + destruct args as [|n rest]; [by destruct Hr|]. unfold branch_added in Hr. destruct (meant _ _ _ _); [|by destruct Hr]. destruct (decide _); [by destruct Hr|].
        destruct Hr as [-> _]. by destruct (Fr tt).
    - destruct (to_list opts); [by destruct Hr|]. destruct (to_delete opts).
      + apply (one_deletion _ _ _ _ _ _ Hr); [|done]. rewrite fmap_length. destruct (decide (2 ≤ length args)); [by destruct Nd|lia].
      + destruct args as [|n rest]; [by destruct Hr|]. unfold tag_added in Hr. destruct (meant _ _ _ _); [|by destruct Hr]. destruct (decide _); [by destruct Hr|].
        destruct Hr as [-> _]. by destruct (Fr tt).
    - by destruct Hr. }
  pose proof (workspace_san _ _ _ _ _ _ _ Io Wa) as Es. destruct Rl as [A1 A2 A3 _ A5]. split; [exact A1|]. split; [exact A2|]. split; [exact A3|].
  intros p2 mid2 y2 hid2 a2 W2. pose proof (A5 _ _ _ _ _ W2) as Q. destruct (decide (sp_id (ws_space y2) = sp_id (ws_space y))) as [Es2|]; [|exact Q].
  rewrite Es in Q. assert (a2 = a) as ->; [|exact Q]. apply (holds_det (w_fs w) (the_space dr (sp_id (ws_space y)))); [rewrite <-Es2; apply W2|apply Wa].
Qed.
(** A refused commit leaves an empty layer and an empty mount directory; all else is as it was. *)
Theorem C78_commit_partial : ∀ dr msg o w p mid y hid a, good_path dr → fair o → no_faults o → new_ids dr o w → in_order dr w →
  workspace_at dr w p mid y hid a → runs_in w p → ¬ may_commit (read_back y) a hid →
  ∃ e w' mid' id, cmd_commit dr msg o w = (Err e, w') ∧ left_dirs dr w w' mid' id ∧ (e = EBranchNotFound ∨ e = EUnreachable).
Proof. exact commit_refused. Qed.
(** A clone to a place where no link can be put fails, and leaves a mounted stack of layers with the record of a workspace, and one more
    layer in the tree. *)
Theorem C78_clone_partial : ∀ dr source target o w d p mid y hid a c ch q, plain_path dr → good_path dr → fair o → no_faults o → new_ids dr o w → in_order dr w →
  workspace_at dr w p mid y hid a → runs_in w d → abs_from d source = p → abs_from d (default (B ".") target) = q → outside dr q → blocked dr w q →
  SpecTree.parent_of a hid c → chain a c ch → fits dr (length ch) →
  ∃ e w' mid' y' id a', cmd_clone dr source target o w = (Err e, w') ∧ op_tree (read_back y) hid (OClone q) a a' ∧ left_mounted dr w w' mid' y' id a' ∧
    ws_path y' = q ∧ sp_id (ws_space y') = sp_id (ws_space y) ∧ mid' ≠ mid ∧ ¬ has a id.
Proof. exact clone_stuck. Qed.
(** So does init, if there is nothing at the place and no link can be put there: it leaves a new space too. *)
Theorem C78_init_partial : ∀ dr args branch o w d p, plain_path dr → good_path dr → fair o → no_faults o → new_ids dr o w → in_order dr w →
  runs_in w d → abs_from d (default (B ".") (head args)) = p → outside dr p → blocked dr w p → real_path (w_fs w) p = None → fits dr 1 →
  ∃ e w' mid y id rid, cmd_init dr args branch o w = (Err e, w') ∧ left_mounted dr w w' mid y id (fresh_tree rid id (ws_id y) branch) ∧
    ws_path y = p ∧ fget (w_fs w) (tree_at dr (sp_id (ws_space y))) = None ∧ rid ≠ id.
Proof. exact init_stuck. Qed.
Print Assumptions C78_checkout.
Print Assumptions C78_names.
Print Assumptions C78_commit_partial.
Print Assumptions C78_clone_partial.
Print Assumptions C78_init_partial.

(** So refused commands do leave something behind. A clone that fails, because the target is a directory with something in it or one in a directory that
    does not exist, leaves one more mount each time; an init that fails does too; a commit that fails in a clone (C39) leaves directories. *)
Definition first_init : event := Do calm home (CInit [B "w"] (B "main")).
Definition dir_count (w : world) : nat := length (filter (λ e, is_dir_at (w_fs w) e.1 = true) (w_fs w)).
Definition grows (l : list event) (e : event) (size : world → nat) : bool :=
  told sample_dr l sample_world (repeat true (length l)) (λ w1, told sample_dr [e] w1 [false] (λ w2, bool_decide (size w1 < size w2))).
Theorem C78_clone_refuted : grows [first_init] (Do calm home (CClone (B "w") (Some (B ".")))) (λ w, length (w_mounts w)) = true ∧
  grows [first_init] (Do calm home (CClone (B "w") (Some (B "none/v")))) (λ w, length (w_mounts w)) = true ∧
  told sample_dr [first_init; Do calm home (CClone (B "w") (Some (B "none/v"))); Do calm home (CClone (B "w") (Some (B "none/v"))); Do calm home (CClone (B "w") (Some (B "none/v")))]
    sample_world [true; false; false; false] (λ w, bool_decide (length (w_mounts w) = 4)) = true.
Proof. split; [|split]; vm_compute; reflexivity. Qed.
Theorem C78_init_refuted : grows [] (Do calm home (CInit [B "none/v"] (B "main"))) (λ w, length (w_mounts w)) = true.
Proof. vm_compute. reflexivity. Qed.
Theorem C78_commit_refuted : grows [first_init; Do calm home (CClone (B "w") (Some (B "c")))] (Do calm cdir (CCommit (B "first"))) dir_count = true.
Proof. vm_compute. reflexivity. Qed.
Print Assumptions C78_clone_refuted.
Print Assumptions C78_init_refuted.
Print Assumptions C78_commit_refuted.

(** ** C79 *)
Lemma workspace_free dr w p mid y hid a : good_path dr → in_order dr w → workspace_at dr w p mid y hid a → can_replace w p.
Proof.
  intros G Io Wa. pose proof (workspace_dir _ _ _ _ _ _ _ Io Wa) as D. destruct Wa as [E _ _ _ _ _]. right. split.
  - exists (merged_dir dr mid). by apply link_real; [|apply UsableProofs.good_merged|].
  - intros D'. by rewrite (dir_not_link _ _ _ E) in D'.
Qed.
(** clone succeeds over another workspace. The link is gone that led to it: its mounted stack and its record stay, but no path leads to them that
    did not already before, next to the link. *)
Theorem C79_clone : ∀ dr source target o w d p mid y hid a c ch q mid2 y2 hid2 a2, plain_path dr → good_path dr → fair o → no_faults o → new_ids dr o w → in_order dr w →
  workspace_at dr w p mid y hid a → runs_in w d → abs_from d source = p → abs_from d (default (B ".") target) = q → outside dr q →
  SpecTree.parent_of a hid c → chain a c ch → fits dr (length ch) → workspace_at dr w q mid2 y2 hid2 a2 →
  ∃ w', cmd_clone dr source target o w = (Ok tt, w') ∧
    mounts_below (w_mounts w') (mount_dir dr mid2) = mounts_below (w_mounts w) (mount_dir dr mid2) ∧ fget (w_fs w') (ws_file dr mid2) = fget (w_fs w) (ws_file dr mid2) ∧
    ∀ p2, is_prefix dr p2 = false → fget (w_fs w') p2 = Some (FLink (path_str (merged_dir dr mid2))) → p2 ≠ q ∧ fget (w_fs w) p2 = Some (FLink (path_str (merged_dir dr mid2))).
Proof.
  intros dr source target o w d p mid y hid a c ch q mid2 y2 hid2 a2 P G F N Nw Io Wa R Hs Ht Oq Hp C Fi W2.
  destruct (clone_moved dr source target o w d p mid y hid a c ch q P G F N Nw Io Wa R Hs Ht Oq (workspace_free _ _ _ _ _ _ _ G Io W2) Hp C Fi) as (w' & mid' & sid & m & E & Mv & Nm & El & Hu).
  assert (mid2 ≠ mid') as Ne.
  { intros ->. pose proof (workspace_dir _ _ _ _ _ _ _ Io W2) as D. apply dir_mount in D; [|apply (io_machine _ _ Io)]. unfold is_dir_at in D. by rewrite Nm in D. }
  exists w'. split; [exact E|]. split; [by apply (mv_below _ _ _ _ _ _ _ _ Mv)|]. split; [by apply (mv_infos _ _ _ _ _ _ _ _ Mv)|].
  intros p2 Hp2 E2. destruct (decide (p2 = q)) as [->|Nq]; [|split; [done|by rewrite <-Hu]].
  rewrite El in E2. injection E2 as E2. destruct Ne. by apply (merged_inj dr).
Qed.
(** init looks first: it is refused where a workspace shows something, and changes nothing. *)
Lemma view_names fs ds n x : view (layer_at fs <$> ds) [n] = Some x → n ∈ top_names fs ds.
Proof.
  intros E. unfold top_names. apply elem_of_list_filter. split; [by exists x|]. rewrite merge_sort_Permutation. apply elem_of_remove_dups.
  induction ds as [|d ds IH]; [done|]. cbn [fmap list_fmap view concat] in E |- *. apply elem_of_app. unfold layer_at in E at 1. destruct (fget fs (d ++ [n])) as [z|] eqn:Ez.
  - left. apply children_elem. by exists z.
  - unfold covered in E. cbn [length pred seq existsb] in E. right. exact (IH E).
Qed.
Theorem C79_init : ∀ dr args branch o w p mid y hid a m n x r w', good_path dr → no_faults o → in_order dr w → workspace_at dr w p mid y hid a → abs_of w (default (B ".") (head args)) = p →
  mount_of w p = Some m → mount_view (w_fs w) m [n] = Some x → run_cmd dr (CInit args branch) o w = (r, w') → failed r ∧ same_machine w w'.
Proof.
  intros dr args branch o w p mid y hid a m n x r w' G N Io Wa Ea Em Ev H. pose proof (workspace_dir _ _ _ _ _ _ _ Io Wa) as D. pose proof (wa_link _ _ _ _ _ _ _ Wa) as L.
  pose proof (link_real _ _ _ L (UsableProofs.good_merged dr mid G) D) as R. rewrite (link_mount _ _ _ _ G L) in Em.
  pose proof (view_names _ _ _ _ Ev) as Hn. apply is_dir_at_Some in D as [b E].
  cbn [run_cmd] in H. unfold cmd_init in H.
  apply bind_any in H as [(p1 & w1 & E1 & H)|(r1 & E1 & Fr1 & Fr)]; [|apply quiet_abs in E1 as (k & ->); done].
  pose proof (abs_ok _ _ _ _ _ E1) as Ep. apply quiet_abs in E1 as (k1 & ->). assert (p1 = p) as -> by congruence.
  unfold bind at 1 in H. unfold fs_is_exists, bind at 1, attempt, os_stat in H. rewrite look_fine in H by done. cbn [w_fs tick upd] in H. rewrite R, E in H. cbv beta iota in H. unfold ret at 1 in H. cbv beta iota in H.
  unfold bind at 1 in H. unfold bind at 1 in H. unfold fs_is_empty_dir, bind at 1, fs_is_dir, bind at 1, attempt, os_stat in H. rewrite look_fine in H by done. cbn [w_fs tick upd] in H. rewrite R, E in H. cbv beta iota in H.
  unfold ret at 1 in H. unfold bind at 1, attempt, os_readdir in H. rewrite look_fine in H by done. cbn [w_fs w_mounts tick upd] in H. rewrite R, E, Em in H.
  destruct (top_names _ _) as [|c l] eqn:Ec; [by apply elem_of_nil in Hn|]. cbv beta iota in H. unfold ret in H. cbv beta iota in H. cbn [negb] in H. injection H as <- <-. done.
Qed.
Print Assumptions C79_clone.
Print Assumptions C79_init.
(** Two workspaces; the user writes a file in the second and then clones the first over it. All goes well, the file is gone from sight and no path leads to
    the mount with it, which is still there. *)
Definition links_to (w : world) (m : mount) : bool := existsb (λ e, match e.2 with FLink s => bool_decide (s = path_str (mn_at m)) | _ => false end) (w_fs w).
Theorem C79_clone_refuted : told sample_dr [first_init; Do calm home (CInit [B "v"] (B "main")); Put vdir (B "f") (B "mine")] sample_world [true; true; true] (λ w1,
  bool_decide (Story.shown w1 vdir (B "f") = Some (B "mine")) && forallb (links_to w1) (w_mounts w1) &&
  told sample_dr [Do calm home (CClone (B "w") (Some (B "v")))] w1 [true] (λ w2, bool_decide (Story.shown w2 vdir (B "f") = None) &&
    existsb (λ m, negb (links_to w2 m) && bool_decide (mount_view (w_fs w2) m [B "f"] = Some (FFile (B "mine")))) (w_mounts w2))) = true.
Proof. vm_compute. reflexivity. Qed.
(** init over a workspace that shows nothing succeeds too. Its history, here one commit, cannot be reached from the new one. *)
Definition log_says (w : world) (s : bytes) : bool := then_ok (run_cmd sample_dr (CLog []) calm (enter wdir w)) (λ _ wl, bool_decide (B "    " ++ s ∈ w_out wl)).
Theorem C79_init_refuted : told sample_dr [first_init; Do calm wdir (CCommit (B "first"))] sample_world [true; true] (λ w1,
  log_says w1 (B "first") && forallb (links_to w1) (w_mounts w1) &&
  told sample_dr [Do calm home (CInit [B "w"] (B "main"))] w1 [true] (λ w2, negb (log_says w2 (B "first")) && is_ok (run_cmd sample_dr (CLog []) calm (enter wdir w2)).1 &&
    existsb (λ m, negb (links_to w2 m)) (w_mounts w2))) = true.
Proof. vm_compute. reflexivity. Qed.
Print Assumptions C79_clone_refuted.
Print Assumptions C79_init_refuted.

(** ** Concrete cases *)
Definition ndir : path := [B "h"; B "none"; B "v"].
(** Workspaces are made at /h/w and /h/v, the second is cloned to /h/c. *)
Lemma refused_test : then_ok (cmd_init sample_dr [] (B "main") calm (enter wdir sample_world)) (λ _ w0, then_ok (cmd_init sample_dr [B "v"] (B "main") calm (enter home w0)) (λ _ w,
  ids_check sample_dr calm (enter home w) && bool_decide (is_dir_at (w_fs w) home = true ∧ w_cwd (enter home w) = home ∧ fget (w_fs w) cdir = None) &&
  bool_decide (fget (w_fs w) ndir = None ∧ is_dir_at (w_fs w) (parent_dir ndir) = false ∧ real_path (w_fs w) ndir = None) &&
  then_ok (cmd_clone sample_dr (B "v") (Some (B "c")) calm (enter home w)) (λ _ w3, ids_check sample_dr calm (enter cdir w3) && infos_differ sample_dr (w_fs w3)))) = true.
Proof. vm_compute. reflexivity. Qed.
Lemma fresh_root rid id wid branch : is_root (fresh_tree rid id wid branch) rid.
Proof. exists (ANode None ∅ ∅). split; [|done]. cbn [fresh_tree a_nodes]. by rewrite lookup_insert. Qed.
Lemma fresh_nothing rid id wid : found_id (resolve (fresh_tree rid id wid (B "main")) wid id (B "nothing")) = None.
Proof.
  unfold resolve. rewrite decide_False by (vm_compute; discriminate). assert (key_id (B "nothing") = None) as -> by (vm_compute; reflexivity).
  unfold search_spec. cbn [fresh_tree a_tags a_branches]. rewrite lookup_singleton_ne by (vm_compute; discriminate).
  rewrite lookup_singleton_ne by (intros Q; apply (f_equal (λ k, bool_decide ("/"%char ∈ k))) in Q; unfold local_key in Q; rewrite bool_decide_true in Q by (apply elem_of_app; right; left); vm_compute in Q; discriminate Q).
  rewrite lookup_singleton_ne by (intros Q; apply local_key_inj in Q as [_ Q]; vm_compute in Q; discriminate Q). reflexivity.
Qed.
Example C78_C79_sat : ∃ w mid y hid a mid2 y2 hid2 a2 rid2,
  (in_order sample_dr (enter home w) ∧ new_ids sample_dr calm (enter home w) ∧ runs_in (enter home w) home ∧
   workspace_at sample_dr (enter home w) wdir mid y hid a ∧ workspace_at sample_dr (enter home w) vdir mid2 y2 hid2 a2 ∧ SpecTree.parent_of a2 hid2 rid2 ∧ chain a2 rid2 [rid2] ∧ fits sample_dr 1 ∧
   abs_from home (B "w") = wdir ∧ abs_from home (B "v") = vdir ∧ outside sample_dr wdir) ∧
  (abs_from home (B ".") = home ∧ outside sample_dr home ∧ blocked sample_dr (enter home w) home) ∧
  (abs_from home (B "none/v") = ndir ∧ outside sample_dr ndir ∧ blocked sample_dr (enter home w) ndir ∧ real_path (w_fs (enter home w)) ndir = None) ∧
  (runs_in (enter vdir w) vdir ∧ decode_b32 (B "nothing") ≠ Panic ∧ found_id (resolve a2 (ws_id y2) hid2 (B "nothing")) = None) ∧
  ∃ w3 mid3 y3 hid3 a3, in_order sample_dr (enter cdir w3) ∧ workspace_at sample_dr (enter cdir w3) cdir mid3 y3 hid3 a3 ∧ new_ids sample_dr calm (enter cdir w3) ∧ runs_in (enter cdir w3) cdir ∧
    ¬ may_commit (read_back y3) a3 hid3.
Proof.
  destruct C68_sat as (w0 & w & mid & y & hid & a & rid & mid2 & y2 & hid2 & rid2 & E0 & E & Io & W1 & C1 & W2 & K1 & K2 & Ne & Ow & Ov & Fi & _ & _ & Nr & Eb).
  pose proof refused_test as H. destruct (then_ok_inv _ _ H) as ([] & w0' & E0' & H1). clear H. rewrite E0 in E0'. apply (f_equal snd) in E0'. cbn [snd] in E0'. subst w0'.
  cbv beta in H1. destruct (then_ok_inv _ _ H1) as ([] & w' & E' & H2). clear H1. rewrite E in E'. apply (f_equal snd) in E'. cbn [snd] in E'. subst w'.
  cbv beta in H2. apply andb_true_iff in H2 as [H2 H5]. apply andb_true_iff in H2 as [H2 H4]. apply andb_true_iff in H2 as [H2 H3]. apply ids_check_ok in H2.
  apply bool_decide_eq_true in H3 as (D1 & D2 & D3). apply bool_decide_eq_true in H4 as (B1 & B2 & B3).
  destruct (then_ok_inv _ _ H5) as ([] & w3 & E3 & H6). clear H5. cbv beta in H6. apply andb_true_iff in H6 as [H6 H7]. apply ids_check_ok in H6.
  destruct sample_plain as [P G]. pose proof (enter_order sample_dr home w Io) as Io'. pose proof (enter_workspace sample_dr home w _ _ _ _ _ W1) as W1'. pose proof (enter_workspace sample_dr home w _ _ _ _ _ W2) as W2'.
  assert (runs_in (enter home w) home) as R by (apply in_dir; [exact D1|exact D2|right; reflexivity]).
  set (a2 := fresh_tree rid2 hid2 (ws_id y2) (B "main")) in *.
  destruct (fresh_good rid2 hid2 y2 (B "main") Nr ltac:(vm_compute; reflexivity) Eb) as (Es & C2 & _ & Hp). fold a2 in Es, C2, Hp.
  pose proof (chain_root a2 rid2 (fresh_root rid2 hid2 (ws_id y2) (B "main"))) as Cr. assert (fits sample_dr 1) as F1 by (apply (fits_less _ 40); [exact Fi|lia]).
  assert (abs_from home (B "c") = cdir) as Ac by (vm_compute; reflexivity). assert (abs_from home (B "v") = vdir) as Av by (vm_compute; reflexivity).
  assert (outside sample_dr cdir) as Oc by (apply outside_test_ok; vm_compute; reflexivity).
  assert (can_replace (enter home w) cdir) as Fc by (left; split; [exact D3|exact D1]).
  destruct (C67_clone sample_dr (B "v") (Some (B "c")) calm (enter home w) home vdir mid2 y2 hid2 a2 rid2 [rid2] cdir P G fair_calm calm_no_faults H2 Io' W2' R Av Ac Oc Fc Hp Cr F1)
    as (w' & mid3 & y3 & hid3 & a3 & E' & Ot & Pa & _ & Eb3 & _ & Nm & _). rewrite E3 in E'. apply (f_equal snd) in E'. cbn [snd] in E'. subst w'.
  destruct Pa as [Io3 W3 Oth _ _ _ _ _ _].
  exists w, mid, y, hid, a, mid2, y2, hid2, a2, rid2. split; [|split; [|split; [|split]]].
  - split; [exact Io'|]. split; [exact H2|]. split; [exact R|]. split; [exact W1'|]. split; [exact W2'|]. split; [exact Hp|]. split; [exact Cr|]. split; [exact F1|].
    split; [vm_compute; reflexivity|]. split; [exact Av|exact Ow].
  - split; [vm_compute; reflexivity|]. split; [apply outside_test_ok; vm_compute; reflexivity|]. right. left. split; [exact D1|]. left. exists (B "w"). exists (FLink (path_str (merged_dir sample_dr mid))). exact (wa_link _ _ _ _ _ _ _ W1').
  - split; [vm_compute; reflexivity|]. split; [apply outside_test_ok; vm_compute; reflexivity|]. split; [left; split; [exact B1|exact B2]|exact B3].
  - split; [exact (enter_runs _ _ _ _ _ _ _ G Io W2)|]. split; [vm_compute; discriminate|]. apply fresh_nothing.
  - pose proof (enter_workspace sample_dr cdir w3 _ _ _ _ _ W3) as W3'. exists w3, mid3, y3, hid3, (san_tree a3). split; [by apply enter_order|]. split; [exact W3'|]. split; [exact H6|].
    split; [exact (enter_runs _ _ _ _ _ _ _ G Io3 W3)|].
    pose proof (Oth _ _ _ _ _ W2' ltac:(vm_compute; discriminate) Ov ltac:(discriminate)) as W2''.
    pose proof (infos_differ_ok _ _ _ _ _ _ _ _ _ _ _ _ H7 W2'' W3 (not_eq_sym Nm)) as Nid.
    intros [Q|(h & Q & _)]; cbn [read_back ws_branch ws_id] in Q; rewrite Eb3, Eb in Q.
    + vm_compute in Q. discriminate Q.
    + destruct Ot as (c & id & _ & _ & ->).
      assert (a_branches (san_tree (plus_node a2 id (ANode (Some c) ∅ ∅))) = a_branches a2) as Ea by (change (a_branches (san_tree a2) = a_branches a2); by rewrite Es).
      rewrite Ea in Q. unfold a2 in Q. cbn [fresh_tree a_branches] in Q. apply lookup_singleton_Some in Q as [Q _]. apply local_key_wid in Q. exact (Nid Q).
Qed.
Lemma shows_test : then_ok (cmd_init sample_dr [] (B "main") calm (enter wdir sample_world)) (λ _ w, put_test sample_dr w wdir (B "f") (B "mine") && then_some (put w wdir (B "f") (B "mine")) (λ w1,
  bool_decide (fget (w_fs w1) wdir = fget (w_fs w) wdir) && bool_decide (abs_of (enter home w1) (B "w") = wdir) &&
  then_some (mount_of (enter home w1) wdir) (λ m, bool_decide (mount_view (w_fs (enter home w1)) m [B "f"] = Some (FFile (B "mine")))))) = true.
Proof. vm_compute. reflexivity. Qed.
Example C79_init_sat : ∃ w mid y hid a m, in_order sample_dr (enter home w) ∧ workspace_at sample_dr (enter home w) wdir mid y hid a ∧ abs_of (enter home w) (B "w") = wdir ∧
  mount_of (enter home w) wdir = Some m ∧ mount_view (w_fs (enter home w)) m [B "f"] = Some (FFile (B "mine")).
Proof.
  destruct C67_C68_C69_sat as [_ (w & mid & y & hid & a & rid & E & Io & Wa & _)].
  pose proof shows_test as H. destruct (then_ok_inv _ _ H) as ([] & w' & E' & H1). clear H. rewrite E in E'. apply (f_equal snd) in E'. cbn [snd] in E'. subst w'.
  cbv beta in H1. apply andb_true_iff in H1 as [H1 H2]. destruct (then_some_inv _ _ H2) as (w1 & Ep & H3). clear H2. cbv beta in H3. apply andb_true_iff in H3 as [H3 H5]. apply andb_true_iff in H3 as [H3 H4].
  apply bool_decide_eq_true in H3, H4. destruct (then_some_inv _ _ H5) as (m & Em & H6). clear H5. cbv beta in H6. apply bool_decide_eq_true in H6.
  pose proof (put_step _ _ _ _ _ _ H1 Ep) as U. exists w1, mid, y, hid, a, m.
  split; [apply enter_order; exact (user_order _ _ _ Io U)|]. split; [apply enter_workspace; exact (user_workspace _ _ _ _ _ _ _ _ Io U H3 Wa)|]. split; [exact H4|]. split; [exact Em|exact H6].
Qed.
Print Assumptions C78_C79_sat.
Print Assumptions C79_init_sat.
