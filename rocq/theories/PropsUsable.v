(** * PropsUsable: on a machine in working order the commands succeed, again and again (C67, C68, C69) *)
From Verif Require Import Base Uid SpecUid UidProofs Tree SpecTree TreeRefine TreeObs Dump DumpProofs Json JsonProofs Save SaveProofs Branch BranchProofs Date Ws SpecWs WsProofs
  Fs Overlay Os Layers Mounts Space Manager Commands FsProofs OsProofs LayerProofs MountProofs SpaceProofs ManagerProofs SpecWorld SpecOps SavedProofs FaultProofs ReadyProofs OpProofs CalmProofs
  SpecMachine SpecCmds MachineProofs OpenProofs CmdProofs ExpandProofs DetProofs SpecTidy TidyProofs Sample SampleProofs Story StoryProofs SpecUsable UsableProofs UsableCmdProofs UsableInitProofs UsableSeqProofs
  PropsCommit PropsCmds PropsShow.
From Coq Require Import Lia.
From stdpp Require Import prelude gmap.

(** ** C67 *)
(** init succeeds in an empty directory and where there is nothing yet. *)
Theorem C67_init : ∀ dr args branch o w d p, plain_path dr → good_path dr → fair o → no_faults o → new_ids dr o w → in_order dr w →
  runs_in w d → abs_from d (default (B ".") (head args)) = p → outside dr p → can_replace w p → fget (w_fs w) p = None ∨ is_dir_at (w_fs w) p = true → fits dr 1 →
  ∃ w' mid y id rid, cmd_init dr args branch o w = (Ok tt, w') ∧ put_at dr w w' p None mid y id (fresh_tree rid id (ws_id y) branch) ∧
    ws_path y = p ∧ ws_branch y = branch ∧ fget (w_fs w) (tree_at dr (sp_id (ws_space y))) = None ∧ rid ≠ id.
Proof.
  intros dr args branch o w d p P G F N Nw Io R Ha Op Cr He Fi.
  destruct (init_fine _ _ branch _ _ _ _ P G F N Nw Io R Ha Op Cr He Fi) as (w' & mid & y & id & rid & E & Pa & E1 & E2 & E3 & Ne & _).
  by exists w', mid, y, id, rid.
Qed.
(** commit succeeds exactly if the workspace is detached or its branch lies behind it. *)
Theorem C67_commit : ∀ dr msg o w p mid y hid a ch, plain_path dr → good_path dr → fair o → no_faults o → new_ids dr o w → in_order dr w →
  workspace_at dr w p mid y hid a → outside dr p → runs_in w p → chain a hid ch → fits dr (length ch) →
  ((∃ w', cmd_commit dr msg o w = (Ok tt, w')) ↔ may_commit (read_back y) a hid) ∧
  ∀ w', cmd_commit dr msg o w = (Ok tt, w') → ∃ mid' y' id a' n, op_tree (read_back y) hid (OCommit (Some (fmt_rfc3339 (ch_time (o n)))) msg) a a' ∧
    put_at dr w w' p (Some mid) mid' y' id a' ∧ ws_path y' = p ∧ ws_id y' = ws_id y ∧ ws_branch y' = sanitize (ws_branch y) ∧ sp_id (ws_space y') = sp_id (ws_space y) ∧
    mid' ≠ mid ∧ ¬ has a id.
Proof.
  intros dr msg o w p mid y hid a ch P G F N Nw Io Wa Op R C Fi.
  assert (∀ w', cmd_commit dr msg o w = (Ok tt, w') → may_commit (read_back y) a hid) as Hm.
  { intros w' E. destruct (open_fine dr w p mid y hid a (B ".") p o G F N Io Wa R) as (h & t & k & E1 & Hk & Lv); [apply join_dot|].
    unfold cmd_commit in E. unfold bind at 1 in E. rewrite E1 in E. clear E1. unfold bind at 1, next_choice in E. apply bind_ok in E as (y1 & w1 & E & _).
    set (x := WS _ _ _ _ h _) in *. assert (live dr (tick (upd w (w_fs w) (w_mounts w) t k)) x a hid) as Lv1 by (destruct Lv as [A1 A2 A3 A4 A5]; by constructor).
    destruct (decide (sanitize (ws_branch y) = [])) as [Q|Nb]; [by left|right].
    destruct (run_op_any dr x (OCommit _ msg) o _ _ _ a hid F Lv1 E) as [_ [[D Fr]|(a' & (n & id & _ & _ & Hr) & _)]]; [by destruct (Fr y1)|].
    destruct Hr as [[? _]|(_ & _ & ?)]; done. }
  split; [split|].
  - intros [w' E]. by eapply Hm.
  - intros M. destruct (commit_fine _ msg _ _ _ _ _ _ _ _ P G F N Nw Io Wa Op R C Fi M) as (w' & mid' & y' & id & a' & n & E & _). by exists w'.
  - intros w' E. destruct (commit_fine _ msg _ _ _ _ _ _ _ _ P G F N Nw Io Wa Op R C Fi (Hm _ E)) as (w2 & mid' & y' & id & a' & n & E' & H). rewrite E in E'. injection E' as <-.
    by exists mid', y', id, a', n.
Qed.
(** checkout succeeds exactly if the name means something. *)
Theorem C67_checkout : ∀ dr key o w p mid y hid a, plain_path dr → good_path dr → fair o → no_faults o → new_ids dr o w → in_order dr w →
  workspace_at dr w p mid y hid a → outside dr p → runs_in w p → key = B "HEAD" ∨ decode_b32 key ≠ Panic → (∀ c ch, chain a c ch → fits dr (length ch)) →
  ((∃ w', cmd_checkout dr key o w = (Ok tt, w')) ↔ is_Some (found_id (resolve a (ws_id y) hid key))) ∧
  ∀ w', cmd_checkout dr key o w = (Ok tt, w') → ∃ mid' y' id a', op_tree (read_back y) hid (OCheckout key) a a' ∧
    put_at dr w w' p (Some mid) mid' y' id a' ∧ ws_path y' = p ∧ ws_id y' = ws_id y ∧
    ws_branch y' = (match resolve a (ws_id y) hid key with SpecTree.FBranch _ => key | _ => [] end) ∧ sp_id (ws_space y') = sp_id (ws_space y) ∧
    mid' ≠ mid ∧ ¬ has a id.
Proof.
  intros dr key o w p mid y hid a P G F N Nw Io Wa Op R Hk Fi.
  assert (∀ w', cmd_checkout dr key o w = (Ok tt, w') → ∃ c ch, found_id (resolve a (ws_id y) hid key) = Some c ∧ chain a c ch) as Hm.
  { intros w' E. destruct (open_fine dr w p mid y hid a (B ".") p o G F N Io Wa R) as (h & t & k & E1 & Hk' & Lv); [apply join_dot|].
    unfold cmd_checkout in E. unfold bind at 1 in E. rewrite E1 in E. clear E1. apply bind_ok in E as (y1 & w1 & E & _). set (x := WS _ _ _ _ h _) in *.
    destruct (op_makes dr x (OCheckout key) o _ _ _ a hid F Lv ltac:(eauto) E) as (mid1 & id1 & ch & a' & [_ _ _ (base & Ab & Ac) _ _ _ _ _ _ _ _ _]). by exists base, ch. }
  assert (∀ c ch, found_id (resolve a (ws_id y) hid key) = Some c → chain a c ch → ∃ w' mid' y' id a', cmd_checkout dr key o w = (Ok tt, w') ∧ op_tree (read_back y) hid (OCheckout key) a a' ∧
    put_at dr w w' p (Some mid) mid' y' id a' ∧ ws_path y' = p ∧ ws_id y' = ws_id y ∧
    ws_branch y' = (match resolve a (ws_id y) hid key with SpecTree.FBranch _ => key | _ => [] end) ∧ sp_id (ws_space y') = sp_id (ws_space y) ∧
    mid' ≠ mid ∧ ¬ has a id) as Hf.
  { intros c ch Hc C. exact (checkout_fine _ _ _ _ _ _ _ _ _ _ _ P G F N Nw Io Wa Op R Hc Hk C (Fi _ _ C)). }
  split; [split|].
  - intros [w' E]. destruct (Hm _ E) as (c & ch & Hc & _). by exists c.
  - intros [c Hc]. pose proof (holds_rooted _ _ _ (wa_tree _ _ _ _ _ _ _ Wa)) as Ro.
    assert (has a c) as Hh by (by eapply resolve_has). destruct (chain_exists _ _ Ro Hh) as [ch C]. destruct (Hf c ch Hc C) as (w' & mid' & y' & id & a' & E & _). by exists w'.
  - intros w' E. destruct (Hm _ E) as (c & ch & Hc & C). destruct (Hf c ch Hc C) as (w2 & mid' & y' & id & a' & E' & H). rewrite E in E'. injection E' as <-. by exists mid', y', id, a'.
Qed.
(** clone succeeds, to an empty directory, to where there is nothing yet, or over a link. *)
Theorem C67_clone : ∀ dr source target o w d p mid y hid a c ch q, plain_path dr → good_path dr → fair o → no_faults o → new_ids dr o w → in_order dr w →
  workspace_at dr w p mid y hid a → runs_in w d → abs_from d source = p → abs_from d (default (B ".") target) = q → outside dr q → can_replace w q →
  SpecTree.parent_of a hid c → chain a c ch → fits dr (length ch) →
  ∃ w' mid' y' id a', cmd_clone dr source target o w = (Ok tt, w') ∧ op_tree (read_back y) hid (OClone q) a a' ∧
    put_at dr w w' q None mid' y' id a' ∧ ws_path y' = q ∧ ws_branch y' = sanitize (ws_branch y) ∧ sp_id (ws_space y') = sp_id (ws_space y) ∧ mid' ≠ mid ∧ ¬ has a id.
Proof. exact clone_fine. Qed.
Print Assumptions C67_init.
Print Assumptions C67_commit.
Print Assumptions C67_checkout.
Print Assumptions C67_clone.

(** ** C68 *)
(** Any number of workspaces with different IDs, of one space or of several: commits in any of them, in any order, succeed as long
    as the stacks of layers stay short enough for the kernel. Afterwards all of them can commit again. *)
Theorem C68_crowd : ∀ dr (ws : list (path * uid)) l w n, plain_path dr → good_path dr →
  (∀ p i q j, (p, i) ∈ ws → (q, j) ∈ ws → (p = q ↔ i = j)) → (∀ p i, (p, i) ∈ ws → outside dr p) → (∀ p m, (p, m) ∈ l → ∃ i, (p, i) ∈ ws) →
  in_order dr w → (∀ p i, (p, i) ∈ ws → can_commit_at dr w n p i) → fits dr (n + length l) →
  commits dr ws.*1 l (λ w', in_order dr w' ∧ ∀ p i, (p, i) ∈ ws → can_commit_at dr w' (n + length l) p i) w.
Proof. intros dr ws l w n P G Hd Ho Hl Io Hc Fi. by apply crowd_fine. Qed.
Print Assumptions C68_crowd.

(** ** C69 *)
(** Commits in one workspace, in any number of processes: the history afterwards is the messages, newest first, on top of the old
    history, and the branch is at the newest commit. *)
Theorem C69_history : ∀ dr p l w mid y hid a rest, plain_path dr → good_path dr → outside dr p → in_order dr w → workspace_at dr w p mid y hid a →
  may_commit (read_back y) a hid → chain a hid (hid :: rest) → fits dr (length rest + length l) →
  commits dr [p] (pair p <$> l) (λ w', ∃ mid' y' hid' a' cs, in_order dr w' ∧ workspace_at dr w' p mid' y' hid' a' ∧ may_commit (read_back y') a' hid' ∧
    ws_id y' = ws_id y ∧ sanitize (ws_branch y') = sanitize (ws_branch y) ∧ sp_id (ws_space y') = sp_id (ws_space y) ∧
    chain a' hid' (hid' :: cs ++ rest) ∧ Forall2 (has_message a') cs (reverse (sanitize <$> l)) ∧ (∀ i, i ∈ rest → a_nodes a' !! i = a_nodes a !! i) ∧
    (sanitize (ws_branch y) ≠ [] → a_branches a' !! local_key (ws_id y) (sanitize (ws_branch y)) =
       match cs with [] => a_branches a !! local_key (ws_id y) (sanitize (ws_branch y)) | c :: _ => Some c end)) w.
Proof. intros dr p l w mid y hid a rest P G Op Io Wa Hm C Fi. eapply commits_fine; try done. by left. Qed.
Print Assumptions C69_history.
(** The same from the beginning: init, then any number of commits. *)
Lemma fresh_good rid id y branch : rid ≠ id → valid_utf8 branch = true → ws_branch y = branch → let a := fresh_tree rid id (ws_id y) branch in
  san_tree a = a ∧ chain a id [id; rid] ∧ may_commit (read_back y) a id ∧ SpecTree.parent_of a id rid.
Proof.
  intros Ne V Eb a. assert (SpecTree.parent_of a id rid) as Hp by (exists (ANode (Some rid) ∅ ∅); split; [|done]; unfold a; cbn [fresh_tree a_nodes]; by rewrite lookup_insert_ne, lookup_singleton by done).
  assert (is_root a rid) as Hr by (exists (ANode None ∅ ∅); split; [|done]; unfold a; cbn [fresh_tree a_nodes]; by rewrite lookup_insert).
  split; [|split; [|split; [|done]]].
  - apply san_tree_id. split; [|split].
    + intros k v H. cbn [a fresh_tree a_branches] in H. apply lookup_singleton_Some in H as [<- _]. by rewrite local_key_valid.
    + intros k v H. cbn [a fresh_tree a_tags] in H. by apply lookup_singleton_Some in H as [<- _].
    + intros i an H. cbn [a fresh_tree a_nodes] in H. apply lookup_insert_Some in H as [[_ <-]|[_ H]]; [done|]. by apply lookup_singleton_Some in H as [_ <-].
  - by apply (chain_step _ _ rid), chain_root.
  - right. exists rid. cbn [read_back ws_branch ws_id]. rewrite Eb, sanitize_valid by done. split; [unfold a; cbn [fresh_tree a_branches]; by rewrite lookup_singleton|]. by apply rtc_once.
Qed.
Theorem C69_from_init : ∀ dr args branch l o w d p, plain_path dr → good_path dr → fair o → no_faults o → new_ids dr o w → in_order dr w →
  runs_in w d → abs_from d (default (B ".") (head args)) = p → outside dr p → can_replace w p → fget (w_fs w) p = None ∨ is_dir_at (w_fs w) p = true →
  valid_utf8 branch = true → branch ≠ [] → fits dr (1 + length l) →
  ∃ w0, cmd_init dr args branch o w = (Ok tt, w0) ∧ commits dr [p] (pair p <$> l) (λ w', ∃ mid y hid a cs rid, in_order dr w' ∧ workspace_at dr w' p mid y hid a ∧
    sanitize (ws_branch y) = branch ∧ is_root a rid ∧ chain a hid (hid :: cs ++ [rid]) ∧ Forall2 (has_message a) cs (reverse (sanitize <$> l)) ∧
    a_branches a !! local_key (ws_id y) branch = Some (default rid (head cs))) w0.
Proof.
  intros dr args branch l o w d p P G F N Nw Io R Ha Op Cr He V Nb Fi.
  destruct (C67_init dr args branch o w d p P G F N Nw Io R Ha Op Cr He) as (w0 & mid & y & id & rid & E & Pa & _ & Eb & _ & Ne); [eapply fits_less; [exact Fi|lia]|].
  exists w0. split; [exact E|]. destruct (fresh_good rid id y branch Ne V Eb) as (Es & C & Hm & _). destruct Pa as [Io0 Wa0 _ _ _ _ _ _ _]. rewrite Es in Wa0.
  set (a := fresh_tree rid id (ws_id y) branch) in *. refine (commits_weaken _ _ _ _ _ _ _ (C69_history dr p l w0 mid y id a [rid] P G Op Io0 Wa0 Hm C Fi)).
  intros w' (mid' & y' & hid' & a' & cs & A1 & A2 & _ & A3 & A4 & _ & A5 & A6 & A7 & A8). exists mid', y', hid', a', cs, rid.
  rewrite Eb, (sanitize_valid branch) in A4 by exact V. rewrite Eb, (sanitize_valid branch) in A8 by exact V. split; [exact A1|]. split; [exact A2|]. split; [exact A4|]. split; [|split; [exact A5|split; [exact A6|]]].
  - exists (ANode None ∅ ∅). split; [|done]. rewrite (A7 rid) by (by left). unfold a. cbn [fresh_tree a_nodes]. by rewrite lookup_insert.
  - rewrite A3, (A8 Nb). destruct cs; [|done]. unfold a. cbn [fresh_tree a_branches]. by rewrite lookup_singleton.
Qed.
Print Assumptions C69_from_init.

(** ** Concrete cases *)
Definition ids_check (dr : path) (o : oracle) (w : world) : bool :=
  forallb (λ n, bool_decide (fget (w_fs w) (mount_dir dr (ch_uid (o n))) = None ∧ fget (w_fs w) (ws_file dr (ch_uid (o n))) = None ∧
                             fget (w_fs w) (layer_dir (layers_root dr) (ch_uid (o n))) = None ∧ fget (w_fs w) (space_dir dr (ch_uid (o n))) = None) &&
                forallb (λ k, bool_decide (ch_uid (o k) ≠ ch_uid (o n))) (seq (w_tick w) (n - w_tick w))) (seq (w_tick w) 41).
Lemma ids_check_ok dr o w : ids_check dr o w = true → new_ids dr o w.
Proof.
  unfold ids_check. rewrite forallb_forall. intros H n Hn. specialize (H n). rewrite in_seq, andb_true_iff, bool_decide_eq_true, forallb_forall in H.
  destruct H as [(A1 & A2 & A3 & A4) H]; [lia|]. split_and!; try done. intros k Hk. specialize (H k). rewrite in_seq, bool_decide_eq_true in H. apply H. lia.
Qed.
Lemma sample_order : in_order sample_dr sample_world.
Proof. constructor; [exact sample_machine|intros m Hm; by apply elem_of_nil in Hm|reflexivity..]. Qed.
Lemma wdir_real : real_path (w_fs sample_world) wdir = Some wdir.
Proof. vm_compute. reflexivity. Qed.
Lemma wdir_empty : no_children (w_fs sample_world) wdir = true.
Proof. vm_compute. reflexivity. Qed.
Lemma wdir_free : can_replace (enter wdir sample_world) wdir.
Proof.
  right. split; [exists wdir; exact wdir_real|]. intros _. split; [|intros m Hm; by apply elem_of_nil in Hm]. intros n. exact (no_children_ok (w_fs sample_world) wdir n wdir_empty).
Qed.
Definition vdir : path := [B "h"; B "v"].
(** init in /h/w; then clone to /h/v, which does not exist *)
Lemma usable_test : ids_check sample_dr calm (enter wdir sample_world) && then_ok (cmd_init sample_dr [] (B "main") calm (enter wdir sample_world)) (λ _ w,
  ids_check sample_dr calm (enter wdir w) && ids_check sample_dr calm (enter home w) && bool_decide (fget (w_fs w) vdir = None ∧ is_dir_at (w_fs w) home = true ∧ w_cwd (enter home w) = home)) = true.
Proof. vm_compute. reflexivity. Qed.
Lemma fresh_chains rid id wid branch c ch : rid ≠ id → chain (fresh_tree rid id wid branch) c ch → length ch ≤ 2.
Proof.
  intros Ne C. destruct C as [c Hr|c q l Hp C]; [cbn [length]; lia|]. rewrite (fresh_parent _ _ _ _ _ _ Hp) in C. inversion C as [c' Hr|c' q' l' Hp' C' Q1 Q2]; [cbn [length]; lia|].
  destruct Hp' as (n & E & Ep). cbn [fresh_tree a_nodes] in E. rewrite lookup_insert in E. injection E as <-. done.
Qed.
Example C67_C68_C69_sat :
  (new_ids sample_dr calm (enter wdir sample_world) ∧ in_order sample_dr (enter wdir sample_world) ∧ runs_in (enter wdir sample_world) wdir ∧
   abs_from wdir (B ".") = wdir ∧ outside sample_dr wdir ∧ can_replace (enter wdir sample_world) wdir ∧ is_dir_at (w_fs (enter wdir sample_world)) wdir = true ∧ fits sample_dr 40) ∧
  ∃ w mid y hid a rid, cmd_init sample_dr [] (B "main") calm (enter wdir sample_world) = (Ok tt, w) ∧
    in_order sample_dr w ∧ workspace_at sample_dr w wdir mid y hid a ∧ new_ids sample_dr calm (enter wdir w) ∧ runs_in (enter wdir w) wdir ∧
    may_commit (read_back y) a hid ∧ chain a hid [hid; rid] ∧ found_id (resolve a (ws_id y) hid (B "ROOT")) = Some rid ∧ decode_b32 (B "ROOT") ≠ Panic ∧
    (∀ c ch, chain a c ch → fits sample_dr (length ch)) ∧
    new_ids sample_dr calm (enter home w) ∧ runs_in (enter home w) home ∧ abs_from home (B "w") = wdir ∧ abs_from home (B "v") = vdir ∧ outside sample_dr vdir ∧
    can_replace (enter home w) vdir ∧ SpecTree.parent_of a hid rid ∧ can_commit_at sample_dr w 2 wdir (ws_id y).
Proof.
  pose proof usable_test as H. apply andb_true_iff in H as [H0 H]. apply ids_check_ok in H0. destruct (then_ok_inv _ _ H) as ([] & w & E & H1). clear H.
  cbv beta in H1. apply andb_true_iff in H1 as [H1 I3]. apply andb_true_iff in H1 as [I1 I2]. apply ids_check_ok in I1, I2. apply bool_decide_eq_true in I3 as (I3 & I4 & I5).
  assert (in_order sample_dr (enter wdir sample_world)) as Io by (apply enter_order, sample_order).
  assert (runs_in (enter wdir sample_world) wdir) as R by (apply in_dir; [reflexivity|vm_compute; reflexivity|right; reflexivity]).
  assert (abs_from wdir (B ".") = wdir) as Ea by (vm_compute; reflexivity).
  pose proof wdir_free as Cr.
  assert (is_dir_at (w_fs (enter wdir sample_world)) wdir = true) as De by (vm_compute; reflexivity).
  destruct sample_plain as [P G]. assert (∀ n, n ≤ 40 → fits sample_dr n) as Fi by (intros n Hn; by apply sample_fits).
  split.
  { split; [exact H0|]. split; [exact Io|]. split; [exact R|]. split; [exact Ea|]. split; [exact sample_outside|]. split; [exact Cr|]. split; [exact De|apply Fi; lia]. }
  destruct (C67_init sample_dr [] (B "main") calm (enter wdir sample_world) wdir wdir P G fair_calm calm_no_faults H0 Io R Ea sample_outside Cr (or_intror De)) as (w' & mid & y & hid & rid & E' & Pa & Ep & Eb & _ & Ne);
    [apply Fi; lia|]. rewrite E in E'. apply (f_equal snd) in E'. cbn [snd] in E'. subst w'.
  destruct (fresh_good rid hid y (B "main") Ne ltac:(vm_compute; reflexivity) Eb) as (Es & C & Hm & Hp). destruct Pa as [Io0 Wa0 _ _ _ _ _ _ _]. rewrite Es in Wa0.
  set (a := fresh_tree rid hid (ws_id y) (B "main")) in *. exists w, mid, y, hid, a, rid.
  split; [exact E|]. split; [exact Io0|]. split; [exact Wa0|]. split; [exact I1|]. split; [exact (enter_runs _ _ _ _ _ _ _ G Io0 Wa0)|]. split; [exact Hm|]. split; [exact C|].
  split.
  { unfold resolve. rewrite decide_False by (vm_compute; discriminate). assert (key_id (B "ROOT") = None) as -> by (vm_compute; reflexivity).
    unfold search_spec. assert (a_tags a !! B "ROOT" = Some rid) as -> by (unfold a; cbn [fresh_tree a_tags]; apply lookup_singleton). reflexivity. }
  split; [vm_compute; discriminate|]. split; [intros c ch Hc; apply Fi; pose proof (fresh_chains _ _ _ _ _ _ Ne Hc); lia|]. split; [exact I2|].
  split; [apply in_dir; [exact I4|exact I5|right; reflexivity]|]. split; [vm_compute; reflexivity|]. split; [vm_compute; reflexivity|]. split; [apply outside_test_ok; vm_compute; reflexivity|].
  split; [left; split; [exact I3|exact I4]|]. split; [exact Hp|].
  exists mid, y, hid, a, [hid; rid]. split; [exact Wa0|]. split; [reflexivity|]. split; [exact Hm|]. split; [exact C|cbn [length]; lia].
Qed.
(** Two workspaces, made by init in /h/w and in /h/v *)
Definition infos (dr : path) (fs : files) : list (path * bytes) :=
  omap (λ e, match e.2 with FFile d => if bool_decide (parent_dir e.1 = mounts_root dr) then (λ i, (e.1, wi_id i)) <$> unmarshal_wsinfo d else None | _ => None end) fs.
Definition infos_differ (dr : path) (fs : files) : bool :=
  forallb (λ e, forallb (λ e', bool_decide (e.1 = e'.1) || negb (bool_decide (e.2 = e'.2))) (infos dr fs)) (infos dr fs).
Lemma info_listed dr w p mid y hid a : workspace_at dr w p mid y hid a → (ws_file dr mid, uid_b32 (ws_id y)) ∈ infos dr (w_fs w).
Proof.
  intros [_ _ A3 _ _ _]. apply fget_elem in A3. apply elem_of_list_omap. eexists. split; [exact A3|]. cbn [fst snd]. rewrite bool_decide_true by (unfold ws_file; apply parent_dir_app).
  rewrite wsinfo_round. unfold san_wsinfo, ws_info. cbn [fmap option_fmap option_map wi_id]. by rewrite sanitize_b32.
Qed.
Lemma infos_differ_ok dr w p q mid mid' y y' hid hid' a a' : infos_differ dr (w_fs w) = true → workspace_at dr w p mid y hid a → workspace_at dr w q mid' y' hid' a' → mid ≠ mid' → ws_id y ≠ ws_id y'.
Proof.
  intros H W1%info_listed W2%info_listed N Q. unfold infos_differ in H. rewrite forallb_forall in H. apply elem_of_list_In, H in W1. rewrite forallb_forall in W1. apply elem_of_list_In, W1 in W2.
  cbn [fst snd] in W2. apply orb_true_iff in W2 as [W2|W2]; [|apply negb_true_iff, bool_decide_eq_false in W2; by rewrite Q in W2]. apply bool_decide_eq_true in W2.
  unfold ws_file in W2. apply app_inv_head in W2. injection W2 as W2. apply app_inj_2 in W2 as [W2 _]; [|done]. by apply N, uid_b32_inj.
Qed.
Lemma crowd_test : then_ok (cmd_init sample_dr [] (B "main") calm (enter wdir sample_world)) (λ _ w, ids_check sample_dr calm (enter home w) &&
  then_ok (cmd_init sample_dr [B "v"] (B "main") calm (enter home w)) (λ _ w2, ids_check sample_dr calm (enter wdir w2) && ids_check sample_dr calm (enter vdir w2) && infos_differ sample_dr (w_fs w2))) = true.
Proof. vm_compute. reflexivity. Qed.
Example C68_sat : ∃ w w2 mid y hid a rid mid2 y2 hid2 rid2,
  cmd_init sample_dr [] (B "main") calm (enter wdir sample_world) = (Ok tt, w) ∧ cmd_init sample_dr [B "v"] (B "main") calm (enter home w) = (Ok tt, w2) ∧
  in_order sample_dr w2 ∧ workspace_at sample_dr w2 wdir mid y hid a ∧ chain a hid [hid; rid] ∧
  workspace_at sample_dr w2 vdir mid2 y2 hid2 (fresh_tree rid2 hid2 (ws_id y2) (B "main")) ∧
  can_commit_at sample_dr w2 2 wdir (ws_id y) ∧ can_commit_at sample_dr w2 2 vdir (ws_id y2) ∧ ws_id y ≠ ws_id y2 ∧ outside sample_dr wdir ∧ outside sample_dr vdir ∧ fits sample_dr 40 ∧
  new_ids sample_dr calm (enter wdir w2) ∧ new_ids sample_dr calm (enter vdir w2) ∧ rid2 ≠ hid2 ∧ ws_branch y2 = B "main".
Proof.
  destruct C67_C68_C69_sat as [(_ & _ & _ & _ & Ow & _ & _ & Fi) (w & mid & y & hid & a & rid & E & Io & Wa & _ & _ & Hm & C & _ & _ & Hf & Nw & R & _ & Ev & Ov & Cr & _)].
  pose proof crowd_test as H. destruct (then_ok_inv _ _ H) as ([] & w' & E' & H1). clear H. rewrite E in E'. apply (f_equal snd) in E'. cbn [snd] in E'. subst w'.
  cbv beta in H1. apply andb_true_iff in H1 as [_ H1]. destruct (then_ok_inv _ _ H1) as ([] & w2 & E2 & H2). clear H1. cbv beta in H2. apply andb_true_iff in H2 as [H2 I3]. apply andb_true_iff in H2 as [I1 I2]. apply ids_check_ok in I1, I2.
  destruct sample_plain as [P G]. pose proof (enter_order sample_dr home w Io) as Io'.
  assert (fget (w_fs (enter home w)) vdir = None) as Nv.
  { destruct (then_ok_inv _ _ (proj2 (proj1 (andb_true_iff _ _) usable_test))) as ([] & w' & E' & H1). rewrite E in E'. apply (f_equal snd) in E'. cbn [snd] in E'. subst w'.
    cbv beta in H1. apply andb_true_iff in H1 as [_ H1]. apply bool_decide_eq_true in H1 as (H1 & _). exact H1. }
  destruct (init_fine sample_dr [B "v"] (B "main") calm (enter home w) home vdir P G fair_calm calm_no_faults Nw Io' R Ev Ov Cr (or_introl Nv)) as (w' & mid2 & y2 & hid2 & rid2 & E' & Pa & Ep & Eb & En & Ne & Nm & _);
    [apply (fits_less _ 40); [exact Fi|lia]|]. rewrite E2 in E'. apply (f_equal snd) in E'. cbn [snd] in E'. subst w'.
  destruct Pa as [Io2 W2 Ot _ _ _ _ _ _]. destruct (fresh_good rid2 hid2 y2 (B "main") Ne ltac:(vm_compute; reflexivity) Eb) as (Es & C2 & Hm2 & _). rewrite Es in *. set (a2 := fresh_tree rid2 hid2 (ws_id y2) (B "main")) in *.
  assert (workspace_at sample_dr w2 wdir mid y hid a) as W1.
  { specialize (Ot wdir mid y hid a (enter_workspace _ _ _ _ _ _ _ _ Wa) ltac:(vm_compute; discriminate) Ow ltac:(discriminate)).
    destruct (decide (sp_id (ws_space y) = sp_id (ws_space y2))) as [Q|_]; [|exact Ot]. destruct (wa_tree _ _ _ _ _ _ _ Wa) as (raw & Er & _). rewrite Q in Er. cbn [w_fs enter set_pwd set_cwd set_tree] in En. rewrite En in Er. done. }
  assert (mid ≠ mid2) as Nmid.
  { intros <-. pose proof (workspace_dir _ _ _ _ _ _ _ Io Wa) as D. apply dir_mount in D; [|apply (io_machine _ _ Io)]. unfold is_dir_at in D. cbn [w_fs enter set_pwd set_cwd set_tree] in Nm. by rewrite Nm in D. }
  exists w, w2, mid, y, hid, a, rid, mid2, y2, hid2, rid2.
  split; [exact E|]. split; [exact E2|]. split; [exact Io2|]. split; [exact W1|]. split; [exact C|]. split; [exact W2|].
  split; [exists mid, y, hid, a, [hid; rid]; split; [exact W1|]; split; [reflexivity|]; split; [exact Hm|]; split; [exact C|cbn [length]; lia]|].
  split; [exists mid2, y2, hid2, a2, [hid2; rid2]; split; [exact W2|]; split; [reflexivity|]; split; [exact Hm2|]; split; [exact C2|cbn [length]; lia]|].
  split; [exact (infos_differ_ok _ _ _ _ _ _ _ _ _ _ _ _ I3 W1 W2 Nmid)|]. split; [exact Ow|]. split; [exact Ov|]. split; [exact Fi|]. split; [exact I1|]. split; [exact I2|]. split; [exact Ne|exact Eb].
Qed.
