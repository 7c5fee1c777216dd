(** * PropsTaken: init sees what is in its target, also inside mounts (C100) *)
From Verif Require Import Base Uid Tree Dump Save Branch Date Ws Fs Overlay Edits Os Layers Mounts Space Manager Commands FsProofs OsProofs LayerProofs SpecWorld SpecOps FaultProofs SpecMachine SpecCmds Sample SampleProofs Story SpecUsable
  StoryProofs PropsVcs Deep SpecDeep DeepProofs SpecResolve PropsResolve SpecEdits PropsEdits SpecSnap PropsDeep DeepStart.
From Coq Require Import Lia.
From stdpp Require Import prelude gmap.

Lemma prefix_last (x q : path) n : x ≠ q ++ [n] → is_prefix x (q ++ [n]) = is_prefix x q.
Proof.
  intros Nx. apply eq_true_iff_eq. rewrite !is_prefix_spec. split; intros [k E].
  - destruct k as [|a k _] using rev_ind; [by rewrite app_nil_r in E|]. rewrite app_assoc in E. apply app_inj_tail in E as [E _]. by exists k.
  - exists (k ++ [n]). by rewrite E, app_assoc.
Qed.
Lemma over_last ms q n : (∀ m, m ∈ ms → mn_at m ≠ q ++ [n]) → mount_over ms (q ++ [n]) = mount_over ms q.
Proof.
  induction ms as [|m ms IH]; intros H; [done|]. cbn [mount_over]. rewrite IH by (intros m' Hm; apply H; by right). by rewrite (prefix_last _ _ _ (H m ltac:(by left))).
Qed.
Lemma view_name fs ds k n x : view (layer_at fs <$> ds) (k ++ [n]) = Some x → n ∈ concat ((λ d, children fs (d ++ k)) <$> ds).
Proof.
  induction ds as [|d ds IH]; intros E; [done|]. cbn [fmap list_fmap view concat] in E |- *. apply elem_of_app. unfold layer_at in E at 1. destruct (fget fs (d ++ k ++ [n])) as [z|] eqn:Ez.
  - left. apply children_elem. exists z. by rewrite <-app_assoc.
  - right. destruct (covered _ _); [done|exact (IH E)].
Qed.
(** A directory lists exactly what is there. *)
Theorem C100_names : ∀ w q n, (∀ m, m ∈ w_mounts w → mn_at m ≠ q ++ [n]) → n ∈ names_in w q ↔ is_Some (obj_at w (q ++ [n])).
Proof.
  intros w q n H. unfold names_in, obj_at. rewrite (over_last _ _ _ H). destruct (mount_over (w_mounts w) q) as [m|] eqn:Em; [|apply children_elem].
  destruct (C94_topmost (w_mounts w) q) as [T _]. destruct (T m Em) as (Pm & l1 & l2 & El & _). assert (m ∈ w_mounts w) as Hm by (rewrite El; apply elem_of_app; right; by left).
  rewrite (decide_False (P := mn_at m = q ++ [n])) by (by apply H). apply is_prefix_spec in Pm as [k ->]. rewrite <-app_assoc, !drop_app. unfold mount_view.
  destruct (decide (mn_at m = mn_at m ++ k)) as [Q|Q].
  - assert (k = []) as -> by (rewrite <-(app_nil_r (mn_at m)) in Q at 1; by apply app_inv_head in Q). cbn [app]. unfold top_names. rewrite elem_of_list_filter, merge_sort_Permutation, elem_of_remove_dups. split; [by intros [A _]|]. intros [x Hx]. split; [by exists x|].
    pose proof (view_name _ _ [] _ _ Hx) as V. rewrite (list_fmap_ext _ (children (w_fs w))) in V; [done|]. intros i y _. by rewrite app_nil_r.
  - rewrite elem_of_list_filter, merge_sort_Permutation, elem_of_remove_dups. split; [by intros [A _]|]. intros [x Hx]. split; [by exists x|]. by eapply view_name.
Qed.
Print Assumptions C100_names.
Lemma names_ext w w' q : w_fs w' = w_fs w → w_mounts w' = w_mounts w → names_in w' q = names_in w q.
Proof. intros E1 E2. unfold names_in. by rewrite E1, E2. Qed.
(** utils/fs IsEmptyDir says yes exactly if the path leads to a directory in which nothing is. *)
Theorem C100_empty : ∀ w p o, no_faults o → ∃ b k, deep_is_empty_dir p o w = (Ok b, aged k w) ∧
  (b = true ↔ ∃ q, leads w p = Some q ∧ dir_here w q = true ∧ names_in w q = []).
Proof.
  intros w p o N. assert (deep_is_dir p o w = (Ok (match leads w p with Some q => dir_here w q | None => false end), tick w)) as E1.
  { unfold deep_is_dir, bind, attempt, look, sys_atomic. rewrite N. cbv beta iota. rewrite (leads_ext w) by reflexivity. destruct (leads w p) as [q|]; [|reflexivity].
    cbn [fmap option_fmap option_map opt_to_res]. rewrite (dir_ext w) by reflexivity. reflexivity. }
  unfold deep_is_empty_dir. unfold bind at 1. rewrite E1. destruct (leads w p) as [q|] eqn:L.
  2: { exists false, 1. split; [reflexivity|]. split; [discriminate|]. intros (q & Q & _). discriminate Q. }
  destruct (dir_here w q) eqn:D.
  2: { exists false, 1. split; [reflexivity|]. split; [discriminate|]. intros (q' & Q & D' & _). injection Q as <-. congruence. }
  assert (attempt (deep_readdir p) o (tick w) = (Ok (inl (names_in w q)), tick (tick w))) as E2.
  { unfold deep_readdir, attempt, look, sys_atomic. rewrite N. cbv beta iota. rewrite (leads_ext w) by reflexivity. rewrite L, (dir_ext w) by reflexivity. rewrite D, (names_ext w) by reflexivity. reflexivity. }
  unfold bind at 1. rewrite E2. destruct (names_in w q) as [|n l] eqn:E.
  - exists true, 2. split; [reflexivity|]. split; [intros _; by exists q|done].
  - exists false, 2. split; [reflexivity|]. split; [discriminate|]. intros (q' & Q & _ & E'). injection Q as <-. congruence.
Qed.
Print Assumptions C100_empty.
(** Whatever fails, it never says so of anything else. *)
Theorem C100_never : ∀ w p o w', deep_is_empty_dir p o w = (Ok true, w') → ∃ q, leads w p = Some q ∧ dir_here w q = true ∧ names_in w q = [].
Proof.
  intros w p o w' E. unfold deep_is_empty_dir in E. apply bind_any in E as [(d & w1 & E1 & E)|(r1 & _ & _ & Fr)]; [|by destruct (Fr true)].
  assert (w_fs w1 = w_fs w ∧ w_mounts w1 = w_mounts w) as [F1 F2].
  { unfold deep_is_dir, bind, attempt in E1. destruct (look _ o w) as [[b|e| | |] w2] eqn:El; apply look_apart in El as (A1 & A2 & _); try discriminate E1; injection E1 as _ <-; done. }
  destruct d; [|discriminate E]. apply bind_any in E as [(r & w2 & E2 & E)|(r1 & _ & _ & Fr)]; [|by destruct (Fr true)].
  unfold attempt, deep_readdir, look, sys_atomic in E2. cbv zeta in E2. rewrite (leads_ext w) in E2 by done.
  destruct r as [l|e]; [|discriminate E]. destruct l as [|n l]; [|discriminate E].
  destruct (ch_fault _) as [|e n|[|n]]; try discriminate E2. destruct (leads w p) as [q|]; [|discriminate E2]. rewrite (dir_ext w) in E2 by done. destruct (dir_here w q) eqn:D; [|discriminate E2].
  rewrite (names_ext w) in E2 by done. injection E2 as E2 _. by exists q.
Qed.
Print Assumptions C100_never.
(** init is refused where its path leads to something other than an empty directory, through links and inside mounts too, and changes nothing. *)
Definition taken (w : world) (q : path) : Prop :=
  dir_here w q = false ∨ ∃ n, is_Some (obj_at w (q ++ [n])) ∧ ∀ m, m ∈ w_mounts w → mn_at m ≠ q ++ [n].
Theorem C100_init : ∀ dr w d args branch o q, no_faults o → leads w d = Some (w_cwd (deep_enter d w)) → dir_here w (w_cwd (deep_enter d w)) = true →
  leads w (Fs.abs_from d (default (B ".") (head args))) = Some q → taken w q → ∃ k, deep_run dr (CInit args branch) o (deep_enter d w) = (Err ENotEmptyDir, aged k (deep_enter d w)).
Proof.
  intros dr w d args branch o q N Ld Dd Lq T. cbn [deep_run]. unfold deep_init. set (arg := default (B ".") (head args)) in *. clearbody arg. set (p := Fs.abs_from d arg) in *.
  assert (deep_getwd_of (deep_enter d w) = d) as Eg.
  { unfold deep_getwd_of. change (w_pwd (deep_enter d w)) with (Some d). cbv iota beta. rewrite decide_True; [done|]. rewrite (leads_ext w) by reflexivity. exact Ld. }
  set (k := if is_abs arg then 0 else 1).
  assert (deep_abs arg o (deep_enter d w) = (Ok p, aged k (deep_enter d w))) as Ea.
  { unfold deep_abs, p, Fs.abs_from, k. destruct (is_abs arg); [reflexivity|]. unfold deep_getwd, bind, look, sys_atomic. rewrite (N (w_tick (deep_enter d w))). cbv beta iota.
    rewrite (getwd_ext (deep_enter d w)) by reflexivity. rewrite Eg.
    assert (dir_here (tick (deep_enter d w)) d || bool_decide (d ≠ w_cwd (tick (deep_enter d w))) = true) as ->; [|reflexivity].
    destruct (decide (d = w_cwd (deep_enter d w))) as [Q|Q].
    - apply orb_true_iff. left. rewrite (dir_ext w) by reflexivity. rewrite Q. exact Dd.
    - apply orb_true_iff. right. apply bool_decide_eq_true. exact Q. }
  set (v1 := aged k (deep_enter d w)) in *. unfold bind at 1. rewrite Ea.
  assert (deep_exists p o v1 = (Ok true, tick v1)) as Ee.
  { unfold deep_exists, bind, attempt, look, sys_atomic. rewrite (N (w_tick v1)). cbv beta iota. rewrite (leads_ext w) by reflexivity. rewrite Lq. reflexivity. }
  unfold bind at 1. rewrite Ee. cbv beta iota. destruct (C100_empty (tick v1) p o N) as (b & k2 & E & Hb).
  assert (b = false) as ->.
  { destruct b; [|done]. destruct (proj1 Hb eq_refl) as (q' & L' & D' & E'). rewrite (leads_ext w) in L' by reflexivity. rewrite (dir_ext w) in D' by reflexivity. rewrite (names_ext w) in E' by reflexivity.
    assert (q' = q) as -> by congruence. destruct T as [T|(n & So & Hm)]; [congruence|]. apply (C100_names _ _ _ Hm) in So. rewrite E' in So. by apply elem_of_nil in So. }
  unfold bind at 1. unfold bind at 1. rewrite E. cbn [negb ret]. exists (k2 + S k). unfold fail. f_equal. unfold v1, aged, tick. cbn [w_fs w_mounts w_tree w_cwd w_pwd w_out w_tick w_ids w_owned]. f_equal. lia.
Qed.
Print Assumptions C100_init.

(** ** A directory with a file in a workspace, which no directory of the machine has *)
Definition in_dir : path := a_dir ++ [B "f"].
Lemma taken_test :
  then_ok (run_cmd sample_dr (CInit [B "w"] (B "main")) calm (enter home sample_world)) (λ _ w1,
  then_some (edit_at w1 wdir (EMkdir a_dir)) (λ u1, then_some (edit_at u1 wdir (EWrite in_dir (B "hi"))) (λ u2,
    let q := mount_point u2 ++ a_dir in
    bool_decide (leads u2 wdir = Some (w_cwd (deep_enter wdir u2))) && dir_here u2 (w_cwd (deep_enter wdir u2)) && bool_decide (leads u2 (Fs.abs_from wdir (B "a")) = Some q) && dir_here u2 q &&
    match obj_at u2 (q ++ [B "f"]) with Some _ => true | None => false end && forallb (λ m, bool_decide (mn_at m ≠ q ++ [B "f"])) (w_mounts u2) && negb (is_dir_at (w_fs u2) q)))) = true.
Proof. vm_compute. reflexivity. Qed.
Example C100_sat : ∃ w d args q, leads w d = Some (w_cwd (deep_enter d w)) ∧ dir_here w (w_cwd (deep_enter d w)) = true ∧ leads w (Fs.abs_from d (default (B ".") (head args))) = Some q ∧
  dir_here w q = true ∧ is_dir_at (w_fs w) q = false ∧ taken w q.
Proof.
  pose proof taken_test as H. destruct (then_ok_inv _ _ H) as ([] & w1 & _ & H1). clear H. cbv beta in H1. destruct (then_some_inv _ _ H1) as (u1 & _ & H2). clear H1. cbv beta in H2. destruct (then_some_inv _ _ H2) as (u2 & _ & H3). clear H2. cbv beta zeta in H3.
  apply andb_true_iff in H3 as [H3 A7]. apply andb_true_iff in H3 as [H3 A6]. apply andb_true_iff in H3 as [H3 A5]. apply andb_true_iff in H3 as [H3 A4]. apply andb_true_iff in H3 as [H3 A3]. apply andb_true_iff in H3 as [A1 A2].
  apply bool_decide_eq_true in A1. apply bool_decide_eq_true in A3. apply negb_true_iff in A7. rewrite forallb_forall in A6.
  exists u2, wdir, [B "a"], (mount_point u2 ++ a_dir). split; [exact A1|]. split; [exact A2|]. split; [exact A3|]. split; [exact A4|]. split; [exact A7|]. right. exists (B "f"). split.
  - destruct (obj_at u2 _) as [x|]; [exists x; reflexivity|discriminate A5].
  - intros m Hm. apply elem_of_list_In in Hm. specialize (A6 m Hm). by apply bool_decide_eq_true in A6.
Qed.
Print Assumptions C100_sat.
