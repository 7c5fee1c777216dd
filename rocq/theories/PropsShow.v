(** * PropsShow: what a workspace shows, and opening it again (C36, C41) *)
From Verif Require Import Base Uid SpecUid UidProofs Tree SpecTree TreeRefine TreeObs Dump DumpProofs Json JsonProofs Save SaveProofs Branch BranchProofs Date Ws SpecWs WsProofs
  Fs Overlay Os Layers Mounts Space Manager Commands Sample FsProofs OsProofs LayerProofs MountProofs SpaceProofs ManagerProofs SpecWorld SpecOps SavedProofs FaultProofs ReadyProofs OpProofs CalmProofs
  SpecMachine SpecCmds DetProofs MachineProofs OpenProofs CmdProofs SampleProofs ExpandProofs Story StoryProofs PropsBranch PropsCommit PropsCmds.
From Coq Require Import Lia.
From stdpp Require Import prelude gmap.

(** ** C36 *)
(** [x] is workspace [y] again: same ID, path, space and mount; the branch and the names in the tree are
    as their JSON text says (C19); the working layer is the same node. *)
Definition same_ws (t : tstate) (y : ws) (t' : tstate) (x : ws) : Prop :=
  ws_id x = ws_id y ∧ ws_path x = ws_path y ∧ ws_space x = ws_space y ∧ mv_id (ws_mount x) = mv_id (ws_mount y) ∧
  ws_branch x = sanitize (ws_branch y) ∧
  ∃ hid a, get t hid = Some (ws_head y) ∧ get t' hid = Some (ws_head x) ∧ repr t a ∧ repr t' (san_tree a).
Theorem C36_reopen : ∀ dr x op o w a hid y w1 w' o2 w2 arg, plain_path dr → good_path dr → fair o → machine dr (w_fs w) (w_mounts w) → live dr w x a hid →
  (∃ d m, op = OCommit d m) ∨ (∃ k, op = OCheckout k) ∨ (∃ p, op = OClone p) →
  outside dr (match op with OClone p => p | _ => ws_path x end) →
  run_op dr x op o w = (Ok y, w1) → expand y o w1 = (Ok tt, w') →
  same_disk w' w2 → fair o2 → no_faults o2 → finds w2 arg (ws_path y) →
  ∃ x2 w3, get_workspace dr arg o2 w2 = (Ok x2, w3) ∧ same_ws (w_tree w1) y (w_tree w3) x2.
Proof.
  intros dr x op o w a hid y w1 w' o2 w2 arg P G F Mc Lv Hop Ho E H [D1 D2] F2 N2 Ha.
  pose proof Lv as [W [R Gt] LP S D].
  apply (op_makes _ _ _ _ _ _ _ a hid) in E as (mid & id & ch & a' & Ma); [|done..].
  rewrite <-(ma_path _ _ _ _ _ _ _ _ _ _ _ _ Ma) in Ho.
  destruct (made_settles _ _ _ _ _ _ _ _ _ _ _ _ _ _ P G Ho W S Ma H) as ((m & St & _) & _).
  pose proof (rd_live _ _ _ _ _ (ma_ready _ _ _ _ _ _ _ _ _ _ _ _ Ma)) as Lv'. pose proof Lv' as [_ [R' Gt'] _ _ _].
  assert (settled dr w2 y mid id ch a' m) as St2 by (destruct St; rewrite <-D1, <-D2 in *; by constructor).
  destruct (reopen _ _ _ _ _ _ _ _ _ _ G F2 N2 St2 (ready_has _ _ _ _ _ Lv') Ha) as (x2 & w3 & Ex & I1 & I2 & I3 & I4 & I5 & I6 & I7 & I8).
  exists x2, w3. split; [done|]. unfold same_ws. rewrite I4, (ma_mount _ _ _ _ _ _ _ _ _ _ _ _ Ma). do 5 (split; [done|]). by exists id, a'.
Qed.
Theorem C36_reopen_new : ∀ dr p branch o w y w1 w' o2 w2 arg, plain_path dr → good_path dr → fair o → machine dr (w_fs w) (w_mounts w) → outside dr p →
  create_workspace dr p branch o w = (Ok y, w1) → expand y o w1 = (Ok tt, w') →
  same_disk w' w2 → fair o2 → no_faults o2 → finds w2 arg p →
  ∃ x2 w3, get_workspace dr arg o2 w2 = (Ok x2, w3) ∧ same_ws (w_tree w1) y (w_tree w3) x2.
Proof.
  intros dr p branch o w y w1 w' o2 w2 arg P G F Mc Ho E H [D1 D2] F2 N2 Ha.
  destruct (create_settles _ _ _ _ _ _ _ _ P G F Mc Ho E H) as (mid & rid & id & m & Ne & St & Ep & Eb & Gt & R & _).
  assert (settled dr w2 y mid id [rid] (init_tree rid id (ws_id y) branch) m) as St2 by (destruct St; rewrite <-D1, <-D2 in *; by constructor).
  rewrite <-Ep in Ha.
  destruct (reopen _ _ _ _ _ _ _ _ _ _ G F2 N2 St2 (get_has _ _ _ _ R Gt) Ha) as (x2 & w3 & Ex & I1 & I2 & I3 & I4 & I5 & I6 & I7 & I8).
  exists x2, w3. split; [done|]. unfold same_ws. rewrite I4, (se_mount _ _ _ _ _ _ _ _ St). do 5 (split; [done|]). by eexists id, _.
Qed.
(** The whole command: after it the path opens again, as the workspace that the operation described. *)
Theorem C36_after_command : ∀ dr c o w w' o2 w2 arg, plain_path dr → good_path dr → fair o → machine dr (w_fs w) (w_mounts w) → makes_mount c →
  outside dr (abs_of w (cmd_target c)) → run_cmd dr c o w = (Ok tt, w') →
  same_disk w' w2 → fair o2 → no_faults o2 → finds w2 arg (abs_of w (cmd_target c)) →
  ∃ x hid a op, found_at dr w (cmd_source c) x hid ∧ holds (w_fs w) (ws_space x) a ∧ cmd_does o c [op] ∧
    (is_clone c = true ∨ is_dir_at (w_fs w) (merged_dir dr (mv_id (ws_mount x))) = true →
     ∃ x2 w3 a' id base, get_workspace dr arg o2 w2 = (Ok x2, w3) ∧ ws_path x2 = abs_of w (cmd_target c) ∧ ws_space x2 = ws_space x ∧
       (is_clone c = false → ws_id x2 = ws_id x) ∧
       ws_branch x2 = sanitize (match op with OCheckout key => match resolve a (ws_id x) hid key with SpecTree.FBranch _ => key | _ => [] end | _ => ws_branch x end) ∧
       based_on x hid op a base ∧ op_tree x hid op a a' ∧ repr (w_tree w3) (san_tree a') ∧ get (w_tree w3) id = Some (ws_head x2)).
Proof.
  intros dr c o w w' o2 w2 arg P G F Mc Hc Ho H [D1 D2] F2 N2 Ha.
  destruct (cmd_settles _ _ _ _ _ P G F Mc Hc Ho H) as (x & hid & a & op & (Fa & Sx & Hd & LP & Hh & Ro) & Hop & y & mid & id & ch & a' & base & [Bg N3 N4 Dn] & Ep).
  exists x, hid, a, op. do 3 (split; [done|]). intros Hm. destruct (Dn Hm) as ((m & St & _) & _).
  assert (settled dr w2 y mid id ch a' m) as St2 by (destruct St; rewrite <-D1, <-D2 in *; by constructor). rewrite <-Ep in Ha.
  pose proof Bg as [B1 B2 B3 B4 B5 B6 B7 B8].
  destruct (reopen _ _ _ _ _ _ _ _ _ _ G F2 N2 St2 B8 Ha) as (x2 & w3 & Ex & I1 & I2 & I3 & I4 & I5 & I6 & I7 & I8).
  exists x2, w3, a', id, base. split; [done|]. split; [congruence|]. split; [congruence|]. split; [|split; [congruence|done]].
  intros Hn. destruct c; try done; cbn in Hop; [destruct Hop as [now Hop]|]; simplify_eq; congruence.
Qed.

(** ** C41 *)
(** Right after clone, commit and checkout the path shows what is stored for the commit the operation is
    based on: HEAD for clone, the new commit for commit, the named one for checkout. *)
Theorem C41_shows_base : ∀ dr c o w w', plain_path dr → good_path dr → fair o → machine dr (w_fs w) (w_mounts w) → makes_mount c →
  outside dr (abs_of w (cmd_target c)) → run_cmd dr c o w = (Ok tt, w') →
  ∃ x hid a op base ch, found_at dr w (cmd_source c) x hid ∧ ws_space x = the_space dr (sp_id (ws_space x)) ∧ holds (w_fs w) (ws_space x) a ∧ cmd_does o c [op] ∧ based_on x hid op a base ∧ chain a base ch ∧
    (is_clone c = true ∨ is_dir_at (w_fs w) (merged_dir dr (mv_id (ws_mount x))) = true → fits dr (length ch) →
     visible w' (abs_of w (cmd_target c)) (content dr (w_fs w) ch)).
Proof.
  intros dr c o w w' P G F Mc Hc Ho H.
  destruct (cmd_settles _ _ _ _ _ P G F Mc Hc Ho H) as (x & hid & a & op & (Fa & Sx & Hd & LP & Hh & Ro) & Hop & y & mid & id & ch & a' & base & [Bg N3 N4 Dn] & Ep).
  pose proof Bg as [B1 B2 B3 B4 B5 B6 B7 B8].
  exists x, hid, a, op, base, ch. split; [done|]. split; [by apply the_space_ok|]. do 4 (split; [done|]). intros Hm Fi. destruct (Dn Hm) as ((m & St & _) & Hl & _).
  destruct (settled_shows _ _ _ _ _ _ _ _ St Fi) as (m' & V1 & V2 & V3). rewrite Ep in *. exists m'. do 2 (split; [done|]).
  intros k Hk. rewrite V3 by done. apply content_same. apply Forall_forall. intros i Hi. apply Hl. apply LP. by eapply chain_has.
Qed.
(** The workspace at [p] is mounted from its layers as its record says. *)
Record mounted_from (dr : path) (w : world) (p : path) (old sid hid : uid) (lows : list uid) (a : atree) : Prop := {
  mf_link : fget (w_fs w) p = Some (FLink (path_str (merged_dir dr old)));
  mf_dir : is_dir_at (w_fs w) (merged_dir dr old) = true;
  mf_mount : mount_at (w_mounts w) (merged_dir dr old) = Some (stack_of dr old hid lows);
  mf_info : ∃ y, fget (w_fs w) (ws_file dr old) = Some (FFile (marshal_wsinfo (ws_info y hid))) ∧ sp_id (ws_space y) = sid;
  mf_tree : holds (w_fs w) (the_space dr sid) a;
  mf_chain : chain a hid (hid :: lows) }.
(** Files visible right before a commit are visible right after it, and no others. *)
Theorem C41_commit_keeps : ∀ dr msg o w w' old sid hid lows a, plain_path dr → good_path dr → fair o → machine dr (w_fs w) (w_mounts w) →
  outside dr (abs_of w (B ".")) → mounted_from dr w (abs_of w (B ".")) old sid hid lows a → fits dr (S (length lows)) →
  run_cmd dr (CCommit msg) o w = (Ok tt, w') →
  visible w (abs_of w (B ".")) (content dr (w_fs w) (hid :: lows)) ∧ visible w' (abs_of w (B ".")) (content dr (w_fs w) (hid :: lows)).
Proof.
  intros dr msg o w w' old sid hid lows a P G F Mc Ho [M1 M2 M3 (y & M4 & M5) M6 M7] Fi H. split.
  { by exists (stack_of dr old hid lows). }
  destruct (C41_shows_base dr (CCommit msg) o w w' P G F Mc I Ho H) as (x & hid' & a' & op & base & ch & Fa & Es & Hd & (now & Hop) & Hb & C & Hv).
  injection Hop as ->. cbn [based_on] in Hb. subst base.
  pose proof (fa_path _ _ _ _ _ Fa) as Ep. cbn [cmd_source] in Ep. pose proof (fa_link _ _ _ _ _ Fa old) as El. rewrite Ep in El. specialize (El Ho M1).
  destruct (fa_info _ _ _ _ _ Fa) as (y' & I1 & I2 & I3 & I4 & I5). rewrite El, M4 in I1.
  assert (marshal_wsinfo (ws_info y hid) = marshal_wsinfo (ws_info y' hid')) as J by congruence. apply info_head in J as [<- J2].
  assert (ws_space x = the_space dr sid) as Ex by (rewrite Es; f_equal; congruence). rewrite Ex in Hd.
  pose proof (holds_det _ _ _ _ Hd M6) as ->. pose proof (chain_det _ _ _ _ C M7) as ->.
  apply Hv; [|done]. right. by rewrite El.
Qed.

Print Assumptions C36_reopen.
Print Assumptions C36_reopen_new.
Print Assumptions C36_after_command.
Print Assumptions C41_shows_base.
Print Assumptions C41_commit_keeps.

(** ** Concrete cases *)
Lemma put_keeps dr w p n data w' m id : put w p n data = Some w' → mount_of w p = Some m → mn_upper m = Some (diff_dir (layers_root dr) id) →
  w_mounts w' = w_mounts w ∧ ∀ q, vital dr q ∨ (∃ k, q = mounts_root dr ++ k) ∨ outside dr q → fget (w_fs w') q = fget (w_fs w) q.
Proof.
  intros H Em Eu. unfold put in H. rewrite Em in H. cbn [mbind option_bind] in H. rewrite Eu in H. cbn [mbind option_bind] in H. injection H as <-.
  split; [done|]. intros q Hq. cbn [w_fs set_fs]. apply fget_fset_ne. intros Eq. subst q. destruct Hq as [V|[[k E]|O]].
  - apply (vital_not_diff dr id) in V. assert (under (diff_dir (layers_root dr) id) (diff_dir (layers_root dr) id ++ [n]) = true) as Q; [|congruence].
    apply under_spec. exists [n]. done.
  - revert E. unfold diff_dir, layer_dir. rewrite <-!app_assoc. apply app_cons_ne. done.
  - unfold diff_dir, layer_dir, layers_root in O. rewrite <-!app_assoc in O. exact (outside_ne _ _ _ O eq_refl).
Qed.
(** The sample workspace is created and shown, one file is written in it, and it can be committed. *)
Lemma sample_shown_test : then_ok (sample_create calm sample_world) (λ y w1, then_ok (expand y calm w1) (λ _ w,
  put_test sample_dr w wdir (B "f") (B "hello") &&
  then_some (put w wdir (B "f") (B "hello")) (λ w2,
    bool_decide (abs_of (enter wdir w2) (B ".") = wdir) && bool_decide (shown w2 wdir (B "f") = Some (B "hello")) &&
    bool_decide (getwd_of (enter wdir w) ≠ w_cwd (enter wdir w)) && bool_decide (abs_of (enter wdir w) (B ".") = wdir) &&
    then_some (mount_of w2 wdir) (λ m, is_dir_at (w_fs w2) (mn_at m)) &&
    then_ok (run_cmd sample_dr (CCommit (B "one")) calm (enter wdir w2)) (λ _ w3, bool_decide (shown w3 wdir (B "f") = Some (B "hello")))))) = true.
Proof. vm_compute. reflexivity. Qed.
Lemma sample_fits n : n ≤ 40 → fits sample_dr n.
Proof. intros H. unfold fits. change (length (path_str sample_dr)) with 2. lia. Qed.
Lemma sample_outside : outside sample_dr wdir.
Proof. apply outside_test_ok. vm_compute. reflexivity. Qed.
Example C36_C41_sat : ∃ y w1 w w2 w3 mid rid id, sample_create calm sample_world = (Ok y, w1) ∧ expand y calm w1 = (Ok tt, w) ∧ ws_path y = wdir ∧
  finds (enter wdir w) (B ".") wdir ∧ outside sample_dr wdir ∧
  put w wdir (B "f") (B "hello") = Some w2 ∧ user_change sample_dr w w2 ∧
  machine sample_dr (w_fs w2) (w_mounts w2) ∧ mounted_from sample_dr w2 wdir mid (sp_id (ws_space y)) id [rid] (san_tree (init_tree rid id (ws_id y) (B "main"))) ∧
  abs_of (enter wdir w2) (B ".") = wdir ∧ run_cmd sample_dr (CCommit (B "one")) calm (enter wdir w2) = (Ok tt, w3) ∧
  shown w2 wdir (B "f") = Some (B "hello") ∧ shown w3 wdir (B "f") = Some (B "hello").
Proof.
  destruct (then_ok_inv _ _ sample_shown_test) as (y & w1 & E1 & H). destruct (then_ok_inv _ _ H) as ([] & w & E2 & H'). clear H. apply andb_true_iff in H' as [T H].
  apply then_some_inv in H as (w2 & E3 & H). rewrite !andb_true_iff, !bool_decide_eq_true in H. destruct H as (((((H1 & H2) & H3) & H4) & H6) & H).
  destruct (then_ok_inv _ _ H) as ([] & w3 & E4 & H5). clear H. apply bool_decide_eq_true in H5. apply then_some_inv in H6 as (m6 & Em6 & H6).
  destruct sample_plain as [P G].
  destruct (create_settles sample_dr wdir (B "main") calm sample_world y w1 w P G fair_calm sample_machine sample_outside E1 E2) as (mid & rid & id & m & Ne & St & Ep & Eb & Gt & R & Mc).
  pose proof (put_step _ _ _ _ _ _ T E3) as U. destruct (user_orderly _ _ _ Mc U) as [Mc2 _].
  destruct St as [A1 A2 A3 A4 A5 A6 A7 A8 A9]. rewrite Ep in A5.
  assert (m = stack_of sample_dr mid id [rid]) as -> by (apply A4, sample_fits; cbn; lia).
  assert (good_path (merged_dir sample_dr mid)) as Gm by (unfold mount_dir, mounts_root; rewrite <-(app_assoc sample_dr); apply good_mount_dir; [done|apply good_merged]).
  assert (mount_of w wdir = Some (stack_of sample_dr mid id [rid])) as Em.
  { unfold mount_of. rewrite A5. rewrite join_path_str; [exact A2|]. exact Gm. }
  destruct (put_keeps _ _ _ _ _ _ _ id E3 Em eq_refl) as [K1 K2].
  exists y, w1, w, w2, w3, mid, rid, id. split; [exact E1|]. split; [exact E2|]. split; [exact Ep|]. split; [split; [exact H4|right; right; exact H3]|].
  split; [exact sample_outside|]. split; [exact E3|]. split; [exact U|]. split; [exact Mc2|]. split; [|exact (conj H1 (conj E4 (conj H2 H5)))].
  clear E1 E2 E3 E4 T H1 H2 H3 H4 H5 Mc2 U P G Gt R Mc. constructor.
  - rewrite K2; [exact A5|]. right; right. exact sample_outside.
  - unfold mount_of in Em6. rewrite K2, A5, join_path_str in Em6; [|exact Gm|right; right; exact sample_outside]. rewrite K1, A2 in Em6. injection Em6 as <-. exact H6.
  - rewrite K1. exact A2.
  - exists y. split; [|done]. rewrite K2; [exact A7|]. left; right; left; eauto.
  - rewrite (the_space_ok _ _ A9) in A8. destruct A8 as (raw & A8 & L). exists raw. split; [|done]. rewrite K2; [exact A8|]. left; left; eauto.
  - apply san_chain, init_chain. done.
Qed.
(** A branch name that is not UTF-8 is another one when the workspace is opened again. *)
Theorem C36_branch_refuted : ∃ branch, then_ok (create_workspace sample_dr wdir branch calm sample_world) (λ y w1, then_ok (expand y calm w1) (λ _ w,
  then_ok (get_workspace sample_dr (B ".") calm (enter wdir w)) (λ x _, bool_decide (ws_branch x ≠ ws_branch y)))) = true.
Proof. exists [n2b 255]. vm_compute. reflexivity. Qed.
Print Assumptions C36_branch_refuted.
