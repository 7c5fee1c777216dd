(** * DeepStartProofs: init and clone agree with Commands.v at plain places *)
From Verif Require Import Base Uid SpecUid UidProofs Tree SpecTree TreeRefine TreeObs Dump DumpProofs Json JsonProofs Save SaveProofs Branch BranchProofs Date DateProofs Ws SpecWs WsProofs
  Fs Overlay Edits Os Layers Mounts Space Manager Commands Sample FsProofs OsProofs LayerProofs MountProofs SpaceProofs ManagerProofs SpecWorld SpecOps SavedProofs FaultProofs ReadyProofs OpProofs CalmProofs
  SpecMachine SpecCmds SpecTidy SpecLog MachineProofs OpenProofs CmdProofs ExpandProofs DetProofs DatedProofs Story StoryProofs SpecUsable SpecNames UsableProofs UsableCmdProofs SpecSerial SerialProofs Deep SpecDeep DeepProofs DeepMoveProofs DeepStart SpecStart.
From Coq Require Import Lia.
From stdpp Require Import prelude gmap.

Lemma place_roomy w p : plain_place w p → roomy w p.
Proof. intros (G & N & C & D & _). done. Qed.
Lemma place_ext w w' p : w_fs w' = w_fs w → w_mounts w' = w_mounts w → plain_place w p → plain_place w' p.
Proof. intros E1 E2. unfold plain_place, usual_dir. by rewrite E1, E2. Qed.
(** ** Where a place leads *)
Lemma place_cases w p : plain_place w p → usual w p ∨ fget (w_fs w) p = None ∨ ∃ x, fget (w_fs w) p = Some x ∧ (∀ b, x ≠ FDir b) ∧ ∀ s, x ≠ FLink s.
Proof.
  intros (G & N & C & D & L). destruct (fget (w_fs w) p) as [x|] eqn:E; [|auto]. destruct x as [b|data|s|] eqn:Ex.
  - left. left. split; [done|]. split; [unfold is_dir_at; by rewrite E|]. intros m H P. by rewrite (C m H) in P.
  - right. right. by eexists.
  - left. destruct (L s eq_refl) as (t & -> & U). by eapply link_usual_to.
  - right. right. by eexists.
Qed.
Lemma place_leads w p : fs_wf (w_fs w) → roomy w p → leads w p =
  match fget (w_fs w) p with Some (FDir _) => Some p | Some (FLink s) => leads w p | Some _ => Some p | None => None end.
Proof.
  intros W R. pose proof (roomy_parent w p R) as U. destruct R as (G & N & C & D). destruct (exists_last N) as (d & c & ->). unfold parent_dir in U. rewrite removelast_last in U.
  apply Forall_app in G as Gd. destruct Gd as [_ Gc]. inversion_clear Gc as [|? ? Gc' _].
  destruct (fget (w_fs w) (d ++ [c])) as [x|] eqn:E.
  - destruct x as [b|data|s|]; try reflexivity; unfold leads; rewrite lead_usual by done; rewrite lead_good by done; rewrite obj_clear by done; rewrite E; rewrite ?lead_nil; reflexivity.
  - unfold leads. rewrite lead_usual by done. rewrite lead_good by done. rewrite obj_clear by done. by rewrite E.
Qed.
Lemma real_none fs p : fget fs p = None → real_path fs p = None.
Proof. intros E. unfold real_path. change 40 with (S 39). cbn [real]. by rewrite E. Qed.
Lemma real_plain fs p x : fget fs p = Some x → (∀ s, x ≠ FLink s) → real_path fs p = Some p.
Proof. intros E N. unfold real_path. change 40 with (S 39). cbn [real]. rewrite E. destruct x; try reflexivity. by destruct (N target). Qed.
Lemma place_real w p : fs_wf (w_fs w) → plain_place w p → leads w p = real_path (w_fs w) p.
Proof.
  intros W H. destruct (place_cases w p H) as [U|[E|(x & E & N1 & N2)]]; [by apply usual_leads|..]; rewrite place_leads by (done || by apply place_roomy); rewrite E.
  - by rewrite real_none.
  - rewrite (real_plain _ _ _ E N2). destruct x; try reflexivity. by destruct (N2 target).
Qed.
Lemma place_obj w p t : fs_wf (w_fs w) → plain_place w p → real_path (w_fs w) p = Some t → dir_here w t = is_dir_at (w_fs w) t ∧ is_Some (fget (w_fs w) t).
Proof.
  intros W H R. destruct (place_cases w p H) as [U|[E|(x & E & N1 & N2)]].
  - destruct (usual_real w p W U) as (t' & E & Ut). rewrite E in R. injection R as <-. rewrite usual_obj by done. destruct Ut as (_ & D & _). split; [done|]. unfold is_dir_at in D. by destruct (fget (w_fs w) t').
  - by rewrite real_none in R.
  - rewrite (real_plain _ _ _ E N2) in R. injection R as <-. destruct H as (_ & _ & C & _). unfold dir_here, is_dir_at. rewrite obj_clear by done. by rewrite E.
Qed.
Lemma place_exists_same p o w : fs_wf (w_fs w) → plain_place w p → deep_exists p o w = fs_is_exists p o w.
Proof.
  intros W H. unfold deep_exists, fs_is_exists, bind, attempt, os_stat, look, sys_atomic. cbv zeta. rewrite (leads_ext w (tick w)) by reflexivity. rewrite place_real by done.
  change (w_fs (tick w)) with (w_fs w). destruct (real_path (w_fs w) p) as [t|] eqn:R.
  - destruct (place_obj w p t W H R) as (_ & y & ->). destruct (ch_fault (o (w_tick w))) as [|e n|[|n]]; reflexivity.
  - destruct (ch_fault (o (w_tick w))) as [|e n|[|n]]; reflexivity.
Qed.
Lemma place_dir_same p o w : fs_wf (w_fs w) → plain_place w p → deep_is_dir p o w = fs_is_dir p o w.
Proof.
  intros W H. unfold deep_is_dir, fs_is_dir, bind, attempt, os_stat, look, sys_atomic. cbv zeta. rewrite (leads_ext w (tick w)) by reflexivity. rewrite place_real by done.
  change (w_fs (tick w)) with (w_fs w). destruct (real_path (w_fs w) p) as [t|] eqn:R.
  - destruct (place_obj w p t W H R) as (Ed & y & Ey). cbn [fmap option_fmap option_map]. rewrite (dir_ext w (tick w)) by reflexivity. rewrite Ed. unfold is_dir_at. rewrite Ey.
    destruct (ch_fault (o (w_tick w))) as [|e n|[|n]]; [|reflexivity..]. cbn [opt_to_res]. destruct y; reflexivity.
  - destruct (ch_fault (o (w_tick w))) as [|e n|[|n]]; reflexivity.
Qed.
Lemma over_at ms t : (∀ m, m ∈ ms → is_prefix (mn_at m) t = true → mn_at m = t) → mount_over ms t = mount_at ms t.
Proof.
  unfold mount_at. induction ms as [|m ms IH]; intros H; [done|]. cbn [mount_over]. rewrite IH by (intros m' Hm; apply H; by right). rewrite filter_cons.
  destruct (decide (mn_at m = t)) as [E|N].
  - assert (is_prefix (mn_at m) t = true) as P by (rewrite E; apply is_prefix_spec; exists []; by rewrite app_nil_r). rewrite P. cbn [andb]. destruct (head (filter _ ms)) as [m'|] eqn:Q; [|done].
    assert (mn_at m' = t) as E'. { destruct (filter (λ m0 : mount, mn_at m0 = t) ms) as [|m1 l] eqn:F; [done|]. injection Q as <-. assert (m1 ∈ filter (λ m0 : mount, mn_at m0 = t) ms) as Hm by (rewrite F; left). by apply elem_of_list_filter in Hm as [Hm _]. }
    rewrite E, E'. by rewrite Nat.leb_refl.
  - assert (is_prefix (mn_at m) t = false) as P. { apply not_true_is_false. intros P. apply N, H; [by left|done]. } rewrite P. cbn [andb]. by destruct (head _).
Qed.
Lemma place_readdir_same p o w : fs_wf (w_fs w) → plain_place w p → deep_readdir p o w = os_readdir p o w.
Proof.
  intros W H. apply look_ext. rewrite (leads_ext w (tick w)) by reflexivity. rewrite place_real by done. change (w_fs (tick w)) with (w_fs w). change (w_mounts (tick w)) with (w_mounts w).
  destruct (real_path (w_fs w) p) as [t|] eqn:R; [|reflexivity].
  destruct (place_obj w p t W H R) as (Ed & y & Ey). rewrite (dir_ext w (tick w)) by reflexivity. rewrite Ed. unfold is_dir_at. rewrite Ey. destruct y; try reflexivity.
  assert (mount_over (w_mounts w) t = mount_at (w_mounts w) t) as Eo.
  { destruct (place_cases w p H) as [U|[E|(x & E & N1 & N2)]].
    - destruct (usual_real w p W U) as (t' & E & Ut). rewrite E in R. injection R as <-. apply over_at. apply Ut.
    - by rewrite real_none in R.
    - rewrite (real_plain _ _ _ E N2) in R. injection R as <-. rewrite E in Ey. injection Ey as ->. by destruct (N1 opaque). }
  f_equal. unfold names_in. change (w_fs (tick w)) with (w_fs w). change (w_mounts (tick w)) with (w_mounts w). rewrite Eo.
  destruct (mount_at (w_mounts w) t) as [m|] eqn:Em; [|reflexivity]. rewrite decide_True; [reflexivity|].
  unfold mount_at in Em. destruct (filter (λ m0 : mount, mn_at m0 = t) (w_mounts w)) as [|m1 l] eqn:F; [done|]. injection Em as ->.
  assert (m ∈ filter (λ m0 : mount, mn_at m0 = t) (w_mounts w)) as Hm by (rewrite F; left). by apply elem_of_list_filter in Hm as [Hm _].
Qed.
Lemma place_empty_same p o w : fs_wf (w_fs w) → plain_place w p → deep_is_empty_dir p o w = fs_is_empty_dir p o w.
Proof.
  intros W H. unfold deep_is_empty_dir, fs_is_empty_dir. apply bind_then; [by apply place_dir_same|]. intros d w1 E. apply quiet_is_dir in E as (k & ->). destruct d; [|reflexivity].
  apply bind_then; [|reflexivity]. unfold attempt. rewrite place_readdir_same; [reflexivity|done|]. by apply (place_ext w).
Qed.
(** ** What a command leaves as it was *)
Definition stays (w w' : world) : Prop := (∀ t, usual_dir w t → usual_dir w' t) ∧ ∀ q, usual w q → usual w' q ∧ real_path (w_fs w') q = real_path (w_fs w) q.
Lemma link_not_root fs p t : fs_wf fs → fget fs p = Some (FLink (path_str t)) → is_dir_at fs t = true → p ≠ [].
Proof.
  intros W E D ->. destruct t as [|c t]; [unfold is_dir_at in D; by rewrite E in D|]. unfold is_dir_at in D. destruct (fget fs (c :: t)) as [x|] eqn:Q; [|done].
  eapply root_no_link; [exact W| |exact E]. by exists (c :: t), x.
Qed.
Lemma keep_usual w w' : fs_wf (w_fs w) → (∀ q x, fget (w_fs w) q = Some x → (∀ d, x ≠ FFile d) → fget (w_fs w') q = Some x) →
  (∀ m, m ∈ w_mounts w' → m ∈ w_mounts w ∨ fget (w_fs w) (mn_at m) = None) → stays w w'.
Proof.
  intros W K M. assert (∀ m q x, fget (w_fs w) q = Some x → is_prefix (mn_at m) q = true → fget (w_fs w) (mn_at m) ≠ None) as A.
  { intros m q x E [k ->]%is_prefix_spec. destruct k as [|c k]; [rewrite app_nil_r in E; by rewrite E|]. pose proof (wf_above _ (mn_at m) (c :: k) x W E ltac:(done)) as D. unfold is_dir_at in D. by destruct (fget (w_fs w) (mn_at m)). }
  assert (∀ t, usual_dir w t → usual_dir w' t) as Ud.
  { intros t (G & D & U). apply is_dir_at_Some in D as [b D]. split; [done|]. split; [unfold is_dir_at; by rewrite (K _ _ D)|]. intros m Hm P.
    destruct (M m Hm) as [H|H]; [by apply U|]. by destruct (A m t _ D P). }
  split; [done|]. intros q [U|(G & C & t & E & U)].
  - split; [left; by apply Ud|]. rewrite !usual_real_dir by auto. done.
  - assert (fget (w_fs w') q = Some (FLink (path_str t))) as E' by (by apply K). pose proof (Ud t U) as U'. split.
    + right. split; [done|]. split; [|by exists t]. intros m Hm. apply not_true_is_false. intros P. destruct (M m Hm) as [H|H]; [by rewrite (C m H) in P|]. by destruct (A m q _ E P).
    + rewrite (link_real _ _ _ E), (link_real _ _ _ E'); [done|apply U'..|apply U|apply U].
Qed.
Lemma stays_wd w w' : stays w w' → w_cwd w' = w_cwd w → w_pwd w' = w_pwd w → usual_wd w → usual_wd w' ∧ getwd_of w' = getwd_of w.
Proof.
  intros [S1 S2] Ec Ep [U1 U2]. split; [split; [rewrite Ec; auto|intros q Hq; rewrite Ep in Hq; by apply S2, U2]|].
  unfold getwd_of. rewrite Ec, Ep. destruct (w_pwd w) as [q|]; [|done]. destruct (S2 q (U2 q eq_refl)) as [_ ->]. done.
Qed.
Lemma wf_removed fs p : fs_wf fs → (∀ b, fget fs p = Some (FDir b) → children fs p = []) → fs_wf (fdel fs p).
Proof.
  intros W C q n z. rewrite fget_fdel. case_decide as Q; [done|]. intros E. assert (q ≠ p) as Nq.
  { intros ->. pose proof (W _ _ _ E) as D. apply is_dir_at_Some in D as [b D]. assert (n ∈ children fs p) as H by (apply children_elem; by eexists). rewrite (C b D) in H. by apply elem_of_nil in H. }
  unfold is_dir_at. rewrite fget_fdel_ne by congruence. by apply (W q n z).
Qed.
Lemma parent_ne (p : path) : p ≠ [] → parent_dir p ≠ p.
Proof. intros N Q. destruct (exists_last N) as (d & c & ->). unfold parent_dir in Q. rewrite removelast_last in Q. apply (f_equal length) in Q. rewrite app_length in Q. cbn in Q. lia. Qed.
(** ** Expand *)
Lemma link_place_same x t' o w : let p := ws_path x in fs_wf (w_fs w) → plain_place w p → usual_wd w → mv_path (ws_mount x) = t' → usual_dir w t' → p ≠ t' →
  (real_path (w_fs w) (getwd_of w) = Some p → getwd_of w = p) → deep_link_up x o w = link_up x o w.
Proof.
  intros p W Pl U Em Ut' Nt Hd. rewrite link_up_flat. pose proof (place_roomy _ _ Pl) as R. pose proof R as (G & Np & C & D). pose proof (getwd_usual w U) as Ud.
  unfold deep_link_up, link_up'. fold p.
  apply bind_then; [by apply deep_getwd_same|]. intros pwd w1 H.
  assert (pwd = getwd_of w ∧ w1 = tick w) as [-> ->].
  { pose proof (look_any _ _ _ _ _ H) as ->. split; [|done]. unfold os_getwd, look, sys_atomic in H. cbv zeta in H. destruct (ch_fault _) as [|? ?|[|?]]; try done. destruct (_ || _); [|done]. by injection H as <-. }
  apply bind_then; [reflexivity|]. intros [] w1 H1. apply chdir_ok in H1 as (q1 & _ & _ & ->).
  apply bind_then. { apply place_exists_same; [done|]. by apply (place_ext w). }
  intros e w1 H1. assert (w1 = tick (set_cwd (tick (tick w)) q1)) as ->.
  { unfold fs_is_exists, bind, attempt in H1. destruct (os_stat p o _) as [r v] eqn:Q; apply look_any in Q as ->; destruct r; cbn [ret] in H1; try discriminate H1; by injection H1 as _ <-. }
  set (w1 := tick (set_cwd (tick (tick w)) q1)). assert (roomy w1 p) as R1 by exact R.
  apply bind_then. { destruct e; [|reflexivity]. by apply deep_remove_same. }
  intros [] w2 H2. assert (fs_wf (w_fs w2) ∧ w_mounts w2 = w_mounts w ∧ ∀ q, q ≠ p → fget (w_fs w2) q = fget (w_fs w) q) as (W2 & M2 & S2).
  { destruct e; [|injection H2 as <-; done]. apply remove_ok in H2 as (_ & -> & Hc). split; [|split; [done|]].
    - cbn [w_fs set_fs]. apply wf_removed; [exact W|]. intros b Eb. by apply (Hc b).
    - intros q Nq. cbn [w_fs set_fs]. by rewrite fget_fdel_ne by congruence. }
  assert (roomy w2 p) as R2. { split; [done|]. split; [done|]. rewrite M2. split; [done|]. unfold is_dir_at. rewrite S2; [done|]. by apply parent_ne. }
  apply bind_then; [by apply deep_link_same|]. intros [] w3 H3. apply symlink_ok in H3 as (N3 & D3 & ->). set (w3 := set_fs (tick w2) (fset (w_fs w2) p (FLink (path_str (mv_path (ws_mount x)))))).
  assert (fs_wf (w_fs w3)) as W3 by (by apply wf_add).
  assert (roomy w3 p) as R3.
  { destruct R2 as (A1 & A2 & A3 & A4). split; [done|]. split; [done|]. split; [done|]. unfold is_dir_at. unfold w3. cbn [w_fs set_fs]. rewrite fget_fset_ne; [done|]. by apply not_eq_sym, parent_ne. }
  apply bind_then; [by apply deep_lchown_same|]. intros [] w4 H4. apply lchown_ok in H4 as (_ & ->).
  assert (∀ q, q ≠ p → fget (w_fs w3) q = fget (w_fs w) q) as S3 by (intros q Nq; unfold w3; cbn [w_fs set_fs]; rewrite fget_fset_ne by congruence; by apply S2).
  assert (∀ t, t ≠ p → usual_dir w t → usual_dir w3 t) as Dk.
  { intros t Nq (U1 & U2 & U3). split; [done|]. split; [unfold is_dir_at; by rewrite S3|]. intros m Hm. apply U3. rewrite <-M2. exact Hm. }
  apply deep_chdir_same; [exact W3|]. apply (usual_ext w3); [reflexivity..|].
  destruct (decide (getwd_of w = p)) as [->|Nd].
  - apply (link_usual_to _ _ t'); [done|apply R3|unfold w3; cbn [w_fs set_fs]; by rewrite fget_fset_eq, Em|]. by apply Dk.
  - destruct Ud as [Ud|(Gd & Cd & t & Et & Ut)]; [left; by apply Dk|]. apply (link_usual_to _ _ t); [done| |by rewrite S3|].
    + intros m Hm. apply Cd. rewrite <-M2. exact Hm.
    + apply Dk; [|done]. intros ->. apply Nd, Hd. apply link_real; [done|apply Ut..].
Qed.
Lemma expand_place_same dr y mid id ch o w : plain_path dr → good_path dr → ch ≠ [] → outside dr (ws_path y) →
  ws_mount y = stack_mount (layers_root dr) (mount_dir dr mid) mid id ch → fs_wf (w_fs w) → fget (w_fs w) (merged_dir dr mid) = None → fget (w_fs w) (work_dir dr mid) = None →
  is_dir_at (w_fs w) (diff_dir (layers_root dr) id) = true → plain_place w (ws_path y) → usual_wd w → points_free dr (w_mounts w) →
  (real_path (w_fs w) (getwd_of w) = Some (ws_path y) → getwd_of w = ws_path y) → deep_expand y o w = expand y o w.
Proof.
  intros P G NC O Em W Nm Nw Du Pl U F Hd.
  change (deep_expand y) with (bind (mount_mount (ws_mount y)) (λ _, deep_link_up y)). change (expand y) with (bind (mount_mount (ws_mount y)) (λ _, link_up y)).
  assert (dr ≠ []) as ND by (intros ->; by destruct O).
  set (mp := merged_dir dr mid) in *. set (p' := mp ++ [B "x"]).
  assert (∀ n, mount_dir dr mid ++ [n] ≠ p') as N0 by (intros n Q; apply (f_equal length) in Q; unfold p', mp in Q; rewrite !app_length in Q; cbn in Q; lia).
  assert (∀ i, diff_dir (layers_root dr) i ≠ p') as Nu.
  { intros i. unfold p', mp, mount_dir, mounts_root, diff_dir, layer_dir, layers_root. rewrite <-!(app_assoc (dr ++ _)). apply app_cons_ne. done. }
  assert (fget (w_fs w) p' = None) as Np'. { destruct (fget (w_fs w) p') eqn:Q; [|done]. apply W in Q. unfold is_dir_at in Q. fold mp in Q. by rewrite Nm in Q. }
  apply bind_then; [reflexivity|]. intros [] w1 H. rewrite Em in H.
  pose proof (mount_any dr mid id ch p' w P G ND NC N0 Nu W Nm Nw Du o w _ w1 eq_refl eq_refl ltac:(done) H) as (I1 & C1 & Q). destruct (Q eq_refl) as (m & Em1 & Ea & _ & Dm & _). clear Q.
  pose proof (ei_same _ _ _ _ _ _ _ I1) as S. pose proof (ei_proc _ _ _ _ _ _ _ I1) as (_ & E2 & _). pose proof (ei_wf _ _ _ _ _ _ _ I1) as W1.
  assert (∀ q x, fget (w_fs w) q = Some x → fget (w_fs w1) q = Some x) as K.
  { intros q x E. rewrite S; [done|..]; intros ->; [discriminate (eq_trans (eq_sym E) Nm)|discriminate (eq_trans (eq_sym E) Nw)|discriminate (eq_trans (eq_sym E) Np')]. }
  assert (stays w w1) as St.
  { apply keep_usual; [done|intros q x E _; by apply K|]. rewrite Em1. intros m' [->|Hm]%elem_of_cons; [right; by rewrite Ea|by left]. }
  destruct (stays_wd _ _ St C1 E2 U) as [U1 Eg].
  assert (ws_path y ≠ mp ∧ ws_path y ≠ work_dir dr mid ∧ ws_path y ≠ p') as (X1 & X2 & X3).
  { unfold p', mp, mount_dir, mounts_root. rewrite <-!(app_assoc dr). split_and!; by apply outside_ne. }
  apply (link_place_same y mp); try done.
  - destruct Pl as (A1 & A2 & A3 & A4 & A5). split; [done|]. split; [done|]. split; [rewrite Em1; by eapply clear_add|]. split.
    + apply is_dir_at_Some in A4 as [b A4]. unfold is_dir_at. by rewrite (K _ _ A4).
    + rewrite S by done. intros s Es. destruct (A5 s Es) as (t & -> & Ut). exists t. split; [done|]. by apply St.
  - by rewrite Em.
  - apply free_usual; [done| |done]. rewrite Em1. by eapply free_add.
  - rewrite Eg. destruct St as [_ St]. destruct (St _ (getwd_usual w U)) as [_ ->]. exact Hd.
Qed.
(** ** The operations *)
Lemma touches_stays dr sp w w' : machine dr (w_fs w) (w_mounts w) → (∀ x, fget (w_fs w) (tree_file sp) = Some x → ∃ d, x = FFile d) → touches dr sp w w' → stays w w'.
Proof.
  intros Mc Ht T. apply keep_usual; [apply Mc| |].
  - intros q x E N. apply (to_old _ _ _ _ T _ _ E). intros [->|(i & -> & _)].
    + destruct (Ht x E) as (d & ->). by destruct (N d).
    + destruct (mc_info _ _ _ Mc _ _ E) as (raw & -> & _). by destruct (N raw).
  - intros m. rewrite (to_mounts _ _ _ _ T). by left.
Qed.
Lemma touches_place dr sp w w' p : space_ok dr sp → touches dr sp w w' → stays w w' → outside dr p → plain_place w p → plain_place w' p.
Proof.
  intros S T St O (A1 & A2 & A3 & A4 & A5). assert (¬ own dr sp (w_fs w) p) as No.
  { intros [E|(i & E & _)]; revert E; [unfold tree_file; rewrite S; unfold space_dir, spaces_root|unfold ws_file, mounts_root]; rewrite <-!(app_assoc dr); by apply outside_ne. }
  assert (fget (w_fs w') p = fget (w_fs w) p) as Ep.
  { destruct (fget (w_fs w) p) as [x|] eqn:E; [by apply T|]. destruct (fget (w_fs w') p) as [x|] eqn:E'; [|done]. exfalso.
    destruct (to_new _ _ _ _ T p E No) as [_ [(i & Q)|[(i & Q)|[(i & Q)|(i & Q)]]]]; [by eexists|..]; revert Q;
      unfold mount_dir, space_dir, diff_dir, layer_dir, mounts_root, spaces_root, layers_root; rewrite <-!(app_assoc dr); by apply outside_ne. }
  assert (usual_dir w (parent_dir p)) as Up. { apply roomy_parent. done. }
  split; [done|]. split; [done|]. split; [by rewrite (to_mounts _ _ _ _ T)|]. split; [apply St in Up; apply Up|]. rewrite Ep. intros s Es. destruct (A5 s Es) as (t & -> & Ut). exists t. split; [done|]. by apply St.
Qed.
Lemma clone_place_same dr x p o w a hid : plain_path dr → good_path dr → fair o → in_order dr w → live dr w x a hid → outside dr p → clear_of (w_mounts w) (mounts_root dr) → plain_place w p → usual_wd w →
  (real_path (w_fs w) (getwd_of w) = Some p → getwd_of w = p) → (y <- clone_ws dr x p ;; deep_expand y) o w = (y <- clone_ws dr x p ;; expand y) o w.
Proof.
  intros P G F Io Lv O Cm Pl U Hd. pose proof (io_machine _ _ Io) as Mc. pose proof Lv as [W [R Gt] LP S D]. apply bind_then; [reflexivity|]. intros y w1 E.
  pose proof (clone_ws_any _ _ _ _ _ _ _ a hid F S W R LP Gt E) as [T _].
  destruct (clone_ready _ _ _ _ _ _ _ _ _ F Lv E) as (c & ch & id & _ & Ch & _ & Rd & _ & Hp & _ & _ & Em & N1 & _).
  assert (stays w w1) as St. { apply (touches_stays _ _ _ _ Mc) in T; [done|]. intros z Ez. destruct D as (raw & D & _). rewrite D in Ez. injection Ez as <-. eauto. }
  destruct (to_proc _ _ _ _ T) as (Ec & Ep & _). destruct (stays_wd _ _ St Ec Ep U) as [U1 Eg].
  eapply (expand_place_same dr y (mv_id (ws_mount y)) id ch); try done.
  - intros ->. by apply chain_not_nil in Ch.
  - by rewrite Hp.
  - by apply (to_wf _ _ _ _ T).
  - by eapply (touches_merged dr _ w).
  - by eapply (touches_merged dr _ w).
  - exact (live_diff _ _ _ _ _ (rd_live _ _ _ _ _ Rd)).
  - rewrite Hp. by eapply touches_place.
  - rewrite (to_mounts _ _ _ _ T). by apply machine_free.
  - rewrite Eg, Hp. destruct St as [_ St]. destruct (St _ (getwd_usual w U)) as [_ ->]. exact Hd.
Qed.
Lemma create_place_same dr p branch o w : plain_path dr → good_path dr → fair o → in_order dr w → outside dr p → clear_of (w_mounts w) (mounts_root dr) → plain_place w p → usual_wd w →
  (real_path (w_fs w) (getwd_of w) = Some p → getwd_of w = p) → (x <- create_workspace dr p branch ;; deep_expand x) o w = (x <- create_workspace dr p branch ;; expand x) o w.
Proof.
  intros P G F Io O Cm Pl U Hd. pose proof (io_machine _ _ Io) as Mc. pose proof (mc_wf _ _ _ Mc) as W. apply bind_then; [reflexivity|]. intros y w1 E.
  pose proof (create_workspace_any _ _ _ _ _ _ _ F W E) as [T Od].
  destruct (create_ready _ _ _ _ _ _ _ F W E) as (rid & id & _ & Rd & _ & Hp & Em & N1 & _).
  set (sp := Space (ch_uid (o (w_tick w))) (space_dir dr (ch_uid (o (w_tick w))))) in *. assert (space_ok dr sp) as S by done.
  assert (fget (w_fs w) (sp_dir sp) = None) as Nsp. { destruct Od as [[_ Fl]|(a' & (N & _) & _)]; [by apply failed_not_ok in Fl|done]. }
  assert (stays w w1) as St.
  { apply (touches_stays _ _ _ _ Mc) in T; [done|]. intros z Ez. unfold tree_file in Ez. apply W in Ez. unfold is_dir_at in Ez. by rewrite Nsp in Ez. }
  destruct (to_proc _ _ _ _ T) as (Ec & Ep & _). destruct (stays_wd _ _ St Ec Ep U) as [U1 Eg].
  eapply (expand_place_same dr y (mv_id (ws_mount y)) id [rid]); try done.
  - by rewrite Hp.
  - by apply (to_wf _ _ _ _ T).
  - by eapply (touches_merged dr _ w).
  - by eapply (touches_merged dr _ w).
  - exact (live_diff _ _ _ _ _ (rd_live _ _ _ _ _ Rd)).
  - rewrite Hp. by eapply touches_place.
  - rewrite (to_mounts _ _ _ _ T). by apply machine_free.
  - rewrite Eg, Hp. destruct St as [_ St]. destruct (St _ (getwd_usual w U)) as [_ ->]. exact Hd.
Qed.
