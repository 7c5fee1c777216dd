(** * ThroughProofs: init and clone at places that are reached through a link *)
From Verif Require Import Base Uid SpecUid UidProofs Tree SpecTree TreeRefine TreeObs Dump DumpProofs Json JsonProofs Save SaveProofs Branch BranchProofs Date DateProofs Ws SpecWs WsProofs
  Fs Overlay Edits Os Layers Mounts Space Manager Commands Sample FsProofs OsProofs LayerProofs MountProofs SpaceProofs ManagerProofs SpecWorld SpecOps SavedProofs FaultProofs ReadyProofs OpProofs CalmProofs
  SpecMachine SpecCmds SpecTidy SpecLog MachineProofs OpenProofs CmdProofs ExpandProofs DetProofs DatedProofs Story StoryProofs SpecUsable SpecNames UsableProofs UsableCmdProofs SpecSerial SerialProofs Deep SpecDeep DeepProofs DeepMoveProofs DeepStart SpecStart DeepStartProofs.
From Coq Require Import Lia.
From stdpp Require Import prelude gmap.

(** ** Where such a path leads *)
Lemma lead_place n w d c : fs_wf (w_fs w) → plain_place w (d ++ [c]) → lead (S n) w d [c] = real_path (w_fs w) (d ++ [c]).
Proof.
  intros W (G & N & C & D & L). apply Forall_app in G as Gd. destruct Gd as [_ Gc]. inversion_clear Gc as [|? ? Gc' _].
  rewrite lead_good by done. rewrite obj_clear by done. destruct (fget (w_fs w) (d ++ [c])) as [x|] eqn:E; [|by rewrite real_none].
  destruct x as [b|data|s|].
  - rewrite lead_nil. symmetry. by eapply real_plain.
  - symmetry. by eapply real_plain.
  - destruct (L s eq_refl) as (t & -> & U). rewrite is_abs_path_str. rewrite split_lead by apply U. rewrite lead_usual by done. rewrite lead_nil. symmetry. apply link_real; [done|apply U..].
  - symmetry. by eapply real_plain.
Qed.
Lemma through_parent w l t k todo : fs_wf (w_fs w) → usual w l → real_path (w_fs w) l = Some t → usual_dir w (t ++ k) → l ≠ t → lead 40 w [] (l ++ k ++ todo) = lead 39 w (t ++ k) todo.
Proof.
  intros W U R Ut N. destruct U as [U|(G & C & t' & E & U)]; [rewrite usual_real_dir in R by done; congruence|].
  assert (t' = t) as -> by (rewrite (link_real _ _ _ E) in R; [congruence|apply U..]).
  assert (l ≠ []) as Nl by (eapply link_not_root; [exact W|exact E|apply U]).
  change 40 with (S 39). rewrite (lead_link _ _ _ t) by done. rewrite <-(lead_usual 39 w t) by done. rewrite app_assoc. by apply lead_usual.
Qed.
Lemma through_spot w p q : fs_wf (w_fs w) → roomy w q → through w p q → spot w p = Some q.
Proof.
  intros W R [->|(l & t & k & c & -> & -> & U & Rl & Ut & N)]; [by apply roomy_spot|]. destruct (decide (l = t)) as [->|Nt]; [by apply roomy_spot|].
  unfold spot. rewrite app_assoc. rewrite last_snoc. unfold parent_dir. rewrite removelast_last. unfold leads. rewrite <-(app_nil_r k) at 1. rewrite (through_parent w l t k []) by done. rewrite lead_nil.
  rewrite usual_obj by done. by rewrite <-app_assoc.
Qed.
Lemma through_leads w p q : fs_wf (w_fs w) → plain_place w q → through w p q → leads w p = real_path (w_fs w) q.
Proof.
  intros W Pl [->|(l & t & k & c & -> & -> & U & Rl & Ut & N)]; [by apply place_real|]. destruct (decide (l = t)) as [->|Nt]; [by apply place_real|].
  unfold leads. rewrite (through_parent w l t k [c]) by done. rewrite app_assoc in Pl |- *. by apply (lead_place 38).
Qed.
Lemma through_ext w w' p q : w_fs w' = w_fs w → w_mounts w' = w_mounts w → through w p q → through w' p q.
Proof. intros E1 E2. unfold through, usual, usual_dir. by rewrite E1, E2. Qed.
Lemma through_stays w w' p q : stays w w' → through w p q → through w' p q.
Proof.
  intros [S1 S2] [->|(l & t & k & c & -> & -> & U & Rl & Ut & N)]; [by left|]. right. exists l, t, k, c. destruct (S2 l U) as [U' E]. split; [done|]. split; [done|]. split; [done|]. split; [by rewrite E|]. split; [by apply S1|done].
Qed.
(** What is done at [q] *)
Lemma edit_usual q w w' : (∀ r, r ≠ q → fget (w_fs w') r = fget (w_fs w) r) → w_mounts w' = w_mounts w →
  (∀ t, t ≠ q → usual_dir w t → usual_dir w' t) ∧ ∀ r, r ≠ q → real_path (w_fs w) r ≠ Some q → usual w r → usual w' r ∧ real_path (w_fs w') r = real_path (w_fs w) r.
Proof.
  intros S M. assert (∀ t, t ≠ q → usual_dir w t → usual_dir w' t) as Dk.
  { intros t Nq (U1 & U2 & U3). split; [done|]. split; [unfold is_dir_at; by rewrite S|]. intros m Hm. apply U3. by rewrite <-M. }
  split; [done|]. intros r Nr Rr [U|(G & C & t & E & U)].
  - pose proof (Dk r Nr U) as U'. split; [by left|]. by rewrite !usual_real_dir.
  - assert (t ≠ q) as Nt by (intros ->; apply Rr; apply link_real; [done|apply U..]). pose proof (Dk t Nt U) as U'. assert (fget (w_fs w') r = Some (FLink (path_str t))) as E' by (by rewrite S).
    split; [apply (link_usual_to _ _ t); [done|by rewrite M|done|done]|]. rewrite (link_real _ _ _ E), (link_real _ _ _ E'); [done|apply U'..|apply U|apply U].
Qed.
Lemma through_edit p q w w' : (∀ r, r ≠ q → fget (w_fs w') r = fget (w_fs w) r) → w_mounts w' = w_mounts w → through w p q → through w' p q.
Proof.
  intros S M [->|(l & t & k & c & -> & -> & U & Rl & Ut & N)]; [by left|]. destruct (edit_usual _ w w' S M) as [Dk Uk].
  assert (∀ j, t ++ k ≠ t ++ k ++ [j]) as Nk by (intros j Q; apply (f_equal length) in Q; rewrite !app_length in Q; cbn in Q; lia).
  assert (t ≠ t ++ k ++ [c]) as Nt by (intros Q; apply (f_equal length) in Q; rewrite !app_length in Q; cbn in Q; lia).
  destruct (Uk l) as [U' E]; [done|rewrite Rl; congruence|done|]. right. exists l, t, k, c. split; [done|]. split; [done|]. split; [done|]. split; [by rewrite E|]. split; [|done]. by apply Dk.
Qed.
(** ** Calls *)
Section calls.
  Context (p q : path) (o : oracle) (w : world) (W : fs_wf (w_fs w)).
  Lemma via_remove : roomy w q → through w p q → deep_remove p o w = os_remove q o w.
  Proof.
    intros R T. apply atomic_ext. intros _. rewrite (spot_ext w (tick w)) by reflexivity. rewrite (through_spot w p q) by done. change (w_mounts (tick w)) with (w_mounts w).
    destruct R as (G & N & C & D). rewrite over_none by done. reflexivity.
  Qed.
  Lemma via_link s : roomy w q → through w p q → deep_symlink s p o w = os_symlink s q o w.
  Proof.
    intros R T. rewrite <-(deep_link_same s q o w W R). apply atomic_ext. intros _. rewrite !(spot_ext w (tick w)) by reflexivity. rewrite (through_spot w p q), roomy_spot by done. reflexivity.
  Qed.
  Lemma via_lchown : roomy w q → through w p q → deep_lchown p o w = os_lchown q o w.
  Proof.
    intros R T. rewrite <-(deep_lchown_same q o w W R). apply atomic_ext. intros _. rewrite !(spot_ext w (tick w)) by reflexivity. rewrite (through_spot w p q), roomy_spot by done. reflexivity.
  Qed.
  Lemma via_exists : plain_place w q → through w p q → deep_exists p o w = fs_is_exists q o w.
  Proof.
    intros H T. rewrite <-(place_exists_same q o w W H). unfold deep_exists, bind, attempt, look, sys_atomic. cbv zeta. rewrite !(leads_ext w (tick w)) by reflexivity.
    rewrite (through_leads w p q), (place_real w q) by done. reflexivity.
  Qed.
  Lemma via_dir : plain_place w q → through w p q → deep_is_dir p o w = fs_is_dir q o w.
  Proof.
    intros H T. rewrite <-(place_dir_same q o w W H). unfold deep_is_dir, bind, attempt, look, sys_atomic. cbv zeta. rewrite !(leads_ext w (tick w)) by reflexivity.
    rewrite (through_leads w p q), (place_real w q) by done. reflexivity.
  Qed.
  Lemma via_readdir : plain_place w q → through w p q → deep_readdir p o w = os_readdir q o w.
  Proof.
    intros H T. rewrite <-(place_readdir_same q o w W H). apply look_ext. rewrite !(leads_ext w (tick w)) by reflexivity. rewrite (through_leads w p q), (place_real w q) by done. reflexivity.
  Qed.
End calls.
Lemma via_empty p q o w : fs_wf (w_fs w) → plain_place w q → through w p q → deep_is_empty_dir p o w = fs_is_empty_dir q o w.
Proof.
  intros W H T. unfold deep_is_empty_dir, fs_is_empty_dir. apply bind_then; [by apply via_dir|]. intros d w1 E. apply quiet_is_dir in E as (k & ->). destruct d; [|reflexivity].
  apply bind_then; [|reflexivity]. unfold attempt. rewrite (via_readdir p q); [reflexivity|done|by apply (place_ext w)|by apply (through_ext w)].
Qed.
(** ** Expand *)
Lemma link_through_same x p t' o w : let q := ws_path x in fs_wf (w_fs w) → plain_place w q → through w p q → usual_wd w → mv_path (ws_mount x) = t' → usual_dir w t' → q ≠ t' →
  (real_path (w_fs w) (getwd_of w) = Some q → getwd_of w = q) → deep_link_up (at_path p x) o w = link_up x o w.
Proof.
  intros q W Pl Th U Em Ut' Nt Hd. rewrite link_up_flat. pose proof (place_roomy _ _ Pl) as R. pose proof R as (G & Np & C & D). pose proof (getwd_usual w U) as Ud.
  unfold deep_link_up, link_up'. fold q. cbn [at_path ws_path ws_mount].
  apply bind_then; [by apply deep_getwd_same|]. intros pwd w1 H.
  assert (pwd = getwd_of w ∧ w1 = tick w) as [-> ->].
  { pose proof (look_any _ _ _ _ _ H) as ->. split; [|done]. unfold os_getwd, look, sys_atomic in H. cbv zeta in H. destruct (ch_fault _) as [|? ?|[|?]]; try done. destruct (_ || _); [|done]. by injection H as <-. }
  apply bind_then; [reflexivity|]. intros [] w1 H1. apply chdir_ok in H1 as (q1 & _ & _ & ->).
  apply bind_then. { apply via_exists; [done|by apply (place_ext w)|by apply (through_ext w)]. }
  intros e w1 H1. assert (w1 = tick (set_cwd (tick (tick w)) q1)) as ->.
  { unfold fs_is_exists, bind, attempt in H1. destruct (os_stat q o _) as [r v] eqn:Q; apply look_any in Q as ->; destruct r; cbn [ret] in H1; try discriminate H1; by injection H1 as _ <-. }
  set (w1 := tick (set_cwd (tick (tick w)) q1)). assert (roomy w1 q) as R1 by exact R. assert (through w1 p q) as T1 by (by apply (through_ext w)).
  apply bind_then. { destruct e; [|reflexivity]. by apply via_remove. }
  intros [] w2 H2. assert (fs_wf (w_fs w2) ∧ w_mounts w2 = w_mounts w ∧ ∀ r, r ≠ q → fget (w_fs w2) r = fget (w_fs w) r) as (W2 & M2 & S2).
  { destruct e; [|injection H2 as <-; done]. apply remove_ok in H2 as (_ & -> & Hc). split; [|split; [done|]].
    - cbn [w_fs set_fs]. apply wf_removed; [exact W|]. intros b Eb. by apply (Hc b).
    - intros r Nq. cbn [w_fs set_fs]. by rewrite fget_fdel_ne by congruence. }
  assert (roomy w2 q) as R2. { split; [done|]. split; [done|]. rewrite M2. split; [done|]. unfold is_dir_at. rewrite S2; [done|]. by apply parent_ne. }
  pose proof (through_edit p q w w2 S2 M2 Th) as T2.
  apply bind_then; [by apply via_link|]. intros [] w3 H3. apply symlink_ok in H3 as (N3 & D3 & ->). set (w3 := set_fs (tick w2) (fset (w_fs w2) q (FLink (path_str (mv_path (ws_mount x)))))).
  assert (fs_wf (w_fs w3)) as W3 by (by apply wf_add).
  assert (roomy w3 q) as R3.
  { destruct R2 as (A1 & A2 & A3 & A4). split; [done|]. split; [done|]. split; [done|]. unfold is_dir_at. unfold w3. cbn [w_fs set_fs]. rewrite fget_fset_ne; [done|]. by apply not_eq_sym, parent_ne. }
  assert (∀ r, r ≠ q → fget (w_fs w3) r = fget (w_fs w) r) as S3 by (intros r Nq; unfold w3; cbn [w_fs set_fs]; rewrite fget_fset_ne by congruence; by apply S2).
  assert (w_mounts w3 = w_mounts w) as M3 by exact M2. pose proof (through_edit p q w w3 S3 M3 Th) as T3. destruct (edit_usual q w w3 S3 M3) as [Dk Uk].
  apply bind_then; [by apply via_lchown|]. intros [] w4 H4. apply lchown_ok in H4 as (_ & ->).
  apply deep_chdir_same; [exact W3|]. apply (usual_ext w3); [reflexivity..|].
  destruct (decide (getwd_of w = q)) as [->|Nd].
  - apply (link_usual_to _ _ t'); [done|apply R3|unfold w3; cbn [w_fs set_fs]; by rewrite fget_fset_eq, Em|]. by apply Dk, Ut'; apply not_eq_sym.
  - apply (Uk (getwd_of w)); [done|tauto|done].
Qed.
Lemma expand_through_same dr y p mid id ch o w : plain_path dr → good_path dr → ch ≠ [] → outside dr (ws_path y) →
  ws_mount y = stack_mount (layers_root dr) (mount_dir dr mid) mid id ch → fs_wf (w_fs w) → fget (w_fs w) (merged_dir dr mid) = None → fget (w_fs w) (work_dir dr mid) = None →
  is_dir_at (w_fs w) (diff_dir (layers_root dr) id) = true → plain_place w (ws_path y) → through w p (ws_path y) → usual_wd w → points_free dr (w_mounts w) →
  (real_path (w_fs w) (getwd_of w) = Some (ws_path y) → getwd_of w = ws_path y) → deep_expand (at_path p y) o w = expand y o w.
Proof.
  intros P G NC O Em W Nm Nw Du Pl Th U F Hd.
  change (deep_expand (at_path p y)) with (bind (mount_mount (ws_mount y)) (λ _, deep_link_up (at_path p y))). change (expand y) with (bind (mount_mount (ws_mount y)) (λ _, link_up y)).
  assert (dr ≠ []) as ND by (intros ->; by destruct O).
  set (mp := merged_dir dr mid) in *. set (p' := mp ++ [B "x"]).
  assert (∀ n, mount_dir dr mid ++ [n] ≠ p') as N0 by (intros n Q; apply (f_equal length) in Q; unfold p', mp in Q; rewrite !app_length in Q; cbn in Q; lia).
  assert (∀ i, diff_dir (layers_root dr) i ≠ p') as Nu.
  { intros i. unfold p', mp, mount_dir, mounts_root, diff_dir, layer_dir, layers_root. rewrite <-!(app_assoc (dr ++ _)). apply app_cons_ne. done. }
  assert (fget (w_fs w) p' = None) as Np'. { destruct (fget (w_fs w) p') eqn:Q; [|done]. apply W in Q. unfold is_dir_at in Q. fold mp in Q. by rewrite Nm in Q. }
  apply bind_then; [reflexivity|]. intros [] w1 H. rewrite Em in H.
  pose proof (mount_any dr mid id ch p' w P G ND NC N0 Nu W Nm Nw Du o w _ w1 eq_refl eq_refl ltac:(done) H) as (I1 & C1 & Q). destruct (Q eq_refl) as (m & Em1 & Ea & _ & Dm & _). clear Q.
  pose proof (ei_same _ _ _ _ _ _ _ I1) as S. pose proof (ei_proc _ _ _ _ _ _ _ I1) as (_ & E2 & _). pose proof (ei_wf _ _ _ _ _ _ _ I1) as W1.
  assert (∀ q x, fget (w_fs w) q = Some x → fget (w_fs w1) q = Some x) as K.
  { intros q x E. rewrite S; [done|..]; intros ->; [discriminate (eq_trans (eq_sym E) Nm)|discriminate (eq_trans (eq_sym E) Nw)|discriminate (eq_trans (eq_sym E) Np')]. }
  assert (stays w w1) as St.
  { apply keep_usual; [done|intros q x E _; by apply K|]. rewrite Em1. intros m' [->|Hm]%elem_of_cons; [right; by rewrite Ea|by left]. }
  destruct (stays_wd _ _ St C1 E2 U) as [U1 Eg].
  assert (ws_path y ≠ mp ∧ ws_path y ≠ work_dir dr mid ∧ ws_path y ≠ p') as (X1 & X2 & X3).
  { unfold p', mp, mount_dir, mounts_root. rewrite <-!(app_assoc dr). split_and!; by apply outside_ne. }
  apply (link_through_same y p mp); try done.
  - destruct Pl as (A1 & A2 & A3 & A4 & A5). split; [done|]. split; [done|]. split; [rewrite Em1; by eapply clear_add|]. split.
    + apply is_dir_at_Some in A4 as [b A4]. unfold is_dir_at. by rewrite (K _ _ A4).
    + rewrite S by done. intros s Es. destruct (A5 s Es) as (t & -> & Ut). exists t. split; [done|]. by apply St.
  - by apply (through_stays w).
  - by rewrite Em.
  - apply free_usual; [done| |done]. rewrite Em1. by eapply free_add.
  - rewrite Eg. destruct St as [_ St]. destruct (St _ (getwd_usual w U)) as [_ ->]. exact Hd.
Qed.
(** ** The operations *)
Lemma clone_through_same dr x p q o w a hid : plain_path dr → good_path dr → fair o → in_order dr w → live dr w x a hid → outside dr q → clear_of (w_mounts w) (mounts_root dr) → plain_place w q → through w p q → usual_wd w →
  (real_path (w_fs w) (getwd_of w) = Some q → getwd_of w = q) → (y <- clone_ws dr x p ;; deep_expand y) o w = (y <- clone_ws dr x p ;; expand (at_path q y)) o w.
Proof.
  intros P G F Io Lv O Cm Pl Th U Hd. pose proof (io_machine _ _ Io) as Mc. pose proof Lv as [W [R Gt] LP S D]. apply bind_then; [reflexivity|]. intros y w1 E.
  pose proof (clone_ws_any _ _ _ _ _ _ _ a hid F S W R LP Gt E) as [T _].
  destruct (clone_ready _ _ _ _ _ _ _ _ _ F Lv E) as (c & ch & id & _ & Ch & _ & Rd & _ & Hp & _ & _ & Em & N1 & _).
  assert (stays w w1) as St. { apply (touches_stays _ _ _ _ Mc) in T; [done|]. intros z Ez. destruct D as (raw & D & _). rewrite D in Ez. injection Ez as <-. eauto. }
  destruct (to_proc _ _ _ _ T) as (Ec & Ep & _). destruct (stays_wd _ _ St Ec Ep U) as [U1 Eg].
  assert (deep_expand y = deep_expand (at_path p (at_path q y))) as -> by (rewrite <-Hp; by destruct y).
  eapply (expand_through_same dr (at_path q y) p (mv_id (ws_mount y)) id ch); try done.
  - intros ->. by apply chain_not_nil in Ch.
  - by apply (to_wf _ _ _ _ T).
  - by eapply (touches_merged dr _ w).
  - by eapply (touches_merged dr _ w).
  - exact (live_diff _ _ _ _ _ (rd_live _ _ _ _ _ Rd)).
  - by eapply touches_place.
  - by apply (through_stays w).
  - rewrite (to_mounts _ _ _ _ T). by apply machine_free.
  - rewrite Eg. destruct St as [_ St]. destruct (St _ (getwd_usual w U)) as [_ ->]. exact Hd.
Qed.
Lemma create_through_same dr p q branch o w : plain_path dr → good_path dr → fair o → in_order dr w → outside dr q → clear_of (w_mounts w) (mounts_root dr) → plain_place w q → through w p q → usual_wd w →
  (real_path (w_fs w) (getwd_of w) = Some q → getwd_of w = q) → (x <- create_workspace dr p branch ;; deep_expand x) o w = (x <- create_workspace dr p branch ;; expand (at_path q x)) o w.
Proof.
  intros P G F Io O Cm Pl Th U Hd. pose proof (io_machine _ _ Io) as Mc. pose proof (mc_wf _ _ _ Mc) as W. apply bind_then; [reflexivity|]. intros y w1 E.
  pose proof (create_workspace_any _ _ _ _ _ _ _ F W E) as [T Od].
  destruct (create_ready _ _ _ _ _ _ _ F W E) as (rid & id & _ & Rd & _ & Hp & Em & N1 & _).
  set (sp := Space (ch_uid (o (w_tick w))) (space_dir dr (ch_uid (o (w_tick w))))) in *. assert (space_ok dr sp) as S by done.
  assert (fget (w_fs w) (sp_dir sp) = None) as Nsp. { destruct Od as [[_ Fl]|(a' & (N & _) & _)]; [by apply failed_not_ok in Fl|done]. }
  assert (stays w w1) as St.
  { apply (touches_stays _ _ _ _ Mc) in T; [done|]. intros z Ez. unfold tree_file in Ez. apply W in Ez. unfold is_dir_at in Ez. by rewrite Nsp in Ez. }
  destruct (to_proc _ _ _ _ T) as (Ec & Ep & _). destruct (stays_wd _ _ St Ec Ep U) as [U1 Eg].
  assert (deep_expand y = deep_expand (at_path p (at_path q y))) as -> by (rewrite <-Hp; by destruct y).
  eapply (expand_through_same dr (at_path q y) p (mv_id (ws_mount y)) id [rid]); try done.
  - by apply (to_wf _ _ _ _ T).
  - by eapply (touches_merged dr _ w).
  - by eapply (touches_merged dr _ w).
  - exact (live_diff _ _ _ _ _ (rd_live _ _ _ _ _ Rd)).
  - by eapply touches_place.
  - by apply (through_stays w).
  - rewrite (to_mounts _ _ _ _ T). by apply machine_free.
  - rewrite Eg. destruct St as [_ St]. destruct (St _ (getwd_usual w U)) as [_ ->]. exact Hd.
Qed.
(** ** What they leave *)
Lemma expand_puts dr y p mid id ch o w w' : plain_path dr → good_path dr → ch ≠ [] → outside dr (ws_path y) →
  ws_mount y = stack_mount (layers_root dr) (mount_dir dr mid) mid id ch → fs_wf (w_fs w) → fget (w_fs w) (merged_dir dr mid) = None → fget (w_fs w) (work_dir dr mid) = None →
  is_dir_at (w_fs w) (diff_dir (layers_root dr) id) = true → plain_place w (ws_path y) → through w p (ws_path y) → points_free dr (w_mounts w) → expand y o w = (Ok tt, w') →
  fget (w_fs w') (ws_path y) = Some (FLink (path_str (merged_dir dr mid))) ∧ (∃ m, m ∈ w_mounts w' ∧ mn_at m = merged_dir dr mid) ∧ leads w' p = Some (merged_dir dr mid) ∧
  ∀ r, r ≠ merged_dir dr mid → r ≠ work_dir dr mid → r ≠ ws_path y → fget (w_fs w') r = fget (w_fs w) r.
Proof.
  intros P G NC O Em W Nm Nw Du Pl Th F E. set (q := ws_path y) in *.
  destruct (expand_full dr y mid id ch o w _ w' P G NC Em O W Nm Nw Du E) as (I & _ & Q). destruct (Q eq_refl) as (m & Mm & Ma & Dm & _ & El & _). clear Q. fold q in El.
  pose proof (ei_same _ _ _ _ _ _ _ I) as S. pose proof (ei_wf _ _ _ _ _ _ _ I) as W'. fold q in S.
  split; [done|]. split; [exists m; rewrite Mm; split; [by left|done]|]. split; [|done].
  set (wm := set_fs w' (match fget (w_fs w) q with Some x => fset (w_fs w') q x | None => fdel (w_fs w') q end)).
  assert (∀ r, r ≠ q → fget (w_fs w') r = fget (w_fs wm) r) as Sm.
  { intros r Nr. unfold wm. cbn [w_fs set_fs]. destruct (fget (w_fs w) q); [by rewrite fget_fset_ne by congruence|by rewrite fget_fdel_ne by congruence]. }
  assert (∀ r x, fget (w_fs w) r = Some x → fget (w_fs wm) r = Some x) as K.
  { intros r x Er. destruct (decide (r = q)) as [->|Nr].
    - unfold wm. cbn [w_fs set_fs]. rewrite Er. by rewrite fget_fset_eq.
    - rewrite <-Sm by done. rewrite S; [done|intros ->; discriminate (eq_trans (eq_sym Er) Nm)|intros ->; discriminate (eq_trans (eq_sym Er) Nw)|done]. }
  assert (stays w wm) as St.
  { apply keep_usual; [done|intros r x Er _; by apply K|]. change (w_mounts wm) with (w_mounts w'). rewrite Mm. intros m' [->|Hm]%elem_of_cons; [right; by rewrite Ma|by left]. }
  pose proof (through_edit p q wm w' Sm eq_refl (through_stays _ _ _ _ St Th)) as T'.
  assert (usual_dir w' (merged_dir dr mid)) as Um. { apply free_usual; [done| |done]. rewrite Mm. by eapply free_add. }
  assert (plain_place w' q) as Pl'.
  { destruct Pl as (A1 & A2 & A3 & A4 & A5). split; [done|]. split; [done|]. split; [rewrite Mm; by eapply clear_add|]. split.
    - apply is_dir_at_Some in A4 as [b A4]. unfold is_dir_at. rewrite Sm by (by apply parent_ne). by rewrite (K _ _ A4).
    - rewrite El. intros s [= <-]. by exists (merged_dir dr mid). }
  rewrite (through_leads w' p q) by done. apply link_real; [done|apply Um..].
Qed.
Lemma file_apart dr mid q : outside dr q → ws_file dr mid ≠ merged_dir dr mid ∧ ws_file dr mid ≠ work_dir dr mid ∧ ws_file dr mid ≠ q.
Proof.
  intros O. unfold ws_file, mount_dir, mounts_root. split; [|split].
  - intros Q. apply (f_equal length) in Q. rewrite !app_length in Q. cbn in Q. lia.
  - intros Q. apply (f_equal length) in Q. rewrite !app_length in Q. cbn in Q. lia.
  - rewrite <-!(app_assoc dr). apply not_eq_sym. by apply outside_ne.
Qed.
Lemma clone_puts dr x p q o w a hid w' : plain_path dr → good_path dr → fair o → in_order dr w → live dr w x a hid → outside dr q → clear_of (w_mounts w) (mounts_root dr) → plain_place w q → through w p q →
  (y <- clone_ws dr x p ;; expand (at_path q y)) o w = (Ok tt, w') → put_at dr p q w'.
Proof.
  intros P G F Io Lv O Cm Pl Th Run. pose proof (io_machine _ _ Io) as Mc. pose proof Lv as [W [R Gt] LP S D]. apply bind_ok in Run as (y & w1 & E & Run).
  pose proof (clone_ws_any _ _ _ _ _ _ _ a hid F S W R LP Gt E) as [T _].
  destruct (clone_ready _ _ _ _ _ _ _ _ _ F Lv E) as (c & ch & id & _ & Ch & _ & Rd & _ & Hp & _ & _ & Em & N1 & _).
  assert (stays w w1) as St. { apply (touches_stays _ _ _ _ Mc) in T; [done|]. intros z Ez. destruct D as (raw & D & _). rewrite D in Ez. injection Ez as <-. eauto. }
  destruct (expand_puts dr (at_path q y) p (mv_id (ws_mount y)) id ch o w1 w') as (X1 & X2 & X3 & X4); try done.
  - intros ->. by apply chain_not_nil in Ch.
  - by apply (to_wf _ _ _ _ T).
  - by eapply (touches_merged dr _ w).
  - by eapply (touches_merged dr _ w).
  - exact (live_diff _ _ _ _ _ (rd_live _ _ _ _ _ Rd)).
  - by eapply touches_place.
  - by apply (through_stays w).
  - rewrite (to_mounts _ _ _ _ T). by apply machine_free.
  - destruct (file_apart dr (mv_id (ws_mount y)) q O) as (Y1 & Y2 & Y3). exists (mv_id (ws_mount y)), (ws_info y id). split; [exact X1|]. split; [exact X2|]. split; [exact X3|].
    split; [rewrite X4 by done; apply Rd|]. unfold ws_info. by rewrite Hp.
Qed.
Lemma create_puts dr p q branch o w w' : plain_path dr → good_path dr → fair o → in_order dr w → outside dr q → clear_of (w_mounts w) (mounts_root dr) → plain_place w q → through w p q →
  (x <- create_workspace dr p branch ;; expand (at_path q x)) o w = (Ok tt, w') → put_at dr p q w'.
Proof.
  intros P G F Io O Cm Pl Th Run. pose proof (io_machine _ _ Io) as Mc. pose proof (mc_wf _ _ _ Mc) as W. apply bind_ok in Run as (y & w1 & E & Run).
  pose proof (create_workspace_any _ _ _ _ _ _ _ F W E) as [T Od].
  destruct (create_ready _ _ _ _ _ _ _ F W E) as (rid & id & _ & Rd & _ & Hp & Em & N1 & _).
  set (sp := Space (ch_uid (o (w_tick w))) (space_dir dr (ch_uid (o (w_tick w))))) in *. assert (space_ok dr sp) as S by done.
  assert (fget (w_fs w) (sp_dir sp) = None) as Nsp. { destruct Od as [[_ Fl]|(a' & (N & _) & _)]; [by apply failed_not_ok in Fl|done]. }
  assert (stays w w1) as St.
  { apply (touches_stays _ _ _ _ Mc) in T; [done|]. intros z Ez. unfold tree_file in Ez. apply W in Ez. unfold is_dir_at in Ez. by rewrite Nsp in Ez. }
  destruct (expand_puts dr (at_path q y) p (mv_id (ws_mount y)) id [rid] o w1 w') as (X1 & X2 & X3 & X4); try done.
  - by apply (to_wf _ _ _ _ T).
  - by eapply (touches_merged dr _ w).
  - by eapply (touches_merged dr _ w).
  - exact (live_diff _ _ _ _ _ (rd_live _ _ _ _ _ Rd)).
  - by eapply touches_place.
  - by apply (through_stays w).
  - rewrite (to_mounts _ _ _ _ T). by apply machine_free.
  - destruct (file_apart dr (mv_id (ws_mount y)) q O) as (Y1 & Y2 & Y3). exists (mv_id (ws_mount y)), (ws_info y id). split; [exact X1|]. split; [exact X2|]. split; [exact X3|].
    split; [rewrite X4 by done; apply Rd|]. unfold ws_info. by rewrite Hp.
Qed.
(** ** A directory where something is mounted *)
Definition refused (p : path) (m : M unit) (o : oracle) (w : world) : Prop := ∀ r w', m o w = (r, w') → r ≠ Ok tt ∧ left_alone p w w'.
Lemma alone_trans p w1 w2 w3 : left_alone p w1 w2 → left_alone p w2 w3 → left_alone p w1 w3.
Proof. intros [A1 A2] [B1 B2]. split; [congruence|auto]. Qed.
Lemma alone_same p w w' : w_fs w' = w_fs w → w_mounts w' = w_mounts w → left_alone p w w'.
Proof. intros E1 E2. split; [by rewrite E1|by rewrite E2]. Qed.
Lemma alone_quiet {A} (m : M A) p o w r w' : quiet m → m o w = (r, w') → left_alone p w w'.
Proof. intros Q E. apply Q in E as (k & ->). by apply alone_same. Qed.
Lemma refused_bind {A} (m : M A) f p o w : (∀ r w1, m o w = (r, w1) → left_alone p w w1) → (∀ a w1, m o w = (Ok a, w1) → refused p (f a) o w1) → refused p (bind m f) o w.
Proof.
  intros H1 H2 r w' E. apply bind_any in E as [(a & w1 & E & H)|(r1 & E & Er & Fr)].
  - destruct (H2 _ _ E _ _ H) as [N L]. split; [done|]. eapply alone_trans; [by eapply H1|done].
  - split; [|by eapply H1]. intros ->. by apply failed_not_ok in Fr.
Qed.
Lemma refused_first p m (f : unit → M unit) o w : refused p m o w → refused p (bind m f) o w.
Proof. intros H. apply refused_bind; [intros r w1 E; by apply (H r)|]. intros [] w1 E. apply H in E as [N _]. done. Qed.
Lemma busy_ext w w' p : w_fs w' = w_fs w → w_mounts w' = w_mounts w → busy w p → busy w' p.
Proof. intros E1 E2. unfold busy, usual_dir. by rewrite E1, E2. Qed.
Lemma busy_over w p : busy w p → ∃ m, mount_over (w_mounts w) p = Some m ∧ mn_at m = p.
Proof.
  intros ((G & D & U) & N & m & Hm & Em). destruct (over_some (w_mounts w) p m Hm) as (m' & E & _); [rewrite Em; rewrite <-(app_nil_r p) at 2; apply is_prefix_app|].
  exists m'. split; [done|]. apply over_in in E as [H P]. by apply U.
Qed.
Lemma busy_remove p o w : fs_wf (w_fs w) → busy w p → refused p (deep_remove p) o w.
Proof.
  intros W Bs r w' E. pose proof (usual_spot w p W (or_introl (proj1 Bs))) as S. destruct (busy_over w p Bs) as (m & Em & Ea). unfold deep_remove, sys_atomic in E. cbv zeta in E.
  rewrite (spot_ext w (tick w)) in E by reflexivity. change (w_mounts (tick w)) with (w_mounts w) in E. rewrite S, Em in E. rewrite decide_True in E by done.
  destruct (ch_fault _) as [|? ?|[|?]]; injection E as <- <-; (split; [discriminate|by apply alone_same]).
Qed.
Lemma busy_symlink s p o w : fs_wf (w_fs w) → busy w p → refused p (deep_symlink s p) o w.
Proof.
  intros W Bs r w' E. pose proof (usual_spot w p W (or_introl (proj1 Bs))) as S. pose proof (usual_obj w p (proj1 Bs)) as D. unfold deep_symlink, sys_atomic in E. cbv zeta in E.
  rewrite (spot_ext w (tick w)) in E by reflexivity. rewrite S in E. rewrite (obj_ext w (tick w)) in E by reflexivity. unfold dir_here in D. destruct (obj_at w p) as [x|]; [|discriminate D].
  destruct (ch_fault _) as [|? ?|[|?]]; injection E as <- <-; (split; [discriminate|by apply alone_same]).
Qed.
Lemma busy_link_up x o w : fs_wf (w_fs w) → busy w (ws_path x) → refused (ws_path x) (deep_link_up x) o w.
Proof.
  intros W Bs. unfold deep_link_up. set (p := ws_path x) in *.
  apply refused_bind; [intros r w1 E; eapply alone_quiet; [apply quiet_look|exact E]|]. intros pwd w1 E. pose proof (look_any _ _ _ _ _ E) as ->.
  apply refused_bind.
  { intros r w1 H. unfold os_chdir, sys_atomic in H. cbv zeta in H. destruct (ch_fault _) as [|? ?|[|?]].
    - destruct (real_path _ _); [|injection H as _ <-; by apply alone_same]. destruct (is_dir_at _ _); injection H as _ <-; by apply alone_same.
    - injection H as _ <-. by apply alone_same.
    - injection H as _ <-. by apply alone_same.
    - injection H as _ <-. destruct (real_path _ _); [|by apply alone_same]. destruct (is_dir_at _ _); by apply alone_same. }
  intros [] w1 H. apply chdir_ok in H as (q & _ & _ & ->). set (v := set_cwd (tick (tick w)) q).
  assert (quiet (deep_exists p)) as Qe by (unfold deep_exists; quiet).
  apply refused_bind; [intros r w1 H; by eapply alone_quiet|]. intros e w1 H. apply Qe in H as (k & ->). set (v1 := upd v (w_fs v) (w_mounts v) (w_tree v) k).
  assert (busy v1 p) as B1 by (by apply (busy_ext w)). destruct e; [apply refused_first; by apply busy_remove|].
  apply refused_bind; [intros r w1 [= _ <-]; by apply alone_same|]. intros [] w1 [= <-]. apply refused_first. by apply busy_symlink.
Qed.
Lemma busy_stays w w' p : stays w w' → (∀ m, m ∈ w_mounts w → m ∈ w_mounts w') → busy w p → busy w' p.
Proof. intros [S _] M (U & N & m & Hm & Em). split; [by apply S|]. split; [done|]. exists m. auto. Qed.
Lemma touches_alone dr sp w w' p : space_ok dr sp → touches dr sp w w' → outside dr p → is_dir_at (w_fs w) p = true → left_alone p w w'.
Proof.
  intros S T O D. split; [|by rewrite (to_mounts _ _ _ _ T)]. apply is_dir_at_Some in D as [b D]. rewrite D. apply (to_old _ _ _ _ T); [done|].
  intros [E|(i & E & _)]; revert E; [unfold tree_file; rewrite S; unfold space_dir, spaces_root|unfold ws_file, mounts_root]; rewrite <-!(app_assoc dr); by apply outside_ne.
Qed.
Lemma busy_expand dr y mid id ch o w : plain_path dr → good_path dr → ch ≠ [] → outside dr (ws_path y) →
  ws_mount y = stack_mount (layers_root dr) (mount_dir dr mid) mid id ch → fs_wf (w_fs w) → fget (w_fs w) (merged_dir dr mid) = None → fget (w_fs w) (work_dir dr mid) = None →
  is_dir_at (w_fs w) (diff_dir (layers_root dr) id) = true → busy w (ws_path y) → refused (ws_path y) (deep_expand y) o w.
Proof.
  intros P G NC O Em W Nm Nw Du Bs. change (deep_expand y) with (bind (mount_mount (ws_mount y)) (λ _, deep_link_up y)).
  assert (dr ≠ []) as ND by (intros ->; by destruct O).
  set (mp := merged_dir dr mid) in *. set (p' := mp ++ [B "x"]).
  assert (∀ n, mount_dir dr mid ++ [n] ≠ p') as N0 by (intros n Q; apply (f_equal length) in Q; unfold p', mp in Q; rewrite !app_length in Q; cbn in Q; lia).
  assert (∀ i, diff_dir (layers_root dr) i ≠ p') as Nu.
  { intros i. unfold p', mp, mount_dir, mounts_root, diff_dir, layer_dir, layers_root. rewrite <-!(app_assoc (dr ++ _)). apply app_cons_ne. done. }
  assert (fget (w_fs w) p' = None) as Np'. { destruct (fget (w_fs w) p') eqn:Q; [|done]. apply W in Q. unfold is_dir_at in Q. fold mp in Q. by rewrite Nm in Q. }
  assert (∀ r w1, mount_mount (ws_mount y) o w = (r, w1) → fs_wf (w_fs w1) ∧ stays w w1 ∧ left_alone (ws_path y) w w1) as A.
  { intros r w1 H. rewrite Em in H. pose proof (mount_any dr mid id ch p' w P G ND NC N0 Nu W Nm Nw Du o w _ w1 eq_refl eq_refl ltac:(done) H) as (I1 & _ & _).
    pose proof (ei_same _ _ _ _ _ _ _ I1) as S. pose proof (ei_ms _ _ _ _ _ _ _ I1) as Ms.
    assert (∀ q x, fget (w_fs w) q = Some x → fget (w_fs w1) q = Some x) as K.
    { intros q x E. rewrite S; [done|..]; intros ->; [discriminate (eq_trans (eq_sym E) Nm)|discriminate (eq_trans (eq_sym E) Nw)|discriminate (eq_trans (eq_sym E) Np')]. }
    split; [exact (ei_wf _ _ _ _ _ _ _ I1)|]. split.
    - apply keep_usual; [done|intros q x E _; by apply K|]. destruct Ms as [->|(m & -> & Ea & _)]; [by left|]. intros m' [->|Hm]%elem_of_cons; [right; by rewrite Ea|by left].
    - split.
      + destruct Bs as ((_ & D & _) & _). apply is_dir_at_Some in D as [b D]. rewrite D. by apply K.
      + intros m' Hm. destruct Ms as [->|(m & -> & _)]; [done|by right]. }
  apply refused_bind; [intros r w1 H; by apply (A r w1 H)|]. intros [] w1 H. destruct (A _ _ H) as (W1 & St & L). apply busy_link_up; [done|]. apply (busy_stays w); [done|apply L|done].
Qed.
Lemma busy_clone dr x p o w a hid : plain_path dr → good_path dr → fair o → in_order dr w → live dr w x a hid → outside dr p → busy w p → refused p (y <- clone_ws dr x p ;; deep_expand y) o w.
Proof.
  intros P G F Io Lv O Bs. pose proof (io_machine _ _ Io) as Mc. pose proof Lv as [W [R Gt] LP S D].
  assert (∀ r w1, clone_ws dr x p o w = (r, w1) → touches dr (ws_space x) w w1 ∧ left_alone p w w1) as A.
  { intros r w1 E. pose proof (clone_ws_any _ _ _ _ _ _ _ a hid F S W R LP Gt E) as [T _]. split; [done|]. eapply touches_alone; [exact S|done|done|apply Bs]. }
  apply refused_bind; [intros r w1 E; by apply (A r w1 E)|]. intros y w1 E. destruct (A _ _ E) as [T L].
  destruct (clone_ready _ _ _ _ _ _ _ _ _ F Lv E) as (c & ch & id & _ & Ch & _ & Rd & _ & Hp & _ & _ & Em & N1 & _).
  assert (stays w w1) as St. { apply (touches_stays _ _ _ _ Mc) in T; [done|]. intros z Ez. destruct D as (raw & D & _). rewrite D in Ez. injection Ez as <-. eauto. }
  pose proof (busy_stays _ _ _ St (proj2 L) Bs) as B1. rewrite <-Hp in *. apply (busy_expand dr y (mv_id (ws_mount y)) id ch); try done.
  - intros ->. by apply chain_not_nil in Ch.
  - by apply (to_wf _ _ _ _ T).
  - by eapply (touches_merged dr _ w).
  - by eapply (touches_merged dr _ w).
  - exact (live_diff _ _ _ _ _ (rd_live _ _ _ _ _ Rd)).
Qed.
Lemma busy_create dr p branch o w : plain_path dr → good_path dr → fair o → in_order dr w → outside dr p → busy w p → refused p (x <- create_workspace dr p branch ;; deep_expand x) o w.
Proof.
  intros P G F Io O Bs. pose proof (io_machine _ _ Io) as Mc. pose proof (mc_wf _ _ _ Mc) as W.
  set (sp := Space (ch_uid (o (w_tick w))) (space_dir dr (ch_uid (o (w_tick w))))). assert (space_ok dr sp) as S by done.
  assert (∀ r w1, create_workspace dr p branch o w = (r, w1) → touches dr sp w w1 ∧ left_alone p w w1) as A.
  { intros r w1 E. pose proof (create_workspace_any _ _ _ _ _ _ _ F W E) as [T _]. split; [done|]. eapply touches_alone; [exact S|done|done|apply Bs]. }
  apply refused_bind; [intros r w1 E; by apply (A r w1 E)|]. intros y w1 E. destruct (A _ _ E) as [T L].
  pose proof (create_workspace_any _ _ _ _ _ _ _ F W E) as [_ Od].
  destruct (create_ready _ _ _ _ _ _ _ F W E) as (rid & id & _ & Rd & _ & Hp & Em & N1 & _).
  assert (fget (w_fs w) (sp_dir sp) = None) as Nsp. { destruct Od as [[_ Fl]|(a' & (N & _) & _)]; [by apply failed_not_ok in Fl|done]. }
  assert (stays w w1) as St.
  { apply (touches_stays _ _ _ _ Mc) in T; [done|]. intros z Ez. unfold tree_file in Ez. apply W in Ez. unfold is_dir_at in Ez. by rewrite Nsp in Ez. }
  pose proof (busy_stays _ _ _ St (proj2 L) Bs) as B1. rewrite <-Hp in *. apply (busy_expand dr y (mv_id (ws_mount y)) id [rid]); try done.
  - by apply (to_wf _ _ _ _ T).
  - by eapply (touches_merged dr _ w).
  - by eapply (touches_merged dr _ w).
  - exact (live_diff _ _ _ _ _ (rd_live _ _ _ _ _ Rd)).
Qed.
