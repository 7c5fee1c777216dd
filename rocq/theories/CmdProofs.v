(** * CmdProofs: every command keeps the data root in order, under every fault *)
From Verif Require Import Base Uid SpecUid UidProofs Tree SpecTree TreeRefine TreeObs Dump DumpProofs Json JsonProofs Save SaveProofs Branch BranchProofs Date Ws SpecWs WsProofs
  Fs Overlay Os Layers Mounts Space Manager Commands FsProofs OsProofs LayerProofs MountProofs SpaceProofs ManagerProofs SpecWorld SpecOps SavedProofs FaultProofs ReadyProofs OpProofs CalmProofs
  SpecMachine SpecCmds MachineProofs OpenProofs.
From Coq Require Import Lia.
From stdpp Require Import prelude gmap.

(** The data root and what lies directly in it *)
Definition top_level (dr q : path) : Prop := q = dr ∨ ∃ n, q = dr ++ [n].
(** What is mounted in the data root is mounted on directories. *)
Definition pointed (dr : path) (w : world) : Prop :=
  ∀ m, m ∈ w_mounts w → is_prefix (mounts_root dr) (mn_at m) = true → is_dir_at (w_fs w) (mn_at m) = true.
Lemma top_ne dr q n k k' : top_level dr q → q ≠ (dr ++ [n]) ++ k :: k'.
Proof. intros [->|[n' ->]] E; apply (f_equal length) in E; rewrite !app_length in E; cbn in E; lia. Qed.
Lemma top_in dr q : top_level dr q → ∃ k, q = dr ++ k.
Proof. intros [->|[n ->]]; [exists []; by rewrite app_nil_r|eauto]. Qed.
(** What every part of every command guarantees *)
Record orderly (dr : path) (w w' : world) : Prop := {
  or_machine : machine dr (w_fs w') (w_mounts w');
  or_layers : layers_safe dr w w';
  or_dirs : ∀ id, is_Some (fget (w_fs w) (layer_dir (layers_root dr) id)) → is_Some (fget (w_fs w') (layer_dir (layers_root dr) id));
  or_top : ∀ q, top_level dr q → fget (w_fs w') q = fget (w_fs w) q;
  or_points : pointed dr w → pointed dr w' }.
(** Up to the removal of the old mount no layer changes at all ([untouched]). *)
Lemma same_layer_dir dr fs fs' id : same_layer dr fs fs' id → is_dir_at fs' (diff_dir (layers_root dr) id) = is_dir_at fs (diff_dir (layers_root dr) id).
Proof. intros S. unfold is_dir_at. rewrite S; [done|]. apply is_prefix_refl. Qed.
Lemma orderly_refl dr w w' : machine dr (w_fs w) (w_mounts w) → w_fs w' = w_fs w → w_mounts w' = w_mounts w → orderly dr w w'.
Proof. intros Mc E1 E2. constructor; unfold pointed; rewrite ?E1, ?E2; try done. split; [rewrite E2; auto|]. intros id _ _ q _. by rewrite E1. Qed.
Lemma orderly_trans dr w w1 w2 : untouched dr w w1 → orderly dr w w1 → orderly dr w1 w2 → orderly dr w w2.
Proof.
  intros U [A1 [A2 A2'] A3 A4 A5] [B1 [B2 B2'] B3 B4 B5]. constructor; [done| |auto|intros q T; by rewrite B4, A4|auto]. split.
  - intros m Hm. destruct (B2 m Hm) as [Hm1|[N|(id & Eu & N)]]; [auto|auto|]. right. right. exists id. split; [done|].
    apply eq_None_not_Some. intros [y Hy]. destruct (A3 id) as [z Hz]; [eauto|]. congruence.
  - intros id D N. pose proof (U id D) as S1. assert (same_layer dr (w_fs w1) (w_fs w2) id) as S2.
    { apply B2'; [|done]. by rewrite (same_layer_dir _ _ _ _ S1). }
    intros q Hq. by rewrite S2, S1.
Qed.
Lemma untouched_trans dr w w1 w2 : untouched dr w w1 → untouched dr w1 w2 → untouched dr w w2.
Proof.
  intros U V id D. pose proof (U id D) as S1. assert (same_layer dr (w_fs w1) (w_fs w2) id) as S2 by (apply V; by rewrite (same_layer_dir _ _ _ _ S1)).
  intros q Hq. by rewrite S2, S1.
Qed.
Lemma untouched_refl dr w w' : w_fs w' = w_fs w → untouched dr w w'.
Proof. intros E id _ q _. by rewrite E. Qed.
(** So a layer that nothing writes to stays as it is. *)
Lemma safe_kept dr w w' : fs_wf (w_fs w) → layers_safe dr w w' → layers_kept dr w w'.
Proof.
  intros W [H1 H2] id [D Nu]. assert (∀ m, m ∈ w_mounts w' → mn_upper m ≠ Some (diff_dir (layers_root dr) id)) as Nu'.
  { intros m Hm Q. destruct (H1 m Hm) as [Hm'|[N|(id' & E & N)]]; [by apply (Nu m)|congruence|].
    rewrite Q in E. injection E as E. apply diff_dir_inj in E as ->. apply is_dir_at_Some in D as [b D]. unfold diff_dir in D. apply W in D. unfold is_dir_at in D. by rewrite N in D. }
  pose proof (H2 id D Nu') as S. split; [|done]. split; [|done]. by rewrite (same_layer_dir _ _ _ _ S).
Qed.
Lemma the_space_ok dr sp : space_ok dr sp → sp = the_space dr (sp_id sp).
Proof. destruct sp as [i d]. unfold space_ok, the_space. cbn. by intros ->. Qed.
Lemma tree_at_inj dr s s' : tree_at dr s = tree_at dr s' → s = s'.
Proof.
  unfold tree_file, the_space, sp_dir, space_dir. intros E. apply app_inj_tail in E as [E _]. apply app_inj_tail in E as [_ E]. by apply uid_b32_inj.
Qed.
(** Paths inside a layer *)
Lemma in_layer_shape dr id q : is_prefix (diff_dir (layers_root dr) id) q = true → ∃ k, q = (dr ++ [B "overlay"]) ++ [uid_b32 id; B "diff"] ++ k.
Proof. intros [k ->]%is_prefix_spec. exists k. unfold diff_dir, layer_dir, layers_root. by rewrite <-!app_assoc. Qed.
Lemma in_layer_new dr id q : is_prefix (diff_dir (layers_root dr) id) q = true → new_dir dr q → q = diff_dir (layers_root dr) id.
Proof.
  intros (k & ->)%in_layer_shape [[i H]|[[i H]|[[i H]|[i H]]]]; revert H.
  - unfold mount_dir, mounts_root. intros H. exfalso. revert H. apply app_cons_ne. done.
  - unfold space_dir, spaces_root. intros H. exfalso. revert H. apply app_cons_ne. done.
  - unfold layer_dir, layers_root. intros H. exfalso. apply (f_equal length) in H. rewrite !app_length in H. cbn in H. lia.
  - unfold diff_dir, layer_dir, layers_root. rewrite <-!app_assoc. intros H. apply app_inv_head in H. cbn in H. injection H as H1 H2. apply uid_b32_inj in H1. by subst.
Qed.
Lemma in_layer_not_own dr sp fs id q : space_ok dr sp → is_prefix (diff_dir (layers_root dr) id) q = true → ¬ own dr sp fs q.
Proof.
  intros S (k & ->)%in_layer_shape [H|(i & H & _)]; revert H.
  - unfold tree_file. rewrite S. unfold space_dir, spaces_root. rewrite <-(app_assoc (dr ++ [B "spaces"])). apply app_cons_ne. done.
  - unfold ws_file, mounts_root. apply app_cons_ne. done.
Qed.
Lemma in_layer_mount dr id q mid : is_prefix (diff_dir (layers_root dr) id) q = true → is_prefix (mount_dir dr mid) q = false.
Proof.
  intros (k & ->)%in_layer_shape. apply not_true_is_false. rewrite is_prefix_spec. intros [j H]. revert H.
  unfold mount_dir, mounts_root. rewrite <-(app_assoc (dr ++ [B "mounts"])). apply app_cons_ne. done.
Qed.
Lemma in_layer_wsfile dr id q mid : is_prefix (diff_dir (layers_root dr) id) q = true → q ≠ ws_file dr mid.
Proof. intros (k & ->)%in_layer_shape. unfold ws_file, mounts_root. apply app_cons_ne. done. Qed.
Lemma in_layer_outside dr id q p : is_prefix (diff_dir (layers_root dr) id) q = true → outside dr p → q ≠ p.
Proof. intros (k & ->)%in_layer_shape O E. rewrite <-app_assoc in E. exact (outside_ne dr p _ O (eq_sym E)). Qed.
Lemma in_layer_below dr id q mid n : is_prefix (diff_dir (layers_root dr) id) q = true → q ≠ mount_dir dr mid ++ [n].
Proof. intros H E. apply (in_layer_mount dr id q mid) in H. rewrite E, is_prefix_app in H. done. Qed.
(** A path in two layers *)
Lemma in_layer_same dr id id' q : is_prefix (diff_dir (layers_root dr) id) q = true → is_prefix (diff_dir (layers_root dr) id') q = true → id = id'.
Proof.
  intros (k & ->)%in_layer_shape (k' & H)%in_layer_shape. apply app_inv_head in H. cbn in H. injection H as H _. by apply uid_b32_inj.
Qed.

Lemma merged_not_own dr sp fs mid n : space_ok dr sp → ¬ own dr sp fs (mount_dir dr mid ++ [n]).
Proof.
  intros S [H|(i & H & _)]; revert H.
  - unfold tree_file. rewrite S. unfold space_dir, mount_dir. rewrite <-!app_assoc. unfold mounts_root, spaces_root. apply app_cons_ne. done.
  - unfold mount_dir, ws_file. rewrite <-app_assoc. intros H. apply app_inv_head in H. by injection H.
Qed.
(** ** Operations *)
Lemma op_orderly dr sp w w' (f cut : Prop) new : machine dr (w_fs w) (w_mounts w) → space_ok dr sp → op_done dr sp w w' f cut new →
  orderly dr w w' ∧ untouched dr w w' ∧ ∀ sid, sid ≠ sp_id sp → fget (w_fs w') (tree_at dr sid) = fget (w_fs w) (tree_at dr sid).
Proof.
  intros [W I T Mo] S [To Di]. pose proof (the_space_ok _ _ S) as Es.
  assert (∀ sid, sid ≠ sp_id sp → fget (w_fs w') (tree_at dr sid) = fget (w_fs w) (tree_at dr sid)) as Ht.
  { intros sid Ne. assert (¬ own dr sp (w_fs w) (tree_at dr sid)) as No.
    { intros [Q|(i & Q & _)]; [rewrite Es in Q; apply tree_at_inj in Q; by destruct sp|].
      destruct (tree_file_ne dr (the_space dr sid) eq_refl) as (_ & N & _). by apply N in Q. }
    destruct (fget (w_fs w) (tree_at dr sid)) as [y|] eqn:E; [by apply (to_old _ _ _ _ To)|].
    apply eq_None_not_Some. intros H. destruct (to_new _ _ _ _ To _ E No H) as [_ H'].
    destruct (tree_file_ne dr (the_space dr sid) eq_refl) as (N1 & N2 & N3 & N4 & N5).
    destruct H' as [[i Q]|[[i Q]|[[i Q]|[i Q]]]]; [by apply N1 in Q|by apply N5 in Q|by apply N3 in Q|by apply N4 in Q]. }
  assert (∀ id, is_dir_at (w_fs w) (diff_dir (layers_root dr) id) = true → is_dir_at (w_fs w') (diff_dir (layers_root dr) id) = true) as Hd.
  { intros id D. apply is_dir_at_Some in D as [b D]. unfold is_dir_at. rewrite (to_old _ _ _ _ To _ _ D); [done|]. by apply layer_not_own. }
  assert (untouched dr w w') as Un.
  { intros id D q Hq. pose proof (in_layer_not_own dr sp (w_fs w) id q S Hq) as No.
    destruct (fget (w_fs w) q) as [y|] eqn:E; [by apply (to_old _ _ _ _ To)|].
    apply eq_None_not_Some. intros H. destruct (to_new _ _ _ _ To _ E No H) as [_ H']. apply (in_layer_new dr id q Hq) in H' as ->.
    unfold is_dir_at in D. by rewrite E in D. }
  split; [|done]. constructor; [constructor| | | |].
  - by apply (to_wf _ _ _ _ To).
  - intros mid y E. apply (to_info _ _ _ _ To) in E as [E|E]; auto.
  - intros sid. destruct (decide (sid = sp_id sp)) as [->|Ne].
    + unfold tree_state. rewrite <-Es. destruct Di as [[E _]|(a' & _ & _ & LP & Di)].
      * destruct (T (sp_id sp)) as [Q|[Q|(a & Q & LP)]]; rewrite <-Es in Q; unfold holds, holds_torn in *; rewrite E; [by left|by right; left|].
        right. right. exists a. split; [done|]. by eapply touches_present.
      * right. destruct Di as [Di|[Di _]]; [right; eauto|by left].
    + specialize (Ht sid Ne). destruct (T sid) as [Q|[Q|(a & Q & LP)]]; unfold tree_state, holds, holds_torn in *; rewrite Ht; [by left|by right; left|].
      right. right. exists a. split; [done|]. by eapply touches_present.
  - intros m. rewrite (to_mounts _ _ _ _ To). intros Hm Hp. destruct (Mo m Hm Hp) as [O1 O2]. split; [done|]. intros u Hu.
    destruct (O2 u Hu) as (id & -> & D). eauto.
  - split; [rewrite (to_mounts _ _ _ _ To); auto|]. intros id D _. auto.
  - intros id [y E]. exists y. apply (to_old _ _ _ _ To); [done|]. by apply layer_not_own.
  - intros q Hq. assert (¬ own dr sp (w_fs w) q) as No.
    { intros [Q|(i & Q & _)]; revert Q.
      - rewrite Es. unfold tree_file, sp_dir, the_space, space_dir, spaces_root. rewrite <-app_assoc. by apply top_ne.
      - unfold ws_file, mounts_root. by apply top_ne. }
    destruct (fget (w_fs w) q) as [y|] eqn:E; [by apply (to_old _ _ _ _ To)|].
    apply eq_None_not_Some. intros H. destruct (to_new _ _ _ _ To _ E No H) as [_ H'].
    destruct H' as [[i Q]|[[i Q]|[[i Q]|[i Q]]]]; revert Q; unfold mount_dir, space_dir, diff_dir, layer_dir, layers_root, spaces_root, mounts_root;
      rewrite <-?(app_assoc (dr ++ [_])); by apply top_ne.
  - intros H2 m. rewrite (to_mounts _ _ _ _ To). intros Hm Hp. pose proof (H2 m Hm Hp) as D. destruct (Mo m Hm Hp) as [[mid Ea] _].
    apply is_dir_at_Some in D as [b D]. unfold is_dir_at. rewrite (to_old _ _ _ _ To _ _ D); [done|]. rewrite Ea. by apply merged_not_own.
Qed.
(** ** Expand *)
Lemma expand_orderly dr x mid id ch o w r w' : plain_path dr → good_path dr → machine dr (w_fs w) (w_mounts w) → ch ≠ [] →
  ws_mount x = stack_mount (layers_root dr) (mount_dir dr mid) mid id ch → outside dr (ws_path x) →
  fget (w_fs w) (mount_dir dr mid ++ [B "merged"]) = None → is_dir_at (w_fs w) (diff_dir (layers_root dr) id) = true →
  expand x o w = (r, w') →
  machine dr (w_fs w') (w_mounts w') ∧ untouched dr w w' ∧
  (∀ m, m ∈ w_mounts w' → m ∈ w_mounts w ∨ mn_upper m = None ∨ mn_upper m = Some (diff_dir (layers_root dr) id)) ∧
  (∀ id, fget (w_fs w') (layer_dir (layers_root dr) id) = fget (w_fs w) (layer_dir (layers_root dr) id)) ∧
  (∀ sid, fget (w_fs w') (tree_at dr sid) = fget (w_fs w) (tree_at dr sid)) ∧
  (∀ q, top_level dr q → fget (w_fs w') q = fget (w_fs w) q) ∧ (pointed dr w → pointed dr w').
Proof.
  intros P G Mc NC Em O Nm D E. pose proof (mc_wf _ _ _ Mc) as W.
  pose proof (expand_inv dr x mid id ch o w r w' P G NC Em O W Nm D E) as [A1 A2 A3 A4 A5 A6 A7 A8].
  assert (∀ q, vital dr q → fget (w_fs w') q = fget (w_fs w) q) as Hv.
  { intros q V. apply A2; [by apply vital_below_mount|by apply vital_below_mount|]. exact (λ Q, vital_outside dr _ _ V O (eq_sym Q)). }
  split; [|split; [|split; [|split; [|split; [|split]]]]].
  - eapply machine_frame; [exact Mc|done|..].
    + intros sid. apply Hv. left; eauto.
    + intros i. left. apply Hv. right; left; eauto.
    + intros i. unfold is_dir_at. rewrite Hv by (right; right; left; eauto). done.
    + intros i. unfold is_dir_at. rewrite Hv by (right; right; right; eauto). done.
    + destruct A6 as [->|(m & -> & Ha & Hu)]; [auto|]. intros m' [->|Hm]%elem_of_cons; [|auto]. right. split; [eauto|].
      intros u Eu. destruct Hu as [Hu|Hu]; rewrite Hu in Eu; [done|]. injection Eu as <-. eauto.
  - intros id' _ q Hq. apply A2; [by eapply in_layer_below|by eapply in_layer_below|by eapply in_layer_outside].
  - destruct A6 as [->|(m & -> & Ha & Hu)]; [auto|]. intros m' [->|Hm]%elem_of_cons; auto.
  - intros id'. apply Hv. right; right; left; eauto.
  - intros sid. apply Hv. left; eauto.
  - intros q Hq. apply A2.
    + unfold mount_dir, mounts_root. rewrite <-(app_assoc (dr ++ _)). by apply top_ne.
    + unfold mount_dir, mounts_root. rewrite <-(app_assoc (dr ++ _)). by apply top_ne.
    + apply top_in in Hq as [k ->]. exact (λ Q, outside_ne _ _ _ O (eq_sym Q)).
  - intros H2. assert (∀ m, m ∈ w_mounts w → is_prefix (mounts_root dr) (mn_at m) = true → is_dir_at (w_fs w') (mn_at m) = true) as Hold.
      { intros m Hm Hp. pose proof (H2 m Hm Hp) as Dm. destruct (mc_mounts _ _ _ Mc m Hm Hp) as [[i Ea] _]. rewrite Ea in *. unfold is_dir_at in *. rewrite A2; [done|..].
        - intros Q. by rewrite Q, Nm in Dm.
        - intros Q. apply app_inj_tail in Q as [_ Q]. done.
        - unfold mount_dir, mounts_root. rewrite <-!app_assoc. exact (λ Q, outside_ne _ _ _ O (eq_sym Q)). }
      unfold pointed. destruct A6 as [->|(m & Em' & Ha & _)]; [done|]. rewrite Em' in *. intros m' [->|Hm]%elem_of_cons; [|auto]. intros _.
      rewrite Ha. destruct A8 as [A8|A8]; [|by unfold is_dir_at; rewrite A8].
      apply (f_equal length) in A8. cbn in A8. lia.
Qed.
(** ** RemoveWorkspaceMount *)
Lemma remove_orderly dr x mid o w r w' : machine dr (w_fs w) (w_mounts w) → ws_mount x = mounted_mount mid (mount_dir dr mid) →
  remove_mount dr x o w = (r, w') → orderly dr w w' ∧ ∀ sid, fget (w_fs w') (tree_at dr sid) = fget (w_fs w) (tree_at dr sid).
Proof.
  intros Mc Em E. assert (rm_inv (w_fs w) w (mount_dir dr mid) (ws_file dr mid) w) as H0.
  { constructor; auto. apply Mc. }
  pose proof (keeps_run _ _ _ _ _ _ (rm_keeps dr mid w Mc x Em) H0 E) as H.
  destruct (remove_mount_cases _ _ _ _ _ _ _ Mc Em E) as (_ & Hs & _).
  split; [constructor|].
  - by eapply rm_machine.
  - split; [intros m Hm; left; by apply (ri_mounts _ _ _ _ _ H)|]. intros id D Nu q Hq.
    apply Hs; [by eapply in_layer_mount|by eapply in_layer_wsfile|]. intros (m & u & Hm & Hp & Hu & Q).
    destruct (rm_below dr mid w Mc m (ri_mounts _ _ _ _ _ H _ Hm) Hp) as [_ O]. destruct (O u Hu) as (id' & -> & _).
    unfold under in Q. apply andb_true_iff in Q as [Q _]. rewrite (in_layer_same dr id id' q Hq Q) in Nu. by apply (Nu m Hm).
  - intros id. rewrite (rm_same_vital dr mid w Mc w' (layer_dir (layers_root dr) id)); [done|done|right; right; left; eauto|]. exact (λ Q, wsfile_layer_ne dr mid id (eq_sym Q)).
  - intros q Hq. apply (ri_same _ _ _ _ _ H).
      * apply not_true_is_false. rewrite is_prefix_spec. unfold mount_dir, mounts_root. intros [k Q]. rewrite <-(app_assoc (dr ++ _)) in Q. by apply top_ne in Q.
      * unfold ws_file, mounts_root. by apply top_ne.
      * intros (m & u & Hm & Hp & Hu & Q). destruct (rm_below dr mid w Mc m Hm Hp) as [_ O]. destruct (O u Hu) as (id & -> & _).
        apply under_spec in Q as (k & _ & Q). unfold diff_dir, layer_dir, layers_root in Q. rewrite <-!(app_assoc (dr ++ _)) in Q. by apply top_ne in Q.
  - intros H2 m Hm Hp. pose proof (ri_mounts _ _ _ _ _ H _ Hm) as Hm0. specialize (H2 m Hm0 Hp). unfold is_dir_at in *.
      destruct (is_prefix (mount_dir dr mid) (mn_at m)) eqn:Hd; [by rewrite (ri_points _ _ _ _ _ H m Hm Hd)|].
      destruct (mc_mounts _ _ _ Mc m Hm0 Hp) as [[i Ea] _]. rewrite Ea in *. rewrite (ri_same _ _ _ _ _ H); [done|done|..].
      * unfold mount_dir, ws_file. rewrite <-app_assoc. intros Q. apply app_inv_head in Q. by injection Q.
      * intros (m' & u & Hm' & Hp' & Hu & Q). destruct (rm_below dr mid w Mc m' Hm' Hp') as [_ O]. destruct (O u Hu) as (id & -> & _).
        by rewrite mount_not_diff in Q.
  - intros sid. apply (rm_same_vital dr mid w Mc); [done|left; eauto|].
    destruct (tree_file_ne dr (the_space dr sid) eq_refl) as (_ & N & _). apply N.
Qed.

(** ** Programs that print *)
Definition printer {A} (m : M A) : Prop := ∀ o w r w', m o w = (r, w') → w_fs w' = w_fs w ∧ w_mounts w' = w_mounts w.
Lemma quiet_printer {A} (m : M A) : quiet m → printer m.
Proof. intros H o w r w' (k & ->)%H. done. Qed.
Lemma printer_bind {A C} (m : M A) (f : A → M C) : printer m → (∀ x, printer (f x)) → printer (bind m f).
Proof.
  intros Hm Hf o w r w' [(x & w1 & E & H)|(r1 & E & _)]%bind_any; [|by eapply Hm].
  apply Hm in E as [E1 E2]. apply Hf in H as [E3 E4]. split; congruence.
Qed.
Lemma printer_println s : printer (println s).
Proof. by intros o w r w' [= _ <-]. Qed.
Lemma printer_for_each {A} (l : list A) f : (∀ a, printer (f a)) → printer (for_each l f).
Proof. intros H. induction l; cbn [for_each]; [apply quiet_printer, quiet_ret|]. apply printer_bind; [done|]. by intros _. Qed.
Lemma printer_print_all l : printer (print_all l).
Proof. induction l; cbn [print_all]; [apply quiet_printer, quiet_ret|]. apply printer_bind; [apply printer_println|]. by intros _. Qed.
Lemma printer_log cur c : printer (log_one cur c).
Proof.
  unfold log_one. apply printer_bind; [apply printer_println|]. intros _. destruct (c_date c); [|apply quiet_printer, quiet_panic].
  apply printer_bind; [apply printer_println|]. intros _. destruct (c_message c); [apply quiet_printer, quiet_ret|].
  apply printer_bind; [apply printer_println|]. intros _. apply printer_bind; [apply printer_println|]. intros _. apply printer_println.
Qed.

(** ** After opening a workspace *)
Definition body_done (dr : path) (c : command) (o : oracle) (x : ws) (hid : uid) (a : atree) (w : world) (r : res unit) (w' : world) : Prop :=
  orderly dr w w' ∧
  (∃ l k a', cmd_does o c l ∧ k ≤ length l ∧ (failed r ∨ k = length l) ∧ op_all x hid (take k l) a a' ∧
    (holds (w_fs w') (ws_space x) (san_tree a') ∨ failed r ∧ ¬ whole o ∧ holds_torn (w_fs w') (ws_space x))) ∧
  ∀ s, s ≠ sp_id (ws_space x) → fget (w_fs w') (tree_at dr s) = fget (w_fs w) (tree_at dr s).
Lemma printed dr c x hid a w (m : M unit) o r w' : machine dr (w_fs w) (w_mounts w) → live dr w x a hid → cmd_does o c [] → printer m → m o w = (r, w') →
  body_done dr c o x hid a w r w'.
Proof.
  intros Mc Lv Hc P E. apply P in E as [E1 E2]. split; [by apply orderly_refl|]. split.
  - exists [], 0, a. do 2 (split; [done|]). split; [by right|]. split; [done|]. left. rewrite E1. apply Lv.
  - intros s _. by rewrite E1.
Qed.
(** One operation *)
Lemma op_body dr x op o w r w' a hid : fair o → machine dr (w_fs w) (w_mounts w) → live dr w x a hid → run_op dr x op o w = (r, w') →
  (orderly dr w w' ∧ untouched dr w w') ∧
  (failed r ∧ fget (w_fs w') (tree_file (ws_space x)) = fget (w_fs w) (tree_file (ws_space x)) ∨
   ∃ a', op_tree x hid op a a' ∧ (holds (w_fs w') (ws_space x) (san_tree a') ∨ failed r ∧ ¬ whole o ∧ holds_torn (w_fs w') (ws_space x))) ∧
  ∀ s, s ≠ sp_id (ws_space x) → fget (w_fs w') (tree_at dr s) = fget (w_fs w) (tree_at dr s).
Proof.
  intros F Mc Lv H. apply (run_op_any _ _ _ _ _ _ _ a hid) in H; [|done..].
  destruct (op_orderly _ _ _ _ _ _ _ Mc (rd_space _ _ _ _ _ Lv) H) as (O & U & T). split; [done|]. split; [|done].
  destruct H as [_ [[E Fl]|(a' & Ha & _ & _ & Hd)]]; [by left|]. right. exists a'. split; [done|]. destruct Hd as [Hd|(Hd & Fl & Hw)]; auto.
Qed.
Lemma op_body_one dr c x op o w r w' a hid : fair o → machine dr (w_fs w) (w_mounts w) → live dr w x a hid → cmd_does o c [op] →
  (run_op dr x op ;;; ret tt) o w = (r, w') → body_done dr c o x hid a w r w'.
Proof.
  intros F Mc Lv Hc H. apply then_ret in H as (r1 & H & Fr & _). destruct (op_body _ _ _ _ _ _ _ _ _ F Mc Lv H) as ([O U] & D & T).
  split; [done|]. split; [|done]. destruct D as [[Fl E]|(a' & Ha & Hd)].
  - exists [op], 0, a. split; [done|]. split; [cbn; lia|]. split; [left; by apply Fr|]. split; [done|]. left. unfold holds. rewrite E. apply Lv.
  - exists [op], 1, a'. do 2 (split; [done|]). split; [by right|]. split; [exists a'; done|]. destruct Hd as [Hd|(Fl & Hd)]; [by left|right; split; [by apply Fr|done]].
Qed.
(** Several deletions *)
Lemma del_loop dr x hid o (f : bytes → wsop) (d : bytes → M unit) : fair o →
  (∀ n, (∃ n' g, f n = ODelBranch n' g) ∨ (∃ n', f n = ODelTag n')) → (∀ n, run_op dr x (f n) = (d n ;;; ret x)) →
  ∀ args a w r w', machine dr (w_fs w) (w_mounts w) → live dr w x a hid → for_each args d o w = (r, w') →
  orderly dr w w' ∧
  (∃ k a', k ≤ length args ∧ (failed r ∨ k = length args) ∧ op_all x hid (take k (f <$> args)) a a' ∧
    (holds (w_fs w') (ws_space x) (san_tree a') ∨ failed r ∧ ¬ whole o ∧ holds_torn (w_fs w') (ws_space x))) ∧
  ∀ s, s ≠ sp_id (ws_space x) → fget (w_fs w') (tree_at dr s) = fget (w_fs w) (tree_at dr s).
Proof.
  intros F Hf Hd args. induction args as [|n args IH]; intros a w r w' Mc Lv H; cbn [for_each] in H.
  { injection H as <- <-. split; [by apply orderly_refl|]. split; [|done]. exists 0, a. do 3 (split; [by auto|]). left. apply Lv. }
  apply bind_any in H as [([] & w1 & E & H)|(r1 & E & Fr1 & Fr)].
  - assert (run_op dr x (f n) o w = (Ok x, w1)) as Er by (rewrite Hd; unfold bind; by rewrite E).
    destruct (op_body _ _ _ _ _ _ _ _ _ F Mc Lv Er) as ([O U] & _ & T).
    apply (run_del_live _ _ _ _ _ _ _ a hid) in Er as (a1 & Ha & Lv1 & _); [|destruct (Hf n) as [?|?]; eauto|done..].
    destruct (IH a1 w1 r w' (or_machine _ _ _ O) Lv1 H) as (O' & (k & a' & Hk & Hr & Ha' & Hd') & T').
    split; [by eapply orderly_trans|]. split; [|intros s Ns; by rewrite T', T].
    exists (S k), a'. split; [cbn; lia|]. split; [destruct Hr as [Hr| ->]; auto|]. split; [|done].
    cbn [fmap list_fmap take op_all]. exists a1. done.
  - assert (∃ r2, run_op dr x (f n) o w = (r2, w') ∧ failed r2) as (r2 & Er & F2).
    { rewrite Hd. unfold bind. rewrite E. destruct r1; eexists; (split; [reflexivity|]); try done. by destruct (Fr1 a0). }
    destruct (op_body _ _ _ _ _ _ _ _ _ F Mc Lv Er) as ([O U] & D & T). split; [done|]. split; [|done].
    destruct D as [[_ D]|(a' & Ha & D)].
    + exists 0, a. split; [cbn; lia|]. split; [by left|]. split; [done|]. left. unfold holds. rewrite D. apply Lv.
    + exists 1, a'. split; [cbn; lia|]. split; [by left|]. split; [|destruct D as [D|[_ D]]; auto].
      cbn [fmap list_fmap take op_all]. exists a'. done.
Qed.
(** ** Operations with a new mount *)
Lemma merged_not_new dr mid n : ¬ new_dir dr (mount_dir dr mid ++ [n]).
Proof.
  intros [[i H]|[[i H]|[[i H]|[i H]]]]; revert H; unfold mount_dir, space_dir, diff_dir, layer_dir, mounts_root; rewrite <-?app_assoc.
  - intros H. apply app_inv_head in H. by injection H.
  - unfold spaces_root. rewrite ?app_assoc, <-(app_assoc (dr ++ [B "mounts"])). apply app_cons_ne. done.
  - unfold layers_root. rewrite ?app_assoc, <-(app_assoc (dr ++ [B "mounts"])). apply app_cons_ne. done.
  - unfold layers_root. rewrite ?app_assoc, <-(app_assoc (dr ++ [B "mounts"])), <-(app_assoc (dr ++ [B "overlay"])). apply app_cons_ne. done.
Qed.
Lemma touches_merged dr sp w w' mid n : space_ok dr sp → fs_wf (w_fs w) → touches dr sp w w' → fget (w_fs w) (mount_dir dr mid) = None →
  fget (w_fs w') (mount_dir dr mid ++ [n]) = None.
Proof.
  intros S W T N. apply eq_None_not_Some. intros H.
  assert (fget (w_fs w) (mount_dir dr mid ++ [n]) = None) as N'.
  { destruct (fget (w_fs w) (mount_dir dr mid ++ [n])) eqn:E; [|done]. apply W in E. unfold is_dir_at in E. by rewrite N in E. }
  destruct (to_new _ _ _ _ T _ N' (merged_not_own _ _ _ _ _ S) H) as [_ Q]. by apply merged_not_new in Q.
Qed.
Definition new_stack (dr : path) (w w' : world) (y : ws) (id : uid) : Prop :=
  ∃ mid ch, ch ≠ [] ∧ ws_mount y = stack_mount (layers_root dr) (mount_dir dr mid) mid id ch ∧
    fget (w_fs w) (layer_dir (layers_root dr) id) = None ∧
    fget (w_fs w') (mount_dir dr mid ++ [B "merged"]) = None ∧ is_dir_at (w_fs w') (diff_dir (layers_root dr) id) = true.
Lemma live_diff dr w x a hid : live dr w x a hid → is_dir_at (w_fs w) (diff_dir (layers_root dr) hid) = true.
Proof. intros Lv. by apply (rd_layers _ _ _ _ _ Lv), (ready_has dr w x). Qed.
Lemma chain_not_nil a c : ¬ chain a c [].
Proof. by inversion 1. Qed.
Lemma op_mount dr x op o w y w' a hid : fair o → live dr w x a hid →
  (∃ d m, op = OCommit d m) ∨ (∃ k, op = OCheckout k) ∨ (∃ p, op = OClone p) → run_op dr x op o w = (Ok y, w') →
  ∃ id a', new_stack dr w w' y id ∧ ws_path y = (match op with OClone p => p | _ => ws_path x end) ∧ op_tree x hid op a a' ∧
    ready dr w' y a' id ∧ ws_space y = ws_space x.
Proof.
  intros F Lv Hop H. pose proof (run_op_any _ _ _ _ _ _ _ _ _ F Lv H) as [T _].
  pose proof (rd_space _ _ _ _ _ Lv) as S. pose proof (rd_wf _ _ _ _ _ Lv) as W.
  destruct Hop as [(d & m & ->)|[(k & ->)|(p & ->)]]; cbn [run_op] in H.
  - apply (commit_ready _ _ _ _ _ _ _ _ a hid) in H as (an & ch & id & a' & Ea & C & Nh & Hr & Rd' & H1 & H2 & H3 & H4 & H5 & H6 & H7); [|done..].
    exists id, a'. split; [|split; [done|split; [|done]]].
    + eexists _, ch. split; [intros ->; by apply chain_not_nil in C|]. split; [exact H5|]. split; [done|]. split; [by eapply touches_merged|exact (live_diff _ _ _ _ _ (rd_live _ _ _ _ _ Rd'))].
    + exists an, id. split; [done|]. split; [by apply not_has|]. exact Hr.
  - apply (checkout_ready _ _ _ _ _ _ _ a hid) in H as (c & ty & ch & id & Hr & C & Nh & Rd' & H1 & H2 & H3 & H4 & H5 & H6 & H7); [|done..].
    eexists id, _. split; [|split; [done|split; [|done]]].
    + eexists _, ch. split; [intros ->; by apply chain_not_nil in C|]. split; [exact H5|]. split; [done|]. split; [by eapply touches_merged|exact (live_diff _ _ _ _ _ (rd_live _ _ _ _ _ Rd'))].
    + exists c, id. split; [by rewrite Hr; destruct ty|]. split; [by apply not_has|]. done.
  - apply (clone_ready _ _ _ _ _ _ _ a hid) in H as (c & ch & id & Hr & C & Nh & Rd' & H1 & H2 & H3 & H4 & H5 & H6 & H7); [|done..].
    eexists id, _. split; [|split; [done|split; [|done]]].
    + eexists _, ch. split; [intros ->; by apply chain_not_nil in C|]. split; [exact H5|]. split; [done|]. split; [by eapply touches_merged|exact (live_diff _ _ _ _ _ (rd_live _ _ _ _ _ Rd'))].
    + exists c, id. split; [done|]. split; [by apply not_has|]. done.
Qed.
(** Expand right after the operation *)
Lemma expand_after dr w w1 y id o r w' : plain_path dr → good_path dr → machine dr (w_fs w) (w_mounts w) → orderly dr w w1 → untouched dr w w1 →
  new_stack dr w w1 y id → outside dr (ws_path y) → expand y o w1 = (r, w') →
  orderly dr w w' ∧ untouched dr w w' ∧ ∀ sid, fget (w_fs w') (tree_at dr sid) = fget (w_fs w1) (tree_at dr sid).
Proof.
  intros P G Mc O U (mid & ch & NC & Em & N & Nm & D) Ho E.
  destruct (expand_orderly _ _ _ _ _ _ _ _ _ P G (or_machine _ _ _ O) NC Em Ho Nm D E) as (Mc' & U' & Hm & Hl & T & Tp & St).
  pose proof (untouched_trans _ _ _ _ U U') as Ut. split; [|done].
  constructor; [done| | |intros q Hq; rewrite Tp by done; by apply O|intros H; apply St, O, H].
  - split; [|auto]. intros m Hm'. destruct (Hm m Hm') as [Hm1|[N1|E1]]; [|auto|right; right; eauto]. by apply (or_layers _ _ _ O).
  - intros i. rewrite Hl. apply O.
Qed.
Lemma mount_body dr c x op o w r w' a hid (k : ws → M unit) : plain_path dr → good_path dr → fair o → machine dr (w_fs w) (w_mounts w) → live dr w x a hid →
  (∃ d m, op = OCommit d m) ∨ (∃ k, op = OCheckout k) ∨ (∃ p, op = OClone p) → cmd_does o c [op] →
  outside dr (match op with OClone p => p | _ => ws_path x end) →
  (∀ w1 y r w', orderly dr w w1 → untouched dr w w1 → k y o w1 = (r, w') →
     orderly dr w w' ∧ ∀ sid, fget (w_fs w') (tree_at dr sid) = fget (w_fs w1) (tree_at dr sid)) →
  (y <- run_op dr x op ;; expand y ;;; k y) o w = (r, w') → body_done dr c o x hid a w r w'.
Proof.
  intros P G F Mc Lv Hop Hc Ho Hk H. pose proof (rd_space _ _ _ _ _ Lv) as S. pose proof (the_space_ok _ _ S) as Es.
  apply bind_any in H as [(y & w1 & E & H)|(r1 & E & Fr1 & Fr)].
  - destruct (op_body _ _ _ _ _ _ _ _ _ F Mc Lv E) as ([O U] & _ & T).
    apply (op_mount _ _ _ _ _ _ _ a hid) in E as (id & a' & Ns & Ep & Ha & Rd & Esp); [|done..]. rewrite <-Ep in Ho.
    assert (∀ r w', orderly dr w w' → (∀ sid, fget (w_fs w') (tree_at dr sid) = fget (w_fs w1) (tree_at dr sid)) → body_done dr c o x hid a w r w') as Fin.
    { intros r0 w0 O0 T0. split; [done|]. split; [|intros s Ns'; by rewrite T0, T].
      exists [op], 1, a'. do 2 (split; [done|]). split; [by right|]. split; [exists a'; done|]. left.
      pose proof (rd_disk _ _ _ _ _ (rd_live _ _ _ _ _ Rd)) as Hd. rewrite Esp in Hd. unfold holds in *. rewrite Es in *. by rewrite T0. }
    apply bind_any in H as [([] & w2 & E & H)|(r1 & E & Fr1 & Fr)].
    + destruct (expand_after _ _ _ _ _ _ _ _ P G Mc O U Ns Ho E) as (O2 & U2 & T2).
      destruct (Hk w2 y r w' O2 U2 H) as [O3 T3]. apply Fin; [done|]. intros sid. by rewrite T3, T2.
    + destruct (expand_after _ _ _ _ _ _ _ _ P G Mc O U Ns Ho E) as (O2 & U2 & T2). by apply Fin.
  - destruct (op_body _ _ _ _ _ _ _ _ _ F Mc Lv E) as ([O U] & D & T). split; [done|]. split; [|done].
    destruct D as [[_ D]|(a' & Ha & D)].
    + exists [op], 0, a. split; [done|]. split; [cbn; lia|]. split; [by left|]. split; [done|]. left. unfold holds. rewrite D. apply Lv.
    + exists [op], 1, a'. do 2 (split; [done|]). split; [by left|]. split; [exists a'; done|]. destruct D as [D|[_ D]]; auto.
Qed.

(** ** Commands *)
Lemma found_at_same dr w w1 arg x hid : w_fs w1 = w_fs w → abs_of w1 arg = abs_of w arg → found_at dr w1 arg x hid → found_at dr w arg x hid.
Proof. intros E1 E2 [A1 A2 A3 A4 A5]. rewrite E1 in *. rewrite E2 in A1. by constructor. Qed.
Lemma opened_cmd dr c (body : ws → M unit) o w w0 r w' : good_path dr → fair o → machine dr (w_fs w) (w_mounts w) →
  w_fs w0 = w_fs w → w_mounts w0 = w_mounts w → abs_of w0 (cmd_source c) = abs_of w (cmd_source c) →
  (∀ x w1 a hid, found_at dr w (cmd_source c) x hid → machine dr (w_fs w1) (w_mounts w1) → live dr w1 x a hid → body x o w1 = (r, w') → body_done dr c o x hid a w1 r w') →
  (x <- get_workspace dr (cmd_source c) ;; body x) o w0 = (r, w') → orderly dr w w' ∧ cmd_trees dr c o w r w'.
Proof.
  intros G F Mc E1 E2 E3 Hb H. apply bind_any in H as [(x & w1 & E & H)|(r1 & E & Fr1 & Fr)].
  - pose proof (λ Q, get_workspace_any _ _ _ _ _ _ G F Q E) as Q. destruct Q as (a & hid & Lv & Fa); [by rewrite E1, E2|].
    apply reader_get_workspace in E as (t & k & ->). pose proof (found_at_same _ _ _ _ _ _ E1 E3 Fa) as Fa'. clear Fa.
    pose proof (rd_space _ _ _ _ _ Lv) as S. pose proof (the_space_ok _ _ S) as Es.
    pose proof (rd_disk _ _ _ _ _ Lv) as Hd. rewrite san_idemp in Hd.
    apply (Hb x _ (san_tree a) hid Fa') in H; [|cbn [w_fs w_mounts upd]; by rewrite E1, E2|exact Lv]. destruct H as ([O1 O2 O3 O4 O5] & (l & n & a' & Hc & Hn & Hr & Ha & Hh) & T).
    cbn [w_fs w_mounts upd] in *. split.
    + constructor; [done| | | |]; unfold layers_safe, pointed in *; cbn [w_fs w_mounts upd] in *; by rewrite E1, E2 in * || rewrite E1 in *.
    + right. exists x, (sp_id (ws_space x)), hid, (san_tree a), l, n, a'. rewrite <-Es. rewrite E1 in Hd. do 7 (split; [done|]). split; [done|].
      intros s Ns. by rewrite T, E1.
  - apply reader_get_workspace in E as (t & k & ->). split; [by apply orderly_refl|]. left. split; [done|]. intros sid. cbn [w_fs upd]. by rewrite E1.
Qed.
Lemma remove_after dr x mid w o : ws_mount x = mounted_mount mid (mount_dir dr mid) →
  ∀ w1 (y : ws) r w', orderly dr w w1 → untouched dr w w1 → remove_mount dr x o w1 = (r, w') →
     orderly dr w w' ∧ ∀ sid, fget (w_fs w') (tree_at dr sid) = fget (w_fs w1) (tree_at dr sid).
Proof.
  intros Em w1 y r w' O U H. destruct (remove_orderly _ _ _ _ _ _ _ (or_machine _ _ _ O) Em H) as [O' T]. split; [|done].
  by eapply orderly_trans.
Qed.
Lemma quiet_is_empty_dir p : quiet (fs_is_empty_dir p).
Proof. unfold fs_is_empty_dir. quiet; apply quiet_is_dir. Qed.
Lemma init_any dr args branch o w r w' : plain_path dr → good_path dr → fair o → machine dr (w_fs w) (w_mounts w) →
  outside dr (abs_of w (cmd_target (CInit args branch))) → cmd_init dr args branch o w = (r, w') →
  orderly dr w w' ∧ init_trees dr branch o w r w'.
Proof.
  intros P G F Mc Ho H. unfold cmd_init in H.
  assert (∀ k, orderly dr w (upd w (w_fs w) (w_mounts w) (w_tree w) k)) as Or by (intros k; by apply orderly_refl).
  assert (∀ k r, failed r → orderly dr w (upd w (w_fs w) (w_mounts w) (w_tree w) k) ∧ init_trees dr branch o w r (upd w (w_fs w) (w_mounts w) (w_tree w) k)) as Fl.
  { intros k r0 Fr. split; [done|]. by left. }
  apply bind_any in H as [(p & w1 & E & H)|(r1 & E & Fr1 & Fr)]; [|apply quiet_abs in E as (k & ->); by apply Fl].
  pose proof (abs_ok _ _ _ _ _ E) as Ep. apply quiet_abs in E as (k1 & ->).
  apply bind_any in H as [(b & w1 & E & H)|(r1 & E & Fr1 & Fr)]; [|apply quiet_is_exists in E as (k & ->); rewrite upd_upd; by apply Fl].
  apply quiet_is_exists in E as (k2 & ->). rewrite upd_upd in H.
  assert (quiet (if b : bool then d <- fs_is_empty_dir p;; ret (negb d) else ret false)) as Q by (quiet; apply quiet_is_empty_dir).
  apply bind_any in H as [(b' & w1 & E & H)|(r1 & E & Fr1 & Fr)]; [|apply Q in E as (k & ->); rewrite upd_upd; by apply Fl].
  apply Q in E as (k3 & ->). rewrite upd_upd in H. cbn [w_fs w_mounts w_tree upd] in H. clear Q.
  destruct b'; [injection H as <- <-; by apply Fl|].
  set (w0 := upd w (w_fs w) (w_mounts w) (w_tree w) k3) in *.
  set (sid := ch_uid (o (w_tick w0))).
  assert (∀ r w1, create_workspace dr p branch o w0 = (r, w1) → (orderly dr w w1 ∧ untouched dr w w1) ∧ (∀ s, s ≠ sid → fget (w_fs w1) (tree_at dr s) = fget (w_fs w) (tree_at dr s)) ∧
    (fget (w_fs w1) (tree_at dr sid) = fget (w_fs w) (tree_at dr sid) ∧ failed r ∨
     ∃ rid id wid, fget (w_fs w) (space_dir dr sid) = None ∧ rid ≠ id ∧
       (holds (w_fs w1) (the_space dr sid) (san_tree (fresh_tree rid id wid branch)) ∨ failed r ∧ ¬ whole o ∧ holds_torn (w_fs w1) (the_space dr sid)))) as Cr.
  { intros r1 w1 E. pose proof (create_workspace_any _ _ _ _ _ _ _ F (mc_wf _ _ _ Mc : fs_wf (w_fs w0)) E) as Od. cbv zeta in Od. fold sid in Od.
    destruct (op_orderly dr (the_space dr sid) w0 w1 _ _ _ Mc eq_refl Od) as ([O1 O2 O3 O4 O5] & U & T). split; [split; [by constructor|done]|]. split; [done|].
    destruct Od as [_ [[D Fr]|(a' & (N & rid & id & wid & Ne & ->) & _ & _ & D)]]; [by left|]. right. rewrite (init_fresh _ _ _ _ Ne) in D. exists rid, id, wid. do 2 (split; [done|]).
    destruct D as [D|(D & Fr & Hw)]; auto. }
  apply bind_any in H as [(x & w1 & E & H)|(r1 & E & Fr1 & Fr)].
  - destruct (Cr _ _ E) as ([O U] & T & D). pose proof (create_workspace_any _ _ _ _ _ _ _ F (mc_wf _ _ _ Mc : fs_wf (w_fs w0)) E) as [To _].
    destruct D as [[_ Q]|(rid & id & wid & N & Ne & D)]; [by destruct (Q x)|].
    apply (create_ready _ _ _ _ _ _ _ F (mc_wf _ _ _ Mc : fs_wf (w_fs w0))) in E as (rid' & id' & _ & Rd & _ & Hp & Em & N1 & N2 & _).
    assert (new_stack dr w w1 x id') as Ns.
    { eexists _, [rid']. split; [done|]. split; [exact Em|]. split; [done|]. split; [|exact (live_diff _ _ _ _ _ (rd_live _ _ _ _ _ Rd))].
      eapply (touches_merged dr _ w0); [|apply Mc|exact To|exact N1]. done. }
    destruct (expand_after _ _ _ _ _ _ _ _ P G Mc O U Ns ltac:(by rewrite Hp, Ep) H) as (O' & _ & T'). split; [done|].
    right. exists sid, rid, id, wid. do 2 (split; [done|]). split; [|intros s Hs; by rewrite T', T].
    left. destruct D as [D|[Q _]]; [|by destruct (Q x)]. unfold holds. rewrite T'. exact D.
  - destruct (Cr _ _ E) as ([O U] & T & D). split; [done|]. destruct D as [[D _]|(rid & id & wid & N & Ne & D)].
    + left. split; [done|]. intros s. destruct (decide (s = sid)) as [->|Hs]; auto.
    + right. exists sid, rid, id, wid. do 2 (split; [done|]). split; [|done]. destruct D as [D|[_ D]]; auto.
Qed.
Lemma cmd_any dr c o w r w' : plain_path dr → good_path dr → fair o → machine dr (w_fs w) (w_mounts w) →
  (writes_path c → outside dr (abs_of w (cmd_target c))) → run_cmd dr c o w = (r, w') →
  orderly dr w w' ∧ match c with CInit _ branch => init_trees dr branch o w r w' | _ => cmd_trees dr c o w r w' end.
Proof.
  intros P G F Mc Ho H. destruct c as [args branch|source target|msg|key|opts args|opts args|args]; cbn [run_cmd] in H.
  - exact (init_any dr args branch o w r w' P G F Mc (Ho I) H).
  - unfold cmd_clone in H. apply bind_any in H as [(p & w1 & E & H)|(r1 & E & Fr1 & Fr)].
    2: { apply quiet_abs in E as (k & ->). split; [by apply orderly_refl|]. by left. }
    pose proof (abs_ok _ _ _ _ _ E) as Ep. apply quiet_abs in E as (k & ->).
    eapply (opened_cmd dr (CClone source target)); [done|done|done| | | | |exact H]; try done.
    intros x w1 a hid Fa Mc1 Lv Hb. cbv beta in Hb. eapply (mount_body _ _ x (OClone p) _ _ _ _ _ _ (λ _, ret tt)); try done; [by eauto|by exists p|rewrite Ep; by apply Ho| |].
    + by intros w2 y r2 w3 O U [= _ <-].
    + cbn [run_op]. unfold bind in *. destruct (clone_ws dr x p o w1) as [[y| | | |] w2]; try done. destruct (expand y o w2) as [[[]| | | |] w3]; done.
  - unfold cmd_commit in H. eapply (opened_cmd dr (CCommit msg)); [done|done|done| | | | |exact H]; try done.
    intros x w1 a hid Fa Mc1 Lv Hb. cbv beta in Hb. rewrite bind_next in Hb.
    assert (live dr (tick w1) x a hid) as Lv1 by (destruct Lv as [A1 A2 A3 A4 A5]; by constructor).
    pose proof (mount_body dr (CCommit msg) x (OCommit (Some (fmt_rfc3339 (ch_time (o (w_tick w1))))) msg) o (tick w1) r w' a hid (λ _, remove_mount dr x)) as Q.
    assert (body_done dr (CCommit msg) o x hid a (tick w1) r w') as [[O1 O2 O3 O4 O5] ?]; [|split; [by constructor|done]].
    apply Q; try done; [by eauto|by eexists|rewrite (fa_path _ _ _ _ _ Fa); by apply Ho|]. by eapply remove_after, Fa.
  - unfold cmd_checkout in H. eapply (opened_cmd dr (CCheckout key)); [done|done|done| | | | |exact H]; try done.
    intros x w1 a hid Fa Mc1 Lv Hb. cbv beta in Hb.
    apply (mount_body dr (CCheckout key) x (OCheckout key) o w1 r w' a hid (λ _, remove_mount dr x)); try done; [by eauto|rewrite (fa_path _ _ _ _ _ Fa); by apply Ho|]. by eapply remove_after, Fa.
  - unfold cmd_branch in H. eapply (opened_cmd dr (CBranch opts args)); [done|done|done| | | | |exact H]; try done.
    intros x w1 a hid Fa Mc1 Lv Hb. cbv beta in Hb. clear H.
    assert (printer (list_branches x opts)) as Pl.
    { apply printer_bind; [apply quiet_printer, quiet_next|]. intros ord. apply printer_bind; [apply quiet_printer, quiet_gets|]. intros t. apply printer_print_all. }
    destruct (bo_list opts) eqn:El.
    { eapply printed; [done|done| |exact Pl|exact Hb]. cbn. by rewrite El. }
    destruct (bo_current opts) eqn:Ec.
    { eapply printed; [done|done| |apply printer_println|exact Hb]. cbn. by rewrite El, Ec. }
    destruct (bo_delete opts) eqn:Ed.
    { destruct (del_loop dr x hid o (λ n, ODelBranch n (bo_remotes opts)) (λ n, ws_delete_branch x n (bo_remotes opts)) F ltac:(by eauto) ltac:(done) args a w1 r w' Mc1 Lv Hb)
        as (O & (k & a' & Hk & Hr & Ha & Hh) & T).
      split; [done|]. split; [|done]. exists ((λ n, ODelBranch n (bo_remotes opts)) <$> args), k, a'. rewrite fmap_length. split; [|done]. cbn. by rewrite El, Ec, Ed. }
    destruct args as [|n rest].
    { eapply printed; [done|done| |exact Pl|exact Hb]. cbn. by rewrite El, Ec, Ed. }
    eapply (op_body_one _ _ _ (OAddBranch n (default (B "HEAD") (head rest)) (bo_force opts))); try done.
    { cbn. rewrite El, Ec, Ed. by destruct rest. }
    cbn [run_op]. unfold bind. destruct (ws_add_branch _ _ _ _ _ _) as [[[]| | | |] w2]; done.
  - unfold cmd_tag in H. eapply (opened_cmd dr (CTag opts args)); [done|done|done| | | | |exact H]; try done.
    intros x w1 a hid Fa Mc1 Lv Hb. cbv beta in Hb. clear H.
    assert (printer (list_tags x)) as Pl.
    { apply printer_bind; [apply quiet_printer, quiet_next|]. intros ord. apply printer_bind; [apply quiet_printer, quiet_gets|]. intros t. apply printer_print_all. }
    destruct (to_list opts) eqn:El.
    { eapply printed; [done|done| |exact Pl|exact Hb]. cbn. by rewrite El. }
    destruct (to_delete opts) eqn:Ed.
    { destruct (del_loop dr x hid o ODelTag (λ n, ws_delete_tag x n) F ltac:(by eauto) ltac:(done) args a w1 r w' Mc1 Lv Hb)
        as (O & (k & a' & Hk & Hr & Ha & Hh) & T).
      split; [done|]. split; [|done]. exists (ODelTag <$> args), k, a'. rewrite fmap_length. split; [|done]. cbn. by rewrite El, Ed. }
    destruct args as [|n rest].
    { eapply printed; [done|done| |exact Pl|exact Hb]. cbn. by rewrite El, Ed. }
    eapply (op_body_one _ _ _ (OAddTag n (default (B "HEAD") (head rest)) (to_force opts))); try done.
    { cbn. rewrite El, Ed. by destruct rest. }
    cbn [run_op]. unfold bind. destruct (ws_add_tag _ _ _ _ _ _) as [[[]| | | |] w2]; done.
  - unfold cmd_log in H. eapply (opened_cmd dr (CLog args)); [done|done|done| | | | |exact H]; try done.
    intros x w1 a hid Fa Mc1 Lv Hb. cbv beta in Hb. eapply printed; [done|done|done| |exact Hb].
    do 3 (apply printer_bind; [apply quiet_printer; first [apply quiet_next|apply quiet_gets]|]; intros ?).
    apply printer_bind; [apply quiet_printer, quiet_lift|]. intros cs. apply printer_for_each. intros c. apply printer_log.
Qed.

(** ** Any number of steps *)
Lemma user_orderly dr w w' : machine dr (w_fs w) (w_mounts w) → user_change dr w w' →
  machine dr (w_fs w') (w_mounts w') ∧ layers_kept dr w w'.
Proof.
  intros Mc (W & Em & Hq).
  assert (∀ q, is_prefix dr q = true → (∀ id, is_dir_at (w_fs w) (diff_dir (layers_root dr) id) = true →
    (∃ m, m ∈ w_mounts w ∧ mn_upper m = Some (diff_dir (layers_root dr) id)) → under (diff_dir (layers_root dr) id) q = false) → fget (w_fs w') q = fget (w_fs w) q) as Hs.
  { intros q Hp Hu. destruct (Hq q) as [E|[E|(m & u & Hm & Ha & Eu & Q)]]; [done|congruence|].
    destruct (mc_mounts _ _ _ Mc m Hm Ha) as [_ O]. destruct (O u Eu) as (id & -> & D). rewrite (Hu id D) in Q; [done|]. eauto. }
  assert (∀ q, vital dr q → fget (w_fs w') q = fget (w_fs w) q) as Hv.
  { intros q V. apply Hs; [by apply vital_in in V as [k ->]; apply is_prefix_app|]. intros id _ _. by apply vital_not_diff. }
  split.
  - eapply machine_frame; [exact Mc|done|..].
    + intros sid. apply Hv. left; eauto.
    + intros i. left. apply Hv. right; left; eauto.
    + intros i. unfold is_dir_at. rewrite Hv by (right; right; left; eauto). done.
    + intros i. unfold is_dir_at. rewrite Hv by (right; right; right; eauto). done.
    + rewrite Em. auto.
  - intros id [D Nu]. assert (same_layer dr (w_fs w) (w_fs w') id) as S.
    { intros q Hp. apply Hs.
      - apply in_layer_shape in Hp as [k ->]. rewrite <-app_assoc. apply is_prefix_app.
      - intros id' D' (m & Hm & Eu). apply not_true_is_false. intros Q. unfold under in Q. apply andb_true_iff in Q as [Q _].
        rewrite <-(in_layer_same dr id id' q Hp Q) in Eu. by apply (Nu m). }
    split; [|done]. split; [by rewrite (same_layer_dir _ _ _ _ S)|by rewrite Em].
Qed.
Lemma step_orderly dr w w' : plain_path dr → good_path dr → machine dr (w_fs w) (w_mounts w) → step dr w w' →
  machine dr (w_fs w') (w_mounts w') ∧ layers_kept dr w w'.
Proof.
  intros P G Mc [c o w0 r [E1 E2] F Ho E|U|E1 E2].
  - rewrite <-E1, <-E2 in Mc. destruct (cmd_any _ _ _ _ _ _ P G F Mc Ho E) as [[A1 A2 _ _ _] _]. split; [done|].
    apply safe_kept in A2; [|apply Mc]. intros id Fz. destruct (A2 id) as [B1 B2]; [unfold frozen in *; by rewrite E1, E2|].
    split; [done|]. unfold same_layer in *. by rewrite <-E1.
  - by apply user_orderly.
  - split.
    + rewrite E1. eapply machine_frame; [exact Mc|by apply Mc|auto..].
    + intros id [D Nu]. unfold frozen, same_layer. rewrite E1. split; [split; [done|auto]|done].
Qed.
Lemma steps_orderly dr w w' : plain_path dr → good_path dr → machine dr (w_fs w) (w_mounts w) → rtc (step dr) w w' →
  machine dr (w_fs w') (w_mounts w') ∧ layers_kept dr w w'.
Proof.
  intros P G Mc H. induction H as [w|w w1 w2 H1 _ IH]; [split; [done|]; by intros id Fz|].
  destruct (step_orderly _ _ _ P G Mc H1) as [Mc1 K1]. destruct (IH Mc1) as [Mc2 K2]. split; [done|].
  intros id Fz. destruct (K1 id Fz) as [F1 S1]. destruct (K2 id F1) as [F2 S2]. split; [done|]. intros q Hq. by rewrite S2, S1.
Qed.
Lemma view_ext (Ls Ls' : list layer) k : Forall2 (λ L L', ∀ q, L q = L' q) Ls Ls' → view Ls k = view Ls' k.
Proof.
  induction 1 as [|L L' Ls Ls' H _ IH]; [done|]. cbn [view]. rewrite H. case_match; [done|].
  assert (covered L k = covered L' k) as ->; [|by rewrite IH].
  unfold covered. induction (seq 1 (pred (length k))) as [|n l IHl]; [done|]. cbn [existsb]. by rewrite H, IHl.
Qed.
Lemma content_same dr fs fs' ids k : Forall (same_layer dr fs fs') ids → content dr fs' ids k = content dr fs ids k.
Proof.
  intros H. unfold content. apply view_ext. induction H as [|id ids S _ IH]; [constructor|]. cbn [fmap list_fmap].
  constructor; [|done]. intros q. apply S, is_prefix_app.
Qed.
