(** * DeepMoveProofs: the commands that move the link of a workspace *)
From Verif Require Import Base Uid SpecUid UidProofs Tree SpecTree TreeRefine TreeObs Dump DumpProofs Json JsonProofs Save SaveProofs Branch BranchProofs Date DateProofs Ws SpecWs WsProofs
  Fs Overlay Edits Os Layers Mounts Space Manager Commands Sample FsProofs OsProofs LayerProofs MountProofs SpaceProofs ManagerProofs SpecWorld SpecOps SavedProofs FaultProofs ReadyProofs OpProofs CalmProofs
  SpecMachine SpecCmds SpecTidy SpecLog MachineProofs OpenProofs CmdProofs ExpandProofs DetProofs DatedProofs Story StoryProofs SpecUsable SpecNames UsableProofs UsableCmdProofs SpecSerial SerialProofs Deep SpecDeep DeepProofs.
From Coq Require Import Lia.
From stdpp Require Import prelude gmap.

Lemma bind_then {A C} (m m' : M A) (f f' : A → M C) o w : m o w = m' o w → (∀ a w', m' o w = (Ok a, w') → f a o w' = f' a o w') → bind m f o w = bind m' f' o w.
Proof. intros E H. unfold bind. rewrite E. destruct (m' o w) as [[a| | | |] w'] eqn:Q; try reflexivity. exact (H a w' eq_refl). Qed.
Lemma atomic_ext {A} (f g : Fs.choice → world → res A * world) o w : (∀ c, f c (tick w) = g c (tick w)) → sys_atomic f o w = sys_atomic g o w.
Proof. intros H. unfold sys_atomic. cbv zeta. rewrite H. reflexivity. Qed.
(** ** Calls *)
(** A place for a link, in a directory of the machine *)
Definition roomy (w : world) (p : path) : Prop := good_path p ∧ p ≠ [] ∧ clear_of (w_mounts w) p ∧ is_dir_at (w_fs w) (parent_dir p) = true.
Lemma roomy_ext w w' p : w_fs w' = w_fs w → w_mounts w' = w_mounts w → roomy w p → roomy w' p.
Proof. intros E1 E2. unfold roomy. by rewrite E1, E2. Qed.
Lemma roomy_parent w p : roomy w p → usual_dir w (parent_dir p).
Proof.
  intros (G & N & C & D). destruct (exists_last N) as (d & c & ->). unfold parent_dir in *. rewrite removelast_last in *. split; [by eapply good_parent|]. split; [done|].
  intros m H P. assert (is_prefix (mn_at m) (d ++ [c]) = true) as Q by (eapply is_prefix_trans; [exact P|apply is_prefix_app]). by rewrite C in Q.
Qed.
Lemma roomy_spot w p : fs_wf (w_fs w) → roomy w p → spot w p = Some p.
Proof.
  intros W R. pose proof (roomy_parent w p R) as U. destruct R as (G & N & C & D). destruct (exists_last N) as (d & c & ->). unfold spot. rewrite last_snoc.
  rewrite usual_leads_dir by done. rewrite usual_obj by done. unfold parent_dir. by rewrite removelast_last.
Qed.
Lemma deep_remove_same p o w : fs_wf (w_fs w) → roomy w p → deep_remove p o w = os_remove p o w.
Proof.
  intros W R. apply atomic_ext. intros _. rewrite (spot_ext w (tick w)) by reflexivity. rewrite roomy_spot by done. change (w_mounts (tick w)) with (w_mounts w).
  destruct R as (G & N & C & D). rewrite over_none by done. reflexivity.
Qed.
Lemma deep_link_same s p o w : fs_wf (w_fs w) → roomy w p → deep_symlink s p o w = os_symlink s p o w.
Proof.
  intros W R. apply atomic_ext. intros _. rewrite (spot_ext w (tick w)) by reflexivity. rewrite roomy_spot by done. rewrite (obj_ext w (tick w)) by reflexivity.
  change (w_mounts (tick w)) with (w_mounts w). change (w_fs (tick w)) with (w_fs w). destruct R as (G & N & C & D). rewrite obj_clear, over_none, D by done. reflexivity.
Qed.
Lemma deep_lchown_same p o w : fs_wf (w_fs w) → roomy w p → deep_lchown p o w = os_lchown p o w.
Proof.
  intros W R. apply atomic_ext. intros _. rewrite (spot_ext w (tick w)) by reflexivity. rewrite roomy_spot by done. rewrite (obj_ext w (tick w)) by reflexivity. unfold give.
  change (w_mounts (tick w)) with (w_mounts w). change (w_fs (tick w)) with (w_fs w). destruct R as (G & N & C & D). rewrite obj_clear by done. destruct (fget (w_fs w) p); reflexivity.
Qed.
Lemma deep_exists_same p o w : fs_wf (w_fs w) → usual w p → deep_exists p o w = fs_is_exists p o w.
Proof.
  intros W U. unfold deep_exists, fs_is_exists, bind, attempt, os_stat, look, sys_atomic. cbv zeta. rewrite (leads_ext w (tick w)) by reflexivity. rewrite usual_leads by done.
  change (w_fs (tick w)) with (w_fs w). destruct (usual_real w p W U) as (t & E & (_ & D & _)). rewrite E. unfold is_dir_at in D. destruct (fget (w_fs w) t) as [x|]; [|done].
  destruct (ch_fault (o (w_tick w))) as [|e n|[|n]]; reflexivity.
Qed.
Lemma deep_chdir_same p o w : fs_wf (w_fs w) → usual w p → deep_chdir p o w = os_chdir p o w.
Proof.
  intros W U. apply atomic_ext. intros _. rewrite (leads_ext w (tick w)) by reflexivity. rewrite usual_leads by done. change (w_fs (tick w)) with (w_fs w).
  destruct (usual_real w p W U) as (t & E & Ut). rewrite E. rewrite (dir_ext w (tick w)) by reflexivity. rewrite usual_obj by done. destruct Ut as (_ & D & _). rewrite D. reflexivity.
Qed.
(** ** The link of a workspace *)
Lemma usual_dir_ext w w' t : w_fs w' = w_fs w → w_mounts w' = w_mounts w → usual_dir w t → usual_dir w' t.
Proof. intros E1 E2. unfold usual_dir. by rewrite E1, E2. Qed.
Lemma usual_ext w w' q : w_fs w' = w_fs w → w_mounts w' = w_mounts w → usual w q → usual w' q.
Proof. intros E1 E2. unfold usual, usual_dir. by rewrite E1, E2. Qed.
Lemma link_usual_to w p t : good_path p → clear_of (w_mounts w) p → fget (w_fs w) p = Some (FLink (path_str t)) → usual_dir w t → usual w p.
Proof. intros G C E U. right. split; [done|]. split; [done|]. by exists t. Qed.
(** The part of Expand after the mount *)
Definition deep_link_up (x : ws) : M unit :=
  pwd <- deep_getwd ;;
  os_chdir [] ;;;
  e <- deep_exists (ws_path x) ;;
  (if e : bool then deep_remove (ws_path x) else ret tt) ;;;
  deep_symlink (path_str (mv_path (ws_mount x))) (ws_path x) ;;;
  deep_lchown (ws_path x) ;;;
  deep_chdir pwd.
Definition link_up' (x : ws) : M unit :=
  pwd <- os_getwd ;;
  os_chdir [] ;;;
  e <- fs_is_exists (ws_path x) ;;
  (if e : bool then os_remove (ws_path x) else ret tt) ;;;
  os_symlink (path_str (mv_path (ws_mount x))) (ws_path x) ;;;
  os_lchown (ws_path x) ;;;
  os_chdir pwd.
Lemma link_up_flat x o w : link_up x o w = link_up' x o w.
Proof.
  apply bind_then; [reflexivity|]. intros pwd w1 _. apply bind_then; [reflexivity|]. intros [] w2 _. apply bind_then; [reflexivity|]. intros e w3 _. apply bind_then; [reflexivity|]. intros [] w4 _.
  unfold create_symlink, bind. destruct (os_symlink _ _ o w4) as [[[]| | | |] w5]; try reflexivity.
Qed.
Lemma getwd_at w p o d w' : w_pwd w = Some p → real_path (w_fs w) p = Some (w_cwd w) → os_getwd o w = (Ok d, w') → d = p ∧ w' = tick w.
Proof.
  intros E R H. pose proof (look_any _ _ _ _ _ H) as ->. split; [|done]. unfold os_getwd, look, sys_atomic in H. cbv zeta in H.
  assert (getwd_of (tick w) = p) as G by (unfold getwd_of; change (w_pwd (tick w)) with (w_pwd w); rewrite E; change (w_fs (tick w)) with (w_fs w); change (w_cwd (tick w)) with (w_cwd w); by rewrite decide_True).
  rewrite G in H. destruct (ch_fault _) as [|? ?|[|?]]; try done. destruct (_ || _); [|done]. congruence.
Qed.
Lemma link_up_same x t t' o w : let p := ws_path x in fs_wf (w_fs w) → good_path p → clear_of (w_mounts w) p → w_pwd w = Some p →
  fget (w_fs w) p = Some (FLink (path_str t)) → usual_dir w t → w_cwd w = t → mv_path (ws_mount x) = t' → usual_dir w t' → p ≠ t' → deep_link_up x o w = link_up x o w.
Proof.
  intros p W G C Ep El Ut Ec Em Ut' Nt. rewrite link_up_flat. assert (p ≠ []) as Np. { intros E. unfold p in E. eapply (root_no_link (w_fs w)); [done| |by rewrite <-E]. 
    destruct Ut as (_ & D & _). unfold is_dir_at in D. destruct (fget (w_fs w) t) as [z|] eqn:Q; [|done]. exists t, z. split; [done|]. intros ->. unfold p in El. rewrite E in El. rewrite Q in El. by injection El as ->. }
  assert (usual w p) as U by (by eapply link_usual_to). assert (is_dir_at (w_fs w) (parent_dir p) = true) as D.
  { destruct (exists_last Np) as (d & c & Ed). rewrite Ed in *. unfold parent_dir. rewrite removelast_last. by eapply W. }
  assert (roomy w p) as R by done. assert (real_path (w_fs w) p = Some t) as Rp by (apply link_real; [done|apply Ut..]).
  unfold deep_link_up, link_up'. fold p.
  apply bind_then. { apply deep_getwd_same; [done|]. split; [by rewrite Ec|]. intros q Eq. rewrite Ep in Eq. by injection Eq as <-. }
  intros pwd w1 H. apply (getwd_at _ p) in H as [-> ->]; [|done|by rewrite Ec].
  apply bind_then; [reflexivity|]. intros [] w1 H. apply chdir_ok in H as (q1 & _ & _ & ->).
  apply bind_then. { apply deep_exists_same; [done|]. by apply (usual_ext w). }
  intros e w1 H. assert (w1 = tick (set_cwd (tick (tick w)) q1)) as ->.
  { unfold fs_is_exists, bind, attempt in H. destruct (os_stat p o _) as [r v] eqn:Q; apply look_any in Q as ->; destruct r; cbn [ret] in H; try discriminate H; by injection H as _ <-. }
  set (w1 := tick (set_cwd (tick (tick w)) q1)). assert (roomy w1 p) as R1 by exact R.
  apply bind_then. { destruct e; [|reflexivity]. by apply deep_remove_same. }
  intros [] w2 H2. assert (fs_wf (w_fs w2) ∧ w_mounts w2 = w_mounts w ∧ ∀ q, q ≠ p → fget (w_fs w2) q = fget (w_fs w) q) as (W2 & M2 & S2).
  { destruct e; [|injection H2 as <-; done]. apply remove_ok in H2 as (_ & -> & _). split; [|split; [done|]].
    - cbn [w_fs set_fs]. intros q n z. rewrite fget_fdel. case_decide as Q; [done|]. intros E. assert (q ≠ p) as Nq.
      { intros ->. apply W in E. unfold is_dir_at in E. change (w_fs w1) with (w_fs w) in E. by rewrite El in E. }
      unfold is_dir_at. rewrite fget_fdel_ne by congruence. by apply (W q n z).
    - intros q Nq. cbn [w_fs set_fs]. by rewrite fget_fdel_ne by congruence. }
  assert (roomy w2 p) as R2.
  { split; [done|]. split; [done|]. rewrite M2. split; [done|]. unfold is_dir_at. rewrite S2; [done|]. destruct (exists_last Np) as (d & c & Ed). rewrite Ed. unfold parent_dir. rewrite removelast_last.
    intros Q. apply (f_equal length) in Q. rewrite app_length in Q. cbn in Q. lia. }
  apply bind_then; [by apply deep_link_same|]. intros [] w3 H3. apply symlink_ok in H3 as (N3 & D3 & ->). set (w3 := set_fs (tick w2) (fset (w_fs w2) p (FLink (path_str (mv_path (ws_mount x)))))).
  assert (fs_wf (w_fs w3)) as W3 by (by apply wf_add).
  assert (roomy w3 p) as R3.
  { destruct R2 as (A1 & A2 & A3 & A4). split; [done|]. split; [done|]. split; [done|]. unfold is_dir_at. unfold w3. cbn [w_fs set_fs]. rewrite fget_fset_ne; [done|]. destruct (exists_last Np) as (d & c & Ed). rewrite Ed.
    unfold parent_dir. rewrite removelast_last. intros Q. apply (f_equal length) in Q. rewrite app_length in Q. cbn in Q. lia. }
  apply bind_then; [by apply deep_lchown_same|]. intros [] w4 H4. apply lchown_ok in H4 as (_ & ->).
  apply deep_chdir_same; [exact W3|]. apply (usual_ext w3); [reflexivity..|]. apply (link_usual_to _ _ t'); [done|apply R3|unfold w3; cbn [w_fs set_fs]; by rewrite fget_fset_eq, Em|].
  destruct Ut' as (U1 & U2 & U3). split; [done|]. split; [|intros m Hm; apply U3; rewrite <-M2; exact Hm]. unfold is_dir_at, w3. cbn [w_fs set_fs]. rewrite fget_fset_ne by done. by rewrite S2.
Qed.
Lemma link_up_cwd x o w w' : w_pwd w = Some (ws_path x) → real_path (w_fs w) (ws_path x) = Some (w_cwd w) → link_up x o w = (Ok tt, w') → real_path (w_fs w') (ws_path x) = Some (w_cwd w').
Proof.
  intros Ep Rp H. unfold link_up in H. apply bind_ok in H as (pwd & w1 & E & H). apply (getwd_at _ (ws_path x)) in E as [-> ->]; [|done..].
  apply bind_ok in H as ([] & w2 & _ & H). apply bind_ok in H as (b & w3 & _ & H). apply bind_ok in H as ([] & w4 & _ & H). apply bind_ok in H as ([] & w5 & _ & H).
  apply chdir_ok in H as (q & E & _ & ->). exact E.
Qed.
(** ** Expand *)
(** Nothing is mounted above mount points of the program. *)
Definition points_free (dr : path) (ms : list mount) : Prop := ∀ m i, m ∈ ms → is_prefix (mn_at m) (merged_dir dr i) = true → mn_at m = merged_dir dr i.
Lemma merged_length dr i j : length (merged_dir dr i) = length (merged_dir dr j).
Proof. unfold mount_dir. rewrite !app_length. done. Qed.
Lemma prefix_same (q k : path) : length q = length k → is_prefix q k = true → q = k.
Proof. intros L [r ->]%is_prefix_spec. rewrite app_length in L. destruct r; [by rewrite app_nil_r|cbn in L; lia]. Qed.
Lemma machine_free dr w : in_order dr w → clear_of (w_mounts w) (mounts_root dr) → points_free dr (w_mounts w).
Proof.
  intros Io C m i H P. pose proof (clear_mount dr w i Io C m H) as Q. destruct (prefix_comparable _ _ _ P (is_prefix_app (mount_dir dr i) _)) as [R|R]; [congruence|].
  destruct (mc_mounts _ _ _ (io_machine _ _ Io) m H) as [(j & E) _]. { eapply is_prefix_trans; [|exact R]. apply is_prefix_app. }
  rewrite E in *. apply prefix_same; [apply merged_length|done].
Qed.
Lemma free_add dr ms m i : mn_at m = merged_dir dr i → points_free dr ms → points_free dr (m :: ms).
Proof. intros E F m' j [->|H]%elem_of_cons P; [|by apply F]. rewrite E in *. apply prefix_same; [apply merged_length|done]. Qed.
Lemma free_usual dr w i : good_path dr → points_free dr (w_mounts w) → is_dir_at (w_fs w) (merged_dir dr i) = true → usual_dir w (merged_dir dr i).
Proof. intros G F D. split; [by apply UsableProofs.good_merged|]. split; [done|]. intros m H P. by apply F. Qed.
Lemma outside_merged dr p i : outside dr p → is_prefix (merged_dir dr i) p = false ∧ p ≠ merged_dir dr i.
Proof.
  intros [O _]. assert (is_prefix dr (merged_dir dr i) = true) as P by (unfold mount_dir, mounts_root; rewrite <-!app_assoc; apply is_prefix_app).
  split; [apply not_true_is_false; intros Q; by rewrite (is_prefix_trans _ _ _ P Q) in O|]. intros ->. congruence.
Qed.
Lemma clear_add dr ms m i p : outside dr p → mn_at m = merged_dir dr i → clear_of ms p → clear_of (m :: ms) p.
Proof. intros O E C m' [->|H]%elem_of_cons; [rewrite E; by apply outside_merged|by apply C]. Qed.
Lemma deep_expand_same dr y mid id ch old o w : plain_path dr → good_path dr → ch ≠ [] → outside dr (ws_path y) → good_path (ws_path y) →
  ws_mount y = stack_mount (layers_root dr) (mount_dir dr mid) mid id ch → fs_wf (w_fs w) → fget (w_fs w) (merged_dir dr mid) = None → fget (w_fs w) (work_dir dr mid) = None →
  is_dir_at (w_fs w) (diff_dir (layers_root dr) id) = true → fget (w_fs w) (ws_path y) = Some (FLink (path_str (merged_dir dr old))) → is_dir_at (w_fs w) (merged_dir dr old) = true →
  w_cwd w = merged_dir dr old → w_pwd w = Some (ws_path y) → clear_of (w_mounts w) (ws_path y) → points_free dr (w_mounts w) →
  deep_expand y o w = expand y o w ∧ ∀ w', expand y o w = (Ok tt, w') → real_path (w_fs w') (ws_path y) = Some (w_cwd w').
Proof.
  intros P G NC O Gp Em W Nm Nw Du El Do Ec Ep Cp F.
  change (deep_expand y) with (bind (mount_mount (ws_mount y)) (λ _, deep_link_up y)). change (expand y) with (bind (mount_mount (ws_mount y)) (λ _, link_up y)).
  assert (dr ≠ []) as ND by (intros ->; by destruct O).
  set (mp := merged_dir dr mid) in *. set (p' := mp ++ [B "x"]).
  assert (∀ n, mount_dir dr mid ++ [n] ≠ p') as N0 by (intros n Q; apply (f_equal length) in Q; unfold p', mp in Q; rewrite !app_length in Q; cbn in Q; lia).
  assert (∀ i, diff_dir (layers_root dr) i ≠ p') as Nu.
  { intros i. unfold p', mp, mount_dir, mounts_root, diff_dir, layer_dir, layers_root. rewrite <-!(app_assoc (dr ++ _)). apply app_cons_ne. done. }
  assert (ws_path y ≠ p' ∧ ws_path y ≠ mp ∧ ws_path y ≠ work_dir dr mid) as (X1 & X2 & X3).
  { unfold p', mp, mount_dir, mounts_root. rewrite <-!(app_assoc dr). split_and!; by apply outside_ne. }
  assert (∀ w1, mount_mount (ws_mount y) o w = (Ok tt, w1) → deep_link_up y o w1 = link_up y o w1 ∧ ∀ w', link_up y o w1 = (Ok tt, w') → real_path (w_fs w') (ws_path y) = Some (w_cwd w')) as Key.
  2:{ split; [apply bind_then; [reflexivity|]; intros [] w1 H; by apply Key|]. intros w' H. apply bind_ok in H as ([] & w1 & E & H). by apply (Key w1). }
  intros w1 H. rewrite Em in H.
  pose proof (mount_any dr mid id ch p' w P G ND NC N0 Nu W Nm Nw Du o w _ w1 eq_refl eq_refl ltac:(done) H) as (I1 & C1 & Q). destruct (Q eq_refl) as (m & Em1 & Ea & _ & Dm & _). clear Q.
  pose proof (ei_same _ _ _ _ _ _ _ I1) as S. pose proof (ei_proc _ _ _ _ _ _ _ I1) as (_ & E2 & _).
  assert (merged_dir dr old ≠ mp) as Ne by (intros Q; rewrite Q in Do; unfold is_dir_at in Do; by rewrite Nm in Do).
  assert (merged_dir dr old ≠ work_dir dr mid) as Ne2. { intros Q. apply app_inj_tail in Q as [_ Q]. discriminate Q. }
  assert (merged_dir dr old ≠ p') as Ne3. { intros Q. apply (f_equal length) in Q. unfold p', mp, mount_dir in Q. rewrite !app_length in Q. cbn in Q. lia. }
  assert (points_free dr (w_mounts w1)) as F1 by (rewrite Em1; by eapply free_add).
  assert (fget (w_fs w1) (ws_path y) = Some (FLink (path_str (merged_dir dr old)))) as El1 by (by rewrite S).
  assert (is_dir_at (w_fs w1) (merged_dir dr old) = true) as Do1 by (unfold is_dir_at; by rewrite S).
  split.
  2:{ intros w'. apply link_up_cwd; [by rewrite E2|]. rewrite C1, Ec. apply link_real; [done| |done]. by apply UsableProofs.good_merged. }
  apply (link_up_same y (merged_dir dr old) mp); try done.
  - by apply (ei_wf _ _ _ _ _ _ _ I1).
  - rewrite Em1. by eapply clear_add.
  - by rewrite E2.
  - by apply free_usual.
  - by rewrite C1.
  - by rewrite Em.
  - by apply free_usual.
Qed.
(** ** RemoveWorkspaceMount *)
Definition clear_out (dr : path) (x : ws) : M (unit + err) :=
  attempt (mount_umount (ws_mount x)) ;;; os_remove_all (mount_dir dr (mv_id (ws_mount x))) ;;; attempt (os_remove (ws_file dr (mv_id (ws_mount x)))).
Lemma clear_out_keeps dr x mid w0 : machine dr (w_fs w0) (w_mounts w0) → ws_mount x = mounted_mount mid (mount_dir dr mid) →
  keeps (rm_inv (w_fs w0) w0 (mount_dir dr mid) (ws_file dr mid)) (clear_out dr x).
Proof.
  intros Mc E. pose proof (rm_timeless dr mid w0) as T. unfold clear_out. rewrite E. cbn [mounted_mount mv_id].
  apply keeps_bind.
  { apply keeps_attempt. unfold mount_umount, sys_umount. apply keeps_atomic; [done|]. intros c w Hw.
    destruct (real_path _ _); [|by apply T]. destruct (mounted_at _ _); [|by apply T].
    destruct Hw as [A1 A2 A3 A4 A5 A6]. constructor; cbn [snd w_fs set_mounts w_mounts w_tree w_pwd w_out tick]; try done.
    - intros m Hm. apply MachineProofs.drop_mount_elem in Hm. auto.
    - intros m Hm. apply MachineProofs.drop_mount_elem in Hm. auto. }
  intros _. apply keeps_bind.
  { unfold os_remove_all. intros o w Hw. unfold sys. pose proof (T _ Hw) as Hw1.
    destruct (ch_fault _) as [|e [|n]|[|n]]; try by first [done|apply rm_remove_all].
    destruct (mounts_below _ _); by apply rm_remove_all. }
  intros _. apply keeps_attempt. apply keeps_atomic; [done|]. intros c w Hw. pose proof (T _ Hw) as H.
  apply (rm_remove_file dr mid w0 Mc) in H. unfold os_remove_step in H. by destruct (remove_in (tick w) _).
Qed.
Definition removal (dr : path) (x : ws) (wd : M path) (cd : path → M unit) : M unit :=
  pwd <- wd ;; os_chdir [] ;;; r <- clear_out dr x ;;
  match r with inr e => if decide (e = ENOENT) then cd pwd else fail e | inl _ => cd pwd end.
Lemma removal_is dr x o w : remove_mount dr x o w = removal dr x os_getwd os_chdir o w.
Proof.
  apply bind_then; [reflexivity|]. intros pwd w1 _. apply bind_then; [reflexivity|]. intros [] w2 _. unfold clear_out, bind.
  destruct (attempt _ o w2) as [[?| | | |] w3]; try reflexivity. destruct (os_remove_all _ o w3) as [[?| | | |] w4]; reflexivity.
Qed.
Lemma deep_removal_is dr x o w : deep_remove_mount dr x o w = removal dr x deep_getwd deep_chdir o w.
Proof.
  apply bind_then; [reflexivity|]. intros pwd w1 _. apply bind_then; [reflexivity|]. intros [] w2 _. unfold clear_out, bind.
  destruct (attempt _ o w2) as [[?| | | |] w3]; try reflexivity. destruct (os_remove_all _ o w3) as [[?| | | |] w4]; reflexivity.
Qed.
Lemma deep_remove_mount_same dr x old mid o w p : good_path dr → good_path p → outside dr p → machine dr (w_fs w) (w_mounts w) → ws_mount x = mounted_mount old (mount_dir dr old) →
  fget (w_fs w) p = Some (FLink (path_str (merged_dir dr mid))) → is_dir_at (w_fs w) (merged_dir dr mid) = true → mid ≠ old → w_cwd w = merged_dir dr mid → w_pwd w = Some p →
  clear_of (w_mounts w) p → points_free dr (w_mounts w) → deep_remove_mount dr x o w = remove_mount dr x o w.
Proof.
  intros G Gp O Mc Ex El D Ne Ec Ep Cp F. rewrite removal_is, deep_removal_is. pose proof (mc_wf _ _ _ Mc) as W.
  pose proof (free_usual dr w mid G F D) as Um. assert (usual w p) as Up by (by eapply link_usual_to).
  apply bind_then. { apply deep_getwd_same; [done|]. split; [by rewrite Ec|]. intros q Eq. rewrite Ep in Eq. by injection Eq as <-. }
  intros pwd w1 H. apply (getwd_at _ p) in H as [-> ->]; [|done|rewrite Ec; by apply link_real; [|apply Um..]].
  apply bind_then; [reflexivity|]. intros [] w1 H. apply chdir_ok in H as (q1 & _ & _ & ->). set (w1 := set_cwd (tick (tick w)) q1).
  apply bind_then; [reflexivity|]. intros r w2 H.
  assert (rm_inv (w_fs w) w (mount_dir dr old) (ws_file dr old) w2) as [A1 A2 A3 A4 A5 A6].
  { refine (keeps_run _ _ _ _ _ _ (clear_out_keeps dr x old w Mc Ex) _ H). constructor; cbn; auto. }
  assert (usual w2 p) as U2.
  { apply (link_usual_to _ _ (merged_dir dr mid)); [done|intros m Hm; by apply Cp, A4| |].
    - rewrite A2; [done|..].
      + apply not_true_is_false. intros (k & E)%mount_dir_prefix. rewrite <-app_assoc in E. by apply (outside_ne _ _ _ O) in E.
      + intros Q. assert (vital dr (ws_file dr old)) as V by (right; left; by eexists). rewrite Q in O. by apply (vital_outside _ _ _ V O).
      + intros (m & u & Hm & Hp & Hu & Q). destruct (rm_below dr old w Mc m Hm Hp) as [_ Ou]. destruct (Ou u Hu) as (i & -> & _).
        apply under_spec in Q as (k & _ & Q). rewrite Q in O. unfold diff_dir, layer_dir, layers_root in O. rewrite <-!app_assoc in O. destruct O as [O _]. by rewrite is_prefix_app in O.
    - apply free_usual; [done|intros m i Hm; by apply F, A4|]. unfold is_dir_at. rewrite A2; [done|..].
      + apply not_true_is_false. intros Q. apply mount_dir_prefix in Q as (k & Q). unfold mount_dir, mounts_root in Q. rewrite <-!(app_assoc (dr ++ _)) in Q. apply app_inv_head in Q. cbn in Q. injection Q as Q _.
        apply uid_b32_inj in Q. congruence.
      + unfold mount_dir, ws_file. rewrite <-app_assoc. intros Q. apply app_inv_head in Q. by injection Q.
      + intros (m & u & Hm & Hp & Hu & Q). destruct (rm_below dr old w Mc m Hm Hp) as [_ Ou]. destruct (Ou u Hu) as (i & -> & _). by rewrite mount_not_diff in Q. }
  destruct r as [?|e]; [by apply deep_chdir_same|]. destruct (decide (e = ENOENT)); [by apply deep_chdir_same|reflexivity].
Qed.

(** ** Whole commands *)
Lemma move_same dr x op o w a hid old : plain_path dr → good_path dr → fair o → in_order dr w → live dr w x a hid → (∃ d m, op = OCommit d m) ∨ (∃ k, op = OCheckout k) →
  ws_mount x = mounted_mount old (mount_dir dr old) → outside dr (ws_path x) → good_path (ws_path x) → clear_of (w_mounts w) (mounts_root dr) → clear_of (w_mounts w) (ws_path x) →
  fget (w_fs w) (ws_path x) = Some (FLink (path_str (merged_dir dr old))) → is_dir_at (w_fs w) (merged_dir dr old) = true → w_cwd w = merged_dir dr old → w_pwd w = Some (ws_path x) →
  (y <- run_op dr x op ;; deep_expand y ;;; deep_remove_mount dr x) o w = (y <- run_op dr x op ;; expand y ;;; remove_mount dr x) o w.
Proof.
  intros P G F Io Lv Hop Em O Gp Cm Cp El Do Ec Ep. pose proof (io_machine _ _ Io) as Mc. pose proof Lv as [W [R Gt] LP S D].
  assert ((∃ d m, op = OCommit d m) ∨ (∃ k, op = OCheckout k) ∨ (∃ p, op = OClone p)) as Hop' by (destruct Hop as [?|?]; auto).
  apply bind_then; [reflexivity|]. intros y w1 E.
  destruct (op_body _ _ _ _ _ _ _ _ _ F Mc Lv E) as ([Or Un] & _ & _). pose proof E as E'. apply (op_mount _ _ _ _ _ _ _ a hid) in E' as (id' & a'' & Ns & _ & _ & _ & _); [|done..].
  apply (op_makes _ _ _ _ _ _ _ a hid) in E as (mid & id & ch & a' & Ma); [|done..]. pose proof Ma as [A1 A2 A3 (base & Ab & Ac) A5 A6 A7 A8 A9 A10 A11 A12 A13].
  assert (ws_path y = ws_path x) as Ey by (rewrite A7; destruct Hop as [(d & m & ->)|(k & ->)]; done).
  pose proof A12 as [T1 T2 T3 T4 T5 (T6 & T7 & T8)].
  assert (¬ own dr (ws_space x) (w_fs w) (ws_path x)) as No.
  { intros [E|(i & E & _)]; revert E; [unfold tree_file; rewrite S; unfold space_dir, spaces_root|unfold ws_file, mounts_root]; rewrite <-!(app_assoc dr); by apply outside_ne. }
  assert (is_dir_at (w_fs w1) (merged_dir dr old) = true) as Do1.
  { apply is_dir_at_Some in Do as [b Do]. unfold is_dir_at. rewrite (T1 _ _ Do); [done|]. by apply merged_not_own. }
  pose proof (machine_free dr w Io Cm) as Fr.
  destruct (deep_expand_same dr y mid id ch old o w1) as [Eq Cw]; rewrite ?Ey, ?T5, ?T6, ?T7; try done.
  { intros ->. by apply chain_not_nil in Ac. } { apply A5. } { by eapply touches_merged. } { by eapply touches_merged. } { by apply (live_diff dr w1 y a'), A5. } { by apply T1. }
  apply bind_then; [exact Eq|]. intros [] w2 E2. specialize (Cw w2 E2).
  destruct (made_settles _ _ _ _ _ _ _ _ _ _ _ _ _ _ P G ltac:(by rewrite Ey) W S Ma E2) as ((m & St & Em2) & _).
  destruct (expand_after _ _ _ _ _ _ _ _ P G Mc Or Un Ns ltac:(by rewrite Ey) E2) as ([Mc2 _ _ _ _] & _).
  pose proof (se_link _ _ _ _ _ _ _ _ St) as L2. pose proof (se_dir _ _ _ _ _ _ _ _ St) as D2. pose proof (se_mn _ _ _ _ _ _ _ _ St) as N2. rewrite Ey in *.
  apply (deep_remove_mount_same dr x old mid o w2 (ws_path x)); try done.
  - intros ->. apply is_dir_at_Some in Do as [b Do]. apply W in Do. unfold is_dir_at in Do. by rewrite A2 in Do.
  - rewrite (link_real _ _ _ L2) in Cw by (done || by apply UsableProofs.good_merged). congruence.
  - assert (ch ≠ []) as NC by (intros ->; by apply chain_not_nil in Ac).
    pose proof (expand_inv dr y mid id ch o w1 _ w2 P G NC A1 ltac:(by rewrite Ey) (T4 W) (touches_merged _ _ _ _ _ _ S W A12 A2) (live_diff dr w1 y a' id (rd_live _ _ _ _ _ A5)) E2) as I.
    destruct (ei_proc _ _ _ _ _ _ _ I) as (_ & -> & _). by rewrite T7.
  - rewrite Em2. by eapply clear_add.
  - rewrite Em2. by eapply free_add.
Qed.
Lemma moves_same dr w p mid y hid a c o : plain_path dr → good_path dr → good_path p → outside dr p → fair o → in_order dr w → workspace_at dr w p mid y hid a →
  clear_of (w_mounts w) (mounts_root dr) → clear_of (w_mounts w) p → moves c → deep_cmd dr c o (deep_enter p w) = run_cmd dr c o (enter p w).
Proof.
  intros P G Gp O F Io Wa Cm Cp Mv.
  pose proof (clear_mount dr w mid Io Cm) as Cd. pose proof (wa_mount _ _ _ _ _ _ _ Wa) as Mo. pose proof Mo as [D _]. pose proof (mc_wf _ _ _ (io_machine _ _ Io)) as W. pose proof (wa_link _ _ _ _ _ _ _ Wa) as L.
  pose proof (point_usual dr w mid G Mo Cd) as Um. assert (usual w p) as U by (by eapply link_usual_to).
  rewrite (enter_same _ _ W U). destruct (enter_usual w p W U) as (Uw & Ue & Eg).
  assert (w_cwd (enter p w) = merged_dir dr mid) as Ec. { unfold enter. cbn [set_pwd set_cwd w_cwd]. rewrite (link_real _ _ _ L) by (done || apply Um). done. }
  assert (deep_get_workspace dr (B ".") o (enter p w) = get_workspace dr (B ".") o (enter p w)) as Eo.
  { apply deep_open_same; [done|done|]. change (abs_of (enter p w) (B ".")) with (getwd_of (enter p w)). by rewrite Eg. }
  assert (∀ x w1, get_workspace dr (B ".") o (enter p w) = (Ok x, w1) → ∃ b h, live dr w1 x b h ∧ ws_mount x = mounted_mount mid (mount_dir dr mid) ∧ ws_path x = p ∧
    w_fs w1 = w_fs w ∧ w_mounts w1 = w_mounts w ∧ w_cwd w1 = merged_dir dr mid ∧ w_pwd w1 = Some p) as Op.
  { intros x w1 E. destruct (get_workspace_any dr (B ".") o (enter p w) x w1 G F (io_machine _ _ Io) E) as (b & h & Lv & Fa). exists (san_tree b), h. split; [done|].
    assert (ws_path x = p) as Ex by (rewrite (fa_path _ _ _ _ _ Fa); exact Eg). pose proof (fa_link _ _ _ _ _ Fa mid) as Q. rewrite Ex in Q. specialize (Q O L).
    split; [rewrite <-Q; by apply (fa_mount _ _ _ _ _ Fa)|]. split; [done|]. apply reader_get_workspace in E as (t & k & ->). split; [done|]. split; [done|]. split; [exact Ec|done]. }
  destruct c as [args branch|source target|msg|key|opts args|opts args|args]; try done; cbn [run_cmd]; unfold deep_cmd, cmd_commit, cmd_checkout.
  - apply bind_then; [exact Eo|]. intros x w1 E. destruct (Op x w1 E) as (b & h & Lv & Ex & Ep & E1 & E2 & E3 & E4). cbn [deep_rest]. rewrite !bind_next.
    apply (move_same dr x (OCommit (Some (fmt_rfc3339 (ch_time (o (w_tick w1))))) msg) o (tick w1) b h mid); try done; rewrite ?Ep; try (change (w_mounts (tick w1)) with (w_mounts w1); by rewrite E2); try (change (w_fs (tick w1)) with (w_fs w1); by rewrite E1).
    + destruct Io as [B1 B2 B3 B4 B5]. constructor; change (w_mounts (tick w1)) with (w_mounts w1); change (w_fs (tick w1)) with (w_fs w1); by rewrite ?E1, ?E2.
    + destruct Lv as [B1 B2 B3 B4 B5]. by constructor.
    + left. eauto.
    + exact O.
    + exact Gp.
    + exact E4.
  - apply bind_then; [exact Eo|]. intros x w1 E. destruct (Op x w1 E) as (b & h & Lv & Ex & Ep & E1 & E2 & E3 & E4). cbn [deep_rest].
    apply (move_same dr x (OCheckout key) o w1 b h mid); try done; rewrite ?Ep, ?E1, ?E2; try done.
    + destruct Io as [B1 B2 B3 B4 B5]. constructor; by rewrite ?E1, ?E2.
    + right. eauto.
Qed.
