(** * OrderProofs: Prepare, and the data root over any history *)
From Verif Require Import Base Uid SpecUid UidProofs Tree SpecTree TreeRefine TreeObs Dump DumpProofs Json JsonProofs Save SaveProofs Branch BranchProofs Date Ws SpecWs WsProofs
  Fs Overlay Os Layers Mounts Space Manager Commands FsProofs OsProofs LayerProofs MountProofs SpaceProofs ManagerProofs SpecWorld SpecOps SavedProofs FaultProofs ReadyProofs OpProofs CalmProofs
  SpecMachine SpecCmds MachineProofs OpenProofs CmdProofs TidyProofs SpecUsable UsableProofs UsableInitProofs UsableCmdProofs UsableSeqProofs SpecOrder.
From Coq Require Import Lia.
From stdpp Require Import prelude gmap.

(** ** Prepare makes directories above the data root, the data root and directories in it, and does nothing else *)
Record prepares (dr : path) (w w' : world) : Prop := {
  pp_wf : fs_wf (w_fs w');
  pp_root : is_dir_at (w_fs w') [] = true;
  pp_fs : ∀ q, fget (w_fs w') q = fget (w_fs w) q ∨
    fget (w_fs w) q = None ∧ fget (w_fs w') q = Some (FDir false) ∧ (is_prefix q dr = true ∨ ∃ n, q = dr ++ [n]);
  pp_mounts : w_mounts w' = w_mounts w;
  pp_proc : w_cwd w' = w_cwd w ∧ w_pwd w' = w_pwd w ∧ w_tree w' = w_tree w ∧ w_out w' = w_out w }.
Lemma prepares_add dr w w1 q : prepares dr w w1 → fget (w_fs w1) q = None → is_dir_at (w_fs w1) (parent_dir q) = true →
  is_prefix q dr = true ∨ (∃ n, q = dr ++ [n]) → prepares dr w (set_fs w1 (fset (w_fs w1) q (FDir false))).
Proof.
  intros [A1 A2 A3 A4 A5] N D Hq. constructor; cbn [w_fs set_fs w_mounts w_cwd w_pwd w_tree w_out]; try done.
  - by apply wf_add.
  - unfold is_dir_at. rewrite fget_fset. by case_decide.
  - intros z. rewrite fget_fset. case_decide as Q; [subst z|auto]. right. destruct (A3 q) as [E|(_ & E & _)]; [|congruence]. by rewrite <-E.
Qed.
Lemma prepares_timeless dr w : timeless (prepares dr w).
Proof. intros v [A1 A2 A3 A4 A5]. by constructor. Qed.
Lemma prepares_ensure dr w n : keeps (prepares dr w) (ensure_dir_mk (dr ++ [n])).
Proof.
  unfold ensure_dir_mk. apply keeps_bind; [apply is_dir_keeps, prepares_timeless|]. intros [|]; [apply keeps_ret|].
  apply keeps_atomic; [apply prepares_timeless|]. intros _ v Hv. cbn [w_fs tick].
  destruct (mkdir_in_cases (w_fs v) (dr ++ [n])) as [[f Ef]|[e Ef]]; rewrite Ef; [|by apply prepares_timeless].
  apply mkdir_in_ok in Ef as (Nq & D & ->). apply prepares_timeless in Hv. apply (prepares_add dr w (tick v)); eauto.
Qed.
Lemma mkdir_all_prepares dr w todo : ∀ fs dn fs' v, prepares dr w (set_fs v fs) → is_prefix (dn ++ todo) dr = true → is_dir_at fs dn = true →
  mkdir_all_in fs dn todo = Ok fs' → prepares dr w (set_fs v fs').
Proof.
  induction todo as [|n todo IH]; intros fs dn fs' v Hv Hp D H; cbn [mkdir_all_in] in H; [by injection H as <-|].
  cbv zeta in H. replace (dn ++ n :: todo) with ((dn ++ [n]) ++ todo) in Hp by (by rewrite <-app_assoc).
  destruct (fget fs (dn ++ [n])) as [[]|] eqn:E; try done.
  - apply (IH fs (dn ++ [n])); [exact Hv|exact Hp|unfold is_dir_at; by rewrite E|exact H].
  - apply (IH (fset fs (dn ++ [n]) (FDir false)) (dn ++ [n])); [|exact Hp|unfold is_dir_at; by rewrite fget_fset_eq|exact H].
    apply (prepares_add dr w (set_fs v fs)); [done|done|by rewrite parent_dir_app|]. left.
    apply is_prefix_spec in Hp as [k ->]. rewrite <-(app_assoc (dn ++ [n])). apply is_prefix_app.
Qed.
Lemma mkdir_all_cases todo : ∀ fs dn, (∃ fs', mkdir_all_in fs dn todo = Ok fs') ∨ mkdir_all_in fs dn todo = Err ENOTDIR.
Proof.
  induction todo as [|n todo IH]; intros fs dn; cbn [mkdir_all_in]; [eauto|]. cbv zeta. destruct (fget fs (dn ++ [n])) as [[]|]; eauto.
Qed.
Lemma prepares_all dr w : keeps (prepares dr w) (os_mkdir_all dr).
Proof.
  intros o v Hv. unfold os_mkdir_all, sys. pose proof (prepares_timeless _ _ _ Hv) as Ht.
  assert (∀ p, is_prefix p dr = true → prepares dr w (match mkdir_all_in (w_fs (tick v)) [] p with Ok f => set_fs (tick v) f | _ => tick v end)) as H.
  { intros p Hp. destruct (mkdir_all_cases p (w_fs (tick v)) []) as [[f Ef]|Ef]; rewrite Ef; [|done].
    apply (mkdir_all_prepares dr w p (w_fs (tick v)) [] f (tick v)); [by destruct v|done|apply Ht|done]. }
  assert (∀ n, is_prefix (take n dr) dr = true) as Hk.
  { intros n. apply is_prefix_spec. exists (drop n dr). by rewrite take_drop. }
  destruct (ch_fault _) as [|e [|n]|[|n]]; try done; [|by apply (H (take (S n) dr))..].
  specialize (H dr (is_prefix_refl dr)). destruct (mkdir_all_cases dr (w_fs (tick v)) []) as [[f Ef]|Ef]; rewrite Ef in *; done.
Qed.
Lemma prepare_any dr s o w r w' : fs_wf (w_fs w) → is_dir_at (w_fs w) [] = true → prepare dr s o w = (r, w') → prepares dr w w'.
Proof.
  intros W D H. assert (prepares dr w w) as Hw by (constructor; auto).
  assert (keeps (prepares dr w) (prepare dr s)) as K; [|by eapply keeps_run].
  pose proof (prepares_timeless dr w) as T. unfold prepare. destruct (ms_once s); [apply keeps_ret|].
  apply keeps_bind; [|intros; apply keeps_ret]. unfold do_prepare.
  apply keeps_bind.
  { apply keeps_attempt, keeps_bind; [by apply is_dir_keeps|]. intros [|]; [apply keeps_ret|apply prepares_all]. }
  intros [?|e]; [|apply keeps_ret]. apply keeps_bind; [apply keeps_attempt, prepares_ensure|].
  intros [?|e]; [|apply keeps_ret]. cbv zeta. apply keeps_bind; [apply keeps_attempt, prepares_ensure|].
  intros [?|e]; [|apply keeps_ret]. apply keeps_bind; [apply keeps_attempt, prepares_ensure|].
  intros [?|e]; apply keeps_ret.
Qed.
Lemma prepares_deep dr w w' q n k k' : prepares dr w w' → q = (dr ++ [n]) ++ k :: k' → fget (w_fs w') q = fget (w_fs w) q.
Proof.
  intros Hp E. destruct (pp_fs _ _ _ Hp q) as [Q|(_ & _ & Q)]; [done|]. exfalso. destruct Q as [[j Q]%is_prefix_spec|[m Q]]; apply (f_equal length) in Q.
  - rewrite E, !app_length in Q. cbn in Q. lia.
  - rewrite E, !app_length in Q. cbn in Q. lia.
Qed.
Lemma prepares_away dr w w' p : prepares dr w w' → outside dr p → (∀ k, fget (w_fs w') (p ++ k) = fget (w_fs w) (p ++ k)).
Proof.
  intros Hp [O1 O2] k. destruct (pp_fs _ _ _ Hp (p ++ k)) as [Q|(_ & _ & [Q|[n Q]])]; [done|..]; exfalso.
  - apply is_prefix_spec in Q as [j Q]. rewrite <-app_assoc in Q. assert (is_prefix p dr = true) by (rewrite Q; apply is_prefix_app). congruence.
  - destruct (decide (k = [])) as [->|Nk].
    + rewrite app_nil_r in Q. assert (is_prefix dr p = true) by (rewrite Q; apply is_prefix_app). congruence.
    + destruct (exists_last Nk) as (k' & m & ->). rewrite app_assoc in Q. apply app_inj_tail in Q as [Q _].
      assert (is_prefix p dr = true) by (rewrite <-Q; apply is_prefix_app). congruence.
Qed.
Lemma prepares_keeps dr w w' q x : prepares dr w w' → fget (w_fs w) q = Some x → fget (w_fs w') q = Some x.
Proof. intros Hp E. destruct (pp_fs _ _ _ Hp q) as [Q|(Q & _)]; congruence. Qed.
Lemma prepares_dir dr w w' q : prepares dr w w' → is_dir_at (w_fs w) q = true → is_dir_at (w_fs w') q = true.
Proof. intros Hp (b & D)%is_dir_at_Some. unfold is_dir_at. by rewrite (prepares_keeps _ _ _ _ _ Hp D). Qed.
Lemma prepares_founded dr w w' : prepares dr w w' → founded dr w → founded dr w'.
Proof.
  intros Hp [Mc A2 A3]. constructor.
  - eapply machine_frame; [exact Mc|apply Hp|..].
    + intros sid. eapply prepares_deep; [done|]. unfold tree_file, the_space, sp_dir, space_dir, spaces_root. rewrite <-(app_assoc (dr ++ _)). done.
    + intros mid. left. eapply prepares_deep; [done|]. unfold ws_file, mounts_root. done.
    + intros id. by apply (prepares_dir dr w).
    + intros id. by apply (prepares_dir dr w).
    + rewrite (pp_mounts _ _ _ Hp). auto.
  - intros m. rewrite (pp_mounts _ _ _ Hp). intros Hm Ha. eapply prepares_dir; [done|auto].
  - intros q Hq. destruct (pp_fs _ _ _ Hp q) as [Q|(_ & Q & _)]; [|right; unfold is_dir_at; by rewrite Q].
    unfold is_dir_at. rewrite Q. by apply A3.
Qed.

(** ** Everything else leaves the top level alone *)
Lemma step_top dr w w' : plain_path dr → good_path dr → machine dr (w_fs w) (w_mounts w) → step dr w w' →
  (∀ q, top_level dr q → fget (w_fs w') q = fget (w_fs w) q) ∧ (pointed dr w → pointed dr w').
Proof.
  intros P G Mc [c o w0 r [E1 E2] F Ho E|U|E1 E2].
  - rewrite <-E1, <-E2 in Mc. destruct (cmd_any _ _ _ _ _ _ P G F Mc Ho E) as [O _]. split.
    + intros q Hq. rewrite <-E1. by apply O.
    + intros H. apply O. unfold pointed. by rewrite E1, E2.
  - pose proof (user_vital _ _ _ Mc U) as Hv. split.
    + intros q Hq. pose proof Hq as [k Ek]%top_in. apply Hv; [rewrite Ek; apply is_prefix_app|].
      intros id. apply not_true_is_false. intros (j & _ & Q)%under_spec. unfold diff_dir, layer_dir, layers_root in Q. rewrite <-!(app_assoc (dr ++ _)) in Q. by apply top_ne in Q.
    + intros A2 m Hm Hp. pose proof U as (_ & Em & _). rewrite Em in Hm. pose proof (A2 m Hm Hp) as D. destruct (mc_mounts _ _ _ Mc m Hm Hp) as [[mid Ea] _]. rewrite Ea in *.
      unfold is_dir_at. rewrite Hv; [done| |intros; apply mount_not_diff]. destruct (merged_in dr mid) as [k ->]. apply is_prefix_app.
  - split; [intros q _; by rewrite E1|]. intros A2 m Hm Hp. rewrite E1. auto.
Qed.
Lemma base_top dr q : q ∈ base_dirs dr → top_level dr q.
Proof. intros [->|Hq]%elem_of_cons; [by left|]. right. repeat (apply elem_of_cons in Hq as [->|Hq]; [by eexists|]). by apply elem_of_nil in Hq. Qed.
Lemma happens_founded dr w w' : plain_path dr → good_path dr → founded dr w → happens dr w w' → founded dr w'.
Proof.
  intros P G Fo [o w0 r [E1 E2] D E|H].
  - assert (founded dr w0) as Fo0 by (destruct Fo as [A1 A2 A3]; constructor; rewrite ?E1, ?E2; done).
    eapply prepares_founded; [|exact Fo0]. eapply prepare_any; [apply Fo0|done|exact E].
  - destruct Fo as [A1 A2 A3]. destruct (step_top _ _ _ P G A1 H) as [H1 H2]. constructor.
    + by eapply step_orderly.
    + by apply H2.
    + intros q Hq. unfold is_dir_at. rewrite H1 by (by apply base_top). by apply A3.
Qed.
Lemma order_founded dr w : in_order dr w ↔ founded dr w ∧ ∀ q, q ∈ base_dirs dr → is_dir_at (w_fs w) q = true.
Proof.
  split.
  - intros [A1 A2 A3 A4 A5]. assert (∀ q, q ∈ base_dirs dr → is_dir_at (w_fs w) q = true) as H.
    { intros q Hq. apply elem_of_cons in Hq as [->|Hq].
      - unfold layers_root in A3. apply is_dir_at_Some in A3 as [b A3]. by apply (mc_wf _ _ _ A1) in A3.
      - repeat (apply elem_of_cons in Hq as [->|Hq]; [done|]). by apply elem_of_nil in Hq. }
    split; [constructor; auto|done].
  - intros [[A1 A2 _] H]. constructor; try done; apply H; unfold base_dirs; rewrite !elem_of_cons; auto.
Qed.
Lemma happens_order dr w w' : plain_path dr → good_path dr → in_order dr w → happens dr w w' → in_order dr w'.
Proof.
  intros P G [Fo Hd]%order_founded H. apply order_founded. split; [by eapply happens_founded|]. intros q Hq.
  destruct H as [o w0 r [E1 E2] D E|H].
  - eapply (prepares_dir dr w0); [|rewrite E1; auto]. eapply prepare_any; [rewrite E1; apply Fo|done|exact E].
  - destruct (step_top _ _ _ P G (fo_machine _ _ Fo) H) as [H1 _]. unfold is_dir_at. rewrite H1 by (by apply base_top). by apply Hd.
Qed.

(** ** Without faults Prepare succeeds *)
Lemma ensure_mk_fine p o w : no_faults o → fget (w_fs w) p = None ∨ is_dir_at (w_fs w) p = true → is_dir_at (w_fs w) (parent_dir p) = true →
  ∃ w', ensure_dir_mk p o w = (Ok tt, w') ∧ w_tick w ≤ w_tick w' ≤ 2 + w_tick w ∧ is_dir_at (w_fs w') p = true.
Proof.
  intros F [N|D] Dp; unfold ensure_dir_mk, bind.
  - rewrite is_dir_absent by done. rewrite mkdir_fine by done. eexists. split; [done|]. cbn [w_tick set_fs tick w_fs]. split; [lia|]. unfold is_dir_at. by rewrite fget_fset_eq.
  - rewrite is_dir_fine by done. eexists. split; [done|]. cbn [w_tick tick]. split; [lia|done].
Qed.
Lemma mkdir_all_fine todo : ∀ fs dn, (∀ k, is_prefix k todo = true → k ≠ [] → fget fs (dn ++ k) = None ∨ is_dir_at fs (dn ++ k) = true) → ∃ fs', mkdir_all_in fs dn todo = Ok fs'.
Proof.
  induction todo as [|n todo IH]; intros fs dn H; cbn [mkdir_all_in]; [eauto|]. cbv zeta.
  assert (∀ k, is_prefix k todo = true → k ≠ [] → fget fs ((dn ++ [n]) ++ k) = None ∨ is_dir_at fs ((dn ++ [n]) ++ k) = true) as Hk.
  { intros k Hk _. rewrite <-app_assoc. apply H; [|done]. apply is_prefix_spec in Hk as [j ->]. apply is_prefix_spec. by exists j. }
  destruct (H [n]) as [E|D]; [apply is_prefix_spec; by exists todo|done| |].
  - rewrite E. apply IH. intros k Hp Nk. unfold is_dir_at. rewrite fget_fset_ne; [by apply Hk|]. intros Q. apply (f_equal length) in Q. rewrite !app_length in Q. destruct k; [done|]. cbn in Q. lia.
  - apply is_dir_at_Some in D as [b D]. rewrite D. by apply IH.
Qed.
Lemma mkdir_all_dir todo : ∀ fs dn fs', mkdir_all_in fs dn todo = Ok fs' → is_dir_at fs dn = true → is_dir_at fs' (dn ++ todo) = true.
Proof.
  induction todo as [|n todo IH]; intros fs dn fs' Ef Dn; cbn [mkdir_all_in] in Ef.
  - injection Ef as <-. by rewrite app_nil_r.
  - cbv zeta in Ef. replace (dn ++ n :: todo) with ((dn ++ [n]) ++ todo) by (by rewrite <-app_assoc). destruct (fget fs (dn ++ [n])) as [[]|] eqn:E; try done.
    + eapply IH; [exact Ef|]. unfold is_dir_at. by rewrite E.
    + eapply IH; [exact Ef|]. unfold is_dir_at. by rewrite fget_fset_eq.
Qed.
Lemma bind_run {A C} (m : M A) (f : A → M C) o w a w1 : m o w = (Ok a, w1) → bind m f o w = f a o w1.
Proof. intros E. unfold bind. by rewrite E. Qed.
Lemma prepare_fine dr o w : no_faults o → founded dr w → reachable dr w →
  ∃ s w', prepare dr (MState false None) o w = (Ok (s, None), w') ∧ w_tick w ≤ w_tick w' ≤ 8 + w_tick w.
Proof.
  intros F Fo [Dr An]. pose proof (mc_wf _ _ _ (fo_machine _ _ Fo)) as W.
  assert (∃ w1, attempt (d <- fs_is_dir dr;; if d : bool then ret tt else os_mkdir_all dr) o w = (Ok (inl tt), w1) ∧ w_tick w ≤ w_tick w1 ≤ 2 + w_tick w ∧ is_dir_at (w_fs w1) dr = true ∧ prepares dr w w1) as (w1 & E1 & K1 & D1 & P1).
  { assert (prepares dr w w) as Hw by (constructor; auto). pose proof (prepares_timeless dr w _ Hw) as Ht.
    unfold attempt, bind. destruct (An dr (is_prefix_refl dr)) as [N|D].
    - rewrite is_dir_absent by done. destruct (mkdir_all_fine dr (w_fs w) []) as [fs' Ef]; [intros k Hk _; by apply An|].
      unfold os_mkdir_all, sys. rewrite F. cbn [w_fs tick]. rewrite Ef. eexists. split; [done|]. cbn [w_tick w_fs set_fs tick]. split; [lia|].
      assert (prepares dr w (set_fs (tick (tick w)) fs')) as Hq.
      { eapply (mkdir_all_prepares dr w dr (w_fs w) []); [|apply is_prefix_refl|done|done]. apply (prepares_timeless dr w), (prepares_timeless dr w) in Hw. by destruct w. }
      split; [|done]. exact (mkdir_all_dir dr (w_fs w) [] fs' Ef Dr).
    - rewrite is_dir_fine by done. eexists. split; [done|]. cbn [w_tick w_fs tick]. split; [lia|]. split; [done|done]. }
  assert (∀ n v, prepares dr w v → is_dir_at (w_fs v) dr = true → dr ++ [n] ∈ base_dirs dr →
    ∃ v', attempt (ensure_dir_mk (dr ++ [n])) o v = (Ok (inl tt), v') ∧ w_tick v ≤ w_tick v' ≤ 2 + w_tick v ∧ is_dir_at (w_fs v') dr = true ∧ prepares dr w v') as St.
  { intros n v Pv Dv Hn. destruct (ensure_mk_fine (dr ++ [n]) o v F) as (v' & E & K & D); [|by rewrite parent_dir_app|].
    { apply (fo_base _ _ (prepares_founded _ _ _ Pv Fo)). done. }
    exists v'. unfold attempt. rewrite E. split; [done|]. split; [done|].
    pose proof (keeps_run _ _ _ _ _ _ (prepares_ensure dr w n) Pv E) as Pv'. split; [|done].
    apply is_dir_at_Some in D as [b D]. by apply (pp_wf _ _ _ Pv') in D. }
  destruct (St (B "overlay") w1 P1 D1) as (w2 & E2 & K2 & D2 & P2); [right; left|].
  destruct (St (B "spaces") w2 P2 D2) as (w3 & E3 & K3 & D3 & P3); [right; right; left|].
  destruct (St (B "mounts") w3 P3 D3) as (w4 & E4 & K4 & D4 & P4); [right; right; right; left|].
  assert (do_prepare dr (MState false None) o w = (Ok (MState false (Some (layers_root dr)), None), w4)) as Ed.
  { unfold do_prepare. erewrite bind_run; [|exact E1]. cbv beta iota. erewrite bind_run; [|exact E2]. cbv beta iota zeta.
    erewrite bind_run; [|exact E3]. cbv beta iota. erewrite bind_run; [|exact E4]. reflexivity. }
  eexists _, w4. split; [|lia]. unfold prepare. cbn [ms_once]. rewrite (bind_run _ _ _ _ _ _ Ed). reflexivity.
Qed.
