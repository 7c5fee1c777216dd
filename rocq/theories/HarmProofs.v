(** * HarmProofs: a command that fails or is killed harms at most its own workspace *)
From Verif Require Import Base Uid SpecUid UidProofs Tree SpecTree TreeRefine TreeObs Dump DumpProofs Json JsonProofs Save SaveProofs Branch BranchProofs Date Ws SpecWs WsProofs
  Fs Overlay Os Layers Mounts Space Manager Commands FsProofs OsProofs LayerProofs MountProofs SpaceProofs ManagerProofs SpecWorld SpecOps SavedProofs FaultProofs ReadyProofs OpProofs CalmProofs
  SpecMachine SpecCmds SpecLog MachineProofs OpenProofs CmdProofs ExpandProofs DetProofs SpecTidy TidyProofs LongerProofs Story StoryProofs SpecUsable UsableProofs UsableCmdProofs UsableInitProofs UsableSeqProofs SpecNames NamesProofs
  SpecOrder OrderProofs SpecRefused RefusedProofs UserProofs SpecVcs VcsProofs SpecHarm PropsRound PropsOrder.
From Coq Require Import Lia.
From stdpp Require Import prelude gmap.

(** ** Mounts that stay *)
(** Those mounts in [S] that exist are left alone: their directory, their record and what is mounted there. *)
Definition kept_mounts (dr : path) (w w' : world) (S : uid → Prop) : Prop :=
  ∀ i, S i → is_dir_at (w_fs w) (merged_dir dr i) = true →
    is_dir_at (w_fs w') (merged_dir dr i) = true ∧ (∀ y, fget (w_fs w) (ws_file dr i) = Some y → fget (w_fs w') (ws_file dr i) = Some y) ∧
    mounts_below (w_mounts w') (mount_dir dr i) = mounts_below (w_mounts w) (mount_dir dr i).
Notation any_mount := (λ _ : uid, True).
Lemma kept_refl dr w w' S : w_fs w' = w_fs w → w_mounts w' = w_mounts w → kept_mounts dr w w' S.
Proof. intros E1 E2 i _ D. by rewrite E1, E2. Qed.
Lemma kept_trans dr w w1 w2 (S : uid → Prop) : kept_mounts dr w w1 S → kept_mounts dr w1 w2 S → kept_mounts dr w w2 S.
Proof. intros A C i Hi D. destruct (A i Hi D) as (D1 & Y1 & M1), (C i Hi D1) as (D2 & Y2 & M2). split; [done|]. split; [auto|congruence]. Qed.
Lemma kept_less dr w w' (S S' : uid → Prop) : kept_mounts dr w w' S → (∀ i, S' i → S i) → kept_mounts dr w w' S'.
Proof. intros A H i Hi. by apply A, H. Qed.
Lemma touches_kept dr sp w w' : space_ok dr sp → fs_wf (w_fs w) → touches dr sp w w' → kept_mounts dr w w' any_mount.
Proof.
  intros S W T i _ D. split; [|split; [|by rewrite (to_mounts _ _ _ _ T)]].
  - apply is_dir_at_Some in D as [b D]. unfold is_dir_at. rewrite (to_old _ _ _ _ T _ _ D); [done|]. by apply merged_not_own.
  - intros y E. apply (to_old _ _ _ _ T); [done|]. intros [Q|(j & Q & N)].
    + destruct (tree_file_ne dr sp S) as (_ & Ne & _). by apply (Ne i).
    + apply wsfile_inj in Q as <-. apply dir_mount in D; [|done]. unfold is_dir_at in D. by rewrite N in D.
Qed.
Lemma expand_kept dr w w1 y id o r w' : plain_path dr → good_path dr → fs_wf (w_fs w1) → new_stack dr w w1 y id → outside dr (ws_path y) →
  expand y o w1 = (r, w') → kept_mounts dr w1 w' any_mount.
Proof.
  intros P G W (mid & ch & NC & Em & N & Nm & D) Ho E i _ Di.
  assert (i ≠ mid) as Ni by (intros ->; unfold is_dir_at in Di; by rewrite Nm in Di).
  destruct (expand_inv dr y mid id ch o w1 r w' P G NC Em Ho W Nm D E) as [A1 A2 _ _ _ A6 _ _]. split; [|split].
  - unfold is_dir_at in *. rewrite A2; [done|intros Q; apply app_inj_tail in Q as [Q _]; by apply ManagerProofs.mount_dir_inj in Q|intros Q; by apply app_inj_tail in Q as [_ Q]|].
    unfold mount_dir, mounts_root. rewrite <-!app_assoc. exact (λ Q, outside_ne _ _ _ Ho (eq_sym Q)).
  - intros z Ez. rewrite A2; [done|..].
    + unfold mount_dir, ws_file. rewrite <-app_assoc. intros Q. apply app_inv_head in Q. by injection Q.
    + unfold mount_dir, ws_file. rewrite <-app_assoc. intros Q. apply app_inv_head in Q. by injection Q.
    + unfold ws_file, mounts_root. rewrite <-!app_assoc. exact (λ Q, outside_ne _ _ _ Ho (eq_sym Q)).
  - destruct A6 as [->|(m & -> & Ha & _)]; [done|]. unfold mounts_below. rewrite filter_cons, decide_False; [done|]. rewrite Ha, merged_other by done. done.
Qed.
Lemma wsfile_not_below dr i mid : is_prefix (mount_dir dr mid) (ws_file dr i) = false.
Proof.
  apply not_true_is_false. intros [k Q]%is_prefix_spec. unfold mount_dir, ws_file in Q. rewrite <-app_assoc in Q. apply app_inv_head in Q. cbn [app] in Q. injection Q as Q _.
  apply (f_equal length) in Q. rewrite app_length, !uid_b32_length in Q. cbn in Q. lia.
Qed.
Lemma remove_below dr mid q w ms : machine dr (w_fs w) (w_mounts w) → (∀ m, m ∈ ms → m ∈ w_mounts w) → MachineProofs.in_layer_below ms (mount_dir dr mid) q →
  ∃ m i, m ∈ ms ∧ is_prefix (mount_dir dr mid) (mn_at m) = true ∧ mn_upper m = Some (diff_dir (layers_root dr) i) ∧ under (diff_dir (layers_root dr) i) q = true.
Proof.
  intros Mc Hs (m & u & Hm & Hp & Hu & Q). destruct (mc_mounts _ _ _ Mc m (Hs m Hm)) as [_ Ow]; [eapply is_prefix_trans; [|exact Hp]; apply is_prefix_app|].
  destruct (Ow u Hu) as (i & -> & _). by exists m, i.
Qed.
Lemma remove_kept dr x mid o w r w' : machine dr (w_fs w) (w_mounts w) → ws_mount x = mounted_mount mid (mount_dir dr mid) → is_dir_at (w_fs w) (merged_dir dr mid) = true →
  remove_mount dr x o w = (r, w') → kept_mounts dr w w' (λ i, i ≠ mid) ∧
  ∀ j, (∀ m, m ∈ mounts_below (w_mounts w) (mount_dir dr mid) → mn_upper m ≠ Some (diff_dir (layers_root dr) j)) → same_layer dr (w_fs w) (w_fs w') j.
Proof.
  intros Mc Ex Dm H. destruct (remove_mount_cases _ _ _ _ _ _ _ Mc Ex H) as (Hm & Hs & _).
  assert (∀ m, m ∈ w_mounts w' → m ∈ w_mounts w) as Hsub.
  { destruct Hm as [->|(z & _ & ->)]; [done|]. intros m. apply drop_mount_elem. }
  split.
  - intros i Ni D. split; [|split].
    + unfold is_dir_at in *. rewrite Hs; [done|by apply merged_other, not_eq_sym|..].
      * unfold mount_dir, ws_file. rewrite <-app_assoc. intros Q. apply app_inv_head in Q. by injection Q.
      * intros (m & j & _ & _ & _ & Q)%(remove_below dr mid _ w); [|done..]. by rewrite mount_not_diff in Q.
    + intros y E. rewrite Hs; [done|apply wsfile_not_below|intros Q; by apply wsfile_inj in Q|].
      intros (m & j & _ & _ & _ & Q)%(remove_below dr mid _ w); [|done..]. unfold under in Q. apply andb_true_iff in Q as [Q _]. by apply (in_layer_wsfile dr j _ i) in Q.
    + destruct Hm as [->|(q & Eq & ->)]; [done|]. rewrite (real_dir _ _ Dm) in Eq. injection Eq as <-. apply below_other. by apply merged_other.
  - intros j Nj q Hq. apply Hs; [by eapply in_layer_mount|by eapply in_layer_wsfile|].
    intros (m & i & Hi & Hp & Hu & Q)%(remove_below dr mid _ w); [|done..]. unfold under in Q. apply andb_true_iff in Q as [Q _].
    rewrite (in_layer_same dr j i q Hq Q) in Nj. apply (Nj m); [|done]. apply elem_of_list_filter. split; [done|]. by apply Hsub.
Qed.

(** ** Operations *)
(** Everything that is there outside the data root stays. *)
Definition stays (dr : path) (w w' : world) : Prop := ∀ q, is_prefix dr q = false → fget (w_fs w') q = fget (w_fs w) q.
(** What an operation without a mount does *)
Definition mild (dr : path) (w w' : world) : Prop := kept_mounts dr w w' any_mount ∧ untouched dr w w' ∧ stays dr w w'.
Lemma mild_refl dr w w' : w_fs w' = w_fs w → w_mounts w' = w_mounts w → mild dr w w'.
Proof. intros E1 E2. split; [by apply kept_refl|]. split; [by apply untouched_refl|]. intros q _. by rewrite E1. Qed.
Lemma mild_trans dr w w1 w2 : mild dr w w1 → mild dr w1 w2 → mild dr w w2.
Proof. intros (A1 & A2 & A3) (C1 & C2 & C3). split; [by eapply kept_trans|]. split; [by eapply untouched_trans|]. intros q Hq. by rewrite C3, A3. Qed.
Lemma touches_stays dr sp w w' : space_ok dr sp → touches dr sp w w' → stays dr w w'.
Proof.
  intros S T q Hq. pose proof (touches_away dr sp w w' dr S T q Hq) as A. apply A. intros ->. by rewrite is_prefix_refl in Hq.
Qed.
Lemma op_mild dr x op o w r w' a hid : fair o → machine dr (w_fs w) (w_mounts w) → live dr w x a hid → run_op dr x op o w = (r, w') → mild dr w w'.
Proof.
  intros F Mc Lv H. destruct (op_body _ _ _ _ _ _ _ _ _ F Mc Lv H) as ([_ U] & _). apply (run_op_any _ _ _ _ _ _ _ a hid) in H as [T _]; [|done..].
  split; [eapply touches_kept; [apply Lv|apply Mc|exact T]|]. split; [done|]. eapply touches_stays; [apply Lv|exact T].
Qed.
(** What a command with a new mount may do after its operation [op] *)
Definition late (dr : path) (x : ws) (hid : uid) (op : wsop) (a : atree) (w w' : world) : Prop :=
  ∃ a', op_tree x hid op a a' ∧ holds (w_fs w') (ws_space x) (san_tree a') ∧
    (∀ s, s ≠ sp_id (ws_space x) → fget (w_fs w') (tree_at dr s) = fget (w_fs w) (tree_at dr s)) ∧
    (is_dir_at (w_fs w) (merged_dir dr (mv_id (ws_mount x))) = true →
     kept_mounts dr w w' (λ i, (∃ p, op = OClone p) ∨ i ≠ mv_id (ws_mount x)) ∧
     ∀ j, is_dir_at (w_fs w) (diff_dir (layers_root dr) j) = true →
       (∀ m, (¬ ∃ p, op = OClone p) → m ∈ mounts_below (w_mounts w) (mount_dir dr (mv_id (ws_mount x))) → mn_upper m ≠ Some (diff_dir (layers_root dr) j)) →
       same_layer dr (w_fs w) (w_fs w') j).
Lemma mount_late dr x op o w r w' a hid (k : ws → M unit) : plain_path dr → good_path dr → fair o → machine dr (w_fs w) (w_mounts w) → live dr w x a hid →
  (∃ d m, op = OCommit d m) ∨ (∃ k, op = OCheckout k) ∨ (∃ p, op = OClone p) →
  outside dr (match op with OClone p => p | _ => ws_path x end) → ws_mount x = mounted_mount (mv_id (ws_mount x)) (mount_dir dr (mv_id (ws_mount x))) →
  (¬ ∃ p, op = OClone p) ∧ k = (λ _, remove_mount dr x) ∨ k = (λ _, ret tt) →
  (y <- run_op dr x op ;; expand y ;;; k y) o w = (r, w') → mild dr w w' ∨ late dr x hid op a w w'.
Proof.
  intros P G F Mc Lv Hop Ho Ex Hk H. pose proof (rd_space _ _ _ _ _ Lv) as S. pose proof (the_space_ok _ _ S) as Es.
  apply bind_any in H as [(y & w1 & E & H)|(r1 & E & Fr1 & Fr)]; [|left; by eapply op_mild]. right.
  destruct (op_mild _ _ _ _ _ _ _ _ _ F Mc Lv E) as (K1 & U1 & _). destruct (op_body _ _ _ _ _ _ _ _ _ F Mc Lv E) as ([O U] & _ & T).
  apply (op_mount _ _ _ _ _ _ _ a hid) in E as (id & a' & Ns & Ep & Ha & Rd & Esp); [|done..]. rewrite <-Ep in Ho.
  assert (∀ r2 w2, expand y o w1 = (r2, w2) → orderly dr w w2 ∧ untouched dr w w2 ∧ kept_mounts dr w w2 any_mount ∧ (∀ sid, fget (w_fs w2) (tree_at dr sid) = fget (w_fs w1) (tree_at dr sid))) as Hx.
  { intros r2 w2 E. destruct (expand_after _ _ _ _ _ _ _ _ P G Mc O U Ns Ho E) as (O2 & U2 & T2). split; [done|]. split; [done|]. split; [|done].
    eapply kept_trans; [exact K1|]. eapply expand_kept; [done|done| |exact Ns|done|exact E]. apply O. }
  assert (∀ w2, (∀ sid, fget (w_fs w2) (tree_at dr sid) = fget (w_fs w1) (tree_at dr sid)) → holds (w_fs w2) (ws_space x) (san_tree a') ∧
    ∀ s, s ≠ sp_id (ws_space x) → fget (w_fs w2) (tree_at dr s) = fget (w_fs w) (tree_at dr s)) as Ht.
  { intros w2 T2. split; [|intros s Ns'; by rewrite T2, T]. pose proof (rd_disk _ _ _ _ _ (rd_live _ _ _ _ _ Rd)) as Hd. rewrite Esp in Hd. unfold holds in *. rewrite Es in *. by rewrite T2. }
  exists a'. split; [done|].
  apply bind_any in H as [([] & w2 & E & H)|(r1 & E & Fr1 & Fr)]; destruct (Hx _ _ E) as (O2 & U2 & K2 & T2).
  - destruct Hk as [[Nc ->]| ->].
    + destruct (remove_orderly _ _ _ _ _ _ _ (or_machine _ _ _ O2) Ex H) as [_ T3]. destruct (Ht w') as [H1 H2]; [intros sid; by rewrite T3|]. split; [done|]. split; [done|].
      intros Dm. destruct (K2 _ I Dm) as (Dm2 & _ & Em2). destruct (remove_kept _ _ _ _ _ _ _ (or_machine _ _ _ O2) Ex Dm2 H) as [K3 L3].
      split; [eapply kept_trans; [by eapply kept_less|]; eapply kept_less; [exact K3|]; by intros i [?|?]|].
      intros j Dj Nj q Hq. assert (same_layer dr (w_fs w2) (w_fs w') j) as L by (apply L3; intros m Hm; rewrite Em2 in Hm; exact (Nj m Nc Hm)). rewrite (L q Hq). exact (U2 j Dj q Hq).
    + injection H as _ <-. destruct (Ht w2 T2) as [H1 H2]. split; [done|]. split; [done|]. intros Dm. split; [by eapply kept_less|]. intros j Dj _. by apply U2.
  - destruct (Ht w' T2) as [H1 H2]. split; [done|]. split; [done|]. intros Dm. split; [by eapply kept_less|]. intros j Dj _. by apply U2.
Qed.
(** Deletions, one after the other *)
Lemma del_loop_mild dr x hid o (f : bytes → wsop) (d : bytes → M unit) : fair o →
  (∀ n, (∃ n' g, f n = ODelBranch n' g) ∨ (∃ n', f n = ODelTag n')) → (∀ n, run_op dr x (f n) = (d n ;;; ret x)) →
  ∀ args a w r w', machine dr (w_fs w) (w_mounts w) → live dr w x a hid → for_each args d o w = (r, w') → mild dr w w'.
Proof.
  intros F Hf Hd args. induction args as [|n args IH]; intros a w r w' Mc Lv H; cbn [for_each] in H.
  { injection H as <- <-. by apply mild_refl. }
  apply bind_any in H as [([] & w1 & E & H)|(r1 & E & Fr1 & Fr)].
  - assert (run_op dr x (f n) o w = (Ok x, w1)) as Er by (rewrite Hd; unfold bind; by rewrite E).
    destruct (op_body _ _ _ _ _ _ _ _ _ F Mc Lv Er) as ([O _] & _). eapply mild_trans; [by eapply op_mild|].
    apply (run_del_live _ _ _ _ _ _ _ a hid) in Er as (a1 & Ha & Lv1 & _); [|destruct (Hf n) as [?|?]; eauto|done..]. eapply IH; [apply O|exact Lv1|exact H].
  - assert (∃ r2, run_op dr x (f n) o w = (r2, w')) as (r2 & Er).
    { rewrite Hd. unfold bind. rewrite E. destruct r1; eexists; reflexivity. }
    by eapply op_mild.
Qed.
Lemma op_then_mild dr x op o w a hid (m : M unit) r w' : fair o → machine dr (w_fs w) (w_mounts w) → live dr w x a hid → run_op dr x op = (m ;;; ret x) → m o w = (r, w') → mild dr w w'.
Proof.
  intros F Mc Lv Eq E. destruct (run_op dr x op o w) as [r1 w1] eqn:Er. pose proof Er as Er'. rewrite Eq in Er'. unfold bind in Er'. rewrite E in Er'.
  assert (w1 = w') as -> by (destruct r; by injection Er'). by eapply op_mild.
Qed.
(** ** Commands *)
Definition clones (c : command) : Prop := match c with CClone _ _ => True | _ => False end.
Definition lost_late (dr : path) (o : oracle) (c : command) (w w' : world) : Prop :=
  makes_mount c ∧ ∃ x hid op a, found_at dr w (cmd_source c) x hid ∧ space_ok dr (ws_space x) ∧ holds (w_fs w) (ws_space x) a ∧ cmd_does o c [op] ∧
    ((∃ p, op = OClone p) ↔ clones c) ∧ late dr x hid op a w w'.
Lemma opened_harm dr c (body : ws → M unit) o w r w' : good_path dr → fair o → machine dr (w_fs w) (w_mounts w) →
  (∀ x w1 a hid, found_at dr w (cmd_source c) x hid → w_fs w1 = w_fs w → w_mounts w1 = w_mounts w → live dr w1 x a hid → body x o w1 = (r, w') → mild dr w1 w' ∨
     makes_mount c ∧ ∃ op, cmd_does o c [op] ∧ ((∃ p, op = OClone p) ↔ clones c) ∧ late dr x hid op a w1 w') →
  (x <- get_workspace dr (cmd_source c) ;; body x) o w = (r, w') → mild dr w w' ∨ lost_late dr o c w w'.
Proof.
  intros G F Mc Hb H. apply bind_any in H as [(x & w1 & E & H)|(r1 & E & Fr1 & Fr)].
  - destruct (get_workspace_any _ _ _ _ _ _ G F Mc E) as (a & hid & Lv & Fa). apply reader_get_workspace in E as (t & k & ->).
    destruct (Hb x (upd w (w_fs w) (w_mounts w) t k) (san_tree a) hid Fa eq_refl eq_refl Lv H) as [Hd0|(Hm & op & Hc & Hi & Hl)]; [left; exact Hd0|]. right. split; [done|]. exists x, hid, op, (san_tree a).
    split; [done|]. split; [apply Lv|]. split; [|done]. pose proof (rd_disk _ _ _ _ _ Lv) as Hd. rewrite san_idemp in Hd. exact Hd.
  - apply reader_get_workspace in E as (t & k & ->). left. by apply mild_refl.
Qed.
Lemma cmd_harm dr c o w r w' : plain_path dr → good_path dr → fair o → machine dr (w_fs w) (w_mounts w) →
  (writes_path c → outside dr (abs_of w (cmd_target c))) → run_cmd dr c o w = (r, w') →
  match c with CInit _ _ => kept_mounts dr w w' any_mount ∧ untouched dr w w' | _ => mild dr w w' ∨ lost_late dr o c w w' end.
Proof.
  intros P G F Mc Ho H. destruct c as [args branch|source target|msg|key|opts args|opts args|args]; cbn [run_cmd] in H; cbn [cmd_target writes_path] in *.
  - specialize (Ho I). unfold cmd_init in H.
    assert (∀ w', w_fs w' = w_fs w → w_mounts w' = w_mounts w → kept_mounts dr w w' any_mount ∧ untouched dr w w') as Fl by (intros; split; [by apply kept_refl|by apply untouched_refl]).
    apply bind_any in H as [(p & w1 & E & H)|(r1 & E & Fr1 & Fr)]; [|apply quiet_abs in E as (k & ->); by apply Fl].
    pose proof (abs_ok _ _ _ _ _ E) as Ep. apply quiet_abs in E as (k1 & ->).
    apply bind_any in H as [(b & w1 & E & H)|(r1 & E & Fr1 & Fr)]; [|apply quiet_is_exists in E as (k & ->); by apply Fl].
    apply quiet_is_exists in E as (k2 & ->). rewrite upd_upd in H.
    assert (quiet (if b : bool then d <- fs_is_empty_dir p;; ret (negb d) else ret false)) as Q by (quiet; apply quiet_is_empty_dir).
    apply bind_any in H as [(b' & w1 & E & H)|(r1 & E & Fr1 & Fr)]; [|apply Q in E as (k & ->); by apply Fl].
    apply Q in E as (k3 & ->). rewrite upd_upd in H. cbn [w_fs w_mounts w_tree upd] in H. clear Q Fl.
    destruct b'; [injection H as <- <-; split; [by apply kept_refl|by apply untouched_refl]|].
    set (w0 := upd w (w_fs w) (w_mounts w) (w_tree w) k3) in *. rewrite <-Ep in *. change (kept_mounts dr w0 w' any_mount ∧ untouched dr w0 w').
    set (sid := ch_uid (o (w_tick w0))).
    assert (∀ r w1, create_workspace dr p branch o w0 = (r, w1) → kept_mounts dr w0 w1 any_mount ∧ untouched dr w0 w1 ∧ orderly dr w0 w1 ∧ touches dr (the_space dr sid) w0 w1) as Cr.
    { intros r1 w1 E. pose proof (create_workspace_any _ _ _ _ _ _ _ F (mc_wf _ _ _ Mc : fs_wf (w_fs w0)) E) as Od. cbv zeta in Od. fold sid in Od.
      destruct (op_orderly dr (the_space dr sid) w0 w1 _ _ _ Mc eq_refl Od) as (O & U & _). destruct Od as [T _]. split; [eapply touches_kept; [|apply Mc|exact T]; done|done]. }
    apply bind_any in H as [(x & w1 & E & H)|(r1 & E & Fr1 & Fr)]; [|by destruct (Cr _ _ E) as (? & ? & _)].
    destruct (Cr _ _ E) as (K1 & U1 & O1 & To).
    apply (create_ready _ _ _ _ _ _ _ F (mc_wf _ _ _ Mc : fs_wf (w_fs w0))) in E as (rid' & id' & _ & Rd & _ & Hp & Em & N1 & N2 & _).
    assert (new_stack dr w0 w1 x id') as Ns.
    { eexists _, [rid']. split; [done|]. split; [exact Em|]. split; [done|]. split; [|exact (live_diff _ _ _ _ _ (rd_live _ _ _ _ _ Rd))].
      eapply (touches_merged dr _ w0); [|apply Mc|exact To|exact N1]. done. }
    rewrite <-Hp in Ho. destruct (expand_after _ _ _ _ _ _ _ _ P G (Mc : machine dr (w_fs w0) (w_mounts w0)) O1 U1 Ns Ho H) as (_ & U2 & _). split; [|done].
    eapply kept_trans; [exact K1|]. eapply expand_kept; [done|done| |exact Ns|exact Ho|exact H]. apply O1.
  - specialize (Ho I). unfold cmd_clone in H. apply bind_any in H as [(p & w1 & E & H)|(r1 & E & Fr1 & Fr)].
    2: { apply quiet_abs in E as (k & ->). left. by apply mild_refl. }
    pose proof (abs_ok _ _ _ _ _ E) as Ep. apply quiet_abs in E as (k & ->). rewrite <-Ep in *.
    set (w0 := upd w (w_fs w) (w_mounts w) (w_tree w) k) in *. 
    assert (mild dr w0 w' ∨ lost_late dr o (CClone source target) w0 w') as [Q|(Hm & x & hid & op & a & Fa & Q)]; [|left; exact Q|right; split; [done|]; exists x, hid, op, a; split; [|exact Q]; eapply found_at_same; [| |exact Fa]; done].
    eapply (opened_harm dr (CClone source target)); [done|done| | |exact H]; [done|]. intros x w1 a hid Fa E1 E2 Lv Hb. cbv beta in Hb.
    destruct (mount_late dr x (OClone p) o w1 r w' a hid (λ _, ret tt)) as [Q|Q]; try done; [by rewrite E1, E2|by eauto|apply Fa|by right| |by left|].
    + cbn [run_op]. unfold bind in *. destruct (clone_ws dr x p o w1) as [[y| | | |] w2]; try done. destruct (expand y o w2) as [[[]| | | |] w3]; done.
    + right. split; [done|]. exists (OClone p). split; [by exists p|]. split; [|done]. split; [done|by exists p].
  - specialize (Ho I). unfold cmd_commit in H. eapply (opened_harm dr (CCommit msg)); [done|done|done| |exact H]. intros x w1 a hid Fa E1 E2 Lv Hb. cbv beta in Hb. rewrite bind_next in Hb.
    assert (live dr (tick w1) x a hid) as Lv1 by (destruct Lv as [A1 A2 A3 A4 A5]; by constructor).
    pose proof (mount_late dr x (OCommit (Some (fmt_rfc3339 (ch_time (o (w_tick w1))))) msg) o (tick w1) r w' a hid (λ _, remove_mount dr x)) as Q.
    destruct Q as [Q|Q]; try done; [cbn [w_fs w_mounts tick]; by rewrite E1, E2|by eauto|rewrite (fa_path _ _ _ _ _ Fa); exact Ho|apply Fa|left; split; [by intros [? ?]|done]|by left|].
    right. split; [done|]. eexists. split; [by eexists|]. split; [|exact Q]. split; [by intros [? ?]|done].
  - specialize (Ho I). unfold cmd_checkout in H. eapply (opened_harm dr (CCheckout key)); [done|done|done| |exact H]. intros x w1 a hid Fa E1 E2 Lv Hb. cbv beta in Hb.
    destruct (mount_late dr x (OCheckout key) o w1 r w' a hid (λ _, remove_mount dr x)) as [Q|Q]; try done; [by rewrite E1, E2|by eauto|rewrite (fa_path _ _ _ _ _ Fa); exact Ho|apply Fa|left; split; [by intros [? ?]|done]|by left|].
    right. split; [done|]. eexists. split; [done|]. split; [|exact Q]. split; [by intros [? ?]|done].
  - unfold cmd_branch in H. eapply (opened_harm dr (CBranch opts args)); [done|done|done| |exact H]. intros x w1 a hid _ E1 E2 Lv Hb. cbv beta in Hb. clear H. left.
    assert (machine dr (w_fs w1) (w_mounts w1)) as Mc1 by (by rewrite E1, E2).
    assert (printer (list_branches x opts)) as Pl.
    { apply printer_bind; [apply quiet_printer, quiet_next|]. intros ord. apply printer_bind; [apply quiet_printer, quiet_gets|]. intros t. apply printer_print_all. }
    destruct (bo_list opts); [apply Pl in Hb as [? ?]; by apply mild_refl|].
    destruct (bo_current opts); [apply printer_println in Hb as [? ?]; by apply mild_refl|].
    destruct (bo_delete opts).
    { eapply (del_loop_mild dr x hid o (λ n, ODelBranch n (bo_remotes opts))); [done|by eauto| |done|exact Lv|exact Hb]. done. }
    destruct args as [|n rest]; [apply Pl in Hb as [? ?]; by apply mild_refl|].
    eapply (op_then_mild _ x (OAddBranch n (default (B "HEAD") (head rest)) (bo_force opts))); [done|done|exact Lv| |exact Hb]. done.
  - unfold cmd_tag in H. eapply (opened_harm dr (CTag opts args)); [done|done|done| |exact H]. intros x w1 a hid _ E1 E2 Lv Hb. cbv beta in Hb. clear H. left.
    assert (machine dr (w_fs w1) (w_mounts w1)) as Mc1 by (by rewrite E1, E2).
    assert (printer (list_tags x)) as Pl.
    { apply printer_bind; [apply quiet_printer, quiet_next|]. intros ord. apply printer_bind; [apply quiet_printer, quiet_gets|]. intros t. apply printer_print_all. }
    destruct (to_list opts); [apply Pl in Hb as [? ?]; by apply mild_refl|].
    destruct (to_delete opts).
    { eapply (del_loop_mild dr x hid o ODelTag); [done|by eauto| |done|exact Lv|exact Hb]. done. }
    destruct args as [|n rest]; [apply Pl in Hb as [? ?]; by apply mild_refl|].
    eapply (op_then_mild _ x (OAddTag n (default (B "HEAD") (head rest)) (to_force opts))); [done|done|exact Lv| |exact Hb]. done.
  - unfold cmd_log in H. eapply (opened_harm dr (CLog args)); [done|done|done| |exact H]. intros x w1 a hid _ E1 E2 Lv Hb. cbv beta in Hb. left.
    revert Hb. match goal with |- ?m o w1 = _ → _ => assert (printer m) as Pm end.
    { do 3 (apply printer_bind; [apply quiet_printer; first [apply quiet_next|apply quiet_gets]|]; intros ?).
      apply printer_bind; [apply quiet_printer, quiet_lift|]. intros cs. apply printer_for_each. intros c. apply printer_log. }
    intros Hb. apply Pm in Hb as [? ?]. by apply mild_refl.
Qed.
(** ** Directories that are not workspaces *)
Lemma plain_closed dr arg o w x w' : plain_spot dr w (abs_of w arg) → get_workspace dr arg o w ≠ (Ok x, w').
Proof.
  intros [O Nl] H. unfold get_workspace in H.
  apply bind_ok in H as (p & w1 & E & H). pose proof (abs_ok _ _ _ _ _ E) as Hp. apply quiet_abs in E as (k1 & ->).
  apply bind_ok in H as (b & w1 & E & H). apply quiet_is_symlink in E as (k2 & ->). apply bind_ok in H as (mp & w1 & E & H). rewrite <-Hp in *.
  assert (mp = p) as ->.
  { destruct b; [|by injection E as <- _]. apply bind_ok in E as (s & w2 & E1 & E2). unfold os_readlink in E1. apply OpenProofs.look_ok in E1 as [E1 _]. cbn [w_fs tick upd] in E1.
    destruct (fget (w_fs w) p) as [[| |s'|]|] eqn:Ef; try done. by destruct (Nl s'). }
  apply bind_ok in H as (mid & w2 & E2 & _). apply lift_ok in E2 as [E2 _]. unfold mounts_root in E2. rewrite (rel_first_outside _ _ _ O) in E2. vm_compute in E2. discriminate E2.
Qed.
Lemma plain_idle dr c o w r w' : (match c with CInit _ _ => False | _ => True end) → plain_spot dr w (abs_of w (cmd_source c)) → run_cmd dr c o w = (r, w') → same_machine w w'.
Proof.
  intros Hc Hp E.
  assert (∀ (f : ws → M unit) w0 s w2, same_machine w w0 → plain_spot dr w0 (abs_of w0 (cmd_source c)) → bind (get_workspace dr (cmd_source c)) f o w0 = (s, w2) → same_machine w w2) as H.
  { intros f w0 s w2 [S1 S2] P0 E0. apply bind_any in E0 as [(x & w1 & E1 & _)|(r1 & E1 & _)]; [by apply plain_closed in E1|].
    apply reader_get_workspace in E1 as (t & k & ->). split; cbn [w_fs w_mounts upd]; congruence. }
  assert (same_machine w w) as Sw by done.
  destruct c as [|source target|msg|key|opts args|opts args|args]; [done|..]; cbn [run_cmd] in E; [|by eapply H..].
  unfold cmd_clone in E. apply bind_any in E as [(p & w1 & E1 & E)|(r1 & E1 & _)]; apply quiet_abs in E1 as (k & ->); [|by split].
  eapply H; [| |exact E]; done.
Qed.
(** ** Which workspace is opened *)
Lemma info_branch y y' h h' : marshal_wsinfo (ws_info y h) = marshal_wsinfo (ws_info y' h') → sanitize (ws_branch y) = sanitize (ws_branch y').
Proof. intros J. apply (f_equal unmarshal_wsinfo) in J. rewrite !wsinfo_round in J. apply (inj Some) in J. exact (f_equal wi_branch J). Qed.
Lemma opened_place dr V mids w arg p pl x hid : places_at dr w V mids → v_places V !! p = Some pl → abs_of w arg = p → found_at dr w arg x hid →
  mv_id (ws_mount x) = mids p ∧ hid = pl_head pl ∧ stands_for x pl ∧ sp_id (ws_space x) = pl_space pl.
Proof.
  intros [_ Hp] Ep Ea [F1 F2 F3 F4 (y' & I1 & I2 & I3 & I4 & I5)]. destruct (Hp _ _ Ep) as (Op & y & a & Wa & T & _ & C1 & C2 & C3 & _). rewrite F1, Ea in F3.
  pose proof (F3 _ Op (wa_link _ _ _ _ _ _ _ Wa)) as Em. rewrite Em in I1. rewrite (wa_info _ _ _ _ _ _ _ Wa) in I1. apply (f_equal (λ o, match o with Some (FFile b) => b | _ => [] end)) in I1. cbv beta iota in I1.
  pose proof (info_branch _ _ _ _ I1) as Jb. pose proof (info_id _ _ _ _ I1) as Ji. apply info_head in I1 as [J1 J2]. split; [done|]. split; [done|]. split; [split; congruence|congruence].
Qed.
(** ** Trees *)
Definition grown (a a' : atree) : Prop :=
  (∀ i c, SpecTree.parent_of a i c → SpecTree.parent_of a' i c) ∧ (∀ i l, chain a i l → chain a' i l) ∧
  ∀ n, (∀ i l, chain a i l → length l ≤ n) → ∀ i l, chain a' i l → length l ≤ S n.
Lemma grown_nodes a a' : a_nodes a' = a_nodes a → grown a a'.
Proof.
  intros E. split; [intros i c (n & Q & H); exists n; by rewrite E|]. split; [intros i l; by apply nodes_chain_inv|]. intros n Hn i l C. apply (nodes_chain_inv _ _ _ _ E), Hn in C. lia.
Qed.
Lemma grown_longer a a' i c : rooted a → longer a a' i c → grown a a'.
Proof. intros Ro L. split; [intros j z; by eapply longer_parent|]. split; [intros j l; by eapply longer_keeps|]. intros n. by eapply longer_depth. Qed.
Lemma grown_san a a' : grown a a' → grown a (san_tree a').
Proof. intros (A1 & A2 & A3). split; [intros i c H; by apply san_parent, A1|]. split; [intros i l C; by apply san_chain, A2|]. intros n Hn i l C. eapply A3; [done|]. by apply san_chain_inv. Qed.
Definition names_op (op : wsop) : Prop := match op with OAddBranch _ _ _ | ODelBranch _ _ | OAddTag _ _ _ | ODelTag _ => True | _ => False end.
Lemma op_all_names x hid l a a' : Forall names_op l → op_all x hid l a a' → a_nodes a' = a_nodes a.
Proof.
  intros H. revert a. induction H as [|op l Ho _ IH]; intros a; cbn [op_all]; [by intros ->|]. intros (a1 & Ht & Ha). rewrite (IH _ Ha). destruct op; try done; cbn [op_tree] in Ht.
  - by destruct Ht as (id & _ & _ & ->).
  - by destruct Ht as (_ & _ & ->).
  - by destruct Ht as (id & _ & _ & ->).
  - by destruct Ht as (_ & ->).
Qed.
Lemma op_all_one x hid op k a a' : op_all x hid (take k [op]) a a' → a' = a ∨ op_tree x hid op a a'.
Proof. destruct k as [|k]; cbn [take op_all]; [by left|]. rewrite take_nil. intros (a1 & Ht & ->). by right. Qed.
Lemma does_grown x hid o c l k a a' : rooted a → cmd_does o c l → op_all x hid (take k l) a a' → grown a a'.
Proof.
  intros Ro Hc Ha.
  assert (∀ op, (∃ d m, op = OCommit d m) ∨ (∃ k, op = OCheckout k) ∨ (∃ p, op = OClone p) → l = [op] → grown a a') as Hm.
  { intros op Hop ->. apply op_all_one in Ha as [->|Ht]; [by apply grown_nodes|]. destruct (op_longer _ _ _ _ _ Ro Hop Ht) as (i & z & L & _). by eapply grown_longer. }
  assert (Forall names_op l → grown a a') as Hn.
  { intros Hl. apply grown_nodes. eapply op_all_names; [|exact Ha]. by apply Forall_take. }
  destruct c as [args branch|source target|msg|key|opts args|opts args|args]; cbn [cmd_does] in Hc.
  - done.
  - destruct Hc as [p ->]. eapply Hm; [|done]. right; right; eauto.
  - destruct Hc as [p ->]. eapply Hm; [|done]. left; eauto.
  - eapply Hm; [|exact Hc]. right; left; eauto.
  - apply Hn. destruct (bo_list opts || bo_current opts); [by subst; constructor|]. destruct (bo_delete opts); [subst; apply Forall_fmap, Forall_true; done|]. destruct args; subst; repeat constructor.
  - apply Hn. destruct (to_list opts); [by subst; constructor|]. destruct (to_delete opts); [subst; apply Forall_fmap, Forall_true; done|]. destruct args; subst; repeat constructor.
  - apply Hn. subst. constructor.
Qed.
(** ** What is left *)
Lemma models_left dr w w' V V' mids (K : uid → Prop) : good_path dr → in_order dr w → places_at dr w V mids → in_order dr w' → kept_mounts dr w w' K →
  (∀ p pl, v_places V' !! p = Some pl → v_places V !! p = Some pl ∧ fget (w_fs w') p = fget (w_fs w) p ∧ K (mids p)) →
  (∀ p pl a, v_places V' !! p = Some pl → v_trees V !! pl_space pl = Some a → holds (w_fs w) (the_space dr (pl_space pl)) a → ∃ a', v_trees V' !! pl_space pl = Some a' ∧ holds (w_fs w') (the_space dr (pl_space pl)) a' ∧ grown a a') →
  models dr w' V' ∧ stay_awake dr V' w w'.
Proof.
  intros G Io [Hd Hp] Io' Hk Hpl Ht.
  assert (∀ p pl, v_places V' !! p = Some pl → fget (w_fs w') p = fget (w_fs w) p ∧ mounts_below (w_mounts w') (mount_dir dr (mids p)) = mounts_below (w_mounts w) (mount_dir dr (mids p)) ∧
    fget (w_fs w) p = Some (FLink (path_str (merged_dir dr (mids p))))) as Ha.
  { intros p pl Ep. destruct (Hpl _ _ Ep) as (Ep0 & El & HK). destruct (Hp _ _ Ep0) as (_ & y & a & Wa & _). destruct (Hk _ HK (workspace_dir _ _ _ _ _ _ _ Io Wa)) as (_ & _ & Em). split; [done|]. split; [done|]. apply Wa. }
  split; [split; [done|]; exists mids; split|].
  - intros p q [pl Ep] [pq Eq]. apply Hpl in Ep as [Ep _]. apply Hpl in Eq as [Eq _]. apply Hd; by eexists.
  - intros p pl Ep. destruct (Hpl _ _ Ep) as (Ep0 & El & HK). destruct (Hp _ _ Ep0) as (Op & y & a & Wa & T & [c Pc] & C1 & C2 & C3 & lows & Sk & Sc). split; [done|].
    destruct (Hk _ HK (workspace_dir _ _ _ _ _ _ _ Io Wa)) as (D & Hi & Em). pose proof (wa_tree _ _ _ _ _ _ _ Wa) as Hh. rewrite C2 in Hh.
    destruct (Ht _ _ _ Ep T Hh) as (a' & T' & Hh' & G1 & G2 & _). exists y, a'. destruct Wa as [W1 W2 W3 W4 W5 W6]. split; [|split_and!; try done].
    + constructor; [by rewrite El|destruct W2 as [_ W2]; split; [done|by rewrite Em]|by apply Hi|done|by rewrite C2|]. destruct (G1 _ _ Pc) as (n & E & _). by exists n.
    + exists c. by apply G1.
    + exists lows. rewrite Em. split; [done|]. by apply G2.
  - intros p [pl Ep] (i & L & Hm). destruct (Ha _ _ Ep) as (El & Em & L'). exists i. split; [by rewrite El|]. rewrite L' in L. apply (inj Some) in L.
    apply (f_equal (λ f, match f with FLink s => s | _ => [] end)) in L. cbv beta iota in L. apply path_str_merged in L as <-; [|done]. by rewrite Em.
Qed.
Lemma depth_sub V V' n : depth V n → (∀ p pl, v_places V' !! p = Some pl → v_places V !! p = Some pl) → v_trees V' = v_trees V → depth V' n.
Proof. intros Hd Hp Et q pq a c ch E T C. rewrite Et in T. by eapply (Hd q pq a c ch); [apply Hp|..]. Qed.
Lemma less_space_lookup V sid p pl : v_places (less_space V sid) !! p = Some pl → v_places V !! p = Some pl ∧ pl_space pl ≠ sid.
Proof. cbn [less_space v_places]. intros [E H]%map_filter_lookup_Some. done. Qed.
Lemma same_trees dr w w' V mids V' : places_at dr w V mids → (∀ sid, is_Some (fget (w_fs w) (tree_at dr sid)) → fget (w_fs w') (tree_at dr sid) = fget (w_fs w) (tree_at dr sid)) → v_trees V' = v_trees V →
  ∀ p pl a, v_places V' !! p = Some pl → v_trees V !! pl_space pl = Some a → holds (w_fs w) (the_space dr (pl_space pl)) a → ∃ a', v_trees V' !! pl_space pl = Some a' ∧ holds (w_fs w') (the_space dr (pl_space pl)) a' ∧ grown a a'.
Proof.
  intros Pl Ht Et p pl a _ T Hh. exists a. rewrite Et. split; [done|]. split; [|by apply grown_nodes]. unfold holds. rewrite Ht; [exact Hh|]. destruct Hh as (raw & E & _). by eexists.
Qed.
Lemma one_tree dr w w' V a sid b b' V' : (∀ s, s ≠ sid → fget (w_fs w') (tree_at dr s) = fget (w_fs w) (tree_at dr s)) → v_trees V !! sid = Some b → holds (w_fs w') (the_space dr sid) b' → grown b b' →
  v_trees V' = <[sid := b']> (v_trees V) → ∀ p pl, v_places V' !! p = Some pl → v_trees V !! pl_space pl = Some a → holds (w_fs w) (the_space dr (pl_space pl)) a →
  ∃ a', v_trees V' !! pl_space pl = Some a' ∧ holds (w_fs w') (the_space dr (pl_space pl)) a' ∧ grown a a'.
Proof.
  intros Ht Tb Hb Gb Et p pl _ T Hh. rewrite Et. destruct (decide (pl_space pl = sid)) as [<-|Ns].
  - rewrite lookup_insert. exists b'. assert (a = b) as ->; [rewrite T in Tb; by injection Tb|]. done.
  - rewrite lookup_insert_ne by done. exists a. split; [done|]. split; [|by apply grown_nodes]. unfold holds. rewrite Ht by done. exact Hh.
Qed.
Lemma harm_any dr V mids n d c o w r w' : plain_path dr → good_path dr → fair o → in_order dr w → places_at dr w V mids → depth V n → runs_in w d → allowed dr V w d c →
  run_cmd dr c o w = (r, w') → ∃ V', partly o V d c V' ∧ (models dr w' V' ∧ stay_awake dr V' w w') ∧ depth V' (S n) ∧ spared dr V d c w w'.
Proof.
  intros P G F Io Pl Hd R [_ Al] E. pose proof (io_machine _ _ Io) as Mc.
  assert (∀ s, abs_of w s = Fs.abs_from d s) as Ha by (intros s; by apply runs_abs_from).
  assert (Fs.abs_from d (B ".") = d) as Edot by apply join_dot.
  assert (∀ p, is_Some (v_places V !! p) ∨ plain_spot dr w p → outside dr p) as Hout.
  { intros p [[pl Ep]|[Op _]]; [|done]. destruct Pl as [_ Hp]. by destruct (Hp _ _ Ep) as [Op _]. }
  assert (writes_path c → outside dr (abs_of w (cmd_target c))) as Ho.
  { intros Hw. rewrite Ha. destruct c as [args branch|source target|msg|key| | |]; try done; cbn [cmd_target].
    - by destruct Al as [[Op _] _].
    - by destruct Al as (_ & Oq & _).
    - rewrite Edot. by apply Hout.
    - rewrite Edot. by apply Hout. }
  assert (in_order dr w') as Io'.
  { eapply happens_order; [done|done|exact Io|]. apply happens_step. eapply (step_cmd _ _ _ c); [by split|done|exact Ho|exact E]. }
  pose proof (cmd_away _ _ _ _ _ _ P G F Mc Ho E) as Aw. pose proof (cmd_harm _ _ _ _ _ _ P G F Mc Ho E) as Hm. destruct (cmd_any _ _ _ _ _ _ P G F Mc Ho E) as [_ Ht].
  assert (∀ p, outside dr p → is_prefix dr p = false) as Opre by (by intros p [? _]).
  assert (∀ p pl, v_places V !! p = Some pl → outside dr p) as Hpo by (intros p pl Ep; apply Hout; left; by eexists).
  destruct (match c with CInit _ _ => true | _ => false end) eqn:Ei.
  { destruct c as [args branch| | | | | |]; try done. destruct Hm as [K U]. exists V. split; [by left|]. split; [|split; [eapply depth_more; [done|lia]|intros i Di _; by apply U]].
    destruct Al as [Sp _]. eapply models_left; [exact G|exact Io|exact Pl|exact Io'|exact K| |].
    - intros p pl Ep. split; [done|]. split; [|done]. apply Aw; [by eapply Opre, Hpo|]. intros ->. rewrite Ha in Ep. cbn [cmd_target] in Ep. by rewrite (place_not_plain _ _ _ _ _ Pl Sp) in Ep.
    - eapply same_trees; [done| |done]. intros sid [z Hz]. destruct Ht as [[_ Ht]|(s & rid & id & wid & N & _ & _ & Ht)]; [done|]. apply Ht. intros ->.
      apply mk_is_Some in Hz. apply (wf_parent _ _ (mc_wf _ _ _ Mc)) in Hz as Hz'; [|by unfold tree_file; destruct (sp_dir _)]. unfold tree_file, the_space in Hz'. cbn [sp_dir] in Hz'. rewrite parent_dir_app in Hz'. unfold is_dir_at in Hz'. by rewrite N in Hz'. }
  assert (is_Some (v_places V !! Fs.abs_from d (cmd_source c)) ∨ plain_spot dr w (Fs.abs_from d (cmd_source c))) as Hs.
  { destruct c as [|source target|msg|key|opts args|opts args|args]; try done; cbn [cmd_source]; rewrite ?Edot; try done. by destruct Al as (Q & _). }
  assert (mild dr w w' ∨ lost_late dr o c w w') as Hm' by (by destruct c). assert (cmd_trees dr c o w r w') as Ht' by (by destruct c). clear Hm Ht.
  destruct Hs as [[pl Es]|Hs].
  2: { destruct (plain_idle dr c o w r w') as [Q1 Q2]; [by destruct c|by rewrite Ha|done|]. exists V. split; [by left|]. split; [|split; [eapply depth_more; [done|lia]|intros i _ _ q _; by rewrite Q1]].
    eapply models_left; [exact G|exact Io|exact Pl|exact Io'|apply (kept_refl dr w w' any_mount); done| |].
    - intros p pl Ep. by rewrite Q1.
    - eapply same_trees; [done| |done]. intros sid _. by rewrite Q1. }
  set (p0 := Fs.abs_from d (cmd_source c)) in *. pose proof Pl as [Hinj Hp]. destruct (Hp _ _ Es) as (O0 & y0 & a0 & Wa0 & T0 & Pc0 & C1 & C2 & C3 & lows & Sk & Sc).
  pose proof (wa_tree _ _ _ _ _ _ _ Wa0) as Hh0. rewrite C2 in Hh0. pose proof (holds_rooted _ _ _ Hh0) as Ro.
  destruct Hm' as [(K & U & St)|(Hmk & x & hid & op & a & Fa & Sok & Hh & Hc & Hcl & a' & Hop & Hh' & Hoth & Hl)].
  - assert (spared dr V d c w w') as Hsp by (intros i Di _; by apply U).
    assert (∀ p pl, v_places V !! p = Some pl → fget (w_fs w') p = fget (w_fs w) p) as Hlink by (intros p pq Ep; by eapply St, Opre, Hpo).
    destruct Ht' as [[_ Ht]|(x & sid & hid & a & l & k & a' & Fa & Ex & Hh & Hc & Hk & _ & Hop & Hh' & Hoth)].
    + exists V. split; [by left|]. split; [|split; [eapply depth_more; [done|lia]|done]]. eapply models_left; [exact G|exact Io|exact Pl|exact Io'|exact K|intros p pq Ep; split; [done|]; split; [by eapply Hlink|done]|].
      eapply same_trees; [done| |done]. intros s _. apply Ht.
    + destruct (opened_place dr V mids w _ p0 pl x hid Pl Es (Ha _) Fa) as (_ & -> & Sf & Esp). rewrite Ex in Esp. cbn [the_space sp_id] in Esp. subst sid.
      pose proof (holds_det _ _ _ _ Hh Hh0) as ->. pose proof (does_grown _ _ _ _ _ _ _ _ Ro Hc Hop) as Gr.
      destruct Hh' as [Hh'|(_ & Nw & Hh')].
      * exists (put_tree V (pl_space pl) (san_tree a')). split; [right; exists pl, x, a0, l, k, a'; split_and!; try done; by left|]. split; [|split; [|done]].
        -- eapply models_left; [exact G|exact Io|exact Pl|exact Io'|exact K|intros p pq Ep; split; [done|]; split; [by eapply Hlink|done]|]. intros p pq a Ep. eapply one_tree; [exact Hoth|exact T0|exact Hh'|by apply grown_san|done|exact Ep].
        -- eapply depth_tree; [done|lia|]. destruct Gr as (_ & _ & Gr). apply Gr. intros i ch C. by eapply Hd.
      * exists (less_space V (pl_space pl)). split; [right; exists pl, x, a0, l, k, a'; split_and!; try done; right; by right|]. split; [|split; [|done]].
        -- eapply models_left; [exact G|exact Io|exact Pl|exact Io'|exact K| |].
           ++ intros p pq Ep. apply less_space_lookup in Ep as [Ep _]. split; [done|]. split; [by eapply Hlink|done].
           ++ intros p pq a Ep T Hq. apply less_space_lookup in Ep as [Ep Ns]. exists a. split; [done|]. split; [|by apply grown_nodes]. unfold holds. rewrite Hoth by done. exact Hq.
        -- eapply depth_more; [|apply Nat.le_succ_diag_r]. eapply depth_sub; [done| |done]. intros p pq Ep. by apply less_space_lookup in Ep as [? _].
  - destruct (opened_place dr V mids w _ p0 pl x hid Pl Es (Ha _) Fa) as (Em & -> & Sf & Esp). rewrite (the_space_ok _ _ Sok), Esp in Hh, Hh'. pose proof (holds_det _ _ _ _ Hh Hh0) as ->. rewrite Esp in Hoth.
    rewrite Em in Hl. destruct (Hl (workspace_dir _ _ _ _ _ _ _ Io Wa0)) as [K L]. set (t := Fs.abs_from d (cmd_target c)) in *.
    assert (op_all x (pl_head pl) (take 1 [op]) a0 a') as Hall by (by exists a'). pose proof (does_grown _ _ _ _ _ _ _ _ Ro Hc Hall) as Gr.
    assert (¬ clones c → t = p0) as Htp by (intros Nc; unfold t, p0; by destruct c).
    exists (put_tree (less_place V t) (pl_space pl) (san_tree a')). split; [|split; [|split]].
    + right. exists pl, x, a0, [op], 1, a'. split_and!; try done. right. left. done.
    + eapply models_left; [exact G|exact Io|exact Pl|exact Io'|exact K| |].
      * intros p pq Ep. cbn [put_tree less_place v_places] in Ep. apply lookup_delete_Some in Ep as [Np Ep]. split; [done|]. split; [apply Aw; [by eapply Opre, Hpo|]; rewrite Ha; by apply not_eq_sym|].
        destruct (decide (p = p0)) as [->|N0]; [|right; intros Q; apply N0, Hinj; [by eexists|by eexists|done]]. left. apply Hcl. destruct c; try done; by destruct (Np (Htp id)).
      * intros p pq a Ep. eapply one_tree; [exact Hoth|exact T0|exact Hh'|by apply grown_san|done|exact Ep].
    + eapply depth_tree; [eapply depth_sub; [exact Hd| |done]|lia|].
      * intros p pq Ep. cbn [less_place v_places] in Ep. by apply lookup_delete_Some in Ep as [_ Ep].
      * destruct Gr as (_ & _ & Gr). apply Gr. intros i ch C. by eapply Hd.
    + intros i Di Nr. apply L; [done|]. intros m Nc Hmm Q. destruct Sk as [Sk|Sk]; rewrite Sk in Hmm; [by apply elem_of_nil in Hmm|]. apply elem_of_list_singleton in Hmm as ->. cbn [stack_of mn_upper] in Q. injection Q as Q. apply diff_dir_inj in Q as Q'.
      apply Nr. assert (¬ clones c) as Nc' by (by intros Q2; apply Nc, Hcl). assert (v_places V !! d = Some pl) as Ed by (rewrite <-Es; unfold p0; destruct c; try done; cbn [cmd_source]; by rewrite Edot).
      destruct c; try done; by exists pl.
Qed.
