(** * PropsEdits: what users do in workspaces (C88) *)
From Verif Require Import Base Uid SpecUid UidProofs Tree SpecTree TreeRefine TreeObs Dump DumpProofs Json JsonProofs Save SaveProofs Branch BranchProofs Date Ws SpecWs WsProofs
  Fs Overlay Os Layers Mounts Space Manager Commands FsProofs OsProofs LayerProofs MountProofs SpaceProofs ManagerProofs SpecWorld SpecOps SavedProofs FaultProofs ReadyProofs OpProofs CalmProofs
  SpecMachine SpecCmds SpecLog MachineProofs OpenProofs CmdProofs ExpandProofs DetProofs SpecTidy TidyProofs Sample SampleProofs Story StoryProofs SpecUsable UsableProofs UsableCmdProofs UsableInitProofs UsableSeqProofs SpecNames NamesProofs LongerProofs SpecVcs VcsProofs
  PropsCommit PropsCmds PropsShow PropsUsable PropsRound PropsVcs PropsFiles Edits SpecEdits EditProofs.
From Coq Require Import Lia.
From stdpp Require Import prelude gmap.

(** ** One edit in one mount *)
Lemma view_some Ls k : view Ls k ≠ None → ∃ L, L ∈ Ls ∧ L k ≠ None.
Proof.
  induction Ls as [|L Ls IH]; intros H; [done|]. cbn [view] in H. destruct (L k) as [x|] eqn:E; [exists L; split; [left|by rewrite E]|].
  destruct (covered L k); [done|]. destruct (IH H) as (L' & HL & HE). exists L'. split; [by right|done].
Qed.
Lemma shows_none_spec fs ds k : shows_none fs ds k = true ↔ ∀ n, view (layer_at fs <$> ds) (k ++ [n]) = None.
Proof.
  unfold shows_none. rewrite forallb_forall. split.
  - intros H n. destruct (view (layer_at fs <$> ds) (k ++ [n])) eqn:E; [|done]. destruct (view_some (layer_at fs <$> ds) (k ++ [n])) as (L & HL & HE); [by rewrite E|].
    apply elem_of_list_fmap in HL as (d & -> & Hd). specialize (H d). rewrite <-elem_of_list_In, forallb_forall in H. specialize (H Hd n).
    rewrite <-elem_of_list_In, children_elem in H. unfold layer_at in HE. rewrite app_assoc in HE. apply bool_decide_eq_true in H; [by rewrite E in H|]. by destruct (fget fs _).
  - intros H d _. apply forallb_forall. intros n _. by apply bool_decide_eq_true.
Qed.
Lemma in_shown_spec F k : in_shown_dir F k = true ↔ dir_of_shown F k.
Proof.
  unfold in_shown_dir, dir_of_shown. destruct k as [|c k]; [split; [done|by intros []]|]. destruct (parent_dir (c :: k)) as [|d l].
  - split; [intros _; split; [done|by left]|done].
  - rewrite bool_decide_eq_true. split; [intros E; split; [done|by right]|intros [_ [E|E]]; done].
Qed.
(** A mount with an upper layer: every edit succeeds exactly if it should in the tree that is shown, and then it changes what is shown at its
    path and nowhere else. Only the upper layer changes. *)
Theorem C88_edit : ∀ fs m u e, fs_wf fs → mn_upper m = Some u → is_dir_at fs u = true → Forall (apart_from u) (mn_lowers m) →
  (is_Some (edit_mount fs m e) ↔ can_edit e (mount_view fs m)) ∧
  ∀ fs', edit_mount fs m e = Some fs' → fs_wf fs' ∧ only_under u fs fs' ∧ ∀ k, mount_view fs' m k = edited e (mount_view fs m) k.
Proof.
  intros fs m u e W Eu Du Ap. assert (∀ f k, mount_view f m k = over (layer_at f u) (view (layer_at f <$> mn_lowers m)) k) as Ev.
  { intros f k. unfold mount_view. rewrite Eu. done. }
  assert (∀ k, view (layer_at fs <$> u :: mn_lowers m) k = mount_view fs m k) as El by (intros k; unfold mount_view; by rewrite Eu).
  assert (∀ k x, hides (Some x) = true → dir_of_shown (mount_view fs m) k → mount_view fs m k ≠ Some (FDir false) →
    fs_wf (make fs u k x) ∧ only_under u fs (make fs u k x) ∧ ∀ j, mount_view (make fs u k x) m j = if decide (j = k) then Overlay.shown x else mount_view fs m j) as Mk.
  { intros k x Hx [Nk Hp] Hk. rewrite Ev in Hk. destruct (make_spec u (mn_lowers m) Ap fs k x W Du Hx Nk) as (A & C & D); [destruct Hp as [Hp|Hp]; [by left|right; by rewrite <-Ev]|done|].
    split; [done|]. split; [done|]. intros j. rewrite !Ev. apply D. }
  unfold edit_mount. rewrite Eu. cbn [mbind option_bind].
  destruct e as [k data|k|k s|k|k l]; cbn [can_edit].
  - destruct (in_shown_dir (mount_view fs m) k) eqn:Ed; [apply in_shown_spec in Ed|split; [|done]].
    2:{ split; [by intros [? ?]|]. intros [H _]. apply in_shown_spec in H. congruence. }
    destruct (mount_view fs m k) as [[]|] eqn:Ek; (split; [split; [try by intros [? ?]|try by intros [_ [?|[? ?]]]]|try done]).
    + intros _. split; [done|]. right. by eexists.
    + intros fs' [= <-]. destruct (Mk k (FFile data)) as (A & C & D); [done|done|by rewrite Ek|]. split; [done|]. split; [done|]. intros j. rewrite D. cbn [edited]. by case_decide.
    + intros _. split; [done|]. by left.
    + intros fs' [= <-]. destruct (Mk k (FFile data)) as (A & C & D); [done|done|by rewrite Ek|]. split; [done|]. split; [done|]. intros j. rewrite D. cbn [edited]. by case_decide.
  - destruct (in_shown_dir (mount_view fs m) k) eqn:Ed; [apply in_shown_spec in Ed|split; [|done]].
    2:{ split; [by intros [? ?]|]. intros [H _]. apply in_shown_spec in H. congruence. }
    destruct (mount_view fs m k) as [x|] eqn:Ek; (split; [split; [try by intros [? ?]|try by intros [_ ?]]|try done]).
    intros fs' [= <-]. destruct (Mk k (FDir true)) as (A & C & D); [done|done|by rewrite Ek|]. split; [done|]. split; [done|]. intros j. rewrite D. cbn [edited]. by case_decide.
  - destruct (in_shown_dir (mount_view fs m) k) eqn:Ed; [apply in_shown_spec in Ed|split; [|done]].
    2:{ split; [by intros [? ?]|]. intros [H _]. apply in_shown_spec in H. congruence. }
    destruct (mount_view fs m k) as [x|] eqn:Ek; (split; [split; [try by intros [? ?]|try by intros [_ ?]]|try done]).
    intros fs' [= <-]. destruct (Mk k (FLink s)) as (A & C & D); [done|done|by rewrite Ek|]. split; [done|]. split; [done|]. intros j. rewrite D. cbn [edited]. by case_decide.
  - destruct (in_shown_dir (mount_view fs m) k) eqn:Ed; [apply in_shown_spec in Ed|split; [|done]].
    2:{ split; [by intros [? ?]|]. intros [H _]. apply in_shown_spec in H. congruence. }
    cbn [andb]. destruct (shows_none fs (u :: mn_lowers m) k) eqn:En; [rewrite shows_none_spec in En|split; [|done]].
    2:{ split; [by intros [? ?]|]. intros (_ & _ & H). assert (shows_none fs (u :: mn_lowers m) k = true) as Q; [|congruence]. apply shows_none_spec. intros n. by rewrite El. }
    assert (∀ n, mount_view fs m (k ++ [n]) = None) as Hn by (intros n; by rewrite <-El). destruct (mount_view fs m k) as [x|] eqn:Ek; (split; [split; [try by intros [? ?]|]|try done]).
    + by intros _.
    + intros fs' [= <-]. destruct Ed as [Nk Hp]. destruct (remove_spec u (mn_lowers m) Ap fs k W Du Nk) as (A & C & D).
      * destruct Hp as [Hp|Hp]; [by left|right; by rewrite <-Ev].
      * intros n. by rewrite <-Ev.
      * split; [done|]. split; [done|]. intros j. cbn [edited]. rewrite !Ev. apply D.
    + by intros (_ & ? & _).
  - assert (∀ x, Overlay.shown x = Some x → mount_view fs m k = Some x → hides (Some x) = true → x ≠ FDir false → dir_of_shown (mount_view fs m) k → dir_of_shown (mount_view fs m) l → mount_view fs m l ≠ Some (FDir false) →
      let fs' := if decide (k = l) then fs else remove_at (make fs u l x) u (mn_lowers m) k in
      fs_wf fs' ∧ only_under u fs fs' ∧ ∀ j, mount_view fs' m j = edited (ERename k l) (mount_view fs m) j) as Mv.
    { intros x Sx Ek Hx Nx Dk Dl Hl fs'. subst fs'. destruct (decide (k = l)) as [<-|Nkl].
      { split; [done|]. split; [apply only_refl|]. intros j. cbn [edited]. case_decide as D; [by subst|done]. }
      destruct (Mk l x Hx Dl Hl) as (A & C & D). destruct Dk as [Nk Hp], Dl as [Nl Hpl].
      assert (∀ n, mount_view fs m (k ++ [n]) = None) as Hn.
      { intros n. destruct (mount_view fs m (k ++ [n])) eqn:E; [|done]. rewrite Ev in E, Ek. pose proof (F_wf u (mn_lowers m) fs W k n Nk ltac:(by rewrite E)) as Q. congruence. }
      assert (is_dir_at (make fs u l x) u = true) as Du'. { unfold is_dir_at in *. rewrite C; [done|]. unfold under. by rewrite bool_decide_eq_true_2, andb_false_r. }
      destruct (remove_spec u (mn_lowers m) Ap (make fs u l x) k A Du' Nk) as (A' & C' & D').
      - destruct Hp as [Hp|Hp]; [by left|right]. rewrite <-Ev, D. rewrite decide_False; [done|]. intros Q. by rewrite Q in Hp.
      - intros n. rewrite <-Ev, D. rewrite decide_False; [done|]. intros Q. rewrite <-Q, parent_dir_app in Hpl. destruct Hpl as [Hpl|Hpl]; [done|]. congruence.
      - split; [done|]. split; [by eapply only_trans|]. intros j. rewrite Ev, D', <-Ev, D. cbn [edited]. destruct (decide (j = k)) as [->|Nj]; [by rewrite decide_False|]. rewrite Sx, Ek. done. }
    destruct (in_shown_dir (mount_view fs m) k) eqn:Ed; [apply in_shown_spec in Ed|split; [|done]].
    2:{ split; [by intros [? ?]|]. intros [H _]. apply in_shown_spec in H. congruence. }
    destruct (in_shown_dir (mount_view fs m) l) eqn:Edl; [apply in_shown_spec in Edl|split; [|done]].
    2:{ split; [by intros [? ?]|]. intros (_ & H & _). apply in_shown_spec in H. congruence. }
    cbn [andb]. case_bool_decide as Hl; cbn [negb]; [split; [|done]; split; [by intros [? ?]|by intros (_ & _ & _ & ?)]|].
    destruct (mount_view fs m k) as [[b|data|s|]|] eqn:Ek; (split; [split; [try by intros [? ?]|by intros (_ & _ & [[? ?]|[? ?]] & _)]|try done]).
    + intros _. split; [done|]. split; [done|]. split; [left; by eexists|done].
    + intros fs' [= <-]. by apply Mv.
    + intros _. split; [done|]. split; [done|]. split; [right; by eexists|done].
    + intros fs' [= <-]. by apply Mv.
Qed.
Print Assumptions C88_edit.

(** ** In workspaces *)
Lemma diff_apart dr i j : i ≠ j → apart_from (diff_dir (layers_root dr) i) (diff_dir (layers_root dr) j).
Proof. intros N. split; [rewrite <-(app_nil_r (diff_dir _ j)); by apply diff_prefix_ne|rewrite <-(app_nil_r (diff_dir _ i)); apply diff_prefix_ne; congruence]. Qed.
Lemma awake_stack dr w V p pl a ch : good_path dr → models dr w V → v_places V !! p = Some pl → awake dr w p → v_trees V !! pl_space pl = Some a → chain a (pl_head pl) ch →
  ∃ mid lows, ch = pl_head pl :: lows ∧ mount_of w p = Some (stack_of dr mid (pl_head pl) lows) ∧ stack_of dr mid (pl_head pl) lows ∈ w_mounts w ∧
    Forall (λ i, is_dir_at (w_fs w) (diff_dir (layers_root dr) i) = true) ch.
Proof.
  intros G Md Ep (i & L & Ha) T C. pose proof Md as [_ (mids & _ & Hpl)]. destruct (Hpl _ _ Ep) as (_ & y & a' & Wa & T' & _ & _ & _ & _ & lows & Hm & C'). assert (a' = a) as -> by congruence.
  rewrite (wa_link _ _ _ _ _ _ _ Wa) in L. apply (inj Some) in L. apply (f_equal (λ f, match f with FLink s => s | _ => [] end)) in L. cbv beta iota in L. apply path_str_merged in L as <-; [|done].
  destruct Hm as [Hm|Hm]; [done|]. exists (mids p), lows. split; [by eapply chain_det|]. split; [|split].
  - unfold mount_of. rewrite (wa_link _ _ _ _ _ _ _ Wa). rewrite join_path_str by (by apply good_merged). eapply below_at; [exact Hm|done|apply is_prefix_app].
  - assert (stack_of dr (mids p) (pl_head pl) lows ∈ mounts_below (w_mounts w) (mount_dir dr (mids p))) as Q by (rewrite Hm; left). by apply elem_of_list_filter in Q as [_ Q].
  - by apply (models_present _ _ _ _ _ _ _ _ Md Ep T C).
Qed.
(** In a workspace that is mounted, every edit succeeds exactly if it should in what the workspace shows, and changes only that. It is one of the changes
    that the other theorems allow users to make, and no layer changes but the one the workspace works on. *)
Theorem C88_workspace : ∀ dr w V p pl a ch e, good_path dr → models dr w V → v_places V !! p = Some pl → awake dr w p → v_trees V !! pl_space pl = Some a → chain a (pl_head pl) ch →
  (is_Some (edit_at w p e) ↔ can_edit e (content dr (w_fs w) ch)) ∧
  ∀ w', edit_at w p e = Some w' → user_edits dr V w w' ∧ models dr w' V ∧ awake dr w' p ∧ (∀ i, i ≠ pl_head pl → same_layer dr (w_fs w) (w_fs w') i) ∧
    visible w p (content dr (w_fs w) ch) ∧ visible w' p (edited e (content dr (w_fs w) ch)) ∧ ∀ k, content dr (w_fs w') ch k = edited e (content dr (w_fs w) ch) k.
Proof.
  intros dr w V p pl a ch e G Md Ep Aw T C. destruct (awake_stack _ _ _ _ _ _ _ G Md Ep Aw T C) as (mid & lows & -> & Em & Hm & Fa). pose proof (mc_wf _ _ _ (io_machine _ _ (md_order _ _ _ Md))) as W.
  apply Forall_cons in Fa as [Du Fa]. pose proof (chain_nodup _ _ _ C) as Nd. apply NoDup_cons in Nd as [Nh _].
  assert (Forall (apart_from (diff_dir (layers_root dr) (pl_head pl))) (mn_lowers (stack_of dr mid (pl_head pl) lows))) as Ap.
  { cbn [stack_of mn_lowers]. apply Forall_forall. intros d Hd. apply elem_of_list_fmap in Hd as (j & -> & Hj). apply diff_apart. by intros <-. }
  destruct (C88_edit (w_fs w) (stack_of dr mid (pl_head pl) lows) _ e W eq_refl Du Ap) as [A1 A2].
  assert (∀ f k, mount_view f (stack_of dr mid (pl_head pl) lows) k = content dr f (pl_head pl :: lows) k) as Ev by done.
  unfold edit_at. rewrite Em. cbn [mbind option_bind]. split.
  { transitivity (is_Some (edit_mount (w_fs w) (stack_of dr mid (pl_head pl) lows) e)); [|exact A1]. destruct (edit_mount _ _ e); cbn [mbind option_bind]; split; intros [x H]; try done; by eexists. }
  intros w'. destruct (edit_mount (w_fs w) (stack_of dr mid (pl_head pl) lows) e) as [fs'|] eqn:E; [|done]. cbn [mbind option_bind]. intros [= <-]. destruct (A2 _ eq_refl) as (W' & O & S).
  assert (∀ q, fget fs' q ≠ fget (w_fs w) q → under (diff_dir (layers_root dr) (pl_head pl)) q = true) as O'.
  { intros q Hq. destruct (under _ q) eqn:U; [done|]. by rewrite O in Hq. }
  assert (∀ i, i ≠ pl_head pl → same_layer dr (w_fs w) fs' i) as Sl.
  { intros i Ni q Hq. apply O. unfold under. apply andb_false_iff. left. apply not_true_is_false. intros P. by apply Ni, (in_layer_same dr i (pl_head pl) q). }
  assert (∀ p, outside dr p → fget fs' p = fget (w_fs w) p) as Out.
  { intros q Oq. apply O. unfold under. apply andb_false_iff. left. apply not_true_is_false. intros P. by apply (in_layer_outside dr (pl_head pl) q q). }
  assert (user_edits dr V w (set_fs w fs')) as Ue.
  { split; [apply user_while; split; [exact W'|]; split; [done|]; intros q; cbn [w_fs set_fs]; destruct (decide (fget fs' q = fget (w_fs w) q)) as [D|D]; [by left|right; right]|split].
    - eexists _, _. split; [exact Hm|]. split; [|split; [done|by apply O']]. cbn [stack_of mn_at]. unfold mount_dir. rewrite <-app_assoc. apply is_prefix_app.
    - intros q [pq Eq]. pose proof Md as [_ (mids & _ & Hpl)]. destruct (Hpl _ _ Eq) as [Oq _]. by apply Out.
    - intros i Hi. apply Sl. intros ->. by apply (Hi _ _ Ep). }
  assert (models dr (set_fs w fs') V) as Md' by (eapply models_while; [exact Md|apply Ue|apply Ue]).
  assert (awake dr (set_fs w fs') p) as Aw'.
  { destruct Aw as (i & L & Ha). exists i. split; [|done]. destruct Ue as (_ & Q & _). rewrite Q; [done|by eexists]. }
  split; [done|]. split; [done|]. split; [done|]. split; [done|]. split; [by eapply C81_shows|].
  assert (∀ k, content dr fs' (pl_head pl :: lows) k = edited e (content dr (w_fs w) (pl_head pl :: lows)) k) as S' by (intros k; apply (S k)). split; [|done].
  eapply visible_ext; [|by eapply (C81_shows dr (set_fs w fs') V p pl a)]. intros k _. apply S'.
Qed.
Print Assumptions C88_workspace.

(** ** Two edits, a commit, and three edits that undo and hide what was committed *)
Definition sees (w : world) (p k : path) : option fobj := m ← mount_of w p; mount_view (w_fs w) m k.
Definition a_dir : path := [B "a"].
Definition a_file : path := [B "a"; B "f"].
Lemma edits_test : let hi := B "hi" in
  ids_check sample_dr calm (enter home sample_world) && home_ok sample_world &&
  then_ok (run_cmd sample_dr (CInit [B "w"] (B "main")) calm (enter home sample_world)) (λ _ w1,
  then_some (edit_at w1 wdir (EMkdir a_dir)) (λ u1,
  then_some (edit_at u1 wdir (EWrite a_file hi)) (λ u2, ids_check sample_dr calm (enter wdir u2) &&
  then_ok (run_cmd sample_dr (CCommit (B "one")) calm (enter wdir u2)) (λ _ w2, bool_decide (sees w2 wdir a_file = Some (FFile hi)) &&
  (bool_decide (edit_at w2 wdir (ERemove a_dir) = None) && bool_decide (edit_at w2 wdir (EMkdir [B "b"; B "c"]) = None) && bool_decide (edit_at (set_mounts w2 []) wdir (EMkdir [B "b"]) = None) &&
  (then_some (edit_at w2 wdir (ERename a_file [B "b"])) (λ v, bool_decide (sees v wdir a_file = None) && bool_decide (sees v wdir [B "b"] = Some (FFile hi))) &&
  then_some (edit_at w2 wdir (ERemove a_file)) (λ u3,
  then_some (edit_at u3 wdir (ERemove a_dir)) (λ u4, bool_decide (sees u4 wdir a_dir = None) &&
  then_some (edit_at u4 wdir (EMkdir a_dir)) (λ u5, bool_decide (sees u5 wdir a_dir = Some (FDir false)) && bool_decide (sees u5 wdir a_file = None)))))))))) = true.
Proof. vm_compute. reflexivity. Qed.
Lemma kept_place dr w V p pl e w' : good_path dr → models dr w V → v_places V !! p = Some pl → awake dr w p → edit_at w p e = Some w' → user_edits dr V w w' ∧ models dr w' V ∧ awake dr w' p.
Proof.
  intros G Md Ep Aw E. pose proof Md as [_ (mids & _ & Hpl)]. destruct (Hpl _ _ Ep) as (_ & y & a & _ & T & _ & _ & _ & _ & lows & _ & C).
  destruct (C88_workspace _ _ _ _ _ _ _ e G Md Ep Aw T C) as [_ H]. destruct (H _ E) as (A1 & A2 & A3 & _). done.
Qed.
(** After the commit the file can be renamed, the directory is not empty and cannot be removed, and without the mount nothing can be created. A directory that is created again hides what
    was in it before. *)
Example C88_sat : ∃ u2 w2 v u3 u4 u5 V, let w := wdir in
  run_cmd sample_dr (CCommit (B "one")) calm (enter w u2) = (Ok tt, w2) ∧ models sample_dr w2 V ∧ is_Some (v_places V !! w) ∧ awake sample_dr w2 w ∧ sees w2 w a_file = Some (FFile (B "hi")) ∧
  edit_at w2 w (ERemove a_dir) = None ∧ edit_at w2 w (EMkdir [B "b"; B "c"]) = None ∧ edit_at (set_mounts w2 []) w (EMkdir [B "b"]) = None ∧
  edit_at w2 w (ERename a_file [B "b"]) = Some v ∧ sees v w a_file = None ∧ sees v w [B "b"] = Some (FFile (B "hi")) ∧
  edit_at w2 w (ERemove a_file) = Some u3 ∧ edit_at u3 w (ERemove a_dir) = Some u4 ∧ sees u4 w a_dir = None ∧ edit_at u4 w (EMkdir a_dir) = Some u5 ∧ models sample_dr u5 V ∧ awake sample_dr u5 w ∧
  sees u5 w a_dir = Some (FDir false) ∧ sees u5 w a_file = None.
Proof.
  pose proof edits_test as H. cbv zeta in H. apply andb_true_iff in H as [I0 H]. apply andb_true_iff in I0 as [I0 O0].
  destruct (then_ok_inv _ _ H) as ([] & w1 & E1 & H1). clear H. cbv beta in H1. destruct (then_some_inv _ _ H1) as (u1 & Q1 & H2). clear H1. cbv beta in H2.
  destruct (then_some_inv _ _ H2) as (u2 & Q2 & H3). clear H2. cbv beta in H3. apply andb_true_iff in H3 as [I1 H3]. destruct (then_ok_inv _ _ H3) as ([] & w2 & E2 & H4). clear H3. cbv beta in H4.
  apply andb_true_iff in H4 as [S1 H4]. apply andb_true_iff in H4 as [N1 H4]. apply andb_true_iff in N1 as [N1 N3]. apply andb_true_iff in N1 as [N1 N2].
  apply andb_true_iff in H4 as [Hv H4]. destruct (then_some_inv _ _ Hv) as (v & Qv & Hv'). clear Hv. cbv beta in Hv'. apply andb_true_iff in Hv' as [Sv1 Sv2]. apply bool_decide_eq_true in Sv1. apply bool_decide_eq_true in Sv2.
  destruct (then_some_inv _ _ H4) as (u3 & Q3 & H5). clear H4. cbv beta in H5. destruct (then_some_inv _ _ H5) as (u4 & Q4 & H6). clear H5. cbv beta in H6. apply andb_true_iff in H6 as [S2 H6].
  destruct (then_some_inv _ _ H6) as (u5 & Q5 & H7). clear H6. cbv beta in H7. apply andb_true_iff in H7 as [S3 S4].
  apply bool_decide_eq_true in S1. apply bool_decide_eq_true in S2. apply bool_decide_eq_true in S3. apply bool_decide_eq_true in S4. apply bool_decide_eq_true in N1. apply bool_decide_eq_true in N2. apply bool_decide_eq_true in N3.
  destruct sample_plain as [P G]. assert (∀ k, k ≤ 40 → fits sample_dr k) as Fi by (intros k Hk; by apply sample_fits).
  assert (Fs.abs_from home (default (B ".") (head [B "w"])) = wdir) as Ah by (vm_compute; reflexivity).
  assert (outside sample_dr wdir) as Ow by (split; vm_compute; reflexivity). destruct (home_runs _ O0) as [R0 _].
  destruct (C80_empty sample_dr sample_world sample_order) as [M0 D0].
  assert (apart (Vcs ∅ ∅)) as A0 by (intros p q pl pq Q; cbn [v_places] in Q; rewrite lookup_empty in Q; discriminate Q).
  destruct (calm_files (Vcs ∅ ∅) 1 home (CInit [B "w"] (B "main")) sample_world sample_world (Ok tt) w1 M0 A0 D0 (le_n 1) (Fi 1 ltac:(lia)) (user_none _ _ _ sample_order) I0) as (V1 & X1 & M1 & A1 & D1 & F1).
  { split; [exact R0|]. cbv zeta. rewrite Ah. split; [split; [exact Ow|]|].
    - intros s Q. vm_compute in Q. discriminate Q.
    - intros m Hm. apply elem_of_nil in Hm. destruct Hm. }
  { exact E1. }
  assert (is_Some (v_places V1 !! wdir)) as [pl P1].
  { cbn [vstep] in X1. rewrite Ah in X1. destruct X1 as [(_ & _ & pl & rid & -> & _)|(_ & Q & _)]; [|by destruct (Q tt)]. cbn [put_place v_places]. rewrite lookup_insert. by eexists. }
  assert (awake sample_dr w1 wdir) as Aw1.
  { destruct (proj2 (proj2 F1) _ _ P1) as [[Q _]|(_ & _ & Q)]; [|exact Q]. cbn [v_places] in Q. rewrite lookup_empty in Q. discriminate Q. }
  destruct (kept_place _ _ _ _ _ _ _ G M1 P1 Aw1 Q1) as (_ & Mu1 & Aw2). destruct (kept_place _ _ _ _ _ _ _ G Mu1 P1 Aw2 Q2) as (U2 & Mu2 & Aw3).
  destruct (calm_files V1 2 wdir (CCommit (B "one")) u2 u2 (Ok tt) w2 Mu2 A1 D1 ltac:(lia) (Fi 2 ltac:(lia)) (user_none _ _ _ (md_order _ _ _ Mu2)) I1) as (V2 & X2 & M2 & _ & _ & F2).
  { split; [exact (place_runs _ _ _ _ G Mu2 (ex_intro _ _ P1))|]. left. exact (ex_intro _ _ P1). }
  { exact E2. }
  assert (is_Some (v_places V2 !! wdir)) as [pl2 P2].
  { cbn [vstep] in X2. rewrite P1 in X2. destruct X2 as (y & a & _ & _ & [(_ & _ & k & a' & id & _ & _ & ->)|(_ & _ & ->)]); [|by eexists]. cbn [put_place v_places]. rewrite lookup_insert. by eexists. }
  assert (awake sample_dr w2 wdir) as Aw4.
  { destruct (proj2 (proj2 F2) _ _ P2) as [[_ Q]|(_ & _ & Q)]; [|exact Q]. exact (Q Aw3). }
  destruct (kept_place _ _ _ _ _ _ _ G M2 P2 Aw4 Q3) as (_ & Mu3 & Aw5). destruct (kept_place _ _ _ _ _ _ _ G Mu3 P2 Aw5 Q4) as (_ & Mu4 & Aw6). destruct (kept_place _ _ _ _ _ _ _ G Mu4 P2 Aw6 Q5) as (_ & Mu5 & Aw7).
  exists u2, w2, v, u3, u4, u5, V2. cbv zeta. split; [exact E2|]. split; [exact M2|]. split; [exact (ex_intro _ _ P2)|]. split; [exact Aw4|]. split; [exact S1|]. split; [exact N1|]. split; [exact N2|]. split; [exact N3|]. split; [exact Qv|]. split; [exact Sv1|]. split; [exact Sv2|].
  split; [exact Q3|]. split; [exact Q4|]. split; [exact S2|]. split; [exact Q5|]. split; [exact Mu5|]. split; [exact Aw7|]. split; [exact S3|exact S4].
Qed.
Print Assumptions C88_sat.
