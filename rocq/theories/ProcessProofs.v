(** * ProcessProofs: set-up of a process *)
From Verif Require Import Base Uid SpecUid UidProofs Tree SpecTree TreeRefine TreeObs Dump DumpProofs Json JsonProofs Save SaveProofs Branch BranchProofs Date Ws SpecWs WsProofs
  Fs Overlay Os Layers Mounts Space Manager Commands FsProofs OsProofs LayerProofs MountProofs SpaceProofs ManagerProofs SpecWorld SpecOps SavedProofs FaultProofs ReadyProofs OpProofs CalmProofs
  SpecMachine SpecCmds SpecLog MachineProofs OpenProofs CmdProofs ExpandProofs DetProofs SpecTidy TidyProofs Sample SampleProofs Story StoryProofs SpecUsable UsableProofs UsableCmdProofs UsableInitProofs UsableSeqProofs
  SpecNames NamesProofs LongerProofs SpecVcs VcsProofs PrintProofs SpecOrder OrderProofs SpecProcess PropsCommit PropsCmds PropsShow PropsFaults PropsUsable PropsOrder PropsRound PropsVcs.
From Verif Require Cli PropsOptions.
From Coq Require Import Lia.
From stdpp Require Import prelude gmap.

(** What the set-up leaves: the files and mounts of [w], the directory is [d]. *)
Definition arrived (w : world) (d : path) (v : world) (n : nat) : Prop :=
  w_fs v = w_fs w ∧ w_mounts v = w_mounts w ∧ runs_in v d ∧ w_tick w ≤ w_tick v ≤ n + w_tick w.
Lemma enter_real w d : runs_in (enter d w) d → ∃ q, real_path (w_fs w) d = Some q ∧ is_dir_at (w_fs w) q = true ∧ w_cwd (enter d w) = q.
Proof.
  intros [D C _|L G D _]; unfold enter in *; cbn [w_fs w_cwd w_pwd set_pwd set_cwd set_tree] in *.
  - pose proof (real_dir _ _ D) as R. exists d. rewrite R. done.
  - destruct (real_path (w_fs w) d) as [q|] eqn:R; cbn [default] in *; [by exists q|].
    by rewrite (dir_not_link _ _ _ L) in D.
Qed.
Lemma runs_same v v' d : w_fs v' = w_fs v → w_cwd v' = w_cwd v → w_pwd v' = w_pwd v → runs_in v d → runs_in v' d.
Proof. intros E1 E2 E3 [D C P|L G D P]; [apply in_dir|apply in_link]; by rewrite ?E1, ?E2, ?E3. Qed.
Lemma chdir_fine arg d0 o w v : no_faults o → w_fs v = w_fs w → w_mounts v = w_mounts w → runs_in v d0 →
  let d := match arg with [] => d0 | _ => abs_from d0 arg end in runs_in (enter d w) d →
  ∃ v', change_dir arg o v = (Ok tt, v') ∧ arrived v d v' 2.
Proof.
  intros N E1 E2 R d Rd. unfold change_dir. destruct arg as [|a arg]; [exists v; split; [done|]; split; [done|]; split; [done|]; split; [done|lia]|].
  destruct (abs_fine (a :: arg) d0 o v N R) as (k & E & Hk). fold d in E. destruct (enter_real _ _ Rd) as (q & Rq & Dq & Cq).
  eexists. unfold bind at 1. rewrite E. unfold bind at 1, os_chdir, sys_atomic. cbn [w_tick upd]. rewrite N. cbn [w_fs upd tick]. rewrite E1, Rq, Dq. split; [reflexivity|].
  split; [done|]. split; [done|]. split; [|cbn [w_tick set_pwd set_cwd tick upd]; lia].
  eapply (runs_same (enter d w)); [done|by rewrite Cq|done|exact Rd].
Qed.
Lemma below_reachable dr w : founded dr w → below_dirs dr w → reachable dr w.
Proof.
  intros Fo [D H]. split; [done|]. intros q Hq. destruct (decide (q = dr)) as [->|Nq]; [|right; by apply H]. apply (fo_base _ _ Fo). left.
Qed.
Lemma inject_fine dr s o w d : no_faults o → founded dr w → reachable dr w → runs_in w d → abs_from d s = dr →
  ∃ w', inject_manager s o w = (Ok dr, w') ∧ prepares dr w w' ∧ in_order dr w' ∧ w_tick w ≤ w_tick w' ≤ 9 + w_tick w ∧ runs_in w' d.
Proof.
  intros N Fo Re R Es. destruct (abs_fine s d o w N R) as (k & Ea & Hk). rewrite Es in Ea. set (v := upd w (w_fs w) (w_mounts w) (w_tree w) k) in *.
  assert (founded dr v) as Fov by (destruct Fo as [A1 A2 A3]; constructor; done). assert (reachable dr v) as Rev by exact Re.
  destruct (prepare_fine dr o v N Fov Rev) as (st & w1 & E & K). pose proof (C77_prepare _ _ _ _ _ Fov (proj1 Rev) E) as Io.
  pose proof (prepare_any _ _ _ _ _ _ (mc_wf _ _ _ (fo_machine _ _ Fov)) (proj1 Rev) E) as Pv.
  assert (prepares dr w w1) as Pp by (destruct Pv; constructor; done). destruct (pp_proc _ _ _ Pp) as (Q5 & Q6 & _).
  exists w1. split; [|split; [done|]; split; [done|]; split; [change (w_tick v) with k in K; lia|]].
  - unfold inject_manager. erewrite bind_run; [|exact Ea]. erewrite bind_run; [|exact E]. reflexivity.
  - assert (extends (w_fs w) (w_fs w1)) as Ex by (intros q x; by apply (prepares_keeps dr w)). destruct R as [D C Pw|El Gl D Pw].
    + apply in_dir; [by apply (prepares_dir dr w)|congruence|by rewrite Q6].
    + apply in_link; [rewrite Q5; by apply Ex|by rewrite Q5|rewrite Q5; by apply (prepares_dir dr w)|by rewrite Q6].
Qed.
(** Prepare changes nothing that matters for [V]. *)
Lemma prepares_place dr w w' p mid y hid a : prepares dr w w' → workspace_at dr w p mid y hid a → workspace_at dr w' p mid y hid a.
Proof.
  intros Pp [A1 A2 A3 A4 A5 A6]. constructor; try done.
  - by eapply prepares_keeps.
  - destruct A2 as [D A2]. split; [by eapply prepares_dir|by rewrite (pp_mounts _ _ _ Pp)].
  - by eapply prepares_keeps.
  - destruct A5 as (raw & E & L). exists raw. split; [by eapply prepares_keeps|done].
Qed.
Lemma prepares_models dr w w' V : prepares dr w w' → in_order dr w' → stands dr w V → models dr w' V.
Proof.
  intros Pp Io [Md|[_ Ev]].
  - destruct Md as [_ (mids & Hi & Hp)]. split; [done|]. exists mids. split; [done|]. intros p pl Ep. destruct (Hp _ _ Ep) as (O & y & a & Wa & T & A1 & A2 & A3 & A4 & A5). split; [done|]. exists y, a.
    split; [by eapply prepares_place|]. do 5 (split; [done|]). unfold stacked in *. by rewrite (pp_mounts _ _ _ Pp).
  - split; [done|]. exists (λ _, new_uid 0 0). rewrite Ev. split; [intros p q [x E]|intros p pl E]; by rewrite lookup_empty in E.
Qed.
Lemma stands_user dr w w1 V : plain_path dr → good_path dr → stands dr w V → meanwhile dr w w1 → (∀ p, is_Some (v_places V !! p) → fget (w_fs w1) p = fget (w_fs w) p) → stands dr w1 V.
Proof.
  intros P G [Md|[Fo Ev]] U Hl; [left; by eapply models_while|]. right. split; [|done]. destruct U as (v & U & Ef & S). eapply (happens_founded dr v); [done|done| |].
  - eapply (happens_founded dr w); [done|done|exact Fo|]. by apply happens_step, step_user.
  - apply happens_step, step_lost; [done|]. intros m Hm. by eapply sub_elem.
Qed.
Lemma stands_founded dr w V : stands dr w V → founded dr w.
Proof. intros [Md|[Fo _]]; [|done]. by apply order_founded, Md. Qed.
Lemma prepares_parent dr w w' p : prepares dr w w' → below_dirs dr w → outside dr p → is_dir_at (w_fs w') (parent_dir p) = is_dir_at (w_fs w) (parent_dir p).
Proof.
  intros Pp [_ H] [O1 O2]. destruct (pp_fs _ _ _ Pp (parent_dir p)) as [E|(N & E & Q)]; [unfold is_dir_at; by rewrite E|]. exfalso.
  assert (∃ n, p = parent_dir p ++ [n]) as [n Ep].
  { destruct (decide (p = [])) as [->|Np]; [by destruct dr|]. destruct (exists_last Np) as (k & m & ->). exists m. by rewrite parent_dir_app. }
  destruct Q as [Q|[m Q]].
  - destruct (decide (parent_dir p = dr)) as [E1|N1].
    + rewrite Ep, E1, is_prefix_app in O1. done.
    + specialize (H _ Q N1). unfold is_dir_at in H. by rewrite N in H.
  - rewrite Ep, Q, <-app_assoc, is_prefix_app in O1. done.
Qed.
Lemma prepares_free dr w w' p : prepares dr w w' → below_dirs dr w → outside dr p → free_spot w' p ↔ free_spot w p.
Proof.
  intros Pp B O. unfold free_spot. rewrite (prepares_parent _ _ _ _ Pp B O). pose proof (prepares_away _ _ _ _ Pp O) as Ha.
  assert (fget (w_fs w') p = fget (w_fs w) p) as Hp by (specialize (Ha []); by rewrite app_nil_r in Ha). unfold is_dir_at. rewrite Hp. by setoid_rewrite Ha.
Qed.
Lemma prepares_replace dr w w' p : prepares dr w w' → below_dirs dr w → outside dr p → ((∃ s, fget (w_fs w) p = Some (FLink s)) → is_Some (real_path (w_fs w) p)) → can_replace w' p ↔ can_replace w p.
Proof.
  intros Pp B O Hl. unfold can_replace. rewrite (prepares_parent _ _ _ _ Pp B O), (pp_mounts _ _ _ Pp). pose proof (prepares_away _ _ _ _ Pp O) as Ha.
  assert (fget (w_fs w') p = fget (w_fs w) p) as Hp by (specialize (Ha []); by rewrite app_nil_r in Ha).
  assert (is_Some (real_path (w_fs w') p) ↔ is_Some (real_path (w_fs w) p)) as Hr.
  { split.
    - unfold real_path. cbn [real]. rewrite Hp. destruct (fget (w_fs w) p) as [[]|] eqn:E; try done. intros _. destruct Hl as [q Hq]; [by eexists|]. unfold real_path in Hq. cbn [real] in Hq. rewrite E in Hq. by exists q.
    - intros [q Hq]. exists q. eapply real_extends; [|exact Hq]. intros x y. by apply (prepares_keeps dr w). }
  rewrite Hr. unfold is_dir_at. rewrite Hp. by setoid_rewrite Ha.
Qed.
Lemma prepares_plain dr w w' p : prepares dr w w' → plain_spot dr w p → plain_spot dr w' p.
Proof. intros Pp [O H]. split; [done|]. pose proof (prepares_away _ _ _ _ Pp O []) as Ha. rewrite app_nil_r in Ha. by rewrite Ha. Qed.
(** What is allowed stays so, up to the directory of the process. *)
Lemma prepares_allowed dr V w w' d c : prepares dr w w' → runs_in (enter d w') d → allowed dr V w d c → allowed dr V w' d c.
Proof.
  intros Pp R [_ Al]. split; [done|]. destruct c as [args branch|source target|msg|key|opts args|opts args|args].
  - destruct Al as [A1 A2]. split; [by eapply prepares_plain|by rewrite (pp_mounts _ _ _ Pp)].
  - destruct Al as (A1 & A2 & A3). split; [destruct A1 as [A1|A1]; [by left|right; by eapply prepares_plain]|]. split; [done|].
    pose proof (prepares_away _ _ _ _ Pp A2 []) as Ha. rewrite app_nil_r in Ha. rewrite Ha. intros Hs. destruct (A3 Hs) as [q Hq]. exists q. eapply real_extends; [|exact Hq]. intros x y. by apply (prepares_keeps dr w).
  - destruct Al as [A|A]; [by left|right; by eapply prepares_plain].
  - destruct Al as [A|A]; [by left|right; by eapply prepares_plain].
  - destruct Al as [A|A]; [by left|right; by eapply prepares_plain].
  - destruct Al as [A|A]; [by left|right; by eapply prepares_plain].
  - destruct Al as [A|A]; [by left|right; by eapply prepares_plain].
Qed.
Lemma prepares_vstep dr V w w' d c r V' : prepares dr w w' → below_dirs dr w → allowed dr V w d c → vstep w' V d c r V' → vstep w V d c r V'.
Proof.
  intros Pp Bd [_ Al] H. destruct c as [args branch|source target|msg|key|opts args|opts args|args]; [| |exact H..].
  - destruct Al as [[O _] _]. pose proof (prepares_free _ _ _ _ Pp Bd O) as Hf. cbn [vstep] in *. by rewrite <-Hf.
  - destruct Al as (_ & O & Hs). pose proof (prepares_replace _ _ _ _ Pp Bd O Hs) as Hf. cbn [vstep] in *. destruct (v_places V !! _) as [pl|]; [|done].
    destruct H as (x & a & a' & A1 & A2 & A3 & A4). exists x, a, a'. split; [done|]. split; [done|]. split; [done|]. by rewrite <-Hf.
Qed.
Lemma prepares_awake dr w w' p : prepares dr w w' → awake dr w p → awake dr w' p.
Proof. intros Pp (i & L & Hm). exists i. split; [by eapply prepares_keeps|by rewrite (pp_mounts _ _ _ Pp)]. Qed.
Lemma prepares_files dr w w' w2 V V' : prepares dr w w' → files_step dr w' w2 V V' → files_step dr w w2 V V'.
Proof.
  intros Pp (U & Ln & H).
  assert (∀ i q, is_prefix (diff_dir (layers_root dr) i) q = true → fget (w_fs w') q = fget (w_fs w) q) as Hd.
  { intros i q [k ->]%is_prefix_spec. eapply (prepares_deep dr w w' _ (B "overlay") (uid_b32 i) (B "diff" :: k)); [done|]. unfold diff_dir, layer_dir, layers_root. by rewrite <-!app_assoc. }
  assert (∀ i, fget (w_fs w') (layer_dir (layers_root dr) i) = fget (w_fs w) (layer_dir (layers_root dr) i)) as Hi.
  { intros i. eapply (prepares_deep dr w w' _ (B "overlay") (uid_b32 i) []); [done|]. unfold layer_dir, layers_root. by rewrite <-!app_assoc. }
  split; [|split].
  - intros i D q Hq. rewrite <-(Hd i q Hq). apply (U i); [|done]. unfold is_dir_at in *. by rewrite (Hd i) by apply is_prefix_refl.
  - intros sid a' i Ea Hi'. destruct (Ln _ _ _ Ea Hi') as [Q|[N1 N2]]; [by left|right]. rewrite <-Hi. split; [done|]. intros j k Hn Hk. apply (N2 j k); [by rewrite Hi|done].
  - intros p pl Ep. destruct (H p pl Ep) as [[E Ha]|(N1 & N2 & N3)]; [left; split; [done|]; intros Hw; by eapply Ha, prepares_awake|right]. rewrite <-Hi. split; [done|]. split; [|done]. intros i k Hn Hk. apply (N2 i k); [by rewrite Hi|done].
Qed.
Lemma prepares_ids dr o v w w' : prepares dr w w' → many_new_ids dr o v → w_fs w = w_fs v → w_tick v ≤ w_tick w' ≤ 20 + w_tick v → new_ids dr o w'.
Proof.
  intros Pp Nw Ef K n Hn. destruct (Nw n) as (A1 & A2 & A3 & A4 & A5); [lia|]. rewrite <-Ef in *. split_and!.
  - rewrite (prepares_deep dr w w' _ (B "mounts") (uid_b32 (ch_uid (o n))) []); done.
  - rewrite (prepares_deep dr w w' _ (B "mounts") (uid_b32 (ch_uid (o n)) ++ B ".workspace") []); done.
  - rewrite (prepares_deep dr w w' _ (B "overlay") (uid_b32 (ch_uid (o n))) []); done.
  - rewrite (prepares_deep dr w w' _ (B "spaces") (uid_b32 (ch_uid (o n))) []); done.
  - intros k Hk. apply A5. lia.
Qed.
(** Only files and mounts matter. *)
Lemma disk_vstep w v V d c r V' : w_fs v = w_fs w → w_mounts v = w_mounts w → vstep v V d c r V' → vstep w V d c r V'.
Proof.
  intros E1 E2. destruct c as [args branch|source target|msg|key|opts args|opts args|args]; [| |done..]; cbn [vstep]; unfold free_spot, can_replace; by rewrite E1, ?E2.
Qed.
Lemma disk_allowed dr w v V d c : w_fs v = w_fs w → w_mounts v = w_mounts w → allowed dr V w d c → allowed dr V v d c.
Proof.
  intros E1 E2 [R Al]. split; [eapply runs_same; [..|exact R]; [done|unfold enter; cbn; by rewrite E1|done]|].
  destruct c as [args branch|source target|msg|key|opts args|opts args|args]; unfold plain_spot in *; rewrite E1, ?E2; exact Al.
Qed.
Lemma prepares_enter dr w w' d : prepares dr w w' → runs_in (enter d w) d → runs_in (enter d w') d.
Proof.
  intros Pp R. destruct (enter_real _ _ R) as (q & Rq & Dq & Cq). assert (real_path (w_fs w') d = Some q) as Rq' by (eapply real_extends; [|exact Rq]; intros x y; by apply (prepares_keeps dr w)).
  assert (w_cwd (enter d w') = q) as Cq' by (unfold enter; cbn [w_cwd set_pwd set_cwd set_tree]; by rewrite Rq').
  destruct R as [D C Pw|El Gl D Pw].
  - apply in_dir; [exact (prepares_dir dr w w' d Pp D)|by rewrite Cq', <-C, Cq|by right].
  - rewrite Cq in *. apply in_link; rewrite ?Cq'; [exact (prepares_keeps dr w w' _ _ Pp El)|done|exact (prepares_dir dr w w' _ Pp D)|done].
Qed.
(** The set-up and the command *)
Lemma manager_step dr V n arg s d0 c o w v r w' : plain_path dr → good_path dr → stands dr w V → depth V n → 1 ≤ n → fits dr n → fair o → no_faults o → below_dirs dr w →
  w_fs v = w_fs w → w_mounts v = w_mounts w → many_new_ids dr o v → runs_in v d0 → let d := match arg with [] => d0 | _ => abs_from d0 arg end in allowed dr V w d c → abs_from d s = dr →
  with_manager arg s (λ dr, run_cmd dr c) o v = (r, w') →
  ∃ V' lines, vstep w V d c r V' ∧ (models dr w' V' ∧ files_step dr w w' V V') ∧ depth V' (S n) ∧ screen w' = screen v ++ lines ∧ vlines V d c r lines.
Proof.
  intros P G St Hd Hn Fi F N Bd E1 E2 Nw R d Al Es E. unfold with_manager in E.
  destruct (chdir_fine arg d0 o w v N E1 E2 R (proj1 Al)) as (v1 & Ec & C1 & C2 & C3 & C4). fold d in C3. unfold bind at 1 in E. rewrite Ec in E.
  assert (w_fs v1 = w_fs w) as F1 by congruence. assert (w_mounts v1 = w_mounts w) as F2 by congruence.
  assert (stands dr v1 V) as St1.
  { destruct St as [[Io (mids & Hi & Hp)]|[[A1 A2 A3] Ev]].
    - left. split; [eapply (same_order dr w); [split; congruence|done]|]. exists mids. split; [exact Hi|]. intros p pl Ep. destruct (Hp _ _ Ep) as (O & y & a & Wa & T & B1 & B2 & B3 & B4 & B5).
      split; [done|]. exists y, a. split; [eapply (same_workspaces dr w); [split; congruence|done]|]. do 5 (split; [done|]). unfold stacked in *. by rewrite F2.
    - right. split; [|done]. constructor; rewrite ?F1, ?F2; done. }
  pose proof (stands_founded _ _ _ St1) as Fo.
  assert (below_dirs dr v1) as Bd1 by (unfold below_dirs; rewrite F1; exact Bd).
  destruct (inject_fine dr s o v1 d N Fo (below_reachable _ _ Fo Bd1) C3 Es) as (v2 & Ei & Pp & Io & K & R2). unfold bind at 1 in E. rewrite Ei in E.
  destruct (prepares_models _ _ _ _ Pp Io St1) as [_ (mids & Hi & Hp)].
  assert (new_ids dr o v2) as Nw2 by (eapply prepares_ids; [exact Pp|exact Nw|done|lia]).
  pose proof (disk_allowed dr w v1 V d c F1 F2 Al) as Al1.
  assert (allowed dr V v2 d c) as Al2.
  { eapply prepares_allowed; [exact Pp| |exact Al1]. eapply prepares_enter; [exact Pp|apply Al1]. }
  destruct (step_any dr V mids n c d o v2 r w' P G F N Nw2 Io (conj Hi Hp) Hd Hn Fi R2 Al2 E) as (V' & Vs & (Md & Fs) & D).
  destruct (step_lines dr V mids c d o v2 r w' G F N Io (conj Hi Hp) R2 Al2 E) as (lines & Sl & Hl). rewrite (mute_run _ _ _ _ _ (mute_inject _) Ei), (mute_run _ _ _ _ _ (mute_change_dir _) Ec) in Sl.
  exists V', lines. split; [|split; [|done]].
  - eapply disk_vstep; [exact F1|exact F2|]. by eapply prepares_vstep.
  - split; [done|]. apply (prepares_files _ _ _ _ _ _ Pp) in Fs. unfold files_step, layers_new, untouched, new_empty, same_layer, awake in *. by rewrite F1, F2 in Fs.
Qed.
(** A process of a valid command line is the set-up and the command. *)
Lemma process_is dr j c : PropsOptions.meant (j_name j) (j_items j) = Some c → j_valid dr j →
  ∃ ids, Cli.process (j_uid j) (j_gid j) (j_line j) = Cli.as_user ids (with_manager (PropsOptions.value (j_items j) (B "chdir") []) (j_root j) (λ dr, run_cmd dr c)).
Proof.
  intros Hm (Hi & Hu & Hg & Hv). destruct (PropsOptions.C70_options (j_name j) (j_items j) c (j_uid j) (j_gid j) Hm Hi Hu Hg) as (i & Hs & Er).
  unfold Cli.process. change (j_line j) with (j_name j :: concat (PropsOptions.written <$> j_items j)). eexists. destruct (decide _) as [_|_].
  - destruct Hs as (args' & E1 & E2 & _). rewrite E1, E2. exact Er.
  - rewrite Hs. exact Er.
Qed.
