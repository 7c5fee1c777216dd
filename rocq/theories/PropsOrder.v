(** * PropsOrder: a data root stays in working order (C77) *)
From Verif Require Import Base Uid SpecUid UidProofs Tree SpecTree TreeRefine TreeObs Dump DumpProofs Json JsonProofs Save SaveProofs Branch BranchProofs Date Ws SpecWs WsProofs
  Fs Overlay Os Layers Mounts Space Manager Commands FsProofs OsProofs LayerProofs MountProofs SpaceProofs ManagerProofs SpecWorld SpecOps SavedProofs FaultProofs ReadyProofs OpProofs CalmProofs
  SpecMachine SpecCmds MachineProofs OpenProofs CmdProofs SpecUsable UsableProofs UsableInitProofs UsableCmdProofs UsableSeqProofs SpecOrder OrderProofs
  Sample Story StoryProofs SampleProofs PropsCmds PropsShow PropsFaults PropsUsable.
From Coq Require Import Lia.
From stdpp Require Import prelude gmap.

(** No command, whatever fails in it, and no change by users changes the data root itself or what lies directly in it. *)
Theorem C77_top_level : ∀ dr w w' q, plain_path dr → good_path dr → machine dr (w_fs w) (w_mounts w) → step dr w w' →
  q = dr ∨ (∃ n, q = dr ++ [n]) → fget (w_fs w') q = fget (w_fs w) q.
Proof. intros dr w w' q P G Mc H Hq. by apply (step_top dr w w' P G Mc H). Qed.
(** A data root in working order stays so: any number of processes, each with any faults, users' changes and lost mounts. *)
Theorem C77_in_order : ∀ dr w w', plain_path dr → good_path dr → in_order dr w → rtc (happens dr) w w' → in_order dr w'.
Proof. intros dr w w' P G Io H. induction H as [w|w w1 w2 H1 _ IH]; [done|]. apply IH. by eapply happens_order. Qed.
(** The same for a data root that is missing or incomplete. *)
Theorem C77_founded : ∀ dr w w', plain_path dr → good_path dr → founded dr w → rtc (happens dr) w w' → founded dr w'.
Proof. intros dr w w' P G Fo H. induction H as [w|w w1 w2 H1 _ IH]; [done|]. apply IH. by eapply happens_founded. Qed.
(** Where nothing is, nothing is wrong. *)
Theorem C77_nothing : ∀ dr w, fs_wf (w_fs w) → fget (w_fs w) dr = None → (∀ m, m ∈ w_mounts w → is_prefix (mounts_root dr) (mn_at m) = false) → founded dr w.
Proof.
  intros dr w W N Nm. assert (∀ n, fget (w_fs w) (dr ++ [n]) = None) as Nc by (intros n; by apply fget_parent_None). constructor.
  - apply machine_fresh; [done|..|done]; intros n; by apply fget_parent_None, Nc.
  - intros m Hm Hp. by rewrite (Nm m Hm) in Hp.
  - intros q Hq. left. apply elem_of_cons in Hq as [->|Hq]; [done|]. repeat (apply elem_of_cons in Hq as [->|Hq]; [apply Nc|]). by apply elem_of_nil in Hq.
Qed.
(** If Prepare reports success, the data root is in working order, whatever faults there were. *)
Theorem C77_prepare : ∀ dr o w s w', founded dr w → is_dir_at (w_fs w) [] = true → prepare dr (MState false None) o w = (Ok (s, None), w') → in_order dr w'.
Proof.
  intros dr o w s w' Fo D E. pose proof (prepare_any _ _ _ _ _ _ (mc_wf _ _ _ (fo_machine _ _ Fo)) D E) as Pp.
  pose proof (prepares_founded _ _ _ Pp Fo) as Fo'. destruct (C50_first_prepare dr (MState false None) o w s w' eq_refl D E) as (D0 & D1 & D2 & D3 & _).
  apply order_founded. split; [done|]. intros q Hq.
  assert (dir_there (w_fs w') q) as (z & R & Dz) by (repeat (apply elem_of_cons in Hq as [->|Hq]; [done|]); by apply elem_of_nil in Hq).
  destruct (fo_base _ _ Fo' q Hq) as [N|Dq]; [|done]. unfold real_path in R. cbn [real] in R. by rewrite N in R.
Qed.
(** Without faults it succeeds, if the directories above the data root exist or can be made. *)
Theorem C77_prepare_succeeds : ∀ dr o w, no_faults o → founded dr w → reachable dr w → ∃ s w', prepare dr (MState false None) o w = (Ok (s, None), w') ∧ in_order dr w'.
Proof.
  intros dr o w F Fo R. destruct (prepare_fine dr o w F Fo R) as (s & w' & E & _). exists s, w'. split; [done|]. eapply C77_prepare; [done|apply R|done].
Qed.
(** A whole process is made of such steps. *)
Theorem C77_process : ∀ dr chdir data c o w r w', fair o → fs_wf (w_fs w) → is_dir_at (w_fs w) [] = true →
  (∀ w1, change_dir chdir o w = (Ok tt, w1) → abs_of w1 data = dr) →
  (∀ w2, (change_dir chdir ;;; inject_manager data) o w = (Ok dr, w2) → writes_path c → outside dr (abs_of w2 (cmd_target c))) →
  with_manager chdir data (λ d, run_cmd d c) o w = (r, w') → rtc (happens dr) w w'.
Proof.
  intros dr chdir data c o w r w' F W D Hd Ho H. unfold with_manager in H.
  assert (∀ r1 w1, change_dir chdir o w = (r1, w1) → w_fs w1 = w_fs w ∧ w_mounts w1 = w_mounts w) as Hc.
  { intros r1 w1 E. assert (keeps (λ v, w_fs v = w_fs w ∧ w_mounts v = w_mounts w) (change_dir chdir)) as K; [|by apply (keeps_run _ _ _ _ _ _ K (conj eq_refl eq_refl) E)].
    unfold change_dir. destruct chdir as [|a chdir]; [apply keeps_ret|]. apply keeps_bind.
    - unfold fp_abs. destruct (is_abs _); [apply keeps_ret|]. apply keeps_bind; [apply keeps_getwd; by intros v [A1 A2]|]. intros d. apply keeps_ret.
    - intros p. apply keeps_bind; [apply keeps_chdir; [by intros v [A1 A2]|by intros v q [A1 A2]]|]. intros _ o1 v Hv. exact Hv. }
  assert (∀ v v', same_disk w v → w_fs v' = w_fs v → w_mounts v' = w_mounts v → rtc (happens dr) w v') as Lost.
  { intros v v' [A1 A2] B1 B2. apply rtc_once, happens_step, step_lost; [congruence|]. rewrite B2, A2. auto. }
  apply bind_any in H as [([] & w1 & E1 & H)|(r1 & E1 & _)]; [|destruct (Hc _ _ E1); by eapply (Lost w)].
  destruct (Hc _ _ E1) as [C1 C2]. pose proof (Hd _ E1) as Ed.
  assert (same_disk w w1) as Sd by done.
  apply bind_any in H as [(dr' & w2 & E2 & H)|(r2 & E2 & _)].
  - assert ((change_dir chdir ;;; inject_manager data) o w = (Ok dr', w2)) as Ei by (unfold bind; by rewrite E1).
    pose proof E2 as E3. unfold inject_manager in E3. apply bind_ok in E3 as (q & v1 & Ea & E3). pose proof (abs_ok _ _ _ _ _ Ea) as Eq. apply quiet_abs in Ea as (k & ->). rewrite Ed in Eq. subst q.
    apply bind_ok in E3 as ([s e] & v2 & Ep & E3). cbn [snd] in E3. destruct e as [e|]; [done|]. injection E3 as <- <-.
    eapply rtc_l; [eapply happens_prepare; [|..|exact Ep]|].
    + done.
    + cbn [w_fs upd]. by rewrite C1.
    + apply rtc_once, happens_step. eapply step_cmd; [done|exact F|exact (Ho _ Ei)|exact H].
  - unfold inject_manager in E2. apply bind_any in E2 as [(q & v1 & Ea & E3)|(r3 & Ea & _)].
    2: { apply quiet_abs in Ea as (k & ->). by eapply (Lost w1). }
    pose proof (abs_ok _ _ _ _ _ Ea) as Eq. apply quiet_abs in Ea as (k & ->). rewrite Ed in Eq. subst q.
    apply bind_any in E3 as [([s e] & v2 & Ep & E3)|(r3 & Ep & _)].
    + assert (w' = v2) as -> by (cbn [snd] in E3; destruct e; by injection E3 as _ <-).
      apply rtc_once. eapply happens_prepare; [| |exact Ep]; [done|cbn [w_fs upd]; by rewrite C1].
    + apply rtc_once. eapply happens_prepare; [| |exact Ep]; [done|cbn [w_fs upd]; by rewrite C1].
Qed.
(** However the data root came about, and whatever has happened: a process that runs init in a free place succeeds, if nothing fails in it. *)
Theorem C77_init : ∀ dr args branch o w w' d p, plain_path dr → good_path dr → founded dr w → rtc (happens dr) w w' →
  fair o → no_faults o → reachable dr w' → many_new_ids dr o w' → runs_in w' d → abs_from d (default (B ".") (head args)) = p → outside dr p → can_replace w' p →
  fget (w_fs w') p = None ∨ is_dir_at (w_fs w') p = true → fits dr 1 →
  ∃ w1 w2 mid y id rid, with_manager [] (path_str dr) (λ d, cmd_init d args branch) o w' = (Ok tt, w2) ∧
    in_order dr w1 ∧ (∀ k, fget (w_fs w1) (p ++ k) = fget (w_fs w') (p ++ k)) ∧ put_at dr w1 w2 p None mid y id (fresh_tree rid id (ws_id y) branch) ∧ ws_path y = p ∧ ws_branch y = branch.
Proof.
  intros dr args branch o w w' d p P G Fo Hs F N Re Nw Ru Ea Op Cr He Fi. pose proof (C77_founded _ _ _ P G Fo Hs) as Fo'. clear Fo Hs.
  destruct (prepare_fine dr o w' N Fo' Re) as (s & w1 & E & K). pose proof (C77_prepare _ _ _ _ _ Fo' (proj1 Re) E) as Io.
  pose proof (prepare_any _ _ _ _ _ _ (mc_wf _ _ _ (fo_machine _ _ Fo')) (proj1 Re) E) as Pp. pose proof (prepares_away _ _ _ _ Pp Op) as Ha.
  assert (extends (w_fs w') (w_fs w1)) as Ex by (intros q x; by apply (prepares_keeps dr w')).
  pose proof (pp_mounts _ _ _ Pp) as Q4. destruct (pp_proc _ _ _ Pp) as (Q5 & Q6 & _).
  assert (new_ids dr o w1) as Nw1.
  { intros n Hn. destruct (Nw n) as (A1 & A2 & A3 & A4 & A5); [lia|]. split_and!.
    - rewrite (prepares_deep dr w' w1 _ (B "mounts") (uid_b32 (ch_uid (o n))) []); done.
    - rewrite (prepares_deep dr w' w1 _ (B "mounts") (uid_b32 (ch_uid (o n)) ++ B ".workspace") []); done.
    - rewrite (prepares_deep dr w' w1 _ (B "overlay") (uid_b32 (ch_uid (o n))) []); done.
    - rewrite (prepares_deep dr w' w1 _ (B "spaces") (uid_b32 (ch_uid (o n))) []); done.
    - intros k Hk. apply A5. lia. }
  assert (runs_in w1 d) as Ru1.
  { destruct Ru as [D C Pw|El Gl D Pw].
    - apply in_dir; [by apply (prepares_dir dr w')|congruence|by rewrite Q6].
    - apply in_link; [rewrite Q5; by apply Ex|by rewrite Q5|rewrite Q5; by apply (prepares_dir dr w')|by rewrite Q6]. }
  assert (fget (w_fs w1) p = fget (w_fs w') p) as Hp by (specialize (Ha []); by rewrite app_nil_r in Ha).
  assert (can_replace w1 p) as Cr1.
  { destruct Cr as [[C1 C2]|[[z C1] C2]].
    - left. rewrite Hp. split; [done|by apply (prepares_dir dr w')].
    - right. split; [exists z; by eapply real_extends|]. unfold is_dir_at. rewrite Hp. intros D. destruct (C2 D) as [C3 C4]. split; [intros n; by rewrite Ha|by rewrite Q4]. }
  assert (fget (w_fs w1) p = None ∨ is_dir_at (w_fs w1) p = true) as He1 by (unfold is_dir_at; rewrite Hp; exact He).
  destruct (C67_init dr args branch o w1 d p P G F N Nw1 Io Ru1 Ea Op Cr1 He1 Fi) as (w2 & mid & y & id & rid & E2 & Pa & Ep & Eb & _).
  exists w1, w2, mid, y, id, rid. split; [|done]. unfold with_manager, change_dir. erewrite bind_run; [|reflexivity].
  erewrite bind_run; [exact E2|]. unfold inject_manager. erewrite bind_run.
  - erewrite bind_run; [|exact E]. reflexivity.
  - unfold fp_abs. rewrite is_abs_path_str, join_path_str by done. reflexivity.
Qed.
Print Assumptions C77_top_level.
Print Assumptions C77_in_order.
Print Assumptions C77_founded.
Print Assumptions C77_nothing.
Print Assumptions C77_prepare.
Print Assumptions C77_prepare_succeeds.
Print Assumptions C77_process.
Print Assumptions C77_init.

(** ** A concrete case *)
Definition many_ids_check (dr : path) (o : oracle) (w : world) : bool :=
  forallb (λ n, bool_decide (fget (w_fs w) (mount_dir dr (ch_uid (o n))) = None ∧ fget (w_fs w) (ws_file dr (ch_uid (o n))) = None ∧
                             fget (w_fs w) (layer_dir (layers_root dr) (ch_uid (o n))) = None ∧ fget (w_fs w) (space_dir dr (ch_uid (o n))) = None) &&
                forallb (λ k, bool_decide (ch_uid (o k) ≠ ch_uid (o n))) (seq (w_tick w) (n - w_tick w))) (seq (w_tick w) 61).
Lemma many_ids_check_ok dr o w : many_ids_check dr o w = true → many_new_ids dr o w.
Proof.
  unfold many_ids_check. rewrite forallb_forall. intros H n Hn. specialize (H n). rewrite in_seq, andb_true_iff, bool_decide_eq_true, forallb_forall in H.
  destruct H as [(A1 & A2 & A3 & A4) H]; [lia|]. split_and!; try done. intros k Hk. specialize (H k). rewrite in_seq, bool_decide_eq_true in H. apply H. lia.
Qed.
(** A machine on which the program has never run *)
Definition bare : world := set_fs sample_world [([], FDir false); (home, FDir false); (wdir, FDir false)].
Definition killed_then {A} (x : res A * world) (f : world → bool) : bool := match x with (Crash, w) => f w | _ => false end.
Lemma killed_then_inv {A} (x : res A * world) f : killed_then x f = true → ∃ w, x = (Crash, w) ∧ f w = true.
Proof. destruct x as [[| | | |] w]; try done. intros H. by exists w. Qed.
(** init is killed while it makes the directories of the data root: the first of them is there, the others are not. *)
Lemma bare_test : killed_then (with_manager [] (path_str sample_dr) (λ d, run_cmd d (CInit [] (B "main"))) (with_fault calm 3 (FKill 1)) (enter wdir bare)) (λ w,
  is_dir_at (w_fs w) (layers_root sample_dr) && bool_decide (fget (w_fs w) (spaces_root sample_dr) = None) && many_ids_check sample_dr calm (enter wdir w) &&
  is_dir_at (w_fs w) [] && is_dir_at (w_fs w) sample_dr && is_dir_at (w_fs w) wdir && no_children (w_fs w) wdir &&
  bool_decide (real_path (w_fs w) wdir = Some wdir) && bool_decide (w_mounts w = [])) = true.
Proof. vm_compute. reflexivity. Qed.
Lemma bare_early : killed_then ((change_dir [] ;;; inject_manager (path_str sample_dr)) (with_fault calm 3 (FKill 1)) (enter wdir bare)) (λ _, true) = true.
Proof. vm_compute. reflexivity. Qed.
Lemma prefix_sample q : is_prefix q sample_dr = true → q = [] ∨ q = sample_dr.
Proof. intros [k E]%is_prefix_spec. destruct q as [|a [|b q]]; [by left|injection E as <- _; by right|done]. Qed.
Example C77_sat : founded sample_dr (enter wdir bare) ∧ ∃ w,
  with_manager [] (path_str sample_dr) (λ d, run_cmd d (CInit [] (B "main"))) (with_fault calm 3 (FKill 1)) (enter wdir bare) = (Crash, w) ∧
  fget (w_fs w) (spaces_root sample_dr) = None ∧ rtc (happens sample_dr) (enter wdir bare) (enter wdir w) ∧
  reachable sample_dr (enter wdir w) ∧ many_new_ids sample_dr calm (enter wdir w) ∧ runs_in (enter wdir w) wdir ∧ abs_from wdir (B ".") = wdir ∧ outside sample_dr wdir ∧
  can_replace (enter wdir w) wdir ∧ is_dir_at (w_fs (enter wdir w)) wdir = true ∧ fits sample_dr 1 ∧
  (∃ w2, with_manager [] (path_str sample_dr) (λ d, cmd_init d [] (B "main")) calm (enter wdir w) = (Ok tt, w2) ∧ in_order sample_dr w2).
Proof.
  destruct sample_plain as [P G].
  assert (fs_wf (w_fs (enter wdir bare))) as W by (apply wf_check_ok; vm_compute; reflexivity).
  assert (founded sample_dr (enter wdir bare)) as Fo.
  { apply C77_nothing; [exact W|vm_compute; reflexivity|]. intros m Hm. by apply elem_of_nil in Hm. }
  split; [exact Fo|]. destruct (killed_then_inv _ _ bare_test) as (w & E & H). cbv beta in H.
  rewrite !andb_true_iff, !bool_decide_eq_true in H. destruct H as ((((((((H1 & H2) & H3) & H4) & H5) & H6) & H7) & H8) & H9).
  assert (rtc (happens sample_dr) (enter wdir bare) w) as Hs.
  { refine (C77_process sample_dr [] (path_str sample_dr) (CInit [] (B "main")) _ _ _ _ _ W _ _ _ E).
    - apply fair_with_fault, fair_calm.
    - vm_compute. reflexivity.
    - intros w1 _. unfold abs_of. rewrite is_abs_path_str, join_path_str by exact G. reflexivity.
    - intros w2 E2 _. destruct (killed_then_inv _ _ bare_early) as (w3 & E3 & _). rewrite E2 in E3. discriminate E3. }
  assert (rtc (happens sample_dr) (enter wdir bare) (enter wdir w)) as Hs'.
  { eapply rtc_r; [exact Hs|]. apply happens_step, step_lost; [reflexivity|]. intros m Hm. exact Hm. }
  assert (reachable sample_dr (enter wdir w)) as Re.
  { split; [exact H4|]. intros q [-> | ->]%prefix_sample; right; [exact H4|exact H5]. }
  assert (runs_in (enter wdir w) wdir) as Ru by (apply in_dir; [exact H6|unfold enter; cbn [w_cwd set_pwd set_cwd]; by rewrite H8|right; reflexivity]).
  assert (abs_from wdir (B ".") = wdir) as Ea by (vm_compute; reflexivity).
  assert (can_replace (enter wdir w) wdir) as Cr.
  { right. split; [exists wdir; exact H8|]. intros _. split; [intros n; exact (no_children_ok (w_fs w) wdir n H7)|]. intros m Hm. change (m ∈ w_mounts w) in Hm. rewrite H9 in Hm. by apply elem_of_nil in Hm. }
  assert (many_new_ids sample_dr calm (enter wdir w)) as Nw by (by apply many_ids_check_ok).
  assert (fits sample_dr 1) as Fi by (apply sample_fits; lia).
  exists w. split; [exact E|]. split; [exact H2|]. split; [exact Hs'|]. split; [exact Re|]. split; [exact Nw|]. split; [exact Ru|]. split; [exact Ea|]. split; [exact sample_outside|].
  split; [exact Cr|]. split; [exact H6|]. split; [exact Fi|].
  destruct (C77_init sample_dr [] (B "main") calm (enter wdir bare) (enter wdir w) wdir wdir P G Fo Hs' fair_calm calm_no_faults Re Nw Ru Ea sample_outside Cr (or_intror H6) Fi) as (w1 & w2 & mid & y & id & rid & E2 & _ & _ & Pa & _).
  exists w2. split; [exact E2|apply Pa].
Qed.
