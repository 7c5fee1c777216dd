(** * PropsNames: branch, tag and log on machines in working order, and sessions of commands (C75, C76) *)
From Verif Require Import Base Uid SpecUid UidProofs Tree SpecTree TreeRefine TreeObs Dump DumpProofs Json JsonProofs Save SaveProofs Branch BranchProofs Date Ws SpecWs WsProofs
  Fs Overlay Os Layers Mounts Space Manager Commands FsProofs OsProofs LayerProofs MountProofs SpaceProofs ManagerProofs SpecWorld SpecOps SavedProofs FaultProofs ReadyProofs OpProofs CalmProofs
  SpecMachine SpecCmds SpecLog MachineProofs OpenProofs CmdProofs SpecTidy Sample SampleProofs Story StoryProofs SpecUsable UsableSeqProofs SpecNames NamesProofs
  PropsCommit PropsCmds PropsShow PropsLog PropsUsable.
From Coq Require Import Lia.
From stdpp Require Import prelude gmap.

(** ** C75 *)
(** In a workspace, on a machine in working order, the result of branch, tag and log and what they make of the tree are those that
    [names_result] describes; nothing but the tree changes, and all workspaces of the machine stay in working order. *)
Theorem C75_names : ∀ dr c o w p mid y hid a r w', plain_path dr → good_path dr → fair o → no_faults o → in_order dr w →
  workspace_at dr w p mid y hid a → runs_in w p → names_cmd c → run_cmd dr c o w = (r, w') →
  ∃ a', names_result (read_back y) hid c a a' r ∧ relabelled dr w w' (sp_id (ws_space y)) a'.
Proof. exact names_fine. Qed.
(** In particular, when they succeed. *)
Theorem C75_branch_succeeds : ∀ dr opts n rest o w p mid y hid a, plain_path dr → good_path dr → fair o → no_faults o → in_order dr w →
  workspace_at dr w p mid y hid a → runs_in w p → bo_list opts = false → bo_current opts = false → bo_delete opts = false →
  ((run_cmd dr (CBranch opts (n :: rest)) o w).1 = Ok tt ↔
   is_Some (meant (read_back y) hid a (ref_arg rest)) ∧ (bo_force opts = true ∨ a_branches a !! local_key (ws_id y) n = None)).
Proof.
  intros dr opts n rest o w p mid y hid a P G F N Io Wa R El Ec Ed. destruct (run_cmd dr (CBranch opts (n :: rest)) o w) as [r w'] eqn:E. cbn [fst].
  destruct (C75_names _ (CBranch opts (n :: rest)) _ _ _ _ _ _ _ _ _ P G F N Io Wa R I E) as (a' & Hr & _). cbn [names_result] in Hr. rewrite El, Ec, Ed in Hr. cbn [orb] in Hr.
  unfold branch_added in Hr. cbn [read_back ws_id] in Hr. destruct (meant _ _ _ _) as [id|].
  - case_decide as D; destruct Hr as [-> _].
    + split; [done|]. intros [_ [Q|Q]]; destruct D as [[v D] Df]; congruence.
    + split; [intros _|done]. split; [by eexists|]. destruct (bo_force opts); [by left|right]. apply eq_None_not_Some. intros Q. by apply D.
  - destruct Hr as [Fr _]. split; [intros ->; by destruct (Fr tt)|]. intros [Q _]. by apply is_Some_None in Q.
Qed.
Theorem C75_tag_succeeds : ∀ dr opts n rest o w p mid y hid a, plain_path dr → good_path dr → fair o → no_faults o → in_order dr w →
  workspace_at dr w p mid y hid a → runs_in w p → to_list opts = false → to_delete opts = false →
  ((run_cmd dr (CTag opts (n :: rest)) o w).1 = Ok tt ↔
   is_Some (meant (read_back y) hid a (ref_arg rest)) ∧ (to_force opts = true ∨ a_tags a !! n = None)).
Proof.
  intros dr opts n rest o w p mid y hid a P G F N Io Wa R El Ed. destruct (run_cmd dr (CTag opts (n :: rest)) o w) as [r w'] eqn:E. cbn [fst].
  destruct (C75_names _ (CTag opts (n :: rest)) _ _ _ _ _ _ _ _ _ P G F N Io Wa R I E) as (a' & Hr & _). cbn [names_result] in Hr. rewrite El, Ed in Hr.
  unfold tag_added in Hr. destruct (meant _ _ _ _) as [id|].
  - case_decide as D; destruct Hr as [-> _].
    + split; [done|]. intros [_ [Q|Q]]; destruct D as [[v D] Df]; congruence.
    + split; [intros _|done]. split; [by eexists|]. destruct (to_force opts); [by left|right]. apply eq_None_not_Some. intros Q. by apply D.
  - destruct Hr as [Fr _]. split; [intros ->; by destruct (Fr tt)|]. intros [Q _]. by apply is_Some_None in Q.
Qed.
Theorem C75_log_succeeds : ∀ dr args o w p mid y hid a, plain_path dr → good_path dr → fair o → no_faults o → in_order dr w →
  workspace_at dr w p mid y hid a → runs_in w p → ((run_cmd dr (CLog args) o w).1 = Ok tt ↔ can_log (read_back y) hid a (ref_arg args)).
Proof.
  intros dr args o w p mid y hid a P G F N Io Wa R. destruct (run_cmd dr (CLog args) o w) as [r w'] eqn:E. cbn [fst].
  destruct (C75_names _ (CLog args) _ _ _ _ _ _ _ _ _ P G F N Io Wa R I E) as (a' & [_ Hr] & _). done.
Qed.
Print Assumptions C75_names.
Print Assumptions C75_branch_succeeds.
Print Assumptions C75_tag_succeeds.
Print Assumptions C75_log_succeeds.

(** ** C76 *)
(** Any number of workspaces: commits, and branch, tag and log commands, in any of them and in any order. Every commit succeeds,
    however the other commands end, unless a branch --force moves the branch of the very workspace it runs in. *)
Theorem C76_session : ∀ dr ps (ids : path → uid) (br : path → bytes) l w n, plain_path dr → good_path dr →
  (∀ p q, p ∈ ps → q ∈ ps → ids p = ids q → p = q) → (∀ p, p ∈ ps → outside dr p) →
  (∀ p t, (p, t) ∈ l → p ∈ ps ∧ match t with ACommit _ => True | ANames c => names_cmd c ∧ spares (br p) c end) →
  in_order dr w → (∀ p, p ∈ ps → commits_on dr w n p (ids p) (br p)) → fits dr (n + commits_in l) →
  session dr ps l (λ w', in_order dr w' ∧ ∀ p, p ∈ ps → commits_on dr w' (n + commits_in l) p (ids p) (br p)) w.
Proof. intros dr ps ids br l w n P G Hd Ho Hl Io Hc Fi. by apply session_fine. Qed.
(** With --force it is not so: a commit that succeeds before the branch is moved fails after it. *)
Definition before_force : list event :=
  [Do calm home (CInit [B "w"] (B "main")); Do calm wdir (CCommit (B "one")); Do calm wdir (CCheckout (B "ROOT")); Do calm wdir (CCommit (B "two"));
   Do calm wdir (CTag (TagOpts false false false) [B "x"]); Do calm wdir (CCheckout (B "main"))].
Definition forced : event := Do calm wdir (CBranch (BranchOpts false false false false false true) [B "main"; B "x"]).
Theorem C76_force_refuted :
  told sample_dr (before_force ++ [Do calm wdir (CCommit (B "three"))]) sample_world [true; true; true; true; true; true; true] (λ _, true) = true ∧
  told sample_dr (before_force ++ [forced; Do calm wdir (CCommit (B "three"))]) sample_world [true; true; true; true; true; true; true; false] (λ _, true) = true.
Proof. split; vm_compute; reflexivity. Qed.
Print Assumptions C76_session.
Print Assumptions C76_force_refuted.

(** ** Concrete cases *)
Definition branch_dev : command := CBranch (BranchOpts false false false false false false) [B "dev"].
Definition says {A} (r : res A * world) (e : err) : bool := match r with (Err e', _) => bool_decide (e' = e) | _ => false end.
(** After init in /h/w: a branch is created, then refused; a tag for a missing name is refused; log succeeds. *)
Lemma names_test : then_ok (cmd_init sample_dr [] (B "main") calm (enter wdir sample_world)) (λ _ w,
  then_ok (run_cmd sample_dr branch_dev calm (enter wdir w)) (λ _ w1, says (run_cmd sample_dr branch_dev calm (enter wdir w1)) EBranchExists &&
    says (run_cmd sample_dr (CTag (TagOpts false false false) [B "x"; B "nothing"]) calm (enter wdir w1)) ERefNotFound &&
    then_ok (run_cmd sample_dr (CLog []) calm (enter wdir w1)) (λ _ _, true))) = true.
Proof. vm_compute. reflexivity. Qed.
Lemma says_inv {A} (r : res A * world) e : says r e = true → r.1 = Err e.
Proof. destruct r as [[| | | |] ?]; cbn; try done. intros H. apply bool_decide_eq_true in H. by rewrite H. Qed.
Example C75_sat : ∃ w mid y hid a w1, in_order sample_dr (enter wdir w) ∧ workspace_at sample_dr (enter wdir w) wdir mid y hid a ∧ runs_in (enter wdir w) wdir ∧
  plain_path sample_dr ∧ good_path sample_dr ∧ fair calm ∧ no_faults calm ∧ a_branches a !! local_key (ws_id y) (B "dev") = None ∧
  run_cmd sample_dr branch_dev calm (enter wdir w) = (Ok tt, w1) ∧ (run_cmd sample_dr branch_dev calm (enter wdir w1)).1 = Err EBranchExists ∧
  (run_cmd sample_dr (CTag (TagOpts false false false) [B "x"; B "nothing"]) calm (enter wdir w1)).1 = Err ERefNotFound ∧
  ∃ w2, run_cmd sample_dr (CLog []) calm (enter wdir w1) = (Ok tt, w2).
Proof.
  destruct C67_C68_C69_sat as [_ (w & mid & y & hid & a & rid & E & Io & Wa & _ & R & _)].
  pose proof names_test as H. destruct (then_ok_inv _ _ H) as ([] & w' & E' & H1). clear H. rewrite E in E'. apply (f_equal snd) in E'. cbn [snd] in E'. subst w'.
  cbv beta in H1. destruct (then_ok_inv _ _ H1) as ([] & w1 & E1 & H2). clear H1. cbv beta in H2. apply andb_true_iff in H2 as [H2 H5]. apply andb_true_iff in H2 as [H3 H4].
  apply says_inv in H3, H4. destruct (then_ok_inv _ _ H5) as ([] & w2 & E2 & _). clear H5. destruct sample_plain as [P G].
  pose proof (enter_order sample_dr wdir w Io) as Io'. pose proof (enter_workspace sample_dr wdir w _ _ _ _ _ Wa) as Wa'.
  exists w, mid, y, hid, a, w1. split; [exact Io'|]. split; [exact Wa'|]. split; [exact R|]. split; [exact P|]. split; [exact G|]. split; [exact fair_calm|]. split; [exact calm_no_faults|].
  split.
  { pose proof (f_equal fst E1) as E3. destruct (C75_branch_succeeds sample_dr (BranchOpts false false false false false false) (B "dev") [] calm (enter wdir w) wdir mid y hid a P G fair_calm calm_no_faults Io' Wa' R eq_refl eq_refl eq_refl) as [Q _].
    destruct (Q E3) as [_ [Q'|Q']]; [discriminate Q'|exact Q']. }
  split; [exact E1|]. split; [exact H3|]. split; [exact H4|]. exists w2. exact E2.
Qed.
Definition some_acts : list (path * act) :=
  [(wdir, ANames branch_dev); (wdir, ACommit (B "one")); (vdir, ANames (CTag (TagOpts false false true) [B "ROOT"])); (vdir, ACommit (B "two")); (wdir, ANames (CLog [])); (wdir, ACommit (B "three"))].
Lemma on_branch dr w n p i : can_commit_at dr w n p i → ∃ b, commits_on dr w n p i b.
Proof. intros (mid & y & hid & a & ch & A1 & A2 & A3 & A4 & A5). exists (sanitize (ws_branch y)), mid, y, hid, a, ch. done. Qed.
Example C76_sat : ∃ w ps ids br, in_order sample_dr w ∧ ps = [wdir; vdir] ∧ (∀ p q, p ∈ ps → q ∈ ps → ids p = ids q → p = q) ∧ (∀ p, p ∈ ps → outside sample_dr p) ∧
  (∀ p t, (p, t) ∈ some_acts → p ∈ ps ∧ match t with ACommit _ => True | ANames c => names_cmd c ∧ spares (br p) c end) ∧
  (∀ p, p ∈ ps → commits_on sample_dr w 2 p (ids p) (br p)) ∧ fits sample_dr (2 + commits_in some_acts).
Proof.
  destruct C68_sat as (w0 & w & mid & y & hid & a & rid & mid2 & y2 & hid2 & rid2 & _ & _ & Io & _ & _ & _ & C1 & C2 & Ne & Ow & Ov & Fi & _).
  apply on_branch in C1 as [b1 C1]. apply on_branch in C2 as [b2 C2].
  assert (wdir ≠ vdir) as Nd by (vm_compute; discriminate). assert (∀ p : path, p ∈ [wdir; vdir] → p = wdir ∨ p = vdir) as Hin.
  { intros p Hp. apply elem_of_cons in Hp as [Hp|Hp]; [by left|]. apply elem_of_list_singleton in Hp. by right. }
  exists w, [wdir; vdir], (λ p, if decide (p = wdir) then ws_id y else ws_id y2), (λ p, if decide (p = wdir) then b1 else b2).
  split; [exact Io|]. split; [reflexivity|]. split; [|split; [|split; [|split]]].
  - assert (vdir ≠ wdir) as Nd' by (by apply not_eq_sym).
    intros p q Hp Hq. destruct (Hin _ Hp) as [->| ->], (Hin _ Hq) as [->| ->]; [done| | |done];
      rewrite (decide_True (P := wdir = wdir)) by done; rewrite (decide_False (P := vdir = wdir)) by exact Nd'; intros Q; [by destruct (Ne Q)|by destruct (Ne (eq_sym Q))].
  - intros p Hp. destruct (Hin _ Hp) as [->| ->]; [exact Ow|exact Ov].
  - intros p t Ht. unfold some_acts in Ht. repeat (apply elem_of_cons in Ht as [Ht|Ht]; [injection Ht as -> ->; split; [by (left || (right; left))|]|]); [..|by apply elem_of_nil in Ht]; try done.
    split; [done|]. intros n Q. injection Q as <-. intros <-. split; [symmetry; apply sanitize_valid; vm_compute; reflexivity|reflexivity].
  - intros p Hp. destruct (Hin _ Hp) as [->| ->]; [by rewrite !decide_True|rewrite !decide_False by (by apply not_eq_sym); done].
  - eapply fits_less; [exact Fi|]. vm_compute. lia.
Qed.
Print Assumptions C75_sat.
Print Assumptions C76_sat.
