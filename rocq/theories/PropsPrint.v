(** * PropsPrint: what commands print follows the version control system (C83) *)
From Verif Require Import Base Uid SpecUid UidProofs Tree SpecTree TreeRefine TreeObs Dump DumpProofs Json JsonProofs Save SaveProofs Branch BranchProofs Date Ws SpecWs WsProofs
  Fs Overlay Os Layers Mounts Space Manager Commands FsProofs OsProofs LayerProofs MountProofs SpaceProofs ManagerProofs SpecWorld SpecOps SavedProofs FaultProofs ReadyProofs OpProofs CalmProofs
  SpecMachine SpecCmds SpecLog MachineProofs OpenProofs CmdProofs ExpandProofs DetProofs SpecTidy TidyProofs Sample SampleProofs Story StoryProofs SpecUsable UsableProofs UsableCmdProofs UsableInitProofs UsableSeqProofs
  SpecNames NamesProofs LongerProofs SpecVcs VcsProofs PrintProofs SpecOrder OrderProofs SpecProcess ProcessProofs PropsCommit PropsCmds PropsShow PropsFaults PropsUsable PropsOrder PropsRound PropsVcs PropsFiles PropsProcess.
From Verif Require Cli PropsOptions.
From Coq Require Import Lia.
From stdpp Require Import prelude gmap sorting.

(** ** Branches that the commands make *)
Lemma own_less a a' : (∀ k, is_Some (a_branches a' !! k) → is_Some (a_branches a !! k)) → own_branches a → own_branches a'.
Proof. intros H O k Hk. by apply O, H. Qed.
Lemma own_plus a k id wid n : k = local_key wid n → own_branches a → own_branches (plus_branch a k id).
Proof.
  intros -> O k' [v E]. cbn [plus_branch a_branches] in E. apply lookup_insert_Some in E as [[<- _]|[_ E]]; [by eexists _, _|]. apply O. by eexists.
Qed.
Lemma own_san a : own_branches a → own_branches (san_tree a).
Proof.
  intros O k [v E]. cbn [san_tree a_branches] in E. apply san_map_in in E as (k0 & v0 & E0 & -> & _). destruct (O k0) as (wid & n & ->); [by eexists|].
  rewrite sanitize_local. by eexists _, _.
Qed.
Lemma own_op x hid op a a' : own_branches a → op_tree x hid op a a' → own_branches a'.
Proof.
  intros O. destruct op as [n ref force|n g|n ref force|n|date msg|key|q]; cbn [op_tree].
  - intros (id & _ & _ & ->). by eapply own_plus.
  - intros (_ & _ & ->). eapply own_less; [|exact O]. cbn [less_branch a_branches]. intros k [v E]. apply lookup_delete_Some in E as [_ E]. by eexists.
  - intros (id & _ & _ & ->). exact O.
  - intros (_ & ->). exact O.
  - intros (n & id & _ & _ & [[_ ->]|(_ & -> & _)]); [exact O|]. eapply own_plus; [done|exact O].
  - intros (c & id & _ & _ & ->). exact O.
  - intros (c & id & _ & _ & ->). exact O.
Qed.
Lemma own_deletions x hid l a a' r : deletions x hid l a a' r → own_branches a → own_branches a'.
Proof. induction 1 as [|op l a a1 a' r H _ IH|]; intros O; [done| |done]. apply IH. by eapply own_op. Qed.
Lemma own_names x hid c a a' r : own_branches a → names_result x hid c a a' r → own_branches a'.
Proof.
  intros O. destruct c as [| | | |opts args|opts args|args]; cbn [names_result]; try done.
  - destruct (_ || _); [by intros [_ ->]|]. destruct (bo_delete opts); [intros D; by eapply own_deletions|]. destruct args as [|n rest]; [by intros [_ ->]|].
    unfold branch_added. destruct (meant _ _ _ _) as [id|]; [|by intros [_ ->]]. case_decide; intros [_ ->]; [done|]. by eapply own_plus.
  - destruct (to_list opts); [by intros [_ ->]|]. destruct (to_delete opts); [intros D; by eapply own_deletions|]. destruct args as [|n rest]; [by intros [_ ->]|].
    unfold tag_added. destruct (meant _ _ _ _) as [id|]; [|by intros [_ ->]]. case_decide; intros [_ ->]; done.
  - by intros [-> _].
Qed.
Lemma own_put V sid a : all_own V → own_branches a → ∀ s b, <[sid := san_tree a]> (v_trees V) !! s = Some b → own_branches b.
Proof. intros H O s b E. apply lookup_insert_Some in E as [[_ <-]|[_ E]]; [by apply own_san|]. by eapply H. Qed.
Lemma reads_own wid n b : reads_as (local_key wid n) b → b = Br (Some wid) n ∧ LF ∉ n.
Proof.
  intros R. pose proof (reads_no_lf _ _ R) as N. assert (LF ∉ n) as Nn by (intros Q; apply N; unfold local_key; rewrite !elem_of_app; auto). split; [|done].
  pose proof (reads_full (Br (Some wid) n) Nn) as R2. change (full_name (Br (Some wid) n)) with (local_key wid n) in R2. apply parse_full_ok in R, R2. congruence.
Qed.

(** ** C83 *)
(** What a command prints, in a workspace or not, is what the version control system says. *)
Theorem C83_step : ∀ dr V d c o w w1 r w', good_path dr → models dr w V →
  meanwhile dr w w1 → (∀ p, is_Some (v_places V !! p) → fget (w_fs w1) p = fget (w_fs w) p) → fair o → no_faults o → allowed dr V w1 d c →
  run_cmd dr c o (enter d w1) = (r, w') → ∃ lines, screen w' = screen w1 ++ lines ∧ vlines V d c r lines.
Proof.
  intros dr V d c o w w1 r w' G Md U Hl F N [R Al] E. destruct (models_while _ _ _ _ Md U Hl) as [Io (mids & Hi & Hp)].
  apply (step_lines dr V mids c d o (enter d w1) r w' G F N); try done; [by apply enter_order|].
  split; [exact Hi|]. intros p pl Ep. destruct (Hp p pl Ep) as (Op & y & a & Wa & T). split; [done|]. exists y, a. split; [by apply enter_workspace|exact T].
Qed.
(** init, clone, commit and checkout print nothing, on any machine and whatever fails. *)
Theorem C83_silent : ∀ dr c o w, ¬ names_cmd c → screen (run_cmd dr c o w).2 = screen w.
Proof. intros dr c o w H. eapply (mute_run _ o w); [by apply mute_cmd|]. apply surjective_pairing. Qed.
(** All branches belong to workspaces, from the first command on. *)
Theorem C83_own : ∀ w V d c r V', all_own V → vstep w V d c r V' → all_own V'.
Proof.
  intros w V d c r V' H S.
  assert (∀ x a, v_trees V !! x = Some a → own_branches a) as Ho by (intros x a; apply H).
  destruct c as [args branch|source target|msg|key|opts args|opts args|args]; cbn [vstep] in S.
  - destruct S as [(_ & _ & pl & rid & -> & _)|(_ & _ & ->)]; [|done]. intros s b. apply own_put; [done|].
    intros k [v E]. cbn [fresh_tree a_branches] in E. apply lookup_singleton_Some in E as [<- _]. by eexists _, _.
  - destruct (v_places V !! _) as [pl|]; [|by destruct S as [_ ->]]. destruct S as (x & a & a' & _ & T & Ot & [(_ & _ & pl' & -> & _)|(_ & _ & ->)]); intros s b; apply own_put; try done; eapply own_op; eauto.
  - destruct (v_places V !! d) as [pl|]; [|by destruct S as [_ ->]]. destruct S as (x & a & _ & T & [(_ & _ & t & a' & id & Ot & _ & ->)|(_ & _ & ->)]); [|done]. intros s b. apply own_put; [done|]. eapply own_op; eauto.
  - destruct (v_places V !! d) as [pl|]; [|by destruct S as [_ ->]]. destruct S as (x & a & _ & T & [(_ & _ & a' & id & Ot & _ & ->)|(_ & _ & ->)]); [|done]. intros s b. apply own_put; [done|]. eapply own_op; eauto.
  - destruct (v_places V !! d) as [pl|]; [|by destruct S as [_ ->]]. destruct S as (x & a & _ & T & a' & Nr & ->). intros s b. apply own_put; [done|]. eapply own_names; eauto.
  - destruct (v_places V !! d) as [pl|]; [|by destruct S as [_ ->]]. destruct S as (x & a & _ & T & a' & Nr & ->). intros s b. apply own_put; [done|]. eapply own_names; eauto.
  - destruct (v_places V !! d) as [pl|]; [|by destruct S as [_ ->]]. destruct S as (x & a & _ & T & a' & Nr & ->). intros s b. apply own_put; [done|]. eapply own_names; eauto.
Qed.
(** So branch prints the names of the branches of the workspace, each once and in order, --remotes nothing, and --all no more. *)
Theorem C83_branches : ∀ a opts wid lines, own_branches a → branch_listing a opts wid lines → own_listing a opts wid lines.
Proof.
  intros a opts wid lines O (brs & -> & S & D & H).
  assert (canonical_names a) as Cn.
  { intros k id b E R. destruct (O k) as (u & n & ->); [by eexists|]. by apply reads_own in R as [-> _]. }
  specialize (D Cn).
  assert (∀ b, b ∈ brs ↔ bo_remotes opts = false ∧ br_ws b = Some wid ∧ LF ∉ br_name b ∧ is_Some (a_branches a !! local_key wid (br_name b))) as He.
  { intros b. rewrite H. split.
    - intros (A & k & id & E & R). destruct (O k) as (u & n & ->); [by eexists|]. apply reads_own in R as [-> N]. unfold asked in A. cbn [br_ws br_name] in *.
      destruct (bo_remotes opts); [done|]. assert (Some u = Some wid) as [= ->] by (destruct (bo_all opts); [by destruct A|done]). do 3 (split; [done|]). by eexists.
    - intros (A & Ew & N & id & E). split.
      + unfold asked. rewrite A. destruct (bo_all opts); [by right|done].
      + exists (local_key wid (br_name b)), id. split; [done|]. destruct b as [u n]. cbn [br_ws br_name] in *. subst u. by apply (reads_full (Br (Some wid) n)). }
  assert (∀ b, b ∈ brs → br_ws b = Some wid) as Hw by (intros b Hb; by apply He in Hb as (_ & ? & _)).
  split; [|split].
  - clear -S Hw. induction S as [|b l S IH F]; [constructor|]. rewrite fmap_cons. constructor; [apply IH; intros; apply Hw; by right|].
    rewrite Forall_fmap. apply Forall_forall. intros b' Hb'. rewrite Forall_forall in F. specialize (F _ Hb'). unfold branch_order in F. rewrite (Hw b (elem_of_list_here _ _)), (Hw b' (elem_of_list_further _ _ _ Hb')) in F. cbn [compose]. unfold name_text. rewrite (Hw b (elem_of_list_here _ _)), (Hw b' (elem_of_list_further _ _ _ Hb')). by apply bytes_leb_lex.
  - clear -D Hw. induction D as [|b l N D IH]; [constructor|]. rewrite fmap_cons. constructor; [|apply IH; intros; apply Hw; by right].
    intros Q. apply elem_of_list_fmap in Q as (b' & E & Hb'). apply N. replace b with b'; [done|]. pose proof (Hw b (elem_of_list_here _ _)) as W1. pose proof (Hw b' (elem_of_list_further _ _ _ Hb')) as W2. unfold name_text in E. rewrite W1, W2 in E. destruct b as [u n], b' as [u' n']. cbn [br_ws br_name] in *. congruence.
  - intros n. rewrite elem_of_list_fmap. split.
    + intros (b & -> & Hb). apply He in Hb as (A & W & B & C). unfold name_text. by rewrite W.
    + intros (A & B & C). exists (Br (Some wid) n). split; [done|]. apply He. done.
Qed.
(** These lists are determined by the tree. *)
Lemma lex_antisym x y : lex_le x y → lex_le y x → x = y.
Proof. rewrite <-!bytes_leb_lex. apply bytes_leb_anti. Qed.
Theorem C83_determined : ∀ a opts wid l1 l2,
  (own_listing a opts wid l1 → own_listing a opts wid l2 → l1 = l2) ∧ (tag_listing a l1 → tag_listing a l2 → l1 = l2).
Proof.
  intros a opts wid l1 l2.
  assert (∀ P : bytes → Prop, StronglySorted lex_le l1 → NoDup l1 → (∀ n, n ∈ l1 ↔ P n) → StronglySorted lex_le l2 → NoDup l2 → (∀ n, n ∈ l2 ↔ P n) → l1 = l2) as Hu.
  { intros P S1 D1 H1 S2 D2 H2. apply (@StronglySorted_unique _ lex_le); try done; [intros x y; apply lex_antisym|]. apply NoDup_Permutation; [done..|]. intros n. by rewrite H1, H2. }
  split; intros (S1 & D1 & H1) (S2 & D2 & H2); exact (Hu _ S1 D1 H1 S2 D2 H2).
Qed.
(** Sessions that start from nothing *)
Lemma serves_mono dr l (Q Q' : vcs → world → Prop) (I : vcs → Prop) : (∀ w V d c r V', I V → vstep w V d c r V' → I V') → (∀ V w, I V → Q V w → Q' V w) →
  ∀ V w, I V → serves dr l Q V w → serves dr l Q' V w.
Proof.
  intros Hs Hq. induction l as [|j l IH]; intros V w Hi H; cbn [serves] in *; [by apply Hq|].
  intros c w1 o r w' A1 A2 A3 A4 A5 A6 A7 A8 A9 A10 A11. destruct (H c w1 o r w' A1 A2 A3 A4 A5 A6 A7 A8 A9 A10 A11) as (V' & lines & B1 & B2 & B3 & B4 & B5).
  exists V', lines. do 4 (split; [done|]). apply IH; [by eapply Hs|done].
Qed.
Theorem C83_session : ∀ dr l w, plain_path dr → good_path dr → stands dr w (Vcs ∅ ∅) → fits dr (1 + length l) →
  serves dr l (λ V' w', stands dr w' V' ∧ all_own V') (Vcs ∅ ∅) w.
Proof.
  intros dr l w P G St Fi. apply (serves_mono dr l (λ V' w', stands dr w' V' ∧ depth V' (1 + length l)) _ all_own).
  - intros. by eapply C83_own.
  - by intros V w2 Ho [A _].
  - intros sid a E. cbn [v_trees] in E. by rewrite lookup_empty in E.
  - by apply C82_session.
Qed.
Print Assumptions C83_step.
Print Assumptions C83_silent.
Print Assumptions C83_own.
Print Assumptions C83_branches.
Print Assumptions C83_determined.
Print Assumptions C83_session.

(** In the workspace of [C82_sat] a commit, then branch and log *)
Definition job5 : job := Job home 1000 1000 (B "branch") [root_opt; PropsOptions.Text (B "chdir") (B "w")].
Definition job6 : job := Job home 1000 1000 (B "log") [PropsOptions.Text (B "chdir") (B "w"); root_opt].
Definition new_lines (w w' : world) : list bytes := drop (length (screen w)) (screen w').
Lemma prints_test : then_ok (run_job job1 bare) (λ _ w1, then_ok (run_job job2 w1) (λ _ w2, many_ids_check sample_dr calm (enter home w2) && above_ok w2 &&
  (then_ok (run_job job5 w2) (λ _ w3, bool_decide (new_lines w2 w3 = [B "main"]))) && (then_ok (run_job job6 w2) (λ _ w3, bool_decide (drop 2 (new_lines w2 w3) = [[]; B "    one"; []])))))  = true.
Proof. vm_compute. reflexivity. Qed.
Lemma items_56 : Forall (PropsOptions.item_ok (B "branch")) (j_items job5) ∧ Forall (PropsOptions.item_ok (B "log")) (j_items job6).
Proof. split; repeat constructor; cbn [PropsOptions.item_ok]; PropsOptions.dec. Qed.
Example C83_sat : ∃ w w' w'' V, models sample_dr w V ∧ all_own V ∧ is_Some (v_places V !! wdir) ∧
  run_job job5 w = (Ok tt, w') ∧ screen w' = screen w ++ [B "main"] ∧ vlines V wdir (CBranch (BranchOpts false false false false false false) []) (Ok tt) [B "main"] ∧
  run_job job6 w = (Ok tt, w'') ∧ ∃ l, screen w'' = screen w ++ l ∧ drop 2 l = [[]; B "    one"; []] ∧ vlines V wdir (CLog []) (Ok tt) l.
Proof.
  destruct C82_sat as (w1 & w2 & w3 & w4 & V1 & V2 & V3 & e & _ & _ & E1 & X1 & _ & E2 & X2 & M2 & D2 & _).
  pose proof prints_test as H. destruct (then_ok_inv _ _ H) as ([] & v1 & F1 & H1). clear H. cbv beta in H1. rewrite E1 in F1. injection F1 as <-.
  destruct (then_ok_inv _ _ H1) as ([] & v2 & F2 & H2). clear H1. cbv beta in H2. rewrite E2 in F2. injection F2 as <-.
  apply andb_true_iff in H2 as [H2 T6]. apply andb_true_iff in H2 as [H2 T5]. apply andb_true_iff in H2 as [I2 O2].
  destruct (then_ok_inv _ _ T5) as ([] & w5 & E5 & Q5). destruct (then_ok_inv _ _ T6) as ([] & w6 & E6 & Q6). clear T5 T6. cbv beta in Q5, Q6. apply bool_decide_eq_true in Q5, Q6.
  destruct (above_inv _ O2) as (Dr & R & _). destruct sample_plain as [P G]. assert (fits sample_dr 3) as Fi by (apply sample_fits; lia).
  assert (is_Some (v_places V2 !! wdir)) as P2.
  { cbn [vstep] in X2. destruct (v_places V1 !! wdir) as [pl|]; [|destruct X2 as [Fr _]; by destruct (Fr tt)].
    destruct X2 as (x & a & _ & _ & [(_ & _ & t & a' & i & _ & _ & ->)|(_ & Fr & _)]); [|by destruct (Fr tt)]. cbn [put_place v_places]. rewrite lookup_insert. by eexists. }
  assert (∀ name items, Forall (PropsOptions.item_ok name) items → Fs.abs_from (j_at (Job home 1000 1000 name items)) (j_root (Job home 1000 1000 name items)) = sample_dr → j_valid sample_dr (Job home 1000 1000 name items)) as Jv.
  { intros name items A1 A2. split; [exact A1|]. split; [vm_compute; reflexivity|]. split; [vm_compute; reflexivity|exact A2]. }
  assert (j_at job5 = wdir) as J5 by (vm_compute; reflexivity). assert (j_at job6 = wdir) as J6 by (vm_compute; reflexivity).
  destruct (calm_said V2 3 job5 (CBranch (BranchOpts false false false false false false) []) w2 (Ok tt) w5 (or_introl M2) D2 ltac:(lia) Fi) as (_ & _ & _ & _ & l5 & S5 & K5).
  { vm_compute. reflexivity. }
  { apply Jv; [exact (proj1 items_56)|vm_compute; reflexivity]. }
  { exact Dr. }
  { exact I2. }
  { exact R. }
  { rewrite J5. split; [exact (place_runs _ _ _ _ G M2 P2)|]. left. exact P2. }
  { exact E5. }
  destruct (calm_said V2 3 job6 (CLog []) w2 (Ok tt) w6 (or_introl M2) D2 ltac:(lia) Fi) as (_ & _ & _ & _ & l6 & S6 & K6).
  { vm_compute. reflexivity. }
  { apply Jv; [exact (proj2 items_56)|vm_compute; reflexivity]. }
  { exact Dr. }
  { exact I2. }
  { exact R. }
  { rewrite J6. split; [exact (place_runs _ _ _ _ G M2 P2)|]. left. exact P2. }
  { exact E6. }
  unfold new_lines in Q5, Q6. rewrite S5, drop_app in Q5. rewrite S6, drop_app in Q6. subst l5. rewrite J5 in K5. rewrite J6 in K6.
  assert (all_own (Vcs ∅ ∅)) as O0 by (intros sid a Q; cbn [v_trees] in Q; rewrite lookup_empty in Q; discriminate Q).
  exists w2, w5, w6, V2. split; [exact M2|]. split; [exact (C83_own _ _ _ _ _ _ (C83_own _ _ _ _ _ _ O0 X1) X2)|]. split; [exact P2|]. split; [exact E5|]. split; [exact S5|]. split; [exact K5|].
  split; [exact E6|]. exists l6. split; [exact S6|]. split; [exact Q6|exact K6].
Qed.
Print Assumptions C83_sat.
