(** * PropsVcs: the program is a version control system (C80) *)
From Verif Require Import Base Uid SpecUid UidProofs Tree SpecTree TreeRefine TreeObs Dump DumpProofs Json JsonProofs Save SaveProofs Branch BranchProofs Date Ws SpecWs WsProofs
  Fs Overlay Os Layers Mounts Space Manager Commands FsProofs OsProofs LayerProofs MountProofs SpaceProofs ManagerProofs SpecWorld SpecOps SavedProofs FaultProofs ReadyProofs OpProofs CalmProofs
  SpecMachine SpecCmds SpecLog MachineProofs OpenProofs CmdProofs DetProofs SpecTidy TidyProofs Sample SampleProofs Story StoryProofs SpecUsable UsableProofs UsableSeqProofs SpecNames NamesProofs LongerProofs SpecVcs VcsProofs
  PropsCommit PropsCmds PropsShow PropsUsable PropsRound.
From Coq Require Import Lia.
From stdpp Require Import prelude gmap.

(** ** C80 *)
(** Any command, in a workspace or not: its result and what it does are those of the version control system. *)
Theorem C80_step : ∀ dr V n d c o w w1 r w', plain_path dr → good_path dr → models dr w V → depth V n → 1 ≤ n → fits dr n →
  meanwhile dr w w1 → (∀ p, is_Some (v_places V !! p) → fget (w_fs w1) p = fget (w_fs w) p) → fair o → no_faults o → new_ids dr o (enter d w1) → allowed dr V w1 d c →
  run_cmd dr c o (enter d w1) = (r, w') → ∃ V', vstep w1 V d c r V' ∧ models dr w' V' ∧ depth V' (S n).
Proof.
  intros dr V n d c o w w1 r w' P G Md Hd Hn Fi U Hl F N Nw Al E.
  destruct (models_step dr V n d c o w1 r w' P G (models_while _ _ _ _ Md U Hl) Hd Hn Fi F N Nw Al E) as (V' & A & (B & _) & C). by exists V'.
Qed.
(** Any number of commands in any number of processes, in workspaces or not, whatever users change in between *)
Theorem C80_session : ∀ dr l V n w, plain_path dr → good_path dr → models dr w V → depth V n → 1 ≤ n → fits dr (n + length l) →
  follows dr l (λ V' w', models dr w' V' ∧ depth V' (n + length l)) V w.
Proof.
  intros dr l. induction l as [|[d c] l IH]; intros V n w P G Md Hd Hn Fi; cbn [follows length]; [by rewrite Nat.add_0_r|].
  intros w1 o r w' U Hl F N Nw Al E. cbn [length] in Fi. rewrite Nat.add_succ_r in *.
  destruct (C80_step dr V n d c o w w1 r w' P G Md Hd Hn) as (V' & A & B & C); try done; [eapply fits_less; [exact Fi|lia]|]. exists V'. split; [done|]. apply (IH V' (S n) w'); try done. lia.
Qed.
(** It starts on any data root in working order. *)
Theorem C80_empty : ∀ dr w, in_order dr w → models dr w (Vcs ∅ ∅) ∧ depth (Vcs ∅ ∅) 1.
Proof.
  intros dr w Io. split; [split; [done|]; exists (λ _, new_uid 0 0); split; [intros p q [x E]|intros p pl E]; cbn [v_places] in E; by rewrite lookup_empty in E|].
  intros p pl a c ch E. cbn [v_places] in E. by rewrite lookup_empty in E.
Qed.
(** What a command may change: only commands that succeed move a workspace, and only the one at their target; no layer of a workspace's space is lost or moved. *)
Theorem C80_places : ∀ w V d c r V', vstep w V d c r V' → ∀ p, p ≠ target_of d c ∨ failed r → v_places V' !! p = v_places V !! p.
Proof.
  intros w V d c r V' H p Hp. assert (∀ q pl a, r = Ok tt → q = target_of d c → v_places (put_place V q pl a) !! p = v_places V !! p) as Hput.
  { intros q pl a -> ->. cbn [put_place v_places]. destruct Hp as [Hp|Fr]; [by rewrite lookup_insert_ne by (by apply not_eq_sym)|by destruct (Fr tt)]. }
  destruct c as [args branch|source target|msg|key|opts args|opts args|args]; cbn [vstep] in H.
  - destruct H as [(_ & Er & pl & rid & -> & _)|(_ & _ & ->)]; [by apply Hput|done].
  - destruct (v_places V !! _) as [pl|]; [|by destruct H as [_ ->]]. destruct H as (x & a & a' & _ & _ & _ & [(_ & Er & pl' & -> & _)|(_ & _ & ->)]); [by apply Hput|done].
  - destruct (v_places V !! d) as [pl|]; [|by destruct H as [_ ->]]. destruct H as (x & a & _ & _ & [(_ & Er & t & a' & id & _ & _ & ->)|(_ & _ & ->)]); [by apply Hput|done].
  - destruct (v_places V !! d) as [pl|]; [|by destruct H as [_ ->]]. destruct H as (x & a & _ & _ & [(_ & Er & a' & id & _ & _ & ->)|(_ & _ & ->)]); [by apply Hput|done].
  - destruct (v_places V !! d) as [pl|]; [|by destruct H as [_ ->]]. by destruct H as (x & a & _ & _ & a' & _ & ->).
  - destruct (v_places V !! d) as [pl|]; [|by destruct H as [_ ->]]. by destruct H as (x & a & _ & _ & a' & _ & ->).
  - destruct (v_places V !! d) as [pl|]; [|by destruct H as [_ ->]]. by destruct H as (x & a & _ & _ & a' & _ & ->).
Qed.
Theorem C80_layers : ∀ dr w0 w V d c r V' p pl a i z, models dr w0 V → vstep w V d c r V' → v_places V !! p = Some pl → v_trees V !! pl_space pl = Some a → SpecTree.parent_of a i z →
  ∃ a', v_trees V' !! pl_space pl = Some a' ∧ SpecTree.parent_of a' i z.
Proof.
  intros dr w0 w V d c r V' p pl a i z [_ (mids & _ & Hpl)] H Ep T Pa.
  assert (∀ q pq b, v_places V !! q = Some pq → v_trees V !! pl_space pq = Some b → rooted b) as Ro.
  { intros q pq b Eq Tb. destruct (Hpl q pq Eq) as (_ & y & b' & Wa & T' & _). assert (b' = b) as -> by congruence. by eapply holds_rooted, (wa_tree _ _ _ _ _ _ _ Wa). }
  assert (∀ q pq b b', v_places V !! q = Some pq → v_trees V !! pl_space pq = Some b → (∀ j k, SpecTree.parent_of b j k → SpecTree.parent_of b' j k) →
    ∃ a', <[pl_space pq := san_tree b']> (v_trees V) !! pl_space pl = Some a' ∧ SpecTree.parent_of a' i z) as Hput.
  { intros q pq b b' Eq Tb Hb. destruct (decide (pl_space pq = pl_space pl)) as [Es|Ns].
    - rewrite Es, lookup_insert. eexists. split; [done|]. apply san_parent, Hb. rewrite Es in Tb. by assert (b = a) as -> by congruence.
    - rewrite lookup_insert_ne by done. by exists a. }
  assert (∃ a', v_trees V !! pl_space pl = Some a' ∧ SpecTree.parent_of a' i z) as Hsame by (by exists a).
  assert (∀ q pq b b' x op, v_places V !! q = Some pq → v_trees V !! pl_space pq = Some b → (∃ d m, op = OCommit d m) ∨ (∃ k, op = OCheckout k) ∨ (∃ p, op = OClone p) → op_tree x (pl_head pq) op b b' →
    ∀ j k, SpecTree.parent_of b j k → SpecTree.parent_of b' j k) as Hop.
  { intros q pq b b' x op Eq Tb Ho Ht. destruct (op_longer _ _ _ _ _ (Ro _ _ _ Eq Tb) Ho Ht) as (j & k & L & _). intros j' k'. by eapply longer_parent. }
  assert (∀ q pq b b' x, v_places V !! q = Some pq → v_trees V !! pl_space pq = Some b → names_result x (pl_head pq) c b b' r → ∀ j k, SpecTree.parent_of b j k → SpecTree.parent_of b' j k) as Hnm.
  { intros q pq b b' x Eq Tb Hr j k (m & Em & Ek). exists m. by rewrite (names_nodes _ _ _ _ _ _ Hr). }
  destruct c as [args branch|source target|msg|key|opts args|opts args|args]; cbn [vstep] in H.
  - destruct H as [(_ & _ & pl' & rid & -> & _ & _ & Hs)|(_ & _ & ->)]; [|done]. cbn [put_place v_trees]. rewrite lookup_insert_ne; [done|]. apply not_eq_sym. by eapply Hs.
  - destruct (v_places V !! _) as [pq|] eqn:Eq; [|by destruct H as [_ ->]]. destruct H as (x & b & b' & _ & Tb & Ht & [(_ & _ & pl' & -> & Es & _)|(_ & _ & ->)]); cbn [put_place put_tree v_trees]; rewrite ?Es; eapply Hput; eauto 6.
  - destruct (v_places V !! d) as [pq|] eqn:Eq; [|by destruct H as [_ ->]]. destruct H as (x & b & _ & Tb & [(_ & _ & t & b' & id & Ht & _ & ->)|(_ & _ & ->)]); [|done]. cbn [put_place v_trees pl_space]. eapply Hput; eauto 6.
  - destruct (v_places V !! d) as [pq|] eqn:Eq; [|by destruct H as [_ ->]]. destruct H as (x & b & _ & Tb & [(_ & _ & b' & id & Ht & _ & ->)|(_ & _ & ->)]); [|done]. cbn [put_place v_trees pl_space]. eapply Hput; eauto 6.
  - destruct (v_places V !! d) as [pq|] eqn:Eq; [|by destruct H as [_ ->]]. destruct H as (x & b & _ & Tb & b' & Ht & ->). cbn [put_tree v_trees]. eapply Hput; eauto.
  - destruct (v_places V !! d) as [pq|] eqn:Eq; [|by destruct H as [_ ->]]. destruct H as (x & b & _ & Tb & b' & Ht & ->). cbn [put_tree v_trees]. eapply Hput; eauto.
  - destruct (v_places V !! d) as [pq|] eqn:Eq; [|by destruct H as [_ ->]]. destruct H as (x & b & _ & Tb & b' & Ht & ->). cbn [put_tree v_trees]. eapply Hput; eauto.
Qed.
Print Assumptions C80_step.
Print Assumptions C80_session.
Print Assumptions C80_empty.
Print Assumptions C80_places.
Print Assumptions C80_layers.

(** Four commands: init, commit, clone, and a commit in the clone, which is refused (C39). *)
Definition home_ok (w : world) : bool := bool_decide (is_dir_at (w_fs w) home = true ∧ fget (w_fs w) cdir = None ∧ real_path (w_fs w) home = Some home).
Lemma vcs_test : ids_check sample_dr calm (enter home sample_world) && home_ok sample_world &&
  then_ok (run_cmd sample_dr (CInit [B "w"] (B "main")) calm (enter home sample_world)) (λ _ w1, ids_check sample_dr calm (enter wdir w1) &&
  then_ok (run_cmd sample_dr (CCommit (B "one")) calm (enter wdir w1)) (λ _ w2, ids_check sample_dr calm (enter home w2) && home_ok w2 &&
  then_ok (run_cmd sample_dr (CClone (B "w") (Some (B "c"))) calm (enter home w2)) (λ _ w3, ids_check sample_dr calm (enter cdir w3) &&
  match run_cmd sample_dr (CCommit (B "two")) calm (enter cdir w3) with (Err _, _) => true | _ => false end))) = true.
Proof. vm_compute. reflexivity. Qed.
Lemma user_same dr w : in_order dr w → meanwhile dr w w.
Proof. intros Io. apply user_while. split; [apply (mc_wf _ _ _ (io_machine _ _ Io))|]. split; [done|]. intros q. by left. Qed.
Lemma home_runs w : home_ok w = true → runs_in (enter home w) home ∧ fget (w_fs w) cdir = None.
Proof.
  unfold home_ok. intros H. apply bool_decide_eq_true in H as (D & E & R). split; [|exact E]. apply in_dir; [exact D| |by right]. unfold enter. cbn [set_pwd set_cwd set_tree w_cwd]. by rewrite R.
Qed.
Lemma place_runs dr w V p : good_path dr → models dr w V → is_Some (v_places V !! p) → runs_in (enter p w) p.
Proof. intros G [Io (mids & _ & Hp)] [pl E]. destruct (Hp _ _ E) as (_ & y & a & Wa & _). by eapply enter_runs. Qed.
Lemma calm_step V n d c w r w' : models sample_dr w V → depth V n → 1 ≤ n → fits sample_dr n → ids_check sample_dr calm (enter d w) = true → allowed sample_dr V w d c →
  run_cmd sample_dr c calm (enter d w) = (r, w') → ∃ V', vstep w V d c r V' ∧ models sample_dr w' V' ∧ depth V' (S n).
Proof.
  intros Md Hd Hn Fi Hi Al E. destruct sample_plain as [P G].
  apply (C80_step sample_dr V n d c calm w w r w' P G Md Hd Hn Fi (user_same _ _ (md_order _ _ _ Md)) (λ _ _, eq_refl) fair_calm calm_no_faults (ids_check_ok _ _ _ Hi) Al E).
Qed.
Example C80_sat : ∃ w1 w2 w3 w4 V1 V2 V3 V4 e, let w0 := sample_world in let V0 := Vcs ∅ ∅ in
  models sample_dr w0 V0 ∧ run_cmd sample_dr (CInit [B "w"] (B "main")) calm (enter home w0) = (Ok tt, w1) ∧ vstep w0 V0 home (CInit [B "w"] (B "main")) (Ok tt) V1 ∧ models sample_dr w1 V1 ∧
  run_cmd sample_dr (CCommit (B "one")) calm (enter wdir w1) = (Ok tt, w2) ∧ vstep w1 V1 wdir (CCommit (B "one")) (Ok tt) V2 ∧ models sample_dr w2 V2 ∧
  run_cmd sample_dr (CClone (B "w") (Some (B "c"))) calm (enter home w2) = (Ok tt, w3) ∧ vstep w2 V2 home (CClone (B "w") (Some (B "c"))) (Ok tt) V3 ∧ models sample_dr w3 V3 ∧
  run_cmd sample_dr (CCommit (B "two")) calm (enter cdir w3) = (Err e, w4) ∧ vstep w3 V3 cdir (CCommit (B "two")) (Err e) V4 ∧ models sample_dr w4 V4 ∧
  is_Some (v_places V4 !! wdir) ∧ is_Some (v_places V4 !! cdir).
Proof.
  pose proof vcs_test as H. apply andb_true_iff in H as [I0 H]. apply andb_true_iff in I0 as [I0 O0].
  destruct (then_ok_inv _ _ H) as ([] & w1 & E1 & H1). clear H. cbv beta in H1. apply andb_true_iff in H1 as [I1 H1].
  destruct (then_ok_inv _ _ H1) as ([] & w2 & E2 & H2). clear H1. cbv beta in H2. apply andb_true_iff in H2 as [I2 H2]. apply andb_true_iff in I2 as [I2 O2].
  destruct (then_ok_inv _ _ H2) as ([] & w3 & E3 & H3). clear H2. cbv beta in H3. apply andb_true_iff in H3 as [I3 H3].
  destruct (run_cmd sample_dr (CCommit (B "two")) calm (enter cdir w3)) as [r w4] eqn:E4. destruct r as [?|e| | |]; [discriminate H3| |discriminate H3..]. clear H3.
  destruct sample_plain as [P G]. assert (∀ k, k ≤ 40 → fits sample_dr k) as Fi by (intros k Hk; by apply sample_fits).
  assert (Fs.abs_from home (default (B ".") (head [B "w"])) = wdir) as Ah by (vm_compute; reflexivity). assert (Fs.abs_from home (B "w") = wdir) as Aw by (vm_compute; reflexivity). assert (Fs.abs_from home (default (B ".") (Some (B "c"))) = cdir) as Ac by (vm_compute; reflexivity).
  assert (outside sample_dr wdir) as Ow by (split; vm_compute; reflexivity). assert (outside sample_dr cdir) as Oc by (split; vm_compute; reflexivity).
  destruct (home_runs _ O0) as [R0 _]. destruct (home_runs _ O2) as [R2 N2].
  destruct (C80_empty sample_dr sample_world sample_order) as [M0 D0].
  destruct (calm_step (Vcs ∅ ∅) 1 home (CInit [B "w"] (B "main")) sample_world (Ok tt) w1 M0 D0 (le_n 1) (Fi 1 ltac:(lia)) I0) as (V1 & S1 & M1 & D1).
  { split; [exact R0|]. cbv zeta. rewrite Ah. split; [split; [exact Ow|]|].
    - intros s Q. vm_compute in Q. discriminate Q.
    - intros m Hm. apply elem_of_nil in Hm. destruct Hm. }
  { exact E1. }
  assert (is_Some (v_places V1 !! wdir)) as P1.
  { cbn [vstep] in S1. rewrite Ah in S1. destruct S1 as [(_ & _ & pl & rid & -> & _)|(_ & Q & _)]; [|by destruct (Q tt)]. cbn [put_place v_places]. rewrite lookup_insert. by eexists. }
  destruct (calm_step V1 2 wdir (CCommit (B "one")) w1 (Ok tt) w2 M1 D1 ltac:(lia) (Fi 2 ltac:(lia)) I1) as (V2 & S2 & M2 & D2).
  { split; [exact (place_runs _ _ _ _ G M1 P1)|]. left. exact P1. }
  { exact E2. }
  assert (is_Some (v_places V2 !! wdir)) as P2.
  { destruct P1 as [pl1 P1]. cbn [vstep] in S2. rewrite P1 in S2. destruct S2 as (x & a & _ & _ & [(_ & _ & t & a' & id & _ & _ & ->)|(_ & Q & _)]); [|by destruct (Q tt)]. cbn [put_place v_places]. rewrite lookup_insert. by eexists. }
  destruct (calm_step V2 3 home (CClone (B "w") (Some (B "c"))) w2 (Ok tt) w3 M2 D2 ltac:(lia) (Fi 3 ltac:(lia)) I2) as (V3 & S3 & M3 & D3).
  { split; [exact R2|]. cbv zeta. rewrite Aw, Ac. split; [left; exact P2|]. split; [exact Oc|]. intros [s Q]. rewrite N2 in Q. discriminate Q. }
  { exact E3. }
  assert (wdir ≠ cdir) as Nd by (vm_compute; discriminate).
  assert (is_Some (v_places V3 !! wdir) ∧ is_Some (v_places V3 !! cdir)) as [P3 P3'].
  { rewrite (C80_places _ _ _ _ _ _ S3 wdir) by (left; cbn [target_of]; rewrite Ac; exact Nd). split; [exact P2|].
    destruct P2 as [pl2 P2]. cbn [vstep] in S3. rewrite Aw, P2, Ac in S3. destruct S3 as (x & a & a' & _ & _ & _ & [(_ & _ & pl' & -> & _)|(_ & Q & _)]); [|by destruct (Q tt)].
    cbn [put_place v_places]. rewrite lookup_insert. by eexists. }
  destruct (calm_step V3 4 cdir (CCommit (B "two")) w3 (Err e) w4 M3 D3 ltac:(lia) (Fi 4 ltac:(lia)) I3) as (V4 & S4 & M4 & _).
  { split; [exact (place_runs _ _ _ _ G M3 P3')|]. left. exact P3'. }
  { exact E4. }
  exists w1, w2, w3, w4, V1, V2, V3, V4, e. cbv zeta. split; [exact M0|]. split; [exact E1|]. split; [exact S1|]. split; [exact M1|]. split; [exact E2|]. split; [exact S2|]. split; [exact M2|].
  split; [exact E3|]. split; [exact S3|]. split; [exact M3|]. split; [exact E4|]. split; [exact S4|]. split; [exact M4|].
  rewrite !(C80_places _ _ _ _ _ _ S4) by (right; done). split; [exact P3|exact P3'].
Qed.
Print Assumptions C80_sat.
