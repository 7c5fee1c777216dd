(** * PropsHarm: a command that fails or is killed harms at most its own workspace (C84) *)
From Verif Require Import Base Uid SpecUid UidProofs Tree SpecTree TreeRefine TreeObs Dump DumpProofs Json JsonProofs Save SaveProofs Branch BranchProofs Date Ws SpecWs WsProofs
  Fs Overlay Os Layers Mounts Space Manager Commands FsProofs OsProofs LayerProofs MountProofs SpaceProofs ManagerProofs SpecWorld SpecOps SavedProofs FaultProofs ReadyProofs OpProofs CalmProofs
  SpecMachine SpecCmds SpecLog MachineProofs OpenProofs CmdProofs DetProofs SpecTidy TidyProofs Sample SampleProofs Story StoryProofs SpecUsable UsableProofs UsableSeqProofs SpecNames NamesProofs LongerProofs SpecVcs VcsProofs
  SpecHarm HarmProofs PropsCommit PropsCmds PropsShow PropsUsable PropsRound PropsVcs PropsOrder.
From Coq Require Import Lia.
From stdpp Require Import prelude gmap.

(** ** C84 *)
(** Any command, whatever fails on the way and wherever the process is killed: what is left is a version control system again, and no layer has changed
    but, with commit and checkout, the working layer of the workspace they are about. *)
Theorem C84_step : ∀ dr V n d c o w w1 r w', plain_path dr → good_path dr → models dr w V → depth V n →
  meanwhile dr w w1 → (∀ p, is_Some (v_places V !! p) → fget (w_fs w1) p = fget (w_fs w) p) → fair o → allowed dr V w1 d c →
  run_cmd dr c o (enter d w1) = (r, w') → ∃ V', partly o V d c V' ∧ models dr w' V' ∧ depth V' (S n) ∧ spared dr V d c w1 w' ∧ stay_awake dr V' w1 w'.
Proof.
  intros dr V n d c o w w1 r w' P G Md Hd U Hl F [R Al] E. destruct (models_while _ _ _ _ Md U Hl) as [Io (mids & Hi & Hp)].
  destruct (harm_any dr V mids n d c o (enter d w1) r w' P G F) as (V' & A & (B1 & B2) & C & D); [by apply enter_order| |done|done|by split|done|exists V'; by split_and!].
  split; [exact Hi|]. intros p pl Ep. destruct (Hp p pl Ep) as (Op & y & a & Wa & T). split; [done|]. exists y, a. split; [by apply enter_workspace|exact T].
Qed.
(** Any number of commands, some of which fail or are killed: those that do not still do what they should. *)
Theorem C84_session : ∀ dr l V n w, plain_path dr → good_path dr → models dr w V → depth V n → 1 ≤ n → fits dr (n + length l) →
  survives dr l (λ V' w', models dr w' V' ∧ depth V' (n + length l)) V w.
Proof.
  intros dr l. induction l as [|[d c] l IH]; intros V n w P G Md Hd Hn Fi; cbn [survives length]; [by rewrite Nat.add_0_r|].
  intros w1 o r w' U Hl F Al E. cbn [length] in Fi. rewrite Nat.add_succ_r in *.
  split.
  - intros N Nw. destruct (models_step dr V n d c o w1 r w' P G (models_while _ _ _ _ Md U Hl) Hd Hn) as (V' & A & (B & Fs) & C); try done; [eapply fits_less; [exact Fi|lia]|].
    exists V'. split; [done|]. split; [done|]. apply (IH V' (S n) w'); try done. lia.
  - destruct (C84_step dr V n d c o w w1 r w' P G Md Hd U Hl F Al E) as (V' & A & B & C & D & Sa). exists V'. do 3 (split; [done|]). apply (IH V' (S n) w'); try done. lia.
Qed.
(** What is left: every other workspace, unless it belongs to the space whose file was written only in part. *)
Theorem C84_places : ∀ o V d c V' p pl, partly o V d c V' → v_places V !! p = Some pl → p ≠ abs_from d (cmd_target c) →
  whole o ∨ (∀ ps, v_places V !! abs_from d (cmd_source c) = Some ps → pl_space ps ≠ pl_space pl) → v_places V' !! p = Some pl.
Proof.
  intros o V d c V' p pl [->|(ps & x & a & l & k & a' & Es & _ & _ & _ & _ & _ & H)] Ep Np Hs; [done|]. destruct H as [->|[(_ & _ & ->)|[Nw ->]]].
  - done.
  - cbn [put_tree less_place v_places]. by rewrite lookup_delete_ne by (by apply not_eq_sym).
  - cbn [less_space v_places]. apply map_filter_lookup_Some. split; [done|]. cbn [snd]. destruct Hs as [Hw|Hs]; [by destruct (Nw Hw)|]. by apply not_eq_sym, Hs.
Qed.
(** Commands that do not make a mount, and init, lose no workspace, unless a file was written only in part. *)
Theorem C84_all_places : ∀ o V d c V' p pl, partly o V d c V' → whole o → ¬ makes_mount c → v_places V !! p = Some pl → v_places V' !! p = Some pl.
Proof. intros o V d c V' p pl [->|(ps & x & a & l & k & a' & _ & _ & _ & _ & _ & _ & [->|[(? & _)|[? _]]])] Hw Hm Ep; done. Qed.
(** The trees of other spaces are as before, and no space loses or moves a layer. *)
Theorem C84_trees : ∀ o V d c V' sid, partly o V d c V' → (∀ ps, v_places V !! abs_from d (cmd_source c) = Some ps → pl_space ps ≠ sid) → v_trees V' !! sid = v_trees V !! sid.
Proof.
  intros o V d c V' sid [->|(ps & x & a & l & k & a' & Es & _ & _ & _ & _ & _ & H)] Hs; [done|]. specialize (Hs _ Es).
  destruct H as [->|[(_ & _ & ->)|[_ ->]]]; cbn [put_tree less_place less_space v_trees]; [by rewrite lookup_insert_ne..|done].
Qed.
Theorem C84_layers : ∀ dr w o V d c V' p pl a i z, models dr w V → partly o V d c V' → v_places V !! p = Some pl → v_trees V !! pl_space pl = Some a → SpecTree.parent_of a i z →
  ∃ a', v_trees V' !! pl_space pl = Some a' ∧ SpecTree.parent_of a' i z.
Proof.
  intros dr w o V d c V' p pl a i z [_ (mids & _ & Hpl)] [->|(ps & x & b & l & k & b' & Es & _ & Tb & Hc & _ & Hop & H)] Ep T Pa; [by exists a|].
  destruct (Hpl _ _ Es) as (_ & y & b2 & Wa & T2 & _ & _ & C2 & _). assert (b2 = b) as -> by congruence. pose proof (holds_rooted _ _ _ (wa_tree _ _ _ _ _ _ _ Wa)) as Ro.
  destruct (does_grown _ _ _ _ _ _ _ _ Ro Hc Hop) as [Gr _].
  assert (∃ a', <[pl_space ps := san_tree b']> (v_trees V) !! pl_space pl = Some a' ∧ SpecTree.parent_of a' i z) as Q.
  { destruct (decide (pl_space ps = pl_space pl)) as [Eq|Nq]; [|rewrite lookup_insert_ne by done; by exists a]. rewrite Eq, lookup_insert. eexists. split; [done|].
    rewrite Eq, T in Tb. injection Tb as <-. by apply san_parent, Gr. }
  destruct H as [->|[(_ & _ & ->)|[_ ->]]]; [exact Q|exact Q|by exists a].
Qed.
Print Assumptions C84_step.
Print Assumptions C84_session.
Print Assumptions C84_places.
Print Assumptions C84_all_places.
Print Assumptions C84_trees.
Print Assumptions C84_layers.

(** Two workspaces. A commit in the first is killed between the removal of its old link and the creation of the new one (C47_gap): nothing is left at its
    path, but the second workspace goes on. *)
Definition deadly (w : world) : oracle := with_fault calm (31 + w_tick w) (FKill 0).
Lemma harm_test : ids_check sample_dr calm (enter home sample_world) && home_ok sample_world &&
  then_ok (run_cmd sample_dr (CInit [B "w"] (B "main")) calm (enter home sample_world)) (λ _ w1, ids_check sample_dr calm (enter wdir w1) &&
  then_ok (run_cmd sample_dr (CCommit (B "one")) calm (enter wdir w1)) (λ _ w2, ids_check sample_dr calm (enter home w2) && home_ok w2 &&
  then_ok (run_cmd sample_dr (CClone (B "w") (Some (B "c"))) calm (enter home w2)) (λ _ w3,
  killed_then (run_cmd sample_dr (CCommit (B "two")) (deadly w3) (enter wdir w3)) (λ w4, bool_decide (fget (w_fs w4) wdir = None) && ids_check sample_dr calm (enter cdir w4) &&
  then_ok (run_cmd sample_dr (CTag (TagOpts false false false) [B "t"; B "HEAD"]) calm (enter cdir w4)) (λ _ _, true))))) = true.
Proof. vm_compute. reflexivity. Qed.
Lemma deadly_whole w : whole (deadly w).
Proof. intros n. unfold deadly, with_fault. cbn [ch_fault]. case_decide; done. Qed.
Example C84_sat : ∃ w3 w4 w5 V3 V4 V5, let t := CTag (TagOpts false false false) [B "t"; B "HEAD"] in
  models sample_dr w3 V3 ∧ is_Some (v_places V3 !! wdir) ∧ is_Some (v_places V3 !! cdir) ∧ allowed sample_dr V3 w3 wdir (CCommit (B "two")) ∧
  run_cmd sample_dr (CCommit (B "two")) (deadly w3) (enter wdir w3) = (Crash, w4) ∧ partly (deadly w3) V3 wdir (CCommit (B "two")) V4 ∧ models sample_dr w4 V4 ∧
  v_places V4 !! wdir = None ∧ v_places V4 !! cdir = v_places V3 !! cdir ∧
  run_cmd sample_dr t calm (enter cdir w4) = (Ok tt, w5) ∧ vstep w4 V4 cdir t (Ok tt) V5 ∧ models sample_dr w5 V5.
Proof.
  pose proof harm_test as H. apply andb_true_iff in H as [I0 H]. apply andb_true_iff in I0 as [I0 O0].
  destruct (then_ok_inv _ _ H) as ([] & w1 & E1 & H1). clear H. cbv beta in H1. apply andb_true_iff in H1 as [I1 H1].
  destruct (then_ok_inv _ _ H1) as ([] & w2 & E2 & H2). clear H1. cbv beta in H2. apply andb_true_iff in H2 as [I2 H2]. apply andb_true_iff in I2 as [I2 O2].
  destruct (then_ok_inv _ _ H2) as ([] & w3 & E3 & H3). clear H2. cbv beta in H3.
  destruct (killed_then_inv _ _ H3) as (w4 & E4 & H4). clear H3. cbv beta in H4. apply andb_true_iff in H4 as [I4 H4]. apply andb_true_iff in I4 as [N4 I4]. apply bool_decide_eq_true in N4.
  destruct (then_ok_inv _ _ H4) as ([] & w5 & E5 & _). clear H4.
  destruct sample_plain as [P G]. assert (∀ k, k ≤ 40 → fits sample_dr k) as Fi by (intros k Hk; by apply sample_fits).
  assert (Fs.abs_from home (default (B ".") (head [B "w"])) = wdir) as Ah by (vm_compute; reflexivity). assert (Fs.abs_from home (B "w") = wdir) as Aw by (vm_compute; reflexivity). assert (Fs.abs_from home (default (B ".") (Some (B "c"))) = cdir) as Ac by (vm_compute; reflexivity).
  assert (outside sample_dr wdir) as Ow by (split; vm_compute; reflexivity). assert (outside sample_dr cdir) as Oc by (split; vm_compute; reflexivity).
  destruct (home_runs _ O0) as [R0 _]. destruct (home_runs _ O2) as [R2 N2].
  destruct (C80_empty sample_dr sample_world sample_order) as [M0 D0].
  destruct (calm_step (Vcs ∅ ∅) 1 home (CInit [B "w"] (B "main")) sample_world (Ok tt) w1 M0 D0 (le_n 1) (Fi 1 ltac:(lia)) I0) as (V1 & S1 & M1 & D1).
  { split; [exact R0|]. cbv zeta. rewrite Ah. split; [split; [exact Ow|]|].
    - intros s Q. vm_compute in Q. discriminate Q.
    - intros m Hm. apply elem_of_nil in Hm. destruct Hm. }
  { exact E1. }
  assert (is_Some (v_places V1 !! wdir)) as P1.
  { cbn [vstep] in S1. rewrite Ah in S1. destruct S1 as [(_ & _ & pl & rid & -> & _)|(_ & Q & _)]; [|by destruct (Q tt)]. cbn [put_place v_places]. rewrite lookup_insert. by eexists. }
  destruct (calm_step V1 2 wdir (CCommit (B "one")) w1 (Ok tt) w2 M1 D1 ltac:(lia) (Fi 2 ltac:(lia)) I1) as (V2 & S2 & M2 & D2).
  { split; [exact (place_runs _ _ _ _ G M1 P1)|]. left. exact P1. }
  { exact E2. }
  assert (is_Some (v_places V2 !! wdir)) as P2.
  { destruct P1 as [pl1 P1]. cbn [vstep] in S2. rewrite P1 in S2. destruct S2 as (x & a & _ & _ & [(_ & _ & t & a' & id & _ & _ & ->)|(_ & Q & _)]); [|by destruct (Q tt)]. cbn [put_place v_places]. rewrite lookup_insert. by eexists. }
  destruct (calm_step V2 3 home (CClone (B "w") (Some (B "c"))) w2 (Ok tt) w3 M2 D2 ltac:(lia) (Fi 3 ltac:(lia)) I2) as (V3 & S3 & M3 & D3).
  { split; [exact R2|]. cbv zeta. rewrite Aw, Ac. split; [left; exact P2|]. split; [exact Oc|]. intros [s Q]. rewrite N2 in Q. discriminate Q. }
  { exact E3. }
  assert (wdir ≠ cdir) as Nd by (vm_compute; discriminate).
  assert (is_Some (v_places V3 !! wdir) ∧ is_Some (v_places V3 !! cdir)) as [P3 P3'].
  { rewrite (C80_places _ _ _ _ _ _ S3 wdir) by (left; cbn [target_of]; rewrite Ac; exact Nd). split; [exact P2|].
    destruct P2 as [pl2 P2]. cbn [vstep] in S3. rewrite Aw, P2, Ac in S3. destruct S3 as (x & a & a' & _ & _ & _ & [(_ & _ & pl' & -> & _)|(_ & Q & _)]); [|by destruct (Q tt)].
    cbn [put_place v_places]. rewrite lookup_insert. by eexists. }
  assert (allowed sample_dr V3 w3 wdir (CCommit (B "two"))) as A3 by (split; [exact (place_runs _ _ _ _ G M3 P3)|left; exact P3]).
  destruct (C84_step sample_dr V3 4 wdir (CCommit (B "two")) (deadly w3) w3 w3 Crash w4 P G M3 D3 (user_same _ _ (md_order _ _ _ M3)) (λ _ _, eq_refl) (fair_with_fault _ _ _ fair_calm) A3 E4) as (V4 & S4 & M4 & D4 & _).
  assert (v_places V4 !! cdir = v_places V3 !! cdir) as P4.
  { destruct P3' as [pc P3']. rewrite P3'. eapply C84_places; [exact S4|exact P3'| |left; apply deadly_whole]. assert (Fs.abs_from wdir (cmd_target (CCommit (B "two"))) = wdir) as -> by (vm_compute; reflexivity). by apply not_eq_sym. }
  assert (v_places V4 !! wdir = None) as P4'.
  { apply eq_None_not_Some. intros [pl Ep]. destruct M4 as [_ (mids & _ & Hp)]. destruct (Hp _ _ Ep) as (_ & y & a & Wa & _). pose proof (wa_link _ _ _ _ _ _ _ Wa) as Q. rewrite N4 in Q. discriminate Q. }
  destruct (calm_step V4 5 cdir (CTag (TagOpts false false false) [B "t"; B "HEAD"]) w4 (Ok tt) w5 M4 D4 ltac:(lia) (Fi 5 ltac:(lia)) I4) as (V5 & S5 & M5 & _).
  { rewrite <-P4 in P3'. split; [exact (place_runs _ _ _ _ G M4 P3')|]. left. exact P3'. }
  { exact E5. }
  exists w3, w4, w5, V3, V4, V5. cbv zeta. split; [exact M3|]. split; [exact P3|]. split; [exact P3'|]. split; [exact A3|]. split; [exact E4|]. split; [exact S4|]. split; [exact M4|]. split; [exact P4'|]. split; [exact P4|].
  split; [exact E5|]. split; [exact S5|exact M5].
Qed.
Print Assumptions C84_sat.
