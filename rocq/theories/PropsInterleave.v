(** * PropsInterleave: processes that overlap and work in different spaces act one after the other (C93) *)
From Verif Require Import Base Uid SpecUid UidProofs Tree SpecTree TreeRefine TreeObs Dump DumpProofs Json JsonProofs Save SaveProofs Branch BranchProofs Date Ws SpecWs WsProofs
  Fs Overlay Os Layers Mounts Space Manager Commands FsProofs OsProofs LayerProofs MountProofs SpaceProofs ManagerProofs SpecWorld SpecOps SavedProofs FaultProofs ReadyProofs OpProofs CalmProofs
  SpecMachine SpecCmds SpecLog MachineProofs OpenProofs CmdProofs ExpandProofs DetProofs DatedProofs SpecTidy TidyProofs Sample SampleProofs Story StoryProofs SpecUsable UsableProofs UsableCmdProofs UsableInitProofs UsableSeqProofs SpecNames NamesProofs LongerProofs UserProofs SpecVcs VcsProofs
  HarmProofs PropsCommit PropsCmds PropsShow PropsUsable PropsRound PropsVcs SpecSerial SerialProofs PropsSerial SpecInterleave.
From Coq Require Import Lia.
From stdpp Require Import prelude gmap.

(** Process [q] waits: it loaded when version control was at some [V0], and nothing that concerns it has changed. *)
Definition ready (dr : path) (w : world) (V : vcs) (q : waiting) : Prop :=
  ∃ V0 w0 pl o0, models dr w0 V0 ∧ v_places V0 !! wt_path q = Some pl ∧ pl_space pl = wt_space q ∧ fair o0 ∧ no_faults o0 ∧
    get_workspace dr (B ".") o0 (enter (wt_path q) w0) = (Ok (wt_ws q), wt_world q) ∧ waits dr (wt_path q) pl w0 w V ∧ w_tick (wt_world q) ≤ w_tick w.
Lemma same_models dr w w' V : models dr w V → same_disk w w' → models dr w' V.
Proof.
  intros Md [S1 S2]. eapply models_while; [exact Md| |intros q _; by rewrite S1]. exists w. split; [|split; [done|by rewrite S2]].
  split; [apply (mc_wf _ _ _ (io_machine _ _ (md_order _ _ _ Md)))|]. split; [done|]. intros q. by left.
Qed.
Lemma models_load dr V w p pl o : good_path dr → models dr w V → v_places V !! p = Some pl → fair o → no_faults o → ∃ x w', get_workspace dr (B ".") o (enter p w) = (Ok x, w').
Proof.
  intros G [Io (mids & _ & Hp)] Ep F N. destruct (Hp _ _ Ep) as (_ & y & a & Wa & _ & _ & C1 & C2 & C3 & _).
  pose proof (enter_runs _ _ _ _ _ _ _ G Io Wa) as R. destruct (wa_tree _ _ _ _ _ _ _ Wa) as (raw & Er & Lo & Rest). 
  destruct (Lo (ch_names (o (5 + w_tick w))) (ch_names (o (6 + w_tick w)))) as (t & Etl & Rt); [apply F..|].
  destruct (get_Some _ _ _ Rt (wa_head _ _ _ _ _ _ _ Wa)) as (h & an & nd & Eh & _).
  pose proof (open_exact dr (enter p w) p (mids p) y (pl_head pl) a o raw t h G N (enter_workspace _ _ _ _ _ _ _ _ Wa) R Er Etl Eh) as Eo. eexists _, _. exact Eo.
Qed.
Lemma users_models dr w w1 V : models dr w V → users dr V w w1 → models dr w1 V.
Proof. intros Md (U & Hl & _). by eapply models_while. Qed.
Lemma users_ready dr w w1 V q : models dr w V → users dr V w w1 → ready dr w V q → ready dr w1 V q.
Proof.
  intros Md (U & Hl & T) (V0 & w0 & pl & o0 & Md0 & Ep & Es & F0 & N0 & E & (W1 & W2 & W3) & T0). exists V0, w0, pl, o0. do 6 (split; [done|]). split; [|lia]. split; [done|]. split.
  - rewrite Hl by (by eexists). done.
  - destruct U as (v0 & U & Ev & _). rewrite Ev, (user_trees _ _ _ _ (io_machine _ _ (md_order _ _ _ Md)) U). done.
Qed.
(** A command elsewhere leaves it as it is. *)
Lemma elsewhere_ready dr w V q d c o r w' V' : plain_path dr → good_path dr → models dr w V → ready dr w V q → fair o → no_faults o → allowed dr V w d c → elsewhere V (wt_path q) (wt_space q) d c →
  run_cmd dr c o (enter d w) = (r, w') → vstep w V d c r V' → ready dr w' V' q.
Proof.
  intros P G Md (V0 & w0 & pl & o0 & Md0 & Ep & Es & F0 & N0 & E & (W1 & W2 & W3) & T0) F N Al El Er Vs. rewrite <-Es in El.
  destruct (C90_elsewhere dr V V' (wt_path q) pl d c o w r w' P G Md W1 F N Al El Er Vs) as ((X1 & X2 & X3) & X4). exists V0, w0, pl, o0. do 6 (split; [done|]). split; [|lia].
  split; [done|]. split; [by rewrite X2|by rewrite X3].
Qed.
Definition distinct_spaces (ps : list waiting) : Prop := NoDup (wt_space <$> ps).
Theorem C93_interleaved : ∀ dr l ps V n w, plain_path dr → good_path dr → models dr w V → depth V n → 1 ≤ n → fits dr (n + length l) →
  (∀ q, q ∈ ps → ready dr w V q) → distinct_spaces ps →
  interleaved dr l (λ ps' V' w', models dr w' V' ∧ depth V' (n + length l) ∧ distinct_spaces ps' ∧ ∀ q, q ∈ ps' → ready dr w' V' q) ps V w.
Proof.
  intros dr l. induction l as [|e l IH]; intros ps V n w P G Md Hd Hn Fi Hr Hs.
  { cbn [interleaved length]. rewrite Nat.add_0_r. done. }
  cbn [length] in *. rewrite Nat.add_succ_r in *.
  assert (depth V (S n)) as HdS by (intros p' pl' a' c' ch' A1 A2 A3; pose proof (Hd p' pl' a' c' ch' A1 A2 A3); lia).
  destruct e as [p|i c|d c]; cbn [interleaved].
  - intros w1 o pl U F N Ep Ni. pose proof (users_models _ _ _ _ Md U) as Md1. destruct (models_load dr V w1 p pl o G Md1 Ep F N) as (x & w2 & E). exists x, w2. split; [exact E|].
    assert (same_disk w1 w2 ∧ w_tick w1 ≤ w_tick w2) as [Sd T].
    { split; [destruct (reader_get_workspace _ _ _ _ _ _ E) as (t & k & ->); done|]. pose proof (proj1 (f_load dr (B ".") o (enter p w1))) as Q. by rewrite E in Q. }
    pose proof (same_models _ _ _ _ Md1 Sd) as Md2. apply (IH _ V (S n)); try done; [lia| |].
    + intros q Hq. apply elem_of_app in Hq as [Hq|Hq].
      * destruct (users_ready _ _ _ _ _ Md U (Hr q Hq)) as (V0 & w0 & pl0 & o0 & A1 & A2 & A3 & A4 & A5 & A6 & (W1 & W2 & W3) & A7). exists V0, w0, pl0, o0. do 6 (split; [done|]). split; [|lia]. destruct Sd as [S1 _]. split; [done|]. by rewrite S1.
      * apply elem_of_list_singleton in Hq as ->. exists V, w1, pl, o. cbn [wt_path wt_space wt_ws wt_world]. do 6 (split; [done|]). split; [|done]. destruct Sd as [S1 _]. split; [done|]. by rewrite S1.
    + unfold distinct_spaces. rewrite fmap_app. apply NoDup_app. split; [done|]. cbn [fmap list_fmap wt_space]. split; [|apply NoDup_singleton]. intros s Hs' Q. apply elem_of_list_singleton in Q as ->. done.
  - intros w1 o q m r w' U F N Ei Nw Em Er. pose proof (users_models _ _ _ _ Md U) as Md1. pose proof (elem_of_list_lookup_2 _ _ _ Ei) as Hq.
    destruct (users_ready _ _ _ _ _ Md U (Hr q Hq)) as (V0 & w0 & pl & o0 & A1 & A2 & A3 & A4 & A5 & A6 & (W1 & W2 & W3) & A7).
    destruct (C90_acts dr V0 V n w0 w1 (wt_path q) pl o0 o (wt_ws q) (wt_world q) c m r w' P G A1 Md1 Hd Hn) as (V' & Vs & Md' & Hd'); try done; [eapply fits_less; [exact Fi|lia]|].
    exists V'. split; [done|].
    destruct (C90_serial dr V0 V w0 w1 (wt_path q) pl o0 o (wt_ws q) (wt_world q) c m G A1 Md1 A2 W1 W2 W3 A4 A5 F N Nw A6 A7 Em) as (o2 & w2 & F2 & N2 & _ & Nw2 & Sd & _ & _ & _ & E2).
    assert (w_tick w1 ≤ w_tick w') as T.
    { pose proof (proj1 (f_after_load _ _ _ _ Em o (resumed (wt_world q) w1))) as Q. by rewrite Er in Q. }
    apply (IH _ V' (S n)); try done; [lia| |].
    + intros q' Hq'. apply elem_of_list_lookup in Hq' as (j & Ej).
      assert (∃ j', ps !! j' = Some q' ∧ j' ≠ i) as (j' & Ej' & Nj).
      { destruct (decide (j < i)) as [L|L]; [exists j; rewrite lookup_delete_lt in Ej by done; split; [done|lia]|]. exists (S j). rewrite lookup_delete_ge in Ej by lia. split; [done|lia]. }
      pose proof (elem_of_list_lookup_2 _ _ _ Ej') as Hq2.
      assert (wt_space q' ≠ wt_space q) as Ns.
      { intros Q. apply Nj. apply (NoDup_lookup (wt_space <$> ps) j' i (wt_space q)); [done| |]; rewrite list_lookup_fmap; [by rewrite Ej', <-Q|by rewrite Ei]. }
      destruct (users_ready _ _ _ _ _ Md U (Hr q' Hq2)) as (V1 & v1 & pl1 & o1 & C1 & C2 & C3 & C4 & C5 & C6 & (X1 & X2 & X3) & C7).
      assert (wt_path q ≠ wt_path q') as Np by (intros Q; rewrite Q in W1; congruence).
      assert (elsewhere V (wt_path q') (pl_space pl1) (wt_path q) c) as El.
      { destruct c; try done; (split; [exact Np|]); cbn [source_of]; intros pq Eq; rewrite W1 in Eq; injection Eq as <-; congruence. }
      pose proof (same_models _ _ _ _ Md1 Sd) as Md2. destruct Sd as [S1 S2].
      assert (allowed dr V w2 (wt_path q) c) as Al.
      { split; [eapply place_runs; [exact G|exact Md2|by eexists]|]. destruct c; try done; left; by eexists. }
      rewrite Er in E2.
      destruct (C90_elsewhere dr V V' (wt_path q') pl1 (wt_path q) c o2 w2 r w' P G Md2 X1 F2 N2 Al El E2) as ((Y1 & Y2 & Y3) & _); [by destruct c|].
      exists V1, v1, pl1, o1. do 6 (split; [done|]). split; [|lia]. split; [done|]. rewrite S1 in Y2, Y3. split; [by rewrite Y2|by rewrite Y3].
    + unfold distinct_spaces in *. rewrite delete_take_drop. rewrite <-(take_drop_middle _ _ _ Ei), fmap_app, fmap_cons in Hs. rewrite fmap_app. apply NoDup_app in Hs as (H1 & H2 & H3). apply NoDup_cons in H3 as [_ H3]. apply NoDup_app. split; [done|]. split; [|done]. intros s Q1 Q2. apply (H2 s Q1). by apply elem_of_list_further.
  - intros w1 o r w' U F N Nw Al El Er. pose proof (users_models _ _ _ _ Md U) as Md1.
    destruct (models_step dr V n d c o w1 r w' P G Md1 Hd Hn) as (V' & Vs & (Md' & _) & Hd'); try done; [eapply fits_less; [exact Fi|lia]|].
    exists V'. split; [done|]. apply (IH _ V' (S n)); try done; [lia|]. intros q Hq. apply (elsewhere_ready dr w1 V q d c o r w' V' P G Md1 (users_ready _ _ _ _ _ Md U (Hr q Hq)) F N Al (El q Hq) Er Vs).
Qed.
Print Assumptions C93_interleaved.
(** From the start, when no process waits *)
Theorem C93_overlap : ∀ dr l V n w, plain_path dr → good_path dr → models dr w V → depth V n → 1 ≤ n → fits dr (n + length l) →
  interleaved dr l (λ ps' V' w', models dr w' V' ∧ depth V' (n + length l)) [] V w.
Proof.
  intros dr l V n w P G Md Hd Hn Fi.
  assert (∀ l ps V w (Q Q' : list waiting → vcs → world → Prop), (∀ ps V w, Q ps V w → Q' ps V w) → interleaved dr l Q ps V w → interleaved dr l Q' ps V w) as Mono.
  { clear. intros l. induction l as [|[p|i c|d c] l IH]; intros ps V w Q Q' HQ; cbn [interleaved]; [apply HQ| | |].
    - intros H w1 o pl U F N Ep Ni. destruct (H w1 o pl U F N Ep Ni) as (x & w2 & E & H2). exists x, w2. split; [done|]. by eapply IH.
    - intros H w1 o q m r w' U F N Ei Nw Em Er. destruct (H w1 o q m r w' U F N Ei Nw Em Er) as (V' & Vs & H2). exists V'. split; [done|]. by eapply IH.
    - intros H w1 o r w' U F N Nw Al El Er. destruct (H w1 o r w' U F N Nw Al El Er) as (V' & Vs & H2). exists V'. split; [done|]. by eapply IH. }
  eapply Mono; [|apply (C93_interleaved dr l [] V n w P G Md Hd Hn Fi)]; [intros ps' V' w' (A1 & A2 & _); by split| |apply NoDup_nil_2].
  intros q Hq. by apply elem_of_nil in Hq.
Qed.
Print Assumptions C93_overlap.
(** Two commits in two spaces overlap: both processes have loaded their trees before either goes on. Both succeed, and both commits are in the logs. *)
Definition theirs_of (x : ws) : M unit := default (fail EINVAL) (after_load sample_dr (CCommit (B "theirs")) x).
Lemma overlap_test : ids_check sample_dr calm (enter home sample_world) && home_ok sample_world &&
  then_ok (run_cmd sample_dr (CInit [B "w"] (B "main")) calm (enter home sample_world)) (λ _ w1, ids_check sample_dr calm (enter home w1) && home_ok w1 && no_mount_at w1 cdir &&
  then_ok (run_cmd sample_dr (CInit [B "c"] (B "main")) calm (enter home w1)) (λ _ w2,
  then_ok (get_workspace sample_dr (B ".") calm (enter wdir w2)) (λ x w3,
  then_ok (get_workspace sample_dr (B ".") calm (enter cdir w3)) (λ y w4, ids_check sample_dr calm (resumed w3 w4) &&
  then_ok (rest_of x calm (resumed w3 w4)) (λ _ w5, ids_check sample_dr calm (resumed w4 w5) &&
  then_ok (theirs_of y calm (resumed w4 w5)) (λ _ w', in_log wdir w' (B "mine") && in_log cdir w' (B "theirs"))))))) = true.
Proof. vm_compute. reflexivity. Qed.
Lemma users_none dr V V0 w : models dr w V0 → users dr V w w.
Proof.
  intros Md. split; [|by split]. exists w. split; [|done]. split; [apply (mc_wf _ _ _ (io_machine _ _ (md_order _ _ _ Md)))|]. split; [done|]. intros q. by left.
Qed.
Example C93_sat : ∃ w V n pl plc x w1 y w2 m w3 m' w4 V' V'', let dr := sample_dr in let o := calm in let c := CCommit (B "mine") in let c' := CCommit (B "theirs") in
  models dr w V ∧ depth V n ∧ 1 ≤ n ∧ fits dr (n + 4) ∧ v_places V !! wdir = Some pl ∧ v_places V !! cdir = Some plc ∧ pl_space plc ≠ pl_space pl ∧
  get_workspace dr (B ".") o (enter wdir w) = (Ok x, w1) ∧ get_workspace dr (B ".") o (enter cdir w1) = (Ok y, w2) ∧
  new_ids dr o (resumed w1 w2) ∧ after_load dr c x = Some m ∧ m o (resumed w1 w2) = (Ok tt, w3) ∧ vstep w2 V wdir c (Ok tt) V' ∧
  new_ids dr o (resumed w2 w3) ∧ after_load dr c' y = Some m' ∧ m' o (resumed w2 w3) = (Ok tt, w4) ∧ vstep w3 V' cdir c' (Ok tt) V'' ∧ models dr w4 V'' ∧
  in_log wdir w4 (B "mine") = true ∧ in_log cdir w4 (B "theirs") = true.
Proof.
  pose proof overlap_test as H. apply andb_true_iff in H as [I0 H]. apply andb_true_iff in I0 as [I0 O0].
  destruct (then_ok_inv _ _ H) as ([] & w1 & E1 & H1). clear H. cbv beta in H1. apply andb_true_iff in H1 as [I1 H1]. apply andb_true_iff in I1 as [I1 Nm]. apply andb_true_iff in I1 as [I1 O1].
  destruct (then_ok_inv _ _ H1) as ([] & w2 & E2 & H2). clear H1. cbv beta in H2.
  destruct (then_ok_inv _ _ H2) as (x & w3 & E3 & H3). clear H2. cbv beta in H3.
  destruct (then_ok_inv _ _ H3) as (y & w4 & E4 & H4). clear H3. cbv beta in H4. apply andb_true_iff in H4 as [I4 H4].
  destruct (then_ok_inv _ _ H4) as ([] & w5 & E5 & H5). clear H4. cbv beta in H5. apply andb_true_iff in H5 as [I5 H5].
  destruct (then_ok_inv _ _ H5) as ([] & w' & E6 & H6). clear H5. cbv beta in H6. apply andb_true_iff in H6 as [L1 L2].
  destruct sample_plain as [P G]. assert (∀ k, k ≤ 40 → fits sample_dr k) as Fi by (intros k Hk; by apply sample_fits).
  assert (Fs.abs_from home (default (B ".") (head [B "w"])) = wdir) as Ah by (vm_compute; reflexivity). assert (Fs.abs_from home (default (B ".") (head [B "c"])) = cdir) as Ac by (vm_compute; reflexivity).
  assert (outside sample_dr wdir) as Ow by (split; vm_compute; reflexivity). assert (outside sample_dr cdir) as Oc by (split; vm_compute; reflexivity).
  destruct (home_runs _ O0) as [R0 _]. destruct (home_runs _ O1) as [R1 N1].
  destruct (C80_empty sample_dr sample_world sample_order) as [M0 D0].
  destruct (calm_step (Vcs ∅ ∅) 1 home (CInit [B "w"] (B "main")) sample_world (Ok tt) w1 M0 D0 (le_n 1) (Fi 1 ltac:(lia)) I0) as (V1 & S1 & M1 & D1).
  { split; [exact R0|]. cbv zeta. rewrite Ah. split; [split; [exact Ow|]|].
    - intros s Q. vm_compute in Q. discriminate Q.
    - intros m Hm. apply elem_of_nil in Hm. destruct Hm. }
  { exact E1. }
  assert (∃ pl, v_places V1 !! wdir = Some pl) as [pl P1].
  { cbn [vstep] in S1. rewrite Ah in S1. destruct S1 as [(_ & _ & pl & rid & -> & _)|(_ & Q & _)]; [|by destruct (Q tt)]. cbn [put_place v_places]. rewrite lookup_insert. by eexists. }
  destruct (calm_step V1 2 home (CInit [B "c"] (B "main")) w1 (Ok tt) w2 M1 D1 ltac:(lia) (Fi 2 ltac:(lia)) I1) as (V & S2 & M2 & D2).
  { split; [exact R1|]. cbv zeta. rewrite Ac. split; [split; [exact Oc|]|].
    - intros s Q. rewrite N1 in Q. discriminate Q.
    - intros m Hm. unfold no_mount_at in Nm. rewrite forallb_forall in Nm. apply elem_of_list_In in Hm. specialize (Nm m Hm). apply bool_decide_eq_true in Nm. exact Nm. }
  { exact E2. }
  assert (cdir ≠ wdir) as Nd by (vm_compute; discriminate).
  assert (v_places V !! wdir = Some pl) as P2.
  { rewrite (C80_places _ _ _ _ _ _ S2 wdir); [exact P1|]. left. cbn [target_of]. rewrite Ac. apply not_eq_sym. exact Nd. }
  assert (∃ plc, v_places V !! cdir = Some plc ∧ pl_space plc ≠ pl_space pl) as (plc & P3 & Ns).
  { cbn [vstep] in S2. rewrite Ac in S2. destruct S2 as [(_ & _ & plc & rid & -> & _ & _ & Hn)|(_ & Q & _)]; [|by destruct (Q tt)]. exists plc. cbn [put_place v_places]. rewrite lookup_insert. split; [reflexivity|].
    intros Q. apply (Hn _ _ P1). symmetry. exact Q. }
  pose proof (C93_overlap sample_dr [Starts wdir; Starts cdir; GoesOn 0 (CCommit (B "mine")); GoesOn 0 (CCommit (B "theirs"))] V 3 w2 P G M2 D2 ltac:(lia) (Fi 7 ltac:(lia))) as H.
  cbn [interleaved app delete list_delete] in H.
  destruct (H w2 calm pl (users_none _ _ _ _ M2) fair_calm calm_no_faults P2 (not_elem_of_nil _)) as (x' & w3' & E3' & HA). clear H.
  rewrite E3 in E3'. injection E3' as <- <-.
  assert (models sample_dr w3 V) as M3. { apply (same_models _ _ _ _ M2). destruct (reader_get_workspace _ _ _ _ _ _ E3) as (t & k & ->). split; reflexivity. }
  destruct (HA w3 calm plc (users_none _ _ _ _ M3) fair_calm calm_no_faults P3) as (y' & w4' & E4' & HB); clear HA.
  { intros Q. apply elem_of_list_singleton in Q. exact (Ns Q). }
  rewrite E4 in E4'. injection E4' as <- <-.
  assert (models sample_dr w4 V) as M4. { apply (same_models _ _ _ _ M3). destruct (reader_get_workspace _ _ _ _ _ _ E4) as (t & k & ->). split; reflexivity. }
  destruct (HB w4 calm (Waiting wdir (pl_space pl) x w3) (rest_of x) (Ok tt) w5 (users_none _ _ _ _ M4) fair_calm calm_no_faults eq_refl (ids_check_ok _ _ _ I4) eq_refl E5) as (V' & S5 & HC). clear HB.
  cbn [wt_path] in S5.
  assert (∃ t k t2 k2, w4 = upd (enter cdir w3) (w_fs w2) (w_mounts w2) t2 k2 ∧ w3 = upd (enter wdir w2) (w_fs w2) (w_mounts w2) t k) as (t & k & t2 & k2 & Q4 & Q3).
  { destruct (reader_get_workspace _ _ _ _ _ _ E3) as (t & k & Q3). destruct (reader_get_workspace _ _ _ _ _ _ E4) as (t2 & k2 & Q4). exists t, k, t2, k2. split; [rewrite Q4, Q3; reflexivity|exact Q3]. }
  assert (w_tick w3 ≤ w_tick w4) as T4. { pose proof (proj1 (f_load sample_dr (B ".") calm (enter cdir w3))) as Q. rewrite E4 in Q. exact Q. }
  assert (w_fs w4 = w_fs w2) as F4 by (rewrite Q4; reflexivity).
  destruct (C90_acts sample_dr V V 3 w2 w4 wdir pl calm calm x w3 (CCommit (B "mine")) (rest_of x) (Ok tt) w5 P G M2 M4 D2 ltac:(lia) (Fi 3 ltac:(lia)) P2 P2 (f_equal (λ f, fget f _) F4) (f_equal (λ f, fget f _) F4) fair_calm calm_no_faults fair_calm calm_no_faults (ids_check_ok _ _ _ I4) E3 T4 eq_refl E5) as (V2 & _ & M5 & _).
  destruct (HC w5 calm (Waiting cdir (pl_space plc) y w4) (theirs_of y) (Ok tt) w' (users_none _ _ _ _ M5) fair_calm calm_no_faults eq_refl (ids_check_ok _ _ _ I5) eq_refl E6) as (V'' & S6 & M6 & _). clear HC.
  cbn [wt_path] in S6.
  exists w2, V, 3, pl, plc, x, w3, y, w4, (rest_of x), w5, (theirs_of y), w', V', V''. cbv zeta. split; [exact M2|]. split; [exact D2|]. split; [lia|]. split; [exact (Fi 7 ltac:(lia))|]. split; [exact P2|]. split; [exact P3|]. split; [exact Ns|].
  split; [exact E3|]. split; [exact E4|]. split; [exact (ids_check_ok _ _ _ I4)|]. split; [reflexivity|]. split; [exact E5|]. split; [exact S5|]. split; [exact (ids_check_ok _ _ _ I5)|]. split; [reflexivity|]. split; [exact E6|]. split; [exact S6|]. split; [exact M6|]. split; [exact L1|exact L2].
Qed.
Print Assumptions C93_sat.
