(** * PropsSerial: a process that waits while others work elsewhere runs as if it had started after them (C90) *)
From Verif Require Import Base Uid SpecUid UidProofs Tree SpecTree TreeRefine TreeObs Dump DumpProofs Json JsonProofs Save SaveProofs Branch BranchProofs Date Ws SpecWs WsProofs
  Fs Overlay Os Layers Mounts Space Manager Commands FsProofs OsProofs LayerProofs MountProofs SpaceProofs ManagerProofs SpecWorld SpecOps SavedProofs FaultProofs ReadyProofs OpProofs CalmProofs
  SpecMachine SpecCmds SpecLog MachineProofs OpenProofs CmdProofs ExpandProofs DetProofs DatedProofs SpecTidy TidyProofs Sample SampleProofs Story StoryProofs SpecUsable UsableProofs UsableCmdProofs UsableInitProofs UsableSeqProofs SpecNames NamesProofs LongerProofs UserProofs SpecVcs VcsProofs
  HarmProofs PropsCommit PropsCmds PropsShow PropsUsable PropsRound PropsVcs SpecSerial SerialProofs.
From Coq Require Import Lia.
From stdpp Require Import prelude gmap.

(** A process loads its workspace, waits while others work, and goes on. If its link and the file of its space's tree are as they were, and its
    workspace is where it was, then it does exactly what a process does that starts when the others are done: the result, the output and all
    files and mounts are the same. Map orders differ only where the later one loads the tree. *)
Theorem C90_serial : ∀ dr V V' w wm p pl o o' x w1 c m, good_path dr → models dr w V → models dr wm V' → v_places V !! p = Some pl → v_places V' !! p = Some pl →
  fget (w_fs wm) p = fget (w_fs w) p → fget (w_fs wm) (tree_at dr (pl_space pl)) = fget (w_fs w) (tree_at dr (pl_space pl)) →
  fair o → no_faults o → fair o' → no_faults o' → new_ids dr o' (resumed w1 wm) →
  get_workspace dr (B ".") o (enter p w) = (Ok x, w1) → w_tick w1 ≤ w_tick wm → after_load dr c x = Some m →
  ∃ o2 w2, fair o2 ∧ no_faults o2 ∧ (∀ n, w_tick wm ≤ n → o2 n = o' n) ∧ new_ids dr o2 (enter p w2) ∧
    same_disk wm w2 ∧ w_out w2 = w_out w ∧ w_ids w2 = w_ids w ∧ w_owned w2 = w_owned wm ∧
    run_cmd dr c o2 (enter p w2) = m o' (resumed w1 wm).
Proof.
  intros dr V V' w wm p pl o o' x w1 c m G [Io (mids & _ & Hp)] [Io' (mids' & _ & Hp')] Ep Ep' El Et F N F' N' Nw E T Em.
  destruct (Hp _ _ Ep) as (_ & y & a & Wa & _ & _ & C1 & C2 & C3 & _). destruct (Hp' _ _ Ep') as (_ & y' & a' & Wa' & _ & _ & D1 & D2 & D3 & _).
  assert (mids' p = mids p) as Emid.
  { pose proof (wa_link _ _ _ _ _ _ _ Wa') as L. rewrite El, (wa_link _ _ _ _ _ _ _ Wa) in L. apply (inj Some) in L. apply (f_equal (λ f, match f with FLink s => s | _ => [] end)) in L. cbv beta iota in L.
    by apply path_str_merged in L as <-. }
  rewrite Emid in Wa'. pose proof (enter_runs _ _ _ _ _ _ _ G Io Wa) as R.
  destruct (wa_tree _ _ _ _ _ _ _ Wa) as (raw & Er & Lo & Rest). rewrite C2 in Er.
  destruct (Lo (ch_names (o (5 + w_tick w))) (ch_names (o (6 + w_tick w)))) as (t & Etl & Rt); [apply F..|].
  destruct (get_Some _ _ _ Rt (wa_head _ _ _ _ _ _ _ Wa)) as (h & an & nd & Eh & _).
  pose proof (open_exact dr (enter p w) p (mids p) y (pl_head pl) a o raw t h G N (enter_workspace _ _ _ _ _ _ _ _ Wa) R) as Eo. rewrite C2 in Eo. specialize (Eo Er Etl Eh). rewrite Eo in E.
  match type of E with (Ok ?X, ?W) = _ => assert (x = X ∧ w1 = W) as [-> ->] by (split; congruence) end. clear E.
  change (w_tick (upd (enter p w) (w_fs (enter p w)) (w_mounts (enter p w)) t (7 + w_tick (enter p w)))) with (7 + w_tick w) in T.
  set (w2 := World (w_fs wm) (w_mounts wm) new_tree (w_cwd w) None (w_out w) (w_tick wm - 7) (w_ids w) (w_owned wm)).
  set (o2 := later o o' (7 + w_tick w) (w_tick wm)).
  assert (fair o2) as F2 by (by apply later_fair). assert (no_faults o2) as N2 by (by apply later_no_faults).
  assert (∀ n, w_tick wm ≤ n → o2 n = o' n) as O2 by (intros n Hn; unfold o2, later; rewrite decide_False by lia; done).
  exists o2, w2. split; [done|]. split; [done|]. split; [done|]. split.
  { unfold o2. change (w_tick wm) with (w_tick (resumed (upd (enter p w) (w_fs (enter p w)) (w_mounts (enter p w)) t (7 + w_tick (enter p w))) wm)). eapply (later_ids dr _ _ _ _ (w_tick wm - 7)); [|exact Nw|done|done]. change (7 + (w_tick wm - 7) = w_tick wm). lia. }
  do 4 (split; [done|]).
  assert (workspace_at dr w2 p (mids p) y' (pl_head pl) a') as Wa2 by (by destruct Wa').
  assert (in_order dr w2) as Io2 by (by destruct Io').
  pose proof (enter_runs _ _ _ _ _ _ _ G Io2 Wa2) as R2.
  destruct (after_load_parts _ _ _ _ Em) as (f & Hf & ->). rewrite Hf in Em. injection Em as <-.
  pose proof (open_exact dr (enter p w2) p (mids p) y' (pl_head pl) a' o2 raw t h G N2 (enter_workspace _ _ _ _ _ _ _ _ Wa2) R2) as Eo2. rewrite D2 in Eo2.
  assert (w_tick (enter p w2) = w_tick wm - 7) as Etk by done. rewrite Etk in Eo2.
  assert (∀ i, i < 7 → ch_names (o2 (i + (w_tick wm - 7))) = ch_names (o (i + w_tick w))) as Hn.
  { intros i Hi. unfold o2, later. rewrite decide_True by lia. cbn [ch_names]. do 2 f_equal. lia. }
  rewrite (Hn 5), (Hn 6) in Eo2 by lia. specialize (Eo2 (eq_trans Et Er) Etl Eh). unfold bind. rewrite Eo2.
  rewrite C1, C3, D1, D3. set (x := WS _ _ _ _ _ _).
  assert (upd (enter p w2) (w_fs (enter p w2)) (w_mounts (enter p w2)) t (7 + (w_tick wm - 7)) = resumed (upd (enter p w) (w_fs (enter p w)) (w_mounts (enter p w)) t (7 + w_tick (enter p w))) wm) as ->.
  { unfold upd, resumed, enter. cbn [set_pwd set_cwd set_tree w_fs w_mounts w_tree w_cwd w_pwd w_out w_tick w_ids w_owned w2].
    rewrite (link_real _ _ _ (wa_link _ _ _ _ _ _ _ Wa) (good_merged dr (mids p) G) (workspace_dir _ _ _ _ _ _ _ Io Wa)).
    rewrite (link_real (w_fs wm) _ _ (wa_link _ _ _ _ _ _ _ Wa2) (good_merged dr (mids p) G) (workspace_dir _ _ _ _ _ _ _ Io2 Wa2)). f_equal. lia. }
  apply (f_after_load _ _ _ _ (Hf x)). intros n Hn'. by apply O2.
Qed.
Print Assumptions C90_serial.
(** So it acts as version control, on what is there when it goes on. *)
Theorem C90_acts : ∀ dr V V' n w wm p pl o o' x w1 c m r w', plain_path dr → good_path dr → models dr w V → models dr wm V' → depth V' n → 1 ≤ n → fits dr n →
  v_places V !! p = Some pl → v_places V' !! p = Some pl →
  fget (w_fs wm) p = fget (w_fs w) p → fget (w_fs wm) (tree_at dr (pl_space pl)) = fget (w_fs w) (tree_at dr (pl_space pl)) →
  fair o → no_faults o → fair o' → no_faults o' → new_ids dr o' (resumed w1 wm) →
  get_workspace dr (B ".") o (enter p w) = (Ok x, w1) → w_tick w1 ≤ w_tick wm → after_load dr c x = Some m → m o' (resumed w1 wm) = (r, w') →
  ∃ V'', vstep wm V' p c r V'' ∧ models dr w' V'' ∧ depth V'' (S n).
Proof.
  intros dr V V' n w wm p pl o o' x w1 c m r w' P G Md Md' Hd Hn Fi Ep Ep' El Et F N F' N' Nw E T Em Er.
  destruct (C90_serial dr V V' w wm p pl o o' x w1 c m G Md Md' Ep Ep' El Et F N F' N' Nw E T Em) as (o2 & w2 & F2 & N2 & _ & Nw2 & [S1 S2] & _ & _ & _ & E2).
  assert (models dr w2 V') as Md2.
  { eapply models_while; [exact Md'| |intros q _; by rewrite S1]. exists wm. split; [|split; [done|by rewrite S2]].
    split; [apply (mc_wf _ _ _ (io_machine _ _ (md_order _ _ _ Md')))|]. split; [done|]. intros q. by left. }
  rewrite Er in E2. destruct (models_step dr V' n p c o2 w2 r w' P G Md2 Hd Hn Fi F2 N2 Nw2) as (V'' & Vs & (Md'' & _) & Hd''); [|exact E2|].
  - split; [by eapply place_runs|]. destruct c; try done; left; by eexists.
  - exists V''. split; [|done]. destruct c; try done.
Qed.
Print Assumptions C90_acts.
(** What a command elsewhere leaves as it was *)
Definition waits (dr : path) (p : path) (pl : place) (w w' : world) (V' : vcs) : Prop :=
  v_places V' !! p = Some pl ∧ fget (w_fs w') p = fget (w_fs w) p ∧ fget (w_fs w') (tree_at dr (pl_space pl)) = fget (w_fs w) (tree_at dr (pl_space pl)).
Theorem C90_elsewhere : ∀ dr V V' p pl d c o w r w', plain_path dr → good_path dr → models dr w V → v_places V !! p = Some pl → fair o → no_faults o →
  allowed dr V w d c → elsewhere V p (pl_space pl) d c → run_cmd dr c o (enter d w) = (r, w') → vstep w V d c r V' →
  waits dr p pl w w' V' ∧ w_tick w ≤ w_tick w'.
Proof.
  intros dr V V' p pl d c o w r w' P G Md Ep F N [R Al] [Nt Hs] E Vs. pose proof Md as [Io (mids & Hi & Hp)]. pose proof (io_machine _ _ Io) as Mc.
  assert (∀ s, abs_of (enter d w) s = Fs.abs_from d s) as Ha by (intros s; by apply runs_abs_from).
  assert (Fs.abs_from d (B ".") = d) as Edot by apply join_dot.
  assert (Fs.abs_from d (cmd_target c) = target_of d c) as Etg by (destruct c; try done).
  assert (∀ p, is_Some (v_places V !! p) ∨ plain_spot dr w p → outside dr p) as Hout.
  { intros q [[pq Eq]|[Oq _]]; [|done]. by destruct (Hp _ _ Eq) as [Oq _]. }
  assert (writes_path c → outside dr (abs_of (enter d w) (cmd_target c))) as Ho.
  { intros Hw. rewrite Ha, Etg. destruct c as [args branch|source target|msg|key| | |]; try done; cbn [target_of].
    - by destruct Al as [[Op _] _].
    - by destruct Al as (_ & Oq & _).
    - by apply Hout.
    - by apply Hout. }
  pose proof (cmd_away dr c o (enter d w) _ _ P G F Mc Ho E) as Aw. destruct (cmd_any dr c o (enter d w) _ _ P G F Mc Ho E) as [_ Ht].
  destruct (Hp _ _ Ep) as ([Op _] & y & a & Wa & _ & _ & C1 & C2 & C3 & _).
  split; [|change (w_tick w) with (w_tick (enter d w)); pose proof (proj1 (f_cmd dr c o (enter d w))) as Q; by rewrite E in Q].
  split; [|split].
  - rewrite (C80_places _ _ _ _ _ _ Vs); [done|]. left. by apply not_eq_sym.
  - change (w_fs w) with (w_fs (enter d w)). apply Aw; [done|]. rewrite Ha, Etg. by apply not_eq_sym.
  - change (w_fs w) with (w_fs (enter d w)).
    assert ((match c with CInit _ _ => False | _ => True end) → fget (w_fs w') (tree_at dr (pl_space pl)) = fget (w_fs (enter d w)) (tree_at dr (pl_space pl))) as Hc.
    { intros Nc. assert (cmd_trees dr c o (enter d w) r w') as Ht' by (by destruct c). assert (∀ pq, v_places V !! source_of d c = Some pq → pl_space pq ≠ pl_space pl) as Hs' by (by destruct c).
      assert (Fs.abs_from d (cmd_source c) = source_of d c) as Esr by (by destruct c).
      destruct (v_places V !! source_of d c) as [pq|] eqn:Eq.
      + destruct Ht' as [[_ Ht']|(x & sid & hid & b & l & k & b' & Fa & Es & _ & _ & _ & _ & _ & _ & Ht')]; [apply Ht'|]. apply Ht'. intros Q.
        assert (places_at dr (enter d w) V mids) as Pl.
        { split; [done|]. intros q pq' Eq'. destruct (Hp _ _ Eq') as (? & y2 & b2 & Wq & ?). split; [done|]. exists y2, b2. split; [by apply enter_workspace|done]. }
        destruct (opened_place dr V mids (enter d w) (cmd_source c) (source_of d c) pq x hid Pl Eq) as (_ & _ & _ & Q2); [by rewrite Ha|done|].
        rewrite Es in Q2. cbn [the_space sp_id] in Q2. by apply (Hs' pq eq_refl); rewrite <-Q2.
      + assert (plain_spot dr w (source_of d c)) as Hsp.
        { destruct c as [|source target|msg|key|opts args|opts args|args]; try done; cbn [source_of] in *; [destruct Al as ([[? Q]|Q] & _)|..]; try done; try congruence; destruct Al as [[? Q]|Q]; try done; congruence. }
        destruct (plain_idle dr c o (enter d w) r w' Nc) as [Q1 _]; [by rewrite Ha, Esr|done|]. by rewrite Q1. }
    destruct c as [args branch|source target|msg|key|opts args|opts args|args]; [|by apply Hc..]. clear Hc.
    destruct Ht as [[_ Ht]|(s & rid & id & wid & Nn & _ & _ & Ht)]; [apply Ht|]. apply Ht. intros Q.
    destruct (wa_tree _ _ _ _ _ _ _ Wa) as (raw & Er & _). rewrite C2, Q in Er.
    apply mk_is_Some in Er. apply (wf_parent _ _ (mc_wf _ _ _ Mc)) in Er as Hz; [|by unfold tree_file; destruct (sp_dir _)]. unfold tree_file, the_space in Hz. cbn [sp_dir] in Hz. rewrite parent_dir_app in Hz. unfold is_dir_at in Hz. change (w_fs (enter d w)) with (w_fs w) in Nn. by rewrite Nn in Hz.
Qed.
Print Assumptions C90_elsewhere.
(** Any number of commands in other spaces, and whatever users do, while the process waits: they act as version control, and so does it, on what they left. *)
Theorem C90_session : ∀ dr l V n w p pl o x w1, plain_path dr → good_path dr → models dr w V → depth V n → 1 ≤ n → fits dr (n + length l) → v_places V !! p = Some pl →
  fair o → no_faults o → get_workspace dr (B ".") o (enter p w) = (Ok x, w1) →
  meantime dr p (pl_space pl) l (λ V' wm, models dr wm V' ∧ v_places V' !! p = Some pl ∧
    ∀ c m o' r w', fair o' → no_faults o' → new_ids dr o' (resumed w1 wm) → after_load dr c x = Some m → m o' (resumed w1 wm) = (r, w') →
      ∃ V'', vstep wm V' p c r V'' ∧ models dr w' V'' ∧ depth V'' (S (n + length l))) V w1.
Proof.
  intros dr l V n w p pl o x w1 P G Md Hd Hn Fi Ep F N E.
  assert (w_fs w1 = w_fs w ∧ w_mounts w1 = w_mounts w) as [S1 S2] by (by destruct (reader_get_workspace _ _ _ _ _ _ E) as (t & k & ->)).
  assert (∀ v V' n', models dr v V' → depth V' n' → n ≤ n' → waits dr p pl w v V' → w_tick w1 ≤ w_tick v → fits dr (n' + length l) →
    meantime dr p (pl_space pl) l (λ V' wm, models dr wm V' ∧ v_places V' !! p = Some pl ∧
    ∀ c m o' r w', fair o' → no_faults o' → new_ids dr o' (resumed w1 wm) → after_load dr c x = Some m → m o' (resumed w1 wm) = (r, w') →
      ∃ V'', vstep wm V' p c r V'' ∧ models dr w' V'' ∧ depth V'' (S (n' + length l))) V' v) as H.
  { clear Fi. induction l as [|[d c] l IH]; intros v V' n' Md' Hd' Hn' (W1 & W2 & W3) T Fi; cbn [meantime length] in *.
    - split; [done|]. split; [done|]. intros c m o' r w' F' N' Nw Em Er. rewrite Nat.add_0_r in *.
      apply (C90_acts dr V V' n' w v p pl o o' x w1 c m r w'); try done. lia.
    - intros v1 o1 r w' U Hl Tv F1 N1 Nw1 Al El Er. pose proof (models_while _ _ _ _ Md' U Hl) as Md1.
      destruct (models_step dr V' n' d c o1 v1 r w' P G Md1 Hd') as (V2 & Vs & (Md2 & _) & Hd2); try done; [lia|eapply fits_less; [exact Fi|lia]|].
      exists V2. split; [done|].
      destruct (C90_elsewhere dr V' V2 p pl d c o1 v1 r w' P G Md1 W1 F1 N1 Al El Er Vs) as ((X1 & X2 & X3) & X4).
      rewrite Nat.add_succ_r in *. apply (IH w' V2 (S n')); try done; [lia| |lia].
      split; [done|]. split.
      + rewrite X2, Hl by (by eexists). done.
      + rewrite X3. destruct U as (v0 & U & Ev & _). rewrite Ev. rewrite (user_trees _ _ _ _ (io_machine _ _ (md_order _ _ _ Md')) U). done. }
  apply H; try done.
  - eapply models_while; [exact Md| |intros q _; by rewrite S1]. exists w. split; [|split; [done|by rewrite S2]].
    split; [apply (mc_wf _ _ _ (io_machine _ _ (md_order _ _ _ Md)))|]. split; [done|]. intros q. by left.
  - split; [done|]. by rewrite S1.
Qed.
Print Assumptions C90_session.
(** Two workspaces of two spaces. A commit in the first waits after it has loaded its tree while a commit in the second runs. Both succeed, and both are in the logs. *)
Definition no_mount_at (w : world) (p : path) : bool := forallb (λ m, bool_decide (mn_at m ≠ p)) (w_mounts w).
Definition rest_of (x : ws) : M unit := default (fail EINVAL) (after_load sample_dr (CCommit (B "mine")) x).
Definition in_log (d : path) (w : world) (s : bytes) : bool := then_ok (run_cmd sample_dr (CLog []) calm (enter d w)) (λ _ wl, bool_decide (B "    " ++ s ∈ w_out wl)).
Lemma serial_test : ids_check sample_dr calm (enter home sample_world) && home_ok sample_world &&
  then_ok (run_cmd sample_dr (CInit [B "w"] (B "main")) calm (enter home sample_world)) (λ _ w1, ids_check sample_dr calm (enter home w1) && home_ok w1 && no_mount_at w1 cdir &&
  then_ok (run_cmd sample_dr (CInit [B "c"] (B "main")) calm (enter home w1)) (λ _ w2,
  then_ok (get_workspace sample_dr (B ".") calm (enter wdir w2)) (λ x w3, ids_check sample_dr calm (enter cdir w3) &&
  then_ok (run_cmd sample_dr (CCommit (B "theirs")) calm (enter cdir w3)) (λ _ wm, ids_check sample_dr calm (resumed w3 wm) &&
  then_ok (rest_of x calm (resumed w3 wm)) (λ _ w', in_log wdir w' (B "mine") && in_log cdir w' (B "theirs")))))) = true.
Proof. vm_compute. reflexivity. Qed.
Example C90_sat : ∃ w V V' p pl x w1 wm m w' V'', let dr := sample_dr in let o := calm in let c := CCommit (B "theirs") in let c' := CCommit (B "mine") in
  models dr w V ∧ v_places V !! p = Some pl ∧ get_workspace dr (B ".") o (enter p w) = (Ok x, w1) ∧
  allowed dr V w1 cdir c ∧ elsewhere V p (pl_space pl) cdir c ∧ is_Some (v_places V !! cdir) ∧ run_cmd dr c o (enter cdir w1) = (Ok tt, wm) ∧ vstep w1 V cdir c (Ok tt) V' ∧ models dr wm V' ∧
  waits dr p pl w wm V' ∧ w_tick w1 ≤ w_tick wm ∧ new_ids dr o (resumed w1 wm) ∧ after_load dr c' x = Some m ∧ m o (resumed w1 wm) = (Ok tt, w') ∧
  vstep wm V' p c' (Ok tt) V'' ∧ models dr w' V'' ∧ in_log p w' (B "mine") = true ∧ in_log cdir w' (B "theirs") = true.
Proof.
  pose proof serial_test as H. apply andb_true_iff in H as [I0 H]. apply andb_true_iff in I0 as [I0 O0].
  destruct (then_ok_inv _ _ H) as ([] & w1 & E1 & H1). clear H. cbv beta in H1. apply andb_true_iff in H1 as [I1 H1]. apply andb_true_iff in I1 as [I1 Nm]. apply andb_true_iff in I1 as [I1 O1].
  destruct (then_ok_inv _ _ H1) as ([] & w2 & E2 & H2). clear H1. cbv beta in H2.
  destruct (then_ok_inv _ _ H2) as (x & w3 & E3 & H3). clear H2. cbv beta in H3. apply andb_true_iff in H3 as [I3 H3].
  destruct (then_ok_inv _ _ H3) as ([] & wm & E4 & H4). clear H3. cbv beta in H4. apply andb_true_iff in H4 as [I4 H4].
  destruct (then_ok_inv _ _ H4) as ([] & w' & E5 & H5). clear H4. cbv beta in H5. apply andb_true_iff in H5 as [L1 L2].
  destruct sample_plain as [P G]. assert (∀ k, k ≤ 40 → fits sample_dr k) as Fi by (intros k Hk; by apply sample_fits).
  assert (Fs.abs_from home (default (B ".") (head [B "w"])) = wdir) as Ah by (vm_compute; reflexivity). assert (Fs.abs_from home (default (B ".") (head [B "c"])) = cdir) as Ac by (vm_compute; reflexivity).
  assert (outside sample_dr wdir) as Ow by (split; vm_compute; reflexivity). assert (outside sample_dr cdir) as Oc by (split; vm_compute; reflexivity).
  destruct (home_runs _ O0) as [R0 _]. destruct (home_runs _ O1) as [R1 N1].
  destruct (C80_empty sample_dr sample_world sample_order) as [M0 D0].
  destruct (calm_step (Vcs ∅ ∅) 1 home (CInit [B "w"] (B "main")) sample_world (Ok tt) w1 M0 D0 (le_n 1) (Fi 1 ltac:(lia)) I0) as (V1 & S1 & M1 & D1).
  { split; [exact R0|]. cbv zeta. rewrite Ah. split; [split; [exact Ow|]|].
    - intros s Q. vm_compute in Q. discriminate Q.
    - intros m Hm. apply elem_of_nil in Hm. destruct Hm. }
  { exact E1. }
  assert (∃ pl, v_places V1 !! wdir = Some pl) as [pl P1].
  { cbn [vstep] in S1. rewrite Ah in S1. destruct S1 as [(_ & _ & pl & rid & -> & _)|(_ & Q & _)]; [|by destruct (Q tt)]. cbn [put_place v_places]. rewrite lookup_insert. by eexists. }
  destruct (calm_step V1 2 home (CInit [B "c"] (B "main")) w1 (Ok tt) w2 M1 D1 ltac:(lia) (Fi 2 ltac:(lia)) I1) as (V & S2 & M2 & D2).
  { split; [exact R1|]. cbv zeta. rewrite Ac. split; [split; [exact Oc|]|].
    - intros s Q. rewrite N1 in Q. discriminate Q.
    - intros m Hm. unfold no_mount_at in Nm. rewrite forallb_forall in Nm. apply elem_of_list_In in Hm. specialize (Nm m Hm). apply bool_decide_eq_true in Nm. exact Nm. }
  { exact E2. }
  assert (cdir ≠ wdir) as Nd by (vm_compute; discriminate).
  assert (v_places V !! wdir = Some pl) as P2.
  { rewrite (C80_places _ _ _ _ _ _ S2 wdir); [exact P1|]. left. cbn [target_of]. rewrite Ac. apply not_eq_sym. exact Nd. }
  assert (∃ plc, v_places V !! cdir = Some plc ∧ pl_space plc ≠ pl_space pl) as (plc & P3 & Ns).
  { cbn [vstep] in S2. rewrite Ac in S2. destruct S2 as [(_ & _ & plc & rid & -> & _ & _ & Hn)|(_ & Q & _)]; [|by destruct (Q tt)]. exists plc. cbn [put_place v_places]. rewrite lookup_insert. split; [reflexivity|].
    intros Q. apply (Hn _ _ P1). symmetry. exact Q. }
  assert (w_fs w3 = w_fs w2 ∧ w_mounts w3 = w_mounts w2) as [F1 F2].
  { destruct (reader_get_workspace _ _ _ _ _ _ E3) as (t & k & ->). split; reflexivity. }
  assert (models sample_dr w3 V) as M3.
  { eapply models_while; [exact M2| |intros q _; rewrite F1; reflexivity]. exists w2. split; [|split; [exact F1|rewrite F2; reflexivity]].
    split; [apply (mc_wf _ _ _ (io_machine _ _ (md_order _ _ _ M2)))|]. split; [reflexivity|]. intros q. left. reflexivity. }
  assert (allowed sample_dr V w3 cdir (CCommit (B "theirs"))) as Al.
  { split; [exact (place_runs _ _ _ _ G M3 (ex_intro _ _ P3))|]. left. exact (ex_intro _ _ P3). }
  assert (elsewhere V wdir (pl_space pl) cdir (CCommit (B "theirs"))) as El.
  { split; [exact Nd|]. cbn [source_of]. intros pq Q. rewrite P3 in Q. injection Q as <-. exact Ns. }
  destruct (calm_step V 3 cdir (CCommit (B "theirs")) w3 (Ok tt) wm M3 D2 ltac:(lia) (Fi 3 ltac:(lia)) I3 Al E4) as (V' & S4 & M4 & D4).
  destruct (C90_elsewhere _ _ _ _ _ _ _ _ _ _ _ P G M3 P2 fair_calm calm_no_faults Al El E4 S4) as [(W1 & W2 & W3) T]. rewrite F1 in W2, W3.
  pose proof (ids_check_ok _ _ _ I4) as Nw.
  destruct (C90_acts sample_dr V V' 4 w2 wm wdir pl calm calm x w3 (CCommit (B "mine")) (rest_of x) (Ok tt) w' P G M2 M4 D4 ltac:(lia) (Fi 4 ltac:(lia)) P2 W1 W2 W3 fair_calm calm_no_faults fair_calm calm_no_faults Nw E3 T eq_refl E5) as (V'' & S5 & M5 & _).
  exists w2, V, V', wdir, pl, x, w3, wm, (rest_of x), w', V''. cbv zeta. split; [exact M2|]. split; [exact P2|]. split; [exact E3|]. split; [exact Al|]. split; [exact El|]. split; [exact (ex_intro _ _ P3)|]. split; [exact E4|]. split; [exact S4|]. split; [exact M4|].
  split; [exact (conj W1 (conj W2 W3))|]. split; [exact T|]. split; [exact Nw|]. split; [reflexivity|]. split; [exact E5|]. split; [exact S5|]. split; [exact M5|]. split; [exact L1|exact L2].
Qed.
Print Assumptions C90_sat.
