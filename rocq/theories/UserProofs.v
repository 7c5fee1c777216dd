(** * UserProofs: no command changes a file of the user other than the workspace path *)
From Verif Require Import Base Uid SpecUid UidProofs Tree SpecTree TreeRefine TreeObs Dump DumpProofs Json JsonProofs Save SaveProofs Branch BranchProofs Date Ws SpecWs WsProofs
  Fs Overlay Os Layers Mounts Space Manager Commands FsProofs OsProofs LayerProofs MountProofs SpaceProofs ManagerProofs SpecWorld SpecOps SavedProofs FaultProofs ReadyProofs OpProofs CalmProofs
  SpecMachine SpecCmds MachineProofs OpenProofs CmdProofs.
From Coq Require Import Lia.
From stdpp Require Import prelude gmap.

(** Outside the data root everything but path [p] is as before. *)
Definition away (dr p : path) (w w' : world) : Prop := ∀ q, is_prefix dr q = false → q ≠ p → fget (w_fs w') q = fget (w_fs w) q.
Lemma away_same dr p w w' : w_fs w' = w_fs w → away dr p w w'.
Proof. by intros E q _ _; rewrite E. Qed.
Lemma away_trans dr p w1 w2 w3 : away dr p w1 w2 → away dr p w2 w3 → away dr p w1 w3.
Proof. intros A C q H1 H2. by rewrite C, A. Qed.
Lemma app_not_in (dr k q : path) : is_prefix dr q = false → q ≠ dr ++ k.
Proof. intros H ->. by rewrite is_prefix_app in H. Qed.
Lemma touches_away dr sp w w' p : space_ok dr sp → touches dr sp w w' → away dr p w w'.
Proof.
  intros S T q Hq _.
  assert (¬ own dr sp (w_fs w) q) as No.
  { intros [E|(i & E & _)]; revert E; [unfold tree_file; rewrite S; unfold space_dir, spaces_root|unfold ws_file, mounts_root]; rewrite <-!(app_assoc dr); by apply app_not_in. }
  destruct (fget (w_fs w) q) as [z|] eqn:E; [by eapply to_old|]. apply eq_None_not_Some. intros Hn.
  destruct (to_new _ _ _ _ T _ E No Hn) as [_ [[i Q]|[[i Q]|[[i Q]|[i Q]]]]]; revert Q; unfold mount_dir, space_dir, diff_dir, layer_dir, mounts_root, spaces_root, layers_root;
    rewrite <-!(app_assoc dr); by apply app_not_in.
Qed.
Lemma expand_away dr w w1 y id o r w' : plain_path dr → good_path dr → fs_wf (w_fs w1) → new_stack dr w w1 y id → outside dr (ws_path y) →
  expand y o w1 = (r, w') → away dr (ws_path y) w1 w'.
Proof.
  intros P G W (mid & ch & NC & Em & N & Nm & D) Ho E q Hq Np.
  apply (ei_same _ _ _ _ _ _ _ (expand_inv dr y mid id ch o w1 r w' P G NC Em Ho W Nm D E)); [..|done]; unfold mount_dir, mounts_root; rewrite <-!(app_assoc dr); by apply app_not_in.
Qed.
Lemma remove_away dr x mid o w r w' p : machine dr (w_fs w) (w_mounts w) → ws_mount x = mounted_mount mid (mount_dir dr mid) → remove_mount dr x o w = (r, w') → away dr p w w'.
Proof.
  intros Mc Ex H q Hq _. destruct (remove_mount_cases _ _ _ _ _ _ _ Mc Ex H) as (Hm & Hs & _). apply Hs.
  - apply not_true_is_false. rewrite is_prefix_spec. intros [k ->]. unfold mount_dir, mounts_root in Hq. rewrite <-!(app_assoc dr) in Hq. by rewrite is_prefix_app in Hq.
  - unfold ws_file, mounts_root. rewrite <-!(app_assoc dr). by apply app_not_in.
  - intros (m & u & Hm' & Hp & Hu & Hun). assert (m ∈ w_mounts w) as Hm2.
    { destruct Hm as [Q|(z & _ & Q)]; rewrite Q in Hm'; [done|]. by apply drop_mount_elem in Hm'. }
    destruct (mc_mounts _ _ _ Mc m Hm2) as [_ Ow]; [eapply is_prefix_trans; [|exact Hp]; apply is_prefix_app|].
    destruct (Ow u Hu) as (i & -> & _). apply under_spec in Hun as (k & _ & ->). unfold diff_dir, layer_dir, layers_root in Hq. rewrite <-!(app_assoc dr) in Hq. by rewrite is_prefix_app in Hq.
Qed.
Lemma op_away dr x op o w r w' a hid p : fair o → live dr w x a hid → run_op dr x op o w = (r, w') → away dr p w w'.
Proof. intros F Lv H. apply (run_op_any _ _ _ _ _ _ _ a hid) in H as [T _]; [|done..]. eapply touches_away; [apply Lv|exact T]. Qed.
Lemma mount_body_away dr x op o w r w' a hid p (k : ws → M unit) : plain_path dr → good_path dr → fair o → machine dr (w_fs w) (w_mounts w) → live dr w x a hid →
  (∃ d m, op = OCommit d m) ∨ (∃ k, op = OCheckout k) ∨ (∃ p, op = OClone p) →
  p = match op with OClone p => p | _ => ws_path x end → outside dr p →
  (∀ w1 y r w', machine dr (w_fs w1) (w_mounts w1) → k y o w1 = (r, w') → away dr p w1 w') →
  (y <- run_op dr x op ;; expand y ;;; k y) o w = (r, w') → away dr p w w'.
Proof.
  intros P G F Mc Lv Hop -> Ho Hk H.
  apply bind_any in H as [(y & w1 & E & H)|(r1 & E & Fr1 & Fr)]; [|by eapply op_away].
  destruct (op_body _ _ _ _ _ _ _ _ _ F Mc Lv E) as ([O U] & _ & _). eapply away_trans; [by eapply op_away|].
  apply (op_mount _ _ _ _ _ _ _ a hid) in E as (id & a' & Ns & Ep & _ & _ & _); [|done..]. rewrite <-Ep in *.
  apply bind_any in H as [([] & w2 & E & H)|(r1 & E & Fr1 & Fr)].
  - destruct (expand_after _ _ _ _ _ _ _ _ P G Mc O U Ns Ho E) as (O2 & _ & _).
    eapply away_trans; [eapply expand_away; [done|done| |exact Ns|done|exact E]; apply O|]. eapply Hk; [apply O2|exact H].
  - eapply expand_away; [done|done| |exact Ns|done|exact E]. apply O.
Qed.
Lemma opened_away dr arg (body : ws → M unit) o w r w' p : good_path dr → fair o → machine dr (w_fs w) (w_mounts w) →
  (∀ x w1 a hid, ws_path x = abs_of w arg → ws_mount x = mounted_mount (mv_id (ws_mount x)) (mount_dir dr (mv_id (ws_mount x))) →
     machine dr (w_fs w1) (w_mounts w1) → live dr w1 x a hid → body x o w1 = (r, w') → away dr p w1 w') →
  (x <- get_workspace dr arg ;; body x) o w = (r, w') → away dr p w w'.
Proof.
  intros G F Mc Hb H. apply bind_any in H as [(x & w1 & E & H)|(r1 & E & Fr1 & Fr)].
  - destruct (get_workspace_any _ _ _ _ _ _ G F Mc E) as (a & hid & Lv & Fa).
    apply reader_get_workspace in E as (t & k & ->). apply (Hb x _ (san_tree a) hid) in H; [|apply Fa|apply Fa|done|exact Lv]. exact H.
  - apply reader_get_workspace in E as (t & k & ->). by apply away_same.
Qed.
Lemma del_loop_away dr x hid o (f : bytes → wsop) (d : bytes → M unit) p : fair o →
  (∀ n, (∃ n' g, f n = ODelBranch n' g) ∨ (∃ n', f n = ODelTag n')) → (∀ n, run_op dr x (f n) = (d n ;;; ret x)) →
  ∀ args a w r w', live dr w x a hid → for_each args d o w = (r, w') → away dr p w w'.
Proof.
  intros F Hf Hd args. induction args as [|n args IH]; intros a w r w' Lv H; cbn [for_each] in H.
  { injection H as <- <-. by apply away_same. }
  apply bind_any in H as [([] & w1 & E & H)|(r1 & E & Fr1 & Fr)].
  - assert (run_op dr x (f n) o w = (Ok x, w1)) as Er by (rewrite Hd; unfold bind; by rewrite E).
    eapply away_trans; [by eapply op_away|].
    apply (run_del_live _ _ _ _ _ _ _ a hid) in Er as (a1 & Ha & Lv1 & _); [|destruct (Hf n) as [?|?]; eauto|done..]. by eapply IH.
  - assert (∃ r2, run_op dr x (f n) o w = (r2, w')) as (r2 & Er).
    { rewrite Hd. unfold bind. rewrite E. destruct r1; eexists; reflexivity. }
    by eapply op_away.
Qed.
Lemma op_then_away dr x op o w a hid (m : M unit) r w' p : fair o → live dr w x a hid → run_op dr x op = (m ;;; ret x) → m o w = (r, w') → away dr p w w'.
Proof.
  intros F Lv Eq E. destruct (run_op dr x op o w) as [r1 w1] eqn:Er. pose proof Er as Er'. rewrite Eq in Er'. unfold bind in Er'. rewrite E in Er'.
  assert (w1 = w') as -> by (destruct r; by injection Er'). by eapply op_away.
Qed.
Lemma cmd_away dr c o w r w' : plain_path dr → good_path dr → fair o → machine dr (w_fs w) (w_mounts w) →
  (writes_path c → outside dr (abs_of w (cmd_target c))) → run_cmd dr c o w = (r, w') → away dr (abs_of w (cmd_target c)) w w'.
Proof.
  intros P G F Mc Ho H. destruct c as [args branch|source target|msg|key|opts args|opts args|args]; cbn [run_cmd] in H; cbn [cmd_target writes_path] in *.
  - specialize (Ho I). unfold cmd_init in H.
    apply bind_any in H as [(p & w1 & E & H)|(r1 & E & Fr1 & Fr)]; [|apply quiet_abs in E as (k & ->); by apply away_same].
    pose proof (abs_ok _ _ _ _ _ E) as Ep. apply quiet_abs in E as (k1 & ->).
    apply bind_any in H as [(b & w1 & E & H)|(r1 & E & Fr1 & Fr)]; [|apply quiet_is_exists in E as (k & ->); by apply away_same].
    apply quiet_is_exists in E as (k2 & ->). rewrite upd_upd in H.
    assert (quiet (if b : bool then d <- fs_is_empty_dir p;; ret (negb d) else ret false)) as Q by (quiet; apply quiet_is_empty_dir).
    apply bind_any in H as [(b' & w1 & E & H)|(r1 & E & Fr1 & Fr)]; [|apply Q in E as (k & ->); by apply away_same].
    apply Q in E as (k3 & ->). rewrite upd_upd in H. cbn [w_fs w_mounts w_tree upd] in H. clear Q.
    destruct b'; [injection H as <- <-; by apply away_same|].
    set (w0 := upd w (w_fs w) (w_mounts w) (w_tree w) k3) in *. rewrite <-Ep in *. change (away dr p w0 w').
    set (sid := ch_uid (o (w_tick w0))).
    assert (∀ r w1, create_workspace dr p branch o w0 = (r, w1) → away dr p w0 w1) as Cr.
    { intros r1 w1 E. pose proof (create_workspace_any _ _ _ _ _ _ _ F (mc_wf _ _ _ Mc : fs_wf (w_fs w0)) E) as [T _]. eapply touches_away; [|exact T]. done. }
    apply bind_any in H as [(x & w1 & E & H)|(r1 & E & Fr1 & Fr)]; [|by eapply Cr].
    eapply away_trans; [by eapply Cr|]. pose proof (create_workspace_any _ _ _ _ _ _ _ F (mc_wf _ _ _ Mc : fs_wf (w_fs w0)) E) as [To _].
    apply (create_ready _ _ _ _ _ _ _ F (mc_wf _ _ _ Mc : fs_wf (w_fs w0))) in E as (rid' & id' & _ & Rd & _ & Hp & Em & N1 & N2 & _).
    rewrite <-Hp in *. eapply (expand_away dr w0); [done|done| | |done|exact H].
    + apply (to_wf _ _ _ _ To). apply Mc.
    + eexists _, [rid']. split; [done|]. split; [exact Em|]. split; [done|]. split; [|exact (live_diff _ _ _ _ _ (rd_live _ _ _ _ _ Rd))].
      eapply (touches_merged dr _ w0); [|apply Mc|exact To|exact N1]. done.
  - specialize (Ho I). unfold cmd_clone in H. apply bind_any in H as [(p & w1 & E & H)|(r1 & E & Fr1 & Fr)].
    2: { apply quiet_abs in E as (k & ->). by apply away_same. }
    pose proof (abs_ok _ _ _ _ _ E) as Ep. apply quiet_abs in E as (k & ->). rewrite <-Ep in *.
    set (w0 := upd w (w_fs w) (w_mounts w) (w_tree w) k) in *. change (away dr p w0 w').
    eapply opened_away; [done|done| | |exact H]; [done|]. intros x w1 a hid _ Ex Mc1 Lv Hb. cbv beta in Hb.
    eapply (mount_body_away _ x (OClone p) _ _ _ _ _ _ _ (λ _, ret tt)); try done; [by eauto|..].
    + intros w2 y r2 w3 _ [= _ <-]. by apply away_same.
    + cbn [run_op]. unfold bind in *. destruct (clone_ws dr x p o w1) as [[y| | | |] w2]; try done. destruct (expand y o w2) as [[[]| | | |] w3]; done.
  - specialize (Ho I). unfold cmd_commit in H. eapply opened_away; [done|done|done| |exact H]. intros x w1 a hid Hp Ex Mc1 Lv Hb. cbv beta in Hb. rewrite bind_next in Hb.
    assert (live dr (tick w1) x a hid) as Lv1 by (destruct Lv as [A1 A2 A3 A4 A5]; by constructor).
    pose proof (mount_body_away dr x (OCommit (Some (fmt_rfc3339 (ch_time (o (w_tick w1))))) msg) o (tick w1) r w' a hid (ws_path x) (λ _, remove_mount dr x)) as Q.
    rewrite <-Hp in *. apply Q; try done; [by eauto|]. intros w2 y r2 w3 Mc2 E. by eapply remove_away.
  - specialize (Ho I). unfold cmd_checkout in H. eapply opened_away; [done|done|done| |exact H]. intros x w1 a hid Hp Ex Mc1 Lv Hb. cbv beta in Hb.
    rewrite <-Hp in *. apply (mount_body_away dr x (OCheckout key) o w1 r w' a hid (ws_path x) (λ _, remove_mount dr x)); try done; [by eauto|]. intros w2 y r2 w3 Mc2 E. by eapply remove_away.
  - unfold cmd_branch in H. eapply opened_away; [done|done|done| |exact H]. intros x w1 a hid _ _ Mc1 Lv Hb. cbv beta in Hb. clear H.
    assert (printer (list_branches x opts)) as Pl.
    { apply printer_bind; [apply quiet_printer, quiet_next|]. intros ord. apply printer_bind; [apply quiet_printer, quiet_gets|]. intros t. apply printer_print_all. }
    destruct (bo_list opts); [apply Pl in Hb as [Hb _]; by apply away_same|].
    destruct (bo_current opts); [apply printer_println in Hb as [Hb _]; by apply away_same|].
    destruct (bo_delete opts).
    { eapply (del_loop_away dr x hid o (λ n, ODelBranch n (bo_remotes opts))); [done|by eauto| |exact Lv|exact Hb]. done. }
    destruct args as [|n rest]; [apply Pl in Hb as [Hb _]; by apply away_same|].
    eapply (op_then_away _ x (OAddBranch n (default (B "HEAD") (head rest)) (bo_force opts))); [done|exact Lv| |exact Hb]. done.
  - unfold cmd_tag in H. eapply opened_away; [done|done|done| |exact H]. intros x w1 a hid _ _ Mc1 Lv Hb. cbv beta in Hb. clear H.
    assert (printer (list_tags x)) as Pl.
    { apply printer_bind; [apply quiet_printer, quiet_next|]. intros ord. apply printer_bind; [apply quiet_printer, quiet_gets|]. intros t. apply printer_print_all. }
    destruct (to_list opts); [apply Pl in Hb as [Hb _]; by apply away_same|].
    destruct (to_delete opts).
    { eapply (del_loop_away dr x hid o ODelTag); [done|by eauto| |exact Lv|exact Hb]. done. }
    destruct args as [|n rest]; [apply Pl in Hb as [Hb _]; by apply away_same|].
    eapply (op_then_away _ x (OAddTag n (default (B "HEAD") (head rest)) (to_force opts))); [done|exact Lv| |exact Hb]. done.
  - unfold cmd_log in H. eapply opened_away; [done|done|done| |exact H]. intros x w1 a hid _ _ Mc1 Lv Hb. cbv beta in Hb.
    assert (w_fs w' = w_fs w1) as E; [|by apply away_same]. revert Hb. match goal with |- ?m o w1 = _ → _ => assert (printer m) as Pm end.
    { do 3 (apply printer_bind; [apply quiet_printer; first [apply quiet_next|apply quiet_gets]|]; intros ?).
      apply printer_bind; [apply quiet_printer, quiet_lift|]. intros cs. apply printer_for_each. intros c. apply printer_log. }
    intros Hb. by apply Pm in Hb as [Hb _].
Qed.
