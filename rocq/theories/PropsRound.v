(** * PropsRound: what was committed comes back (C71) *)
From Verif Require Import Base Uid SpecUid UidProofs Tree SpecTree TreeRefine TreeObs Dump DumpProofs Json JsonProofs Save SaveProofs Branch BranchProofs Date Ws SpecWs WsProofs
  Fs Overlay Os Layers Mounts Space Manager Commands Sample FsProofs OsProofs LayerProofs MountProofs SpaceProofs ManagerProofs SpecWorld SpecOps SavedProofs FaultProofs ReadyProofs OpProofs CalmProofs
  SpecMachine SpecCmds SpecTidy DetProofs MachineProofs OpenProofs CmdProofs SampleProofs ExpandProofs TidyProofs UserProofs Story StoryProofs SpecUsable UsableProofs UsableInitProofs UsableCmdProofs UsableSeqProofs
  PropsUid PropsWs PropsBranch PropsCommit PropsCmds PropsShow PropsCommitted PropsFaults PropsUsable.
From Coq Require Import Lia.
From stdpp Require Import prelude gmap.

(** ** What the saved history says of a commit, for ever *)
Lemma history_chain hid a a' c ch : keeps_history hid a a' → chain a c ch → chain a' c ch.
Proof.
  intros K. apply chain_mono.
  - intros x p (n & E & Q). destruct (K _ _ E) as (n' & E' & Q' & _). exists n'. split; [done|congruence].
  - intros x (n & E & Q). destruct (K _ _ E) as (n' & E' & Q' & _). exists n'. split; [done|congruence].
Qed.
(** Space [sid] has a tree file, and if it can be read, commit [c] consists of the layers [ch]. *)
Definition remembers (dr : path) (fs : files) (sid c : uid) (ch : list uid) : Prop :=
  fget fs (tree_at dr sid) ≠ None ∧ ∀ a, holds fs (the_space dr sid) a → chain a c ch.
Lemma remembers_same dr fs fs' sid c ch : fget fs' (tree_at dr sid) = fget fs (tree_at dr sid) → remembers dr fs sid c ch → remembers dr fs' sid c ch.
Proof. intros E [H1 H2]. split; [congruence|]. intros a Ha. apply H2. unfold holds in *. by rewrite <-E. Qed.
Lemma remembers_torn dr fs sid c ch : holds_torn fs (the_space dr sid) → remembers dr fs sid c ch.
Proof. intros (raw & E & T). split; [congruence|]. intros a (raw' & E' & L). rewrite E in E'. injection E' as <-. by destruct (torn_not_loads raw a T L). Qed.
Lemma remembers_step dr w w' sid c ch : plain_path dr → good_path dr → machine dr (w_fs w) (w_mounts w) → step dr w w' →
  remembers dr (w_fs w) sid c ch → remembers dr (w_fs w') sid c ch.
Proof.
  intros P G Mc [cm o w0 r [E1 E2] F Ho E|(W & _ & U)|E1 E2] R; [..|by rewrite E1].
  - rewrite <-E1, <-E2 in *. destruct (cmd_any _ _ _ _ _ _ P G F Mc Ho E) as [_ Ct].
    assert (cmd_trees dr cm o w0 r w' → remembers dr (w_fs w') sid c ch) as Main.
    { intros [[_ Q]|(x & s & hid & b & l & k & b' & Fa & Sx & Hb & _ & _ & _ & Hop & Hh & Q)]; [eapply remembers_same; [apply Q|exact R]|].
      destruct (decide (sid = s)) as [->|Ns]; [|eapply remembers_same; [by apply Q|exact R]].
      destruct Hh as [Hh|(_ & _ & T)]; [|by apply remembers_torn]. split; [by destruct Hh as (raw & Q1 & _); rewrite Q1|].
      intros a Ha. pose proof (holds_det _ _ _ _ Ha Hh) as ->. apply san_chain. eapply history_chain; [by eapply ops_keep_history|]. by apply R. }
    destruct cm; try by apply Main. destruct Ct as [[_ Q]|(s & rid & id & wid & N & _ & _ & Q)]; [eapply remembers_same; [apply Q|exact R]|].
    eapply remembers_same; [apply Q|exact R]. intros ->. destruct R as [R _]. destruct (fget (w_fs w0) (tree_at dr s)) as [y|] eqn:Ey; [|done].
    apply (mc_wf _ _ _ Mc) in Ey. unfold is_dir_at in Ey. cbn [the_space sp_dir] in Ey. by rewrite N in Ey.
  - eapply remembers_same; [|exact R]. destruct (U (tree_at dr sid)) as [?|[Q|(m & u & Hm & Ha & Eu & Q)]]; [done|..].
    + assert (vital dr (tree_at dr sid)) as V by (left; eauto). apply vital_in in V as [k V]. rewrite V in Q. by rewrite is_prefix_app in Q.
    + destruct (mc_mounts _ _ _ Mc m Hm Ha) as [_ O]. destruct (O u Eu) as (id & -> & D). rewrite vital_not_diff in Q; [done|]. left; eauto.
Qed.
Lemma remembers_steps dr w w' sid c ch : plain_path dr → good_path dr → machine dr (w_fs w) (w_mounts w) → rtc (step dr) w w' →
  remembers dr (w_fs w) sid c ch → remembers dr (w_fs w') sid c ch.
Proof.
  intros P G Mc H. induction H as [w|w w1 w2 H1 _ IH]; [done|]. intros R. apply IH; [by apply (step_orderly dr w)|]. by eapply remembers_step.
Qed.

(** ** C71 *)
(** What a user sees at [p] and below: the content of the mount the link at [p] leads to *)
Definition sees (w : world) (p : path) (V : path → option fobj) : Prop :=
  ∃ m, mount_of w p = Some m ∧ ∀ k, k ≠ [] → mount_view (w_fs w) m k = V k.
Lemma link_mount w p mid dr : good_path dr → fget (w_fs w) p = Some (FLink (path_str (merged_dir dr mid))) → mount_of w p = mount_at (w_mounts w) (merged_dir dr mid).
Proof.
  intros G E. unfold mount_of. rewrite E, join_path_str; [done|]. by apply good_merged.
Qed.
Lemma runs_abs_from w d s : runs_in w d → abs_of w s = abs_from d s.
Proof.
  intros R. assert (getwd_of w = d) as E; [|unfold abs_of, abs_from; by rewrite E]. destruct R as [D C P|E G D P]; unfold getwd_of.
  - destruct P as [-> | ->]; [done|]. by rewrite C, decide_True by (by apply real_dir).
  - by rewrite P, decide_True by (by apply link_real).
Qed.
Lemma runs_abs w d : runs_in w d → abs_of w (B ".") = d.
Proof. intros R. rewrite (runs_abs_from _ _ _ R). apply join_dot. Qed.
Lemma link_runs dr w p mid : good_path dr → fget (w_fs w) p = Some (FLink (path_str (merged_dir dr mid))) → is_dir_at (w_fs w) (merged_dir dr mid) = true → runs_in (enter p w) p.
Proof. intros G L D. unfold enter. rewrite (link_real _ _ _ L (good_merged dr mid G) D). apply in_link; try done. by apply good_merged. Qed.
Lemma settled_sees dr w y mid id ch a m : good_path dr → settled dr w y mid id ch a m → fits dr (length ch) → sees w (ws_path y) (content dr (w_fs w) ch).
Proof.
  intros G [A1 A2 A3 A4 A5 A6 A7 A8] Fi. specialize (A4 Fi). exists m. split; [by rewrite (link_mount _ _ _ _ G A5)|].
  intros k Hk. rewrite A4. unfold mount_view, stack_of, content. cbn [mn_upper mn_lowers option_list app fmap list_fmap view].
  change (view (layer_at (w_fs w) (diff_dir (layers_root dr) id) :: (layer_at (w_fs w) <$> (diff_dir (layers_root dr) <$> ch))) k =
    view (layer_at (w_fs w) <$> (diff_dir (layers_root dr) <$> ch)) k). cbn [view].
  assert (layer_at (w_fs w) (diff_dir (layers_root dr) id) k = None) as -> by (by apply A6). by rewrite covered_empty.
Qed.
Lemma settled_mounted dr w y mid id ch a m p : settled dr w y mid id ch a m → fits dr (length ch) → ws_path y = p → chain (san_tree a) id (id :: ch) →
  mounted_from dr w p mid (sp_id (ws_space y)) id ch (san_tree a).
Proof.
  intros [A1 A2 A3 A4 A5 A6 A7 A8 A9 A10 _] Fi <- C. constructor; try done.
  - by rewrite A2, A4.
  - by exists y.
  - by rewrite <-(the_space_ok _ _ A9).
Qed.
(** A commit in a workspace that is mounted as recorded: it closes the layer with what the user sees. *)
Lemma commit_closes dr msg o w w1 p old sid hid lows a V : plain_path dr → good_path dr → machine dr (w_fs w) (w_mounts w) → outside dr p →
  mounted_from dr w p old sid hid lows a → fits dr (S (length lows)) → sees w p V → fair o → cmd_commit dr msg o (enter p w) = (Ok tt, w1) →
  commit_in dr (w_fs w1) sid hid (hid :: lows) ∧ (∀ k, k ≠ [] → content dr (w_fs w1) (hid :: lows) k = V k) ∧
  ∃ mid id a1, mounted_from dr w1 p mid sid id (hid :: lows) a1.
Proof.
  intros P G Mc Op Mf Fi Se F1 Ec.
  assert (abs_of (enter p w) (B ".") = p) as Ep by (apply runs_abs; eapply (link_runs dr); [done|apply Mf|apply Mf]).
  assert (outside dr (abs_of (enter p w) (B "."))) as Op' by (by rewrite Ep).
  assert (run_cmd dr (CCommit msg) o (enter p w) = (Ok tt, w1)) as Ec' by exact Ec.
  assert (machine dr (w_fs (enter p w)) (w_mounts (enter p w))) as Mce by exact Mc.
  destruct Mf as [M1 M2 M3 (y0 & M4 & M5) M6 M7].
  destruct (cmd_settles dr (CCommit msg) o (enter p w) w1 P G F1 Mce I Op' Ec') as (x & hid' & a' & op & (Fa & Sx & Hd & LP & Hh & Ro) & (now & Hop) & y1 & mid1 & id1 & ch & a1 & base & [Bg N3 N4 Dn] & Ep1).
  injection Hop as ->. pose proof Bg as [B1 B2 B3 B4 B5 B6 B7 B8]. cbn [based_on] in B1. subst base.
  pose proof (fa_path _ _ _ _ _ Fa) as Ex. cbn [cmd_source] in Ex. rewrite Ep in Ex.
  pose proof (fa_link _ _ _ _ _ Fa old) as El. rewrite Ex in El. specialize (El Op M1).
  destruct (fa_info _ _ _ _ _ Fa) as (y' & I1 & I2 & I3 & I4 & I5). rewrite El in I1. cbn [enter w_fs set_pwd set_cwd set_tree] in I1. rewrite M4 in I1.
  assert (marshal_wsinfo (ws_info y0 hid) = marshal_wsinfo (ws_info y' hid')) as J by congruence. apply info_head in J as [<- J2].
  assert (ws_space x = the_space dr sid) as Esp by (rewrite (the_space_ok _ _ Sx); f_equal; congruence).
  rewrite Esp in Hd. pose proof (holds_det _ _ _ _ Hd M6) as ->. pose proof (chain_det _ _ _ _ B2 M7) as ->. clear J2 I1.
  assert (is_dir_at (w_fs (enter p w)) (merged_dir dr (mv_id (ws_mount x))) = true) as Dx by (by rewrite El).
  destruct (Dn (or_intror Dx)) as ((m & St & _) & Hl & _).
  pose proof (se_tree _ _ _ _ _ _ _ _ St) as Ht. rewrite B5, Esp in Ht.
  assert (keeps_history hid a a1) as Kh by (by eapply op_keeps_history).
  assert (chain (san_tree a1) hid (hid :: lows)) as C1 by (by apply san_chain; eapply history_chain).
  split; [|split].
  - exists (san_tree a1). destruct B3 as (n & id' & En & Ei & Ha). exists id'. split; [done|]. split; [|done]. apply san_parent. cbv zeta in Ha.
    exists (ANode (Some hid) ∅ ∅). split; [|done]. destruct Ha as [[_ ->]|(_ & -> & _)]; cbn; by rewrite lookup_insert.
  - intros k Hne. destruct Se as (m0 & Em0 & Hv). rewrite (link_mount _ _ _ _ G M1), M3 in Em0. injection Em0 as <-. rewrite <-Hv by done.
    transitivity (content dr (w_fs w) (hid :: lows) k); [|done].
    apply content_same, Forall_forall. intros i Hi. apply Hl. apply LP. by eapply chain_has.
  - exists mid1, id1, (san_tree a1). cbn [cmd_target] in Ep1. rewrite Ep in Ep1. replace sid with (sp_id (ws_space y1)) by (by rewrite B5, Esp). apply (settled_mounted _ _ _ _ _ _ _ m); try done.
    apply san_chain. apply (chain_step _ _ hid); [|by eapply history_chain].
    pose proof (present_fresh _ _ _ _ LP N4) as Nh. destruct B3 as (n & id' & En & Ei & Ha). cbv zeta in Ha.
    assert (a_nodes a1 = <[id' := ANode (Some hid) ∅ ∅]> (<[hid := committed n (Some (fmt_rfc3339 (ch_time (o now)))) msg]> (a_nodes a))) as Ea by (destruct Ha as [[_ ->]|(_ & -> & _)]; done).
    assert (id1 = id') as ->; [|exists (ANode (Some hid) ∅ ∅); split; [by rewrite Ea, lookup_insert|done]].
    destruct (decide (id1 = id')) as [?|Ne]; [done|]. destruct Nh. unfold has in *. rewrite Ea, lookup_insert_ne in B8 by done.
    destruct (decide (hid = id1)) as [->|N2]; [done|]. by rewrite lookup_insert_ne in B8.
Qed.
(** Checkout of a layer that nothing writes to, after anything *)
Lemma frozen_back dr w1 w2 sid c ch q mid y cur b key o : plain_path dr → good_path dr → machine dr (w_fs w1) (w_mounts w1) → Forall (frozen dr w1) ch →
  remembers dr (w_fs w1) sid c ch → fits dr (length ch) → rtc (step dr) w1 w2 → in_order dr w2 → workspace_at dr w2 q mid y cur b → sp_id (ws_space y) = sid → outside dr q →
  (has b c → found_id (resolve b (ws_id y) cur key) = Some c) → key = B "HEAD" ∨ decode_b32 key ≠ Panic → fair o → no_faults o → new_ids dr o (enter q w2) →
  ∃ w3, cmd_checkout dr key o (enter q w2) = (Ok tt, w3) ∧ sees w3 q (content dr (w_fs w1) ch).
Proof.
  intros P G Mc1 Fzn R1 Fi Hs Io Wa Es Oq Hk' Hp F2 N2 Nw.
  assert (∀ k, content dr (w_fs w2) ch k = content dr (w_fs w1) ch k) as K1.
  { destruct (steps_orderly _ _ _ P G Mc1 Hs) as [_ K]. intros k. by apply frozen_content. }
  destruct (remembers_steps _ _ _ _ _ _ P G Mc1 Hs R1) as [_ R2]. pose proof (wa_tree _ _ _ _ _ _ _ Wa) as Hb. rewrite Es in Hb. specialize (R2 _ Hb).
  assert (found_id (resolve b (ws_id y) cur key) = Some c) as Hk by (apply Hk'; eapply chain_self; [by eapply holds_rooted|exact R2]).
  assert (runs_in (enter q w2) q) as Rq by (by eapply enter_runs).
  destruct (checkout_fine dr key o (enter q w2) q mid y cur b c ch P G F2 N2 Nw) as (w3 & mid' & y3 & id3 & b3 & E3 & _); try done; [by apply enter_order|by apply enter_workspace|].
  exists w3. split; [exact E3|].
  assert (machine dr (w_fs (enter q w2)) (w_mounts (enter q w2))) as Mc2 by apply Io.
  pose proof (runs_abs _ _ Rq) as Eq.
  assert (run_cmd dr (CCheckout key) o (enter q w2) = (Ok tt, w3)) as E3' by exact E3.
  destruct (cmd_settles dr (CCheckout key) o (enter q w2) w3 P G F2 Mc2 I) as (z & cur' & b' & op & (Fz & Sz & Hz & LPz & Hcz & Roz) & Hop & yz & midz & idz & chz & az & bz & [Bz N5 N6 Dz] & Ez); [by cbn [cmd_target]; rewrite Eq|exact E3'|].
  cbn [cmd_does] in Hop. injection Hop as ->. pose proof Bz as [Z1 Z2 Z3 Z4 Z5 Z6 Z7 Z8]. cbn [based_on] in Z1.
  pose proof (fa_path _ _ _ _ _ Fz) as Exz. cbn [cmd_source] in Exz. rewrite Eq in Exz.
  pose proof (fa_link _ _ _ _ _ Fz mid) as Elz. rewrite Exz in Elz. specialize (Elz Oq (wa_link _ _ _ _ _ _ _ Wa)).
  destruct (fa_info _ _ _ _ _ Fz) as (yq & I1 & I2z & I3z & I4z & I5z). rewrite Elz in I1. cbn [enter w_fs set_pwd set_cwd set_tree] in I1. rewrite (wa_info _ _ _ _ _ _ _ Wa) in I1.
  assert (marshal_wsinfo (ws_info y cur) = marshal_wsinfo (ws_info yq cur')) as J by congruence. pose proof (info_id _ _ _ _ J) as J0. apply info_head in J as [<- J2].
  assert (ws_space z = the_space dr sid) as Esz by (rewrite (the_space_ok _ _ Sz); f_equal; congruence).
  rewrite Esz in Hz. pose proof (holds_det _ _ _ _ Hz Hb) as ->. rewrite I3z, <-J0, Hk in Z1. injection Z1 as <-.
  pose proof (chain_det _ _ _ _ Z2 R2) as ->.
  assert (is_dir_at (w_fs (enter q w2)) (merged_dir dr (mv_id (ws_mount z))) = true) as Dq by (rewrite Elz; exact (workspace_dir _ _ _ _ _ _ _ Io Wa)).
  destruct (Dz (or_intror Dq)) as ((mz & Stz & _) & Hlz & _).
  destruct (settled_sees _ _ _ _ _ _ _ _ G Stz Fi) as (mz' & V1 & V2). rewrite Ez in V1. cbn [cmd_target] in V1. rewrite Eq in V1.
  exists mz'. split; [exact V1|]. intros k Hne. rewrite V2 by done. rewrite <-K1.
  apply content_same, Forall_forall. intros i Hi. apply Hlz. apply LPz. by eapply chain_has.
Qed.
Lemma comes_back dr w0 w1 w2 sid c ch q mid y cur b key o : plain_path dr → good_path dr → fresh_machine dr w0 → rtc (good_step dr) w0 w1 →
  commit_in dr (w_fs w1) sid c ch → fits dr (length ch) → rtc (step dr) w1 w2 → in_order dr w2 → workspace_at dr w2 q mid y cur b → sp_id (ws_space y) = sid → outside dr q →
  (has b c → found_id (resolve b (ws_id y) cur key) = Some c) → key = B "HEAD" ∨ decode_b32 key ≠ Panic → fair o → no_faults o → new_ids dr o (enter q w2) →
  ∃ w3, cmd_checkout dr key o (enter q w2) = (Ok tt, w3) ∧ sees w3 q (content dr (w_fs w1) ch).
Proof.
  intros P G Fr H1 Ci. destruct (fresh_tidy _ _ Fr) as [Mc0 Ti0]. destruct (tidy_steps _ _ _ P G Mc0 Ti0 H1) as [Mc1 Ti].
  apply (frozen_back dr w1 w2 sid); [done..|by eapply commit_frozen|].
  destruct Ci as (a & c' & Ht & _ & C). split; [by destruct Ht as (raw & Q & _); rewrite Q|]. intros b' Hb'. by rewrite (holds_det _ _ _ _ Hb' Ht).
Qed.
Lemma by_hash b w cur c : has b c → found_id (resolve b w cur (uid_hex c)) = Some c.
Proof.
  intros Hc. unfold resolve. rewrite decide_False; [|intros E; apply (f_equal length) in E; rewrite uid_hex_length in E; discriminate E].
  unfold search_spec, key_id. rewrite decode_hex_hex. cbv zeta. by rewrite decide_True.
Qed.
Lemma hash_no_panic c : decode_b32 (uid_hex c) ≠ Panic.
Proof. unfold decode_b32. rewrite decide_False; [done|]. rewrite uid_hex_length. discriminate. Qed.
Theorem C71_comes_back : ∀ dr w0 w w1 w2 msg o1 p old sid hid lows a V q mid y cur b key o2, plain_path dr → good_path dr →
  (* a machine on which only this program wrote to the data root, and a workspace at [p] *)
  fresh_machine dr w0 → rtc (good_step dr) w0 w → outside dr p →
  mounted_from dr w p old sid hid lows a → fits dr (S (length lows)) → sees w p V →
  (* a commit succeeds *)
  fair o1 → honest o1 → cmd_commit dr msg o1 (enter p w) = (Ok tt, w1) →
  (* then anything happens *)
  rtc (step dr) w1 w2 →
  (* then there is a workspace of this space at [q], and [key] is the hash of the commit, or names it otherwise *)
  in_order dr w2 → workspace_at dr w2 q mid y cur b → sp_id (ws_space y) = sid → outside dr q →
  key = uid_hex hid ∨ found_id (resolve b (ws_id y) cur key) = Some hid ∧ (key = B "HEAD" ∨ decode_b32 key ≠ Panic) →
  fair o2 → no_faults o2 → new_ids dr o2 (enter q w2) →
  ∃ w3, cmd_checkout dr key o2 (enter q w2) = (Ok tt, w3) ∧ sees w3 q V.
Proof.
  intros dr w0 w w1 w2 msg o1 p old sid hid lows a V q mid y cur b key o2 P G Fr H0 Op Mf Fi Se F1 Ho1 Ec Hs Io Wa Es Oq Hk F2 N2 Nw.
  destruct (fresh_tidy _ _ Fr) as [Mc0 Ti0]. destruct (tidy_steps _ _ _ P G Mc0 Ti0 H0) as [Mc Ti].
  destruct (commit_closes _ _ _ _ _ _ _ _ _ _ _ _ P G Mc Op Mf Fi Se F1 Ec) as (Ci & Hv & _).
  assert (good_step dr w w1) as Gs.
  { eapply (gs_cmd dr w w1 (CCommit msg) o1 (enter p w)); [done|exact F1|exact Ho1| | |exact Ec]; [|intros k x h b' base m Q; discriminate Q].
    intros _. cbn [cmd_target]. rewrite runs_abs with (d := p); [exact Op|]. eapply (link_runs dr); [done|apply Mf|apply Mf]. }
  destruct (comes_back dr w0 w1 w2 sid hid (hid :: lows) q mid y cur b key o2 P G Fr) as (w3 & E & m & Em & Hm); try done.
  - by eapply rtc_r.
  - intros Hh. destruct Hk as [->|[Hk _]]; [by apply by_hash|done].
  - destruct Hk as [->|[_ Hk]]; [right; apply hash_no_panic|done].
  - exists w3. split; [done|]. exists m. split; [done|]. intros k Hne. rewrite Hm by done. by apply Hv.
Qed.
Print Assumptions C71_comes_back.

(** ** C72 *)
Lemma merged_inj dr i j : good_path dr → path_str (merged_dir dr i) = path_str (merged_dir dr j) → i = j.
Proof.
  intros G E. apply (f_equal (pjoin [])) in E. rewrite !join_path_str in E by (by apply good_merged).
  unfold mount_dir in E. rewrite <-!app_assoc in E. apply app_inv_head in E. injection E as E. by apply uid_b32_inj.
Qed.
Lemma same_workspace dr w p mid y hid a old sid hid' lows a' : good_path dr → workspace_at dr w p mid y hid a → mounted_from dr w p old sid hid' lows a' →
  mid = old ∧ sp_id (ws_space y) = sid ∧ hid = hid' ∧ a = a'.
Proof.
  intros G [A1 _ A3 _ A5 _] [M1 _ _ (y' & M4 & M5) M6 _]. rewrite A1 in M1. injection M1 as M1. apply (merged_inj _ _ _ G) in M1 as <-.
  rewrite A3 in M4. assert (marshal_wsinfo (ws_info y hid) = marshal_wsinfo (ws_info y' hid')) as J by congruence. apply info_head in J as [<- J].
  rewrite <-J in M5. subst sid. split; [done|]. split; [done|]. split; [done|]. by eapply holds_det.
Qed.
Lemma user_mounted dr w w' p old sid hid lows a : machine dr (w_fs w) (w_mounts w) → user_change dr w w' → fget (w_fs w') p = fget (w_fs w) p →
  mounted_from dr w p old sid hid lows a → mounted_from dr w' p old sid hid lows a.
Proof.
  intros Mc U El [M1 M2 M3 (y & M4 & M5) M6 M7]. pose proof (user_vital _ _ _ Mc U) as Hv. pose proof U as (_ & Em & _).
  assert (∀ q, vital dr q → fget (w_fs w') q = fget (w_fs w) q) as Hs.
  { intros q V. apply Hv; [by apply vital_in in V as [k ->]; apply is_prefix_app|]. intros. by apply vital_not_diff. }
  constructor; try done.
  - by rewrite El.
  - unfold is_dir_at. rewrite Hv; [done| |intros; apply merged_not_diff]. destruct (merged_in dr old) as [k ->]. apply is_prefix_app.
  - by rewrite Em.
  - exists y. split; [|done]. rewrite Hs; [done|]. right. left. by eexists.
  - unfold holds. rewrite Hs; [done|]. left. by eexists.
Qed.
(** Rounds of work at [p]: the users change what they like, except the link [p] itself, and then commit with the next message of [l]. [done] lists the
    commits so far, newest first: the ID, and what was seen at [p] when it was made. In the end [Q] holds. *)
Fixpoint rounds (dr p : path) (l : list bytes) (Q : list (uid * (path → option fobj)) → world → Prop) (done : list (uid * (path → option fobj))) (w : world) : Prop :=
  match l with
  | [] => Q done w
  | m :: l' => ∀ w1 o, user_change dr w w1 → fget (w_fs w1) p = fget (w_fs w) p → fair o → no_faults o → new_ids dr o (enter p w1) →
      ∃ w' c V, sees w1 p V ∧ cmd_commit dr m o (enter p w1) = (Ok tt, w') ∧ rounds dr p l' Q ((c, V) :: done) w'
  end.
(** Commit [c] of space [sid] can be had back: whatever happens, then in every workspace of the space checkout of its hash succeeds and shows [V]. *)
Definition can_be_had_back (dr : path) (w : world) (sid c : uid) (V : path → option fobj) : Prop :=
  ∀ w2 q mid y cur b o, rtc (step dr) w w2 → in_order dr w2 → workspace_at dr w2 q mid y cur b → sp_id (ws_space y) = sid → outside dr q →
    fair o → no_faults o → new_ids dr o (enter q w2) → ∃ w3, cmd_checkout dr (uid_hex c) o (enter q w2) = (Ok tt, w3) ∧ sees w3 q V.
Lemma back_step dr w w' sid c V : step dr w w' → can_be_had_back dr w sid c V → can_be_had_back dr w' sid c V.
Proof. intros H B w2 q mid y cur b o Hs. apply B. by eapply rtc_l. Qed.
Lemma rounds_weaken dr p l (Q Q' : list (uid * (path → option fobj)) → world → Prop) : (∀ d w, Q d w → Q' d w) → ∀ d w, rounds dr p l Q d w → rounds dr p l Q' d w.
Proof.
  intros H. induction l as [|m l IH]; intros d w; cbn [rounds]; [apply H|]. intros Hc w1 o U El F N Nw. destruct (Hc w1 o U El F N Nw) as (w' & c & V & Se & E & Hc').
  exists w', c, V. split; [done|]. split; [done|]. by apply IH.
Qed.
Lemma rounds_fine dr p l w0 : plain_path dr → good_path dr → outside dr p → fresh_machine dr w0 → ∀ w done mid y hid a rest, rtc (good_step dr) w0 w → in_order dr w →
  workspace_at dr w p mid y hid a → may_commit (read_back y) a hid → mounted_from dr w p mid (sp_id (ws_space y)) hid rest a → fits dr (length rest + length l) →
  Forall (λ e, can_be_had_back dr w (sp_id (ws_space y)) e.1 e.2) done →
  rounds dr p l (λ done' w', ∃ mid' y' hid' a' new, in_order dr w' ∧ workspace_at dr w' p mid' y' hid' a' ∧ may_commit (read_back y') a' hid' ∧
    ws_id y' = ws_id y ∧ sanitize (ws_branch y') = sanitize (ws_branch y) ∧ sp_id (ws_space y') = sp_id (ws_space y) ∧
    done' = new ++ done ∧ chain a' hid' (hid' :: new.*1 ++ rest) ∧ Forall2 (has_message a') new.*1 (reverse (sanitize <$> l)) ∧ (∀ i, i ∈ rest → a_nodes a' !! i = a_nodes a !! i) ∧
    Forall (λ e, can_be_had_back dr w' (sp_id (ws_space y)) e.1 e.2) done') done w.
Proof.
  intros P G Op Fr. induction l as [|m l IH]; intros w done mid y hid a rest H0 Io Wa Hm Mf Fi Hb; cbn [rounds].
  - exists mid, y, hid, a, []. split_and!; try done; [apply Mf|constructor].
  - intros w1 o U El F N Nw. pose proof (user_order _ _ _ Io U) as Io1. pose proof (user_workspace _ _ _ _ _ _ _ _ Io U El Wa) as Wa1.
    pose proof (user_mounted _ _ _ _ _ _ _ _ _ (io_machine _ _ Io) U El Mf) as Mf1. pose proof (mf_chain _ _ _ _ _ _ _ _ Mf) as C.
    assert (rtc (good_step dr) w0 w1) as H1 by (eapply rtc_r; [exact H0|by apply gs_user]).
    destruct (commit_fine dr m o (enter p w1) p mid y hid a (hid :: rest) P G F N Nw) as (w' & mid' & y' & id & a' & n & E & Ht & Pa & Ep & E1 & E2 & E3 & Ne & Ni); try done.
    { by apply enter_order. } { by apply enter_workspace. } { by eapply enter_runs. } { eapply fits_less; [exact Fi|]. cbn [length]. lia. }
    set (V := content dr (w_fs w1) (hid :: rest)).
    assert (sees w1 p V) as Se.
    { destruct Mf1 as [M1 M2 M3 _ _ _]. exists (stack_of dr mid hid rest). split; [by rewrite (link_mount _ _ _ _ G M1)|done]. }
    assert (fits dr (S (length rest))) as Fi1 by (eapply fits_less; [exact Fi|]; cbn [length]; lia).
    destruct (commit_closes _ _ _ _ _ _ _ _ _ _ _ _ P G (io_machine _ _ Io1) Op Mf1 Fi1 Se F E) as (Ci & Hv & mid2 & id2 & a2 & Mf2).
    exists w', hid, V. split; [exact Se|]. split; [exact E|].
    pose proof (pa_here _ _ _ _ _ _ _ _ _ Pa) as Wa'. pose proof (pa_order _ _ _ _ _ _ _ _ _ Pa) as Io'.
    destruct (same_workspace _ _ _ _ _ _ _ _ _ _ _ _ G Wa' Mf2) as (<- & _ & <- & <-).
    assert (good_step dr w1 w') as Gs.
    { eapply (gs_cmd dr w1 w' (CCommit m) o (enter p w1)); [done|exact F|by apply calm_honest| | |exact E]; [|intros k x h b' base m' Q; discriminate Q].
      intros _. cbn [cmd_target]. rewrite runs_abs with (d := p); [exact Op|]. by eapply enter_runs. }
    assert (rtc (good_step dr) w0 w') as H2 by (by eapply rtc_r).
    pose proof (workspace_san _ _ _ _ _ _ _ Io Wa) as Es.
    destruct (commit_next y y' a a' hid id (hid :: rest) _ m Es C (wa_head _ _ _ _ _ _ _ Wa) Ht Ni) as (C' & Hm' & Hs & Ho & _); [by apply san_has; apply Wa'|done|done|].
    assert (∀ i, i ∈ rest → i ≠ hid ∧ has a i) as Hr.
    { intros i Hi. split; [intros ->; apply chain_nodup, NoDup_cons in C as [? _]; done|]. eapply (chain_has a hid (hid :: rest)); [by eapply holds_rooted, Wa|done|by right]. }
    assert (Forall (λ e, can_be_had_back dr w' (sp_id (ws_space y')) e.1 e.2) ((hid, V) :: done)) as Hb'.
    { rewrite E3. constructor.
      - intros w2 q midq yq cur b oq Hst Ioq Waq Esq Oq Fq Nq Nwq. cbn [fst snd].
        destruct (comes_back dr w0 w' w2 (sp_id (ws_space y)) hid (hid :: rest) q midq yq cur b (uid_hex hid) oq P G Fr H2 Ci Fi1 Hst Ioq Waq Esq Oq) as (w3 & Eq & mq & Em & Hq); try done.
        + apply by_hash.
        + right. apply hash_no_panic.
        + exists w3. split; [done|]. exists mq. split; [done|]. intros k Hk. rewrite Hq by done. by apply Hv.
      - eapply List.Forall_impl; [|exact Hb]. intros e He. eapply back_step; [by apply good_is_step|]. eapply back_step; [by apply step_user|]. exact He. }
    rewrite <-E3 in Mf2.
    specialize (IH w' ((hid, V) :: done) mid' y' id (san_tree a') (hid :: rest) H2 Io' Wa' Hm' Mf2).
    assert (fits dr (length (hid :: rest) + length l)) as Fi2 by (eapply fits_less; [exact Fi|]; cbn [length]; lia).
    specialize (IH Fi2 Hb'). revert IH. apply rounds_weaken.
    intros d2 w2 (mid3 & y3 & hid3 & a3 & new & B1 & B2 & B3 & B4 & B5 & B6 & B7 & B8 & B9 & B10 & B11).
    exists mid3, y3, hid3, a3, (new ++ [(hid, V)]). split; [done|]. split; [done|]. split; [done|]. split; [congruence|]. split; [by rewrite B5, E2, sanitize_idemp|]. split; [congruence|].
    split; [by rewrite B7, <-app_assoc|]. split; [by rewrite fmap_app, <-app_assoc|]. split; [|split].
    + rewrite fmap_app, (fmap_cons sanitize m l), reverse_cons. apply Forall2_app; [done|]. constructor; [|constructor]. cbn [fst]. destruct Hs as (n1 & Q1 & Q2). exists n1. split; [|done]. rewrite B10; [done|left].
    + intros i Hi. destruct (Hr i Hi) as [R1 R2]. rewrite B10; [by apply Ho|by right].
    + by rewrite <-E3.
Qed.
(** From the beginning: on a machine on which only this program wrote to the data root, init succeeds; then any number of rounds of changes and commits succeed; then the history
    is the list of these commits with their messages, and every one of them can be had back. *)
Theorem C72_rounds : ∀ dr args branch l o w0 w d p, plain_path dr → good_path dr → fair o → no_faults o → new_ids dr o w → fresh_machine dr w0 → rtc (good_step dr) w0 w → in_order dr w →
  runs_in w d → abs_from d (default (B ".") (head args)) = p → outside dr p → can_replace w p → fget (w_fs w) p = None ∨ is_dir_at (w_fs w) p = true →
  valid_utf8 branch = true → branch ≠ [] → fits dr (1 + length l) →
  ∃ w1, cmd_init dr args branch o w = (Ok tt, w1) ∧ rounds dr p l (λ done w', ∃ mid y hid a rid, in_order dr w' ∧ workspace_at dr w' p mid y hid a ∧ sanitize (ws_branch y) = branch ∧
    is_root a rid ∧ chain a hid (hid :: done.*1 ++ [rid]) ∧ Forall2 (has_message a) done.*1 (reverse (sanitize <$> l)) ∧
    Forall (λ e, can_be_had_back dr w' (sp_id (ws_space y)) e.1 e.2) done) [] w1.
Proof.
  intros dr args branch l o w0 w d p P G F N Nw Fr H0 Io R Ha Op Cr He V Nb Fi.
  destruct (C67_init dr args branch o w d p P G F N Nw Io R Ha Op Cr He) as (w1 & mid & y & id & rid & E & Pa & _ & Eb & _ & Ne); [eapply fits_less; [exact Fi|lia]|].
  exists w1. split; [exact E|]. destruct (fresh_good rid id y branch Ne V Eb) as (Es & C & Hm & _). destruct Pa as [Io1 Wa1 _ _ _ _ _ _ _]. rewrite Es in Wa1.
  set (a := fresh_tree rid id (ws_id y) branch) in *.
  assert (abs_of w (cmd_target (CInit args branch)) = p) as Ep by (rewrite <-Ha; by apply runs_abs_from).
  assert (∃ sid mid' id' rid' a', mounted_from dr w1 p mid' sid id' [rid'] a') as (sid & mid' & id' & rid' & a' & Mf).
  { destruct (cmd_init_parts _ _ _ _ _ _ E) as (k & x & w2 & Ec & Ee). cbv zeta in Ec. rewrite Ep in Ec.
    set (wk := upd w (w_fs w) (w_mounts w) (w_tree w) k) in *. assert (machine dr (w_fs wk) (w_mounts wk)) as Mk by apply Io.
    destruct (create_settles dr p branch o wk x w2 w1 P G F Mk Op Ec Ee) as (mid' & rid' & id' & m & Ne' & St & Ep' & _).
    eexists _, mid', id', rid', _. eapply settled_mounted; [exact St|cbn [length]; eapply fits_less; [exact Fi|lia]|exact Ep'|]. by apply san_chain, init_chain. }
  destruct (same_workspace _ _ _ _ _ _ _ _ _ _ _ _ G Wa1 Mf) as (<- & <- & <- & <-).
  pose proof (chain_det _ _ _ _ C (mf_chain _ _ _ _ _ _ _ _ Mf)) as Q. injection Q as <-.
  assert (rtc (good_step dr) w0 w1) as H1.
  { eapply rtc_r; [exact H0|]. eapply (gs_cmd dr w w1 (CInit args branch) o w); [done|exact F|by apply calm_honest| | |exact E]; [|intros k x h b' base m' Q; discriminate Q]. intros _. by rewrite Ep. }
  refine (rounds_weaken _ _ _ _ _ _ _ _ (rounds_fine dr p l w0 P G Op Fr w1 [] mid y id a [rid] H1 Io1 Wa1 Hm Mf Fi ltac:(constructor))).
  intros d' w' (mid' & y' & hid' & a' & new & B1 & B2 & B3 & B4 & B5 & B6 & B7 & B8 & B9 & B10 & B11). rewrite app_nil_r in B7. subst d'.
  exists mid', y', hid', a', rid. split; [exact B1|]. split; [exact B2|]. split; [rewrite B5, Eb; by apply sanitize_valid|]. split; [|split; [exact B8|split; [exact B9|by rewrite B6]]].
  exists (ANode None ∅ ∅). split; [|done]. rewrite B10 by (by left). unfold a. cbn [fresh_tree a_nodes]. by rewrite lookup_insert.
Qed.
Print Assumptions C72_rounds.
(** ** C73 *)
(** Checkout drops what was not committed: the old working layer is in no history any more. But it stays in the tree, nothing writes to it any more, and who
    knows its ID can have it back: then, in any workspace of the space, checkout of it shows what was seen before. *)
Theorem C73_recoverable_partial : ∀ dr w0 w w1 p old sid hid lows a V key o, plain_path dr → good_path dr →
  fresh_machine dr w0 → rtc (good_step dr) w0 w → outside dr p → mounted_from dr w p old sid hid lows a → fits dr (S (length lows)) → sees w p V →
  fair o → cmd_checkout dr key o (enter p w) = (Ok tt, w1) → can_be_had_back dr w1 sid hid V.
Proof.
  intros dr w0 w w1 p old sid hid lows a V key o P G Fr H0 Op Mf Fi Se F Ec.
  destruct (fresh_tidy _ _ Fr) as [Mc0 Ti0]. destruct (tidy_steps _ _ _ P G Mc0 Ti0 H0) as [Mc Ti].
  assert (abs_of (enter p w) (B ".") = p) as Ep by (apply runs_abs; eapply (link_runs dr); [done|apply Mf|apply Mf]).
  assert (outside dr (abs_of (enter p w) (B "."))) as Op' by (by rewrite Ep).
  assert (run_cmd dr (CCheckout key) o (enter p w) = (Ok tt, w1)) as Ec' by exact Ec.
  assert (machine dr (w_fs (enter p w)) (w_mounts (enter p w))) as Mce by exact Mc.
  destruct (cmd_any dr (CCheckout key) o (enter p w) _ w1 P G F Mce (λ _, Op') Ec') as [[Mc1 Ls _] _].
  destruct Mf as [M1 M2 M3 (y0 & M4 & M5) M6 M7].
  destruct (cmd_settles dr (CCheckout key) o (enter p w) w1 P G F Mce I Op' Ec') as (x & hid' & a' & op & (Fa & Sx & Hd & LP & Hh & Ro) & Hop & y1 & mid1 & id1 & ch & a1 & base & [Bg N3 N4 Dn] & Ep1).
  cbn [cmd_does] in Hop. injection Hop as ->. pose proof Bg as [B1 B2 B3 B4 B5 B6 B7 B8].
  pose proof (fa_path _ _ _ _ _ Fa) as Ex. cbn [cmd_source] in Ex. rewrite Ep in Ex.
  pose proof (fa_link _ _ _ _ _ Fa old) as El. rewrite Ex in El. specialize (El Op M1).
  destruct (fa_info _ _ _ _ _ Fa) as (y' & I1 & I2 & I3 & I4 & I5). rewrite El in I1. cbn [enter w_fs set_pwd set_cwd set_tree] in I1. rewrite M4 in I1.
  assert (marshal_wsinfo (ws_info y0 hid) = marshal_wsinfo (ws_info y' hid')) as J by congruence. apply info_head in J as [<- J2].
  assert (ws_space x = the_space dr sid) as Esp by (rewrite (the_space_ok _ _ Sx); f_equal; congruence).
  rewrite Esp in Hd. pose proof (holds_det _ _ _ _ Hd M6) as ->. clear J2 I1.
  assert (is_dir_at (w_fs (enter p w)) (merged_dir dr (mv_id (ws_mount x))) = true) as Dx by (by rewrite El).
  destruct (Dn (or_intror Dx)) as ((m & St & Hms) & Hl & Hgone & _).
  pose proof (se_tree _ _ _ _ _ _ _ _ St) as Ht. rewrite B5, Esp in Ht.
  assert (keeps_history hid a a1) as Kh by (by eapply op_keeps_history).
  assert (chain (san_tree a1) hid (hid :: lows)) as C1 by (by apply san_chain; eapply history_chain).
  assert (∀ k, k ≠ [] → content dr (w_fs w1) (hid :: lows) k = V k) as Hv.
  { intros k Hne. destruct Se as (m0 & Em0 & Hv). rewrite (link_mount _ _ _ _ G M1), M3 in Em0. injection Em0 as <-. rewrite <-Hv by done.
    transitivity (content dr (w_fs w) (hid :: lows) k); [|done].
    apply content_same, Forall_forall. intros i Hi. apply Hl. apply LP. by apply (chain_has a hid (hid :: lows)). }
  assert (Forall (frozen dr w1) (hid :: lows)) as Fz.
  { assert (∀ i, i ∈ hid :: lows → i ≠ id1 ∧ has a i) as Hi.
    { intros i Hi. assert (has a i) as Q by (by apply (chain_has a hid (hid :: lows))). split; [|done]. intros ->. by apply (present_fresh _ _ _ _ LP N4). }
    assert (∀ i m', i ∈ hid :: lows → m' ∈ w_mounts w → writes_to dr m' i → i = hid ∧ mn_at m' = merged_dir dr old) as Hw.
    { intros i m' Hi' Hm' Hu. apply elem_of_cons in Hi' as [->|Hi']; [split; [done|]; exact (proj2 (proj2 (ti_info _ _ Ti old y0 hid M4)) m' Hm' Hu)|]. exfalso.
      inversion M7 as [c Hr Q1 Q2|c q l Hp C Q1 Q2]; [rewrite <-Q2 in Hi'; by apply elem_of_nil in Hi'|]. subst c l. destruct (chain_parents _ _ _ _ Hp C i Hi') as [c' Hc]. by apply (ti_tree _ _ Ti sid a c' i m'). }
    apply Forall_forall. intros i Hi'. destruct (Hi i Hi') as [Ni Hai]. split.
    - rewrite (same_layer_dir _ _ _ _ (Hl i (proj2 (LP i Hai)))). apply (LP i Hai).
    - intros m' Hm' Hu. destruct (Hms m' Hm') as [->|Hm].
      + destruct (se_upper _ _ _ _ _ _ _ _ St) as [Q|Q]; rewrite Q in Hu; [done|]. injection Hu as Hu. by apply diff_dir_inj in Hu.
      + destruct (Hw i m' Hi' Hm Hu) as [-> Ea]. destruct Hgone as [?|[Hg _]]; [done|]. rewrite El in Hg.
        assert (m' ∈ mounts_below (w_mounts w1) (mount_dir dr old)) as Q; [|rewrite Hg in Q; by apply elem_of_nil in Q].
        apply elem_of_list_filter. split; [|done]. rewrite Ea. apply is_prefix_app. }
  assert (remembers dr (w_fs w1) sid hid (hid :: lows)) as R1.
  { split; [by destruct Ht as (raw & Q & _); rewrite Q|]. intros b' Hb'. by rewrite (holds_det _ _ _ _ Hb' Ht). }
  intros w2 q mid y cur b o2 Hst Io2 Wa2 Es2 Oq F2 N2 Nw2.
  destruct (frozen_back dr w1 w2 sid hid (hid :: lows) q mid y cur b (uid_hex hid) o2 P G Mc1 Fz R1 Fi Hst Io2 Wa2 Es2 Oq) as (w3 & Eq & mq & Em & Hq); try done.
  - apply by_hash.
  - right. apply hash_no_panic.
  - exists w3. split; [done|]. exists mq. split; [done|]. intros k Hk. rewrite Hq by done. by apply Hv.
Qed.
Print Assumptions C73_recoverable_partial.
(** A file is written and not committed; checkout of HEAD succeeds, and the file is gone. *)
Theorem C73_discards_refuted : told sample_dr [Do calm home (CInit [B "w"] (B "main")); Put wdir (B "f") (B "one")] sample_world [true; true] (λ w,
  bool_decide (shown w wdir (B "f") = Some (B "one")) &&
  told sample_dr [Do calm wdir (CCheckout (B "HEAD"))] w [true] (λ w1, bool_decide (shown w1 wdir (B "f") = None))) = true.
Proof. vm_compute. reflexivity. Qed.
Print Assumptions C73_discards_refuted.
(** ** Concrete cases *)
(** init in /h/w, the file f is written and committed, written again and committed again *)
Lemma rounds_test : then_ok (cmd_init sample_dr [] (B "main") calm (enter wdir sample_world)) (λ _ w1,
  put_test sample_dr w1 wdir (B "f") (B "one") && then_some (put w1 wdir (B "f") (B "one")) (λ w2,
    ids_check sample_dr calm (enter wdir w2) && bool_decide (fget (w_fs w2) wdir = fget (w_fs w1) wdir ∧ shown w2 wdir (B "f") = Some (B "one")) &&
    then_ok (cmd_commit sample_dr (B "1") calm (enter wdir w2)) (λ _ w3,
      put_test sample_dr w3 wdir (B "f") (B "two") && then_some (put w3 wdir (B "f") (B "two")) (λ w4,
        ids_check sample_dr calm (enter wdir w4) && bool_decide (fget (w_fs w4) wdir = fget (w_fs w3) wdir) &&
        then_ok (cmd_commit sample_dr (B "2") calm (enter wdir w4)) (λ _ w5,
          ids_check sample_dr calm (enter wdir w5) && bool_decide (shown w5 wdir (B "f") = Some (B "two"))))))) = true.
Proof. vm_compute. reflexivity. Qed.
Lemma sees_shown w p w' q V n : sees w p V → sees w' q V → shown w' q n = shown w p n.
Proof. intros (m & E & H) (m' & E' & H'). unfold shown. rewrite E, E'. cbn [mbind option_bind]. by rewrite H, H' by done. Qed.
Example C71_C72_sat : ∃ w1 w2 w3 w4 w5 w6 c V, fresh_machine sample_dr sample_world ∧ rtc (good_step sample_dr) sample_world (enter wdir sample_world) ∧
  cmd_init sample_dr [] (B "main") calm (enter wdir sample_world) = (Ok tt, w1) ∧ put w1 wdir (B "f") (B "one") = Some w2 ∧ sees w2 wdir V ∧
  cmd_commit sample_dr (B "1") calm (enter wdir w2) = (Ok tt, w3) ∧ put w3 wdir (B "f") (B "two") = Some w4 ∧ cmd_commit sample_dr (B "2") calm (enter wdir w4) = (Ok tt, w5) ∧
  shown w5 wdir (B "f") = Some (B "two") ∧ cmd_checkout sample_dr (uid_hex c) calm (enter wdir w5) = (Ok tt, w6) ∧ sees w6 wdir V ∧ shown w6 wdir (B "f") = Some (B "one").
Proof.
  pose proof rounds_test as H. destruct (then_ok_inv _ _ H) as ([] & w1 & E1 & H1). clear H. cbv beta in H1. apply andb_true_iff in H1 as [T1 H1].
  apply then_some_inv in H1 as (w2 & E2 & H2). cbv beta in H2. apply andb_true_iff in H2 as [H2 H3]. apply andb_true_iff in H2 as [I2 L2]. apply ids_check_ok in I2. apply bool_decide_eq_true in L2 as [L2 S2].
  destruct (then_ok_inv _ _ H3) as ([] & w3 & E3 & H4). clear H3. cbv beta in H4. apply andb_true_iff in H4 as [T3 H4].
  apply then_some_inv in H4 as (w4 & E4 & H5). cbv beta in H5. apply andb_true_iff in H5 as [H5 H6]. apply andb_true_iff in H5 as [I4 L4]. apply ids_check_ok in I4. apply bool_decide_eq_true in L4.
  destruct (then_ok_inv _ _ H6) as ([] & w5 & E5 & H7). clear H6. cbv beta in H7. apply andb_true_iff in H7 as [I5 S5]. apply ids_check_ok in I5. apply bool_decide_eq_true in S5.
  destruct sample_plain as [P G].
  destruct C67_C68_C69_sat as [(Nw & Io & R & Ea & Ow & Cr & De & Fi) _].
  assert (rtc (good_step sample_dr) sample_world (enter wdir sample_world)) as H0 by (apply rtc_once, gs_lost; [reflexivity|intros m Hm; exact Hm]).
  destruct (C72_rounds sample_dr [] (B "main") [B "1"; B "2"] calm sample_world (enter wdir sample_world) wdir wdir P G fair_calm calm_no_faults Nw sample_fresh H0 Io R Ea Ow Cr (or_intror De)) as (w1' & E1' & Hr);
    [vm_compute; reflexivity|vm_compute; discriminate|apply (fits_less _ 40); [exact Fi|cbn [length]; lia]|].
  rewrite E1 in E1'. apply (f_equal snd) in E1'. cbn [snd] in E1'. subst w1'. cbn [rounds] in Hr.
  pose proof (put_step _ _ _ _ _ _ T1 E2) as U2. pose proof (put_step _ _ _ _ _ _ T3 E4) as U4.
  destruct (Hr w2 calm U2 L2 fair_calm calm_no_faults I2) as (w3' & c & V & Se & E3' & Hr2). clear Hr. rewrite E3 in E3'. apply (f_equal snd) in E3'. cbn [snd] in E3'. subst w3'.
  destruct (Hr2 w4 calm U4 L4 fair_calm calm_no_faults I4) as (w5' & c2 & V2 & Se2 & E5' & Hr). clear Hr2. rewrite E5 in E5'. apply (f_equal snd) in E5'. cbn [snd] in E5'. subst w5'.
  destruct Hr as (mid & y & hid & a & rid & Io5 & Wa5 & _ & _ & _ & _ & Hb). apply Forall_cons in Hb as [_ Hb]. apply Forall_cons in Hb as [Hb _]. cbn [fst snd] in Hb.
  destruct (Hb w5 wdir mid y hid a calm (rtc_refl _ _) Io5 Wa5 eq_refl Ow fair_calm calm_no_faults I5) as (w6 & E6 & S6).
  exists w1, w2, w3, w4, w5, w6, c, V. split; [exact sample_fresh|]. split; [exact H0|]. split; [exact E1|]. split; [exact E2|]. split; [exact Se|]. split; [exact E3|]. split; [exact E4|]. split; [exact E5|].
  split; [exact S5|]. split; [exact E6|]. split; [exact S6|]. rewrite (sees_shown _ _ _ _ _ _ Se S6). exact S2.
Qed.
(** The state before the checkout in which f is lost meets the conditions of C73, and checkout of HEAD succeeds there. *)
Lemma discard_test : then_ok (cmd_init sample_dr [] (B "main") calm (enter wdir sample_world)) (λ _ w1,
  put_test sample_dr w1 wdir (B "f") (B "one") && then_some (put w1 wdir (B "f") (B "one")) (λ w2,
    bool_decide (fget (w_fs w2) wdir = fget (w_fs w1) wdir ∧ shown w2 wdir (B "f") = Some (B "one")) &&
    then_ok (cmd_checkout sample_dr (B "HEAD") calm (enter wdir w2)) (λ _ w3, bool_decide (shown w3 wdir (B "f") = None)))) = true.
Proof. vm_compute. reflexivity. Qed.
Example C73_sat : ∃ w2 w3 old sid hid lows a V, rtc (good_step sample_dr) sample_world w2 ∧ mounted_from sample_dr w2 wdir old sid hid lows a ∧ fits sample_dr (S (length lows)) ∧ sees w2 wdir V ∧
  V [B "f"] = Some (FFile (B "one")) ∧ cmd_checkout sample_dr (B "HEAD") calm (enter wdir w2) = (Ok tt, w3) ∧ shown w3 wdir (B "f") = None.
Proof.
  pose proof discard_test as H. destruct (then_ok_inv _ _ H) as ([] & w1 & E1 & H1). clear H. cbv beta in H1. apply andb_true_iff in H1 as [T1 H1].
  apply then_some_inv in H1 as (w2 & E2 & H2). cbv beta in H2. apply andb_true_iff in H2 as [L2 H3]. apply bool_decide_eq_true in L2 as [L2 S2].
  destruct (then_ok_inv _ _ H3) as ([] & w3 & E3 & H4). clear H3. cbv beta in H4. apply bool_decide_eq_true in H4.
  destruct sample_plain as [P G]. destruct C67_C68_C69_sat as [(Nw & Io & R & Ea & Ow & Cr & De & Fi) _].
  pose proof (put_step _ _ _ _ _ _ T1 E2) as U2.
  destruct (C67_init sample_dr [] (B "main") calm (enter wdir sample_world) wdir wdir P G fair_calm calm_no_faults Nw Io R Ea Ow Cr (or_intror De)) as (w1' & mid & y & hid & rid & E' & Pa & _);
    [apply (fits_less _ 40); [exact Fi|lia]|]. rewrite E1 in E'. apply (f_equal snd) in E'. cbn [snd] in E'. subst w1'.
  assert (rtc (good_step sample_dr) sample_world w1) as H1.
  { apply rtc_once. apply (gs_cmd sample_dr sample_world w1 (CInit [] (B "main")) calm (enter wdir sample_world)); [split; reflexivity|exact fair_calm|exact honest_calm| | |exact E1].
    - intros _. rewrite (runs_abs_from _ _ _ R). cbn [cmd_target head default]. rewrite Ea. exact Ow.
    - intros k x h b' base m' Q. discriminate Q. }
  assert (∃ sid mid' id' rid' a', mounted_from sample_dr w1 wdir mid' sid id' [rid'] a') as (sid & mid' & id' & rid' & a' & Mf).
  { destruct (cmd_init_parts _ _ _ _ _ _ E1) as (k & x & w2' & Ec & Ee). cbv zeta in Ec. rewrite (runs_abs_from _ _ _ R) in Ec. cbn [cmd_target head default] in Ec. rewrite Ea in Ec.
    set (wk := upd _ _ _ _ k) in *. assert (machine sample_dr (w_fs wk) (w_mounts wk)) as Mk by apply Io.
    destruct (create_settles sample_dr wdir (B "main") calm wk x w2' w1 P G fair_calm Mk Ow Ec Ee) as (mid' & rid' & id' & m & Ne' & St & Ep' & _).
    eexists _, mid', id', rid', _. eapply settled_mounted; [exact St|cbn [length]; apply (fits_less _ 40); [exact Fi|lia]|exact Ep'|]. by apply san_chain, init_chain. }
  pose proof (user_mounted _ _ _ _ _ _ _ _ _ (io_machine _ _ (pa_order _ _ _ _ _ _ _ _ _ Pa)) U2 L2 Mf) as Mf2.
  assert (sees w2 wdir (content sample_dr (w_fs w2) [id'; rid'])) as Se.
  { destruct Mf2 as [M1 M2 M3 _ _ _]. exists (stack_of sample_dr mid' id' [rid']). split; [by rewrite (link_mount _ _ _ _ G M1)|done]. }
  exists w2, w3, mid', sid, id', [rid'], a', (content sample_dr (w_fs w2) [id'; rid']). split; [exact (rtc_r _ _ _ H1 (gs_user _ _ _ U2))|]. split; [exact Mf2|].
  split; [cbn [length]; apply (fits_less _ 40); [exact Fi|lia]|]. split; [exact Se|]. split; [|split; [exact E3|exact H4]].
  destruct Se as (m & Em & Hm). rewrite <-Hm by discriminate. unfold shown in S2. rewrite Em in S2. cbn [mbind option_bind] in S2.
  destruct (mount_view (w_fs w2) m [B "f"]) as [[| | |]|]; try discriminate S2. congruence.
Qed.
