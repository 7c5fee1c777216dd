(** * UsableCmdProofs: whole commands that succeed *)
From Verif Require Import Base Uid SpecUid UidProofs Tree SpecTree TreeRefine TreeObs Dump DumpProofs Json JsonProofs Save SaveProofs Branch BranchProofs Date Ws SpecWs WsProofs
  Fs Overlay Os Layers Mounts Space Manager Commands FsProofs OsProofs LayerProofs MountProofs SpaceProofs ManagerProofs SpecWorld SpecOps SavedProofs FaultProofs ReadyProofs OpProofs CalmProofs
  SpecMachine SpecCmds MachineProofs OpenProofs CmdProofs ExpandProofs DetProofs SpecTidy TidyProofs LongerProofs SpecUsable UsableProofs.
From Coq Require Import Lia.
From stdpp Require Import prelude gmap.

(** ** Removing the old mount *)
Lemma below_drop ms d m q : mounts_below ms d = [m] → mn_at m = q → is_prefix d q = true → mounts_below (drop_mount ms q) d = [].
Proof.
  intros E Em Hp. induction ms as [|m0 ms IH]; [done|]. unfold mounts_below in *. cbn [drop_mount]. rewrite filter_cons in E. case_decide as D.
  - injection E as -> E. rewrite decide_True by done. done.
  - case_decide as D2; [by subst q; rewrite D2 in D|]. rewrite filter_cons, decide_False by done. auto.
Qed.
Lemma below_other ms d q : is_prefix d q = false → mounts_below (drop_mount ms q) d = mounts_below ms d.
Proof.
  intros Hp. induction ms as [|m0 ms IH]; [done|]. unfold mounts_below in *. cbn [drop_mount]. case_decide as D.
  - rewrite filter_cons, decide_False; [done|]. rewrite D, Hp. done.
  - rewrite !filter_cons. case_decide; [by rewrite IH|done].
Qed.
Lemma drop_absent ms d q : mounts_below ms d = [] → is_prefix d q = true → drop_mount ms q = ms ∧ mounted_at ms q = false.
Proof.
  intros E Hp. assert (∀ m, m ∈ ms → mn_at m ≠ q) as Hn.
  { intros m Hm <-. assert (m ∈ mounts_below ms d) as Q by (by apply elem_of_list_filter). rewrite E in Q. by apply elem_of_nil in Q. }
  clear E. split.
  - induction ms as [|m ms IH]; [done|]. cbn [drop_mount]. rewrite decide_False by (apply Hn; left). rewrite IH; [done|]. intros. apply Hn. by right.
  - apply not_true_is_false. unfold mounted_at. rewrite existsb_exists. intros (m & Hm & Q). apply elem_of_list_In in Hm. apply bool_decide_eq_true in Q. by apply (Hn m).
Qed.
Lemma remove_fine dr x old d o w : no_faults o → machine dr (w_fs w) (w_mounts w) → ws_mount x = mounted_mount old (mount_dir dr old) →
  mounted_once dr w old →
  is_Some (fget (w_fs w) (ws_file dr old)) → runs_in w d → is_prefix (mount_dir dr old) d = false → d ≠ ws_file dr old →
  is_prefix (mount_dir dr old) (w_cwd w) = false →
  ∃ w', remove_mount dr x o w = (Ok tt, w') ∧ w_mounts w' = drop_mount (w_mounts w) (merged_dir dr old) ∧ w_pwd w' = w_pwd w ∧ w_cwd w' = w_cwd w.
Proof.
  intros F Mc Em [Dm Eb] [z Ez] R Nd Nf Nc. pose proof (mc_wf _ _ _ Mc) as W.
  assert (is_dir_at (w_fs w) [] = true) as D0 by (by eapply wf_root).
  unfold remove_mount. rewrite Em. cbn [mounted_mount mv_id]. unfold bind at 1. rewrite (getwd_fine _ _ _ F R).
  unfold bind at 1. rewrite (chdir_fine [] []); [|done|by apply real_dir|done].
  assert (mounts_below (drop_mount (w_mounts w) (merged_dir dr old)) (mount_dir dr old) = []) as Hb.
  { destruct Eb as [Eb|(m & Eb & Ea)]; [destruct (drop_absent _ _ _ Eb (is_prefix_app _ [B "merged"])) as [-> _]; done|]. by apply (below_drop _ _ _ _ Eb Ea), is_prefix_app. }
  match goal with |- context [(attempt (mount_umount _) ;;; _) _ ?u] => set (v := u) end.
  assert (∃ e, attempt (mount_umount (mounted_mount old (mount_dir dr old))) o v = (Ok e, set_mounts (tick v) (drop_mount (w_mounts v) (merged_dir dr old)))) as [e Ee].
  { unfold attempt, mount_umount, sys_umount, sys_atomic. rewrite F. cbn [mounted_mount mv_path w_fs w_mounts tick set_cwd v]. rewrite (real_dir _ _ Dm).
    destruct Eb as [Eb|(m & Eb & Ea)].
    - destruct (drop_absent _ _ _ Eb (is_prefix_app _ [B "merged"])) as [-> ->]. by eexists.
    - rewrite (mounted_at_true _ m); [by eexists| |done]. assert (m ∈ mounts_below (w_mounts w) (mount_dir dr old)) as Q by (rewrite Eb; left). by apply elem_of_list_filter in Q as [_ Q]. }
  unfold bind at 1. rewrite Ee. clear Ee. subst v.
  unfold bind at 1, os_remove_all, sys. rewrite F. cbn [w_fs w_mounts tick set_cwd set_mounts].
  rewrite Hb.
  match goal with |- context [set_fs _ ?f] => set (fs1 := f) end.
  assert (∀ q, is_prefix (mount_dir dr old) q = false → fget fs1 q = fget (w_fs w) q) as Hs.
  { intros q Hq. unfold fs1. rewrite remove_all_same; [done|done|]. intros m1 u Hm1 Hp _. cbn [w_mounts tick set_mounts set_cwd] in Hm1.
    assert (m1 ∈ mounts_below (drop_mount (w_mounts w) (merged_dir dr old)) (mount_dir dr old)) as Q by (by apply elem_of_list_filter).
    rewrite Hb in Q. by apply elem_of_nil in Q. }
  assert (fget fs1 (ws_file dr old) = Some z) as Ez1 by (rewrite Hs; [done|apply vital_not_mount; right; left; by eexists]).
  destruct (mc_info _ _ _ Mc _ _ Ez) as (raw & -> & _).
  unfold bind at 1, attempt, os_remove, sys_atomic, remove_in. rewrite F. cbn [w_fs w_mounts tick set_cwd set_mounts set_fs]. rewrite Ez1.
  set (fs2 := fdel fs1 (ws_file dr old)).
  assert (∀ q, is_prefix (mount_dir dr old) q = false → q ≠ ws_file dr old → fget fs2 q = fget (w_fs w) q) as Hs2.
  { intros q H1 H2. unfold fs2. rewrite fget_fdel_ne by congruence. by apply Hs. }
  assert (is_dir_at (w_fs w) (w_cwd w) = true) as Dc by (destruct R as [D C _|_ _ D _]; [by rewrite C|done]).
  assert (w_cwd w ≠ ws_file dr old) as Nq by (intros Q; unfold is_dir_at in Dc; by rewrite Q, Ez in Dc).
  assert (is_dir_at fs2 (w_cwd w) = true) as Dc2 by (unfold is_dir_at; by rewrite Hs2).
  assert (real_path fs2 d = Some (w_cwd w)) as Rd.
  { destruct R as [D C _|E G D _]; [rewrite C in *; by apply real_dir|]. apply link_real; [by rewrite Hs2|done|done]. }
  eexists. split; [by apply chdir_fine|]. done.
Qed.

(** ** Opening a workspace *)
Definition abs_from (d : path) (s : bytes) : path := if is_abs s then pjoin [] s else pjoin d s.
Lemma abs_fine s d o w : no_faults o → runs_in w d →
  ∃ k, fp_abs s o w = (Ok (abs_from d s), upd w (w_fs w) (w_mounts w) (w_tree w) k) ∧ w_tick w ≤ k ≤ S (w_tick w).
Proof.
  intros N R. unfold fp_abs, abs_from. destruct (is_abs s).
  - exists (w_tick w). split; [by destruct w|lia].
  - exists (S (w_tick w)). unfold bind. rewrite (getwd_fine _ _ _ N R). split; [done|lia].
Qed.
Lemma load_fine sp a o w : fair o → no_faults o → holds (w_fs w) sp a →
  ∃ t, space_load sp o w = (Ok tt, upd w (w_fs w) (w_mounts w) t (3 + w_tick w)) ∧ repr t a.
Proof.
  intros F N (raw & E & Lo & _). unfold space_load, bind, os_read_file, real_path. cbv zeta. cbn [real]. rewrite E, E, N. cbn [fst snd]. rewrite decide_False by done.
  unfold next_choice. destruct (Lo (ch_names (o (w_tick (tick w)))) (ch_names (o (w_tick (tick (tick w)))))) as (t & Et & R); [apply F..|]. rewrite Et.
  unfold lift, modify. eexists t. split; [reflexivity|done].
Qed.
Lemma open_fine dr w p mid y hid a arg d o : good_path dr → fair o → no_faults o → in_order dr w → workspace_at dr w p mid y hid a →
  runs_in w d → abs_from d arg = p →
  ∃ h t k, get_workspace dr arg o w =
    (Ok (WS (ws_id y) p (the_space dr (sp_id (ws_space y))) (mounted_mount mid (mount_dir dr mid)) h (sanitize (ws_branch y))), upd w (w_fs w) (w_mounts w) t k) ∧
    w_tick w ≤ k ≤ 10 + w_tick w ∧
    live dr (upd w (w_fs w) (w_mounts w) t k) (WS (ws_id y) p (the_space dr (sp_id (ws_space y))) (mounted_mount mid (mount_dir dr mid)) h (sanitize (ws_branch y))) a hid.
Proof.
  intros G F N Io [A1 A2 A3 A4 A5 A6] R Ha. unfold get_workspace.
  destruct (abs_fine arg _ _ _ N R) as (k1 & E & Hk). rewrite Ha in E. unfold bind at 1. rewrite E. clear E.
  assert (∀ k, fs_is_symlink p o (upd w (w_fs w) (w_mounts w) (w_tree w) k) = (Ok true, upd w (w_fs w) (w_mounts w) (w_tree w) (S k))) as E1.
  { intros k. unfold fs_is_symlink, bind, attempt, os_lstat. rewrite look_fine by done. cbn [w_fs tick upd]. by rewrite A1. }
  unfold bind at 1. rewrite E1. clear E1.
  assert (∀ k, (s <- os_readlink p;; fp_abs s) o (upd w (w_fs w) (w_mounts w) (w_tree w) k) = (Ok (merged_dir dr mid), upd w (w_fs w) (w_mounts w) (w_tree w) (S k))) as E1.
  { intros k. unfold bind, os_readlink. rewrite look_fine by done. cbn [w_fs tick upd]. rewrite A1. unfold fp_abs. rewrite is_abs_path_str. rewrite join_path_str by (by apply good_merged). done. }
  unfold bind at 1. rewrite E1. clear E1.
  unfold bind at 1, lift at 1. unfold mount_dir at 1. rewrite <-app_assoc, rel_first_below. cbn [app]. rewrite decode_b32_b32.
  assert (∀ k, load_ws_info dr mid o (upd w (w_fs w) (w_mounts w) (w_tree w) k) = (Ok (san_wsinfo (ws_info y hid)), upd w (w_fs w) (w_mounts w) (w_tree w) (S k))) as E1.
  { intros k. unfold load_ws_info, bind, os_read_file, real_path. cbv zeta. cbn [real w_fs upd]. rewrite A3, A3, N. cbn [fst snd]. unfold lift. by rewrite wsinfo_round. }
  unfold bind at 1. rewrite E1. clear E1. unfold san_wsinfo, ws_info. cbn [wi_id wi_path wi_head wi_space wi_mount wi_branch].
  rewrite !sanitize_b32, sanitize_uid_hex. unfold bind at 1, lift at 1. rewrite decode_b32_b32. unfold bind at 1, lift at 1. rewrite decode_b32_b32. cbv zeta.
  rewrite !join_name by apply good_uid.
  change (Space (sp_id (ws_space y)) (spaces_root dr ++ [uid_b32 (sp_id (ws_space y))])) with (the_space dr (sp_id (ws_space y))).
  match goal with |- context [bind (space_load _) _ o ?v] => destruct (load_fine (the_space dr (sp_id (ws_space y))) a o v F N A5) as (t & El & Rt) end.
  unfold bind at 1. rewrite El. clear El. unfold bind at 1, lift at 1. rewrite decode_hex_hex. rewrite bind_gets. cbn [w_tree w_fs w_tick w_mounts upd].
  destruct (get_Some _ _ _ Rt A6) as (h & an & n & Q & _). rewrite Q. rewrite A4.
  eexists h, t, _. split; [reflexivity|]. split; [lia|].
  destruct (machine_present _ _ _ _ (io_machine _ _ Io) A5) as [LP Ro].
  constructor; cbn [ws_head ws_space w_fs w_tree upd]; try done.
  - apply (mc_wf _ _ _ (io_machine _ _ Io)).
  - destruct (mc_tree _ _ _ (io_machine _ _ Io) (sp_id (ws_space y))) as [E|[(raw & E & T)|(a0 & H0 & LP0)]].
    + destruct A5 as (raw & E' & _). congruence.
    + destruct A5 as (raw' & E' & L). rewrite E in E'. injection E' as <-. by destruct (torn_not_loads raw a T L).
    + pose proof (holds_det _ _ _ _ A5 H0) as ->. by rewrite san_idemp.
Qed.

(** ** An operation and Expand *)
Lemma mounted_kept dr mid fs : fget fs (merged_dir dr mid) = None → fget fs (work_dir dr mid) = None → kept dr fs (mounted_fs dr mid fs).
Proof.
  intros N1 N2. assert (∀ q z, fget fs q = Some z → fget (mounted_fs dr mid fs) q = Some z) as Hs.
  { intros q z E. rewrite mounted_get; [done|..]; intros ->; congruence. }
  constructor; [auto|eauto|]. intros q E Np. rewrite mounted_get; [done|..]; intros ->.
  - destruct (merged_in dr mid) as [k Q]. by rewrite Q, is_prefix_app in Np.
  - unfold mount_dir, mounts_root in Np. rewrite <-!(app_assoc dr), is_prefix_app in Np. done.
Qed.
Lemma mounted_wf dr mid fs : fs_wf fs → is_dir_at fs (mount_dir dr mid) = true → fget fs (merged_dir dr mid) = None → fget fs (work_dir dr mid) = None →
  fs_wf (mounted_fs dr mid fs).
Proof.
  intros W D N1 N2. unfold mounted_fs. apply wf_add; [apply wf_add; [done|done|by rewrite parent_dir_app]|..].
  - rewrite fget_fset_ne; [done|apply merged_work_ne].
  - rewrite parent_dir_app. unfold is_dir_at. rewrite fget_fset. by case_decide.
Qed.
(** What holds after the operation and Expand: [w4] compared with [w] *)
Record grown (dr : path) (w : world) (d : path) (x : ws) (hid : uid) (op : wsop) (a : atree) (w4 : world) (y : ws) (mid id : uid) (ch : list uid) (a' : atree) (base : uid) : Prop := {
  gr_begun : begun dr x hid op a y mid id ch a' base;
  gr_settled : settled dr w4 y mid id ch a' (stack_of dr mid id ch);
  gr_mounts : w_mounts w4 = stack_of dr mid id ch :: w_mounts w;
  gr_mid : fget (w_fs w) (mount_dir dr mid) = None;
  gr_id : ¬ has a id;
  gr_kept : ∃ fs3, kept dr (w_fs w) fs3 ∧ ∀ q, q ≠ ws_path y → fget (w_fs w4) q = fget fs3 q;
  gr_infos : ∀ i, i ≠ mid → fget (w_fs w4) (ws_file dr i) = fget (w_fs w) (ws_file dr i);
  gr_trees : ∀ s, s ≠ sp_id (ws_space x) → fget (w_fs w4) (tree_at dr s) = fget (w_fs w) (tree_at dr s);
  gr_machine : machine dr (w_fs w4) (w_mounts w4);
  gr_pwd : w_pwd w4 = w_pwd w;
  gr_real : real_path (w_fs w4) d = Some (w_cwd w4);
  gr_cwd : is_dir_at (w_fs w4) (w_cwd w4) = true;
  gr_layers : untouched dr w w4;
  gr_empty : new_empty dr w w4;
  gr_layer : fget (w_fs w) (layer_dir (layers_root dr) id) = None;
  gr_chain : chain (san_tree a') id (id :: ch) }.
Lemma op_fine dr x op o w a hid d : plain_path dr → good_path dr → fair o → no_faults o → machine dr (w_fs w) (w_mounts w) → live dr w x a hid →
  (∃ d m, op = OCommit d m) ∨ (∃ k, op = OCheckout k) ∨ (∃ p, op = OClone p) → runs (run_op dr x op) o w →
  outside dr (match op with OClone p => p | _ => ws_path x end) → can_replace w (match op with OClone p => p | _ => ws_path x end) →
  runs_in w d → (∀ base ch, based_on x hid op a base → chain a base ch → fits dr (length ch)) →
  ∃ y w2 w4 mid id ch a' base, run_op dr x op o w = (Ok y, w2) ∧ expand y o w2 = (Ok tt, w4) ∧ grown dr w d x hid op a w4 y mid id ch a' base.
Proof.
  intros P G F N Mc Lv Hop (y & w2 & E) Ho Hc R Hf. pose proof Lv as [W [Rp Gt] LP S D].
  destruct (op_body _ _ _ _ _ _ _ _ _ F Mc Lv E) as ([O U] & _ & T).
  pose proof E as E'. apply (op_mount _ _ _ _ _ _ _ a hid) in E' as (id' & a'' & Ns & Ep & _ & _ & _); [|done..].
  pose proof E as E'. apply (op_makes _ _ _ _ _ _ _ a hid) in E' as (mid & id & ch & a' & Ma); [|done..].
  pose proof (made_kept _ _ _ _ _ _ _ _ _ _ _ _ Mc Lv Ma) as K1.
  pose proof Ma as [A1 A2 A3 (base & Ab & Ac) A5 A6 A7 A8 A9 A10 A11 A12 A13]. rewrite <-A7 in Ho, Hc.
  assert (fs_wf (w_fs w2)) as W2 by (by apply A12).
  assert (∀ n, fget (w_fs w2) (mount_dir dr mid ++ [n]) = None) as Nn by (intros n; exact (touches_merged _ _ _ _ _ n S W A12 A2)).
  pose proof (Hf _ _ Ab Ac) as Fi.
  assert (dr ≠ []) as ND by (intros ->; by destruct Ho).
  assert (ch ≠ []) as NC by (intros ->; by apply chain_not_nil in Ac).
  assert (is_dir_at (w_fs w2) (mount_dir dr mid) = true) as Dm.
  { pose proof (rd_mdir _ _ _ _ _ A5) as Q. rewrite A1 in Q. cbn [stack_mount mv_id] in Q. unfold is_dir_at. by rewrite Q. }
  destruct (mount_fine dr mid id ch o w2 P G ND NC Fi N Dm (Nn _) (Nn _)) as (k & e & Em); [apply (live_diff _ _ _ _ _ (rd_live _ _ _ _ _ A5))|by apply Forall_forall|].
  set (w3 := add_owned (upd w2 _ _ _ k) e) in Em.
  pose proof (mounted_kept dr mid (w_fs w2) (Nn _) (Nn _)) as K2. pose proof (kept_trans _ _ _ _ K1 K2) as K3.
  destruct (to_proc _ _ _ _ A12) as (Pc & Pp & _).
  assert (runs_in w3 d) as R3 by (eapply kept_runs_in; [exact K3|..|exact R]; done).
  assert (ws_path y ≠ merged_dir dr mid) as Nm by (by apply outside_merged).
  assert (can_replace w3 (ws_path y)) as C3.
  { eapply kept_can_replace; [exact K3|done| |exact Hc]. intros m Hm Q. cbn [w_mounts upd w3 add_owned] in Hm. rewrite (to_mounts _ _ _ _ A12) in Hm. apply elem_of_cons in Hm as [->|?]; [|done].
    by cbn [stack_of mn_at] in Q. }
  destruct (link_fine y d o w3 N) as (w4 & El & L1 & L2 & L3 & L4 & L5 & L6).
  { by apply mounted_wf. }
  { exact R3. }
  { exact C3. }
  { intros Q. rewrite Q in Ho. destruct Ho as [_ Ho]. by destruct dr. }
  { rewrite A1. by apply good_merged. }
  { rewrite A1. apply mounted_merged. }
  { rewrite A1. by apply not_eq_sym. }
  assert (expand y o w2 = (Ok tt, w4)) as Ee.
  { change (expand y) with (bind (mount_mount (ws_mount y)) (λ _, link_up y)). rewrite A1. unfold bind. rewrite Em. exact El. }
  destruct (made_settles _ _ _ _ _ _ _ _ _ _ _ _ _ _ P G Ho W S Ma Ee) as ((m & St & Ew) & Hl & Hd & Hi).
  destruct (expand_after _ _ _ _ _ _ _ _ P G Mc O U Ns Ho Ee) as (O2 & U2 & T2).
  pose proof (se_exact _ _ _ _ _ _ _ _ St Fi) as ->.
  assert (begun dr x hid op a y mid id ch a' base) as Bg.
  { constructor; try done. apply (rd_live _ _ _ _ _) in A5. destruct A5 as [_ [R' Gt'] _ _ _]. by eapply get_has. }
  assert (¬ has a id) as Nid by (intros Hn; destruct (LP id Hn) as [Q _]; unfold is_dir_at in Q; by rewrite A3 in Q).
  exists y, w2, w4, mid, id, ch, a', base. split; [done|]. split; [done|]. constructor; try done.
  - eexists. split; [exact K3|]. exact L4.
  - intros s Hs. rewrite T2. by apply T.
  - apply O2.
  - rewrite L2. exact Pp.
  - intros i k' Ni Nk. assert (is_prefix (diff_dir (layers_root dr) i) (diff_dir (layers_root dr) i ++ k') = true) as Hq by apply is_prefix_app.
    rewrite L4 by (by apply (in_layer_outside dr i)). cbn [w3 add_owned upd w_fs]. rewrite mounted_get by (by apply (in_layer_below dr i)). exact (touches_empty _ _ _ _ _ _ S W A12 Ni Nk).
  - eapply begun_chain; [apply Rp|exact Hop|exact Bg|exact Nid].
Qed.

(** ** The machine afterwards *)
Lemma new_below dr w mid : in_order dr w → fget (w_fs w) (mount_dir dr mid) = None → mounts_below (w_mounts w) (mount_dir dr mid) = [].
Proof.
  intros Io N. destruct (mounts_below (w_mounts w) (mount_dir dr mid)) as [|m l] eqn:E; [done|]. assert (m ∈ mounts_below (w_mounts w) (mount_dir dr mid)) as Hm by (rewrite E; left).
  apply elem_of_list_filter in Hm as [Hp Hm]. pose proof Hp as [k Ek]%is_prefix_spec.
  assert (is_dir_at (w_fs w) (mn_at m) = true) as D.
  { apply (io_points _ _ Io); [done|]. rewrite Ek. unfold mount_dir. rewrite <-app_assoc. apply is_prefix_app. }
  destruct k as [|n k]; [rewrite app_nil_r in Ek; unfold is_dir_at in D; by rewrite Ek, N in D|].
  assert (is_dir_at (w_fs w) (mount_dir dr mid) = true) as D'; [|unfold is_dir_at in D'; by rewrite N in D'].
  apply (wf_up _ _ (n :: k)); [apply (mc_wf _ _ _ (io_machine _ _ Io))| |done]. rewrite <-Ek. apply is_dir_at_Some in D as [b D]. by rewrite D.
Qed.
Lemma workspace_dir dr w p mid y hid a : in_order dr w → workspace_at dr w p mid y hid a → is_dir_at (w_fs w) (merged_dir dr mid) = true.
Proof.
  intros Io [_ [D _] _ _ _ _]. exact D.
Qed.
Lemma dir_mount dr w mid : fs_wf (w_fs w) → is_dir_at (w_fs w) (merged_dir dr mid) = true → is_dir_at (w_fs w) (mount_dir dr mid) = true.
Proof. intros W D. apply (wf_up _ _ [B "merged"]); [done| |done]. apply is_dir_at_Some in D as [b D]. by rewrite D. Qed.
Lemma short_not_mount dr i n : is_prefix (mount_dir dr i) (dr ++ [n]) = false.
Proof. apply not_true_is_false. intros [k E]%is_prefix_spec. apply (f_equal length) in E. unfold mount_dir, mounts_root in E. rewrite !app_length in E. cbn in E. lia. Qed.
Lemma outside_not_mount dr i p : outside dr p → is_prefix (mount_dir dr i) p = false.
Proof. intros O. apply not_true_is_false. intros (k & E)%mount_dir_prefix. rewrite <-app_assoc in E. by apply (outside_ne _ _ _ O) in E. Qed.
Lemma outside_short dr p n : outside dr p → dr ++ [n] ≠ p.
Proof. intros O Q. symmetry in Q. by apply (outside_ne _ _ _ O) in Q. Qed.
Lemma make_has x hid op a a' z : (∃ d m, op = OCommit d m) ∨ (∃ k, op = OCheckout k) ∨ (∃ p, op = OClone p) → op_tree x hid op a a' → has a z → has a' z.
Proof.
  intros [(d & m & ->)|[(k & ->)|(p & ->)]]; cbn [op_tree].
  - intros (n & id & E & Ei & [[_ ->]|(_ & -> & _)]) [v Hv]; unfold has, plus_branch, plus_node; cbn [a_nodes];
      (destruct (decide (id = z)) as [->|N1]; [by rewrite lookup_insert|rewrite lookup_insert_ne by done]);
      (destruct (decide (hid = z)) as [->|N2]; [by rewrite lookup_insert|rewrite lookup_insert_ne by done; by rewrite Hv]).
  - intros (c & id & E & Ei & ->) [v Hv]. unfold has, plus_node. cbn [a_nodes]. destruct (decide (id = z)) as [->|N1]; [by rewrite lookup_insert|rewrite lookup_insert_ne by done]. by rewrite Hv.
  - intros (c & id & E & Ei & ->) [v Hv]. unfold has, plus_node. cbn [a_nodes]. destruct (decide (id = z)) as [->|N1]; [by rewrite lookup_insert|rewrite lookup_insert_ne by done]. by rewrite Hv.
Qed.
Record moved (dr : path) (w w' : world) (p : path) (old : option uid) (mid : uid) (sid : uid) (m : mount) : Prop := {
  mv_objs : ∀ q z, fget (w_fs w) q = Some z → (∀ d, z ≠ FFile d) → q ≠ p → (∀ i, old = Some i → is_prefix (mount_dir dr i) q = false) → fget (w_fs w') q = Some z;
  mv_below : ∀ i, i ≠ mid → old ≠ Some i → mounts_below (w_mounts w') (mount_dir dr i) = mounts_below (w_mounts w) (mount_dir dr i);
  mv_new : mounts_below (w_mounts w') (mount_dir dr mid) = [m];
  mv_elem : ∀ m', m' ∈ w_mounts w' → m' = m ∨ m' ∈ w_mounts w ∧ ∀ i, old = Some i → is_prefix (mount_dir dr i) (mn_at m') = false;
  mv_infos : ∀ i, i ≠ mid → old ≠ Some i → fget (w_fs w') (ws_file dr i) = fget (w_fs w) (ws_file dr i);
  mv_trees : ∀ s, s ≠ sid → fget (w_fs w') (tree_at dr s) = fget (w_fs w) (tree_at dr s);
  mv_gone : ∀ i, old = Some i → mounts_below (w_mounts w') (mount_dir dr i) = [] ∧ fget (w_fs w') (mount_dir dr i) = None ∧ fget (w_fs w') (ws_file dr i) = None;
  mv_machine : machine dr (w_fs w') (w_mounts w');
  mv_layers : untouched dr w w';
  mv_empty : new_empty dr w w' }.
Lemma moved_put dr w w' p old mid y id ch a a' m : in_order dr w → outside dr p → fget (w_fs w) (mount_dir dr mid) = None →
  moved dr w w' p old mid (sp_id (ws_space y)) m → settled dr w' y mid id ch a' m → ws_path y = p → has a' id → fits dr (length ch) →
  fget (w_fs w) (layer_dir (layers_root dr) id) = None → chain (san_tree a') id (id :: ch) →
  (holds (w_fs w) (the_space dr (sp_id (ws_space y))) a ∨ fget (w_fs w) (tree_at dr (sp_id (ws_space y))) = None) → (∀ z, has a z → has a' z) →
  put_at dr w w' p old mid y id a'.
Proof.
  intros Io Op Nm [H1 H2 H3 H4 H5 H6 H7 H8 H9 H10] St Ep Hid Fi Nl Cc Ha Hh. pose proof St as [A1 A2 A3 A4 A5 A6 A7 A8 A9 A10 A11].
  assert (∀ q, is_dir_at (w_fs w) q = true → q ≠ p → (∀ i, old = Some i → is_prefix (mount_dir dr i) q = false) → is_dir_at (w_fs w') q = true) as Hd.
  { intros q D N1 N2. apply is_dir_at_Some in D as [b D]. apply is_dir_at_Some. exists b. by apply H1. }
  constructor.
  - constructor; [done| |apply Hd; [apply Io|by apply outside_short|intros; by apply short_not_mount]..].
    intros m' Hm Hp. destruct (H4 _ Hm) as [->|[Hm0 Hn]]; [by rewrite A3|]. apply Hd; [by apply Io| |done].
    intros Q. rewrite Q in Hp. apply is_prefix_spec in Hp as [k ->]. unfold mounts_root in Op. rewrite <-app_assoc in Op. destruct Op as [Op _]. by rewrite is_prefix_app in Op.
  - constructor; try done.
    + by rewrite <-Ep.
    + split; [done|]. right. by exists m.
    + by rewrite A1.
    + by rewrite <-(the_space_ok _ _ A9).
    + by apply san_has.
  - intros p2 mid2 y2 hid2 a2 Wa Np O2 No. pose proof (workspace_dir _ _ _ _ _ _ _ Io Wa) as Dm. pose proof Wa as [B1 B2 B3 B4 B5 B6].
    assert (mid2 ≠ mid) as Ne.
    { intros ->. apply dir_mount in Dm; [|apply (mc_wf _ _ _ (io_machine _ _ Io))]. unfold is_dir_at in Dm. by rewrite Nm in Dm. }
    constructor; try done.
    + apply H1; [done|done|done|]. intros. by apply outside_not_mount.
    + split; [|destruct B2 as [_ B2]; by rewrite H2]. apply Hd; [done|by apply not_eq_sym, outside_merged|]. intros i Ei. apply merged_other. congruence.
    + by rewrite H5.
    + case_decide as D.
      * rewrite D. by rewrite <-(the_space_ok _ _ A9).
      * unfold holds in *. change (tree_file (the_space dr (sp_id (ws_space y2)))) with (tree_at dr (sp_id (ws_space y2))) in *. by rewrite H6.
    + case_decide as D; [|done]. apply san_has, Hh. rewrite D in B5. destruct Ha as [Ha|Ha].
      * by rewrite (holds_det _ _ _ _ Ha B5).
      * destruct B5 as (raw & E & _). change (tree_file (the_space dr (sp_id (ws_space y)))) with (tree_at dr (sp_id (ws_space y))) in E. congruence.
  - done.
  - done.
  - done.
  - done.
  - done.
  - exists ch. rewrite <-(A4 Fi). done.
Qed.
Lemma grown_moved dr w d x hid op a w4 y mid id ch a' base : in_order dr w → grown dr w d x hid op a w4 y mid id ch a' base →
  moved dr w w4 (ws_path y) None mid (sp_id (ws_space y)) (stack_of dr mid id ch).
Proof.
  intros Io [Bg St Em Nm _ (fs3 & K & Hs) Hi Ht Mc _ _ _ Ul Ue _ _]. pose proof (bg_space _ _ _ _ _ _ _ _ _ _ _ Bg) as Es.
  constructor; try done.
  - intros q z E Nz Np _. rewrite Hs by done. by apply (ke_obj _ _ _ K).
  - intros i Ni _. rewrite Em. unfold mounts_below. rewrite filter_cons, decide_False; [done|]. cbn [stack_of mn_at]. by rewrite merged_other.
  - rewrite Em. unfold mounts_below. rewrite filter_cons, decide_True by apply is_prefix_app. f_equal. by apply new_below.
  - intros m' Hm. rewrite Em in Hm. apply elem_of_cons in Hm as [->|Hm]; [by left|right]. done.
  - intros i Ni _. by apply Hi.
  - intros s Hs'. apply Ht. congruence.
Qed.
Lemma calm_honest o : no_faults o → honest o.
Proof. intros N n k. rewrite N. done. Qed.
(** Commit and checkout: the new mount takes the place of the old one. *)
Lemma swap_fine dr x op o w a hid p old y0 : plain_path dr → good_path dr → fair o → no_faults o → in_order dr w → live dr w x a hid →
  (∃ d m, op = OCommit d m) ∨ (∃ k, op = OCheckout k) → runs (run_op dr x op) o w → outside dr p → runs_in w p →
  ws_path x = p → ws_mount x = mounted_mount old (mount_dir dr old) → ws_space x = the_space dr (sp_id (ws_space y0)) → workspace_at dr w p old y0 hid a →
  (∀ base ch, based_on x hid op a base → chain a base ch → fits dr (length ch)) →
  ∃ w' y mid id ch a' base, (y <- run_op dr x op ;; expand y ;;; remove_mount dr x) o w = (Ok tt, w') ∧ begun dr x hid op a y mid id ch a' base ∧
    put_at dr w w' p (Some old) mid y id a' ∧ mid ≠ old ∧ ¬ has a id.
Proof.
  intros P G F N Io Lv Hop Hr Op R Ep Ex Exs Wa Hf. pose proof (workspace_dir _ _ _ _ _ _ _ Io Wa) as Do. pose proof Wa as [B1 [_ B2] B3 B4 B5 B6].
  pose proof (io_machine _ _ Io) as Mc. pose proof (good_merged dr old G) as Go.
  assert (match op with OClone p => p | _ => ws_path x end = p) as Eo by (by destruct Hop as [(d & m & ->)|(k & ->)]).
  assert ((∃ d m, op = OCommit d m) ∨ (∃ k, op = OCheckout k) ∨ (∃ p, op = OClone p)) as Hop' by (destruct Hop; auto).
  destruct (op_fine dr x op o w a hid p P G F N Mc Lv) as (y & w2 & w4 & mid & id & ch & a' & base & E1 & E2 & Gr); try done.
  { by rewrite Eo. }
  { rewrite Eo. right. split; [exists (merged_dir dr old); by apply link_real|]. intros D. by rewrite (dir_not_link _ _ _ B1) in D. }
  pose proof (grown_moved _ _ _ _ _ _ _ _ _ _ _ _ _ _ Io Gr) as [M1 M2 M3 M4 M5 M6 _ M8 M9 M10].
  pose proof Gr as [Bg St Em Nm Nid _ Hi Ht Mc4 Ew Er Dc Ul Ue Nl Cc]. pose proof (bg_path _ _ _ _ _ _ _ _ _ _ _ Bg) as Ey. rewrite Eo in Ey. rewrite Ey in *.
  pose proof (se_link _ _ _ _ _ _ _ _ St) as L4. rewrite Ey in L4.
  assert (w_cwd w4 = merged_dir dr mid) as Ec.
  { rewrite (link_real _ _ _ L4 (good_merged dr mid G) (se_dir _ _ _ _ _ _ _ _ St)) in Er. by injection Er. }
  assert (mid ≠ old) as Ne.
  { intros ->. apply dir_mount in Do; [|apply Mc]. unfold is_dir_at in Do. by rewrite Nm in Do. }
  assert (w_pwd w = Some p) as Pw by (destruct R as [D _ _|_ _ _ Q]; [by rewrite (dir_not_link _ _ _ B1) in D|done]).
  assert (runs_in w4 p) as R4 by (apply in_link; rewrite ?Ec, ?Ew; try done; [by apply good_merged|apply (se_dir _ _ _ _ _ _ _ _ St)]).
  assert (is_dir_at (w_fs w4) (merged_dir dr old) = true) as Do4.
  { apply is_dir_at_Some in Do as [b Do]. apply is_dir_at_Some. exists b. apply M1; [done|done| |done]. apply not_eq_sym. by apply outside_merged. }
  destruct (remove_fine dr x old p o w4 N Mc4 Ex) as (w5 & E3 & Em5 & Ep5 & Ec5); try done.
  { split; [done|]. by rewrite M2. }
  { by rewrite M5, B3. }
  { by apply outside_not_mount. }
  { intros Q. assert (vital dr (ws_file dr old)) as V by (right; left; by eexists). by apply (vital_outside _ _ _ V Op). }
  { rewrite Ec. apply merged_other. congruence. }
  destruct (remove_settles dr w4 x y mid old id ch a' (stack_of dr mid id ch) o w5 Mc4 St) as (St5 & Hl5 & Hs5 & Hb5 & Hn5); try done.
  { by rewrite Ey. }
  destruct (remove_mount_cases _ _ _ _ _ _ _ Mc4 Ex E3) as (_ & _ & _ & Hok). destruct (Hok eq_refl) as (_ & _ & Hgone). clear Hok.
  destruct (remove_orderly _ _ _ _ _ _ _ Mc4 Ex E3) as [O5 T5].
  exists w5, y, mid, id, ch, a', base. split.
  { unfold bind. rewrite E1, E2. exact E3. }
  split; [done|]. split; [|done].
  eapply (moved_put dr w w5 p (Some old) mid y id ch a a'); try done.
  - constructor.
    + intros q z E Nz Np Nq. rewrite Hs5; [by apply M1|by apply Nq|]. intros ->. rewrite B3 in E. injection E as <-. by eapply Nz.
    + intros i N1 N2. rewrite Em5, below_other; [by apply M2|]. apply merged_other. congruence.
    + rewrite Em5, below_other; [done|by apply merged_other].
    + intros m' Hm. rewrite Em5 in Hm. destruct (is_prefix (mount_dir dr old) (mn_at m')) eqn:Hp.
      * assert (m' ∈ mounts_below (w_mounts w5) (mount_dir dr old)) as Q by (rewrite <-Em5 in Hm; by apply elem_of_list_filter). rewrite Hb5 in Q. by apply elem_of_nil in Q.
      * apply drop_mount_elem in Hm. destruct (M4 _ Hm) as [->|[Hm0 _]]; [by left|]. right. split; [done|]. by intros i [= <-].
    + intros i N1 N2. rewrite Hs5; [by apply M5|apply vital_not_mount; right; left; by eexists|]. intros Q. apply ws_file_inj in Q. congruence.
    + intros s Hs'. rewrite T5. by apply M6.
    + intros i [= <-]. split; [done|]. split; [apply Hgone, is_prefix_refl|]. by apply Hn5, calm_honest.
    + apply O5.
    + intros i Di k Hk. rewrite (Hl5 i k Hk). exact (M9 i Di k Hk).
    + intros i k Ni Nk. rewrite (Hl5 i _ (is_prefix_app _ _)). exact (M10 i k Ni Nk).
  - apply Bg.
  - exact (Hf _ _ (bg_base _ _ _ _ _ _ _ _ _ _ _ Bg) (bg_chain _ _ _ _ _ _ _ _ _ _ _ Bg)).
  - left. rewrite (bg_space _ _ _ _ _ _ _ _ _ _ _ Bg). rewrite Exs. exact B5.
  - intros z. eapply make_has; [done|apply Bg].
Qed.

(** ** The commands *)
Lemma ids_later dr o w fs ms t k : new_ids dr o w → fs = w_fs w → w_tick w ≤ k ≤ 38 + w_tick w → fresh_ids dr o (upd w fs ms t k).
Proof. intros H -> Hk n. cbn [w_tick w_fs upd]. intros Hn. destruct (H n) as (A1 & A2 & A3 & _); [lia|]. done. Qed.
Lemma order_upd dr w t k : in_order dr w → in_order dr (upd w (w_fs w) (w_mounts w) t k).
Proof. by intros [A1 A2 A3 A4 A5]. Qed.
Lemma workspace_upd dr w p mid y hid a t k : workspace_at dr w p mid y hid a → workspace_at dr (upd w (w_fs w) (w_mounts w) t k) p mid y hid a.
Proof. by intros [A1 A2 A3 A4 A5 A6]. Qed.
Lemma runs_in_upd w d t k : runs_in w d → runs_in (upd w (w_fs w) (w_mounts w) t k) d.
Proof. intros [D C Pw|E G D Pw]; [by apply in_dir|by apply in_link]. Qed.
Lemma put_upd dr w w' p old mid y id a' t k : put_at dr (upd w (w_fs w) (w_mounts w) t k) w' p old mid y id a' → put_at dr w w' p old mid y id a'.
Proof. intros [A1 A2 A3 A4 A5 A6 A7 A8 A9]. constructor; try done. intros p2 mid2 y2 hid2 a2 H. by apply A3, workspace_upd. Qed.
Lemma commit_fine dr msg o w p mid y hid a ch : plain_path dr → good_path dr → fair o → no_faults o → new_ids dr o w → in_order dr w →
  workspace_at dr w p mid y hid a → outside dr p → runs_in w p → chain a hid ch → fits dr (length ch) → may_commit (read_back y) a hid →
  ∃ w' mid' y' id a' n, cmd_commit dr msg o w = (Ok tt, w') ∧ op_tree (read_back y) hid (OCommit (Some (fmt_rfc3339 (ch_time (o n)))) msg) a a' ∧
    put_at dr w w' p (Some mid) mid' y' id a' ∧ ws_path y' = p ∧ ws_id y' = ws_id y ∧ ws_branch y' = sanitize (ws_branch y) ∧ sp_id (ws_space y') = sp_id (ws_space y) ∧
    mid' ≠ mid ∧ ¬ has a id.
Proof.
  intros P G F N Nw Io Wa Op R C Fi Hm.
  destruct (open_fine dr w p mid y hid a (B ".") p o G F N Io Wa R) as (h & t & k & E & Hk & Lv); [apply join_dot|].
  set (x := WS _ _ _ _ h _) in *. unfold cmd_commit. unfold bind at 1. rewrite E. clear E. unfold bind at 1, next_choice. cbn [w_tick upd].
  change (tick (upd w (w_fs w) (w_mounts w) t k)) with (upd w (w_fs w) (w_mounts w) t (S k)).
  set (w1 := upd w (w_fs w) (w_mounts w) t (S k)) in *.
  assert (live dr w1 x a hid) as Lv1 by (destruct Lv as [A1 A2 A3 A4 A5]; by constructor).
  destruct (swap_fine dr x (OCommit (Some (fmt_rfc3339 (ch_time (o k)))) msg) o w1 a hid p mid y P G F N) as (w' & y' & mid' & id & ch' & a' & base & E & Bg & Pa & Ne & Ni); try done.
  - by apply order_upd.
  - eauto.
  - apply (runs_commit_live dr x _ _ o w1 a hid); try done; [apply ids_later; [done..|lia]|apply Io|apply Io].
  - by apply runs_in_upd.
  - by apply workspace_upd.
  - intros base ch0 -> C0. by rewrite (chain_det _ _ _ _ C0 C).
  - exists w', mid', y', id, a', k. split; [exact E|]. split; [exact (bg_op _ _ _ _ _ _ _ _ _ _ _ Bg)|]. split; [by eapply put_upd|].
    split; [exact (bg_path _ _ _ _ _ _ _ _ _ _ _ Bg)|]. split; [exact (bg_id _ _ _ _ _ _ _ _ _ _ _ Bg)|]. split; [exact (bg_branch _ _ _ _ _ _ _ _ _ _ _ Bg)|].
    split; [by rewrite (bg_space _ _ _ _ _ _ _ _ _ _ _ Bg)|done].
Qed.
Lemma checkout_fine dr key o w p mid y hid a c ch : plain_path dr → good_path dr → fair o → no_faults o → new_ids dr o w → in_order dr w →
  workspace_at dr w p mid y hid a → outside dr p → runs_in w p → found_id (resolve a (ws_id y) hid key) = Some c → key = B "HEAD" ∨ decode_b32 key ≠ Panic →
  chain a c ch → fits dr (length ch) →
  ∃ w' mid' y' id a', cmd_checkout dr key o w = (Ok tt, w') ∧ op_tree (read_back y) hid (OCheckout key) a a' ∧
    put_at dr w w' p (Some mid) mid' y' id a' ∧ ws_path y' = p ∧ ws_id y' = ws_id y ∧
    ws_branch y' = (match resolve a (ws_id y) hid key with SpecTree.FBranch _ => key | _ => [] end) ∧ sp_id (ws_space y') = sp_id (ws_space y) ∧
    mid' ≠ mid ∧ ¬ has a id.
Proof.
  intros P G F N Nw Io Wa Op R Hc Hp C Fi.
  destruct (open_fine dr w p mid y hid a (B ".") p o G F N Io Wa R) as (h & t & k & E & Hk & Lv); [apply join_dot|].
  set (x := WS _ _ _ _ h _) in *. unfold cmd_checkout. unfold bind at 1. rewrite E. clear E.
  set (w1 := upd w (w_fs w) (w_mounts w) t k) in *.
  destruct (swap_fine dr x (OCheckout key) o w1 a hid p mid y P G F N) as (w' & y' & mid' & id & ch' & a' & base & E & Bg & Pa & Ne & Ni); try done.
  - by apply order_upd.
  - eauto.
  - apply (runs_checkout_live dr x _ o w1 a hid c); try done; [apply ids_later; [done..|lia]|apply Io|apply Io].
  - by apply runs_in_upd.
  - by apply workspace_upd.
  - cbn [based_on]. intros base ch0 Q C0. cbn [ws_id x] in Q. rewrite Hc in Q. injection Q as <-. by rewrite (chain_det _ _ _ _ C0 C).
  - exists w', mid', y', id, a'. split; [exact E|]. split; [exact (bg_op _ _ _ _ _ _ _ _ _ _ _ Bg)|]. split; [by eapply put_upd|].
    split; [exact (bg_path _ _ _ _ _ _ _ _ _ _ _ Bg)|]. split; [exact (bg_id _ _ _ _ _ _ _ _ _ _ _ Bg)|]. split; [exact (bg_branch _ _ _ _ _ _ _ _ _ _ _ Bg)|].
    split; [by rewrite (bg_space _ _ _ _ _ _ _ _ _ _ _ Bg)|done].
Qed.
Lemma clone_fine dr source target o w d p mid y hid a c ch q : plain_path dr → good_path dr → fair o → no_faults o → new_ids dr o w → in_order dr w →
  workspace_at dr w p mid y hid a → runs_in w d → abs_from d source = p → abs_from d (default (B ".") target) = q → outside dr q → can_replace w q →
  SpecTree.parent_of a hid c → chain a c ch → fits dr (length ch) →
  ∃ w' mid' y' id a', cmd_clone dr source target o w = (Ok tt, w') ∧ op_tree (read_back y) hid (OClone q) a a' ∧
    put_at dr w w' q None mid' y' id a' ∧ ws_path y' = q ∧ ws_branch y' = sanitize (ws_branch y) ∧ sp_id (ws_space y') = sp_id (ws_space y) ∧ mid' ≠ mid ∧ ¬ has a id.
Proof.
  intros P G F N Nw Io Wa R Hs Ht Oq Cr Hp C Fi. unfold cmd_clone.
  destruct (abs_fine (default (B ".") target) _ _ _ N R) as (k0 & E & Hk0). rewrite Ht in E. unfold bind at 1. rewrite E. clear E.
  set (w0 := upd w (w_fs w) (w_mounts w) (w_tree w) k0).
  destruct (open_fine dr w0 p mid y hid a source d o G F N (order_upd _ _ _ _ Io) (workspace_upd _ _ _ _ _ _ _ _ _ Wa) (runs_in_upd _ _ _ _ R) Hs) as (h & t & k & E & Hk & Lv).
  set (x := WS _ _ _ _ h _) in *. unfold bind at 1. rewrite E. clear E. unfold w0 in *. rewrite upd_upd in *. cbn [w_tick w_fs w_mounts upd] in *.
  set (w1 := upd w (w_fs w) (w_mounts w) t k) in *.
  destruct (op_fine dr x (OClone q) o w1 a hid d P G F N) as (y' & w2 & w4 & mid' & id & ch' & a' & base & E1 & E2 & Gr); try done.
  - apply Io.
  - eauto.
  - apply (runs_clone_live dr x _ o w1 a hid c); try done; [apply ids_later; [done..|lia]|apply Io|apply Io].
  - by apply runs_in_upd.
  - cbn [based_on]. intros base ch0 Q C0. destruct Hp as (n & H1 & H2), Q as (n' & H1' & H2'). assert (base = c) as -> by congruence. by rewrite (chain_det _ _ _ _ C0 C).
  - pose proof (gr_begun _ _ _ _ _ _ _ _ _ _ _ _ _ _ Gr) as Bg. pose proof (bg_path _ _ _ _ _ _ _ _ _ _ _ Bg) as Ey. cbn in Ey.
    exists w4, mid', y', id, a'. cbn [run_op] in E1. split; [unfold bind; by rewrite E1|]. split; [exact (bg_op _ _ _ _ _ _ _ _ _ _ _ Bg)|]. split.
    + apply (put_upd dr w w4 q None mid' y' id a' t k). fold w1.
      eapply (moved_put dr w1 w4 q None mid' y' id ch' a a'); try done.
      * by apply order_upd.
      * apply Gr.
      * rewrite <-Ey. by eapply grown_moved; [apply order_upd|].
      * apply Gr.
      * apply Bg.
      * assert (base = c) as -> by (destruct Hp as (n & H1 & H2), (bg_base _ _ _ _ _ _ _ _ _ _ _ Bg) as (n' & H1' & H2'); congruence).
        rewrite (chain_det _ _ _ _ (bg_chain _ _ _ _ _ _ _ _ _ _ _ Bg) C). exact Fi.
      * apply Gr.
      * apply Gr.
      * left. rewrite (bg_space _ _ _ _ _ _ _ _ _ _ _ Bg). apply Wa.
      * intros z. eapply make_has; [|apply Bg]. eauto.
    + split; [done|]. split; [exact (bg_branch _ _ _ _ _ _ _ _ _ _ _ Bg)|]. split; [by rewrite (bg_space _ _ _ _ _ _ _ _ _ _ _ Bg)|].
      split; [|apply Gr]. intros ->. pose proof (workspace_dir _ _ _ _ _ _ _ Io Wa) as Do. apply dir_mount in Do; [|apply (io_machine _ _ Io)].
      pose proof (gr_mid _ _ _ _ _ _ _ _ _ _ _ _ _ _ Gr) as Nm. cbn [w_fs upd w1] in Nm. unfold is_dir_at in Do. by rewrite Nm in Do.
Qed.
