(** * TidyProofs: a tidy machine stays tidy *)
From Verif Require Import Base Uid SpecUid UidProofs Tree SpecTree TreeRefine TreeObs Dump DumpProofs Json JsonProofs Save SaveProofs Branch BranchProofs Date Ws SpecWs WsProofs
  Fs Overlay Os Layers Mounts Space Manager Commands Sample FsProofs OsProofs LayerProofs MountProofs SpaceProofs ManagerProofs SpecWorld SpecOps SavedProofs FaultProofs ReadyProofs OpProofs CalmProofs
  SpecMachine SpecCmds SpecTidy MachineProofs OpenProofs CmdProofs ExpandProofs DetProofs.
From Coq Require Import Lia.
From stdpp Require Import prelude gmap.

Lemma writes_inj dr m i j : writes_to dr m i → writes_to dr m j → i = j.
Proof. unfold writes_to. intros E1 E2. rewrite E1 in E2. injection E2 as E. by apply diff_dir_inj in E. Qed.

(** ** What one successful command changes *)
Record delta (dr : path) (w w' : world) (mid id base : uid) : Prop := {
  dl_id : fget (w_fs w) (layer_dir (layers_root dr) id) = None;
  dl_mounts : ∀ m, m ∈ w_mounts w' → m ∈ w_mounts w ∨ mn_at m = merged_dir dr mid ∧ ∀ i, writes_to dr m i → i = id;
  dl_layers : ∀ i, is_Some (fget (w_fs w) (layer_dir (layers_root dr) i)) → is_Some (fget (w_fs w') (layer_dir (layers_root dr) i));
  dl_layer : is_Some (fget (w_fs w') (layer_dir (layers_root dr) id));
  dl_infos : ∀ i, i ≠ mid → fget (w_fs w') (ws_file dr i) = None ∨
    fget (w_fs w') (ws_file dr i) = fget (w_fs w) (ws_file dr i) ∧ (is_dir_at (w_fs w) (merged_dir dr i) = true → is_dir_at (w_fs w') (merged_dir dr i) = true);
  dl_info : ∀ y h, fget (w_fs w') (ws_file dr mid) = Some (FFile (marshal_wsinfo (ws_info y h))) → h = id;
  dl_dir : is_dir_at (w_fs w') (merged_dir dr mid) = true;
  dl_trees : ∀ sid a c p, holds (w_fs w') (the_space dr sid) a → SpecTree.parent_of a c p →
    p = base ∨ ∃ a0, holds (w_fs w) (the_space dr sid) a0 ∧ SpecTree.parent_of a0 c p;
  dl_base : ∀ m, m ∈ w_mounts w' → ¬ writes_to dr m base }.
Lemma machine_present dr w sid a : machine dr (w_fs w) (w_mounts w) → holds (w_fs w) (the_space dr sid) a → layers_present (w_fs w) (layers_root dr) a ∧ rooted a.
Proof.
  intros Mc H. destruct (mc_tree _ _ _ Mc sid) as [E|[(raw & E & T)|(a0 & H0 & LP)]].
  - destruct H as (raw & E' & _). congruence.
  - destruct H as (raw' & E' & L). rewrite E in E'. injection E' as <-. by destruct (torn_not_loads raw a T L).
  - pose proof (holds_det _ _ _ _ H H0) as ->. split; [by apply san_present|]. by eapply holds_rooted.
Qed.
Lemma tidy_delta dr w w' mid id base : machine dr (w_fs w) (w_mounts w) → tidy dr w → delta dr w w' mid id base → tidy dr w'.
Proof.
  intros Mc [T1 T2 T3] [A1 A2 A3 A4 A5 A6 A7 A8 A9]. constructor.
  - intros sid a c p m H Hp Hm. destruct (A8 _ _ _ _ H Hp) as [->|(a0 & H0 & Hp0)]; [by apply A9|].
    destruct (A2 m Hm) as [Hm0|[_ Hi]]; [by eapply T1|]. intros E. apply Hi in E as ->.
    destruct (machine_present _ _ _ _ Mc H0) as [LP Ro]. destruct (LP id) as [D _]; [by eapply ro_parent|]. unfold is_dir_at in D. by rewrite A1 in D.
  - intros i y h E. destruct (decide (i = mid)) as [->|Ni].
    + apply A6 in E as ->. split; [done|]. split; [done|]. intros m Hm Hw. destruct (A2 m Hm) as [Hm0|[Q _]]; [|done].
      apply T3 in Hw; [|done]. rewrite A1 in Hw. by destruct Hw.
    + destruct (A5 i Ni) as [Q|[Q Qd]]; [congruence|]. rewrite Q in E. destruct (T2 _ _ _ E) as (B1 & B2 & B3). split; [by apply A3|]. split; [by apply Qd|].
      intros m Hm Hw. destruct (A2 m Hm) as [Hm0|[_ Hi]]; [by apply B3|]. apply Hi in Hw as ->. rewrite A1 in B1. by destruct B1.
  - intros m i Hm Hw. destruct (A2 m Hm) as [Hm0|[_ Hi]]; [by eapply A3, T3|]. by apply Hi in Hw as ->.
Qed.
Lemma tidy_nothing dr w w' : tidy dr w → nothing_new dr w w' →
  (∀ i, is_Some (fget (w_fs w) (layer_dir (layers_root dr) i)) → is_Some (fget (w_fs w') (layer_dir (layers_root dr) i))) → tidy dr w'.
Proof.
  intros [T1 T2 T3] (A1 & A2 & A3 & A4) Hd. constructor.
  - intros sid a c p m H Hp Hm. eapply T1; [|exact Hp|by apply A4]. unfold holds in *. by rewrite A1 in H.
  - intros i y h E. rewrite A2 in E. destruct (T2 _ _ _ E) as (B1 & B2 & B3). split; [by apply Hd|]. split; [by apply A3|]. auto.
  - intros m i Hm Hw. eapply Hd, T3; [by apply A4|done].
Qed.

(** ** Clone, commit and checkout *)
Lemma resolve_has a w hid ref i : rooted a → found_id (resolve a w hid ref) = Some i → has a i.
Proof.
  intros Ro. unfold resolve. destruct (decide _).
  - destruct (a_nodes a !! hid) as [n|] eqn:E; cbn [mbind option_bind]; [|done]. destruct (an_parent n) eqn:Ep; [|done]. cbn [found_id]. intros [= <-]. eapply ro_parent; [done|]. by exists n.
  - assert (∀ id, found_id (match a_tags a !! ref with Some id => SpecTree.FTag id | None => match a_branches a !! ref with Some id => SpecTree.FBranch id | None => SpecTree.FNone end end) = Some id → has a id) as Hn.
    { intros id. destruct (a_tags a !! ref) eqn:E1; [intros [= <-]; by eapply ro_tag|]. destruct (a_branches a !! ref) eqn:E2; [intros [= <-]; by eapply ro_branch|done]. }
    assert (∀ id, found_id (search_spec a (key_id ref) ref) = Some id → has a id) as Hs.
    { intros id. unfold search_spec. cbv zeta. destruct (key_id ref) as [k|]; [|apply Hn]. destruct (decide (has a k)); [by intros [= <-]|apply Hn]. }
    destruct (search_spec a (key_id ref) ref) eqn:E; try (intros Q; by apply Hs). clear Hs Hn.
    destruct (a_branches a !! _) eqn:E1; [intros [= <-]; by eapply ro_branch|]. destruct (decide _); [|done].
    destruct (a_branches a !! (B "global/" ++ _)) eqn:E2; [intros [= <-]; by eapply ro_branch|done].
Qed.
Lemma plus_node_parent a id n c p : SpecTree.parent_of (plus_node a id n) c p → c ≠ id ∧ SpecTree.parent_of a c p ∨ c = id ∧ an_parent n = Some p.
Proof.
  intros (an & E & Ep). cbn in E. destruct (decide (c = id)) as [->|N].
  - rewrite lookup_insert in E. injection E as <-. auto.
  - rewrite lookup_insert_ne in E by done. left. split; [done|]. by exists an.
Qed.
Lemma op_parents x hid op a a' c p : op_tree x hid op a a' → SpecTree.parent_of a' c p → SpecTree.parent_of a c p ∨ based_on x hid op a p.
Proof.
  intros Ho Hp. destruct op as [n ref f|n g|n ref f|n|d m|key|tg]; cbn [op_tree based_on] in *.
  - destruct Ho as (id & _ & _ & ->). by left.
  - destruct Ho as (_ & _ & ->). by left.
  - destruct Ho as (id & _ & _ & ->). by left.
  - destruct Ho as (_ & ->). by left.
  - destruct Ho as (n & id & En & Ei & Ha). cbv zeta in Ha.
    assert (SpecTree.parent_of (plus_node (plus_node a hid (committed n d m)) id (ANode (Some hid) ∅ ∅)) c p) as Hp' by (destruct Ha as [[_ ->]|(_ & -> & _)]; done).
    clear Hp Ha. apply plus_node_parent in Hp' as [[_ Hp]|[_ Hp]]; [|right; cbn in Hp; congruence].
    apply plus_node_parent in Hp as [[_ Hp]|[-> Hp]]; [by left|]. left. exists n. done.
  - destruct Ho as (b & id & Hf & _ & ->). apply plus_node_parent in Hp as [[_ Hp]|[_ Hp]]; [by left|]. right. cbn in Hp. congruence.
  - destruct Ho as (b & id & Hf & _ & ->). apply plus_node_parent in Hp as [[_ Hp]|[_ Hp]]; [by left|]. right. cbn in Hp. by injection Hp as <-.
Qed.
Lemma based_on_det x hid op a p q : based_on x hid op a p → based_on x hid op a q → p = q.
Proof.
  destruct op; cbn [based_on]; try done; [congruence..|]. intros (n & E & Hp) (n' & E' & Hq). congruence.
Qed.
Lemma chain_self a c l : rooted a → chain a c l → has a c.
Proof. intros Ro C. apply (chain_has a c l c Ro C). by inversion C; left. Qed.
Lemma mounted_below ms d m n : m ∈ ms → mn_at m = d ++ [n] → mounts_below ms d ≠ [].
Proof. intros Hm E Q. assert (m ∈ mounts_below ms d) as H by (apply elem_of_list_filter; split; [rewrite E; apply is_prefix_app|done]). rewrite Q in H. by apply elem_of_nil in H. Qed.
Lemma mount_cmd_delta dr c o w w' : plain_path dr → good_path dr → fair o → honest o → machine dr (w_fs w) (w_mounts w) → tidy dr w → makes_mount c →
  outside dr (abs_of w (cmd_target c)) → ref_committed dr c w → run_cmd dr c o w = (Ok tt, w') → ∃ mid id base, delta dr w w' mid id base.
Proof.
  intros P G F Hn Mc Ti Hc Ho Hr H. pose proof Ti as [T1 T2 T3].
  destruct (cmd_any _ _ _ _ _ _ P G F Mc (λ _, Ho) H) as [[Mc' _ Or] _].
  destruct (cmd_settles _ _ _ _ _ P G F Mc Hc Ho H) as (x & hid & a & op & (Fa & Sx & Hd & LP & Hh & Ro) & Hop & y & mid & id & ch & a' & base & [Bg N3 N4 Dn] & Ep).
  pose proof (fa_info _ _ _ _ _ Fa) as (z & I1 & I2 & _). destruct (T2 _ _ _ I1) as (L1 & L2 & L3).
  destruct (Dn (or_intror L2)) as ((m & St & Hm) & Hl & Hold & Hdirs & Hinf & Htr). pose proof Bg as [B1 B2 B3 B4 B5 B6 B7 B8].
  pose proof St as [A1 A2 A3 A4 A5 A6 A7 A8 A9 A10 A11].
  assert (∀ i, writes_to dr m i → i = id) as Hw.
  { intros i E. unfold writes_to in E. destruct A11 as [Q|Q]; rewrite Q in E; [congruence|]. injection E as E. by apply diff_dir_inj in E. }
  assert (∀ i, has a i → i ≠ id) as Hne.
  { intros i Hi ->. destruct (LP _ Hi) as [D _]. unfold is_dir_at in D. by rewrite N4 in D. }
  assert (base ≠ id) as Nb by (apply Hne; by eapply chain_self).
  exists mid, id, base. constructor; try done.
  - intros m' Hm'. destruct (Hm _ Hm') as [->|?]; [right|by left]. done.
  - rewrite B5, (the_space_ok _ _ Sx) in A8. destruct (machine_present _ _ _ _ Mc' A8) as [LP' _]. destruct (LP' id) as [D _]; [by apply san_has|].
    apply is_dir_at_Some in D as [b D]. rewrite D. by eexists.
  - intros i Ni. destruct (decide (is_clone c = true ∨ i ≠ mv_id (ws_mount x))) as [Hi|Hi].
    + right. split; [by apply Hinf|]. by apply Hdirs.
    + left. destruct Hold as [?|[_ Q]]; [tauto|]. destruct (decide (i = mv_id (ws_mount x))) as [->|]; [by apply Q|tauto].
  - intros y' h E. rewrite A7 in E. assert (marshal_wsinfo (ws_info y id) = marshal_wsinfo (ws_info y' h)) as Q by congruence. by apply info_head in Q as [<- _].
  - intros sid b c' p Hb Hp. destruct (decide (sid = sp_id (ws_space x))) as [->|Ns].
    + rewrite B5, (the_space_ok _ _ Sx) in A8. pose proof (holds_det _ _ _ _ Hb A8) as ->. apply (proj1 (san_parent a' c' p)) in Hp.
      destruct (op_parents _ _ _ _ _ _ _ B3 Hp) as [Q|Q]; [right|left; by eapply based_on_det]. exists a. split; [by rewrite <-(the_space_ok _ _ Sx)|done].
    + right. exists b. split; [|done]. unfold holds in *. by rewrite <-Htr.
  - intros m' Hm' E. destruct (Hm _ Hm') as [->|Hm0]; [by apply Nb, Hw|].
    destruct c as [| |msg|key| | |]; try done; cbn [cmd_does is_clone] in *.
    + destruct Hop as [tg Hop]. injection Hop as ->. cbn [based_on] in B1. eapply (T1 _ a); [|exact B1|exact Hm0|exact E]. by rewrite (the_space_ok _ _ Sx) in Hd.
    + destruct Hop as [now Hop]. injection Hop as ->. cbn [based_on] in B1. subst base. destruct Hold as [?|[Q _]]; [done|].
      eapply mounted_below; [exact Hm'|by apply L3|done].
    + injection Hop as ->. cbn [based_on] in B1. by eapply Hr.
Qed.

(** ** Init *)
Lemma create_infos dr p branch o w x w1 : fs_wf (w_fs w) → create_workspace dr p branch o w = (Ok x, w1) →
  ∀ i, i ≠ mv_id (ws_mount x) → fget (w_fs w1) (ws_file dr i) = fget (w_fs w) (ws_file dr i).
Proof.
  intros W E i Ni. apply create_workspace_ok in E; [|done]. cbv zeta in E.
  destruct E as (mid & id & wid & l & t' & raw & e & k & N & N0 & N1 & N2 & N3 & D1 & D2 & D3 & -> & R & G & Et & C1 & C2 & ->).
  cbn [w_fs upd]. rewrite saved_infos; [|done|exact Ni]. rewrite with_layer_get, decide_False.
  - rewrite fget_fset_ne; [done|]. unfold space_dir, ws_file, spaces_root, mounts_root. rewrite <-!app_assoc. intros Q. by apply app_inv_head in Q.
  - unfold ws_file, diff_dir, layer_dir, layers_root, mounts_root. rewrite <-!app_assoc. intros [Q|Q]; by apply app_inv_head in Q.
Qed.
Lemma fresh_parent rid id wid branch c p : SpecTree.parent_of (fresh_tree rid id wid branch) c p → p = rid.
Proof.
  intros (n & E & Ep). cbn [fresh_tree a_nodes] in E. destruct (decide (c = rid)) as [->|N1]; [rewrite lookup_insert in E; by injection E as <-|].
  rewrite lookup_insert_ne in E by done. destruct (decide (c = id)) as [->|N2]; [rewrite lookup_singleton in E; injection E as <-; cbn in Ep; congruence|].
  by rewrite lookup_singleton_ne in E.
Qed.
Lemma create_delta dr p branch o w x w1 w' : plain_path dr → good_path dr → fair o → machine dr (w_fs w) (w_mounts w) → tidy dr w → outside dr p →
  create_workspace dr p branch o w = (Ok x, w1) → expand x o w1 = (Ok tt, w') → ∃ mid id base, delta dr w w' mid id base.
Proof.
  intros P G F Mc Ti Ho E H. pose proof Ti as [T1 T2 T3]. pose proof (mc_wf _ _ _ Mc) as W.
  pose proof (create_infos _ _ _ _ _ _ _ W E) as Hin.
  pose proof (create_workspace_any _ _ _ _ _ _ _ F W E) as Od. cbv zeta in Od. set (sid := ch_uid (o (w_tick w))) in *.
  destruct (op_orderly dr (the_space dr sid) w w1 _ _ _ Mc eq_refl Od) as (O & U & Htr). destruct Od as [To _].
  apply (create_ready _ _ _ _ _ _ _ F W) in E as (rid & id & Ne & Rd & Hb & Hp & Em & N1 & N2 & N3 & Es). fold sid in Es.
  set (mid := mv_id (ws_mount x)) in *. exists mid, id, rid. rewrite <-Hp in Ho.
  pose proof (rd_live _ _ _ _ _ Rd) as Lv. pose proof Lv as [W1 [R1 G1] LP1 S1 D1].
  assert (LP1' := LP1). rewrite (init_fresh _ _ _ _ Ne) in LP1'.
  destruct (expand_settles dr w1 x mid id [rid] (init_tree rid id (ws_id x) branch) o w' P G ltac:(done) Ho Em Rd) as [(m & St & Hm) Hs]; try done.
  { by eapply (touches_merged dr (the_space dr sid) w). }
  { by eapply (touches_merged dr (the_space dr sid) w). }
  { intros k Hk. by eapply (touches_empty dr (the_space dr sid) w). }
  { apply Forall_singleton. apply LP1'. eexists. cbn [fresh_tree a_nodes]. by rewrite lookup_insert. }
  pose proof St as [A1 A2 A3 A4 A5 A6 A7 A8 A9 A10 A11].
  assert (∀ i, writes_to dr m i → i = id) as Hw.
  { intros i Q. unfold writes_to in Q. destruct A11 as [Q'|Q']; rewrite Q' in Q; [congruence|]. injection Q as Q. by apply diff_dir_inj in Q. }
  assert (∀ q, vital dr q → fget (w_fs w') q = fget (w_fs w1) q) as Hv.
  { intros q V. rewrite Hs; [done|by apply vital_below_mount..|]. intros ->. by apply (vital_outside _ _ _ V Ho). }
  assert (w_mounts w' = m :: w_mounts w) as Hm' by (by rewrite Hm, (to_mounts _ _ _ _ To)).
  assert (∀ i, is_Some (fget (w_fs w) (layer_dir (layers_root dr) i)) → is_Some (fget (w_fs w') (layer_dir (layers_root dr) i))) as Hld.
  { intros i [z Hz]. rewrite Hv by (right; right; left; by eexists). exists z. eapply to_old; [exact To|exact Hz|]. by apply layer_not_own. }
  constructor; try done.
  - intros m' Q. rewrite Hm' in Q. apply elem_of_cons in Q as [->|Q]; [by right|by left].
  - rewrite Hv by (right; right; left; by eexists). destruct (LP1' id) as [D _].
    { eexists. cbn [fresh_tree a_nodes]. rewrite lookup_insert_ne by done. by rewrite lookup_singleton. }
    apply is_dir_at_Some in D as [b D]. rewrite D. by eexists.
  - intros i Ni. right. split; [rewrite Hv by (right; left; by eexists); by apply Hin|].
    intros Di. apply is_dir_at_Some in Di as [b Di]. unfold is_dir_at. rewrite Hs.
    + by rewrite (to_old _ _ _ _ To _ _ Di) by (by apply merged_not_own).
    + intros Q. by apply mount_dir_inj in Q.
    + intros Q. apply app_inj_tail in Q as [_ Q]. done.
    + intros Q. unfold mount_dir, mounts_root in Q. rewrite <-!app_assoc in Q. by eapply outside_ne.
  - intros y' h Q. rewrite A7 in Q. assert (marshal_wsinfo (ws_info x id) = marshal_wsinfo (ws_info y' h)) as Q' by congruence. by apply info_head in Q' as [<- _].
  - intros s b c' q Hb' Hp'. destruct (decide (s = sid)) as [->|Ns].
    + left. rewrite Es in A8. pose proof (holds_det _ _ _ _ Hb' A8) as ->. apply (proj1 (san_parent _ c' q)) in Hp'.
      rewrite (init_fresh _ _ _ _ Ne) in Hp'. by apply fresh_parent in Hp'.
    + right. exists b. split; [|done]. unfold holds in *. rewrite Hv in Hb' by (left; by eexists). by rewrite <-Htr.
  - intros m' Q Hwr. rewrite Hm' in Q. apply elem_of_cons in Q as [->|Q]; [by apply Hw in Hwr|]. apply T3 in Hwr; [|done]. rewrite N3 in Hwr. by destruct Hwr.
Qed.

(** ** Branch, tag and log *)
Definition small {A} (sp : space) (m : M A) : Prop :=
  ∀ o w r w', m o w = (r, w') → w_mounts w' = w_mounts w ∧ ∀ q, q ≠ tree_file sp → fget (w_fs w') q = fget (w_fs w) q.
Lemma small_bind {A C} sp (m : M A) (f : A → M C) : small sp m → (∀ x, small sp (f x)) → small sp (bind m f).
Proof.
  intros Hm Hf o w r w' [(x & w1 & E & H)|(r1 & E & _)]%bind_any; [|by eapply Hm].
  apply Hm in E as [E1 E2]. apply Hf in H as [E3 E4]. split; [congruence|]. intros q Hq. by rewrite E4, E2.
Qed.
Lemma small_printer {A} sp (m : M A) : printer m → small sp m.
Proof. intros H o w r w' E. apply H in E as [E1 E2]. split; [done|]. intros q _. by rewrite E1. Qed.
Lemma small_quiet {A} sp (m : M A) : quiet m → small sp m.
Proof. intros H. by apply small_printer, quiet_printer. Qed.
Lemma small_tree_do sp f : small sp (tree_do f).
Proof. intros o w r w'. unfold tree_do. by destruct (f (w_tree w)); intros [= _ <-]. Qed.
Lemma small_save sp : small sp (space_save sp).
Proof.
  unfold space_save. do 3 (apply small_bind; [apply small_quiet; first [apply quiet_next|apply quiet_gets|apply quiet_lift]|]; intros ?).
  intros o w r w' (f & -> & Hf)%write_any. split; [done|]. intros q Hq. cbn [w_fs upd].
  destruct Hf as [[-> _]|(_ & n & -> & _)]; [done|]. by rewrite fget_fset_ne.
Qed.
Lemma small_for_each {A} sp (l : list A) f : (∀ a, small sp (f a)) → small sp (for_each l f).
Proof. intros H. induction l; cbn [for_each]; [apply small_quiet, quiet_ret|]. apply small_bind; [done|]. by intros _. Qed.
Lemma small_del_branch x n g : small (ws_space x) (ws_delete_branch x n g).
Proof.
  unfold ws_delete_branch. destruct (decide _); [apply small_quiet, quiet_fail|]. apply small_bind; [apply small_quiet, quiet_gets|]. intros t.
  destruct (_.2); [|apply small_quiet, quiet_fail]. apply small_bind; [by intros o w r w' [= _ <-]|]. intros _. apply small_save.
Qed.
Lemma small_del_tag x n : small (ws_space x) (ws_delete_tag x n).
Proof.
  unfold ws_delete_tag. apply small_bind; [apply small_quiet, quiet_gets|]. intros t.
  destruct (_.2); [|apply small_quiet, quiet_fail]. apply small_bind; [by intros o w r w' [= _ <-]|]. intros _. apply small_save.
Qed.
Lemma small_add_branch x n ref f : small (ws_space x) (ws_add_branch x n ref f).
Proof.
  unfold ws_add_branch. apply small_bind; [apply small_quiet, quiet_search|]. intros [[l ?]|]; [|apply small_quiet, quiet_fail].
  apply small_bind; [apply small_quiet, quiet_gets|]. intros t. cbv zeta. destruct (decide _); [apply small_quiet, quiet_fail|].
  apply small_bind; [apply small_quiet, quiet_id_of|]. intros id. apply small_bind; [apply small_tree_do|]. intros _. apply small_save.
Qed.
Lemma small_add_tag x n ref f : small (ws_space x) (ws_add_tag x n ref f).
Proof.
  unfold ws_add_tag. apply small_bind; [apply small_quiet, quiet_search|]. intros [[l ?]|]; [|apply small_quiet, quiet_fail].
  apply small_bind; [apply small_quiet, quiet_gets|]. intros t. cbv zeta. destruct (decide _); [apply small_quiet, quiet_fail|].
  apply small_bind; [apply small_quiet, quiet_id_of|]. intros id. apply small_bind; [apply small_tree_do|]. intros _. apply small_save.
Qed.
Lemma small_list_branches sp x opts : small sp (list_branches x opts).
Proof. apply small_printer. apply printer_bind; [apply quiet_printer, quiet_next|]. intros ord. apply printer_bind; [apply quiet_printer, quiet_gets|]. intros t. apply printer_print_all. Qed.
Lemma small_list_tags sp x : small sp (list_tags x).
Proof. apply small_printer. apply printer_bind; [apply quiet_printer, quiet_next|]. intros ord. apply printer_bind; [apply quiet_printer, quiet_gets|]. intros t. apply printer_print_all. Qed.
Lemma small_after dr arg (body : ws → M unit) o w r w' : good_path dr → fair o → machine dr (w_fs w) (w_mounts w) → (∀ x, small (ws_space x) (body x)) →
  (x <- get_workspace dr arg ;; body x) o w = (r, w') →
  w_mounts w' = w_mounts w ∧ ∀ q, (∀ sid, q ≠ tree_at dr sid) → fget (w_fs w') q = fget (w_fs w) q.
Proof.
  intros G F Mc Hb H. apply bind_any in H as [(x & w1 & E & H)|(r1 & E & _)].
  - destruct (get_workspace_any _ _ _ _ _ _ G F Mc E) as (a & hid & Lv & _). apply reader_get_workspace in E as (t & k & ->).
    apply Hb in H as [E1 E2]. split; [done|]. intros q Hq. apply E2. pose proof (rd_space _ _ _ _ _ Lv) as S. rewrite (the_space_ok _ _ S). apply Hq.
  - apply reader_get_workspace in E as (t & k & ->). done.
Qed.
Lemma small_cmd dr c o w r w' : good_path dr → fair o → machine dr (w_fs w) (w_mounts w) → ¬ writes_path c → run_cmd dr c o w = (r, w') →
  w_mounts w' = w_mounts w ∧ ∀ q, (∀ sid, q ≠ tree_at dr sid) → fget (w_fs w') q = fget (w_fs w) q.
Proof.
  intros G F Mc Hc H. destruct c as [args branch|source target|msg|key|opts args|opts args|args]; cbn [run_cmd writes_path] in *; try tauto.
  - unfold cmd_branch in H. eapply small_after; [exact G|exact F|exact Mc| |exact H]. intros x.
    destruct (bo_list opts); [apply small_list_branches|]. destruct (bo_current opts); [apply small_printer, printer_println|].
    destruct (bo_delete opts); [apply small_for_each; intros n; apply small_del_branch|]. destruct args; [apply small_list_branches|apply small_add_branch].
  - unfold cmd_tag in H. eapply small_after; [exact G|exact F|exact Mc| |exact H]. intros x.
    destruct (to_list opts); [apply small_list_tags|].
    destruct (to_delete opts); [apply small_for_each; intros n; apply small_del_tag|]. destruct args; [apply small_list_tags|apply small_add_tag].
  - unfold cmd_log in H. eapply small_after; [exact G|exact F|exact Mc| |exact H]. intros x. apply small_printer.
    do 3 (apply printer_bind; [apply quiet_printer; first [apply quiet_next|apply quiet_gets]|]; intros ?).
    apply printer_bind; [apply quiet_printer, quiet_lift|]. intros cs. apply printer_for_each. intros c. apply printer_log.
Qed.
Lemma op_all_parents x hid l a a' : (∀ op b p, op ∈ l → ¬ based_on x hid op b p) → op_all x hid l a a' → ∀ c p, SpecTree.parent_of a' c p → SpecTree.parent_of a c p.
Proof.
  revert a. induction l as [|op l IH]; intros a Hb; cbn [op_all]; [by intros ->|]. intros (a1 & Ho & H) c p Hp.
  assert (SpecTree.parent_of a1 c p) as Hp1 by (eapply IH; [|exact H|exact Hp]; intros op' b q Hop; apply Hb; by right).
  destruct (op_parents _ _ _ _ _ _ _ Ho Hp1) as [?|Q]; [done|]. destruct (Hb op a p); [by left|done].
Qed.
Lemma small_ops o c l x hid op b p : ¬ writes_path c → cmd_does o c l → op ∈ l → ¬ based_on x hid op b p.
Proof.
  intros Hc Hl Hi. destruct c as [args branch|source target|msg|key|opts args|opts args|args]; cbn [cmd_does writes_path] in *; try tauto.
  - destruct (bo_list opts || bo_current opts); [subst l; by apply elem_of_nil in Hi|]. destruct (bo_delete opts).
    + subst l. by apply elem_of_list_fmap in Hi as (n & -> & _).
    + destruct args; subst l; [by apply elem_of_nil in Hi|]. by apply elem_of_list_singleton in Hi as ->.
  - destruct (to_list opts); [subst l; by apply elem_of_nil in Hi|]. destruct (to_delete opts).
    + subst l. by apply elem_of_list_fmap in Hi as (n & -> & _).
    + destruct args; subst l; [by apply elem_of_nil in Hi|]. by apply elem_of_list_singleton in Hi as ->.
  - subst l. by apply elem_of_nil in Hi.
Qed.
Lemma tidy_small dr c o w r w' : plain_path dr → good_path dr → fair o → machine dr (w_fs w) (w_mounts w) → tidy dr w → ¬ writes_path c → run_cmd dr c o w = (r, w') → tidy dr w'.
Proof.
  intros P G F Mc [T1 T2 T3] Hc H. pose proof (λ Q, cmd_any _ _ _ _ _ _ P G F Mc Q H) as Q. destruct Q as [_ Tr]; [done|].
  apply small_cmd in H as [Hm Hs]; [|done..].
  assert (cmd_trees dr c o w r w') as Ct by (destruct c; try done; by destruct Hc). clear Tr.
  assert (∀ q, vital dr q → (∀ sid, q ≠ tree_at dr sid) → fget (w_fs w') q = fget (w_fs w) q) as _ by auto.
  assert (∀ i, fget (w_fs w') (layer_dir (layers_root dr) i) = fget (w_fs w) (layer_dir (layers_root dr) i)) as H1.
  { intros i. apply Hs. intros sid Q. by apply (tree_file_ne dr (the_space dr sid) eq_refl) in Q || (destruct (tree_file_ne dr (the_space dr sid) eq_refl) as (_ & _ & N & _); by destruct (N i)). }
  assert (∀ i, fget (w_fs w') (ws_file dr i) = fget (w_fs w) (ws_file dr i)) as H2.
  { intros i. apply Hs. intros sid Q. destruct (tree_file_ne dr (the_space dr sid) eq_refl) as (_ & N & _). by destruct (N i). }
  assert (∀ i, fget (w_fs w') (merged_dir dr i) = fget (w_fs w) (merged_dir dr i)) as H3.
  { intros i. apply Hs. intros sid Q. eapply (merged_not_own dr (the_space dr sid) (w_fs w) i); [done|]. left. exact Q. }
  constructor.
  - intros sid a c' p m Ha Hp Hi. rewrite Hm in Hi. destruct Ct as [[_ E]|(x & s & hid & b & l & k & b' & _ & _ & Hb & Hd & _ & _ & Ho & Hh & E)].
    + eapply T1; [|exact Hp|exact Hi]. unfold holds in *. by rewrite <-E.
    + destruct (decide (sid = s)) as [->|Ns].
      * destruct Hh as [Hh|(_ & _ & raw & Hr & Ht)].
        -- pose proof (holds_det _ _ _ _ Ha Hh) as ->. apply (proj1 (san_parent _ c' p)) in Hp. eapply T1; [exact Hb| |exact Hi]. eapply op_all_parents; [|exact Ho|exact Hp].
           intros op b0 q Hop. eapply small_ops; [exact Hc|exact Hd|]. by eapply elem_of_take in Hop as (j & Hj & _); apply elem_of_list_lookup_2 in Hj.
        -- destruct Ha as (raw' & E' & L). rewrite Hr in E'. injection E' as <-. by destruct (torn_not_loads raw a Ht L).
      * eapply T1; [|exact Hp|exact Hi]. unfold holds in *. by rewrite <-E.
  - intros i y h E. rewrite H2 in E. destruct (T2 _ _ _ E) as (B1 & B2 & B3). rewrite H1. split; [done|]. unfold is_dir_at in *. rewrite H3. by rewrite Hm.
  - intros m i. rewrite Hm, H1. apply T3.
Qed.

(** ** Steps *)
Lemma cmd_init_parts dr args branch o w w' : cmd_init dr args branch o w = (Ok tt, w') →
  ∃ k x w1, let w0 := upd w (w_fs w) (w_mounts w) (w_tree w) k in
    create_workspace dr (abs_of w (cmd_target (CInit args branch))) branch o w0 = (Ok x, w1) ∧ expand x o w1 = (Ok tt, w').
Proof.
  intros H. unfold cmd_init in H.
  apply bind_ok in H as (p & w1 & E & H). pose proof (abs_ok _ _ _ _ _ E) as Ep. apply quiet_abs in E as (k1 & ->).
  apply bind_ok in H as (b & w1 & E & H). apply quiet_is_exists in E as (k2 & ->). rewrite upd_upd in H.
  assert (quiet (if b : bool then d <- fs_is_empty_dir p;; ret (negb d) else ret false)) as Q by (quiet; apply quiet_is_empty_dir).
  apply bind_ok in H as (b' & w1 & E & H). apply Q in E as (k3 & ->). rewrite upd_upd in H. cbn [w_fs w_mounts w_tree upd] in H. clear Q.
  destruct b'; [done|]. apply bind_ok in H as (x & w1 & E & H). exists k3, x, w1. cbv zeta. rewrite Ep in E. done.
Qed.
Lemma delta_clock dr w k w' mid id base : delta dr (upd w (w_fs w) (w_mounts w) (w_tree w) k) w' mid id base → delta dr w w' mid id base.
Proof. intros [A1 A2 A3 A4 A5 A6 A7 A8 A9]. by constructor. Qed.
Lemma user_vital dr w w' : machine dr (w_fs w) (w_mounts w) → user_change dr w w' →
  ∀ q, is_prefix dr q = true → (∀ id, under (diff_dir (layers_root dr) id) q = false) → fget (w_fs w') q = fget (w_fs w) q.
Proof.
  intros Mc (W & Em & Hq) q Hp Hu. destruct (Hq q) as [E|[E|(m & u & Hm & Ha & Eu & Q)]]; [done|congruence|].
  destruct (mc_mounts _ _ _ Mc m Hm Ha) as [_ O]. destruct (O u Eu) as (id & -> & D). by rewrite Hu in Q.
Qed.
Lemma merged_not_diff dr i id : under (diff_dir (layers_root dr) id) (merged_dir dr i) = false.
Proof.
  apply not_true_is_false. intros Q. unfold under in Q. apply andb_true_iff in Q as [Q _]. apply is_prefix_spec in Q as [k Q]. revert Q.
  unfold mount_dir, diff_dir, layer_dir, layers_root, mounts_root. rewrite <-!app_assoc. intros Q. by apply app_inv_head in Q.
Qed.
Lemma tidy_same dr w w0 : same_disk w w0 → tidy dr w → tidy dr w0.
Proof. intros [E1 E2] [T1 T2 T3]. constructor; rewrite ?E1, ?E2; done. Qed.
Lemma orderly_layers dr w w' : orderly dr w w' → ∀ i, is_Some (fget (w_fs w) (layer_dir (layers_root dr) i)) → is_Some (fget (w_fs w') (layer_dir (layers_root dr) i)).
Proof. intros O. apply O. Qed.
Lemma tidy_step dr w w' : plain_path dr → good_path dr → machine dr (w_fs w) (w_mounts w) → tidy dr w → good_step dr w w' → tidy dr w'.
Proof.
  intros P G Mc Ti [c o w0 Sd F Hn Ho Hr E|c o w0 r Sd F Ho E Nn|c o w0 r Sd F Hc E|U|E1 E2].
  - apply (tidy_same dr w w0 Sd) in Ti. destruct Sd as [D1 D2]. rewrite <-D1, <-D2 in Mc.
    assert (writes_path c ∨ ¬ writes_path c) as Dw by (destruct c; cbn; tauto). destruct Dw as [Wc|Nc]; [|by eapply tidy_small].
    assert (∃ mid id base, delta dr w0 w' mid id base) as (mid & id & base & D); [|by eapply tidy_delta].
    destruct c as [args branch| | | | | |]; try done; try (refine (mount_cmd_delta dr _ o w0 w' P G F Hn Mc Ti _ (Ho I) Hr E); exact I).
    cbn [run_cmd] in E. apply cmd_init_parts in E as (k & x & w1 & E & H).
    destruct (create_delta _ _ _ _ _ _ _ _ P G F (Mc : machine dr (w_fs (upd w0 (w_fs w0) (w_mounts w0) (w_tree w0) k)) (w_mounts w0)) ltac:(by destruct Ti; constructor) (Ho I) E H) as (mid & id & base & D).
    exists mid, id, base. by eapply delta_clock.
  - apply (tidy_same dr w w0 Sd) in Ti. destruct Sd as [D1 D2]. rewrite <-D1, <-D2 in Mc. eapply tidy_nothing; [exact Ti|exact Nn|].
    apply orderly_layers. by destruct (cmd_any _ _ _ _ _ _ P G F Mc Ho E).
  - apply (tidy_same dr w w0 Sd) in Ti. destruct Sd as [D1 D2]. rewrite <-D1, <-D2 in Mc. by eapply tidy_small.
  - pose proof (user_vital _ _ _ Mc U) as Hs.
    assert (∀ q, vital dr q → fget (w_fs w') q = fget (w_fs w) q) as Hv.
    { intros q V. apply Hs; [by apply vital_in in V as [k ->]; apply is_prefix_app|]. intros id. by apply vital_not_diff. }
    eapply tidy_nothing; [exact Ti|split_and!|].
    + intros sid. apply Hv. left; eauto.
    + intros i. apply Hv. right; left; eauto.
    + intros i. unfold is_dir_at. rewrite Hs; [done| |intros id; apply merged_not_diff]. unfold mount_dir, mounts_root. rewrite <-!app_assoc. apply is_prefix_app.
    + destruct U as (_ & -> & _). done.
    + intros i. rewrite Hv; [done|]. right; right; left; eauto.
  - eapply tidy_nothing; [exact Ti| |by rewrite E1]. unfold nothing_new. by rewrite E1.
Qed.
Lemma good_is_step dr w w' : good_step dr w w' → step dr w w'.
Proof. intros [c o w0 Sd F Hn Ho Hr E|c o w0 r Sd F Ho E Nn|c o w0 r Sd F Hc E|U|E1 E2]; [by eapply step_cmd..|by apply step_user|by apply step_lost]. Qed.
Lemma tidy_steps dr w w' : plain_path dr → good_path dr → machine dr (w_fs w) (w_mounts w) → tidy dr w → rtc (good_step dr) w w' → machine dr (w_fs w') (w_mounts w') ∧ tidy dr w'.
Proof.
  intros P G Mc Ti H. induction H as [w|w w1 w2 H1 _ IH]; [done|]. apply IH.
  - by eapply step_orderly; [..|by apply good_is_step].
  - by eapply tidy_step.
Qed.
