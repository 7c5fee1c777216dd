(** * PropsCommit: mounts of commits, init, commit, and commits after clone and checkout (C32, C35, C37-C40) *)
From Verif Require Import Base Uid SpecUid UidProofs Tree SpecTree TreeRefine TreeObs Dump DumpProofs Json JsonProofs Save SaveProofs Branch BranchProofs Date Ws SpecWs WsProofs
  Fs Overlay Os Layers Mounts Space Manager Commands Sample FsProofs OsProofs LayerProofs MountProofs SpaceProofs ManagerProofs SpecWorld SpecOps SavedProofs FaultProofs ReadyProofs OpProofs CalmProofs SampleProofs.
From Coq Require Import Lia.
From stdpp Require Import prelude gmap.

(** ** C32 *)
(** [chain a commit ch]: the commit and its ancestors, nearest first, root last (see C26_chain). *)
Theorem C32_mount_stack : ∀ dr commit o w m l w' a, fs_wf (w_fs w) → repr (w_tree w) a → layers_present (w_fs w) (layers_root dr) a →
  create_mount dr commit o w = (Ok (m, l), w') →
  ∃ ch id oo, chain a commit ch ∧ mv_opts m = Some oo ∧
    oo_lowers oo = diff_dir (layers_root dr) <$> ch ∧ oo_upper oo = diff_dir (layers_root dr) id ∧
    a_nodes a !! id = None ∧ fget (w_fs w) (layer_dir (layers_root dr) id) = None ∧ is_dir_at (w_fs w') (diff_dir (layers_root dr) id) = true ∧
    get (w_tree w') id = Some l ∧ repr (w_tree w') (plus_node a id (ANode (Some commit) ∅ ∅)) ∧
    (∀ i c, i ∈ ch → fget (w_fs w') (diff_dir (layers_root dr) i ++ c) = fget (w_fs w) (diff_dir (layers_root dr) i ++ c)).
Proof.
  intros dr commit o w m l w' a W R LP H. apply (create_mount_ok _ _ _ _ _ _ _ a) in H; [|done..].
  destruct H as (Hc & Nh & N & D & N1 & D1 & (ch & C & ->) & t2 & k & -> & R2 & G2 & Gm & Np).
  set (mid := ch_uid (o (w_tick w))) in *. set (id := ch_uid (o (S (S (w_tick w))))) in *.
  exists ch, id. eexists. split; [done|]. split; [reflexivity|]. do 2 (split; [done|]). split; [by apply not_has|].
  split; [done|]. cbn [w_fs w_tree upd]. split. { unfold is_dir_at. rewrite mount_files_get. by rewrite decide_True by auto. }
  split; [done|]. split; [done|]. intros i c Hi. rewrite mount_files_get, decide_False; [done|].
  assert (has a i) as Ha by (by eapply chain_has; [apply R|..]).
  assert (i ≠ id) as Ne by (by intros ->).
  intros [E|[E|E]].
  - unfold mount_dir, mounts_root, diff_dir, layer_dir, layers_root in E. rewrite <-!app_assoc in E. by apply app_inv_head in E.
  - unfold diff_dir, layer_dir in E. rewrite <-!app_assoc in E. apply app_inv_head in E. by destruct c.
  - unfold diff_dir, layer_dir in E. rewrite <-!app_assoc in E. apply app_inv_head in E. injection E as E _. by apply Ne, uid_b32_inj.
Qed.
Print Assumptions C32_mount_stack.

(** ** C35 *)
Theorem C35_init_tree : ∀ dr p branch o w x w', fair o → fs_wf (w_fs w) → create_workspace dr p branch o w = (Ok x, w') →
  ∃ rid id, rid ≠ id ∧ opened w' x (fresh_tree rid id (ws_id x) branch) id ∧
    holds (w_fs w') (ws_space x) (san_tree (fresh_tree rid id (ws_id x) branch)) ∧
    (valid_utf8 branch = true → holds (w_fs w') (ws_space x) (fresh_tree rid id (ws_id x) branch)) ∧
    ws_branch x = branch ∧ ws_path x = p.
Proof.
  intros dr p branch o w x w' F W E. destruct (create_ready _ _ _ _ _ _ _ F W E) as (rid & id & N & Rd & Hb & Hp & _).
  pose proof (init_fresh rid id (ws_id x) branch N) as Et.
  rewrite Et in Rd. exists rid, id. split; [done|]. destruct Rd as [[_ Ho _ _ Hd] _ _]. split; [done|]. split; [done|]. split; [|done].
  intros V. rewrite san_tree_id in Hd; [done|].
  split; [|split].
  - intros k v H. cbn [fresh_tree a_branches] in H. apply lookup_singleton_Some in H as [<- _]. by rewrite local_key_valid.
  - intros k v H. cbn [fresh_tree a_tags] in H. by apply lookup_singleton_Some in H as [<- _].
  - intros i an H. cbn [fresh_tree a_nodes] in H. apply lookup_insert_Some in H as [[_ <-]|[_ H]]; [done|].
    by apply lookup_singleton_Some in H as [_ <-].
Qed.
(** Only these paths are new or changed; nothing was there before, except perhaps a stray file under the
    name of the mount. *)
Theorem C35_init_files : ∀ dr p branch o w x w', fs_wf (w_fs w) → create_workspace dr p branch o w = (Ok x, w') →
  ∃ sid rid id mid, ws_space x = Space sid (space_dir dr sid) ∧ mv_id (ws_mount x) = mid ∧
    let dirs := [space_dir dr sid; layer_dir (layers_root dr) rid; diff_dir (layers_root dr) rid;
                 layer_dir (layers_root dr) id; diff_dir (layers_root dr) id; mount_dir dr mid] in
    (∀ q, q ∈ tree_file (ws_space x) :: dirs → fget (w_fs w) q = None) ∧
    (∀ q, q ∈ dirs → fget (w_fs w') q = Some (FDir false)) ∧
    same_but (tree_file (ws_space x) :: ws_file dr mid :: dirs) (w_fs w) (w_fs w') ∧
    w_mounts w' = w_mounts w ∧ same_proc w w'.
Proof.
  intros dr p branch o w x w' W E. apply create_workspace_ok in E; [|done]. cbv zeta in E. set (sid := ch_uid (o (w_tick w))) in *. set (rid := ch_uid (o (S (S (w_tick w))))) in *.
  destruct E as (mid & id & wid & l & t' & raw & e & k & N & N0 & N1 & N2 & N3 & D1 & D2 & D3 & -> & R & G & Et & C1 & C2 & ->).
  exists sid, rid, id, mid. cbn [ws_space ws_mount stack_mount mv_id w_fs w_mounts upd]. split; [done|]. split; [done|]. cbv zeta.
  assert (space_ok dr (Space sid (space_dir dr sid))) as S by done. destruct (tree_file_ne dr _ S) as (T1 & T2 & T3 & T4 & T5).
  assert (fget (w_fs w) (tree_file (Space sid (space_dir dr sid))) = None) as Nt by (by apply fget_parent_None).
  assert (∀ i, fget (w_fs w) (layer_dir (layers_root dr) i) = None → fget (w_fs w) (diff_dir (layers_root dr) i) = None) as Nd by (intros i Hi; by apply fget_parent_None).
  split.
  { intros q Hq. repeat (apply elem_of_cons in Hq as [->|Hq]; [by auto|]). by apply elem_of_nil in Hq. }
  assert (∀ q, q ≠ tree_file (Space sid (space_dir dr sid)) → q ≠ ws_file dr mid →
    fget (saved_files (mount_files (with_layer (fset (w_fs w) (space_dir dr sid) (FDir false)) (layers_root dr) rid) dr mid id) dr
       (WS wid p (Space sid (space_dir dr sid)) (stack_mount (layers_root dr) (mount_dir dr mid) mid id [rid]) l branch) id raw) q =
    if decide (q ∈ [space_dir dr sid; layer_dir (layers_root dr) rid; diff_dir (layers_root dr) rid;
                 layer_dir (layers_root dr) id; diff_dir (layers_root dr) id; mount_dir dr mid]) then Some (FDir false) else fget (w_fs w) q) as Hg.
  { intros q Q1 Q2. unfold saved_files. cbn [ws_space ws_mount stack_mount mv_id]. rewrite !fget_fset_ne by done.
    rewrite mount_files_get, with_layer_get, fget_fset.
    destruct (decide (q ∈ _)) as [Hq|Hq].
    - repeat (apply elem_of_cons in Hq as [->|Hq]; [repeat case_decide; solve [done|tauto]|]). by apply elem_of_nil in Hq.
    - rewrite !not_elem_of_cons in Hq. destruct Hq as (Q3 & Q4 & Q5 & Q6 & Q7 & Q8 & _).
      rewrite !decide_False; solve [done|tauto|by intros ->|intuition done]. }
  split; [|split].
  - intros q Hq.
    assert (ws_file dr mid ≠ space_dir dr sid) as Ns.
    { unfold ws_file, space_dir, mounts_root, spaces_root. rewrite <-!app_assoc. intros E. by apply app_inv_head in E. }
    rewrite Hg, decide_True; [done|done| |]; intros ->;
      (repeat (apply elem_of_cons in Hq as [Hq|Hq]; [by first [apply Ns in Hq|apply wsfile_mount_ne in Hq|apply wsfile_layer_ne in Hq|apply wsfile_diff_ne in Hq|
         apply T1 in Hq|apply T3 in Hq|apply T4 in Hq|apply T5 in Hq]|]); by apply elem_of_nil in Hq).
  - intros q Hq. rewrite !not_elem_of_cons in Hq. destruct Hq as (Q1 & Q2 & Q3). rewrite Hg by done. rewrite decide_False; [done|]. by rewrite !not_elem_of_cons.
  - done.
Qed.
Theorem C35_no_history : ∀ dr p branch o w x w' ordb ordt, fair o → fs_wf (w_fs w) → is_order ordb → is_order ordt →
  create_workspace dr p branch o w = (Ok x, w') → get_history (w_tree w') ordb ordt (ws_id x) (ws_head x) (B "HEAD") = Ok [].
Proof.
  intros dr p branch o w x w' ordb ordt F W Ob Ot E. destruct (C35_init_tree _ _ _ _ _ _ _ F W E) as (rid & id & N & [R G] & _).
  set (a := fresh_tree rid id (ws_id x) branch) in *.
  assert (a_nodes a !! id = Some (ANode (Some rid) ∅ ∅)) as E1 by (unfold a; cbn [fresh_tree a_nodes]; by rewrite lookup_insert_ne, lookup_singleton by done).
  assert (a_nodes a !! rid = Some (ANode None ∅ ∅)) as E2 by (unfold a; cbn [fresh_tree a_nodes]; by rewrite lookup_insert).
  pose proof (get_history_spec _ _ _ _ (ws_id x) _ _ (B "HEAD") R Ob Ot G ltac:(by left)) as H.
  unfold resolve in H. rewrite decide_True in H by done. rewrite E1 in H. cbn [mbind option_bind an_parent found_id] in H.
  destruct H as (ch & cs & C & Eh & Fc). rewrite Eh. f_equal.
  assert (ch = [rid]) as -> by (eapply chain_det; [exact C|]; apply chain_root; by exists (ANode None ∅ ∅)).
  by inversion Fc.
Qed.
(** Whatever fails and wherever the process is killed, what existed stays as it was (apart from a stray
    file that has the name of the new mount). *)
Theorem C35_failure_harmless : ∀ dr p branch o w r w', fair o → fs_wf (w_fs w) → create_workspace dr p branch o w = (r, w') →
  (∀ q y, fget (w_fs w) q = Some y → (∀ i, q = ws_file dr i → is_Some (fget (w_fs w) (mount_dir dr i))) → fget (w_fs w') q = Some y) ∧
  w_mounts w' = w_mounts w ∧ same_proc w w'.
Proof.
  intros dr p branch o w r w' F W E. pose proof (create_workspace_any _ _ _ _ _ _ _ F W E) as [T _]. split; [|by destruct T].
  set (sid := ch_uid (o (w_tick w))) in *. intros q y Hq Hf.
  destruct (fget (w_fs w) (space_dir dr sid)) as [z|] eqn:Es.
  - assert (w_fs w' = w_fs w) as ->; [|done].
    unfold create_workspace, create_space in E. unfold bind at 2, new_random_uid, next_choice in E. unfold bind at 1 in E.
    unfold bind at 1, os_mkdir, sys_atomic in E. fold sid in E. unfold mkdir_in in E. cbn [w_fs tick] in E. rewrite Es in E.
    destruct (ch_fault _) as [|? ?|[|?]]; by injection E as _ <-.
  - apply (to_old _ _ _ _ T); [done|]. intros [->|(i & -> & N)].
    + unfold tree_file in Hq. cbn [sp_dir] in Hq. rewrite fget_parent_None in Hq; done.
    + destruct (Hf i eq_refl) as [z Hz]. congruence.
Qed.
Print Assumptions C35_init_tree.
Print Assumptions C35_init_files.
Print Assumptions C35_no_history.
Print Assumptions C35_failure_harmless.

(** ** C37 *)
(** The working layer [hid] becomes a commit; [id] is the new working layer. Everything is also on disk. *)
Theorem C37_commit_exact : ∀ dr x date msg o w y w' a hid, fair o → live dr w x a hid → commit_ws dr x date msg o w = (Ok y, w') →
  ∃ n id a', ready dr w' y a' id ∧ a_nodes a !! hid = Some n ∧ a_nodes a !! id = None ∧
    a_nodes a' !! hid = Some (committed n date msg) ∧ a_nodes a' !! id = Some (ANode (Some hid) ∅ ∅) ∧
    (∀ i, i ≠ hid → i ≠ id → a_nodes a' !! i = a_nodes a !! i) ∧
    (ws_branch x ≠ [] → a_branches a' !! local_key (ws_id x) (ws_branch x) = Some hid) ∧
    (∀ k, ws_branch x = [] ∨ k ≠ local_key (ws_id x) (ws_branch x) → a_branches a' !! k = a_branches a !! k) ∧
    a_tags a' = a_tags a ∧
    ws_id y = ws_id x ∧ ws_path y = ws_path x ∧ ws_space y = ws_space x ∧ ws_branch y = ws_branch x.
Proof.
  intros dr x date msg o w y w' a hid F Rd E.
  destruct (commit_ready _ _ _ _ _ _ _ _ _ _ F Rd E) as (an & ch & id & a' & Ea & C & Nh & Hr & Rd' & H1 & H2 & H3 & H4 & _).
  exists an, id, a'. split; [done|]. split; [done|]. split; [by apply not_has|].
  assert (hid ≠ id) as Ne by (intros ->; apply Nh; by exists an).
  assert (a_nodes a' = a_nodes (commit_tree a an hid id date msg) ∧ a_tags a' = a_tags a) as [En Et] by (by destruct Hr as [(_ & ->)|(_ & -> & _)]).
  split. { rewrite En. cbn. rewrite lookup_insert_ne by done. by rewrite lookup_insert. }
  split. { rewrite En. cbn. by rewrite lookup_insert. }
  split. { intros i I1 I2. rewrite En. cbn. by rewrite !lookup_insert_ne by done. }
  split. { intros Nb. destruct Hr as [[? _]|(_ & -> & _)]; [done|]. cbn [move_branch put_branches a_branches]. by rewrite lookup_insert. }
  split. { intros k Hk. destruct Hr as [(_ & ->)|(Nb & -> & _)]; [done|]. destruct Hk as [?|Hk]; [done|].
    cbn [move_branch put_branches a_branches commit_tree new_child put_node]. by rewrite lookup_insert_ne by exact (λ E, Hk (eq_sym E)). }
  split; [done|]. done.
Qed.
Lemma commit_all_chain dr o l : fair o → ∀ x w y w' a hid p ch, ready dr w x a hid → SpecTree.parent_of a hid p → chain a p ch →
  commit_all dr x l o w = (Ok y, w') →
  ∃ a' hid' p' ids, ready dr w' y a' hid' ∧ SpecTree.parent_of a' hid' p' ∧ chain a' p' (reverse ids ++ ch) ∧ ws_id y = ws_id x ∧
    (∀ i, i ∈ ch → a_nodes a' !! i = a_nodes a !! i) ∧
    Forall2 (λ i dm, ∃ n, a_nodes a' !! i = Some n ∧ an_anno n !! B "commit-message" = Some dm.2 ∧
                          (∀ d, dm.1 = Some d → an_anno n !! B "commit-date" = Some d)) ids l.
Proof.
  intros F. induction l as [|[d m] l IH]; intros x w y w' a hid p ch Rd Hp C H; cbn [commit_all] in H.
  - injection H as <- <-. exists a, hid, p, []. by eauto 10.
  - apply bind_ok in H as (z & w1 & E & H).
    destruct (C37_commit_exact _ _ _ _ _ _ _ _ _ _ F Rd E) as (n & id & a1 & Rd1 & En & Ni & E1 & E2 & Eo & _ & _ & _ & I1 & _).
    pose proof (ready_repr _ _ _ _ _ Rd) as R. pose proof (ready_repr _ _ _ _ _ Rd1) as R1.
    destruct Hp as (n' & En' & Pn). rewrite En in En'. injection En' as <-.
    assert (∀ i, i ∈ ch → i ≠ hid ∧ i ≠ id) as Hch.
    { intros i Hi. split; intros ->.
      - assert (chain a hid (hid :: ch)) as C2 by (econstructor; [by exists n|done]). apply chain_nodup in C2. by apply NoDup_cons in C2 as [? _].
      - assert (has a id) as [? ?] by (by eapply chain_has; [apply R|..]). congruence. }
    assert (∀ c l, chain a c l → (∀ i, i ∈ l → i ∈ ch) → chain a1 c l) as Cm.
    { intros c l0. induction 1 as [c (n0 & Hr & Hr2)|c q l0 (n0 & Hq & Hq2) Hc IHc]; intros Hs.
      - constructor. exists n0. split; [|done]. rewrite Eo; [done|apply Hch, Hs; set_solver..].
      - econstructor; [|apply IHc; set_solver]. exists n0. split; [|done]. rewrite Eo; [done|apply Hch, Hs; set_solver..]. }
    assert (chain a1 hid (hid :: ch)) as C1. { econstructor; [exists (committed n d m); split; [done|exact Pn]|]. by apply Cm. }
    assert (SpecTree.parent_of a1 id hid) as P1 by (eexists; split; [exact E2|done]).
    destruct (IH _ _ _ _ _ _ _ _ Rd1 P1 C1 H) as (a' & hid' & p' & ids & Rd' & Hp' & C' & I2 & Ek & Fm).
    exists a', hid', p', (hid :: ids). split; [done|]. split; [done|].
    split; [by rewrite reverse_cons, <-app_assoc|]. split; [congruence|]. split.
    + intros i Hi. rewrite Ek by (by apply elem_of_list_further). apply Eo; by apply Hch.
    + constructor; [|done]. exists (committed n d m). split; [rewrite Ek by left; done|]. cbn [committed an_anno fst snd]. split; [by rewrite lookup_insert|].
      intros d' ->. rewrite lookup_insert_ne by done. by rewrite lookup_insert.
Qed.
(** [l]: date text and message of each commit, oldest first. The history of HEAD afterwards is those,
    newest first, and then the history as it was. *)
Theorem C37_history : ∀ dr x l o w y w' a hid ordb ordt ordb' ordt' cs, fair o → ready dr w x a hid →
  is_order ordb → is_order ordt → is_order ordb' → is_order ordt' →
  commit_all dr x l o w = (Ok y, w') → get_history (w_tree w) ordb ordt (ws_id x) (ws_head x) (B "HEAD") = Ok cs →
  ∃ new old, get_history (w_tree w') ordb' ordt' (ws_id y) (ws_head y) (B "HEAD") = Ok (new ++ old) ∧
    Forall2 (λ c dm, c_message c = dm.2 ∧ (∀ d, dm.1 = Some d → d ≠ [] → c_date c = parse_rfc3339 d)) new (reverse l) ∧
    Forall2 same_commit old cs.
Proof.
  intros dr x l o w y w' a hid ordb ordt ordb' ordt' cs F Rd Ob Ot Ob' Ot' H Hh.
  pose proof (ready_repr _ _ _ _ _ Rd) as R. pose proof (ready_get _ _ _ _ _ Rd) as G.
  pose proof (get_history_spec _ _ _ _ (ws_id x) _ _ (B "HEAD") R Ob Ot G ltac:(by left)) as Hs.
  unfold resolve in Hs. rewrite decide_True in Hs by done.
  destruct (a_nodes a !! hid) as [n|] eqn:En; [|cbn [mbind option_bind found_id] in Hs; congruence]. cbn [mbind option_bind] in Hs.
  destruct (an_parent n) as [p|] eqn:Ep; [|cbn [found_id] in Hs; congruence]. cbn [found_id] in Hs.
  destruct Hs as (ch & cs' & C & E' & Fc). rewrite Hh in E'. injection E' as <-.
  destruct (commit_all_chain dr o l F _ _ _ _ _ _ _ _ Rd ltac:(by exists n) C H) as (a' & hid' & p' & ids & Rd' & (n' & En' & Pn') & C' & Ii & Ek & Fm).
  pose proof (ready_repr _ _ _ _ _ Rd') as R'. pose proof (ready_get _ _ _ _ _ Rd') as G'.
  pose proof (get_history_spec _ _ _ _ (ws_id y) _ _ (B "HEAD") R' Ob' Ot' G' ltac:(by left)) as Hs.
  unfold resolve in Hs. rewrite decide_True in Hs by done. rewrite En' in Hs. cbn [mbind option_bind] in Hs. rewrite Pn' in Hs. cbn [found_id] in Hs.
  destruct Hs as (ch' & cs' & C2 & E2 & Fc2). rewrite (chain_det _ _ _ _ C2 C') in Fc2.
  rewrite removelast_app in Fc2 by (by destruct C). apply Forall2_app_inv_l in Fc2 as (new & old & Fn & Fo & ->).
  exists new, old. split; [done|]. split.
  - apply Forall2_reverse in Fm. clear -Fn Fm. revert Fm. generalize (reverse l). induction Fn as [|i c ids' new Sc Fn IH]; intros l' Fm; inversion Fm as [|? dm ? l2 Hm Fm']; subst; [constructor|].
    constructor; [|by apply IH]. destruct Hm as (n & En & M1 & D1). destruct Sc as [_ (an & Ea & M2 & D2) _ _ _ _].
    rewrite En in Ea. injection Ea as <-. unfold anno_message, anno_date in *. split; [by rewrite M2, M1|].
    intros d Hd Nd. rewrite D2, (D1 d Hd). by destruct d.
  - assert (∀ i, i ∈ removelast ch → a_nodes a' !! i = a_nodes a !! i) as Hk.
    { intros i Hi. apply Ek. clear -Hi C. rewrite (app_removelast_last i (l:=ch)) by (by destruct C). apply elem_of_app. by left. }
    clear -Fo Fc Hk. revert cs Fc Hk. induction Fo as [|i c is old Sc Fo IH]; intros cs Fc Hk; inversion Fc as [|? c' ? cs2 Sc' Fc']; subst; [constructor|].
    constructor; [|apply IH; [done|]; intros j Hj; apply Hk; by right].
    destruct Sc as [I1 (an & Ea & M1 & D1) _ _ _ _]. destruct Sc' as [I2 (an' & Ea' & M2 & D2) _ _ _ _].
    rewrite Hk, Ea' in Ea by left. injection Ea as ->. split; [congruence|]. split; congruence.
Qed.
Print Assumptions C37_commit_exact.
Print Assumptions C37_history.
(** ** C38 *)
Theorem C38_commit_iff : ∀ dr x date msg o w a hid, no_faults o → fair o → fresh_ids dr o w → ready dr w x a hid →
  (∃ y w', commit_ws dr x date msg o w = (Ok y, w')) ↔ may_commit x a hid.
Proof.
  intros dr x date msg o w a hid F Fo Fr Rd. split; [|by apply runs_commit].
  intros (y & w' & E). destruct (commit_ready _ _ _ _ _ _ _ _ _ _ Fo Rd E) as (an & ch & id & a' & _ & _ & _ & Hr & _).
  destruct Hr as [[? _]|(_ & _ & ?)]; [by left|by right].
Qed.
(** A commit that may not be made fails under every schedule of faults, and leaves the saved tree alone. *)
Theorem C38_refused : ∀ dr x date msg o w r w' a hid, fair o → live dr w x a hid → ¬ may_commit x a hid →
  commit_ws dr x date msg o w = (r, w') → failed r ∧ fget (w_fs w') (tree_file (ws_space x)) = fget (w_fs w) (tree_file (ws_space x)).
Proof.
  intros dr x date msg o w r w' a hid F Rd N E.
  destruct (run_op_any dr x (OCommit date msg) o w r w' a hid F Rd E) as [_ [[D Fr]|(a' & (n & id & _ & _ & Hr) & _)]]; [done|].
  exfalso. apply N. destruct Hr as [[? _]|(_ & _ & ?)]; [by left|by right].
Qed.
Print Assumptions C38_commit_iff.
Print Assumptions C38_refused.

(** ** C39 *)
(** A clone of a workspace that is on a branch keeps the name of that branch, but has no such branch:
    no commit in it succeeds, whatever happens. *)
Theorem C39_clone_commit_fails : ∀ dr x target o w y w' a hid o2 date msg r w2, fair o → fair o2 → live dr w x a hid →
  clone_ws dr x target o w = (Ok y, w') → ws_branch x ≠ [] → a_branches a !! local_key (ws_id y) (ws_branch x) = None →
  commit_ws dr y date msg o2 w' = (r, w2) → failed r.
Proof.
  intros dr x target o w y w' a hid o2 date msg r w2 F F2 Rd E Nb Nk E2.
  destruct (clone_ready _ _ _ _ _ _ _ _ _ F Rd E) as (c & ch & id & Hp & C & Nh & Rd' & _ & _ & _ & Hb & _).
  eapply C38_refused; [exact F2|exact Rd'| |exact E2]. intros [Em|(h & Eh & _)]; [congruence|].
  rewrite Hb in Eh. cbn [new_child put_node a_branches] in Eh. congruence.
Qed.
(** A clone of a detached workspace can commit. *)
Theorem C39_detached_clone_commits_partial : ∀ dr x target o w y w' a hid o2 date msg, fair o → fair o2 → ready dr w x a hid →
  clone_ws dr x target o w = (Ok y, w') → ws_branch x = [] → no_faults o2 → fresh_ids dr o2 w' →
  ∃ z w2, commit_ws dr y date msg o2 w' = (Ok z, w2).
Proof.
  intros dr x target o w y w' a hid o2 date msg F F2 Rd E Nb N2 Fr.
  destruct (clone_ready _ _ _ _ _ _ _ _ _ F Rd E) as (c & ch & id & Hp & C & Nh & Rd' & _ & _ & _ & Hb & _).
  apply (C38_commit_iff _ _ _ _ _ _ _ _ N2 F2 Fr Rd'). left. congruence.
Qed.
(** The commands: init, clone, then commit in the clone *)
Definition cdir : path := [B "h"; B "c"].
Theorem C39_clone_can_commit_refuted : ∃ cmds, (∃ w, run_all calm cmds sample_world = (Ok tt, w)) ∧
  (run_all calm (cmds ++ [(cdir, cmd_commit sample_dr (B "first"))]) sample_world).1 = Err EBranchNotFound.
Proof.
  exists [(home, cmd_init sample_dr [B "w"] (B "main")); (home, cmd_clone sample_dr (B "w") (Some (B "c")))].
  split; [|vm_compute; reflexivity].
  match goal with |- ∃ w, ?r = _ => assert (is_ok r.1 = true) as H by (vm_compute; reflexivity); destruct (is_ok_ex _ H) as ([] & w & E) end.
  exists w. exact E.
Qed.
Print Assumptions C39_clone_commit_fails.
Print Assumptions C39_detached_clone_commits_partial.
Print Assumptions C39_clone_can_commit_refuted.

(** ** C40 *)
(** A local branch name: the following commit advances that branch and no other. *)
Theorem C40_local_name_partial : ∀ dr x key o w y w' a hid c o2 date msg, fair o → fair o2 → ready dr w x a hid →
  key ≠ [] → key ≠ B "HEAD" → search_spec a (key_id key) key = SpecTree.FNone → a_branches a !! local_key (ws_id x) key = Some c →
  checkout_ws dr x key o w = (Ok y, w') → no_faults o2 → fresh_ids dr o2 w' →
  ∃ z w2 a2 id new, commit_ws dr y date msg o2 w' = (Ok z, w2) ∧ ready dr w2 z a2 id ∧ SpecTree.parent_of a2 id new ∧
    SpecTree.parent_of a2 new c ∧ a_branches a2 = <[local_key (ws_id x) key := new]> (a_branches a).
Proof.
  intros dr x key o w y w' a hid c o2 date msg F F2 Rd Nk Nh Ns Ek E N2 Fr.
  destruct (checkout_ready _ _ _ _ _ _ _ _ _ F Rd E) as (c' & ty & ch & new & Hr & C & Nn & Rd' & I1 & _ & _ & Hb & _).
  assert (resolve a (ws_id x) hid key = FBranch c) as Er.
  { unfold resolve. rewrite decide_False by done. rewrite Ns. unfold local_key in Ek. by rewrite Ek. }
  rewrite Er in Hr. destruct ty; cbn in Hr; try done. injection Hr as <-. cbn in Hb.
  pose proof (ready_repr _ _ _ _ _ Rd) as R.
  assert (has a c) as Hc by (by apply (ro_branch _ (r_ok _ _ R)) in Ek).
  assert (a_nodes (new_child a new c) !! new = Some (ANode (Some c) ∅ ∅)) as En by (cbn; by rewrite lookup_insert).
  destruct (proj2 (C38_commit_iff dr y date msg o2 w' (new_child a new c) new N2 F2 Fr Rd')) as (z & w2 & E2).
  { right. exists c. rewrite I1, Hb. split; [done|]. apply rtc_once. by exists (ANode (Some c) ∅ ∅). }
  destruct (C37_commit_exact _ _ _ _ _ _ _ _ _ _ F2 Rd' E2) as (n & id & a2 & Rd2 & E3 & E4 & E5 & E6 & _ & Hm & Ho & _).
  rewrite E3 in En. injection En as ->. exists z, w2, a2, id, new. split; [done|]. split; [done|].
  split; [by eexists; split; [exact E6|]|]. split; [by eexists; split; [exact E5|]|].
  apply map_eq. intros k. destruct (decide (k = local_key (ws_id x) key)) as [->|Ne].
  - rewrite lookup_insert. rewrite <-I1, <-Hb. apply Hm. by rewrite Hb.
  - rewrite lookup_insert_ne by exact (λ E, Ne (eq_sym E)). rewrite Ho; [done|]. right. by rewrite I1, Hb.
Qed.
(** Any other reference to a branch (a full name, or origin/NAME): the workspace is set to a branch that
    does not exist, and no commit succeeds. *)
Theorem C40_other_names_fail : ∀ dr x key o w y w' a hid c o2 date msg r w2, fair o → fair o2 → live dr w x a hid →
  resolve a (ws_id x) hid key = FBranch c → key ≠ [] → a_branches a !! local_key (ws_id x) key = None →
  checkout_ws dr x key o w = (Ok y, w') → commit_ws dr y date msg o2 w' = (r, w2) → failed r.
Proof.
  intros dr x key o w y w' a hid c o2 date msg r w2 F F2 Rd Hr Nk Nl E E2.
  destruct (checkout_ready _ _ _ _ _ _ _ _ _ F Rd E) as (c' & ty & ch & new & Hr' & C & Nn & Rd' & I1 & _ & _ & Hb & _).
  rewrite Hr in Hr'. destruct ty; cbn in Hr'; try done. cbn in Hb.
  eapply C38_refused; [exact F2|exact Rd'| |exact E2]. intros [Em|(h & Eh & _)]; [congruence|].
  rewrite I1, Hb in Eh. cbn [new_child put_node a_branches] in Eh. congruence.
Qed.
(** The commands: init, checkout of the current branch by its full name, commit *)
Theorem C40_checkout_then_commit_refuted : ∃ cmds, (∃ w, run_all calm cmds sample_world = (Ok tt, w)) ∧
  (run_all calm (cmds ++ [(wdir, cmd_commit sample_dr (B "first"))]) sample_world).1 = Err EBranchNotFound.
Proof.
  exists [(home, cmd_init sample_dr [B "w"] (B "main")); (wdir, cmd_checkout sample_dr (uid_b32 (sample_id 18) ++ B "/main"))].
  split; [|vm_compute; reflexivity].
  match goal with |- ∃ w, ?r = _ => assert (is_ok r.1 = true) as H by (vm_compute; reflexivity); destruct (is_ok_ex _ H) as ([] & w & E) end.
  exists w. exact E.
Qed.
Print Assumptions C40_local_name_partial.
Print Assumptions C40_other_names_fail.
Print Assumptions C40_checkout_then_commit_refuted.

(** ** Concrete cases *)
Lemma sample_may_commit rid id wid x : ws_branch x = B "main" → ws_id x = wid → may_commit x (init_tree rid id wid (B "main")) id.
Proof.
  intros Hb Hi. right. exists rid. rewrite Hb, Hi. unfold init_tree. split; [cbn [move_branch put_branches a_branches]; unfold local_key; by rewrite lookup_insert|].
  apply rtc_once. exists (ANode (Some rid) ∅ ∅). cbn [move_branch put_branches new_child put_node a_nodes]. by rewrite lookup_insert.
Qed.
Example C32_C35_C38_sat : ∃ x w a hid, no_faults calm ∧ fair calm ∧ fresh_ids sample_dr calm w ∧ ready sample_dr w x a hid ∧ may_commit x a hid ∧
  sample_create calm sample_world = (Ok x, w) ∧ fs_wf (w_fs sample_world).
Proof.
  destruct sample_ready as (x & w & rid & id & E & N & Rd & Hb & Fr). exists x, w, (init_tree rid id (ws_id x) (B "main")), id.
  exact (conj calm_no_faults (conj fair_calm (conj Fr (conj Rd (conj (sample_may_commit rid id (ws_id x) x Hb eq_refl) (conj E sample_wf)))))).
Qed.
(** What log prints after commands; and the listing of branches *)
Definition printed (r : res unit * world) : list bytes := match r with (Ok _, w) => reverse (w_out w) | _ => [] end.
Definition messages (l : list bytes) : list bytes := filter (λ s, take 4 s = B "    ") l.
Example C37_runs : messages (printed (run_all calm
    [(home, cmd_init sample_dr [B "w"] (B "main")); (wdir, cmd_commit sample_dr (B "one")); (wdir, cmd_commit sample_dr (B "two"));
     (wdir, cmd_log sample_dr [])] sample_world)) = [B "    two"; B "    one"].
Proof. vm_compute. reflexivity. Qed.
Example C40_runs : is_ok (run_all calm
    [(home, cmd_init sample_dr [B "w"] (B "main")); (wdir, cmd_commit sample_dr (B "one"));
     (wdir, cmd_branch sample_dr (BranchOpts false false false false false false) [B "dev"]); (wdir, cmd_checkout sample_dr (B "dev"));
     (wdir, cmd_commit sample_dr (B "two"))] sample_world).1 = true.
Proof. vm_compute. reflexivity. Qed.
