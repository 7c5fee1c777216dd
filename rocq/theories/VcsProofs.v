(** * VcsProofs: the program follows the version control system of SpecVcs *)
From Verif Require Import Base Uid SpecUid UidProofs Tree SpecTree TreeRefine TreeObs Dump DumpProofs Json JsonProofs Save SaveProofs Branch BranchProofs Date Ws SpecWs WsProofs
  Fs Overlay Os Layers Mounts Space Manager Commands FsProofs OsProofs LayerProofs MountProofs SpaceProofs ManagerProofs SpecWorld SpecOps SavedProofs FaultProofs ReadyProofs OpProofs CalmProofs
  SpecMachine SpecCmds SpecLog MachineProofs OpenProofs CmdProofs ExpandProofs DetProofs SpecTidy TidyProofs LongerProofs Story StoryProofs SpecUsable UsableProofs UsableCmdProofs UsableInitProofs UsableSeqProofs SpecNames NamesProofs
  SpecOrder OrderProofs SpecRefused RefusedProofs SpecVcs PropsFaults PropsUsable PropsRound.
From Coq Require Import Lia.
From stdpp Require Import prelude gmap.

(** ** Trees that grow *)
Lemma longer_added a a' id c i : longer a a' id c → added a a' i → i = id.
Proof.
  intros [A1 A2 A3 A4] [N H]. destruct (decide (i = id)) as [->|Ni]; [done|]. destruct N. unfold has in *. specialize (A3 i Ni). destruct H as [n E]. rewrite E in A3. cbn in A3.
  destruct (a_nodes a !! i); [by eexists|done].
Qed.
Lemma longer_head a a' id c i : longer a a' id c → added a a' i → SpecTree.parent_of a' i c.
Proof. intros L H. pose proof (longer_added _ _ _ _ _ L H) as ->. apply parent_alt, L. Qed.
Lemma san_chain_inv a i l : chain (san_tree a) i l → chain a i l.
Proof. intros C. induction C as [i Hr|i q l Hp C IH]; [by apply chain_root, san_root|]. apply chain_step with q; [by apply san_parent|done]. Qed.
Lemma nodes_chain_inv a a' i l : a_nodes a' = a_nodes a → chain a' i l → chain a i l.
Proof.
  intros E C. induction C as [i Hr|i q l Hp C IH]; [apply chain_root; destruct Hr as (n & Q & H); exists n; by rewrite <-E|].
  apply chain_step with q; [destruct Hp as (n & Q & H); exists n; by rewrite <-E|done].
Qed.

(** ** Workspaces that stay *)
Definition places_at (dr : path) (w : world) (V : vcs) (mids : path → uid) : Prop :=
  (∀ p q, is_Some (v_places V !! p) → is_Some (v_places V !! q) → mids p = mids q → p = q) ∧
  ∀ p pl, v_places V !! p = Some pl → outside dr p ∧ ∃ y a, workspace_at dr w p (mids p) y (pl_head pl) a ∧ v_trees V !! pl_space pl = Some a ∧
    (∃ c, SpecTree.parent_of a (pl_head pl) c) ∧ ws_id y = pl_id pl ∧ sp_id (ws_space y) = pl_space pl ∧ sanitize (ws_branch y) = pl_branch pl ∧ stacked dr w (mids p) a (pl_head pl).
Lemma awake_kept dr w w' p mid y hid a y' hid' a' : good_path dr → workspace_at dr w p mid y hid a → workspace_at dr w' p mid y' hid' a' →
  mounts_below (w_mounts w') (mount_dir dr mid) = mounts_below (w_mounts w) (mount_dir dr mid) → awake dr w p → awake dr w' p.
Proof.
  intros G [A1 _ _ _ _ _] [B1 _ _ _ _ _] E (mid' & L & Hm). rewrite A1 in L. apply (inj Some) in L. apply (f_equal (λ f, match f with FLink s => s | _ => [] end)) in L. cbv beta iota in L.
  apply path_str_merged in L as <-; [|done]. exists mid. split; [done|]. by rewrite E.
Qed.
(** A workspace was put at [p]. *)
Lemma models_put dr w w' V mids p old mid y a' pl : good_path dr → places_at dr w V mids → put_at dr w w' p old mid y (pl_head pl) a' → outside dr p →
  old = None ∨ (old = Some (mids p) ∧ is_Some (v_places V !! p)) → ws_id y = pl_id pl → sp_id (ws_space y) = pl_space pl → sanitize (ws_branch y) = pl_branch pl →
  (∃ c, SpecTree.parent_of a' (pl_head pl) c) →
  (∀ q pq a, v_places V !! q = Some pq → v_trees V !! pl_space pq = Some a → pl_space pq = pl_space pl → ¬ has a (pl_head pl) ∧
    (∀ i c, SpecTree.parent_of a i c → SpecTree.parent_of a' i c) ∧ ∀ i l, chain a i l → chain a' i l) →
  (∀ i, has a' i → (∃ a, used V (pl_space pl) a ∧ has a i) ∨ fget (w_fs w) (layer_dir (layers_root dr) i) = None) →
  models dr w' (put_place V p pl (san_tree a')) ∧ files_step dr w w' V (put_place V p pl (san_tree a')).
Proof.
  intros G [Hd Hp] [B1 B2 B3 _ B5 B6 B7 B8 B9] Op Ho E1 E2 E3 Pc Ht Hl.
  assert (∀ q pq, v_places V !! q = Some pq → q ≠ p → old ≠ Some (mids q)) as No.
  { intros q pq Eq Nq. destruct Ho as [->|[-> Hs]]; [done|]. intros [= Q]. destruct Nq. apply Hd; [by exists pq|done|by symmetry]. }
  assert (∀ q pq, v_places V !! q = Some pq → q ≠ p → outside dr q ∧ ∃ yq aq, workspace_at dr w' q (mids q) yq (pl_head pq) (if decide (sp_id (ws_space yq) = sp_id (ws_space y)) then san_tree a' else aq) ∧
    v_trees V !! pl_space pq = Some aq ∧ (∃ c, SpecTree.parent_of aq (pl_head pq) c) ∧ ws_id yq = pl_id pq ∧ sp_id (ws_space yq) = pl_space pq ∧ sanitize (ws_branch yq) = pl_branch pq ∧ has aq (pl_head pq) ∧
    stacked dr w (mids q) aq (pl_head pq)) as Hq.
  { intros q pq Eq Nq. destruct (Hp q pq Eq) as (Oq & yq & aq & Wq & T & Pq & C1 & C2 & C3 & Sk). split; [done|]. exists yq, aq. split_and!; try done; [|by destruct Wq].
    apply B3; try done. by eapply No. }
  assert (∀ q pq, v_places V !! q = Some pq → q ≠ p → mids q ≠ mid) as Hn.
  { intros q pq Eq Nq Q. destruct (Hq q pq Eq Nq) as (_ & yq & aq & Wq & T & _ & _ & C2 & _ & Hh & _). rewrite Q in Wq.
    destruct Wq as [_ _ I1 _ _ _], B2 as [_ _ I2 _ _ _]. rewrite I1 in I2. apply (f_equal (λ o, match o with Some (FFile b) => b | _ => [] end)) in I2. cbv beta iota in I2. apply info_head in I2 as [J1 J2].
    destruct (Ht q pq aq Eq T) as [Nh _]; [congruence|]. by rewrite <-J1 in Nh. }
  split; [split; [done|]|].
  2: { split; [done|]. split.
    { intros sid b i [(q & pq & Eq & Es) Eb] Hb. cbn [put_place v_trees v_places] in Eb, Eq. destruct (decide (pl_space pl = sid)) as [<-|Ns].
      - rewrite lookup_insert in Eb. injection Eb as <-. apply (proj1 (san_has _ _)) in Hb. by destruct (Hl i Hb) as [Q|Q]; [left|right].
      - rewrite lookup_insert_ne in Eb by done. left. exists b. split; [|done]. split; [|done]. exists q, pq. split; [|done]. rewrite lookup_insert_ne in Eq; [done|]. intros ->. rewrite lookup_insert in Eq. by injection Eq as ->. }
    intros q pq Eq. cbn [put_place v_places] in Eq. destruct (decide (q = p)) as [->|Nq].
    - rewrite lookup_insert in Eq. injection Eq as <-. right. split; [done|]. split; [done|]. exists mid. split; [apply B2|]. destruct B9 as (ch & -> & _). done.
    - rewrite lookup_insert_ne in Eq by done. left. split; [done|]. destruct (Hp q pq Eq) as (_ & yq0 & aq0 & Wq0 & _). destruct (Hq q pq Eq Nq) as (_ & yq & aq & Wq & _).
      eapply awake_kept; [done|exact Wq0|exact Wq|]. apply B5; [by eapply Hn|by eapply No]. }
  exists (λ q, if decide (q = p) then mid else mids q). split.
  - intros q q' Hq1 Hq2. cbn [put_place v_places] in *. destruct (decide (q = p)) as [->|N1], (decide (q' = p)) as [->|N2]; intros Q; try done.
    + destruct Hq2 as [pq Eq]. rewrite lookup_insert_ne in Eq by done. symmetry in Q. by apply (Hn _ _ Eq) in Q.
    + destruct Hq1 as [pq Eq]. rewrite lookup_insert_ne in Eq by done. by apply (Hn _ _ Eq) in Q.
    + rewrite lookup_insert_ne in Hq1, Hq2 by done. by apply Hd.
  - intros q pq Eq. cbn [put_place v_places v_trees] in *. destruct (decide (q = p)) as [->|Nq].
    + rewrite lookup_insert in Eq. injection Eq as <-. split; [done|]. exists y, (san_tree a'). rewrite lookup_insert. destruct Pc as [c Pc]. split_and!; try done; [exists c; by apply san_parent|]. destruct B9 as (ch & Hm & Hc). exists ch. split; [by right|done].
    + rewrite lookup_insert_ne in Eq by done. destruct (Hq q pq Eq Nq) as (Oq & yq & aq & Wq & T & [c Pq] & C1 & C2 & C3 & Hh & lows & Sk & Sc). split; [done|].
      rewrite <-(B5 (mids q) (Hn _ _ Eq Nq) (No _ _ Eq Nq)) in Sk.
      destruct (decide (sp_id (ws_space yq) = sp_id (ws_space y))) as [Es|Es].
      * destruct (Ht q pq aq Eq T) as (_ & Hpar & Hch); [congruence|].
        exists yq, (san_tree a'). rewrite <-C2, Es, E2, lookup_insert. split_and!; try done; [exists c; by apply san_parent, Hpar|]. exists lows. split; [done|]. by apply san_chain, Hch.
      * exists yq, aq. rewrite lookup_insert_ne by congruence. split_and!; try done; [by exists c|by exists lows].
Qed.
(** The tree of one space has changed. *)
Lemma models_tree dr w w' V mids sid a' : good_path dr → places_at dr w V mids → in_order dr w' →
  (∀ p mid y hid a, workspace_at dr w p mid y hid a → workspace_at dr w' p mid y hid (if decide (sp_id (ws_space y) = sid) then san_tree a' else a) ∧
    mounts_below (w_mounts w') (mount_dir dr mid) = mounts_below (w_mounts w) (mount_dir dr mid)) →
  (∀ q pq a, v_places V !! q = Some pq → v_trees V !! pl_space pq = Some a → pl_space pq = sid →
    (∀ i c, SpecTree.parent_of a i c → SpecTree.parent_of a' i c) ∧ ∀ i l, chain a i l → chain a' i l) →
  (∀ i q pq, v_places V !! q = Some pq → pl_space pq = sid → has a' i → (∃ a, used V sid a ∧ has a i) ∨ fget (w_fs w) (layer_dir (layers_root dr) i) = None ∧ new_empty dr w w') →
  untouched dr w w' → models dr w' (put_tree V sid (san_tree a')) ∧ files_step dr w w' V (put_tree V sid (san_tree a')).
Proof.
  intros G [Hd Hp] Io Hw Ht Hl Un. split; [split; [done|]; exists mids; split; [exact Hd|]|split; [done|split]].
  2: { intros s b i [(q & pq & Eq & Es) Eb] Hb. cbn [put_tree v_trees v_places] in Eb, Eq. destruct (decide (sid = s)) as [<-|Ns].
    - rewrite lookup_insert in Eb. injection Eb as <-. apply (proj1 (san_has _ _)) in Hb. by eapply Hl.
    - rewrite lookup_insert_ne in Eb by done. left. exists b. split; [|done]. split; [|done]. by exists q, pq. }
  2: { intros q pq Eq. cbn [put_tree v_places] in Eq. left. split; [done|]. destruct (Hp q pq Eq) as (_ & y & a & Wq & _). destruct (Hw _ _ _ _ _ Wq) as [Wq' Em]. by eapply awake_kept. }
  intros q pq Eq. cbn [put_tree v_places v_trees] in *.
  destruct (Hp q pq Eq) as (Oq & y & a & Wq & T & [c Pq] & C1 & C2 & C3 & lows & Sk & Sc). split; [done|]. apply Hw in Wq as [Wq Em]. rewrite <-Em in Sk. destruct (decide (sp_id (ws_space y) = sid)) as [Es|Es].
  - destruct (Ht q pq a Eq T) as [Hpar Hch]; [congruence|].
    exists y, (san_tree a'). rewrite <-C2, Es, lookup_insert. split_and!; try done; [exists c; by apply san_parent, Hpar|]. exists lows. split; [done|]. by apply san_chain, Hch.
  - exists y, a. rewrite lookup_insert_ne by congruence. split_and!; try done; [by exists c|by exists lows].
Qed.
(** Nothing has changed that matters. *)
Lemma models_same dr w w' V mids : good_path dr → places_at dr w V mids → in_order dr w' →
  (∀ p mid y hid a, workspace_at dr w p mid y hid a → workspace_at dr w' p mid y hid a ∧ mounts_below (w_mounts w') (mount_dir dr mid) = mounts_below (w_mounts w) (mount_dir dr mid)) →
  untouched dr w w' → models dr w' V ∧ files_step dr w w' V V.
Proof.
  intros G [Hd Hp] Io Hw Un. split; [split; [done|]; exists mids; split; [exact Hd|]|split; [done|split]].
  2: { intros s b i Eb Hb. left. by exists b. }
  2: { intros q pq Eq. left. split; [done|]. destruct (Hp q pq Eq) as (_ & y & a & Wq & _). destruct (Hw _ _ _ _ _ Wq) as [Wq' Em]. by eapply awake_kept. }
  intros q pq Eq. destruct (Hp q pq Eq) as (Oq & y & a & Wq & T & Pq & C1 & C2 & C3 & lows & Sk & Sc). split; [done|]. apply Hw in Wq as [Wq Em]. rewrite <-Em in Sk.
  exists y, a. split_and!; try done. by exists lows.
Qed.
Lemma left_below dr w w' mid y id a' p2 mid2 y2 hid2 a2 : in_order dr w → left_mounted dr w w' mid y id a' → workspace_at dr w p2 mid2 y2 hid2 a2 →
  mounts_below (w_mounts w') (mount_dir dr mid2) = mounts_below (w_mounts w) (mount_dir dr mid2).
Proof.
  intros Io Lm Wa. destruct (lm_mount _ _ _ _ _ _ _ Lm) as (m & Em & Ea). rewrite Em. unfold mounts_below. rewrite filter_cons, decide_False; [done|]. rewrite Ea, merged_other; [done|].
  intros ->. pose proof (workspace_dir _ _ _ _ _ _ _ Io Wa) as Dm. apply dir_mount in Dm; [|apply (mc_wf _ _ _ (io_machine _ _ Io))]. unfold is_dir_at in Dm. by rewrite (lm_new _ _ _ _ _ _ _ Lm) in Dm.
Qed.
Lemma same_workspaces dr w w' p mid y hid a : same_machine w w' → workspace_at dr w p mid y hid a → workspace_at dr w' p mid y hid a.
Proof. intros [E1 E2] [A1 A2 A3 A4 A5 A6]. constructor; unfold holds, mounted_once in *; rewrite ?E1, ?E2; done. Qed.
Lemma same_order dr w w' : same_machine w w' → in_order dr w → in_order dr w'.
Proof. intros [E1 E2] [A1 A2 A3 A4 A5]. constructor; rewrite ?E1, ?E2; done. Qed.

Lemma same_models dr w w' V mids : good_path dr → in_order dr w → places_at dr w V mids → same_machine w w' → models dr w' V ∧ files_step dr w w' V V.
Proof.
  intros G Io Pl Sm. eapply models_same; [done|done|by eapply same_order| |apply untouched_refl, Sm]. intros p mid y hid a Wa. split; [by eapply same_workspaces|]. destruct Sm as [_ ->]. done.
Qed.

(** ** Directories that are not workspaces *)
Lemma open_plain dr arg d p o w : no_faults o → runs_in w d → UsableCmdProofs.abs_from d arg = p → plain_spot dr w p →
  ∃ r w', get_workspace dr arg o w = (r, w') ∧ failed r ∧ same_machine w w'.
Proof.
  intros N R Ha [O Nl]. unfold get_workspace. destruct (abs_fine arg _ _ _ N R) as (k & E & _). rewrite Ha in E. unfold bind at 1. rewrite E. clear E.
  assert (fs_is_symlink p o (upd w (w_fs w) (w_mounts w) (w_tree w) k) = (Ok false, upd w (w_fs w) (w_mounts w) (w_tree w) (S k))) as E1.
  { unfold fs_is_symlink, bind, attempt, os_lstat. rewrite look_fine by done. cbn [w_fs tick upd]. destruct (fget (w_fs w) p) as [[| |s|]|] eqn:E; try done. by destruct (Nl s). }
  unfold bind at 1. rewrite E1. clear E1. unfold bind at 1. unfold ret at 1. unfold bind at 1, lift at 1. unfold mounts_root. rewrite (rel_first_outside _ _ _ O).
  destruct (decode_b32 (B "..")) as [i|e| | |] eqn:Ed; [vm_compute in Ed; discriminate Ed|..]; eexists _, _; (split; [reflexivity|done]).
Qed.
(** ** Commands that are refused *)
Lemma checkout_none dr key o w p mid y hid a : good_path dr → fair o → no_faults o → in_order dr w →
  workspace_at dr w p mid y hid a → runs_in w p → meant (read_back y) hid a key = None →
  ∃ r w', cmd_checkout dr key o w = (r, w') ∧ failed r ∧ same_machine w w'.
Proof.
  intros G F N Io Wa R Hn. destruct (open_fine dr w p mid y hid a (B ".") p o G F N Io Wa R) as (h & t & k & E & Hk' & Lv); [apply join_dot|].
  set (x := WS _ _ _ _ h _) in *. unfold cmd_checkout. unfold bind at 1. rewrite E. clear E. set (w1 := upd w (w_fs w) (w_mounts w) t k) in *.
  pose proof Lv as [W [Rp Gt] LP S D]. unfold bind at 1. unfold checkout_ws, bind at 1, search_ws, bind at 1, gets, lift.
  destruct (ws_search (w_tree w1) (ws_id x) (ws_head x) key) as [f|e| | |] eqn:Ef; [|eexists _, _; (split; [reflexivity|done])..].
  destruct (search_meant _ _ _ _ _ _ Rp Gt Ef) as [(l & ty & i & _ & Q & _)|[_ H]]; [change (meant x hid a key) with (meant (read_back y) hid a key) in Q; congruence|].
  destruct H as [[ty Q]|[Q|Q]]; [injection Q as ->|injection Q as ->|by destruct (Q f)]; eexists _, _; (split; [reflexivity|done]).
Qed.
Lemma dirs_stay dr w w' mid id p m y hid a : in_order dr w → left_dirs dr w w' mid id → workspace_at dr w p m y hid a → workspace_at dr w' p m y hid a.
Proof.
  intros Io [A1 A2 _ A4 A5] [B1 B2 B3 B4 B5 B6].
  assert (∀ q x, fget (w_fs w) q = Some x → fget (w_fs w') q = Some x) as Hq.
  { intros q x E. rewrite A4; [done|intros ->; congruence..|]. intros ->. apply mk_is_Some in E. apply (wf_parent _ _ (mc_wf _ _ _ (io_machine _ _ Io))) in E; [|by destruct (layers_root dr)].
    unfold diff_dir in E. rewrite parent_dir_app in E. unfold is_dir_at in E. by rewrite A2 in E. }
  constructor; try done; [by apply Hq| |by apply Hq|].
  { destruct B2 as [D B2]. split; [|by rewrite A5]. apply is_dir_at_Some in D as [b D]. apply is_dir_at_Some. exists b. by apply Hq. }
  destruct B5 as (raw & E & L). exists raw. split; [by apply Hq|done].
Qed.
Lemma dirs_layers dr w w' mid id : in_order dr w → left_dirs dr w w' mid id → untouched dr w w'.
Proof.
  intros Io [A1 A2 _ A4 A5] i Di q Hq. apply A4.
  - intros ->. apply (in_layer_mount dr i _ mid) in Hq. by rewrite is_prefix_refl in Hq.
  - intros ->. apply is_prefix_spec in Hq as [k Q]. apply (f_equal length) in Q. unfold diff_dir, layer_dir in Q. rewrite !app_length in Q. cbn in Q. lia.
  - intros ->. pose proof (in_layer_same dr i id _ Hq (is_prefix_refl _)) as ->. apply is_dir_at_Some in Di as [b Di]. apply mk_is_Some in Di.
    apply (wf_parent _ _ (mc_wf _ _ _ (io_machine _ _ Io))) in Di; [|by destruct (layers_root dr)]. unfold diff_dir in Di. rewrite parent_dir_app in Di. unfold is_dir_at in Di. by rewrite A2 in Di.
Qed.
Lemma depth_place V p pl a' n : depth V n → (∀ i l, chain a' i l → length l ≤ S n) → depth (put_place V p pl (san_tree a')) (S n).
Proof.
  intros Hd Hc q pq a c ch E T C. cbn [put_place v_places v_trees] in *. destruct (decide (pl_space pq = pl_space pl)) as [Es|Ns].
  - rewrite Es, lookup_insert in T. injection T as <-. by eapply Hc, san_chain_inv.
  - rewrite lookup_insert_ne in T by done. destruct (decide (q = p)) as [->|Nq]; [rewrite lookup_insert in E; congruence|]. rewrite lookup_insert_ne in E by done. pose proof (Hd _ _ _ _ _ E T C). lia.
Qed.
Lemma depth_tree V sid a' n m : depth V n → n ≤ m → (∀ i l, chain a' i l → length l ≤ m) → depth (put_tree V sid (san_tree a')) m.
Proof.
  intros Hd Hn Hc q pq a c ch E T C. cbn [put_tree v_places v_trees] in *. destruct (decide (pl_space pq = sid)) as [Es|Ns].
  - rewrite Es, lookup_insert in T. injection T as <-. by eapply Hc, san_chain_inv.
  - rewrite lookup_insert_ne in T by done. pose proof (Hd _ _ _ _ _ E T C). lia.
Qed.
Lemma depth_more V n m : depth V n → n ≤ m → depth V m.
Proof. intros Hd Hn q pq a c ch E T C. pose proof (Hd _ _ _ _ _ E T C). lia. Qed.

(** ** Every command, in every place *)
Lemma meets_branch y pl : ws_id y = pl_id pl → sanitize (ws_branch y) = pl_branch pl → stands_for (read_back y) pl.
Proof. intros E1 E2. by split. Qed.
Lemma fresh_depth rid id wid branch i l : chain (fresh_tree rid id wid branch) i l → length l ≤ 2.
Proof.
  assert (∀ c j, SpecTree.parent_of (fresh_tree rid id wid branch) c j → j = rid ∧ c ≠ rid) as Hp.
  { intros c j (n & E & Ep). cbn [fresh_tree a_nodes] in E. destruct (decide (c = rid)) as [->|Nc]; [rewrite lookup_insert in E; by simplify_eq/=|].
    rewrite lookup_insert_ne in E by done. apply lookup_singleton_Some in E as [<- <-]. by simplify_eq/=. }
  intros C. inversion C as [i' Hr|i' q l' P1 C']; subst; cbn [length]; [lia|]. apply Hp in P1 as [-> _].
  inversion C' as [i' Hr|i' q l'' P2 C'']; subst; cbn [length]; [lia|]. by apply Hp in P2 as [_ ?].
Qed.
Lemma fresh_has rid id wid b i : has (fresh_tree rid id wid b) i → i = rid ∨ i = id.
Proof. intros [x H]. cbn [fresh_tree a_nodes] in H. apply lookup_insert_Some in H as [[? _]|[_ H]]; [by left|]. apply lookup_singleton_Some in H as [? _]. by right. Qed.
Lemma step_init dr V mids n args branch d o w r w' : plain_path dr → good_path dr → fair o → no_faults o → new_ids dr o w → in_order dr w → places_at dr w V mids → depth V n → 1 ≤ n → fits dr n →
  runs_in w d → let p := UsableCmdProofs.abs_from d (default (B ".") (head args)) in plain_spot dr w p → (∀ m, m ∈ w_mounts w → mn_at m ≠ p) →
  run_cmd dr (CInit args branch) o w = (r, w') → ∃ V', vstep w V d (CInit args branch) r V' ∧ (models dr w' V' ∧ files_step dr w w' V V') ∧ depth V' (S n).
Proof.
  intros P G F N Nw Io Pl Hd Hn Fi R p [Op Nl] Nm E. cbn [vstep]. change (Fs.abs_from d (default (B ".") (head args))) with p.
  assert (fits dr 1) as F1 by (by eapply fits_less).
  assert (∀ sid, fget (w_fs w) (tree_at dr sid) = None → ∀ p2 pl2, v_places V !! p2 = Some pl2 → pl_space pl2 ≠ sid) as Hs.
  { intros sid E0 p2 pl2 E2 Q. destruct Pl as [_ Hp]. destruct (Hp _ _ E2) as (_ & y & a & Wq & _ & _ & _ & C2 & _). destruct (wa_tree _ _ _ _ _ _ _ Wq) as (raw & Er & _).
    rewrite C2, Q in Er. change (tree_file (the_space dr sid)) with (tree_at dr sid) in Er. congruence. }
  assert (free_spot w p → ∃ V', (free_spot w p ∧ r = Ok tt ∧ ∃ pl rid, V' = put_place V p pl (san_tree (fresh_tree rid (pl_head pl) (pl_id pl) branch)) ∧ pl_branch pl = sanitize branch ∧
         rid ≠ pl_head pl ∧ ∀ p2 pl2, v_places V !! p2 = Some pl2 → pl_space pl2 ≠ pl_space pl) ∧ (models dr w' V' ∧ files_step dr w w' V V') ∧ depth V' (S n)) as Hfree.
  { intros Fs. assert (can_replace w p) as Cr.
    { destruct Fs as [[A B]|[A B]]; [by left|right]. rewrite (real_dir _ _ A). split; [by eexists|]. intros _. split; [done|exact Nm]. }
    destruct (init_fine dr args branch o w d p P G F N Nw Io R eq_refl Op Cr) as (w2 & mid & y & id & rid & E2 & Pa & E3 & Eb & Et & Ne & _ & Nr); [destruct Fs as [[A _]|[A _]]; [by left|by right]|done|].
    cbn [run_cmd] in E. rewrite E in E2. injection E2 as -> ->. set (pl := Place (ws_id y) (sp_id (ws_space y)) id (sanitize branch)).
    exists (put_place V p pl (san_tree (fresh_tree rid id (ws_id y) branch))). split; [|split].
    - split; [done|]. split; [done|]. exists pl, rid. split; [done|]. split; [done|]. split; [done|]. by apply Hs.
    - eapply (models_put _ _ _ _ mids _ None mid y _ pl); try done; [by left|by cbn [pl pl_branch]; rewrite Eb| | |].
      + exists rid. exists (ANode (Some rid) ∅ ∅). split; [|done]. cbn [fresh_tree a_nodes pl pl_head]. by rewrite lookup_insert_ne, lookup_singleton.
      + intros q pq a Eq _ Q. exfalso. by apply (Hs _ Et q pq Eq).
      + intros i Hi. right. apply fresh_has in Hi as [->| ->]; [done|apply (pa_new _ _ _ _ _ _ _ _ _ Pa)].
    - apply depth_place; [done|]. intros i l C. apply fresh_depth in C. lia. }
  destruct (fget (w_fs w) p) as [x|] eqn:Ex.
  - destruct (decide (is_dir_at (w_fs w) p = true ∧ children (w_fs w) p = [])) as [[D C]|Nd].
    + destruct Hfree as (V' & A & B); [right; split; [done|]; intros c; apply eq_None_not_Some; intros Q; apply children_elem in Q; rewrite C in Q; by apply elem_of_nil in Q|]. exists V'. split; [by left|done].
    + assert (¬ free_spot w p) as Nf.
      { intros [[A _]|[A B]]; [congruence|]. destruct Nd. split; [done|]. destruct (children (w_fs w) p) as [|c l] eqn:Ec; [done|]. exfalso.
        assert (c ∈ children (w_fs w) p) as [z Ez]%children_elem by (rewrite Ec; left). by rewrite B in Ez. }
      destruct (C51_init dr args branch o w r w' N) as (Fr & E1 & E2); [|done|].
      * assert (abs_of w (default (B ".") (head args)) = p) as -> by (by apply runs_abs_from).
        exists p, x. split; [|split; [done|]].
        { eapply real_not_link; [done|]. intros s ->. by destruct (Nl s). }
        intros D. split; [|intros C; by destruct Nd]. unfold mount_at. destruct (filter _ _) as [|m l] eqn:Ef; [done|]. exfalso.
        assert (m ∈ filter (λ m, mn_at m = p) (w_mounts w)) as [A B]%elem_of_list_filter by (rewrite Ef; left). by apply (Nm m).
      * exists V. split; [right; done|]. split; [|eapply depth_more; [done|lia]]. assert (same_machine w w') as Sm by done.
        by eapply same_models.
  - destruct (is_dir_at (w_fs w) (parent_dir p)) eqn:D.
    + destruct Hfree as (V' & A & B); [by left|]. exists V'. split; [by left|done].
    + assert (¬ free_spot w p) as Nf by (intros [[_ A]|[A _]]; [congruence|unfold is_dir_at in A; by rewrite Ex in A]).
      destruct (init_stuck dr args branch o w d p P G F N Nw Io R eq_refl Op) as (e & w2 & mid & y & id & rid & E2 & Lm & Ep & Et & Ne); [by left|unfold real_path; cbn [real]; by rewrite Ex|done|].
      cbn [run_cmd] in E. rewrite E in E2. injection E2 as -> ->. exists V. split; [by right|]. split; [|eapply depth_more; [done|lia]]. pose proof Lm as [L1 _ _ _ _ _ L7 L8].
      eapply models_same; [done|done|done| |done]. intros p2 mid2 y2 hid2 a2 W2. split; [|by eapply left_below]. pose proof (L7 _ _ _ _ _ W2) as Q. rewrite decide_False in Q; [done|]. intros Es.
      destruct (wa_tree _ _ _ _ _ _ _ W2) as (raw & Er & _). rewrite Es in Er. change (tree_file (the_space dr (sp_id (ws_space y)))) with (tree_at dr (sp_id (ws_space y))) in Er. congruence.
Qed.
Lemma longer_layers dr w V sid a a' j c id : used V sid a → longer a a' j c → added a a' id → fget (w_fs w) (layer_dir (layers_root dr) id) = None →
  ∀ i, has a' i → (∃ b, used V sid b ∧ has b i) ∨ fget (w_fs w) (layer_dir (layers_root dr) i) = None.
Proof.
  intros T L Ad Nl i Hi. pose proof (longer_added _ _ _ _ _ L Ad) as ->. destruct (decide (i = j)) as [->|Ni]; [by right|left]. exists a. split; [done|].
  pose proof (lo_old _ _ _ _ L i Ni) as E. destruct Hi as [x Hx]. rewrite Hx in E. unfold has. by destruct (a_nodes a !! i).
Qed.
Lemma put_grows dr w w' p old mid y id a a' : put_at dr w w' p old mid y id a' → ¬ has a id → added a a' id.
Proof. intros [_ [_ _ _ _ _ B6] _ _ _ _ _ _ _] N. split; [done|]. by apply (proj1 (san_has _ _)). Qed.
Lemma step_commit dr V mids n msg d o w r w' pl : plain_path dr → good_path dr → fair o → no_faults o → new_ids dr o w → in_order dr w → places_at dr w V mids → depth V n → fits dr n →
  runs_in w d → v_places V !! d = Some pl → run_cmd dr (CCommit msg) o w = (r, w') → ∃ V', vstep w V d (CCommit msg) r V' ∧ (models dr w' V' ∧ files_step dr w w' V V') ∧ depth V' (S n).
Proof.
  intros P G F N Nw Io Pl Hd Fi R Ed E. cbn [vstep]. rewrite Ed. pose proof Pl as [_ Hp]. destruct (Hp _ _ Ed) as (Od & y & a & Wa & T & Hc & C1 & C2 & C3 & _).
  pose proof (holds_rooted _ _ _ (wa_tree _ _ _ _ _ _ _ Wa)) as Ro. destruct (chain_exists _ _ Ro (wa_head _ _ _ _ _ _ _ Wa)) as [ch C]. pose proof (Hd _ _ _ _ _ Ed T C) as Hl.
  destruct (C67_commit dr msg o w d _ y _ a ch P G F N Nw Io Wa Od R C) as [Hiff Hok]; [by eapply fits_less|]. cbn [run_cmd] in E.
  assert (stands_for (read_back y) pl) as Sf by done.
  assert ((∃ u, r = Ok u) ∨ failed r) as [[[] ->]|Fr] by (destruct r; [left; by eexists|right; done..]).
  - destruct (Hok _ E) as (mid' & y' & id & a' & k & Ht & Pa & E1 & E2 & E3 & E4 & _ & Nh). destruct (op_longer _ _ _ _ _ Ro ltac:(left; eauto) Ht) as (i & c & L & _).
    set (pl' := Place (pl_id pl) (pl_space pl) id (pl_branch pl)). exists (put_place V d pl' (san_tree a')). split; [|split].
    + exists (read_back y), a. split; [done|]. split; [done|]. left. split; [apply Hiff; by eexists|]. split; [done|]. eexists _, a', id. split; [exact Ht|]. split; [by eapply put_grows|done].
    + eapply (models_put _ _ _ _ mids _ _ mid' y' _ pl'); [done|done|exact Pa|done|right; split; [done|by eexists]|by rewrite E2|by rewrite E4|by rewrite E3, sanitize_idemp| | |].
      * exists c. eapply longer_head; [done|]. by eapply put_grows.
      * intros q pq b Eq Tb Es. cbn [pl' pl_space] in Es. rewrite Es in Tb. assert (b = a) as -> by congruence. split; [done|]. split; [intros z z'; by eapply longer_parent|]. intros z l. by eapply longer_keeps.
      * cbn [pl' pl_space]. eapply longer_layers; [split; [by eexists _, pl|exact T]|done|by eapply put_grows|apply (pa_new _ _ _ _ _ _ _ _ _ Pa)].
    + apply depth_place; [done|]. eapply longer_depth; [done|done|]. intros z l Cz. by eapply Hd.
  - assert (¬ may_commit (read_back y) a (pl_head pl)) as Nm by (intros Q; apply Hiff in Q as [w2 Q]; rewrite E in Q; injection Q as -> ->; by destruct (Fr tt)).
    destruct (commit_refused dr msg o w d _ y _ a G F N Nw Io Wa R Nm) as (e & w2 & mid' & id & E2 & Ld & _). rewrite E in E2. injection E2 as -> ->.
    exists V. split; [exists (read_back y), a; split; [done|]; split; [done|]; by right|]. split; [|eapply depth_more; [done|lia]]. eapply models_same; [done|done| |intros; split; [by eapply dirs_stay|by rewrite (ld_mounts _ _ _ _ _ Ld)]|by eapply dirs_layers].
    eapply happens_order; [done|done|done|]. apply happens_step. eapply (step_cmd _ _ _ (CCommit msg)); [by split|done| |exact E]. intros _. cbn [cmd_target]. by rewrite (runs_abs _ _ R).
Qed.
Lemma step_checkout dr V mids n key d o w r w' pl : plain_path dr → good_path dr → fair o → no_faults o → new_ids dr o w → in_order dr w → places_at dr w V mids → depth V n → fits dr n →
  runs_in w d → v_places V !! d = Some pl → run_cmd dr (CCheckout key) o w = (r, w') → ∃ V', vstep w V d (CCheckout key) r V' ∧ (models dr w' V' ∧ files_step dr w w' V V') ∧ depth V' (S n).
Proof.
  intros P G F N Nw Io Pl Hd Fi R Ed E. cbn [vstep]. rewrite Ed. pose proof Pl as [_ Hp]. destruct (Hp _ _ Ed) as (Od & y & a & Wa & T & Hc & C1 & C2 & C3 & _).
  pose proof (holds_rooted _ _ _ (wa_tree _ _ _ _ _ _ _ Wa)) as Ro. cbn [run_cmd] in E. assert (stands_for (read_back y) pl) as Sf by done.
  destruct (meant (read_back y) (pl_head pl) a key) as [t|] eqn:Em.
  - assert (decode_b32 key ≠ Panic) as Nk by (intros Q; unfold meant in Em; by rewrite Q in Em). rewrite meant_found in Em by done. cbn [read_back ws_id] in Em.
    destruct (C67_checkout dr key o w d _ y _ a P G F N Nw Io Wa Od R) as [Hiff Hok]; [by right|intros z l Cz; eapply fits_less; [done|by eapply Hd]|].
    assert (is_Some (found_id (resolve a (ws_id y) (pl_head pl) key))) as (w2 & E2)%Hiff by (by exists t). rewrite E in E2. injection E2 as -> ->.
    destruct (Hok _ E) as (mid' & y' & id & a' & Ht & Pa & E1 & E2 & E3 & E4 & _ & Nh). destruct (op_longer _ _ _ _ _ Ro ltac:(right; left; eauto) Ht) as (i & c & L & _).
    set (pl' := Place (pl_id pl) (pl_space pl) id (match resolve a (pl_id pl) (pl_head pl) key with SpecTree.FBranch _ => sanitize key | _ => [] end)). exists (put_place V d pl' (san_tree a')). split; [|split].
    + exists (read_back y), a. split; [done|]. split; [done|]. left. split; [rewrite meant_found by done; by exists t|]. split; [done|]. exists a', id. split; [exact Ht|]. split; [by eapply put_grows|done].
    + eapply (models_put _ _ _ _ mids _ _ mid' y' _ pl'); [done|done|exact Pa|done|right; split; [done|by eexists]|by rewrite E2|by rewrite E4|rewrite E3, C1; unfold pl'; cbn [pl_branch]; by destruct (resolve a (pl_id pl) (pl_head pl) key)| | |].
      * exists c. eapply longer_head; [done|]. by eapply put_grows.
      * intros q pq b Eq Tb Es. cbn [pl' pl_space] in Es. rewrite Es in Tb. assert (b = a) as -> by congruence. split; [done|]. split; [intros z z'; by eapply longer_parent|]. intros z l. by eapply longer_keeps.
      * cbn [pl' pl_space]. eapply longer_layers; [split; [by eexists _, pl|exact T]|done|by eapply put_grows|apply (pa_new _ _ _ _ _ _ _ _ _ Pa)].
    + apply depth_place; [done|]. eapply longer_depth; [done|done|]. intros z l Cz. by eapply Hd.
  - destruct (checkout_none dr key o w d _ y _ a G F N Io Wa R Em) as (r2 & w2 & E2 & Fr & Sm). rewrite E in E2. injection E2 as <- <-.
    exists V. split; [exists (read_back y), a; split; [done|]; split; [done|]; by right|]. split; [|eapply depth_more; [done|lia]].
    by eapply same_models.
Qed.
Lemma step_names dr V mids n c d o w r w' pl : plain_path dr → good_path dr → fair o → no_faults o → in_order dr w → places_at dr w V mids → depth V n →
  runs_in w d → v_places V !! d = Some pl → names_cmd c → run_cmd dr c o w = (r, w') → ∃ V', vstep w V d c r V' ∧ (models dr w' V' ∧ files_step dr w w' V V') ∧ depth V' (S n).
Proof.
  intros P G F N Io Pl Hd R Ed Hc E. pose proof Pl as [_ Hp]. destruct (Hp _ _ Ed) as (Od & y & a & Wa & T & _ & C1 & C2 & C3 & _).
  destruct (names_fine dr c o w d _ y _ a r w' P G F N Io Wa R Hc E) as (a' & Hr & [A1 A2 A3 A4 A5]). pose proof (names_nodes _ _ _ _ _ _ Hr) as En.
  exists (put_tree V (pl_space pl) (san_tree a')). split; [|split].
  - assert (stands_for (read_back y) pl) as Sf by done. destruct c; try done; cbn [vstep]; rewrite Ed; exists (read_back y), a; (split; [done|]; split; [done|]; by exists a').
  - rewrite <-C2. eapply models_tree; [done|done|done|intros; split; [by apply A5|by rewrite A3]| | |].
    + intros q pq b Eq Tb Es. rewrite Es, C2 in Tb. assert (b = a) as -> by congruence. split; [intros i z (x & Ex & Ez); exists x; by rewrite En|]. intros i l. by apply nodes_chain_inv.
    + intros i _ _ _ _ Hi. left. exists a. rewrite C2. split; [split; [by exists d, pl|done]|]. unfold has in *. by rewrite <-En.
    + intros i Di q Hq. apply A2. rewrite elem_of_list_singleton. intros ->. apply (in_layer_not_own dr (the_space dr (sp_id (ws_space y))) (w_fs w) i _ eq_refl Hq). by left.
  - eapply depth_tree; [done|lia|]. intros i l Cl. apply (nodes_chain_inv _ _ _ _ En) in Cl. pose proof (Hd _ _ _ _ _ Ed T Cl). lia.
Qed.
Lemma step_clone dr V mids n source target d o w r w' pl : plain_path dr → good_path dr → fair o → no_faults o → new_ids dr o w → in_order dr w → places_at dr w V mids → depth V n → fits dr n →
  runs_in w d → v_places V !! UsableCmdProofs.abs_from d source = Some pl → let q := UsableCmdProofs.abs_from d (default (B ".") target) in outside dr q →
  ((∃ s, fget (w_fs w) q = Some (FLink s)) → is_Some (real_path (w_fs w) q)) →
  run_cmd dr (CClone source target) o w = (r, w') → ∃ V', vstep w V d (CClone source target) r V' ∧ (models dr w' V' ∧ files_step dr w w' V V') ∧ depth V' (S n).
Proof.
  intros P G F N Nw Io Pl Hd Fi R Ed q Oq Hq E. cbn [vstep]. change (Fs.abs_from d source) with (UsableCmdProofs.abs_from d source). change (Fs.abs_from d (default (B ".") target)) with q. rewrite Ed.
  pose proof Pl as [_ Hp]. destruct (Hp _ _ Ed) as (Od & y & a & Wa & T & [c Hc] & C1 & C2 & C3 & _).
  pose proof (holds_rooted _ _ _ (wa_tree _ _ _ _ _ _ _ Wa)) as Ro. destruct (chain_exists _ c Ro) as [ch C]; [by eapply ro_parent|]. pose proof (Hd _ _ _ _ _ Ed T C) as Hl.
  assert (fits dr (length ch)) as Fc by (by eapply fits_less). assert (stands_for (read_back y) pl) as Sf by done. cbn [run_cmd] in E.
  assert (can_replace w q ∨ blocked dr w q) as [Cr|Bl].
  { destruct (fget (w_fs w) q) as [x|] eqn:Ex.
    - destruct (is_dir_at (w_fs w) q) eqn:D.
      + destruct (children (w_fs w) q) as [|z zs] eqn:Ec.
        * destruct (filter (λ m, mn_at m = q) (w_mounts w)) as [|m l] eqn:Ef.
          -- left. right. rewrite (real_dir _ _ D). split; [by eexists|]. intros _. split.
             ++ intros z. apply eq_None_not_Some. intros Q. apply children_elem in Q. rewrite Ec in Q. by apply elem_of_nil in Q.
             ++ intros m Hm Q. assert (m ∈ filter (λ m, mn_at m = q) (w_mounts w)) as H by (by apply elem_of_list_filter). rewrite Ef in H. by apply elem_of_nil in H.
          -- right. right. left. split; [done|]. right. exists m. assert (m ∈ filter (λ m, mn_at m = q) (w_mounts w)) as [? ?]%elem_of_list_filter by (rewrite Ef; left). done.
        * right. right. left. split; [done|]. left. exists z. apply children_elem. rewrite Ec. left.
      + left. right. split; [|by rewrite D]. destruct x as [| |s|]; [..|by eapply mk_is_Some, real_not_link]; try (eapply mk_is_Some, real_not_link; [done|done]). apply Hq. by exists s.
    - destruct (is_dir_at (w_fs w) (parent_dir q)) eqn:D; [left; by left|right; by left]. }
  - destruct (clone_fine dr source target o w d _ _ y _ a c ch q P G F N Nw Io Wa R eq_refl eq_refl Oq Cr Hc C Fc) as (w2 & mid' & y' & id & a' & E2 & Ht & Pa & E1 & E3 & E4 & _ & Nh).
    rewrite E in E2. injection E2 as -> ->. destruct (op_longer _ _ _ _ _ Ro ltac:(right; right; eauto) Ht) as (i & z & L & _).
    set (pl' := Place (ws_id y') (pl_space pl) id (pl_branch pl)). exists (put_place V q pl' (san_tree a')). split; [|split].
    + exists (read_back y), a, a'. split; [done|]. split; [done|]. split; [done|]. left. split; [done|]. split; [done|]. exists pl'. split; [done|]. split; [done|]. split; [done|]. by eapply put_grows.
    + eapply (models_put _ _ _ _ mids _ _ mid' y' _ pl'); [done|done|exact Pa|done|by left|done|by rewrite E4|by rewrite E3, sanitize_idemp| | |].
      * exists z. eapply longer_head; [done|]. by eapply put_grows.
      * intros q' pq b Eq Tb Es. cbn [pl' pl_space] in Es. rewrite Es in Tb. assert (b = a) as -> by congruence. split; [done|]. split; [intros j j'; by eapply longer_parent|]. intros j l. by eapply longer_keeps.
      * cbn [pl' pl_space]. eapply longer_layers; [split; [by eexists _, pl|exact T]|done|by eapply put_grows|apply (pa_new _ _ _ _ _ _ _ _ _ Pa)].
    + apply depth_place; [done|]. eapply longer_depth; [done|done|]. intros j l Cz. by eapply Hd.
  - destruct (clone_stuck dr source target o w d _ _ y _ a c ch q P G F N Nw Io Wa R eq_refl eq_refl Oq Bl Hc C Fc) as (e & w2 & mid' & y' & id & a' & E2 & Ht & Lm & _ & E4 & _ & Nh).
    rewrite E in E2. injection E2 as -> ->. destruct (op_longer _ _ _ _ _ Ro ltac:(right; right; eauto) Ht) as (i & z & L & _). exists (put_tree V (pl_space pl) (san_tree a')). split; [|split].
    + exists (read_back y), a, a'. split; [done|]. split; [done|]. split; [done|]. right. split; [by eapply blocked_stuck|done].
    + rewrite <-C2. eapply models_tree; [done|done|apply Lm|intros; split; [rewrite <-E4; by apply Lm|by eapply left_below]| | |apply Lm].
      2: { intros j _ _ _ _ Hj. rewrite C2. destruct (longer_layers dr w V (pl_space pl) a a' i z id (conj (ex_intro _ _ (ex_intro _ pl (conj Ed eq_refl))) T) L) with (i := j) as [Q|Q]; [split; [done|apply Lm]|apply Lm|done|by left|]. right. split; [done|apply Lm]. }
      intros q' pq b Eq Tb Es. rewrite Es, C2 in Tb. assert (b = a) as -> by congruence. split; [intros j j'; by eapply longer_parent|]. intros j l. by eapply longer_keeps.
    + eapply depth_tree; [done|lia|]. eapply longer_depth; [done|done|]. intros j l Cz. by eapply Hd.
Qed.
(** Outside workspaces *)
Lemma plain_refused dr c arg d o w r w' : no_faults o → runs_in w d → plain_spot dr w (UsableCmdProofs.abs_from d arg) →
  (match c with CInit _ _ => False | CClone source _ => arg = source | _ => arg = B "." end) → run_cmd dr c o w = (r, w') → failed r ∧ same_machine w w'.
Proof.
  intros N R Hp Ha E.
  assert (∀ (A : Type) (f : ws → M A) w0 s w2, same_machine w w0 → runs_in w0 d → bind (get_workspace dr arg) f o w0 = (s, w2) → failed s ∧ same_machine w w2) as H.
  { intros A f w0 s w2 Sm R0 E0. destruct (open_plain dr arg d _ o w0 N R0 eq_refl) as (r1 & w1 & E1 & Fr & Sm1).
    - destruct Hp as [H1 H2]. split; [done|]. destruct Sm as [-> _]. done.
    - unfold bind in E0. rewrite E1 in E0. destruct Sm as [S1 S2], Sm1 as [S3 S4]. destruct r1; [by destruct (Fr a)|..]; injection E0 as <- <-; (split; [done|split; congruence]). }
  destruct c as [|source target|msg|key|opts args|opts args|args]; [done|..]; cbn [run_cmd] in E; subst arg.
  - unfold cmd_clone in E. destruct (abs_fine (default (B ".") target) _ _ _ N R) as (k & E1 & _). unfold bind at 1 in E. rewrite E1 in E. eapply H; [|by apply runs_in_upd|exact E]. done.
  - by eapply H.
  - by eapply H.
  - by eapply H.
  - by eapply H.
  - by eapply H.
Qed.
Lemma place_not_plain dr w V mids p : places_at dr w V mids → plain_spot dr w p → v_places V !! p = None.
Proof. intros [_ Hp] [_ Nl]. apply eq_None_not_Some. intros [pl E]. destruct (Hp _ _ E) as (_ & y & a & [L _ _ _ _ _] & _). by apply Nl in L. Qed.
Lemma step_any dr V mids n c d o w r w' : plain_path dr → good_path dr → fair o → no_faults o → new_ids dr o w → in_order dr w → places_at dr w V mids → depth V n → 1 ≤ n → fits dr n →
  runs_in w d → allowed dr V w d c → run_cmd dr c o w = (r, w') → ∃ V', vstep w V d c r V' ∧ (models dr w' V' ∧ files_step dr w w' V V') ∧ depth V' (S n).
Proof.
  intros P G F N Nw Io Pl Hd Hn Fi R [_ Al] E.
  assert (∀ arg, plain_spot dr w (UsableCmdProofs.abs_from d arg) → (match c with CInit _ _ => False | CClone source _ => arg = source | _ => arg = B "." end) → 
    (v_places V !! UsableCmdProofs.abs_from d arg = None → failed r → vstep w V d c r V) → ∃ V', vstep w V d c r V' ∧ (models dr w' V' ∧ files_step dr w w' V V') ∧ depth V' (S n)) as Hno.
  { intros arg Hp Ha Hv. destruct (plain_refused dr c arg d o w r w' N R Hp Ha E) as [Fr Sm]. exists V. split; [apply Hv; [by eapply place_not_plain|done]|]. split; [|eapply depth_more; [done|lia]].
    by eapply same_models. }
  assert (UsableCmdProofs.abs_from d (B ".") = d) as Edot by apply join_dot.
  destruct c as [args branch|source target|msg|key|opts args|opts args|args].
  - destruct Al as [A1 A2]. by eapply step_init.
  - destruct Al as ([[pl Es]|Np] & Oq & Hq); [by eapply step_clone|]. apply (Hno source); [done|done|]. intros Q Fr. cbn [vstep]. change (Fs.abs_from d source) with (UsableCmdProofs.abs_from d source). by rewrite Q.
  - destruct Al as [[pl Ep]|Np]; [by eapply step_commit|]. apply (Hno (B ".")); rewrite ?Edot; [done|done|]. intros Q Fr. cbn [vstep]. by rewrite Q.
  - destruct Al as [[pl Ep]|Np]; [by eapply step_checkout|]. apply (Hno (B ".")); rewrite ?Edot; [done|done|]. intros Q Fr. cbn [vstep]. by rewrite Q.
  - destruct Al as [[pl Ep]|Np]; [by eapply step_names|]. apply (Hno (B ".")); rewrite ?Edot; [done|done|]. intros Q Fr. cbn [vstep]. by rewrite Q.
  - destruct Al as [[pl Ep]|Np]; [by eapply step_names|]. apply (Hno (B ".")); rewrite ?Edot; [done|done|]. intros Q Fr. cbn [vstep]. by rewrite Q.
  - destruct Al as [[pl Ep]|Np]; [by eapply step_names|]. apply (Hno (B ".")); rewrite ?Edot; [done|done|]. intros Q Fr. cbn [vstep]. by rewrite Q.
Qed.
(** Users change what they like, but no link that is a workspace. *)
Lemma models_while dr w w1 V : models dr w V → meanwhile dr w w1 → (∀ p, is_Some (v_places V !! p) → fget (w_fs w1) p = fget (w_fs w) p) → models dr w1 V.
Proof.
  intros [Io (mids & Hi & Hp)] U Hl. split; [by eapply while_order|]. exists mids. split; [exact Hi|]. intros p pl Ep. destruct (Hp p pl Ep) as (Op & y & a & Wa & T & A1 & A2 & A3 & A4 & lows & Sk & Sc). split; [done|]. exists y, a.
  split; [eapply while_workspace; [exact Io|exact U|apply Hl; by eexists|done]|]. do 5 (split; [done|]). exists lows. split; [|done].
  destruct U as (v & (_ & Em & _) & _ & S). rewrite Em in S. apply (fewer_below _ _ (mount_dir dr (mids p))) in S. destruct Sk as [E|E]; rewrite E in S; [left; by apply sublist_nil_r|by apply sublist_one].
Qed.
Lemma models_step dr V n d c o w r w' : plain_path dr → good_path dr → models dr w V → depth V n → 1 ≤ n → fits dr n → fair o → no_faults o → new_ids dr o (enter d w) → allowed dr V w d c →
  run_cmd dr c o (enter d w) = (r, w') → ∃ V', vstep w V d c r V' ∧ (models dr w' V' ∧ files_step dr w w' V V') ∧ depth V' (S n).
Proof.
  intros P G [Io (mids & Hi & Hp)] Hd Hn Fi F N Nw [R Al] E.
  destruct (step_any dr V mids n c d o (enter d w) r w' P G F N Nw) as (V' & A & B); try done; [by apply enter_order| |by exists V'].
  split; [exact Hi|]. intros p pl Ep. destruct (Hp p pl Ep) as (Op & y & a & Wa & T). split; [done|]. exists y, a. split; [by apply enter_workspace|exact T].
Qed.
