(** * FaultProofs: what commit, checkout, clone and init do to the machine, with every fault *)
From Verif Require Import Base Uid SpecUid UidProofs Tree SpecTree TreeRefine TreeObs Dump DumpProofs Save SaveProofs Branch BranchProofs Date Ws SpecWs WsProofs
  Fs Overlay Os Layers Mounts Space Manager FsProofs OsProofs LayerProofs MountProofs SpaceProofs ManagerProofs SpecWorld SavedProofs.
From Coq Require Import Lia.
From stdpp Require Import prelude gmap.

Lemma bind_any {A C} (m : M A) (f : A → M C) o w r w' : bind m f o w = (r, w') →
  (∃ x w1, m o w = (Ok x, w1) ∧ f x o w1 = (r, w')) ∨ (∃ r1, m o w = (r1, w') ∧ failed r1 ∧ failed r).
Proof. unfold bind. destruct (m o w) as [[x|e| | |] w1] eqn:E; intros H; [left; eauto|right..]; injection H as <- <-; eexists; done. Qed.
Lemma failed_not_ok {A} (x : A) : ¬ failed (Ok x).
Proof. intros H. by apply (H x). Qed.

(** Existing files keep their content; only empty directories of new mounts, layers and spaces appear. *)
Record grows (dr : path) (w w' : world) : Prop := {
  gr_old : ∀ p x, fget (w_fs w) p = Some x → fget (w_fs w') p = Some x;
  gr_new : ∀ p, fget (w_fs w) p = None → is_Some (fget (w_fs w') p) → fget (w_fs w') p = Some (FDir false) ∧
    ((∃ i, p = mount_dir dr i) ∨ (∃ i, p = space_dir dr i) ∨ (∃ i, p = layer_dir (layers_root dr) i) ∨ (∃ i, p = diff_dir (layers_root dr) i));
  gr_wf : fs_wf (w_fs w) → fs_wf (w_fs w');
  gr_mounts : w_mounts w' = w_mounts w;
  gr_proc : same_proc w w' }.
Lemma grows_refl dr w w' : w_fs w' = w_fs w → w_mounts w' = w_mounts w → same_proc w w' → grows dr w w'.
Proof. intros E M S. constructor; rewrite ?E; try done. intros p N [x X]. congruence. Qed.
Lemma grows_trans dr w w1 w2 : grows dr w w1 → grows dr w1 w2 → grows dr w w2.
Proof.
  intros [A1 A2 A3 A4 A5] [B1 B2 B3 B4 B5]. constructor.
  - auto.
  - intros p N S. destruct (fget (w_fs w1) p) as [x|] eqn:E; [|by apply B2].
    destruct (A2 p N) as [E1 H]; [by rewrite E|]. split; [|done]. rewrite E1 in E. apply B1. congruence.
  - auto.
  - congruence.
  - destruct A5 as (? & ? & ?), B5 as (? & ? & ?). unfold same_proc. split_and!; congruence.
Qed.
Lemma mkdir_any p o w r w' : os_mkdir p o w = (r, w') →
  (w' = tick w ∧ failed r) ∨ fget (w_fs w) p = None ∧ is_dir_at (w_fs w) (parent_dir p) = true ∧ w' = set_fs (tick w) (fset (w_fs w) p (FDir false)).
Proof.
  unfold os_mkdir, sys_atomic. cbn [w_fs tick].
  destruct (mkdir_in_cases (w_fs w) p) as [[f F]|[e F]]; rewrite F.
  - apply mkdir_in_ok in F as (F1 & F2 & ->). destruct (ch_fault _) as [|? ?|[|?]]; intros [= <- <-]; first [by left|by right].
  - destruct (ch_fault _) as [|? ?|[|?]]; intros [= <- <-]; by left.
Qed.
Lemma grows_mkdir dr p o w r w' : (∃ i, p = mount_dir dr i) ∨ (∃ i, p = space_dir dr i) ∨ (∃ i, p = layer_dir (layers_root dr) i) ∨ (∃ i, p = diff_dir (layers_root dr) i) →
  os_mkdir p o w = (r, w') → grows dr w w'.
Proof.
  intros Hp H. apply mkdir_any in H as [[-> _]|(N & D & ->)]; [by apply grows_refl|].
  constructor; cbn [w_fs set_fs tick]; try done.
  - intros q x E. rewrite fget_fset. case_decide; [congruence|done].
  - intros q Nq [x X]. rewrite fget_fset in X |- *. case_decide; [subst; auto|congruence].
  - intros W. by apply wf_add.
Qed.

(** ** Calls that change nothing but the clock *)
Definition quiet {A} (m : M A) : Prop :=
  ∀ o w r w', m o w = (r, w') → ∃ k, w' = upd w (w_fs w) (w_mounts w) (w_tree w) k.
Lemma upd_same w : w = upd w (w_fs w) (w_mounts w) (w_tree w) (w_tick w).
Proof. by destruct w. Qed.
Lemma quiet_ret {A} (x : A) : quiet (ret x).
Proof. intros o w r w' [= _ <-]. eexists. apply upd_same. Qed.
Lemma quiet_fail {A} e : quiet (fail (A:=A) e).
Proof. intros o w r w' [= _ <-]. eexists. apply upd_same. Qed.
Lemma quiet_panic {A} : quiet (panic (A:=A)).
Proof. intros o w r w' [= _ <-]. eexists. apply upd_same. Qed.
Lemma quiet_lift {A} (x : res A) : quiet (lift x).
Proof. intros o w r w' [= _ <-]. eexists. apply upd_same. Qed.
Lemma quiet_gets {A} (f : world → A) : quiet (gets f).
Proof. intros o w r w' [= _ <-]. eexists. apply upd_same. Qed.
Lemma quiet_look {A} (f : world → res A) : quiet (look f).
Proof. intros o w r w' ->%look_any. by eexists. Qed.
Lemma quiet_next {A} (f : Fs.choice → A) : quiet (next_choice f).
Proof. intros o w r w' [= _ <-]. by eexists. Qed.
Lemma quiet_bind {A C} (m : M A) (f : A → M C) : quiet m → (∀ x, quiet (f x)) → quiet (bind m f).
Proof.
  intros Hm Hf o w r w' [(x & w1 & E & H)|(r1 & E & _)]%bind_any; [|by eapply Hm].
  apply Hm in E as (k & ->). apply Hf in H as (k' & ->). by exists k'.
Qed.
Lemma quiet_attempt {A} (m : M A) : quiet m → quiet (attempt m).
Proof. intros Hm o w r w'. unfold attempt. destruct (m o w) as [[x|e| | |] w1] eqn:E; intros [= _ <-]; by eapply Hm. Qed.
Ltac quiet := repeat first
  [ apply quiet_ret | apply quiet_fail | apply quiet_panic | apply quiet_lift | apply quiet_gets | apply quiet_look | apply quiet_next
  | apply quiet_bind; [|intros ?] | apply quiet_attempt | case_match ].
Lemma quiet_is_dir p : quiet (fs_is_dir p).
Proof. unfold fs_is_dir. quiet. Qed.
Lemma quiet_is_exists p : quiet (fs_is_exists p).
Proof. unfold fs_is_exists. quiet. Qed.
Lemma quiet_is_symlink p : quiet (fs_is_symlink p).
Proof. unfold fs_is_symlink. quiet. Qed.
Lemma quiet_layer_get root id : quiet (layer_get root id).
Proof. unfold layer_get. apply quiet_bind; [apply quiet_is_dir|intros []; quiet]. Qed.
Lemma quiet_collect fuel root cur : quiet (collect_layers fuel root cur).
Proof.
  revert cur. induction fuel as [|f IH]; intros [c|]; cbn [collect_layers]; quiet. apply IH.
Qed.
Lemma quiet_id_of l : quiet (id_of l).
Proof. unfold id_of. quiet. Qed.
Lemma quiet_parent_of l : quiet (Manager.parent_of l).
Proof. unfold Manager.parent_of. quiet. Qed.
Lemma quiet_search x ref : quiet (search_ws x ref).
Proof. unfold search_ws. quiet. Qed.
Lemma quiet_read_file p : quiet (os_read_file p).
Proof.
  intros o w r w'. unfold os_read_file. cbv zeta. repeat case_match; intros [= _ <-]; by eexists.
Qed.
Lemma quiet_abs s : quiet (fp_abs s).
Proof. unfold fp_abs. quiet. Qed.
Lemma quiet_readlink s : quiet (os_readlink s).
Proof. unfold os_readlink. quiet. Qed.
Lemma quiet_load_info dr mid : quiet (load_ws_info dr mid).
Proof. unfold load_ws_info. apply quiet_bind; [apply quiet_read_file|intros]. quiet. Qed.
Lemma quiet_grows {A} dr (m : M A) o w r w' : quiet m → m o w = (r, w') → grows dr w w' ∧ w_tree w' = w_tree w.
Proof. intros Q (k & ->)%Q. split; [by apply grows_refl|done]. Qed.

(** ** createMount *)
Lemma bind_next {A C} (f : Fs.choice → A) (g : A → M C) o w : bind (next_choice f) g o w = g (f (o (w_tick w))) o (tick w).
Proof. done. Qed.
Lemma bind_gets {A C} (f : world → A) (g : A → M C) o w : bind (gets f) g o w = g (f w) o w.
Proof. done. Qed.
Lemma bind_modify {C} f (g : unit → M C) o w : bind (modify f) g o w = g tt o (f w).
Proof. done. Qed.
Lemma layer_create_grows dr o w r w' : layer_create (layers_root dr) o w = (r, w') → grows dr w w' ∧ w_tree w' = w_tree w.
Proof.
  intros H. split; [|by eapply oa_tree, layer_create_any].
  unfold layer_create, new_random_uid in H. rewrite bind_next in H.
  set (id := ch_uid (o (w_tick w))) in *. apply (grows_trans dr w (tick w)); [by apply grows_refl|].
  assert (∀ o w r w', os_mkdir (layer_dir (layers_root dr) id) o w = (r, w') → grows dr w w') as M1.
  { intros. eapply grows_mkdir; [|done]. eauto. }
  assert (∀ o w r w', layer_save (layers_root dr) id o w = (r, w') → grows dr w w') as M2.
  { intros o1 v r1 v' Hs. unfold layer_save in Hs. apply bind_any in Hs as [(d & v1 & E & Hs)|(r2 & E & _)].
    - apply (quiet_grows dr) in E as [G _]; [|apply quiet_is_dir]. eapply grows_trans; [exact G|]. destruct d.
      + injection Hs as _ <-. by apply grows_refl.
      + eapply grows_mkdir; [|done]. eauto.
    - by apply (quiet_grows dr) in E as [G _]; [|apply quiet_is_dir]. }
  apply bind_any in H as [(u & w1 & E & H)|(r1 & E & _)]; [|by eapply M1].
  eapply grows_trans; [by eapply M1|].
  apply bind_any in H as [(u1 & w2 & E1 & H)|(r1 & E1 & _)]; [|by eapply M2].
  injection H as _ <-. by eapply M2.
Qed.
Lemma create_layer_any dr commit o w r w' a : fs_wf (w_fs w) → repr (w_tree w) a → layers_present (w_fs w) (layers_root dr) a →
  create_layer (layers_root dr) commit o w = (r, w') →
  grows dr w w' ∧ (failed r ∧ w_tree w' = w_tree w ∨ ∃ l, r = Ok l).
Proof.
  intros W R LP H. unfold create_layer in H. rewrite bind_gets in H.
  destruct (get (w_tree w) commit) as [b|] eqn:Gb; [|injection H as <- <-; split; [by apply grows_refl|by left]].
  apply bind_any in H as [(id & v & E & H)|(r1 & E & Fr & F)]; [|apply layer_create_grows in E as [G T]; auto].
  pose proof (layer_create_ok _ _ _ _ _ W E) as (-> & N & D & k & Ev). apply layer_create_grows in E as [G T].
  set (id := ch_uid (o (w_tick w))) in *. rewrite (repr_id _ _ _ _ R Gb) in H.
  pose proof (add_node_fresh (w_tree w) a id (Some commit) R (present_fresh _ _ _ _ LP N)) as AF.
  unfold bind at 1, make_node in H. rewrite T in H.
  destruct (alloc_node (w_tree w) (new_node id)) as [t1 l] eqn:Eal. cbn [fst snd] in AF.
  unfold bind, tree_do in H. cbn [w_tree set_tree] in H. rewrite AF, Gb in H. injection H as <- <-.
  split; [|right; eauto]. eapply grows_trans; [exact G|]. by apply grows_refl.
Qed.
(** Whatever happens, at most one layer below [commit] is added to the tree. *)
Lemma create_mount_any dr commit o w r w' a : fs_wf (w_fs w) → repr (w_tree w) a → layers_present (w_fs w) (layers_root dr) a →
  create_mount dr commit o w = (r, w') →
  grows dr w w' ∧ ∃ a', repr (w_tree w') a' ∧ (a' = a ∨ ∃ id, ¬ has a id ∧ has a commit ∧ a' = new_child a id commit).
Proof.
  intros W R LP H. unfold create_mount, new_random_uid in H. rewrite bind_next in H. set (mid := ch_uid (o (w_tick w))) in *.
  assert (grows dr w (tick w)) as G0 by (by apply grows_refl).
  apply bind_any in H as [(u & w1 & E & H)|(r1 & E & _)].
  2:{ pose proof (grows_mkdir dr (mount_dir dr mid) _ _ _ _ (or_introl (ex_intro _ mid eq_refl)) E) as G1. split; [by eapply grows_trans|]. exists a. split; [|by left].
      by apply mkdir_any in E as [[-> _]|(_ & _ & ->)]. }
  pose proof (grows_mkdir dr (mount_dir dr mid) _ _ _ _ (or_introl (ex_intro _ mid eq_refl)) E) as G1.
  assert (w_tree w1 = w_tree w) as T1 by (by apply mkdir_any in E as [[-> _]|(_ & _ & ->)]).
  pose proof (grows_trans _ _ _ _ G0 G1) as G. clear G0 G1 E.
  assert (fs_wf (w_fs w1)) as W1 by (by apply G).
  assert (layers_present (w_fs w1) (layers_root dr) a) as LP1.
  { intros x Hx. destruct (LP x Hx) as [D1 D2]. apply is_dir_at_Some in D1 as [b1 D1], D2 as [b2 D2].
    unfold is_dir_at. by rewrite (gr_old _ _ _ G _ _ D1), (gr_old _ _ _ G _ _ D2). }
  rewrite <-T1 in R. unfold space_create_mount in H.
  apply bind_any in H as [(l & w2 & E & H)|(r1 & E & Fr & _)].
  2:{ apply (create_layer_any _ _ _ _ _ _ a) in E as (G1 & [[_ T]|[l ->]]); [|by destruct (Fr l)|done..].
      split; [by eapply grows_trans|]. exists a. rewrite T. auto. }
  pose proof (create_layer_ok _ _ _ _ _ _ a W1 R LP1 E) as (Hc & Nh & N & D & t' & k & Ev & R' & _).
  apply (create_layer_any _ _ _ _ _ _ a W1 R LP1) in E as (G1 & _).
  assert (quiet (t <- gets w_tree ;; ls <- collect_layers (S (size (t_heap t))) (layers_root dr) (Some l) ;;
     m <- lift (mounts_new mid (reverse ls) (mount_dir dr mid)) ;; ret (m, l))) as Q.
  { apply quiet_bind; [quiet|intros t]. apply quiet_bind; [apply quiet_collect|intros ls]. quiet. }
  apply (quiet_grows dr _ _ _ _ _ Q) in H as [G2 T2].
  split; [by eapply grows_trans; [exact G|eapply grows_trans]|]. rewrite T2, Ev. cbn [w_tree upd].
  exists (new_child a (ch_uid (o (w_tick w1))) commit). split; [done|]. right. eauto.
Qed.

(** ** What a whole operation may touch *)
Definition space_ok (dr : path) (sp : space) : Prop := sp_dir sp = space_dir dr (sp_id sp).
(** The files an operation on space [sp] writes: the tree of the space, and the information of mounts that
    did not exist before. *)
Definition own (dr : path) (sp : space) (fs : files) (p : path) : Prop :=
  p = tree_file sp ∨ ∃ i, p = ws_file dr i ∧ fget fs (mount_dir dr i) = None.
Definition new_dir (dr : path) (p : path) : Prop :=
  (∃ i, p = mount_dir dr i) ∨ (∃ i, p = space_dir dr i) ∨ (∃ i, p = layer_dir (layers_root dr) i) ∨ (∃ i, p = diff_dir (layers_root dr) i).
(** A text as the program may leave it in the information file of mount [i]: complete, or cut short so
    that it is rejected *)
Definition info_text (i : uid) (raw : bytes) : Prop :=
  unmarshal_wsinfo raw = None ∨ ∃ x hid, raw = marshal_wsinfo (ws_info x hid) ∧ mv_id (ws_mount x) = i.
Lemma info_text_cut x hid n : info_text (mv_id (ws_mount x)) (take n (marshal_wsinfo (ws_info x hid))).
Proof.
  destruct (decide (drop n (marshal_wsinfo (ws_info x hid)) = [])) as [E|N].
  - right. exists x, hid. split; [|done]. rewrite <-(take_drop n (marshal_wsinfo _)) at 2. by rewrite E, app_nil_r.
  - left. eapply wsinfo_truncated; [|exact N]. by rewrite take_drop.
Qed.
Record touches (dr : path) (sp : space) (w w' : world) : Prop := {
  to_old : ∀ p x, fget (w_fs w) p = Some x → ¬ own dr sp (w_fs w) p → fget (w_fs w') p = Some x;
  to_new : ∀ p, fget (w_fs w) p = None → ¬ own dr sp (w_fs w) p → is_Some (fget (w_fs w') p) → fget (w_fs w') p = Some (FDir false) ∧ new_dir dr p;
  to_info : ∀ i y, fget (w_fs w') (ws_file dr i) = Some y → fget (w_fs w) (ws_file dr i) = Some y ∨ ∃ raw, y = FFile raw ∧ info_text i raw;
  to_wf : fs_wf (w_fs w) → fs_wf (w_fs w');
  to_mounts : w_mounts w' = w_mounts w;
  to_proc : same_proc w w' }.
Lemma tree_file_ne dr sp : space_ok dr sp →
  (∀ i, tree_file sp ≠ mount_dir dr i) ∧ (∀ i, tree_file sp ≠ ws_file dr i) ∧
  (∀ i, tree_file sp ≠ layer_dir (layers_root dr) i) ∧ (∀ i, tree_file sp ≠ diff_dir (layers_root dr) i) ∧ (∀ i, tree_file sp ≠ space_dir dr i).
Proof.
  intros E. unfold tree_file. rewrite E. unfold space_dir, diff_dir, layer_dir. rewrite <-!app_assoc.
  split_and!; intros i; try (apply app_cons_ne; done); try (rewrite <-app_assoc; apply app_cons_ne; done).
  intros Q. apply (f_equal length) in Q. rewrite !app_length in Q. cbn in Q. lia.
Qed.
Lemma mount_not_own dr sp fs i : space_ok dr sp → ¬ own dr sp fs (mount_dir dr i).
Proof. intros S [E|(j & E & _)]; [exact (proj1 (tree_file_ne dr sp S) i (eq_sym E))|exact (wsfile_mount_ne dr j i (eq_sym E))]. Qed.
Lemma wsfile_space_ne dr mid sid : ws_file dr mid ≠ space_dir dr sid.
Proof. unfold ws_file, space_dir. apply app_cons_ne. done. Qed.
Lemma grows_touches dr sp w w' : grows dr w w' → touches dr sp w w'.
Proof.
  intros [A1 A2 A3 A4 A5]. constructor; eauto. intros i y E. left.
  destruct (fget (w_fs w) (ws_file dr i)) as [z|] eqn:Q; [by rewrite (A1 _ _ Q) in E|].
  destruct (A2 _ Q) as [_ [[j H]|[[j H]|[[j H]|[j H]]]]]; [eauto|..]; exfalso.
  - by apply wsfile_mount_ne in H.
  - by apply wsfile_space_ne in H.
  - by apply wsfile_layer_ne in H.
  - by apply wsfile_diff_ne in H.
Qed.
Lemma touches_trans dr sp w w1 w2 : space_ok dr sp → touches dr sp w w1 → touches dr sp w1 w2 → touches dr sp w w2.
Proof.
  intros S [A1 A2 AI A3 A4 A5] [B1 B2 BI B3 B4 B5].
  assert (∀ p, own dr sp (w_fs w1) p → own dr sp (w_fs w) p) as O.
  { intros p [->|(i & -> & N)]; [by left|]. right. exists i. split; [done|].
    destruct (fget (w_fs w) (mount_dir dr i)) as [x|] eqn:E; [|done]. rewrite (A1 _ _ E) in N; [done|]. by apply mount_not_own. }
  constructor.
  - intros p x E No. apply B1; [by apply A1|]. intros O2. by apply No, O.
  - intros p N No S2. destruct (fget (w_fs w1) p) as [x|] eqn:E.
    + destruct (A2 p N No) as [E1 H]; [by rewrite E|]. split; [|done]. rewrite E1 in E. apply B1; [congruence|auto].
    + apply B2; auto.
  - intros i raw E. apply BI in E as [E|E]; auto.
  - auto.
  - congruence.
  - destruct A5 as (? & ? & ?), B5 as (? & ? & ?). unfold same_proc. split_and!; congruence.
Qed.
Lemma touches_refl dr sp w w' : w_fs w' = w_fs w → w_mounts w' = w_mounts w → same_proc w w' → touches dr sp w w'.
Proof. intros. by apply grows_touches, grows_refl. Qed.
Lemma touches_write dr sp w p d k : own dr sp (w_fs w) p → can_write (w_fs w) p → (∀ i, p = ws_file dr i → info_text i d) →
  touches dr sp w (upd w (fset (w_fs w) p (FFile d)) (w_mounts w) (w_tree w) k).
Proof.
  intros O C HI. constructor; cbn [w_fs upd]; try done.
  - intros q x E N. rewrite fget_fset_ne; [done|]. by intros ->.
  - intros q N No S. rewrite fget_fset_ne in S |- * by (by intros ->). rewrite N in S. by destruct S.
  - intros i raw. rewrite fget_fset. case_decide as Q; [intros [= <-]; eauto|auto].
  - intros W. by apply wf_write.
Qed.
(** Writing the files at the end of an operation on a mount that did not exist in world [w0] *)
Lemma finish_any dr x o w0 w r w' a : fair o → space_ok dr (ws_space x) → repr (w_tree w) a → touches dr (ws_space x) w0 w →
  fget (w_fs w0) (mount_dir dr (mv_id (ws_mount x))) = None →
  (space_save (ws_space x) ;;; save_ws_info dr x ;;; ret x) o w = (r, w') →
  touches dr (ws_space x) w0 w' ∧ w_tree w' = w_tree w ∧ (∀ p, is_dir_at (w_fs w) p = true → is_dir_at (w_fs w') p = true) ∧
  (fget (w_fs w') (tree_file (ws_space x)) = fget (w_fs w) (tree_file (ws_space x)) ∧ failed r ∨
   holds (w_fs w') (ws_space x) (san_tree a) ∨ holds_torn (w_fs w') (ws_space x) ∧ failed r ∧ ¬ whole o).
Proof.
  intros F S R T N0 H.
  assert (own dr (ws_space x) (w_fs w0) (tree_file (ws_space x))) as O1 by (by left).
  assert (own dr (ws_space x) (w_fs w0) (ws_file dr (mv_id (ws_mount x)))) as O2 by (right; eauto).
  set (J := λ v, touches dr (ws_space x) w0 v ∧ w_tree v = w_tree w ∧ ∀ p, is_dir_at (w_fs w) p = true → is_dir_at (w_fs v) p = true).
  assert (∀ v k, J v → J (upd v (w_fs v) (w_mounts v) (w_tree v) k)) as TQ.
  { intros v k ([A1 A2 AI A3 A4 A5] & Ht & Hd). split; [|done]. by constructor. }
  assert (∀ v p d k, J v → own dr (ws_space x) (w_fs w0) p → (∀ i, p = ws_file dr i → info_text i d) → can_write (w_fs v) p →
     J (upd v (fset (w_fs v) p (FFile d)) (w_mounts v) (w_tree v) k)) as TW.
  { clear -S. intros v p d k ([A1 A2 AI A3 A4 A5] & Ht & Hd) O HI C. split.
    - constructor; cbn [w_fs upd]; try done.
      + intros q y E N. rewrite fget_fset_ne; [auto|]. by intros ->.
      + intros q N No Sq. rewrite fget_fset_ne in Sq |- * by (by intros ->). auto.
      + intros i raw. rewrite fget_fset. case_decide as Q; [intros [= <-]; eauto|auto].
      + intros W. apply wf_write; auto.
    - split; [done|]. intros q Hq. cbn [w_fs upd]. apply is_dir_write; [auto|by apply can_write_not_dir]. }
  assert (J w) as Jw by done.
  assert (∀ d i, tree_file (ws_space x) = ws_file dr i → info_text i d) as I1.
  { intros d i Q. destruct (tree_file_ne dr _ S) as (_ & Q2 & _). by destruct (Q2 i). }
  apply bind_any in H as [(u & w1 & E & H)|(r1 & E & Fr1 & Fr)].
  2:{ apply (space_save_any _ _ _ _ _ _ F R) in E as (f & k & -> & [[-> _]|(C & raw & -> & HD)]).
      - destruct (TQ w k Jw) as (J1 & J2 & J3). split; [done|]. split; [done|]. split; [done|]. by left.
      - destruct (TW w _ raw k Jw O1 (I1 _) C) as (J1 & J2 & J3). split; [done|]. split; [done|]. split; [done|].
        right. cbn [w_fs upd]. unfold holds, holds_torn. rewrite fget_fset_eq.
        destruct HD as [HD|(HD & _ & Hw)]; [left|right]; eauto. }
  apply (space_save_any _ _ _ _ _ _ F R) in E as (f & k & -> & [[-> Fu]|(C & raw & -> & [HD|(HD & Fu & _)])]); try by destruct (Fu u).
  pose proof (TW w _ raw k Jw O1 (I1 _) C) as T1. set (w1 := upd w _ _ _ k) in *.
  assert (fget (w_fs w1) (tree_file (ws_space x)) = Some (FFile raw)) as Hraw by (unfold w1; cbn [w_fs upd]; by rewrite fget_fset_eq).
  assert (∀ v r2, save_ws_info dr x o w1 = (r2, v) → J v ∧ fget (w_fs v) (tree_file (ws_space x)) = Some (FFile raw)) as SI.
  { intros v r2 E. unfold save_ws_info in E. apply bind_any in E as [(h & v1 & E1 & E)|(r3 & E1 & _)].
    - apply quiet_id_of in E1 as (k1 & ->). apply write_any in E as (f & -> & [[-> _]|(C2 & n & -> & _)]).
      + rewrite upd_upd. split; [exact (TQ w1 _ T1)|done].
      + rewrite upd_upd. split; [refine (TW w1 _ _ _ T1 O2 _ C2); intros i Q; apply wsfile_inj in Q as <-; apply info_text_cut|]. cbn [w_fs upd].
        rewrite fget_fset_ne; [done|]. intros Q. destruct (tree_file_ne dr _ S) as (_ & Q2 & _). exact (Q2 _ (eq_sym Q)).
    - apply quiet_id_of in E1 as (k1 & ->). split; [exact (TQ w1 _ T1)|done]. }
  assert (∃ r2, save_ws_info dr x o w1 = (r2, w')) as [r2 E2].
  { apply bind_any in H as [(h & v1 & E1 & H)|(r3 & E1 & _)]; [|eauto]. injection H as _ <-. eauto. }
  apply SI in E2 as ((J1 & J2 & J3) & Ef). split; [done|]. split; [done|]. split; [done|]. right. left. exists raw. done.
Qed.
Lemma layer_not_own dr sp fs i : space_ok dr sp → ¬ own dr sp fs (layer_dir (layers_root dr) i) ∧ ¬ own dr sp fs (diff_dir (layers_root dr) i).
Proof.
  intros S. destruct (tree_file_ne dr sp S) as (_ & _ & N1 & N2 & _).
  split; intros [E|(j & E & _)].
  - exact (N1 _ (eq_sym E)).
  - exact (wsfile_layer_ne dr j i (eq_sym E)).
  - exact (N2 _ (eq_sym E)).
  - exact (wsfile_diff_ne dr j i (eq_sym E)).
Qed.
Lemma touches_present dr sp w w' a : space_ok dr sp → touches dr sp w w' → layers_present (w_fs w) (layers_root dr) a →
  layers_present (w_fs w') (layers_root dr) a.
Proof.
  intros S T LP x Hx. destruct (LP x Hx) as [D1 D2]. apply is_dir_at_Some in D1 as [b1 D1], D2 as [b2 D2].
  destruct (layer_not_own dr sp (w_fs w) x S) as [N1 N2].
  unfold is_dir_at. by rewrite (to_old _ _ _ _ T _ _ D1 N1), (to_old _ _ _ _ T _ _ D2 N2).
Qed.
Lemma touches_tree_file dr sp w w' : space_ok dr sp → grows dr w w' → fget (w_fs w') (tree_file sp) = fget (w_fs w) (tree_file sp).
Proof.
  intros S G. destruct (fget (w_fs w) (tree_file sp)) as [x|] eqn:E; [by apply G|].
  apply eq_None_not_Some. intros H. destruct (tree_file_ne dr sp S) as (N1 & N2 & N3 & N4 & N5).
  destruct (gr_new _ _ _ G _ E H) as [_ [[i Q]|[[i Q]|[[i Q]|[i Q]]]]]; first [exact (N1 _ Q)|exact (N3 _ Q)|exact (N4 _ Q)|exact (N5 _ Q)].
Qed.

(** ** Commit *)
(** The tree after a commit: the working layer [hid] carries the message, has a new child, and the branch
    of the workspace moves to it. *)
Definition commit_result (a : atree) (x : ws) (an : anode) (hid id : uid) (date : option bytes) (msg : bytes) (a' : atree) : Prop :=
  ws_branch x = [] ∧ a' = commit_tree a an hid id date msg ∨
  ws_branch x ≠ [] ∧ a' = move_branch (commit_tree a an hid id date msg) (local_full x (ws_branch x)) hid ∧
    ∃ h, a_branches a !! local_full x (ws_branch x) = Some h ∧ ancestor_or_self a h hid.
Record op_done (dr : path) (sp : space) (w w' : world) (fail cut : Prop) (new : atree → Prop) : Prop := {
  od_touches : touches dr sp w w';
  od_disk : fget (w_fs w') (tree_file sp) = fget (w_fs w) (tree_file sp) ∧ fail ∨
    ∃ a', new a' ∧ repr (w_tree w') a' ∧ layers_present (w_fs w') (layers_root dr) a' ∧
      (holds (w_fs w') sp (san_tree a') ∨ holds_torn (w_fs w') sp ∧ fail ∧ cut) }.
Lemma op_fails dr sp w w' (fail cut : Prop) new : space_ok dr sp → grows dr w w' → fail → op_done dr sp w w' fail cut new.
Proof. intros S G F. constructor; [by apply grows_touches|]. left. split; [|done]. by apply (touches_tree_file dr). Qed.
Lemma op_ends dr x o w0 w r w' a (new : atree → Prop) : fair o → space_ok dr (ws_space x) → repr (w_tree w) a →
  grows dr w0 w → layers_present (w_fs w) (layers_root dr) a → new a →
  fget (w_fs w0) (mount_dir dr (mv_id (ws_mount x))) = None →
  (space_save (ws_space x) ;;; save_ws_info dr x ;;; ret x) o w = (r, w') → op_done dr (ws_space x) w0 w' (failed r) (¬ whole o) new.
Proof.
  intros F S R G LP Hn N H. apply (finish_any dr x o w0 w r w' a) in H; [|by auto using grows_touches..].
  destruct H as (T & E & Hd & D). constructor; [done|].
  destruct D as [[D Fr]|D].
  - left. split; [|done]. rewrite D. by apply (touches_tree_file dr).
  - right. exists a. rewrite E. split; [done|]. split; [done|]. split; [|destruct D as [D|[D Fr]]; auto].
    intros z Hz. destruct (LP z Hz). auto.
Qed.
Lemma commit_ws_any dr x date msg o w r w' a hid : fair o → space_ok dr (ws_space x) → fs_wf (w_fs w) → repr (w_tree w) a →
  layers_present (w_fs w) (layers_root dr) a → get (w_tree w) hid = Some (ws_head x) → commit_ws dr x date msg o w = (r, w') →
  op_done dr (ws_space x) w w' (failed r) (¬ whole o) (λ a', ∃ an id, a_nodes a !! hid = Some an ∧ ¬ has a id ∧ fget (w_fs w) (layer_dir (layers_root dr) id) = None ∧ commit_result a x an hid id date msg a').
Proof.
  intros F S W R LP G H. unfold commit_ws in H.
  destruct (get_Some' _ _ _ _ R G) as (an & n & Ea & Nn).
  pose proof (set_to_node_repr (w_tree w) a hid an (ws_head x) date msg R G Ea) as R1.
  rewrite bind_modify in H. set (t1 := set_to_node (w_tree w) (ws_head x) date msg) in *. set (a1 := put_node a hid (dated an date msg)) in *.
  assert (get t1 hid = Some (ws_head x)) as G1 by (unfold t1; rewrite set_to_node_eq; exact G).
  assert (grows dr w (set_tree w t1)) as GR by (by apply grows_refl).
  apply bind_any in H as [(hid' & w1 & E & H)|(r1 & E & _ & Fr)].
  2:{ apply (quiet_grows dr) in E as [GR1 _]; [|apply quiet_id_of]. apply op_fails; [done|by eapply grows_trans|done]. }
  apply id_of_ok in E as (-> & c & [= <-] & E). cbn [w_tree set_tree] in E. apply (node_id_get _ _ _ _ _ R1 G1) in E as ->.
  assert (layers_present (w_fs w) (layers_root dr) a1) as LP1.
  { intros z Hz. apply LP. by apply (put_has' a hid an (dated an date msg)). }
  apply bind_any in H as [([m l] & w1 & E & H)|(r1 & E & _ & Fr)].
  2:{ apply (create_mount_any _ _ _ (set_tree w t1) _ _ a1) in E as [GR1 _]; [|done..]. apply op_fails; [done|by eapply grows_trans|done]. }
  pose proof (create_mount_any _ _ _ (set_tree w t1) _ _ a1 W R1 LP1 E) as [GR1 _].
  apply (create_mount_ok _ _ _ (set_tree w t1) _ _ _ a1) in E; [|done|exact R1|exact LP1]. cbn [w_tick w_fs w_mounts w_tree set_tree] in E.
  destruct E as (Hc & Nh & N & D & N1 & D1 & (ch & C & ->) & t2 & k & -> & R2 & G2 & Gm & Np).
  set (mid := ch_uid (o (w_tick w))) in *. set (id := ch_uid (o (Datatypes.S (Datatypes.S (w_tick w))))) in *.
  assert (¬ has a id) as Nh' by (intros Hx; apply Nh; by apply (put_has' a hid an)).
  pose proof (grows_trans _ _ _ _ GR GR1) as GR2. clear GR GR1.
  pose proof (mount_files_present (w_fs w) dr mid id a1 hid LP1) as LP2. fold (commit_tree a an hid id date msg) in LP2, R2.
  cbn [snd fst] in H.
  apply bind_any in H as [(u & w1 & E & H)|(r1 & E & _ & Fr)].
  2:{ apply op_fails; [done| |done]. eapply grows_trans; [exact GR2|]. clear -E. case_decide; [injection E as _ <-; by apply grows_refl|].
      assert (∀ f r w1 w2, tree_do f o w1 = (r, w2) → grows dr w1 w2) as TD.
      { intros f r2 w1 w2. unfold tree_do. destruct (f (w_tree w1)); intros [= _ <-]; by apply grows_refl. }
      apply bind_any in E as [(? & ? & E1 & E)|(? & E1 & _)]; [|by apply (quiet_grows dr) in E1 as [? _]; [|apply quiet_parent_of]].
      apply (quiet_grows dr) in E1 as [G1 _]; [|apply quiet_parent_of]. eapply grows_trans; [exact G1|].
      apply bind_any in E as [(? & ? & E1 & E)|(? & E1 & _)]; [|by apply (quiet_grows dr) in E1 as [? _]; [|apply quiet_id_of]].
      apply (quiet_grows dr) in E1 as [G2 _]; [|apply quiet_id_of]. eapply grows_trans; [exact G2|]. by eapply TD. }
  assert (∃ t3 a3, w1 = upd w (mount_files (w_fs w) dr mid id) (w_mounts w) t3 k ∧ repr t3 a3 ∧ layers_present (mount_files (w_fs w) dr mid id) (layers_root dr) a3 ∧
     commit_result a x an hid id date msg a3) as (t3 & a3 & -> & R3 & LP3 & Hb).
  { destruct (decide (br_name (ws_current x) = [])) as [Eb|Nb].
    - injection E as _ <-. exists t2, (commit_tree a an hid id date msg). split; [done|]. split; [done|]. split; [done|]. left. done.
    - apply bind_ok in E as (pl & w2 & E1 & E). apply parent_of_ok in E1 as (-> & ->).
      apply bind_ok in E as (pid & w2 & E1 & E). apply id_of_ok in E1 as (-> & c & Ec & E1).
      cbn [w_tree upd] in Ec, E1. rewrite Np in Ec. apply (node_id_get _ _ _ _ _ R2 Ec) in E1 as ->.
      apply tree_do_ok in E as (t3 & E & ->). cbn [w_tree upd] in E.
      apply (update_branch_repr _ _ _ _ _ _ R2) in E as (_ & (h & Eh & Hh) & R3 & (_ & Sg & _)).
      exists t3, (move_branch (commit_tree a an hid id date msg) (local_full x (ws_branch x)) hid).
      split; [done|]. split; [exact R3|]. split; [done|]. right. split; [done|]. split; [done|].
      exists h. cbn in Eh. split; [done|]. destruct Hh as [?|Hh]; [done|].
      apply (new_child_anc a1 id hid h hid Nh (r_ok _ _ R1) Hc) in Hh. by apply (put_anc a hid an) in Hh. }
  apply (op_ends dr (WS _ _ _ _ _ _) o w _ _ _ a3 (λ a', ∃ an id, a_nodes a !! hid = Some an ∧ ¬ has a id ∧ fget (w_fs w) (layer_dir (layers_root dr) id) = None ∧ commit_result a x an hid id date msg a')) in H; try done.
  - eapply grows_trans; [exact GR2|]. by apply grows_refl.
  - exists an, id. done.
Qed.
Lemma checkout_ws_any dr x key o w r w' a hid : fair o → space_ok dr (ws_space x) → fs_wf (w_fs w) → repr (w_tree w) a →
  layers_present (w_fs w) (layers_root dr) a → get (w_tree w) hid = Some (ws_head x) → checkout_ws dr x key o w = (r, w') →
  op_done dr (ws_space x) w w' (failed r) (¬ whole o) (λ a', ∃ id c, found_id (resolve a (ws_id x) hid key) = Some c ∧ ¬ has a id ∧ fget (w_fs w) (layer_dir (layers_root dr) id) = None ∧ a' = new_child a id c).
Proof.
  intros F S W R LP G H. unfold checkout_ws in H.
  apply bind_any in H as [(f & w1 & E & H)|(r1 & E & _ & Fr)].
  2:{ apply (quiet_grows dr) in E as [GR1 _]; [|apply quiet_search]. by apply op_fails. }
  apply search_ws_any in E as [-> E]. symmetry in E. destruct f as [[l ty]|]; [|injection H as <- <-; apply op_fails; [done|by apply grows_refl|done]].
  apply bind_any in H as [(nid & w1 & E1 & H)|(r1 & E1 & _ & Fr)].
  2:{ apply (quiet_grows dr) in E1 as [GR1 _]; [|apply quiet_id_of]. by apply op_fails. }
  apply id_of_ok in E1 as (-> & lc & -> & E1).
  destruct (ws_search_resolve _ _ _ _ _ _ _ _ R G E) as (c & Gc & Ec & Hc & Hr). rewrite Ec in E1. injection E1 as <-.
  apply bind_any in H as [([m l] & w1 & E1 & H)|(r1 & E1 & _ & Fr)].
  2:{ apply (create_mount_any _ _ _ w _ _ a) in E1 as [GR1 _]; [|done..]. by apply op_fails. }
  pose proof (create_mount_any _ _ _ w _ _ a W R LP E1) as [GR1 _].
  apply (create_mount_ok _ _ _ w _ _ _ a) in E1; [|done..].
  destruct E1 as (_ & Nh & N & D & N1 & D1 & (ch & C & ->) & t2 & k & -> & R2 & G2 & Gm & Np).
  set (mid := ch_uid (o (w_tick w))) in *. set (id := ch_uid (o (Datatypes.S (Datatypes.S (w_tick w))))) in *. cbn [fst snd] in H.
  apply (op_ends dr (WS _ _ _ _ _ _) o w _ _ _ (new_child a id c)
    (λ a', ∃ id c, found_id (resolve a (ws_id x) hid key) = Some c ∧ ¬ has a id ∧ fget (w_fs w) (layer_dir (layers_root dr) id) = None ∧ a' = new_child a id c)) in H; try done.
  - by apply mount_files_present.
  - exists id, c. split; [rewrite Hr; by destruct ty|done].
Qed.
Lemma clone_ws_any dr x target o w r w' a hid : fair o → space_ok dr (ws_space x) → fs_wf (w_fs w) → repr (w_tree w) a →
  layers_present (w_fs w) (layers_root dr) a → get (w_tree w) hid = Some (ws_head x) → clone_ws dr x target o w = (r, w') →
  op_done dr (ws_space x) w w' (failed r) (¬ whole o) (λ a', ∃ id c, SpecTree.parent_of a hid c ∧ ¬ has a id ∧ fget (w_fs w) (layer_dir (layers_root dr) id) = None ∧ a' = new_child a id c).
Proof.
  intros F S W R LP G H. unfold clone_ws in H.
  apply bind_any in H as [(pl & w1 & E & H)|(r1 & E & _ & Fr)].
  2:{ apply (quiet_grows dr) in E as [GR1 _]; [|apply quiet_parent_of]. by apply op_fails. }
  apply parent_of_ok in E as (-> & ->). destruct (get_Some' _ _ _ _ R G) as (an & n & Ea & Nn). rewrite (node_is_parent _ _ _ _ _ _ Nn) in H.
  apply bind_any in H as [(c & w1 & E1 & H)|(r1 & E1 & _ & Fr)].
  2:{ apply (quiet_grows dr) in E1 as [GR1 _]; [|apply quiet_id_of]. by apply op_fails. }
  apply id_of_ok in E1 as (-> & lc & Elc & E1).
  destruct (an_parent an) as [c'|] eqn:Ep; [|done]. cbn in Elc. pose proof (node_id_get _ _ _ _ _ R Elc E1) as ->.
  apply bind_any in H as [([m l] & w1 & E & H)|(r1 & E & _ & Fr)].
  2:{ apply (create_mount_any _ _ _ w _ _ a) in E as [GR1 _]; [|done..]. by apply op_fails. }
  pose proof (create_mount_any _ _ _ w _ _ a W R LP E) as [GR1 _].
  apply (create_mount_ok _ _ _ w _ _ _ a) in E; [|done..].
  destruct E as (_ & Nh & N & D & N1 & D1 & (ch & C & ->) & t2 & k & -> & R2 & G2 & Gm & Np).
  set (mid := ch_uid (o (w_tick w))) in *. set (id := ch_uid (o (Datatypes.S (Datatypes.S (w_tick w))))) in *. cbn [fst snd] in H.
  unfold new_random_uid in H. rewrite bind_next in H.
  apply (op_ends dr (WS _ _ _ _ _ _) o w _ _ _ (new_child a id c')
    (λ a', ∃ id c, SpecTree.parent_of a hid c ∧ ¬ has a id ∧ fget (w_fs w) (layer_dir (layers_root dr) id) = None ∧ a' = new_child a id c)) in H; try done.
  - eapply grows_trans; [exact GR1|]. by apply grows_refl.
  - by apply mount_files_present.
  - exists id, c'. split; [by exists an|done].
Qed.

(** ** Init *)
Definition init_tree (rid id wid : uid) (branch : bytes) : atree :=
  move_branch (new_child (root_tree rid) id rid) (uid_b32 wid ++ B "/" ++ branch) rid.
Lemma set_tree_grows dr w t : grows dr w (set_tree w t).
Proof. by apply grows_refl. Qed.
Lemma tree_do_grows dr f o w r w' : tree_do f o w = (r, w') → grows dr w w'.
Proof. unfold tree_do. destruct (f (w_tree w)); intros [= _ <-]; by apply grows_refl. Qed.
Lemma create_space_any dr o w r w' : create_space dr o w = (r, w') → grows dr w w'.
Proof.
  intros E. unfold create_space, new_random_uid in E. rewrite bind_next in E. set (sid := ch_uid (o (w_tick w))) in *.
  assert (grows dr w (tick w)) as G0 by (by apply grows_refl). eapply grows_trans; [exact G0|].
  apply bind_any in E as [(u & v & E1 & E)|(r2 & E1 & _)]; [|eapply grows_mkdir; [|exact E1]; eauto].
  eapply grows_trans; [eapply grows_mkdir; [|exact E1]; eauto|].
  assert (∀ r v', space_init (layers_root dr) o v = (r, v') → grows dr v v') as SI.
  { clear E. intros r1 v' E2. unfold space_init in E2. rewrite bind_modify in E2. eapply grows_trans; [apply set_tree_grows|].
    apply bind_any in E2 as [(u2 & v2 & E2 & E3)|(r3 & E2 & _)]; [|by apply layer_create_grows in E2 as [? _]].
    apply layer_create_grows in E2 as [G1 _]. eapply grows_trans; [exact G1|].
    apply bind_any in E3 as [(u3 & v3 & E2 & E3)|(r4 & E2 & Fl & _)].
    2:{ unfold make_node in E2. destruct (alloc_node _ _) as [t l]. injection E2 as <- _. by destruct (Fl l). }
    assert (grows dr v2 v3) as G2 by (unfold make_node in E2; injection E2 as _ <-; apply set_tree_grows).
    eapply grows_trans; [exact G2|].
    apply bind_any in E3 as [(u4 & v4 & E2' & E3)|(r4 & E2' & _)]; [|by eapply tree_do_grows].
    apply (tree_do_grows dr) in E2', E3. by eapply grows_trans. }
  apply bind_any in E as [(u1 & v1 & E2 & E)|(r2 & E2 & _)]; [|by eapply SI].
  injection E as _ <-. by eapply SI.
Qed.
Lemma create_space_ok dr o w sp w' : fs_wf (w_fs w) → create_space dr o w = (Ok sp, w') →
  let sid := ch_uid (o (w_tick w)) in
  let rid := ch_uid (o (Datatypes.S (Datatypes.S (w_tick w)))) in
  sp = Space sid (space_dir dr sid) ∧ fget (w_fs w) (space_dir dr sid) = None ∧ fs_wf (w_fs w') ∧
  repr (w_tree w') (root_tree rid) ∧ root (w_tree w') = get (w_tree w') rid ∧ layers_present (w_fs w') (layers_root dr) (root_tree rid).
Proof.
  intros W E. cbv zeta. unfold create_space in E. apply bind_ok in E as (sid & w2 & E1 & E). injection E1 as <- <-.
  set (sid := ch_uid (o (w_tick w))) in *.
  apply bind_ok in E as (u & w2 & E1 & E). apply mkdir_ok in E1 as (N0 & D0 & ->). cbn [w_fs tick] in N0, D0. rewrite parent_space in D0.
  assert (fs_wf (fset (w_fs w) (space_dir dr sid) (FDir false))) as W1 by (apply wf_add; [done|done|by rewrite parent_space]).
  apply bind_ok in E as (u1 & w2 & E1 & E). injection E as <- <-.
  apply space_init_ok in E1; [|done]. cbn [w_tick w_fs w_mounts w_tree tick set_fs] in E1.
  destruct E1 as (N1 & D1 & t1 & k1 & -> & R1 & Rt1). split; [done|]. split; [done|]. cbn [w_fs w_tree upd].
  split; [by apply with_layer_wf|]. split; [done|]. split; [done|].
  intros z ->%root_tree_has. unfold is_dir_at. rewrite !with_layer_get, !decide_True by auto. done.
Qed.
Lemma create_workspace_any dr p branch o w r w' : fair o → fs_wf (w_fs w) → create_workspace dr p branch o w = (r, w') →
  let sp := Space (ch_uid (o (w_tick w))) (space_dir dr (ch_uid (o (w_tick w)))) in
  op_done dr sp w w' (failed r) (¬ whole o) (λ a', fget (w_fs w) (sp_dir sp) = None ∧ ∃ rid id wid, rid ≠ id ∧ a' = init_tree rid id wid branch).
Proof.
  intros F W H. set (sid := ch_uid (o (w_tick w))) in *. set (sp := Space sid (space_dir dr sid)). cbv zeta.
  assert (space_ok dr sp) as S by done. unfold create_workspace in H.
  apply bind_any in H as [(sp0 & w1 & E & H)|(r1 & E & Fr1 & Fr)]; [|apply op_fails; [done|by eapply create_space_any|done]].
  pose proof (create_space_ok _ _ _ _ _ W E) as (-> & N0 & W1 & R1 & Rt1 & LP1). fold sid in H. fold sp in H.
  set (rid := ch_uid (o (Datatypes.S (Datatypes.S (w_tick w))))) in *. pose proof (create_space_any _ _ _ _ _ E) as G1. clear E.
  rewrite bind_gets in H.
  apply bind_any in H as [(rid' & w2 & E & H)|(r1 & E & Fr1 & Fr)].
  2:{ apply (quiet_grows dr) in E as [G2 _]; [|apply quiet_id_of]. apply op_fails; [done|by eapply grows_trans|done]. }
  apply id_of_ok in E as (-> & rl & Erl & E). rewrite Rt1 in Erl. apply (node_id_get _ _ _ _ _ R1 Erl) in E as ->.
  apply bind_any in H as [([m l] & w2 & E & H)|(r1 & E & Fr1 & Fr)].
  2:{ apply (create_mount_any _ _ _ _ _ _ (root_tree rid)) in E as [G2 _]; [|done..]. apply op_fails; [done|by eapply grows_trans|done]. }
  pose proof (create_mount_any _ _ _ _ _ _ (root_tree rid) W1 R1 LP1 E) as [G2 _].
  apply (create_mount_ok _ _ _ _ _ _ _ (root_tree rid)) in E; [|done..].
  destruct E as (_ & Nh & N2 & D2 & N3 & D3 & (ch & C & ->) & t2 & k2 & -> & R2 & Gt2 & Gm & Np).
  pose proof (grows_trans _ _ _ _ G1 G2) as G. clear G2.
  pose proof (mount_files_present (w_fs w1) dr (ch_uid (o (w_tick w1))) (ch_uid (o (Datatypes.S (Datatypes.S (w_tick w1))))) _ rid LP1) as LP2.
  set (mid := ch_uid (o (w_tick w1))) in *. set (id := ch_uid (o (Datatypes.S (Datatypes.S (w_tick w1))))) in *.
  assert (fget (w_fs w) (mount_dir dr mid) = None) as N3'.
  { destruct (fget (w_fs w) (mount_dir dr mid)) eqn:Q; [|done]. rewrite (gr_old _ _ _ G1 _ _ Q) in N3. done. }
  cbn [fst snd] in H. unfold new_random_uid in H. rewrite bind_next in H. set (wid := ch_uid (o (w_tick (upd _ _ _ _ _)))) in *.
  set (w2 := tick _) in *. assert (grows dr w w2) as Gw2 by (eapply grows_trans; [exact G|]; by apply grows_refl).
  apply bind_any in H as [(pl & w3 & E & H)|(r1 & E & Fr1 & Fr)].
  2:{ apply (quiet_grows dr) in E as [G2 _]; [|apply quiet_parent_of]. apply op_fails; [done|by eapply grows_trans|done]. }
  apply parent_of_ok in E as (-> & ->). unfold w2 in H at 1. cbn [w_tree upd tick] in H. rewrite Np in H.
  apply bind_any in H as [(pid & w3 & E & H)|(r1 & E & Fr1 & Fr)].
  2:{ apply (quiet_grows dr) in E as [G2 _]; [|apply quiet_id_of]. apply op_fails; [done|by eapply grows_trans|done]. }
  apply id_of_ok in E as (-> & rl2 & Erl2 & E). unfold w2 in E. cbn [w_tree upd tick] in E. apply (node_id_get _ _ _ _ _ R2 Erl2) in E as ->.
  apply bind_any in H as [(u & w3 & E & H)|(r1 & E & Fr1 & Fr)].
  2:{ apply (tree_do_grows dr) in E. apply op_fails; [done|by eapply grows_trans|done]. }
  apply tree_do_ok in E as (t3 & E & ->). unfold w2 in E. cbn [w_tree upd tick] in E.
  apply (add_branch_repr _ _ _ _ _ R2) in E as (_ & R3 & _).
  apply (op_ends dr (WS _ _ _ _ _ _) o w _ _ _ (init_tree rid id wid branch)
    (λ a', fget (w_fs w) (space_dir dr sid) = None ∧ ∃ rid id wid, rid ≠ id ∧ a' = init_tree rid id wid branch)) in H; try done.
  - eapply grows_trans; [exact Gw2|]. by apply grows_refl.
  - split; [done|]. exists rid, id, wid. split; [|done]. intros Ee. apply Nh, root_tree_has. done.
Qed.
