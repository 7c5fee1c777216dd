(** * DeepProofs: where paths lead *)
From Verif Require Import Base Uid SpecUid UidProofs Tree SpecTree TreeRefine TreeObs Dump DumpProofs Json JsonProofs Save SaveProofs Branch BranchProofs Date DateProofs Ws SpecWs WsProofs
  Fs Overlay Edits Os Layers Mounts Space Manager Commands Sample FsProofs OsProofs LayerProofs MountProofs SpaceProofs ManagerProofs SpecWorld SpecOps SavedProofs FaultProofs ReadyProofs OpProofs CalmProofs
  SpecMachine SpecCmds SpecTidy SpecLog MachineProofs OpenProofs CmdProofs DetProofs DatedProofs Story StoryProofs SpecUsable SpecNames UsableProofs UsableCmdProofs SpecSerial SerialProofs Deep SpecDeep.
From Coq Require Import Lia.
From stdpp Require Import prelude gmap.

(** ** Mounts *)
Lemma over_none ms q : clear_of ms q → mount_over ms q = None.
Proof.
  induction ms as [|m ms IH]; intros C; [done|]. cbn [mount_over]. rewrite IH by (intros m' H; apply C; by right). by rewrite (C m) by left.
Qed.
Lemma over_in ms q m : mount_over ms q = Some m → m ∈ ms ∧ is_prefix (mn_at m) q = true.
Proof.
  revert m. induction ms as [|m1 ms IH]; intros m; cbn [mount_over]; [done|]. destruct (mount_over ms q) as [m'|].
  - destruct (is_prefix (mn_at m1) q) eqn:P; cbn [andb].
    + destruct (_ <=? _); intros [= <-]; [split; [by left|done]|]. destruct (IH _ eq_refl). split; [by right|done].
    + intros [= <-]. destruct (IH _ eq_refl). split; [by right|done].
  - destruct (is_prefix (mn_at m1) q) eqn:P; [|done]. intros [= <-]. split; [by left|done].
Qed.
Lemma over_some ms q m : m ∈ ms → is_prefix (mn_at m) q = true → ∃ m', mount_over ms q = Some m' ∧ length (mn_at m) ≤ length (mn_at m').
Proof.
  induction ms as [|m1 ms IH]; intros H P; [by apply elem_of_nil in H|]. cbn [mount_over]. apply elem_of_cons in H as [<-|H].
  - rewrite P. cbn [andb]. destruct (mount_over ms q) as [m'|]; [|eauto]. destruct (Nat.leb_spec (length (mn_at m')) (length (mn_at m))); eexists; (split; [done|lia]).
  - destruct (IH H P) as (m' & -> & L). destruct (is_prefix (mn_at m1) q); cbn [andb]; [|eauto]. destruct (Nat.leb_spec (length (mn_at m')) (length (mn_at m1))); eexists; (split; [done|lia]).
Qed.
Lemma clear_take ms q n : clear_of ms q → clear_of ms (take n q).
Proof.
  intros C m H. destruct (is_prefix (mn_at m) (take n q)) eqn:P; [|done]. rewrite <-(C m H). symmetry. eapply is_prefix_trans; [exact P|].
  apply is_prefix_spec. exists (drop n q). by rewrite take_drop.
Qed.
Lemma obj_clear w q : clear_of (w_mounts w) q → obj_at w q = fget (w_fs w) q.
Proof. intros C. unfold obj_at. by rewrite over_none. Qed.
Lemma usual_clear w t n : usual_dir w t → n < length t → clear_of (w_mounts w) (take n t).
Proof.
  intros (_ & _ & U) L m H. destruct (is_prefix (mn_at m) (take n t)) eqn:P; [|done]. exfalso.
  assert (is_prefix (mn_at m) t = true) as P2. { eapply is_prefix_trans; [exact P|]. apply is_prefix_spec. exists (drop n t). by rewrite take_drop. }
  apply (U m H) in P2. apply is_prefix_spec in P as [k E]. apply (f_equal length) in E. rewrite app_length, take_length, P2 in E. lia.
Qed.
Lemma usual_obj w t : usual_dir w t → dir_here w t = true.
Proof.
  intros (_ & D & U). unfold dir_here, obj_at. destruct (mount_over (w_mounts w) t) as [m|] eqn:E.
  - apply over_in in E as [H P]. by rewrite decide_True by (by apply U).
  - unfold is_dir_at in D. by destruct (fget _ _) as [[]|].
Qed.
(** ** Paths *)
Lemma lead_cons n w p c todo : lead n w p (c :: todo) =
  if decide (c = [] ∨ c = B ".") then lead n w p todo
  else if decide (c = B "..") then lead n w (parent_dir p) todo
  else match obj_at w (p ++ [c]) with
       | Some (FDir _) => lead n w (p ++ [c]) todo
       | Some (FLink s) => match n with O => None | S n' => lead n' w (if is_abs s then [] else p) (split_slash s ++ todo) end
       | Some _ => match todo with [] => Some (p ++ [c]) | _ => None end
       | None => None
       end.
Proof. destruct n; reflexivity. Qed.
Lemma lead_nil n w p : lead n w p [] = Some p.
Proof. destruct n; reflexivity. Qed.
Lemma lead_good n w p c todo : good_name c → lead n w p (c :: todo) =
  match obj_at w (p ++ [c]) with
  | Some (FDir _) => lead n w (p ++ [c]) todo
  | Some (FLink s) => match n with O => None | S n' => lead n' w (if is_abs s then [] else p) (split_slash s ++ todo) end
  | Some _ => match todo with [] => Some (p ++ [c]) | _ => None end
  | None => None
  end.
Proof. intros (N1 & N2 & N3 & _). rewrite lead_cons. by rewrite decide_False by tauto; rewrite decide_False by done. Qed.
Lemma lead_dirs n w k : ∀ p todo, good_path k → (∀ i, 0 < i ≤ length k → dir_here w (p ++ take i k) = true) → lead n w p (k ++ todo) = lead n w (p ++ k) todo.
Proof.
  induction k as [|c k IH]; intros p todo G D; [by rewrite app_nil_r|]. inversion_clear G as [|? ? Gc Gk]. cbn [app].
  rewrite lead_good by done. pose proof (D 1 ltac:(cbn; lia)) as D1. cbn [take] in D1. unfold dir_here in D1. rewrite take_0 in D1.
  destruct (obj_at w (p ++ [c])) as [[b| | |]|]; try done. rewrite IH; [by rewrite <-app_assoc|done|].
  intros i Hi. specialize (D (S i) ltac:(cbn; lia)). cbn [take] in D. by rewrite <-app_assoc.
Qed.
Lemma wf_above fs q : ∀ k x, fs_wf fs → fget fs (q ++ k) = Some x → k ≠ [] → is_dir_at fs q = true.
Proof.
  intros k. revert q. induction k as [|c k IH] using rev_ind; intros q x W E N; [done|]. rewrite app_assoc in E. apply W in E as D.
  destruct k as [|c' k]; [by rewrite app_nil_r in D|]. unfold is_dir_at in D. destruct (fget fs (q ++ c' :: k)) as [y|] eqn:Q; [|done]. eapply IH; eauto.
Qed.
(** Down to a path of the machine that is in no mount *)
Lemma lead_clear n w q x todo : fs_wf (w_fs w) → fget (w_fs w) q = Some x → good_path q → clear_of (w_mounts w) q → ∀ i, i < length q → lead n w [] (take i q ++ todo) = lead n w (take i q) todo.
Proof.
  intros W E G C i L. rewrite lead_dirs; [done|by apply Forall_take|]. intros j Hj. rewrite take_length in Hj. cbn [app]. rewrite take_take, Nat.min_l by lia.
  unfold dir_here. rewrite obj_clear by (by apply clear_take). assert (is_dir_at (w_fs w) (take j q) = true) as D; [|unfold is_dir_at in D; by destruct (fget _ (take j q)) as [[]|]].
  eapply (wf_above _ _ (drop j q)); [done|by rewrite take_drop|]. intros Q. apply (f_equal length) in Q. rewrite drop_length in Q. cbn in Q. lia.
Qed.
Lemma lead_usual n w t todo : fs_wf (w_fs w) → usual_dir w t → lead n w [] (t ++ todo) = lead n w t todo.
Proof.
  intros W U. pose proof U as (G & D & _). rewrite lead_dirs; [done|done|]. intros j Hj. cbn [app].
  destruct (decide (j = length t)) as [->|N]; [rewrite take_ge by done; by apply usual_obj|].
  unfold dir_here. rewrite obj_clear by (apply usual_clear; [done|lia]). assert (is_dir_at (w_fs w) (take j t) = true) as D2; [|unfold is_dir_at in D2; by destruct (fget _ (take j t)) as [[]|]].
  unfold is_dir_at in D. destruct (fget (w_fs w) t) as [y|] eqn:Q; [|done].
  eapply (wf_above _ _ (drop j t)); [done|by rewrite take_drop|]. intros Q2. apply (f_equal length) in Q2. rewrite drop_length in Q2. cbn in Q2. lia.
Qed.
Lemma split_lead n w t todo : good_path t → lead n w [] (split_slash (path_str t) ++ todo) = lead n w [] (t ++ todo).
Proof.
  intros G. destruct t as [|c t].
  - change (split_slash (path_str [])) with ([[]; []] : list bytes). cbn [app]. rewrite !lead_cons. by rewrite !decide_True by auto.
  - rewrite split_path_str by done. cbn [app]. rewrite lead_cons. by rewrite decide_True by auto.
Qed.
Lemma lead_link n w q t todo : fs_wf (w_fs w) → fget (w_fs w) q = Some (FLink (path_str t)) → good_path q → clear_of (w_mounts w) q → q ≠ [] → usual_dir w t →
  lead (S n) w [] (q ++ todo) = lead n w t todo.
Proof.
  intros W E G C N U. destruct (exists_last N) as (d & c & ->). apply Forall_app in G as Gd. destruct Gd as [Gd Gc]. inversion_clear Gc as [|? ? Gc' _].
  rewrite <-app_assoc. pose proof (lead_clear (S n) w (d ++ [c]) _ ([c] ++ todo) W E G C (length d)) as L. rewrite take_app in L. rewrite L by (rewrite app_length; cbn; lia). cbn [app]. rewrite lead_good by done.
  rewrite obj_clear by done. rewrite E. cbv iota. rewrite is_abs_path_str. rewrite split_lead by apply U. by apply lead_usual.
Qed.
(** Only files and mounts count. *)
Lemma obj_ext w w' q : w_fs w' = w_fs w → w_mounts w' = w_mounts w → obj_at w' q = obj_at w q.
Proof. intros E1 E2. unfold obj_at. by rewrite E1, E2. Qed.
Lemma dir_ext w w' q : w_fs w' = w_fs w → w_mounts w' = w_mounts w → dir_here w' q = dir_here w q.
Proof. intros E1 E2. unfold dir_here. by rewrite (obj_ext w w'). Qed.
Lemma lead_ext n w w' : w_fs w' = w_fs w → w_mounts w' = w_mounts w → ∀ todo p, lead n w' p todo = lead n w p todo.
Proof.
  intros E1 E2. induction n as [|n IHn]; intros todo; induction todo as [|c todo IH]; intros p; rewrite ?lead_nil, ?lead_cons; try done; rewrite ?IH, (obj_ext w w') by done;
    destruct (decide _); try done; destruct (decide _); try done; destruct (obj_at w (p ++ [c])) as [[]|]; try done; by rewrite ?IHn.
Qed.
Lemma leads_ext w w' p : w_fs w' = w_fs w → w_mounts w' = w_mounts w → leads w' p = leads w p.
Proof. intros E1 E2. by apply lead_ext. Qed.
Lemma spot_ext w w' p : w_fs w' = w_fs w → w_mounts w' = w_mounts w → spot w' p = spot w p.
Proof. intros E1 E2. unfold spot. destruct (list.last p); [|done]. rewrite (leads_ext w w') by done. destruct (leads w _); [|done]. by rewrite (dir_ext w w'). Qed.
Lemma getwd_ext w w' : w_fs w' = w_fs w → w_mounts w' = w_mounts w → w_cwd w' = w_cwd w → w_pwd w' = w_pwd w → deep_getwd_of w' = deep_getwd_of w.
Proof. intros E1 E2 E3 E4. unfold deep_getwd_of. rewrite E3, E4. destruct (w_pwd w); [|done]. by rewrite (leads_ext w w'). Qed.
Global Opaque lead.
(** ** The calls agree with Os.v on usual paths *)
Lemma root_no_link fs s : fs_wf fs → (∃ p x, fget fs p = Some x ∧ p ≠ []) → fget fs [] ≠ Some (FLink s).
Proof.
  intros W (p & x & E & N) E2. assert (is_dir_at fs [] = true) as D. { by apply (wf_above fs [] p x). } unfold is_dir_at in D. by rewrite E2 in D.
Qed.
Lemma usual_real_dir w t : usual_dir w t → real_path (w_fs w) t = Some t.
Proof. intros (_ & D & _). unfold is_dir_at in D. unfold real_path. change 40 with (S 39). cbn [real]. by destruct (fget (w_fs w) t) as [[]|]. Qed.
Lemma usual_leads_dir w t : fs_wf (w_fs w) → usual_dir w t → leads w t = Some t.
Proof. intros W U. unfold leads. rewrite <-(app_nil_r t) at 1. rewrite lead_usual by done. apply lead_nil. Qed.
Lemma usual_leads w q : fs_wf (w_fs w) → usual w q → leads w q = real_path (w_fs w) q.
Proof.
  intros W [U|(G & C & t & E & U)]; [rewrite usual_leads_dir, usual_real_dir by done; done|].
  assert (q ≠ []) as N.
  { intros ->. destruct t as [|c t]; [destruct U as (_ & D & _); unfold is_dir_at in D; by rewrite E in D|].
    destruct U as (_ & D & _). unfold is_dir_at in D. destruct (fget (w_fs w) (c :: t)) as [x|] eqn:Q; [|done].
    eapply root_no_link; [exact W| |exact E]. by exists (c :: t), x. }
  unfold leads. rewrite <-(app_nil_r q) at 1. change 40 with (S 39). rewrite (lead_link _ _ _ t) by done. rewrite lead_nil.
  symmetry. apply link_real; [done|apply U..].
Qed.
Lemma good_parent q c : good_path (q ++ [c]) → good_path q.
Proof. intros G. by apply Forall_app in G as [G _]. Qed.
Lemma spot_clear w q x : fs_wf (w_fs w) → q ≠ [] → fget (w_fs w) q = Some x → good_path q → (∀ n, n < length q → clear_of (w_mounts w) (take n q)) → spot w q = Some q.
Proof.
  intros W N E G C. destruct (exists_last N) as (d & c & ->). unfold spot. rewrite last_snoc. unfold parent_dir. rewrite removelast_last.
  assert (usual_dir w d) as U.
  { split; [by eapply good_parent|]. split; [by eapply W|]. intros m H P. specialize (C (length d)). rewrite take_app in C. rewrite (C ltac:(rewrite app_length; cbn; lia) m H) in P. done. }
  rewrite usual_leads_dir by done. by rewrite usual_obj.
Qed.
Lemma usual_spot w q : fs_wf (w_fs w) → usual w q → spot w q = Some q.
Proof.
  intros W U. destruct (decide (q = [])) as [->|N]; [done|]. destruct U as [U|(G & C & t & E & U)].
  - pose proof U as (G & D & _). unfold is_dir_at in D. destruct (fget (w_fs w) q) as [x|] eqn:Q; [|done]. eapply spot_clear; try done. intros n Hn. by apply usual_clear.
  - eapply spot_clear; try done. intros n _. by apply clear_take.
Qed.
(** What the calls see there *)
Definition is_link (x : option fobj) : option bytes := match x with Some (FLink s) => Some s | _ => None end.
Lemma usual_link w q : fs_wf (w_fs w) → usual w q → is_link (obj_at w q) = is_link (fget (w_fs w) q) ∧ is_Some (obj_at w q) ∧ is_Some (fget (w_fs w) q).
Proof.
  intros W [U|(G & C & t & E & U)].
  - pose proof (usual_obj _ _ U) as D1. pose proof U as (_ & D2 & _). unfold dir_here in D1. unfold is_dir_at in D2.
    destruct (obj_at w q) as [[]|]; try done. by destruct (fget (w_fs w) q) as [[]|].
  - rewrite obj_clear by done. rewrite E. split; [done|split; by eexists].
Qed.

Definition usual_wd (w : world) : Prop := usual_dir w (w_cwd w) ∧ ∀ q, w_pwd w = Some q → usual w q.
Lemma usual_getwd_of w : fs_wf (w_fs w) → usual_wd w → deep_getwd_of w = getwd_of w.
Proof. intros W [_ H]. unfold deep_getwd_of, getwd_of. destruct (w_pwd w) as [q|]; [|done]. by rewrite usual_leads by auto. Qed.
Lemma getwd_usual w : usual_wd w → usual w (getwd_of w).
Proof. intros [H1 H2]. unfold getwd_of. destruct (w_pwd w) as [q|]; [|by left]. case_decide; [auto|by left]. Qed.
Lemma look_ext {A} (f g : world → res A) o w : f (tick w) = g (tick w) → look f o w = look g o w.
Proof. intros E. unfold look, sys_atomic. cbv zeta. by rewrite E. Qed.
Lemma deep_getwd_same o w : fs_wf (w_fs w) → usual_wd w → deep_getwd o w = os_getwd o w.
Proof.
  intros W U. apply look_ext. rewrite (getwd_ext w (tick w)) by done. change (getwd_of (tick w)) with (getwd_of w). change (w_cwd (tick w)) with (w_cwd w). change (w_fs (tick w)) with (w_fs w).
  rewrite (dir_ext w (tick w)) by done. rewrite usual_getwd_of by done.
  assert (dir_here w (getwd_of w) = is_dir_at (w_fs w) (getwd_of w)) as ->; [|done].
  destruct (getwd_usual w U) as [D|(G & C & t & E & _)]; [rewrite usual_obj by done; by destruct D as (_ & -> & _)|].
  unfold dir_here, is_dir_at. rewrite obj_clear by done. done.
Qed.
Lemma deep_abs_same s o w : fs_wf (w_fs w) → usual_wd w → deep_abs s o w = fp_abs s o w.
Proof. intros W U. unfold deep_abs, fp_abs. destruct (is_abs s); [done|]. unfold bind. by rewrite deep_getwd_same. Qed.
Lemma deep_symlink_same p o w : fs_wf (w_fs w) → usual w p → deep_is_symlink p o w = fs_is_symlink p o w.
Proof.
  intros W U. unfold deep_is_symlink, fs_is_symlink, bind, attempt, os_lstat, look, sys_atomic. cbv zeta.
  rewrite (spot_ext w (tick w)) by done. rewrite usual_spot by done. rewrite (obj_ext w (tick w)) by done. change (w_fs (tick w)) with (w_fs w).
  destruct (usual_link w p W U) as (L & [x Ex] & [y Ey]). rewrite Ex, Ey in *. cbn [opt_to_res]. destruct (ch_fault (o (w_tick w))) as [|e n|[|n]]; try done.
  cbn [is_link] in L. by destruct x, y.
Qed.
Lemma deep_readlink_same p o w : fs_wf (w_fs w) → usual w p → deep_readlink p o w = os_readlink p o w.
Proof.
  intros W U. apply look_ext. rewrite (spot_ext w (tick w)) by done. rewrite usual_spot by done. rewrite (obj_ext w (tick w)) by done. change (w_fs (tick w)) with (w_fs w).
  destruct (usual_link w p W U) as (L & [x Ex] & [y Ey]). rewrite Ex, Ey in *. cbn [is_link] in L. destruct x, y; try done. congruence.
Qed.
(** The same files and mounts, another time *)
Definition apart (w w' : world) : Prop := w_fs w' = w_fs w ∧ w_mounts w' = w_mounts w ∧ w_cwd w' = w_cwd w ∧ w_pwd w' = w_pwd w.
Lemma apart_usual w w' q : apart w w' → usual w q → usual w' q.
Proof. intros (E1 & E2 & _). unfold usual, usual_dir. by rewrite E1, E2. Qed.
Lemma apart_wd w w' : apart w w' → usual_wd w → usual_wd w'.
Proof. intros (E1 & E2 & E3 & E4). unfold usual_wd, usual, usual_dir. by rewrite E1, E2, E3, E4. Qed.
Lemma look_apart {A} (f : world → res A) o w r w' : look f o w = (r, w') → apart w w'.
Proof. unfold look, sys_atomic. cbv zeta. destruct (ch_fault _) as [|e n|[|n]]; intros [= <- <-]; done. Qed.
Lemma abs_apart s o w r w' : fp_abs s o w = (r, w') → apart w w'.
Proof.
  unfold fp_abs. destruct (is_abs s); [by intros [= <- <-]|]. unfold bind. destruct (os_getwd o w) as [[d| | | |] w1] eqn:E; apply look_apart in E; by intros [= <- <-].
Qed.
Lemma symlink_apart p o w r w' : fs_is_symlink p o w = (r, w') → apart w w'.
Proof.
  unfold fs_is_symlink, bind, attempt. destruct (os_lstat p o w) as [[d| | | |] w1] eqn:E; apply look_apart in E; by intros [= <- <-].
Qed.
Lemma bind_same {A C} (m m' : M A) (f : A → M C) o w : m o w = m' o w → bind m f o w = bind m' f o w.
Proof. intros E. unfold bind. by rewrite E. Qed.
Lemma deep_open_same dr arg o w : fs_wf (w_fs w) → usual_wd w → usual w (abs_of w arg) → deep_get_workspace dr arg o w = get_workspace dr arg o w.
Proof.
  intros W U Ua. unfold deep_get_workspace, get_workspace, bind at 1 5. rewrite deep_abs_same by done.
  destruct (fp_abs arg o w) as [[p| | | |] w1] eqn:E; try done. pose proof (abs_apart _ _ _ _ _ E) as A1.
  assert (p = abs_of w arg) as ->.
  { unfold fp_abs, abs_of in *. destruct (is_abs arg); [by injection E as <- _|]. unfold bind in E. destruct (os_getwd o w) as [[d| | | |] w2] eqn:E2; try done. injection E as <- _.
    unfold os_getwd, look, sys_atomic in E2. cbv zeta in E2. destruct (ch_fault _) as [|e n|[|n]]; try done. destruct (_ || _); [|done]. by injection E2 as <- _. }
  pose proof (apart_usual _ _ _ A1 Ua) as U1. pose proof (apart_wd _ _ A1 U) as U2. assert (fs_wf (w_fs w1)) as W1 by (destruct A1 as (-> & _); done).
  unfold bind at 1 4. rewrite deep_symlink_same by done. destruct (fs_is_symlink _ o w1) as [[l| | | |] w2] eqn:E2; try done. pose proof (symlink_apart _ _ _ _ _ E2) as A2.
  pose proof (apart_usual _ _ _ A2 U1) as U3. pose proof (apart_wd _ _ A2 U2) as U4. assert (fs_wf (w_fs w2)) as W2 by (destruct A2 as (-> & _); done).
  assert ((if l then s <- deep_readlink (abs_of w arg) ;; deep_abs s else ret (abs_of w arg)) o w2 = (if l then s <- os_readlink (abs_of w arg) ;; fp_abs s else ret (abs_of w arg)) o w2) as Eq.
  { destruct l; [|done]. unfold bind. rewrite deep_readlink_same by done. destruct (os_readlink _ o w2) as [[s| | | |] w3] eqn:E3; try done. unfold os_readlink in E3. apply look_apart in E3 as A3.
    apply deep_abs_same; [destruct A3 as (-> & _); done|by eapply apart_wd]. }
  exact (bind_same _ _ _ o w2 Eq).
Qed.
(** ** Inside a workspace *)
Section inside.
  Context (dr : path) (w : world) (mid : uid) (m : mount).
  Context (G : good_path dr) (W : fs_wf (w_fs w)) (D : is_dir_at (w_fs w) (merged_dir dr mid) = true)
    (Cm : clear_of (w_mounts w) (mount_dir dr mid)) (Em : mounts_below (w_mounts w) (mount_dir dr mid) = [m]) (Ea : mn_at m = merged_dir dr mid).
  Lemma in_mounts : m ∈ w_mounts w.
  Proof. assert (m ∈ mounts_below (w_mounts w) (mount_dir dr mid)) as H by (rewrite Em; by left). unfold mounts_below in H. by apply elem_of_list_filter in H as [_ H]. Qed.
  Lemma over_inside k m' : m' ∈ w_mounts w → is_prefix (mn_at m') (merged_dir dr mid ++ k) = true → m' = m.
  Proof.
    intros H P. assert (m' ∈ mounts_below (w_mounts w) (mount_dir dr mid)) as H2; [|rewrite Em in H2; by apply elem_of_list_singleton in H2].
    unfold mounts_below. apply elem_of_list_filter. split; [|done]. rewrite <-app_assoc in P.
    destruct (prefix_comparable _ _ _ P (is_prefix_app (mount_dir dr mid) _)) as [Q|Q]; [|done]. by rewrite (Cm m' H) in Q.
  Qed.
  Lemma merged_usual : usual_dir w (merged_dir dr mid).
  Proof.
    split; [by apply UsableProofs.good_merged|]. split; [exact D|]. intros m' H P. assert (m' = m) as ->; [|done]. apply (over_inside []); [done|by rewrite app_nil_r].
  Qed.
  Lemma mount_inside k : mount_over (w_mounts w) (merged_dir dr mid ++ k) = Some m.
  Proof.
    destruct (over_some (w_mounts w) (merged_dir dr mid ++ k) m in_mounts) as (m' & E & _); [rewrite Ea; apply is_prefix_app|].
    rewrite E. apply over_in in E as [H P]. f_equal. by apply (over_inside k).
  Qed.
  Lemma obj_inside k : k ≠ [] → obj_at w (merged_dir dr mid ++ k) = mount_view (w_fs w) m k.
  Proof.
    intros N. unfold obj_at. rewrite mount_inside, Ea. rewrite decide_False.
    - by rewrite drop_app.
    - intros E. apply N. rewrite <-(app_nil_r (merged_dir dr mid)) in E at 1. by apply app_inv_head in E.
  Qed.
  Lemma lead_inside n k : shown_dir (w_fs w) m k → lead n w (merged_dir dr mid) k = Some (merged_dir dr mid ++ k).
  Proof.
    intros [Gk H]. rewrite <-(app_nil_r k) at 1. rewrite lead_dirs; [apply lead_nil|done|]. intros i Hi. unfold dir_here. rewrite obj_inside; [by rewrite H|].
    intros E. apply (f_equal length) in E. rewrite take_length in E. cbn in E. lia.
  Qed.
  Lemma leads_merged k : shown_dir (w_fs w) m k → leads w (merged_dir dr mid ++ k) = Some (merged_dir dr mid ++ k).
  Proof. intros H. unfold leads. rewrite lead_usual by (done || apply merged_usual). by apply lead_inside. Qed.
  Context (p : path) (Gp : good_path p) (L : fget (w_fs w) p = Some (FLink (path_str (merged_dir dr mid)))) (Cp : clear_of (w_mounts w) p).
  Lemma link_ne : p ≠ [].
  Proof.
    intros ->. eapply root_no_link; [exact W| |exact L]. unfold is_dir_at in D. destruct (fget (w_fs w) (merged_dir dr mid)) as [x|] eqn:E; [|done]. exists (merged_dir dr mid), x. split; [exact E|]. by destruct (mount_dir dr mid).
  Qed.
  Lemma link_usual : usual w p.
  Proof. right. split; [done|]. split; [done|]. eexists. split; [exact L|apply merged_usual]. Qed.
  Lemma leads_link k : shown_dir (w_fs w) m k → leads w (p ++ k) = Some (merged_dir dr mid ++ k).
  Proof.
    intros H. unfold leads. change 40 with (S 39). rewrite (lead_link _ _ _ (merged_dir dr mid)); try done; [by apply lead_inside|apply link_ne|apply merged_usual].
  Qed.
  Lemma shown_parent k c : shown_dir (w_fs w) m (k ++ [c]) → shown_dir (w_fs w) m k.
  Proof. intros [Gk H]. split; [by eapply good_parent|]. intros n Hn. specialize (H n). rewrite take_app_le in H by lia. apply H. rewrite app_length. lia. Qed.
  Lemma dir_inside k : shown_dir (w_fs w) m k → dir_here w (merged_dir dr mid ++ k) = true.
  Proof.
    intros [Gk H]. destruct (decide (k = [])) as [->|N]; [rewrite app_nil_r; apply usual_obj, merged_usual|]. unfold dir_here. rewrite obj_inside by done.
    specialize (H (length k)). rewrite take_ge in H by done. rewrite H; [done|]. destruct k; [done|]. cbn. lia.
  Qed.
  Lemma spot_link k : k ≠ [] → shown_dir (w_fs w) m k → spot w (p ++ k) = Some (merged_dir dr mid ++ k).
  Proof.
    intros N H. destruct (exists_last N) as (k' & c & ->). unfold spot. rewrite app_assoc, last_snoc. unfold parent_dir. rewrite removelast_last.
    apply shown_parent in H. rewrite leads_link by done. rewrite dir_inside by done. by rewrite <-app_assoc.
  Qed.
  Lemma spot_merged k : k ≠ [] → shown_dir (w_fs w) m k → spot w (merged_dir dr mid ++ k) = Some (merged_dir dr mid ++ k).
  Proof.
    intros N H. destruct (exists_last N) as (k' & c & ->). unfold spot. rewrite app_assoc, last_snoc. unfold parent_dir. rewrite removelast_last.
    apply shown_parent in H. rewrite leads_merged by done. by rewrite dir_inside.
  Qed.
End inside.
(** What looking leaves *)
Definition only_looked (w w' : world) : Prop := apart w w' ∧ w_tree w' = w_tree w ∧ w_out w' = w_out w ∧ w_ids w' = w_ids w ∧ w_owned w' = w_owned w.
Lemma look_only {A} (f : world → res A) o w r w' : look f o w = (r, w') → only_looked w w'.
Proof. unfold look, sys_atomic. cbv zeta. destruct (ch_fault _) as [|e n|[|n]]; intros [= <- <-]; done. Qed.
Lemma only_trans w w1 w2 : only_looked w w1 → only_looked w1 w2 → only_looked w w2.
Proof. unfold only_looked, apart. intros ((-> & -> & -> & ->) & -> & -> & -> & ->). done. Qed.
Lemma deep_getwd_any o w r w' : deep_getwd o w = (r, w') → only_looked w w' ∧ (∀ d, r = Ok d → d = deep_getwd_of w) ∧ (no_faults o → dir_here w (w_cwd w) = true → r = Ok (deep_getwd_of w)).
Proof.
  intros E. split; [by eapply look_only|]. unfold deep_getwd, look, sys_atomic in E. cbv zeta in E. rewrite (getwd_ext w (tick w)), (dir_ext w (tick w)) in E by done. change (w_cwd (tick w)) with (w_cwd w) in E. split.
  - intros d ->. destruct (ch_fault _) as [|e n|[|n]]; try done. destruct (_ || _); [|done]. by injection E as <- _.
  - intros N H. rewrite N in E. destruct (decide (deep_getwd_of w = w_cwd w)) as [Q|Q]; [rewrite Q, H in E; cbn [orb] in E|rewrite (bool_decide_true (_ ≠ _)), orb_true_r in E by done]; injection E as <- _; congruence.
Qed.
Lemma deep_symlink_no o w p q r w' : spot w p = Some q → dir_here w q = true → deep_is_symlink p o w = (r, w') → only_looked w w' ∧ (r = Ok false ∨ r = Crash) ∧ (no_faults o → r = Ok false).
Proof.
  intros Es Ed E. unfold deep_is_symlink, bind, attempt, look, sys_atomic in E. cbv zeta in E. rewrite (spot_ext w (tick w)), Es, (obj_ext w (tick w)) in E by done.
  unfold dir_here in Ed. destruct (obj_at w q) as [[b| | |]|]; try done. cbn [opt_to_res] in E. destruct (ch_fault (o (w_tick w))) as [|e n|[|n]] eqn:F; injection E as <- <-; (split; [done|]); (split; [by auto|]); intros N; try done; by rewrite N in F.
Qed.
(** A directory that is neither a link nor in the mounts directory is refused. *)
Lemma open_refused dr o w q s r w' : w_pwd w = Some q → leads w q = Some (w_cwd w) → dir_here w (w_cwd w) = true → spot w q = Some s → dir_here w s = true → rel_first (mounts_root dr) q = B ".." →
  deep_get_workspace dr (B ".") o w = (r, w') → failed r ∧ only_looked w w' ∧ (no_faults o → r = Err EWrongLen).
Proof.
  intros Ep El Ec Es Ed Er E. unfold deep_get_workspace, bind at 1 in E. change (deep_abs (B ".")) with (d <- deep_getwd ;; ret (pjoin d (B "."))) in E. unfold bind at 1 in E.
  assert (deep_getwd_of w = q) as Eg. { unfold deep_getwd_of. rewrite Ep. by rewrite decide_True. }
  destruct (deep_getwd o w) as [r1 w1] eqn:E1. apply deep_getwd_any in E1 as (O1 & H1 & H2). rewrite Eg in *.
  destruct r1 as [d| | | |]; try (injection E as <- <-; (split; [by intros x|]); (split; [done|]); intros N; by specialize (H2 N Ec)).
  rewrite (H1 _ eq_refl) in E. cbn [ret] in E. change (pjoin q (B ".")) with q in E. clear H1 H2. unfold bind at 1 in E.
  pose proof O1 as ((A1 & A2 & A3 & A4) & _).
  destruct (deep_is_symlink q o w1) as [r2 w2] eqn:E2. apply (deep_symlink_no _ _ _ s) in E2 as (O2 & Hr & H2); [|by rewrite (spot_ext w w1)|by rewrite (dir_ext w w1)].
  pose proof (only_trans _ _ _ O1 O2) as O3. destruct Hr as [->| ->]; [|injection E as <- <-; (split; [by intros x|]); (split; [done|]); intros N; by specialize (H2 N)].
  unfold bind at 1 in E. cbn [ret] in E. unfold load_from, bind at 1 in E. rewrite Er in E. change (decode_b32 (B "..")) with (@Err uid EWrongLen) in E. injection E as <- <-. split; [by intros x|]. done.
Qed.
(** ** Programs that do not look at the working directory *)
Definition steady {A} (m : M A) : Prop := ∀ o w q, m o (at_dir q w) = ((m o w).1, at_dir q (m o w).2).
Lemma s_ret {A} (a : A) : steady (ret a). Proof. done. Qed.
Lemma s_fail {A} e : steady (fail (A := A) e). Proof. done. Qed.
Lemma s_panic {A} : steady (panic (A := A)). Proof. done. Qed.
Lemma s_lift {A} (r : res A) : steady (lift r). Proof. done. Qed.
Lemma s_gets {A} (f : world → A) : (∀ w q, f (at_dir q w) = f w) → steady (gets f). Proof. intros H o w q. unfold gets. by rewrite H. Qed.
Lemma s_bind {A C} (m : M A) (f : A → M C) : steady m → (∀ a, steady (f a)) → steady (bind m f).
Proof. intros Hm Hf o w q. unfold bind. rewrite Hm. destruct (m o w) as [[a| | | |] w1]; try done. cbn [fst snd]. apply Hf. Qed.
Lemma s_attempt {A} (m : M A) : steady m → steady (attempt m).
Proof. intros Hm o w q. unfold attempt. rewrite Hm. by destruct (m o w) as [[a| | | |] w1]. Qed.
Lemma s_modify f : (∀ w q, f (at_dir q w) = at_dir q (f w)) → steady (modify f).
Proof. intros H o w q. unfold modify. cbn [fst snd]. by rewrite H. Qed.
Lemma s_next {A} (f : Fs.choice → A) : steady (next_choice f). Proof. done. Qed.
Lemma s_read_file p : steady (os_read_file p).
Proof. intros o w q. unfold os_read_file. cbv zeta. change (w_tick (at_dir q w)) with (w_tick w). change (w_fs (at_dir q w)) with (w_fs w). destruct (ch_fault _); try done; destruct (match real_path _ _ with Some _ => _ | None => _ end); done. Qed.
Lemma s_write_file p d : steady (os_write_file p d).
Proof.
  intros o w q. unfold os_write_file, sys. cbv zeta. change (w_tick (at_dir q w)) with (w_tick w). change (w_fs (tick (at_dir q w))) with (w_fs w). change (w_fs (tick w)) with (w_fs w).
  destruct (ch_fault _) as [|e [|n]|[|n]]; try done; by destruct (write_in _ _ _).
Qed.
Lemma s_tree_do f : steady (tree_do f).
Proof. intros o w q. unfold tree_do. change (w_tree (at_dir q w)) with (w_tree w). by destruct (f (w_tree w)). Qed.
Create HintDb sdy.
#[global] Hint Resolve s_ret s_fail s_panic s_lift s_next s_read_file s_write_file s_tree_do : sdy.
Ltac sd := repeat first
  [ progress (eauto with sdy nocore)
  | apply s_gets; reflexivity
  | apply s_bind; [|intros ?]
  | apply s_attempt
  | apply s_modify; reflexivity
  | case_match ].
Lemma s_for_each {A} (l : list A) f : (∀ a, steady (f a)) → steady (for_each l f).
Proof. intros H. induction l as [|a l IH]; cbn [for_each]; [apply s_ret|]. apply s_bind; [apply H|by intros _]. Qed.
Lemma s_print l : steady (print_all l).
Proof. induction l as [|s l IH]; cbn [print_all]; unfold println; sd. Qed.
#[global] Hint Resolve s_for_each s_print : sdy.
Lemma s_id_of l : steady (id_of l). Proof. unfold id_of. sd. Qed.
Lemma s_save sp : steady (space_save sp). Proof. unfold space_save. sd. Qed.
#[global] Hint Resolve s_id_of s_save : sdy.
Lemma s_load_from dr p mp : steady (load_from dr p mp). Proof. unfold load_from, load_ws_info, space_load. cbv zeta. sd. Qed.
Lemma s_log_one b c : steady (log_one b c). Proof. unfold log_one, println. sd. Qed.
Lemma s_add_branch x n r f : steady (ws_add_branch x n r f). Proof. unfold ws_add_branch, search_ws. cbv zeta. sd. Qed.
Lemma s_add_tag x n r f : steady (ws_add_tag x n r f). Proof. unfold ws_add_tag, search_ws. cbv zeta. sd. Qed.
Lemma s_delete_branch x n g : steady (ws_delete_branch x n g). Proof. unfold ws_delete_branch. cbv zeta. sd. Qed.
Lemma s_delete_tag x n : steady (ws_delete_tag x n). Proof. unfold ws_delete_tag. sd. Qed.
#[global] Hint Resolve s_load_from s_log_one s_add_branch s_add_tag s_delete_branch s_delete_tag : sdy.
Lemma s_rest dr c x m : stays_mounted c → after_load dr c x = Some m → steady m.
Proof. destruct c as [args branch|source target|msg|key|opts args|opts args|args]; try done; intros _; cbn [after_load]; intros E; injection E as <-; unfold list_branches, list_tags, println; sd. Qed.
Lemma s_look {A} (f : world → res A) : (∀ w q, f (at_dir q w) = f w) → steady (look f).
Proof.
  intros H o w q. unfold look, sys_atomic. cbv zeta. change (w_tick (at_dir q w)) with (w_tick w). change (tick (at_dir q w)) with (at_dir q (tick w)). rewrite H.
  by destruct (ch_fault _) as [|e n|[|n]].
Qed.
(** ** Whole commands *)
Lemma clear_mount dr w mid : in_order dr w → clear_of (w_mounts w) (mounts_root dr) → clear_of (w_mounts w) (mount_dir dr mid).
Proof.
  intros Io C m H. apply not_true_is_false. intros P. unfold mount_dir in P. destruct (prefix_comparable _ _ _ P (is_prefix_app (mounts_root dr) _)) as [Q|Q]; [by rewrite C in Q|].
  destruct (mc_mounts _ _ _ (io_machine _ _ Io) m H Q) as [(i & E) _]. rewrite E in P. apply is_prefix_spec in P as (k & P). unfold mount_dir in P. rewrite <-!app_assoc in P.
  apply app_inv_head in P. apply (f_equal length) in P. cbn in P. lia.
Qed.
Lemma point_usual dr w mid : good_path dr → mounted_once dr w mid → clear_of (w_mounts w) (mount_dir dr mid) → usual_dir w (merged_dir dr mid).
Proof.
  intros G [D Mo] C. split; [by apply UsableProofs.good_merged|]. split; [done|]. intros m H P.
  assert (m ∈ mounts_below (w_mounts w) (mount_dir dr mid)) as Hm.
  { unfold mounts_below. apply elem_of_list_filter. split; [|done]. destruct (prefix_comparable _ _ _ P (is_prefix_app (mount_dir dr mid) _)) as [Q|Q]; [|done]. by rewrite C in Q. }
  destruct Mo as [->|(m' & -> & <-)] in Hm; [by apply elem_of_nil in Hm|]. by apply elem_of_list_singleton in Hm as ->.
Qed.
Lemma enter_same w p : fs_wf (w_fs w) → usual w p → deep_enter p w = enter p w.
Proof. intros W U. unfold deep_enter, enter. by rewrite usual_leads. Qed.
Lemma usual_real w p : fs_wf (w_fs w) → usual w p → ∃ t, real_path (w_fs w) p = Some t ∧ usual_dir w t.
Proof.
  intros W U. rewrite <-usual_leads by done. destruct U as [U|(G & C & t & E & U)].
  - exists p. split; [by apply usual_leads_dir|done].
  - exists t. split; [|done]. rewrite usual_leads; [by apply link_real; [|apply U..]|done|]. right. split; [done|]. split; [done|]. by exists t.
Qed.
Lemma enter_usual w p : fs_wf (w_fs w) → usual w p → usual_wd (enter p w) ∧ usual (enter p w) p ∧ getwd_of (enter p w) = p.
Proof.
  intros W U. destruct (usual_real _ _ W U) as (t & E & Ut). unfold enter. rewrite E. split; [split; [exact Ut|]|split; [exact U|]].
  - intros q Q. by injection Q as <-.
  - unfold getwd_of. cbn [set_pwd set_cwd w_pwd w_fs w_cwd set_tree default]. by rewrite decide_True.
Qed.
Lemma cmd_same dr c o w : fs_wf (w_fs w) → stays_mounted c → usual_wd w → deep_cmd dr c o w = run_cmd dr c o w.
Proof.
  intros W St U. assert (deep_get_workspace dr (B ".") o w = get_workspace dr (B ".") o w) as E.
  { apply deep_open_same; [done|done|]. change (abs_of w (B ".")) with (getwd_of w). by apply getwd_usual. }
  destruct c as [args branch|source target|msg|key|opts args|opts args|args]; try done; exact (bind_same _ _ _ o w E).
Qed.
(** Opening a workspace by a path below its mount point *)
Definition opening (dr q : path) : M ws := look (λ _, Ok tt) ;;; attempt (look (λ _, Ok tt)) ;;; load_from dr q q.
Lemma getwd_plain w q o : deep_getwd_of w = q → dir_here w q = true → deep_getwd o w = (look (λ _, Ok tt) ;;; ret q) o w.
Proof.
  intros Eg Ed. unfold bind, deep_getwd, look, sys_atomic. cbv zeta. rewrite (getwd_ext w (tick w)), Eg, (dir_ext w (tick w)), Ed by done. cbn [orb].
  by destruct (ch_fault (o (w_tick w))) as [|e n|[|n]].
Qed.
Lemma symlink_plain w q s o : spot w q = Some s → dir_here w s = true → deep_is_symlink q o w = (attempt (look (λ _, Ok tt)) ;;; ret false) o w.
Proof.
  intros Es Ed. unfold deep_is_symlink, bind, attempt, look, sys_atomic. cbv zeta. rewrite (spot_ext w (tick w)), Es, (obj_ext w (tick w)) by done.
  unfold dir_here in Ed. destruct (obj_at w s) as [[b| | |]|]; try done. cbn [opt_to_res]. by destruct (ch_fault (o (w_tick w))) as [|e n|[|n]].
Qed.
Lemma open_path dr q s w o : w_pwd w = Some q → w_cwd w = q → leads w q = Some q → spot w q = Some s → dir_here w q = true → dir_here w s = true → deep_get_workspace dr (B ".") o w = opening dr q o w.
Proof.
  intros Ep Ec El Es Ed Ed'. assert (deep_getwd_of w = q) as Eg. { unfold deep_getwd_of. by rewrite Ep, Ec, El, decide_True. }
  unfold deep_get_workspace, opening. change (deep_abs (B ".")) with (d <- deep_getwd ;; ret (pjoin d (B "."))).
  unfold bind. rewrite (getwd_plain w q) by done. unfold bind.
  destruct (look (λ _, Ok tt) o w) as [[u| | | |] w1] eqn:E1; try done. apply look_only in E1 as ((A1 & A2 & A3 & A4) & _). cbn [ret]. change (pjoin q (B ".")) with q.
  rewrite (symlink_plain w1 q s); [|by rewrite (spot_ext w w1)|by rewrite (dir_ext w w1)]. unfold bind.
  by destruct (attempt (look (λ _, Ok tt)) o w1) as [[v| | | |] w2].
Qed.
Definition set_path (p : path) (x : ws) : ws := WS (ws_id x) p (ws_space x) (ws_mount x) (ws_head x) (ws_branch x).
Lemma load_path dr p mp o w : load_from dr p mp o w = (match (load_from dr [] mp o w).1 with Ok x => Ok (set_path p x) | Err e => Err e | Panic => Panic | Hang => Hang | Crash => Crash end, (load_from dr [] mp o w).2).
Proof.
  unfold load_from. cbv zeta. unfold bind, lift, gets, ret, fail. destruct (decode_b32 (rel_first _ _)) as [mid| | | |]; try done.
  destruct (load_ws_info dr mid o w) as [[wi| | | |] w1]; try done.
  destruct (decode_b32 (wi_id wi)) as [wid| | | |]; try done. destruct (decode_b32 (wi_space wi)) as [sid| | | |]; try done.
  destruct (space_load _ o w1) as [[u| | | |] w2]; try done. destruct (decode_hex (wi_head wi)) as [hid| | | |]; try done. by destruct (get (w_tree w2) hid).
Qed.
Lemma rest_path dr c x p : stays_mounted c → deep_rest dr c (set_path p x) = deep_rest dr c x.
Proof. destruct x. by destruct c. Qed.
Lemma rest_steady dr c x m : stays_mounted c → deep_rest dr c x = Some m → steady m.
Proof. intros St E. apply (s_rest dr c x); [done|]. by destruct c. Qed.
Definition command_at (dr q : path) (c : command) : M unit := x <- opening dr q ;; match deep_rest dr c x with Some m => m | None => fail EOptions end.
Lemma command_path dr q q' c o w : rel_first (mounts_root dr) q = rel_first (mounts_root dr) q' → stays_mounted c → command_at dr q c o w = command_at dr q' c o w.
Proof.
  intros E St. unfold command_at. assert (opening dr q o w = (match (opening dr q' o w).1 with Ok x => Ok (set_path q x) | Err e => Err e | Panic => Panic | Hang => Hang | Crash => Crash end, (opening dr q' o w).2)) as Eo.
  { unfold opening, bind. destruct (look (λ _, Ok tt) o w) as [[u| | | |] w1]; [|reflexivity..]. destruct (attempt (look (λ _, Ok tt)) o w1) as [[v| | | |] w2]; [|reflexivity..].
    rewrite (load_path dr q q o w2), (load_path dr q' q' o w2). assert (load_from dr [] q o w2 = load_from dr [] q' o w2) as ->. { unfold load_from. rewrite E. reflexivity. }
    destruct (load_from dr [] q' o w2) as [[x| | | |] w3]; reflexivity. }
  unfold bind. rewrite Eo. destruct (opening dr q' o w) as [[x| | | |] w3]; [|reflexivity..]. cbn [fst snd]. rewrite (rest_path dr c x q St). reflexivity.
Qed.
Lemma command_steady dr q c : stays_mounted c → steady (command_at dr q c).
Proof.
  intros St. unfold command_at, opening. apply s_bind.
  - apply s_bind; [apply s_look; reflexivity|intros _]. apply s_bind; [apply s_attempt, s_look; reflexivity|intros _]. apply s_load_from.
  - intros x. destruct (deep_rest dr c x) as [m|] eqn:E; [by eapply rest_steady|apply s_fail].
Qed.
Lemma cmd_at dr c o w q : deep_get_workspace dr (B ".") o w = opening dr q o w → deep_cmd dr c o w = command_at dr q c o w.
Proof. intros E. unfold deep_cmd, command_at. exact (bind_same _ _ _ o w E). Qed.
Lemma cmd_inside dr w mid m k c o : good_path dr → fs_wf (w_fs w) → is_dir_at (w_fs w) (merged_dir dr mid) = true → clear_of (w_mounts w) (mount_dir dr mid) → mounts_below (w_mounts w) (mount_dir dr mid) = [m] →
  mn_at m = merged_dir dr mid → shown_dir (w_fs w) m k → stays_mounted c →
  deep_cmd dr c o (deep_enter (merged_dir dr mid ++ k) w) = (let (r, w') := run_cmd dr c o (enter (merged_dir dr mid) w) in (r, at_dir (merged_dir dr mid ++ k) w')).
Proof.
  intros G W D Cd Em Ea Sh St. pose proof (merged_usual dr w mid m G D Cd Em Ea) as Um. assert (usual w (merged_dir dr mid)) as U by (by left).
  destruct (enter_usual _ _ W U) as (Uw & _ & _). rewrite <-cmd_same by done. rewrite <-enter_same by done.
  assert (∀ j, shown_dir (w_fs w) m j → deep_cmd dr c o (deep_enter (merged_dir dr mid ++ j) w) = command_at dr (merged_dir dr mid ++ j) c o (deep_enter (merged_dir dr mid ++ j) w)) as H.
  { intros j Sj. apply cmd_at. pose proof (leads_merged dr w mid m G W D Cd Em Ea j Sj) as El. pose proof (dir_inside dr w mid m G D Cd Em Ea j Sj) as Ed.
    assert (spot w (merged_dir dr mid ++ j) = Some (merged_dir dr mid ++ j)) as Es.
    { destruct (decide (j = [])) as [->|N]; [|by apply (spot_merged dr w mid m)]. rewrite app_nil_r. by apply usual_spot. }
    apply (open_path _ _ (merged_dir dr mid ++ j)).
    - reflexivity.
    - unfold deep_enter. rewrite El. reflexivity.
    - rewrite (leads_ext w) by reflexivity. exact El.
    - rewrite (spot_ext w) by reflexivity. exact Es.
    - rewrite (dir_ext w) by reflexivity. exact Ed.
    - rewrite (dir_ext w) by reflexivity. exact Ed. }
  rewrite H by done. pose proof (H []) as H0. rewrite app_nil_r in H0. rewrite H0 by (split; [apply List.Forall_nil|intros n Hn; cbn in Hn; lia]). clear H H0.
  rewrite (command_path dr (merged_dir dr mid ++ k) (merged_dir dr mid)).
  2:{ unfold mount_dir. rewrite <-!app_assoc. cbn [app]. by rewrite !rel_first_below. } 2:done.
  assert (deep_enter (merged_dir dr mid ++ k) w = at_dir (merged_dir dr mid ++ k) (deep_enter (merged_dir dr mid) w)) as ->.
  { unfold deep_enter. rewrite (leads_merged dr w mid m G W D Cd Em Ea k Sh), (usual_leads_dir w (merged_dir dr mid)) by done. reflexivity. }
  rewrite (command_steady dr _ c St). destruct (command_at dr _ c o _). reflexivity.
Qed.
