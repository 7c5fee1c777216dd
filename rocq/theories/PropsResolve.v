(** * PropsResolve: paths of users lead where the kernel says, and so does the option -C (C94) *)
From Verif Require Import Base Uid Tree Dump Save Branch Date Ws Fs Overlay Edits Os Layers Mounts Space Manager Commands FsProofs OsProofs SpecWorld SpecOps SpecMachine SpecCmds Sample SampleProofs Story SpecUsable
  StoryProofs PropsVcs Deep SpecDeep DeepProofs SpecResolve.
From Coq Require Import Lia.
From stdpp Require Import prelude gmap.

(** Paths lead where the rules say, through at most 40 links. *)
Lemma lead_rules k w : ∀ l p q, lead k w p l = Some q → ∃ n, n ≤ k ∧ resolves w n p l q.
Proof.
  induction k as [|k IHk]; intros l; induction l as [|c l IH]; intros p q; rewrite ?lead_nil, ?lead_cons.
  1,3: intros [= <-]; exists 0; split; [lia|constructor].
  all: destruct (decide (c = [] ∨ c = B ".")) as [D|D]; [intros H; apply IH in H as (n & L & H); exists n; split; [done|by constructor]|].
  all: destruct (decide (c = B "..")) as [->|D2]; [intros H; apply IH in H as (n & L & H); exists n; split; [done|by constructor]|].
  all: assert (is_name c) as Nc by (unfold is_name; tauto); destruct (obj_at w (p ++ [c])) as [[o|d|s|]|] eqn:E; try done.
  all: try (intros H; apply IH in H as (n & L & H); exists n; split; [done|by eapply rs_down]).
  all: try (destruct l; [|done]; intros [= <-]; exists 0; split; [lia|by eapply rs_file]).
  intros H. apply IHk in H as (n & L & H). exists (S n). split; [lia|]. destruct (is_abs s) eqn:Ea; [by eapply rs_absolute|by eapply rs_relative].
Qed.
Lemma rules_lead w n p l q : resolves w n p l q → ∀ k, n ≤ k → lead k w p l = Some q.
Proof.
  intros H. induction H as [p|n p c l q D H IH|n p l q H IH|n p c l q o Nc E H IH|p c x Nc E Px|n p c s l q Nc E Ea H IH|n p c s l q Nc E Ea H IH]; intros k L.
  - apply lead_nil.
  - rewrite lead_cons, decide_True by done. by apply IH.
  - rewrite lead_cons, decide_False by (intros [?|?]; discriminate). rewrite decide_True by done. by apply IH.
  - destruct Nc as (N1 & N2 & N3). rewrite lead_cons, decide_False by tauto. rewrite decide_False by done. rewrite E. by apply IH.
  - destruct Nc as (N1 & N2 & N3). rewrite lead_cons, decide_False by tauto. rewrite decide_False by done. rewrite E. by destruct x.
  - destruct Nc as (N1 & N2 & N3). rewrite lead_cons, decide_False by tauto. rewrite decide_False by done. rewrite E. destruct k as [|k]; [lia|]. rewrite Ea. apply IH. lia.
  - destruct Nc as (N1 & N2 & N3). rewrite lead_cons, decide_False by tauto. rewrite decide_False by done. rewrite E. destruct k as [|k]; [lia|]. rewrite Ea. apply IH. lia.
Qed.
Theorem C94_resolves : ∀ w p q, leads w p = Some q ↔ ∃ n, n ≤ 40 ∧ resolves w n [] p q.
Proof.
  intros w p q. split; [apply lead_rules|]. intros (n & L & H). exact (rules_lead _ _ _ _ _ H _ L).
Qed.
Print Assumptions C94_resolves.
(** Where a path leads has no links, and leads to itself. *)
Lemma real_dir_snoc w p c : real_dir w p → is_name c → dir_here w (p ++ [c]) = true → real_dir w (p ++ [c]).
Proof.
  intros [N D] Nc Dc. split; [apply Forall_app; split; [done|by constructor]|]. intros i Hi. rewrite app_length in Hi. cbn [length] in Hi.
  destruct (decide (i ≤ length p)) as [L|L]; [rewrite take_app_le by done; apply D; lia|]. rewrite take_ge by (rewrite app_length; cbn [length]; lia). done.
Qed.
Lemma real_dir_up w p : real_dir w p → real_dir w (parent_dir p).
Proof.
  intros [N D]. destruct p as [|c p] using rev_ind; [done|]. rewrite parent_dir_app. apply Forall_app in N as [N _]. split; [done|]. intros i Hi.
  specialize (D i). rewrite app_length in D. cbn [length] in D. rewrite take_app_le in D by lia. apply D. lia.
Qed.
Lemma resolves_real w n p l q : resolves w n p l q → real_dir w p → real w q.
Proof.
  intros H. induction H as [p|n p c l q D H IH|n p l q H IH|n p c l q o Nc E H IH|p c x Nc E Px|n p c s l q Nc E Ea H IH|n p c s l q Nc E Ea H IH]; intros R.
  - by left.
  - by apply IH.
  - by apply IH, real_dir_up.
  - apply IH, real_dir_snoc; [done|done|]. unfold dir_here. by rewrite E.
  - right. by exists p, c, x.
  - apply IH. split; [constructor|]. cbn [length]. lia.
  - by apply IH.
Qed.
Lemma real_dir_resolves w q : real_dir w q → ∀ l r n, resolves w n q l r → resolves w n [] (q ++ l) r.
Proof.
  induction q as [|c q IH] using rev_ind; intros R l r n H; [done|]. rewrite <-app_assoc. pose proof (real_dir_up _ _ R) as R2. rewrite parent_dir_app in R2. apply IH; [done|]. cbn [app].
  destruct R as [N D]. apply Forall_app in N as [_ Nc]. inversion_clear Nc as [|? ? Hc _]. specialize (D (length (q ++ [c]))). rewrite take_ge in D by lia. rewrite app_length in D. cbn [length] in D. specialize (D ltac:(lia)).
  unfold dir_here in D. destruct (obj_at w (q ++ [c])) as [[o|d|s|]|] eqn:E; try done. by eapply rs_down.
Qed.
Theorem C94_real : ∀ w p q, leads w p = Some q → real w q ∧ leads w q = Some q.
Proof.
  intros w p q H. apply C94_resolves in H as (n & _ & H). apply resolves_real in H; [|split; [constructor|cbn [length]; lia]]. split; [done|]. apply C94_resolves. exists 0. split; [lia|].
  destruct H as [R|(d & c & x & -> & R & Nc & E & Px)].
  - rewrite <-(app_nil_r q) at 1. apply real_dir_resolves; [done|constructor].
  - apply real_dir_resolves; [done|]. by eapply rs_file.
Qed.
Print Assumptions C94_real.
(** Of the mounts that a path is in, it is in the topmost. *)
Theorem C94_topmost : ∀ ms q, (∀ m, mount_over ms q = Some m → topmost ms q m) ∧ (mount_over ms q = None ↔ ∀ m, m ∈ ms → is_prefix (mn_at m) q = false).
Proof.
  induction ms as [|m ms IH]; intros q; [split; [done|]; split; [intros _ m Hm; by apply elem_of_nil in Hm|done]|]. destruct (IH q) as [IH1 IH2]. cbn [mount_over].
  destruct (mount_over ms q) as [m'|] eqn:E.
  - destruct (IH1 m' eq_refl) as (P & l1 & l2 & -> & H1 & H2).
    assert (is_prefix (mn_at m) q && (length (mn_at m') <=? length (mn_at m)) = true ∨ (is_prefix (mn_at m) q = true → length (mn_at m) < length (mn_at m')) ∧ is_prefix (mn_at m) q && (length (mn_at m') <=? length (mn_at m)) = false) as [Q|[Q Q2]].
    { destruct (is_prefix (mn_at m) q); [|by right]. destruct (Nat.leb_spec (length (mn_at m')) (length (mn_at m))) as [L|L]; [by left|right; split; [lia|done]]. }
    + rewrite Q. apply andb_true_iff in Q as [Q1 Q2]. apply Nat.leb_le in Q2. split; [|split; [done|intros X; specialize (X m ltac:(by left)); congruence]].
      intros m2 [= <-]. split; [done|]. exists [], (l1 ++ m' :: l2). split; [done|]. split; [intros m2 Hm; by apply elem_of_nil in Hm|]. intros m2 Hm P2. apply elem_of_app in Hm as [Hm|Hm]; [specialize (H1 _ Hm P2); lia|].
      apply elem_of_cons in Hm as [->|Hm]; [lia|]. specialize (H2 _ Hm P2). lia.
    + rewrite Q2. split; [|split; [done|intros X; specialize (X m' ltac:(apply elem_of_list_further, elem_of_app; right; by left)); congruence]].
      intros m2 [= <-]. split; [done|]. exists (m :: l1), l2. split; [done|]. split; [|done]. intros m2 Hm P2. apply elem_of_cons in Hm as [->|Hm]; [by apply Q|by apply H1].
  - destruct IH2 as [IH2 _]. specialize (IH2 eq_refl). destruct (is_prefix (mn_at m) q) eqn:P.
    + split; [|split; [done|intros X; specialize (X m ltac:(by left)); congruence]]. intros m2 [= <-]. split; [done|]. exists [], ms. split; [done|]. split; [intros m2 Hm; by apply elem_of_nil in Hm|]. intros m2 Hm P2. rewrite IH2 in P2 by done. done.
    + split; [done|]. split; [|done]. intros _ m2 Hm. apply elem_of_cons in Hm as [->|Hm]; [done|by apply IH2].
Qed.
Print Assumptions C94_topmost.
(** The path that os.Getwd gives leads to the working directory; it is PWD if that leads there. *)
Theorem C94_getwd : ∀ w, leads w (w_cwd w) = Some (w_cwd w) → leads w (deep_getwd_of w) = Some (w_cwd w) ∧ ∀ p, w_pwd w = Some p → leads w p = Some (w_cwd w) → deep_getwd_of w = p.
Proof.
  intros w H. unfold deep_getwd_of. destruct (w_pwd w) as [p|]; [|split; [done|intros p Q; discriminate Q]]. destruct (decide (leads w p = Some (w_cwd w))) as [E|E].
  - split; [done|]. intros p' Q _. congruence.
  - split; [done|]. intros p' Q Q2. congruence.
Qed.
Print Assumptions C94_getwd.
(** With the option -C a process goes on exactly as one that is started in a shell which has changed to that path, or it stops. *)
Definition aged (k : nat) (w : world) : world := World (w_fs w) (w_mounts w) (w_tree w) (w_cwd w) (w_pwd w) (w_out w) (k + w_tick w) (w_ids w) (w_owned w).
Theorem C94_option : ∀ w d arg o, no_faults o → leads w d = Some (w_cwd (deep_enter d w)) → dir_here w (w_cwd (deep_enter d w)) = true → arg ≠ [] →
  let p := Fs.abs_from d arg in
  (∀ q, leads w p = Some q → dir_here w q = true → ∃ k, deep_change_dir arg o (deep_enter d w) = (Ok tt, aged k (deep_enter p w))) ∧
  ((∀ q, leads w p = Some q → dir_here w q = false) → ∃ e k, deep_change_dir arg o (deep_enter d w) = (Err e, aged k (deep_enter d w))).
Proof.
  intros w d arg o N Ld Dd Na p. unfold deep_change_dir. destruct arg as [|a0 arg']; [done|]. set (arg := a0 :: arg') in *. clearbody arg.
  assert (deep_getwd_of (deep_enter d w) = d) as Eg.
  { unfold deep_getwd_of. change (w_pwd (deep_enter d w)) with (Some d). cbv iota beta. rewrite decide_True; [done|]. rewrite (leads_ext w) by reflexivity. exact Ld. }
  set (k := if is_abs arg then 0 else 1).
  assert (deep_abs arg o (deep_enter d w) = (Ok p, aged k (deep_enter d w))) as Ea.
  { unfold deep_abs, p, Fs.abs_from, k. destruct (is_abs arg); [reflexivity|]. unfold deep_getwd, bind, look, sys_atomic. rewrite (N (w_tick (deep_enter d w))). cbv beta iota.
    rewrite (getwd_ext (deep_enter d w)) by reflexivity. rewrite Eg.
    assert (dir_here (tick (deep_enter d w)) d || bool_decide (d ≠ w_cwd (tick (deep_enter d w))) = true) as ->; [|reflexivity].
    destruct (decide (d = w_cwd (deep_enter d w))) as [Q|Q].
    - apply orb_true_iff. left. rewrite (dir_ext w) by reflexivity. rewrite Q. exact Dd.
    - apply orb_true_iff. right. apply bool_decide_eq_true. exact Q. }
  unfold bind. rewrite Ea. unfold deep_chdir, sys_atomic. rewrite (N (w_tick (aged k (deep_enter d w)))). cbv beta iota. rewrite (leads_ext w (tick (aged k (deep_enter d w)))) by reflexivity. split.
  - intros q Eq Dq. rewrite Eq. rewrite (dir_ext w (tick (aged k (deep_enter d w)))) by reflexivity. rewrite Dq. exists (S k). unfold modify, deep_enter, aged. rewrite Eq. reflexivity.
  - intros Hq. destruct (leads w p) as [q|].
    + rewrite (dir_ext w (tick (aged k (deep_enter d w)))) by reflexivity. rewrite (Hq q eq_refl). exists ENOTDIR, (S k). reflexivity.
    + exists ENOENT, (S k). reflexivity.
Qed.
Print Assumptions C94_option.
(** The text after -C is first made clean. If it has no "..", it leads where the kernel says that the text leads from the working directory. *)
Definition not_dot (c : bytes) : Prop := c ≠ [] ∧ c ≠ B ".".
Global Instance not_dot_dec c : Decision (not_dot c). Proof. unfold not_dot. apply _. Defined.
Lemma walk_names d l : B ".." ∉ l → walk d l = d ++ filter not_dot l.
Proof.
  revert d. unfold walk. induction l as [|c l IH]; intros d H; [by rewrite app_nil_r|]. apply not_elem_of_cons in H as [H1 H2]. cbn [foldl]. rewrite IH by done. rewrite filter_cons. unfold clean_step.
  destruct (decide (c = [] ∨ c = B ".")) as [D|D].
  - rewrite decide_False by (unfold not_dot; tauto). done.
  - rewrite decide_False by (intros ->; by apply H1). rewrite decide_True by (unfold not_dot; tauto). by rewrite <-app_assoc.
Qed.
Lemma lead_clean k w q : dir_here w q = true → ∀ l1 l p, lead k w p (l1 ++ filter not_dot l) = Some q ↔ lead k w p (l1 ++ l) = Some q.
Proof.
  intros D. induction k as [|k IHk]; intros l1; (induction l1 as [|c l1 IH1]; intros l; [induction l as [|c l IH]|]); intros p; cbn [app]; try done.
  1,3: rewrite filter_cons; destruct (decide (not_dot c)) as [Nd|Nd]; [|rewrite (lead_cons _ _ _ c l), decide_True by (unfold not_dot in Nd; destruct (decide (c = [])); [by left|right; apply dec_stable; tauto]); apply IH].
  all: rewrite !lead_cons.
  1,2: cbn [app] in IH; destruct Nd as [Nd1 Nd2]; rewrite !(decide_False (P := c = [] ∨ c = B ".")) by tauto.
  3,4: destruct (decide (c = [] ∨ c = B ".")); [apply IH1|].
  all: destruct (decide (c = B "..")); [first [apply IH|apply IH1]|].
  all: destruct (obj_at w (p ++ [c])) as [[o|dt|s|]|] eqn:E; try done; try (first [apply IH|apply IH1]).
  all: try (rewrite !app_assoc; apply IHk). all: try apply IHk.
  all: assert (p ++ [c] ≠ q) as Nq by (intros <-; unfold dir_here in D; rewrite E in D; discriminate D).
  all: split; intros H; exfalso; (repeat case_match; congruence).
Qed.
Theorem C94_text : ∀ w d arg q, good_path d → real_dir w d → B ".." ∉ split_slash arg → dir_here w q = true →
  leads w (Fs.abs_from d arg) = Some q ↔ ∃ n, n ≤ 40 ∧ resolves w n (if is_abs arg then [] else d) (split_slash arg) q.
Proof.
  intros w d arg q G [_ R] Nu D.
  assert (leads w (Fs.abs_from d arg) = lead 40 w (if is_abs arg then [] else d) (filter not_dot (split_slash arg))) as ->.
  { unfold leads, Fs.abs_from, pjoin. destruct (is_abs arg); rewrite walk_names by done; [done|]. apply (lead_dirs 40 w d []); done. }
  rewrite (lead_clean 40 w q D [] (split_slash arg)). cbn [app]. split; [apply lead_rules|]. intros (n & L & H). exact (rules_lead _ _ _ _ _ H _ L).
Qed.
Print Assumptions C94_text.
(** With ".." it need not: [-C w/..] stays in the directory of the workspace w, while the kernel goes up from where the link leads, into the data root. *)
Lemma up_test : then_ok (run_cmd sample_dr (CInit [B "w"] (B "main")) calm (enter home sample_world)) (λ _ w1,
  bool_decide (leads w1 home = Some home) && dir_here w1 home && bool_decide (leads w1 (Fs.abs_from home (B "w/..")) = Some home) &&
  match lead 40 w1 home (split_slash (B "w/..")) with Some q => dir_here w1 q && bool_decide (q ≠ home) && is_prefix sample_dr q | None => false end &&
  match leads w1 (Fs.abs_from home (B "w/.")), lead 40 w1 home (split_slash (B "w/.")) with Some q, Some q' => bool_decide (q = q') && dir_here w1 q && bool_decide (q ≠ wdir) | _, _ => false end) = true.
Proof. vm_compute. reflexivity. Qed.
Theorem C94_text_refuted : ∃ w q n, good_path home ∧ leads w home = Some home ∧ dir_here w home = true ∧ n ≤ 40 ∧ resolves w n home (split_slash (B "w/..")) q ∧ dir_here w q = true ∧
  is_prefix sample_dr q = true ∧ leads w (Fs.abs_from home (B "w/..")) = Some home ∧ q ≠ home.
Proof.
  destruct (then_ok_inv _ _ up_test) as ([] & w1 & _ & H). cbv beta in H. apply andb_true_iff in H as [H _]. apply andb_true_iff in H as [H H4]. apply andb_true_iff in H as [H H3]. apply andb_true_iff in H as [H1 H2].
  apply bool_decide_eq_true in H1. apply bool_decide_eq_true in H3.
  destruct (lead 40 w1 home (split_slash (B "w/.."))) as [q|] eqn:E; [|discriminate H4]. apply andb_true_iff in H4 as [H4 H6]. apply andb_true_iff in H4 as [H4 H5]. apply bool_decide_eq_true in H5.
  destruct (lead_rules _ _ _ _ _ E) as (n & L & Rs). exists w1, q, n. split; [|split; [exact H1|split; [exact H2|split; [exact L|split; [exact Rs|split; [exact H4|split; [exact H6|split; [exact H3|exact H5]]]]]]]].
  repeat constructor; try (vm_compute; discriminate). vm_compute. intros Q. inversion Q as [|? ? ? Q2]; inversion Q2.
Qed.
Print Assumptions C94_text_refuted.
Example C94_sat : ∃ w q, leads w home = Some (w_cwd (deep_enter home w)) ∧ dir_here w (w_cwd (deep_enter home w)) = true ∧ B ".." ∉ split_slash (B "w/.") ∧
  leads w (Fs.abs_from home (B "w/.")) = Some q ∧ dir_here w q = true ∧ q ≠ wdir ∧ real w q ∧ ∃ n, n ≤ 40 ∧ resolves w n home (split_slash (B "w/.")) q.
Proof.
  destruct (then_ok_inv _ _ up_test) as ([] & w1 & _ & H). cbv beta in H. apply andb_true_iff in H as [H H5]. apply andb_true_iff in H as [H _]. apply andb_true_iff in H as [H H3]. apply andb_true_iff in H as [H1 H2].
  apply bool_decide_eq_true in H1. destruct (leads w1 (Fs.abs_from home (B "w/."))) as [q|] eqn:E; [|discriminate H5]. destruct (lead 40 w1 home (split_slash (B "w/."))) as [q'|] eqn:E'; [|discriminate H5].
  apply andb_true_iff in H5 as [H5 H7]. apply andb_true_iff in H5 as [H5 H6]. apply bool_decide_eq_true in H5 as <-. apply bool_decide_eq_true in H7.
  assert (w_cwd (deep_enter home w1) = home) as Ec. { unfold deep_enter. cbn [set_pwd set_cwd set_tree w_cwd]. rewrite H1. reflexivity. }
  exists w1, q. rewrite Ec. split; [exact H1|]. split; [exact H2|]. split; [vm_compute; intros Q; inversion Q as [|? ? ? Q2]; inversion Q2 as [|? ? ? Q3]; inversion Q3|]. split; [exact E|]. split; [exact H6|]. split; [exact H7|].
  split; [exact (proj1 (C94_real _ _ _ E))|exact (lead_rules _ _ _ _ _ E')].
Qed.
Print Assumptions C94_sat.
