(** * PropsLocks: goroutines that share a tree (C55, C56) *)
From Verif Require Import Base Uid UidProofs Tree SpecTree TreeRefine TreeObs PropsTree Locks SpecLocks LockProofs LinProofs.
From Coq Require Import Lia.
From stdpp Require Import prelude gmap.

(** [s] is reached from the tree [t] by goroutines that do [cs]; [h] was seen. *)
Definition reached (t : tstate) (cs : list client) (s : system) (h : list event) : Prop := ∃ l, exec l (start t cs) = Some (s, h).
(** The IDs of the nodes that were made and passed to AddNode *)
Definition made (c : kcall) : list uid := match c with KAddNew _ id => [id] | _ => [] end.
Definition all_made (h : list event) : list uid := h ≫= (λ e, match e with EInv _ c => made c | ERet _ _ => [] end).
(** Calls other than Search, and AddNode with a new node only *)
Definition ordinary (c : kcall) : Prop := match c with KSearch _ | KAddNode _ _ => False | _ => True end.

(** ** C55, the part that holds *)
(** Any goroutines, any calls (Search and the methods of nodes included), any schedule: if nobody can move everybody has finished. *)
Theorem C55_no_deadlock_partial : ∀ t cs s h, reached t cs s h → (∀ i, step_of s i = None) → Forall at_end (sy_threads s).
Proof. intros t cs s h [l H] Hn. apply no_deadlock; [|done]. eapply exec_fine; [|exact H]. apply start_fine. Qed.
(** There is no schedule without end, except one where a call loops for ever by itself. *)
Theorem C55_schedules_end_partial : ∀ f : nat → system, ¬ ∀ n, after (f (S n)) (f n).
Proof.
  intros f H. assert (∀ s, Acc after s → ∀ n, f n = s → False) as HA; [|by eapply (HA (f 0) (after_wf _) 0)].
  induction 1 as [s _ IH]. intros n <-. by eapply (IH (f (S n)) (H n) (S n)).
Qed.
Lemma tspec_has a c a' r id : tspec a c a' r → has a' id → has a id ∨ ∃ p, c = TAddNode p id.
Proof.
  assert (∀ x n, has (put_node a x n) id → has a id ∨ id = x) as Hp.
  { intros x n [m Hm]. cbn in Hm. apply lookup_insert_Some in Hm as [[-> _]|[_ Hm]]; [by right|left; by exists m]. }
  intros H Hh. inversion H; subst; try (by left); apply Hp in Hh as [?| ->]; auto; try (right; by eexists); left; eexists; eassumption.
Qed.
(** The calls that change something, as calls of [SpecTree.v] *)
Definition as_tcall (c : kcall) : option tcall :=
  match c with
  | KAddNew p id => Some (TAddNode p id) | KAddTag n id => Some (TAddTag n id) | KDeleteTag n => Some (TDeleteTag n)
  | KAddBranch n id => Some (TAddBranch n id) | KUpdateBranch n id f => Some (TUpdateBranch n id f) | KDeleteBranch n => Some (TDeleteBranch n)
  | _ => None
  end.
Lemma tree_call_ok t a c : repr t a → ordinary c → (∀ id, id ∈ made c → ¬ has a id) →
  ∃ t' r a', tree_call t c = Ok (t', r) ∧ repr t' a' ∧ ∀ id, has a' id → has a id ∨ id ∈ made c.
Proof.
  intros R Ho Hm. destruct (as_tcall c) as [tc|] eqn:E.
  - assert (fresh_call a tc) as F. { destruct c; cbn in *; try done; injection E as <-; try done. cbn. apply Hm. by left. }
    destruct (run_call_refines t a tc R F) as (t' & a' & r & E1 & S1 & R').
    assert (∀ id, has a' id → has a id ∨ id ∈ made c) as Hh.
    { intros id Hid. destruct (tspec_has _ _ _ _ _ S1 Hid) as [?|[p ->]]; [by left|right]. destruct c; cbn in *; try done. injection E as -> ->. by left. }
    exists t'. destruct c; cbn in E; try done; injection E as <-; cbn [run_call tree_call] in *.
    + destruct (alloc_node t (new_node id)) as [t1 l]. destruct (add_node t1 parent l); try done; injection E1 as <- <-; eauto.
    + destruct (add_tag t name id); try done; injection E1 as <- <-; eauto.
    + destruct (delete_tag t name); injection E1 as <- <-; eauto.
    + destruct (add_branch t name id); try done; injection E1 as <- <-; eauto.
    + destruct (update_branch t name id force); try done; injection E1 as <- <-; eauto.
    + destruct (delete_branch t name); injection E1 as <- <-; eauto.
  - exists t. destruct c; cbn in *; try done; eexists _, a; (split; [reflexivity|]); (split; [done|]); auto.
Qed.
Definition pending (m : amode) : list uid := match m with ACalled c _ => made c | _ => [] end.
Definition good_mode (m : amode) : Prop :=
  match m with AIdle c => uses_only ordinary c | ACalled c next => ordinary c ∧ ∀ a, uses_only ordinary (next a) | AAnswered _ next => ∀ a, uses_only ordinary (next a) end.
Lemma pending_insert ms i m m' : ms !! i = Some m → ∃ rest, (ms ≫= pending) ≡ₚ pending m ++ rest ∧ (<[i := m']> ms ≫= pending) ≡ₚ pending m' ++ rest.
Proof.
  intros E. exists ((take i ms ≫= pending) ++ (drop (S i) ms ≫= pending)). pose proof (lookup_lt_Some _ _ _ E) as L. split.
  - rewrite <- (take_drop_middle ms i m E) at 1. rewrite bind_app. cbn. rewrite !app_assoc. by rewrite (Permutation_app_comm (pending m)).
  - rewrite insert_take_drop by done. rewrite bind_app. cbn. rewrite !app_assoc. by rewrite (Permutation_app_comm (pending m')).
Qed.
Lemma all_made_app h1 h2 : all_made (h1 ++ h2) = all_made h1 ++ all_made h2.
Proof. apply bind_app. Qed.
Lemma atomic_repr t a cs h y : repr t a → Forall (uses_only ordinary) cs → atomic (at_start t cs) h y →
  NoDup (all_made h) → (∀ id, id ∈ all_made h → ¬ has a id) →
  Forall good_mode y.2 ∧ ∃ a' gone, repr y.1 a' ∧ all_made h ≡ₚ gone ++ (y.2 ≫= pending) ∧ ∀ id, has a' id → has a id ∨ id ∈ gone.
Proof.
  intros R Hu H. remember (at_start t cs) as x eqn:Ex. induction H as [x|x h y ev z H IH Hst]; intros ND Hf.
  - subst x. cbn. split; [by apply Forall_fmap|]. exists a, []. split; [done|]. split; [|by left]. cbn. induction cs; [done|]. cbn. apply IHcs. by inversion Hu.
  - rewrite all_made_app in ND, Hf. apply NoDup_app in ND as (ND & Hdis & ND2). destruct (IH Ex ND) as (Hg & a' & gone & R' & Hp & Hh); [intros id Hid; apply Hf, elem_of_app; by left|].
    rewrite all_made_app. inversion Hst as [t0 ms i c next Em|t0 ms i c next t1 an Em Hc|t0 ms i an next Em]; subst; cbn [fst snd] in *.
    + pose proof (Forall_lookup_1 _ _ _ _ Hg Em) as Hm. cbn in Hm. inversion Hm as [|c' n' Hc Hn]; subst. split; [by apply Forall_insert|].
      exists a', gone. split; [done|]. split; [|done]. destruct (pending_insert ms i _ (ACalled c next) Em) as (rest & E1 & E2). rewrite E2, Hp, E1. cbn. rewrite app_nil_r, <- app_assoc. by rewrite (Permutation_app_comm rest).
    + pose proof (Forall_lookup_1 _ _ _ _ Hg Em) as [Ho Hn]. split; [by apply Forall_insert|]. destruct (pending_insert ms i _ (AAnswered an next) Em) as (rest & E1 & E2). cbn [pending] in E1, E2.
      assert (∀ id, id ∈ made c → ¬ has a' id) as Hfresh.
      { intros id Hid Hha. assert (id ∈ all_made h) as Hin by (rewrite Hp, E1; set_solver). destruct (Hh id Hha) as [Ha|Hgone]; [eapply Hf; [|exact Ha]; set_solver|].
        rewrite Hp, E1 in ND. apply NoDup_app in ND as (_ & Hd & _). eapply (Hd id Hgone). set_solver. }
      destruct (tree_call_ok t0 a' c R' Ho Hfresh) as (t2 & r2 & a2 & Ec & R2 & Hh2). rewrite Hc in Ec. injection Ec as <- <-.
      exists a2, (gone ++ made c). split; [done|]. split.
      * rewrite E2, Hp, E1. cbn. rewrite app_nil_r. by rewrite app_assoc.
      * intros id Hid. destruct (Hh2 id Hid) as [Ha'|Hin]; [destruct (Hh id Ha') as [?|?]; [by left|right; set_solver]|right; set_solver].
    + pose proof (Forall_lookup_1 _ _ _ _ Hg Em) as Hn. cbn in Hn. split; [apply Forall_insert; [done|apply Hn]|]. exists a', gone. split; [done|]. split; [|done].
      destruct (pending_insert ms i _ (AIdle (next an)) Em) as (rest & E1 & E2). rewrite E2, Hp, E1. cbn. by rewrite app_nil_r.
Qed.
(** A tree that is in order, new nodes with IDs of their own: no call loops or panics, in any schedule; with the two theorems above, every call returns. *)
Theorem C55_calls_return_partial : ∀ t a cs s h, repr t a → Forall (uses_only ordinary) cs → reached t cs s h →
  NoDup (all_made h) → (∀ id, id ∈ all_made h → ¬ has a id) →
  (∀ th, th ∈ sy_threads s → ¬ stopped th) ∧ ((∀ i, step_of s i = None) → Forall at_end (sy_threads s)).
Proof.
  intros t a cs s h R Hu [l H] ND Hf. split; [|apply C55_no_deadlock_partial with t cs h; by exists l].
  assert (∀ c, uses_only ordinary c → uses_only single c) as Hsub.
  { induction 1 as [|c next Hc Hn IH]; constructor; [by destruct c|done]. }
  assert (Forall (uses_only single) cs) as Hu' by (eapply Forall_impl; [exact Hu|exact Hsub]).
  destruct (exec_sim _ [] l _ _ _ _ (start_fine t cs) (atomic_nil _) (sim_start t cs Hu') H) as ([α ms] & Ha & HS). cbn [app] in Ha.
  destruct (atomic_repr t a cs h _ R Hu Ha ND Hf) as (Hg & a' & gone & R' & Hp & Hh). cbn [fst snd] in *.
  intros th Hin (r & next & Em). apply elem_of_list_lookup in Hin as [i Ei]. destruct (sim_threads _ _ HS i th Ei) as (m & Emm & Hm). cbn [fst snd] in *.
  destruct Hm as [c _|p n held c Hn Ht Hr|p n held an Hn Ht Hr]; cbn [th_mode] in Em; [done| |].
  - injection Em as -> ->. cbn [two_phase] in Ht. specialize (Hr α ltac:(done)). rewrite code_run in Hr. cbn [run] in Hr.
    pose proof (Forall_lookup_1 _ _ _ _ Hg Emm) as [Ho _]. destruct (pending_insert ms i _ (AIdle CEnd) Emm) as (rest & E1 & _). cbn [pending] in E1.
    destruct (tree_call_ok α a' c R' Ho) as (t2 & r2 & a2 & Ec & _).
    { intros id Hid Hha. destruct (Hh id Hha) as [Hx|Hx]; [eapply Hf; [|exact Hx]; rewrite Hp, E1; set_solver|].
      rewrite Hp, E1 in ND. apply NoDup_app in ND as (_ & Hd & _). eapply (Hd id Hx). set_solver. }
    rewrite Ec in Hr. subst r. by destruct Ht.
  - injection Em as -> ->. by destruct Ht.
Qed.
(** ** C55, the part that fails *)
(** Nobody looks at whether the node to add is an ancestor of its parent: the walk over the children then goes round for ever, with the lock held,
    and every other call that needs the nodes waits for ever. *)
Definition tree_A : tstate := match run_calls new_tree [TAddNode None idA; TAddBranch (B "v") idA] with Ok (t, _) => t | _ => new_tree end.
Definition once (c : kcall) : client := CCall c (λ _, CEnd).
Lemma stuck_pair s th0 th1 r n0 k p n1 : sy_threads s = [th0; th1] → th_mode th0 = TRun (PStop r) n0 → th_mode th1 = TRun (PRLock k p) n1 →
  (k, HWrite) ∈ th_held th0 → ∀ l s' h, exec l s = Some (s', h) → s' = s ∧ h = [].
Proof.
  intros Es E0 E1 Hk l. induction l as [|i l IH]; intros s' h H; cbn [exec] in H; [by injection H as <- <-|]. destruct (step_of s i) as [[s1 ev]|] eqn:Est; [|done].
  assert (s1 = s ∧ ev = []) as [-> ->].
  { unfold step_of in Est. rewrite Es in Est. destruct i as [|[|i]]; cbn [lookup list_lookup] in Est.
    - unfold thread_step in Est. rewrite E0 in Est. cbn in Est. injection Est as <- <-. split; [|done]. rewrite <- Es. by destruct s.
    - unfold thread_step in Est. rewrite E1 in Est. assert (held_so as_writer k [th0; th1] = true) as Hb; [|by rewrite Hb in Est]. apply held_so_true. exists 0, th0, HWrite. done.
    - by destruct i. }
  destruct (exec l s) as [[s2 ev']|] eqn:E; [|done]. injection H as <- <-. by apply IH.
Qed.
Definition stuck_at (o : option (system * list event)) : bool :=
  match o with
  | Some (System _ [Thread (TRun (PStop r) _) held; Thread (TRun (PRLock k _) _) _], _) => bool_decide (k = LTree VNodes) && bool_decide ((LTree VNodes, HWrite) ∈ held)
  | _ => false
  end.
Lemma stuck_shape o : stuck_at o = true → ∃ σ r n0 held p n1 held1 h,
  o = Some (System σ [Thread (TRun (PStop r) n0) held; Thread (TRun (PRLock (LTree VNodes) p) n1) held1], h) ∧ (LTree VNodes, HWrite) ∈ held.
Proof.
  intros T. destruct o as [[[σ ths] h]|]; [|done]. destruct ths as [|[[c0|p0 n0] held] [|[[c1|p1 n1] held1] [|? ?]]]; try done; try (by destruct p0).
  - destruct p0 as [| | | | | | | |r]; try done. destruct p1 as [|k p| | | | | | |]; try done. apply andb_true_iff in T as [T1 T2].
    apply bool_decide_eq_true in T1 as ->. apply bool_decide_eq_true in T2. by exists σ, r, n0, held, p, n1, held1, h.
  - destruct p0; try done. by destruct p1.
Qed.
Lemma stuck_test : stuck_at (exec (replicate 25 0 ++ [1]) (start tree_A [once (KAddNode (Some idA) 0); once (KGet idA)])) = true.
Proof. vm_compute. reflexivity. Qed.
Theorem C55_never_stuck_refuted : ∃ t a s h, repr t a ∧ reached t [once (KAddNode (Some idA) 0); once (KGet idA)] s h ∧
  ∀ l s' h', exec l s = Some (s', h') → h' = [] ∧ ∀ th, th ∈ sy_threads s' → ¬ at_end th.
Proof.
  assert (∃ a, repr tree_A a) as [a Ra].
  { destruct (run_calls_refines [TAddNode None idA; TAddBranch (B "v") idA] new_tree empty_atree repr_new) as (t' & a' & rs & E & _ & R).
    { split; [|done]. intros [n Hn]. cbn in Hn. by rewrite lookup_empty in Hn. }
    exists a'. unfold tree_A. by rewrite E. }
  destruct (stuck_shape _ stuck_test) as (σ & r & n0 & held & p & n1 & held1 & h & E & T2).
  exists tree_A, a, (System σ [Thread (TRun (PStop r) n0) held; Thread (TRun (PRLock (LTree VNodes) p) n1) held1]), h. split; [exact Ra|]. split; [exists (replicate 25 0 ++ [1]); exact E|]. clear E.
  intros l' s' h' H'.
  destruct (stuck_pair (System σ [Thread (TRun (PStop r) n0) held; Thread (TRun (PRLock (LTree VNodes) p) n1) held1]) (Thread (TRun (PStop r) n0) held) (Thread (TRun (PRLock (LTree VNodes) p) n1) held1) r n0 _ p n1 eq_refl eq_refl eq_refl T2 l' s' h' H') as [-> ->].
  split; [reflexivity|]. intros th Hin. cbn [sy_threads] in Hin. apply elem_of_cons in Hin as [->|Hin]; [discriminate|]. apply elem_of_list_singleton in Hin as ->. discriminate.
Qed.
Print Assumptions C55_no_deadlock_partial.
Print Assumptions C55_schedules_end_partial.
Print Assumptions C55_calls_return_partial.
Print Assumptions C55_never_stuck_refuted.

(** ** C56, the part that holds *)
(** Without Search: what is seen of any number of goroutines in any schedule is also seen when each call happens at one moment between its start and its answer, by
    the functions of [Tree.v]; and when all have finished the tree is the one that these leave behind. *)
Theorem C56_one_at_a_time_partial : ∀ t cs s h, Forall (uses_only single) cs → reached t cs s h →
  ∃ y, atomic (t, AIdle <$> cs) h y ∧ ((∀ th, th ∈ sy_threads s → ∃ c, th_mode th = TIdle c) → y.1 = sy_store s).
Proof.
  intros t cs s h Hu [l H]. destruct (exec_sim _ [] l _ _ _ _ (start_fine t cs) (atomic_nil _) (sim_start t cs Hu) H) as (y & Ha & HS).
  exists y. split; [exact Ha|]. intros Hidle. apply part_ext. intros v. apply (sim_store _ _ HS). intros i th c next Ei Em Hin.
  destruct (sim_threads _ _ HS i th Ei) as (m & Em' & Hm). rewrite Em in Em'. injection Em' as <-. destruct (Hidle th) as [c' Hc']; [by eapply elem_of_list_lookup_2|].
  inversion Hm; subst. done.
Qed.
(** Nobody writes a part of the tree while another one reads or writes it (all calls). *)
Definition accesses (th : thread) (v : var) : Prop := (∃ f next, th_mode th = TRun (PRead v f) next) ∨ (∃ t p next, th_mode th = TRun (PWrite v t p) next).
Theorem C56_no_race : ∀ t cs s h i j thi thj v t' p next, reached t cs s h → i ≠ j → sy_threads s !! i = Some thi → sy_threads s !! j = Some thj →
  th_mode thi = TRun (PWrite v t' p) next → ¬ accesses thj v.
Proof.
  intros t cs s h i j thi thj v t' p next [l H] N Ei Ej Em Hacc. destruct (exec_fine l _ _ _ (start_fine t cs) H) as [Hok Hal].
  pose proof (Forall_lookup_1 _ _ _ _ Hok Ei) as Hi. pose proof (Forall_lookup_1 _ _ _ _ Hok Ej) as Hj. unfold thread_ok in Hi, Hj. rewrite Em in Hi. destruct Hi as [Hw _].
  destruct Hacc as [(f & n & Ef)|(t2 & p2 & n & Ef)]; rewrite Ef in Hj.
  - destruct Hj as [[Hh|Hh] _]; destruct (Hal i j thi thj _ _ _ N Ei Ej Hw Hh) as [[? ?]|[[? ?]|[? ?]]]; done.
  - destruct Hj as [Hh _]; destruct (Hal i j thi thj _ _ _ N Ei Ej Hw Hh) as [[? ?]|[[? ?]|[? ?]]]; done.
Qed.
(** ** C56, the part that fails *)
(** A name that is a branch is made a tag and then deleted as branch, so that it exists all the time; Search looks among the tags before and among the branches after, and does not
    find it. No order of the calls explains that. *)
Definition searcher : client := once (KSearch (B "v")).
Definition renamer : client := CCall (KAddTag (B "v") idA) (λ _, once (KDeleteBranch (B "v"))).
Definition not_found : list event :=
  [EInv 0 (KSearch (B "v")); EInv 1 (KAddTag (B "v") idA); ERet 1 (KaErr None); EInv 1 (KDeleteBranch (B "v")); ERet 1 (KaBool true); ERet 0 (KaFound None)].
Inductive stage (t : tstate) : list amode → Prop :=
  | st_intro m0 m1 :
      m0 = AIdle searcher ∨ (∃ n, m0 = ACalled (KSearch (B "v")) n ∧ ∀ a, n a = CEnd) ∨ (∃ x n, m0 = AAnswered (KaFound (Some x)) n ∧ ∀ a, n a = CEnd) ∨ m0 = AIdle CEnd →
      is_Some (get t idA) →
      (is_Some (get_by_branch t (B "v")) ∧ (m1 = AIdle renamer ∨ ∃ n, m1 = ACalled (KAddTag (B "v") idA) n ∧ ∀ a, n a = once (KDeleteBranch (B "v"))) ∨
       is_Some (get_by_tag t (B "v")) ∧ ((∃ a n, m1 = AAnswered a n ∧ ∀ a, n a = once (KDeleteBranch (B "v"))) ∨ m1 = AIdle (once (KDeleteBranch (B "v"))) ∨
         (∃ n, m1 = ACalled (KDeleteBranch (B "v")) n ∧ ∀ a, n a = CEnd) ∨ (∃ a n, m1 = AAnswered a n ∧ ∀ a, n a = CEnd) ∨ m1 = AIdle CEnd)) →
      stage t [m0; m1].
Lemma search_finds t : is_Some (get_by_tag t (B "v")) ∨ is_Some (get_by_branch t (B "v")) → ∃ x, search t (B "v") = Ok (Some x).
Proof.
  intros H. assert (∃ e, decode_hex (B "v") = Err e) as [e E] by (eexists; vm_compute; reflexivity).
  assert (∃ e', decode_b32 (B "v") = Err e') as [e' E'] by (eexists; vm_compute; reflexivity). unfold search. rewrite E, E'.
  destruct (get_by_tag t (B "v")) as [l|]; [by eexists|]. destruct (get_by_branch t (B "v")) as [l|]; [by eexists|]. by destruct H as [[? ?]|[? ?]].
Qed.
Lemma stage_step t ms ev t' ms' : stage t ms → atomic_step (t, ms) ev (t', ms') → stage t' ms' ∧ ERet 0 (KaFound None) ∉ ev.
Proof.
  intros [m0 m1 H0 HA H1] H. inversion H as [t0 ms0 i c next Em|t0 ms0 i c next t1 an Em Hc|t0 ms0 i an next Em]; subst; destruct i as [|[|i]]; cbn in Em; try done; injection Em as ->; cbn [insert list_insert].
  - split; [|set_solver]. constructor; [|done|done]. right; left. destruct H0 as [[= -> ->]|[(n & ? & _)|[(x & n & ? & _)|?]]]; try done. by eexists.
  - split; [|set_solver]. constructor; [done|done|]. destruct H1 as [[Hb [[= -> ->]|(n & ? & _)]]|[Ht [(a & n & ? & _)|[[= -> ->]|[(n & ? & _)|[(a & n & ? & _)|?]]]]]]; try done.
    + left. split; [done|]. right. by eexists.
    + right. split; [done|]. right; right; left. by eexists.
  - destruct H0 as [?|[(n & [= -> ->] & Hn)|[(x & n & ? & _)|?]]]; try done. split; [|set_solver].
    destruct (search_finds t) as [x Hx]; [destruct H1 as [[? _]|[? _]]; auto|]. cbn [tree_call] in Hc. change ["v"%char] with (B "v") in Hc. rewrite Hx in Hc. injection Hc as <- <-.
    constructor; [|done|done]. right; right; left. by exists x, n.
  - split; [|set_solver]. destruct H1 as [[Hb [?|(n & [= -> ->] & Hn)]]|[Ht [(a & n & ? & _)|[?|[(n & [= -> ->] & Hn)|[(a & n & ? & _)|?]]]]]]; try done.
    + cbn [tree_call] in Hc. unfold add_tag in Hc. unfold get in HA. destruct (t_nodes t !! uid_hex idA) as [l|] eqn:El; [|by destruct HA]. injection Hc as <- <-.
      constructor; [done|unfold get; cbn; by rewrite El|]. right. split; [unfold get_by_tag; cbn; rewrite lookup_insert; by eexists|]. left. by exists (KaErr None), n.
    + cbn [tree_call] in Hc. unfold delete_branch in Hc. change ["v"%char] with (B "v") in Hc. destruct (t_branches t !! B "v"); injection Hc as <- <-; (constructor; [done|done|]); right; (split; [done|]); do 3 right; left; by eexists _, n.
  - destruct H0 as [?|[(n & ? & _)|[(x & n & [= -> ->] & Hn)|?]]]; try done. split; [|set_solver]. constructor; [|done|done]. rewrite Hn. by do 3 right.
  - split; [|set_solver]. constructor; [done|done|]. destruct H1 as [[Hb [?|(n & ? & _)]]|[Ht [(a & n & [= -> ->] & Hn)|[?|[(n & ? & _)|[(a & n & [= -> ->] & Hn)|?]]]]]]; try done; right; (split; [done|]); rewrite Hn.
    + by right; left.
    + by do 4 right.
Qed.
Lemma stage_start : stage tree_A (AIdle <$> [searcher; renamer]).
Proof. constructor; [by left|vm_compute; by eexists|]. left. split; [vm_compute; by eexists|]. by left. Qed.
Definition seen (o : option (system * list event)) : option (list event) := match o with Some (_, h) => Some h | None => None end.
Lemma seen_inv o h : seen o = Some h → ∃ s, o = Some (s, h).
Proof. destruct o as [[s h']|]; [|done]. intros [= ->]. by exists s. Qed.
Lemma search_test : seen (exec (replicate 4 0 ++ replicate 17 1 ++ replicate 4 0) (start tree_A [searcher; renamer])) = Some not_found.
Proof. vm_compute. reflexivity. Qed.
Theorem C56_search_refuted : (∃ s, reached tree_A [searcher; renamer] s not_found) ∧ ∀ y, ¬ atomic (tree_A, AIdle <$> [searcher; renamer]) not_found y.
Proof.
  split.
  - destruct (seen_inv _ _ search_test) as [s E]. exists s. exists (replicate 4 0 ++ replicate 17 1 ++ replicate 4 0). exact E.
  - assert (∀ x h y, atomic x h y → x = (tree_A, AIdle <$> [searcher; renamer]) → stage y.1 y.2 ∧ ERet 0 (KaFound None) ∉ h) as Hinv.
    { intros x h y H. induction H as [x|x h y ev z H IH Hst]; intros ->; [split; [apply stage_start|by intros ?%elem_of_nil]|]. destruct (IH eq_refl) as [HS Hn].
      destruct y as [t ms], z as [t' ms']. destruct (stage_step t ms ev t' ms' HS Hst) as [HS' Hn']. split; [done|]. intros [?|?]%elem_of_app; done. }
    intros y H. destruct (Hinv _ _ _ H eq_refl) as [_ Hn]. apply Hn. unfold not_found. set_solver.
Qed.
Print Assumptions C56_one_at_a_time_partial.
Print Assumptions C56_no_race.
Print Assumptions C56_search_refuted.
(** Three goroutines on a tree: two that add commits and move the branch depending on the answer, and one that reads all the time; a schedule that switches after every step, and what is seen *)
Definition adder (id : uid) : client :=
  CCall (KAddNew (Some idA) id) (λ a, match a with KaErr None => once (KUpdateBranch (B "v") id false) | _ => CEnd end).
Definition watcher : client := CCall (KGetByBranch (B "v")) (λ _, once (KGetByBranch (B "v"))).
Fixpoint first_free (l : list nat) (s : system) : option nat :=
  match l with [] => None | i :: l' => match step_of s i with Some _ => Some i | None => first_free l' s end end.
Fixpoint in_turns (fuel : nat) (last : nat) (s : system) : system * list event :=
  match fuel with
  | 0 => (s, [])
  | S fuel' =>
      match first_free [(last + 1) mod 3; (last + 2) mod 3; last] s with
      | None => (s, [])
      | Some i => match step_of s i with Some (s', ev) => let '(s2, ev') := in_turns fuel' i s' in (s2, ev ++ ev') | None => (s, []) end
      end
  end.
Lemma in_turns_exec fuel last s : ∃ l, exec l s = Some (in_turns fuel last s).
Proof.
  revert last s. induction fuel as [|fuel IH]; intros last s; cbn [in_turns]; [by exists []|]. destruct (first_free _ s) as [i|]; [|by exists []].
  destruct (step_of s i) as [[s' ev]|] eqn:E; [|by exists []]. destruct (IH i s') as [l Hl]. exists (i :: l). cbn [exec]. rewrite E, Hl. by destruct (in_turns fuel i s').
Qed.
Definition three : list client := [adder idB; adder idC; watcher].
Definition seen_three : list event :=
  [EInv 1 (KAddNew (Some idA) idC); EInv 2 (KGetByBranch (B "v")); EInv 0 (KAddNew (Some idA) idB)].
Lemma three_test : let '(s, h) := in_turns 200 0 (start tree_A three) in
  (take 3 h = seen_three) ∧ length h = 12 ∧ all_made h = [idC; idB] ∧
  forallb (λ th, match th_mode th with TIdle CEnd => true | _ => false end) (sy_threads s) = true ∧
  t_branches (sy_store s) !! B "v" = get (sy_store s) idC ∧
  last h = Some (ERet 0 (KaErr (Some EUnreachable))).
Proof. vm_compute. repeat split. Qed.
Example C55_C56_sat : Forall (uses_only ordinary) three ∧ Forall (uses_only single) three ∧ ∃ a s h, repr tree_A a ∧ reached tree_A three s h ∧ NoDup (all_made h) ∧ (∀ id, id ∈ all_made h → ¬ has a id).
Proof.
  assert (∀ ok : kcall → Prop, (∀ c, ordinary c → ok c) → Forall (uses_only ok) three) as Hu.
  { intros ok Hok. unfold three, adder, watcher, once. repeat constructor; try (by apply Hok); intros a; destruct a as [| | |[]| |]; repeat constructor; by apply Hok. }
  split; [by apply Hu|]. split; [apply Hu; by intros []|].
  destruct (run_calls_refines [TAddNode None idA; TAddBranch (B "v") idA] new_tree empty_atree repr_new) as (t' & a' & rs & E & HS & R).
  { split; [|done]. intros [n Hn]. cbn in Hn. by rewrite lookup_empty in Hn. }
  assert (repr tree_A a') as Ra by (unfold tree_A; by rewrite E). exists a'.
  destruct (in_turns_exec 200 0 (start tree_A three)) as [l Hl]. pose proof three_test as T. destruct (in_turns 200 0 (start tree_A three)) as [s h]. destruct T as (_ & _ & T & _).
  exists s, h. split; [exact Ra|]. split; [by exists l|]. rewrite T. split.
  - apply (bool_decide_eq_true_1 _). vm_compute. reflexivity.
  - intros id Hid Hh. destruct (get_Some _ _ _ Ra Hh) as (l' & _ & _ & G & _). apply elem_of_cons in Hid as [->|Hid]; [|apply elem_of_list_singleton in Hid as ->]; vm_compute in G; discriminate.
Qed.
