(** * LockProofs: programs that take their locks in order never block each other for good, and those that take all
    locks before they release one behave as if they ran one at a time *)
From Verif Require Import Base Uid Tree TreeRefine Locks SpecLocks.
From Coq Require Import Lia.
From stdpp Require Import prelude gmap.

(** ** Discipline of programs *)
Definition rank (k : lock) : nat := match k with LTree VNodes => 1 | LTree _ => 0 | LNode _ _ => 2 end.
Definition below (H : list (lock * hold)) (k : lock) : Prop := ∀ x, x ∈ H → rank x.1 < rank k.
Definition holds_any (H : list (lock * hold)) (k : lock) : Prop := (k, HRead) ∈ H ∨ (k, HWrite) ∈ H.
(** Locks are taken in the order of ranks, each access is under its lock, all are released at the end. *)
Fixpoint ordered (H : list (lock * hold)) (p : prog) : Prop :=
  match p with
  | PDone _ => H = []
  | PRLock k p' => below H k ∧ ordered ((k, HRead) :: H) p'
  | PLock k p' => below H k ∧ ordered ((k, HWrite) :: H) p'
  | PWait k p' => ∃ H0, H = (k, HPending) :: H0 ∧ below H0 k ∧ ordered ((k, HWrite) :: H0) p'
  | PRUnlock k p' => (k, HRead) ∈ H ∧ ordered (let_go k H) p'
  | PUnlock k p' => (k, HWrite) ∈ H ∧ ordered (let_go k H) p'
  | PRead v f => holds_any H (LTree v) ∧ ∀ t, ordered H (f t)
  | PWrite v _ p' => (LTree v, HWrite) ∈ H ∧ ordered H p'
  | PStop _ => True
  end.
Definition is_tree (k : lock) : bool := match k with LTree _ => true | LNode _ _ => false end.
Definition bad_end {A} (r : res A) : bool := match r with Ok _ => false | _ => true end.
(** [sh]: a lock of the tree has been released *)
Fixpoint two_phase (sh : bool) (p : prog) : Prop :=
  match p with
  | PDone _ => True
  | PRLock k p' => sh = false ∧ two_phase false p'
  | PLock k p' => sh = false ∧ two_phase false p'
  | PWait k p' => sh = false ∧ two_phase false p'
  | PRUnlock k p' => if is_tree k then two_phase true p' else sh = false ∧ two_phase false p'
  | PUnlock k p' => if is_tree k then two_phase true p' else sh = false ∧ two_phase false p'
  | PRead v f => sh = false ∧ ∀ t, two_phase false (f t)
  | PWrite v _ p' => sh = false ∧ two_phase false p'
  | PStop r => sh = false ∧ bad_end r = true
  end.
Lemma let_go_head k h H : below H k → let_go k ((k, h) :: H) = H.
Proof.
  intros B. unfold let_go. rewrite filter_cons_False by (cbn; tauto). induction H as [|x H IH]; [done|].
  rewrite filter_cons_True.
  - f_equal. apply IH. intros y Hy. apply B. by right.
  - intros E. specialize (B x ltac:(by left)). rewrite E in B. lia.
Qed.
Lemma let_go_other k x H : x.1 ≠ k → let_go k (x :: H) = x :: let_go k H.
Proof. intros N. unfold let_go. by rewrite filter_cons_True. Qed.
Ltac ranks := let x := fresh "x" in intros x; rewrite ?elem_of_cons, ?elem_of_nil; naive_solver lia.
Ltac inlist := rewrite ?elem_of_cons, ?elem_of_nil; naive_solver.
Notation HN := [(LTree VNodes, HWrite)].
Lemma add_end_ordered a : ordered HN (add_end a).
Proof. split; [by left|]. reflexivity. Qed.
Lemma index_ordered fuel q : ordered HN (index_prog fuel q).
Proof.
  revert q. induction fuel as [|fuel IH]; intros [|item q]; cbn [index_prog]; try apply add_end_ordered; [done|].
  cbn [ordered]. split; [right; by left|]. intros t. destruct (node_at t item); [|done]. cbn [ordered].
  split; [by left|]. split; [ranks|]. split; [right; by right; left|]. intros t'. split; [by left|].
  rewrite let_go_head by ranks. apply IH.
Qed.
Lemma add_node_ordered p l : ordered HN (add_node_body p l).
Proof.
  unfold add_node_body. cbn [ordered]. split; [right; by left|]. intros t. destruct p as [pid|].
  - destruct (t_nodes t !! uid_hex pid) as [pl|]; [|apply add_end_ordered]. destruct (node_id t l); [|done]. cbn [ordered].
    split; [ranks|]. split; [right; by right; left|]. intros t1. split; [by right; left|]. split; [by left|].
    rewrite let_go_head by ranks. split; [right; by left|]. intros t2. split; [by left|]. split; [right; by left|]. intros t3. apply index_ordered.
  - destruct (t_root t); [apply add_end_ordered|]. split; [by left|]. apply index_ordered.
Qed.
Lemma name_end_ordered v a : v ≠ VNodes → ordered [(LTree VNodes, HRead); (LTree v, HWrite)] (name_end v a).
Proof.
  intros N. split; [by left|]. rewrite let_go_head by (destruct v; [done|ranks|ranks]). split; [by left|]. rewrite let_go_head by ranks. done.
Qed.
Lemma add_name_ordered v id put : v ≠ VNodes → ordered [] (add_name_prog v id put).
Proof.
  intros N. split; [ranks|]. split; [destruct v; [done|ranks|ranks]|]. split; [left; by left|]. intros t. destruct (t_nodes t !! _).
  - split; [right; by right; left|]. intros tv. split; [by right; left|]. by apply name_end_ordered.
  - by apply name_end_ordered.
Qed.
Lemma delete_ordered v del : ordered [] (delete_prog v del).
Proof.
  split; [ranks|]. split; [right; by left|]. intros t. destruct (del t).2.
  - split; [by left|]. split; [by left|]. rewrite let_go_head by ranks. done.
  - split; [by left|]. rewrite let_go_head by ranks. done.
Qed.
Notation HB := [(LTree VNodes, HRead); (LTree VBranches, HWrite)].
Lemma walk_ordered fuel cur hh k : (∀ b, ordered HB (k b)) → ordered HB (walk_prog fuel cur hh k).
Proof.
  intros Hk. revert cur. induction fuel as [|fuel IH]; intros [c|]; cbn [walk_prog]; try apply Hk; [done|].
  split; [left; by left|]. intros t. destruct (node_at t c) as [n|]; [|done]. destruct (decide _); [apply Hk|apply IH].
Qed.
Lemma update_branch_ordered name id force : ordered [] (update_branch_prog name id force).
Proof.
  unfold update_branch_prog. cbn zeta. split; [ranks|]. split; [ranks|]. split; [left; by left|]. intros t.
  assert (∀ l, ordered HB (PRead VBranches (λ t, PWrite VBranches (set_branches t (<[name := l]> (t_branches t))) (name_end VBranches (KaErr None))))) as Hm.
  { intros l. split; [right; by right; left|]. intros t'. split; [by right; left|]. by apply name_end_ordered. }
  destruct (t_nodes t !! _) as [l|]; [|by apply name_end_ordered]. split; [right; by right; left|]. intros tb.
  destruct (t_branches tb !! name) as [h|]; [|by apply name_end_ordered]. split; [left; by left|]. intros t2.
  destruct (node_id t2 h); [|done]. destruct (node_id t2 l); [|done]. destruct (decide _); [by apply name_end_ordered|]. destruct force; [apply Hm|].
  apply walk_ordered. intros []; [apply Hm|by apply name_end_ordered].
Qed.
Lemma read_ordered v get : ordered [] (read_prog v get).
Proof. split; [ranks|]. split; [left; by left|]. intros t. split; [by left|]. rewrite let_go_head by ranks. done. Qed.
Lemma lookup_ordered v get found other : (∀ l, ordered [] (found l)) → ordered [] other → ordered [] (lookup_prog v get found other).
Proof. intros Hf Ho. split; [ranks|]. split; [left; by left|]. intros t. split; [by left|]. rewrite let_go_head by ranks. by destruct (get t). Qed.
Lemma code_ordered c : ordered [] (code c).
Proof.
  destruct c; cbn [code]; try apply read_ordered; try apply delete_ordered; try (by apply add_name_ordered); try apply update_branch_ordered.
  - unfold search_prog. cbn zeta.
    assert (∀ key, ordered [] (lookup_prog VTags (λ t, get_by_tag t key) (λ l, PDone (KaFound (Some (l, KTag))))
      (lookup_prog VBranches (λ t, get_by_branch t key) (λ l, PDone (KaFound (Some (l, KBranch)))) (PDone (KaFound None))))) as Hr.
    { intros k. by apply lookup_ordered; [|apply lookup_ordered]. }
    destruct (decode_hex key); [by apply lookup_ordered| |done..]. destruct (decode_b32 key); try done. by apply lookup_ordered.
  - split; [ranks|]. apply add_node_ordered.
  - split; [ranks|]. split; [right; by left|]. intros t. split; [by left|]. apply add_node_ordered.
  - destruct w; (split; [ranks|]; split; [by left|]; rewrite let_go_head by ranks; done).
Qed.
Lemma index_two fuel q : two_phase false (index_prog fuel q).
Proof.
  revert q. induction fuel as [|fuel IH]; intros [|item q]; cbn [index_prog]; try done. cbn [two_phase is_tree]. split; [done|]. intros t.
  destruct (node_at t item); [|done]. cbn [two_phase is_tree]. split; [done|]. split; [done|]. split; [done|]. intros t'. split; [done|]. apply IH.
Qed.
Lemma add_node_two p l : two_phase false (add_node_body p l).
Proof.
  split; [done|]. intros t. destruct p as [pid|].
  - destruct (t_nodes t !! uid_hex pid) as [pl|]; [|done]. destruct (node_id t l); [|done]. cbn [two_phase is_tree].
    split; [done|]. split; [done|]. intros t1. split; [done|]. split; [done|]. split; [done|]. intros t2. split; [done|]. split; [done|]. intros t3. apply index_two.
  - destruct (t_root t); [done|]. split; [done|]. apply index_two.
Qed.
Lemma walk_two fuel cur hh k : (∀ b, two_phase false (k b)) → two_phase false (walk_prog fuel cur hh k).
Proof.
  intros Hk. revert cur. induction fuel as [|fuel IH]; intros [c|]; cbn [walk_prog]; try apply Hk; [done|].
  split; [done|]. intros t. destruct (node_at t c) as [n|]; [|done]. destruct (decide _); [apply Hk|apply IH].
Qed.
Lemma code_two c : single c → two_phase false (code c).
Proof.
  intros S. destruct c; cbn [code]; try done.
  - split; [done|]. apply add_node_two.
  - split; [done|]. split; [done|]. intros t. split; [done|]. apply add_node_two.
  - split; [done|]. split; [done|]. split; [done|]. intros t. by destruct (t_nodes t !! _).
  - split; [done|]. split; [done|]. intros t. by destruct (delete_tag t name).2.
  - split; [done|]. split; [done|]. split; [done|]. intros t. by destruct (t_nodes t !! _).
  - split; [done|]. split; [done|]. split; [done|]. intros t. destruct (t_nodes t !! _) as [l|]; [|done]. split; [done|]. intros tb.
    destruct (t_branches tb !! name) as [h|]; [|done]. split; [done|]. intros t2.
    destruct (node_id t2 h); [|done]. destruct (node_id t2 l); [|done]. destruct (decide _); [done|]. destruct force; [done|]. apply walk_two. by intros [].
  - split; [done|]. split; [done|]. intros t. by destruct (delete_branch t name).2.
  - by destruct w.
Qed.

(** ** A program alone *)
Fixpoint run (p : prog) (t : tstate) : res (tstate * kans) :=
  match p with
  | PDone a => Ok (t, a)
  | PRLock _ p' | PLock _ p' | PWait _ p' | PRUnlock _ p' | PUnlock _ p' => run p' t
  | PRead v f => run (f (part v t)) t
  | PWrite v t' p' => run p' (overlay v t' t)
  | PStop r => r
  end.
Lemma index_run t0 fuel q t : run (index_prog fuel q) t = answer_of t0 (update_indexes_loop fuel t q).
Proof.
  revert q t. induction fuel as [|fuel IH]; intros [|item q] t; cbn [index_prog update_indexes_loop]; try done. cbn [run].
  change (node_at (part VNodes t) item) with (node_at t item). destruct (node_at t item) as [n|] eqn:E; [|done]. cbn [run].
  assert (overlay VNodes (set_nodes (part VNodes t) (<[uid_hex (n_id n):=item]> (t_nodes (part VNodes t)))) t = set_nodes t (<[uid_hex (n_id n):=item]> (t_nodes t))) as -> by by destruct t.
  rewrite IH. unfold node_children. change (node_at (part VNodes (set_nodes t (<[uid_hex (n_id n):=item]> (t_nodes t)))) item) with (node_at t item). by rewrite E.
Qed.
Lemma add_node_run p l t : run (add_node_body p l) t = answer_of t (add_node t p l).
Proof.
  unfold add_node_body, add_node. cbn [run]. destruct p as [pid|].
  - change (t_nodes (part VNodes t)) with (t_nodes t). destruct (t_nodes t !! uid_hex pid) as [pl|]; [|done].
    change (node_id (part VNodes t) l) with (node_id t l). destruct (node_id t l) as [id|]; [|done]. cbn [run].
    assert (overlay VNodes (add_child (part VNodes t) pl l id).1 t = (add_child t pl l id).1) as ->.
    { unfold add_child. change (node_children (part VNodes t) pl) with (node_children t pl). destruct (decide _); by destruct t. }
    set (t1 := (add_child t pl l id).1).
    assert (overlay VNodes (set_parent (part VNodes t1) l (Some pl)) t1 = set_parent t1 l (Some pl)) as -> by by destruct t1.
    rewrite (index_run t). done.
  - change (t_root (part VNodes t)) with (t_root t). destruct (t_root t) eqn:E; [done|]. cbn [run]. rewrite (index_run t).
    assert (overlay VNodes (set_root (part VNodes t) (Some l)) t = set_root t (Some l)) as -> by by destruct t. done.
Qed.
Lemma walk_run fuel cur hh k t : run (walk_prog fuel cur hh k) t =
  match connected fuel t cur hh with Ok b => run (k b) t | Err e => Err e | Panic => Panic | Hang => Hang | Crash => Crash end.
Proof.
  revert cur. induction fuel as [|fuel IH]; intros [c|]; cbn [walk_prog connected]; try done. cbn [run].
  change (node_at (part VNodes t) c) with (node_at t c). destruct (node_at t c) as [n|]; [|done]. destruct (decide _); [done|apply IH].
Qed.
Lemma connected_no_err fuel t cur hh e : connected fuel t cur hh ≠ Err e.
Proof.
  revert cur. induction fuel as [|fuel IH]; intros [c|]; cbn [connected]; try done. destruct (node_at t c); [|done]. destruct (decide _); [done|apply IH].
Qed.
Lemma code_run c t : run (code c) t = tree_call t c.
Proof.
  destruct c; cbn [code tree_call]; try done.
  - unfold search_prog, search. cbn zeta. destruct (decode_hex key) as [id|e| | |]; try done.
    + cbn [lookup_prog run]. change (get (part VNodes t) id) with (get t id). destruct (get t id); [done|].
      cbn [lookup_prog run]. change (get_by_tag (part VTags t) key) with (get_by_tag t key). destruct (get_by_tag t key); [done|].
      cbn [lookup_prog run]. change (get_by_branch (part VBranches t) key) with (get_by_branch t key). by destruct (get_by_branch t key).
    + destruct (decode_b32 key) as [id|e'| | |]; try done.
      * cbn [lookup_prog run]. change (get (part VNodes t) id) with (get t id). destruct (get t id); [done|].
        cbn [lookup_prog run]. change (get_by_tag (part VTags t) key) with (get_by_tag t key). destruct (get_by_tag t key); [done|].
        cbn [lookup_prog run]. change (get_by_branch (part VBranches t) key) with (get_by_branch t key). by destruct (get_by_branch t key).
      * cbn [lookup_prog run]. change (get_by_tag (part VTags t) key) with (get_by_tag t key). destruct (get_by_tag t key); [done|].
        cbn [lookup_prog run]. change (get_by_branch (part VBranches t) key) with (get_by_branch t key). by destruct (get_by_branch t key).
  - apply add_node_run.
  - cbn [run]. rewrite add_node_run. by destruct t.
  - unfold add_tag. cbn [add_name_prog run]. change (t_nodes (part VNodes t)) with (t_nodes t). destruct (t_nodes t !! _); [|done]. by destruct t.
  - unfold delete_tag. cbn [delete_prog run]. change (t_tags (part VTags t)) with (t_tags t). destruct (t_tags t !! name); by destruct t.
  - unfold add_branch. cbn [add_name_prog run]. change (t_nodes (part VNodes t)) with (t_nodes t). destruct (t_nodes t !! _); [|done]. by destruct t.
  - unfold update_branch_prog, update_branch. cbn [run]. change (t_nodes (part VNodes t)) with (t_nodes t). destruct (t_nodes t !! _) as [l|]; [|done].
    cbn [run]. change (t_branches (part VBranches t)) with (t_branches t). destruct (t_branches t !! name) as [h|]; [|done]. cbn [run].
    change (node_id (part VNodes t)) with (node_id t). destruct (node_id t h) as [hid|]; [|done]. destruct (node_id t l) as [lid|]; [|done].
    destruct (decide _); [done|]. destruct force; [by destruct t|]. rewrite walk_run. change (t_heap (part VNodes t)) with (t_heap t).
    pose proof (connected_no_err (S (size (t_heap t))) t (Some l) (uid_hex hid)) as Hne. destruct (connected _ _ _ _) as [[]|e| | |]; try done; by destruct (Hne e).
  - unfold delete_branch. cbn [delete_prog run]. change (t_branches (part VBranches t)) with (t_branches t). destruct (t_branches t !! name); by destruct t.
  - by destruct w.
Qed.

(** ** Who holds what *)
Definition thread_ok (th : thread) : Prop :=
  match th_mode th with TIdle _ => th_held th = [] | TRun p _ => ordered (th_held th) p end.
(** A writer is alone; announced writers exclude each other. *)
Definition alone (ths : list thread) : Prop := ∀ i j thi thj k h h', i ≠ j → ths !! i = Some thi → ths !! j = Some thj →
  (k, h) ∈ th_held thi → (k, h') ∈ th_held thj → h = HRead ∧ h' = HRead ∨ h = HRead ∧ h' = HPending ∨ h = HPending ∧ h' = HRead.
Record fine (s : system) : Prop := { fine_ok : Forall thread_ok (sy_threads s); fine_alone : alone (sy_threads s) }.
Lemma held_so_true bad k ths : held_so bad k ths = true ↔ ∃ j th h, ths !! j = Some th ∧ (k, h) ∈ th_held th ∧ bad h = true.
Proof.
  unfold held_so. rewrite existsb_exists. split.
  - intros (th & Hth & Hx). apply existsb_exists in Hx as ([k' h] & Hin & Hb). apply andb_true_iff in Hb as [Hk Hb]. apply bool_decide_eq_true in Hk. cbn in *. subst k'.
    apply elem_of_list_In, elem_of_list_lookup in Hth as [j Hj]. exists j, th, h. split; [done|]. split; [by apply elem_of_list_In|done].
  - intros (j & th & h & Hj & Hin & Hb). exists th. split; [by eapply elem_of_list_In, elem_of_list_lookup_2|]. apply existsb_exists. exists (k, h).
    split; [by apply elem_of_list_In|]. cbn. by rewrite bool_decide_eq_true_2.
Qed.
Lemma held_so_false bad k ths : held_so bad k ths = false → ∀ j th h, ths !! j = Some th → (k, h) ∈ th_held th → bad h = false.
Proof.
  intros H j th h Hj Hin. destruct (bad h) eqn:E; [|done]. assert (held_so bad k ths = true) as H' by (apply held_so_true; eauto 10). congruence.
Qed.
Lemma let_go_in k H x : x ∈ let_go k H ↔ x ∈ H ∧ x.1 ≠ k.
Proof. unfold let_go. rewrite elem_of_list_filter. tauto. Qed.
Lemma alone_sym_case ths i th' : (∀ th, ths !! i = Some th → alone ths →
   (∀ j thj k h h', i ≠ j → ths !! j = Some thj → (k, h) ∈ th_held th' → (k, h') ∈ th_held thj →
     h = HRead ∧ h' = HRead ∨ h = HRead ∧ h' = HPending ∨ h = HPending ∧ h' = HRead) → alone (<[i := th']> ths)).
Proof.
  intros th Hi A H a b tha thb k h h' Nab Ha Hb Ka Kb.
  apply list_lookup_insert_Some in Ha as [(-> & <- & _)|[N1 Ha]]; apply list_lookup_insert_Some in Hb as [(-> & <- & _)|[N2 Hb]].
  - done.
  - by eapply H.
  - destruct (H a tha k h' h N1 Ha Kb Ka) as [[? ?]|[[? ?]|[? ?]]]; tauto.
  - by eapply (A a b).
Qed.
(** One step, in three lines: its thread stays well-behaved, and what it holds is new only if nobody is in the way. *)
Lemma step_fine s i s' ev : fine s → step_of s i = Some (s', ev) → fine s'.
Proof.
  intros [Hok Hal] H. unfold step_of in H. destruct (sy_threads s !! i) as [th|] eqn:Ei; [|done].
  destruct (thread_step (sy_threads s) (sy_store s) i th) as [[[th' t'] ev']|] eqn:Es; [|done]. injection H as <- <-.
  pose proof (proj1 (Forall_lookup _ _) Hok i th Ei) as Ht. unfold thread_ok in Ht. destruct th as [m held]. cbn [th_mode th_held] in Ht.
  assert (thread_ok th' ∧ ∀ j thj k h h', i ≠ j → sy_threads s !! j = Some thj → (k, h) ∈ th_held th' → (k, h') ∈ th_held thj →
     h = HRead ∧ h' = HRead ∨ h = HRead ∧ h' = HPending ∨ h = HPending ∧ h' = HRead) as [H1 H2].
  2:{ constructor; cbn [sy_threads]; [by apply Forall_insert|by eapply alone_sym_case]. }
  assert (∀ j thj k h h', i ≠ j → sy_threads s !! j = Some thj → (k, h) ∈ held → (k, h') ∈ th_held thj →
     h = HRead ∧ h' = HRead ∨ h = HRead ∧ h' = HPending ∨ h = HPending ∧ h' = HRead) as Hold.
  { intros j thj k h h' Nij Hj. exact (Hal i j _ thj k h h' Nij Ei Hj). }
  unfold thread_step in Es. cbn [th_mode th_held] in Es. destruct m as [[|c next]|p next].
  - done.
  - injection Es as <- <- <-. split; [|exact Hold]. cbn. rewrite Ht. apply code_ordered.
  - destruct p as [a|k p|k p|k p|k p|k p|v f|v t0 p|r]; cbn [ordered] in Ht.
    + injection Es as <- <- <-. split; [by cbn|exact Hold].
    + destruct (held_so as_writer k (sy_threads s)) eqn:Eb; [done|]. injection Es as <- <- <-. split; [by apply Ht|]. cbn [th_held].
      intros j thj k' h h' Nij Hj Hin Hin'. apply elem_of_cons in Hin as [[= -> ->]|Hin]; [|by eapply Hold].
      pose proof (held_so_false _ _ _ Eb j thj h' Hj Hin') as Hb. destruct h'; [tauto|done|done].
    + destruct (held_so as_writer k (sy_threads s)) eqn:Eb; [done|]. injection Es as <- <- <-. split; [cbn; exists held; tauto|]. cbn [th_held].
      intros j thj k' h h' Nij Hj Hin Hin'. apply elem_of_cons in Hin as [[= -> ->]|Hin]; [|by eapply Hold].
      pose proof (held_so_false _ _ _ Eb j thj h' Hj Hin') as Hb. destruct h'; [tauto|done|done].
    + destruct (held_so as_reader k (sy_threads s)) eqn:Eb; [done|]. injection Es as <- <- <-. destruct Ht as (H0 & -> & Bl & Ho).
      rewrite let_go_head by done. split; [done|]. cbn [th_held].
      intros j thj k' h h' Nij Hj Hin Hin'. apply elem_of_cons in Hin as [[= -> ->]|Hin]; [|eapply Hold; try done; by right].
      pose proof (held_so_false _ _ _ Eb j thj h' Hj Hin') as Hb.
      destruct (Hold j thj k HPending h' Nij Hj ltac:(by left) Hin') as [[? ?]|[[? ?]|[? ->]]]; [done|done|]. done.
    + injection Es as <- <- <-. split; [by apply Ht|]. cbn [th_held]. intros j thj k' h h' Nij Hj Hin. apply let_go_in in Hin as [Hin _]. by apply (Hold j).
    + injection Es as <- <- <-. split; [by apply Ht|]. cbn [th_held]. intros j thj k' h h' Nij Hj Hin. apply let_go_in in Hin as [Hin _]. by apply (Hold j).
    + injection Es as <- <- <-. split; [by apply Ht|exact Hold].
    + injection Es as <- <- <-. split; [by apply Ht|exact Hold].
    + injection Es as <- <- <-. split; [done|exact Hold].
Qed.
Lemma start_fine t cs : fine (start t cs).
Proof.
  constructor; cbn [start sy_threads].
  - apply Forall_fmap, Forall_true. done.
  - intros i j thi thj k h h' _ Hi _ Hin. rewrite list_lookup_fmap in Hi. apply fmap_Some in Hi as (c & _ & ->). by apply elem_of_nil in Hin.
Qed.
Lemma exec_fine l s s' h : fine s → exec l s = Some (s', h) → fine s'.
Proof.
  revert s h. induction l as [|i l IH]; intros s h Hf H; cbn [exec] in H; [by injection H as <- <-|].
  destruct (step_of s i) as [[s1 ev]|] eqn:E; [|done]. destruct (exec l s1) as [[s2 ev']|] eqn:E2; [|done]. injection H as <- <-.
  eapply IH; [|exact E2]. by eapply step_fine.
Qed.

(** ** No deadlock *)
Definition at_end (th : thread) : Prop := th_mode th = TIdle CEnd.
(** Everybody is blocked or at the end; then nobody is blocked. *)
Lemma blocked_shape s i th : step_of s i = None → sy_threads s !! i = Some th →
  at_end th ∨ ∃ k p next, th_mode th = TRun (PRLock k p) next ∧ held_so as_writer k (sy_threads s) = true
  ∨ th_mode th = TRun (PLock k p) next ∧ held_so as_writer k (sy_threads s) = true
  ∨ th_mode th = TRun (PWait k p) next ∧ held_so as_reader k (sy_threads s) = true.
Proof.
  unfold step_of. intros H Ei. rewrite Ei in H. unfold thread_step in H. unfold at_end. destruct (th_mode th) as [[|c next]|p next]; [by left|done|].
  right. destruct p as [a|k p|k p|k p|k p|k p|v f|v t0 p|r]; try done; exists k, p, next.
  - left. by destruct (held_so _ _ _).
  - right; left. by destruct (held_so _ _ _).
  - right; right. by destruct (held_so _ _ _).
Qed.
Lemma waiter_above s i th k h : fine s → step_of s i = None → sy_threads s !! i = Some th → (k, h) ∈ th_held th →
  (∃ k' p next, (th_mode th = TRun (PRLock k' p) next ∨ th_mode th = TRun (PLock k' p) next ∨ th_mode th = TRun (PWait k' p) next) ∧ rank k < rank k')
  ∨ h = HPending ∧ ∃ p next, th_mode th = TRun (PWait k p) next ∧ held_so as_reader k (sy_threads s) = true.
Proof.
  intros [Hok Hal] Hn Ei Hin. pose proof (proj1 (Forall_lookup _ _) Hok i th Ei) as Ht. unfold thread_ok in Ht.
  destruct (blocked_shape s i th Hn Ei) as [He|(k' & p & next & [[Em Hb]|[[Em Hb]|[Em Hb]]])].
  - unfold at_end in He. rewrite He in Ht. rewrite Ht in Hin. by apply elem_of_nil in Hin.
  - left. exists k', p, next. split; [by left|]. rewrite Em in Ht. destruct Ht as [Bl _]. exact (Bl _ Hin).
  - left. exists k', p, next. split; [by right; left|]. rewrite Em in Ht. destruct Ht as [Bl _]. exact (Bl _ Hin).
  - rewrite Em in Ht. destruct Ht as (H0 & E0 & Bl & _). rewrite E0 in Hin. apply elem_of_cons in Hin as [[= -> ->]|Hin].
    + right. split; [done|]. by exists p, next.
    + left. exists k', p, next. split; [by right; right|]. exact (Bl _ Hin).
Qed.
Lemma rank_bound k : rank k ≤ 2.
Proof. destruct k as [[]|]; cbn; lia. Qed.
Lemma nobody_waits s : fine s → (∀ i, step_of s i = None) → ∀ d k i th p next, 2 - rank k ≤ d → sy_threads s !! i = Some th →
  th_mode th = TRun (PRLock k p) next ∨ th_mode th = TRun (PLock k p) next ∨ th_mode th = TRun (PWait k p) next → False.
Proof.
  intros Hf Hn d. induction d as [d IH] using lt_wf_ind. intros k i th p next Hd Ei Hm.
  assert (∀ j thj k' p' next', sy_threads s !! j = Some thj → rank k < rank k' →
    th_mode thj = TRun (PRLock k' p') next' ∨ th_mode thj = TRun (PLock k' p') next' ∨ th_mode thj = TRun (PWait k' p') next' → False) as Up.
  { intros j thj k' p' next' Ej Lt. pose proof (rank_bound k'). eapply (IH (2 - rank k')); [lia|done|exact Ej]. }
  assert (held_so as_reader k (sy_threads s) = true → False) as Hr.
  { intros Hb. apply held_so_true in Hb as (j & thj & h & Ej & Hin & Hh). destruct (waiter_above s j thj k h Hf (Hn j) Ej Hin) as [(k' & p' & n' & Em & Lt)|[-> _]]; [by eapply Up|done]. }
  assert (held_so as_writer k (sy_threads s) = true → False) as Hw.
  { intros Hb. apply held_so_true in Hb as (j & thj & h & Ej & Hin & Hh). destruct (waiter_above s j thj k h Hf (Hn j) Ej Hin) as [(k' & p' & n' & Em & Lt)|(_ & p' & n' & Em & Hb)]; [by eapply Up|by apply Hr]. }
  destruct (blocked_shape s i th (Hn i) Ei) as [He|(k' & p' & next' & Hs)]; [unfold at_end in He; destruct Hm as [E|[E|E]]; congruence|].
  destruct Hm as [E|[E|E]], Hs as [[E' Hb]|[[E' Hb]|[E' Hb]]]; rewrite E in E'; try done; injection E' as <- <- <-; auto.
Qed.
Lemma no_deadlock s : fine s → (∀ i, step_of s i = None) → Forall at_end (sy_threads s).
Proof.
  intros Hf Hn. apply Forall_lookup. intros i th Ei. destruct (blocked_shape s i th (Hn i) Ei) as [He|(k & p & next & Hs)]; [done|].
  exfalso. eapply (nobody_waits s Hf Hn 2 k i th p next); [lia|done|]. tauto.
Qed.

(** ** Every schedule ends *)
Inductive tlt : tmode → tmode → Prop :=
  | tlt_call c next : tlt (TRun (code c) next) (TIdle (CCall c next))
  | tlt_ret a next : tlt (TIdle (next a)) (TRun (PDone a) next)
  | tlt_rlock k p next : tlt (TRun p next) (TRun (PRLock k p) next)
  | tlt_lock k p next : tlt (TRun (PWait k p) next) (TRun (PLock k p) next)
  | tlt_wait k p next : tlt (TRun p next) (TRun (PWait k p) next)
  | tlt_runlock k p next : tlt (TRun p next) (TRun (PRUnlock k p) next)
  | tlt_unlock k p next : tlt (TRun p next) (TRun (PUnlock k p) next)
  | tlt_read v f t next : tlt (TRun (f t) next) (TRun (PRead v f) next)
  | tlt_write v t p next : tlt (TRun p next) (TRun (PWrite v t p) next).
Lemma tlt_run next : (∀ a, Acc tlt (TIdle (next a))) → ∀ p, Acc tlt (TRun p next).
Proof.
  intros Hn. assert (∀ k p, Acc tlt (TRun p next) → Acc tlt (TRun (PWait k p) next)) as Hw.
  { intros k p Hp. constructor. intros m H. by inversion H; subst. }
  induction p as [a|k p IH|k p IH|k p IH|k p IH|k p IH|v f IH|v t p IH|r]; constructor; intros m H; inversion H; subst; auto.
Qed.
Lemma tlt_wf m : Acc tlt m.
Proof.
  assert (∀ c, Acc tlt (TIdle c)) as Hc.
  { induction c as [|c next IH]; constructor; intros m' H; inversion H; subst. by apply tlt_run. }
  destruct m as [c|p next]; [done|]. apply tlt_run. intros a. apply Hc.
Qed.
Definition llt (l' l : list tmode) : Prop := ∃ i m m', l !! i = Some m ∧ l' = <[i := m']> l ∧ tlt m' m.
Lemma llt_wf l : Acc llt l.
Proof.
  induction l as [|m l IH]; [constructor; intros l' (i & m & m' & H & _); by rewrite lookup_nil in H|].
  revert l IH. induction (tlt_wf m) as [m _ IHm]. intros l Hl. pose proof Hl as Hl'. induction Hl as [l _ IHl].
  constructor. intros l' (i & m0 & m' & H & -> & Hlt). destruct i as [|i]; cbn in *.
  - injection H as <-. by apply IHm.
  - apply IHl; [by exists i, m0, m'|]. apply Hl'. by exists i, m0, m'.
Qed.
Definition stopped (th : thread) : Prop := ∃ r next, th_mode th = TRun (PStop r) next.
(** [s'] comes after [s], by a step of a goroutine that is not in an endless loop *)
Definition after (s' s : system) : Prop := ∃ i th ev, sy_threads s !! i = Some th ∧ ¬ stopped th ∧ step_of s i = Some (s', ev).
Lemma after_llt s' s : after s' s → llt (th_mode <$> sy_threads s') (th_mode <$> sy_threads s).
Proof.
  intros (i & th & ev & Ei & Hs & H). unfold step_of in H. rewrite Ei in H.
  destruct (thread_step (sy_threads s) (sy_store s) i th) as [[[th' t'] ev']|] eqn:Es; [|done]. injection H as <- <-.
  exists i, (th_mode th), (th_mode th'). rewrite list_lookup_fmap, Ei. split; [done|]. split; [by rewrite <- list_fmap_insert|].
  unfold thread_step in Es. destruct th as [m held]. cbn [th_mode th_held] in *. destruct m as [[|c next]|p next]; [done|injection Es as <- <- <-; constructor|].
  destruct p as [a|k p|k p|k p|k p|k p|v f|v t0 p|r]; try (destruct (held_so _ _ _); [done|]); try (injection Es as <- <- <-; constructor).
  destruct Hs. by exists r, next.
Qed.
Lemma after_wf s : Acc after s.
Proof.
  assert (∀ l, Acc llt l → ∀ s, th_mode <$> sy_threads s = l → Acc after s) as H; [|eapply H; [apply llt_wf|reflexivity]].
  induction 1 as [l _ IH]. intros s0 <-. constructor. intros s1 H1. eapply IH; [|reflexivity]. by apply after_llt.
Qed.
