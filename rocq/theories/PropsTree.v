(** * PropsTree: the commit tree properties C08-C15.

    Model: [Tree.v] (pkg/spaces/trees/node.go, tree.go). Specification: [SpecTree.v].
    [repr t a] (TreeRefine.v) relates a model state to the plain maps; it holds initially, is kept by
    every call (C08) and implies [observes t a] (TreeObs.v): every accessor answers as the maps do. *)
From Verif Require Import Base Uid UidProofs Tree SpecTree TreeRefine TreeObs.

Definition idA : uid := new_uid 1 1.
Definition idB : uid := new_uid 2 1.
Definition idC : uid := new_uid 3 1.
(** root A, children B and C, a tag and a branch, a fast-forward and a rejected update *)
Definition sample_calls : list tcall :=
  [TAddNode None idA; TAddNode (Some idA) idB; TAddNode (Some idB) idC; TAddTag (B "ROOT") idA;
   TAddBranch (B "main") idB; TUpdateBranch (B "main") idC false; TUpdateBranch (B "main") idB false;
   TAddAnnotation idC (B "k") (B "v"); TAddNode (Some (new_uid 9 9)) (new_uid 8 8); TDeleteTag (B "x")].

(** ** C08 *)
(** Any sequence of calls that adds only new IDs runs to completion on the model, returns exactly the
    answers the maps predict, and afterwards every observer answers as the maps do. *)
Theorem C08_tree_is_a_map : ∀ cs, all_fresh empty_atree cs →
  ∃ t a rs, run_calls new_tree cs = Ok (t, rs) ∧ tspecs empty_atree cs a rs ∧ repr t a ∧ observes t a.
Proof. exact (λ cs F, match run_calls_refines cs new_tree empty_atree repr_new F with
  | ex_intro _ t (ex_intro _ a (ex_intro _ rs (conj E (conj HS R)))) =>
    ex_intro _ t (ex_intro _ a (ex_intro _ rs (conj E (conj HS (conj R (repr_observes t a R)))))) end). Qed.
(** From any represented state on (e.g. one that was loaded from a file). *)
Theorem C08_tree_is_a_map_from : ∀ cs t a, repr t a → all_fresh a cs →
  ∃ t' a' rs, run_calls t cs = Ok (t', rs) ∧ tspecs a cs a' rs ∧ repr t' a'.
Proof. exact run_calls_refines. Qed.
Theorem C08_repr_observes : ∀ t a, repr t a → observes t a.
Proof. exact repr_observes. Qed.
(** The specification is deterministic, and "adds only new IDs" holds when no ID is used twice. *)
Theorem C08_spec_deterministic : ∀ a c a1 r1 a2 r2,
  tspec a c a1 r1 → tspec a c a2 r2 → a1 = a2 ∧ r1 = r2.
Proof. exact tspec_det. Qed.
Theorem C08_distinct_ids_are_fresh : ∀ cs a,
  NoDup (added cs) → (∀ id, id ∈ added cs → ¬ has a id) → all_fresh a cs.
Proof. exact nodup_all_fresh. Qed.
(** HasChild, IsLeaf and IsRoot answer from the same map. *)
Theorem C08_family : ∀ t a id l, repr t a → get t id = Some l →
  (∀ c, node_has_child t l c = true ↔ parent_of a c id) ∧ (node_is_leaf t l = true ↔ ∀ c, ¬ parent_of a c id) ∧ (node_is_root t l = true ↔ is_root a id).
Proof.
  intros t a id l R E. destruct (get_Some' _ _ _ _ R E) as (an & n & Ha & [N1 N2 N3 N4 N5 N6]).
  assert (node_children t l = n_children n) as Ec by (unfold node_children; by rewrite N1).
  assert (∀ c, parent_of a c id → is_Some (n_children n !! uid_hex c)) as Hp.
  { intros c Hc. destruct Hc as (nc & Enc & Pc). destruct (get_Some _ _ c R) as (lc & _ & _ & Elc & _); [by eexists|]. exists lc. apply N6. exists c. split; [done|]. split; [by exists nc|done]. }
  split; [|split].
  - intros c. unfold node_has_child. rewrite bool_decide_eq_true, Ec. split; [|apply Hp]. intros [lc Hlc]. apply N6 in Hlc as (c' & Q & Hc & _). by apply uid_hex_inj in Q as ->.
  - unfold node_is_leaf. rewrite bool_decide_eq_true, Ec. split.
    + intros Q c Hc. apply Hp in Hc as [lc Hc]. by rewrite Q, lookup_empty in Hc.
    + intros H. apply map_eq. intros k. rewrite lookup_empty. apply eq_None_not_Some. intros [lc Hlc]. apply N6 in Hlc as (c & _ & Hc & _). by apply H in Hc.
  - unfold node_is_root, node_parent. rewrite bool_decide_eq_true, N1. cbn [mbind option_bind]. rewrite N5. split.
    + intros Q. exists an. split; [done|]. destruct (an_parent an) as [p|] eqn:Ep; [|done]. cbn [mbind option_bind] in Q.
      destruct (get_Some _ _ p R) as (lp & _ & _ & Elp & _); [|congruence]. apply (ro_parent _ (r_ok _ _ R) id). by exists an.
    + intros (an' & Ha' & Ep). rewrite Ha in Ha'. injection Ha' as <-. by rewrite Ep.
Qed.
(** DeleteChild of a node: answers whether there was such a child, and takes exactly that entry away. *)
Theorem C08_delete_child : ∀ t l c t' b, delete_child t l c = (t', b) → is_Some (node_at t l) →
  b = node_has_child t l c ∧ node_has_child t' l c = false ∧ (∀ l' c', l' ≠ l ∨ c' ≠ c → node_has_child t' l' c' = node_has_child t l' c') ∧
  (∀ l', node_parent t' l' = node_parent t l' ∧ node_id t' l' = node_id t l') ∧
  t_nodes t' = t_nodes t ∧ t_root t' = t_root t ∧ t_branches t' = t_branches t ∧ t_tags t' = t_tags t.
Proof.
  intros t l c t' b E [n Hn]. unfold delete_child in E. destruct (decide (is_Some (node_children t l !! uid_hex c))) as [Y|N]; injection E as <- <-.
  2: { unfold node_has_child. rewrite bool_decide_false by done. done. }
  set (f := λ n, Node (n_id n) (n_parent n) (delete (uid_hex c) (n_children n)) (n_anno n) (n_data n)).
  assert (∀ l', node_at (upd_node t l f) l' = if decide (l' = l) then f <$> node_at t l' else node_at t l') as Hu.
  { intros l'. unfold node_at, upd_node. cbn [t_heap set_heap]. destruct (decide (l' = l)) as [->|Ne]; [by rewrite lookup_alter|by rewrite lookup_alter_ne by done]. }
  split; [unfold node_has_child; by rewrite bool_decide_true|]. split; [|split; [|split; [|done]]].
  - unfold node_has_child, node_children. rewrite Hu, decide_True, Hn by done. cbn [fmap option_fmap option_map from_option f n_children]. rewrite lookup_delete.
    apply bool_decide_false. by intros [? ?].
  - intros l' c' Hne. unfold node_has_child, node_children. rewrite Hu. destruct (decide (l' = l)) as [->|Ne]; [|done]. destruct Hne as [?|Ne]; [done|].
    destruct (node_at t l) as [m|]; [|done]. cbn [fmap option_fmap option_map from_option f n_children]. rewrite lookup_delete_ne; [done|]. by intros Q%uid_hex_inj.
  - intros l'. unfold node_parent, node_id. rewrite Hu. destruct (decide (l' = l)) as [->|Ne]; [|done]. by destruct (node_at t l).
Qed.
Print Assumptions C08_family.
Print Assumptions C08_delete_child.
Print Assumptions C08_tree_is_a_map.
Print Assumptions C08_tree_is_a_map_from.
Print Assumptions C08_repr_observes.
Print Assumptions C08_spec_deterministic.
Print Assumptions C08_distinct_ids_are_fresh.
Example C08_sat_fresh : all_fresh empty_atree sample_calls.
Proof.
  apply nodup_all_fresh.
  - apply (bool_decide_eq_true_1 _). vm_compute. reflexivity.
  - intros id _ [n E]. cbn in E. by rewrite lookup_empty in E.
Qed.
Example C08_sat_answers : (λ p, snd p) <$> (match run_calls new_tree sample_calls with Ok p => Some p | _ => None end)
  = Some [TOk; TOk; TOk; TOk; TOk; TOk; TErr EUnreachable; TOk; TErr EParentNotFound; TBool false].
Proof. vm_compute. reflexivity. Qed.
Example C08_family_sat : match run_calls new_tree sample_calls with
  | Ok (t, _) => match get t idB, get t idC with
      | Some b, Some c => node_has_child t b idC && negb (node_has_child t b idB) && negb (node_is_leaf t b) && node_is_leaf t c && negb (node_is_root t c) && (delete_child t b idC).2 && negb (delete_child t c idC).2
      | _, _ => false
      end
  | _ => false
  end = true.
Proof. vm_compute. reflexivity. Qed.

(** ** C09 *)
(** The pointer structure is a single rooted tree: the root has no parent; every other indexed node has
    a parent in the tree listing it as child; every listed child has that node as parent and is in the
    tree; following parents reaches the root. *)
Theorem C09_single_rooted_tree : ∀ cs t rs, all_fresh empty_atree cs →
  run_calls new_tree cs = Ok (t, rs) → tree_shape t.
Proof. intros cs t rs F E. destruct (run_calls_refines cs new_tree empty_atree repr_new F) as (t' & a & rs' & E' & _ & R).
  rewrite E in E'. injection E' as <- <-. exact (repr_shape t a R). Qed.
Theorem C09_repr_shape : ∀ t a, repr t a → tree_shape t.
Proof. exact repr_shape. Qed.
Theorem C09_repr_rooted : ∀ t a, repr t a → rooted a.
Proof. exact r_ok. Qed.
Print Assumptions C09_single_rooted_tree.
Print Assumptions C09_repr_shape.
Print Assumptions C09_repr_rooted.
(** DeleteChild does not tell the child or the tree: afterwards the node is found, with its parent, which no longer lists it. *)
Lemma delete_child_test : match run_calls new_tree [TAddNode None idA; TAddNode (Some idA) idB] with
  | Ok (t, rs) => match get t idA, get t idB with
      | Some p, Some c => let '(t', b) := delete_child t p idB in
          b && bool_decide (rs = [TOk; TOk]) && bool_decide (get t' idB = Some c) && bool_decide (node_parent t' c = Some p) && bool_decide (node_children t' p !! uid_hex idB = None) &&
          bool_decide (root t' ≠ Some c)
      | _, _ => false
      end
  | _ => false
  end = true.
Proof. vm_compute. reflexivity. Qed.
Theorem C09_delete_child_breaks : ∃ t p c t', run_calls new_tree [TAddNode None idA; TAddNode (Some idA) idB] = Ok (t, [TOk; TOk]) ∧
  get t idA = Some p ∧ get t idB = Some c ∧ delete_child t p idB = (t', true) ∧ get t' idB = Some c ∧ node_parent t' c = Some p ∧ ¬ tree_shape t'.
Proof.
  pose proof delete_child_test as H. destruct (run_calls _ _) as [[t rs]| | | |] eqn:E; try discriminate H. destruct (get t idA) as [p|] eqn:Ea; [|discriminate H].
  destruct (get t idB) as [c|] eqn:Eb; [|discriminate H]. destruct (delete_child t p idB) as [t' b] eqn:Ed. rewrite !andb_true_iff, !bool_decide_eq_true in H.
  destruct H as [[[[[Hb ->] H1] H2] H3] H4]. destruct b; [|done]. exists t, p, c, t'. split_and!; try done. intros S.
  destruct (ts_up _ S idB c H1 H4) as (pid & p' & _ & Hp & Hc). rewrite H2 in Hp. injection Hp as <-. by rewrite H3 in Hc.
Qed.
Print Assumptions C09_delete_child_breaks.
Example C09_sat : match run_calls new_tree sample_calls with
  | Ok (t, _) => root t = get t idA ∧ (get t idC ≫= node_parent t) = get t idB | _ => False end.
Proof. vm_compute. auto. Qed.

(** ** C10 *)
(** A call with a new ID: fails exactly when stated; on success exactly that node is added. *)
Theorem C10_add_node_exact : ∀ t a p id, repr t a → ¬ has a id →
  let '(t1, l) := alloc_node t (new_node id) in
  match p with
  | None => (∃ r, is_root a r) ∧ add_node t1 p l = Err ERootExists ∨
            (∀ r, ¬ is_root a r) ∧ ∃ t', add_node t1 p l = Ok t' ∧ repr t' (put_node a id (ANode None ∅ ∅))
  | Some q => ¬ has a q ∧ add_node t1 p l = Err EParentNotFound ∨
              has a q ∧ ∃ t', add_node t1 p l = Ok t' ∧ repr t' (put_node a id (ANode (Some q) ∅ ∅))
  end.
Proof. exact add_node_effect. Qed.
(** The failures do not depend on the node passed. The model's [Err] carries no new state: nothing changed. *)
Theorem C10_add_node_failures : ∀ t a l, repr t a →
  ((∃ r, is_root a r) → add_node t None l = Err ERootExists) ∧
  (∀ q, ¬ has a q → add_node t (Some q) l = Err EParentNotFound).
Proof. exact (λ t a l R, conj (λ H, add_node_root_err t a l R H) (λ q H, add_node_parent_err t a q l R H)). Qed.
Print Assumptions C10_add_node_exact.
Print Assumptions C10_add_node_failures.
Example C10_sat : repr new_tree empty_atree ∧ ¬ has empty_atree idA.
Proof. split; [exact repr_new|]. intros [n E]. cbn in E. by rewrite lookup_empty in E. Qed.

(** ** C11: false of the code. Adding C again, under A, is accepted, and afterwards B still lists C as a
    child although C's parent is now A. *)
Theorem C11_id_added_once_refuted : ∃ cs t rs,
  run_calls new_tree cs = Ok (t, rs) ∧ Forall (λ r, r = TOk) rs ∧ ¬ NoDup (added cs) ∧
  (∃ lB, get t idB = Some lB ∧ is_Some (node_children t lB !! uid_hex idC)) ∧
  (∃ lA, get t idA = Some lA ∧ (get t idC ≫= node_parent t) = Some lA).
Proof.
  exists [TAddNode None idA; TAddNode (Some idA) idB; TAddNode (Some idB) idC; TAddNode (Some idA) idC].
  destruct (check_run_ok [TAddNode None idA; TAddNode (Some idA) idB; TAddNode (Some idB) idC; TAddNode (Some idA) idC]
    (λ t rs, bool_decide (Forall (λ r, r = TOk) rs) &&
       match get t idB, get t idA with Some lB, Some lA =>
         bool_decide (is_Some (node_children t lB !! uid_hex idC)) && bool_decide ((get t idC ≫= node_parent t) = Some lA)
       | _, _ => false end)) as (t & rs & E & H); [vm_compute; reflexivity|].
  exists t, rs. split; [exact E|]. clear E. apply andb_true_iff in H as [H1 H2].
  split; [exact (bool_decide_eq_true_1 _ H1)|].
  split. { intros H. apply (bool_decide_eq_true_2 _) in H. vm_compute in H. discriminate. }
  destruct (get t idB) as [lB|]; [|discriminate]. destruct (get t idA) as [lA|]; [|discriminate].
  apply andb_true_iff in H2 as [H2 H3].
  split; [exists lB|exists lA]; (split; [reflexivity|]).
  - exact (bool_decide_eq_true_1 _ H2).
  - exact (bool_decide_eq_true_1 _ H3).
Qed.
(** It is accepted in every state, for every existing parent (so the property fails whenever it could);
    only a second root and an unknown parent are rejected. *)
Theorem C11_duplicate_accepted : ∀ t a q id, repr t a → has a q →
  ∃ t', run_call t (TAddNode (Some q) id) = Ok (t', TOk).
Proof. exact add_node_dup_accepted. Qed.
Theorem C11_duplicate_root_rejected_partial : ∀ t a l, repr t a → (∃ r, is_root a r) →
  add_node t None l = Err ERootExists.
Proof. exact add_node_root_err. Qed.
(** A node that is in the tree already gets the parent that is named. Its old parent keeps it as a child. *)
Lemma indexes_heap fuel t q t' : update_indexes_loop fuel t q = Ok t' → t_heap t' = t_heap t.
Proof.
  revert t q. induction fuel as [|fuel IH]; intros t [|l q]; cbn [update_indexes_loop]; try done; try (by intros [= <-]). destruct (node_at t l); [|done]. intros H. by apply IH in H.
Qed.
Theorem C11_moved : ∀ t pid p l n t', t_nodes t !! uid_hex pid = Some p → node_at t l = Some n → add_node t (Some pid) l = Ok t' →
  node_parent t' l = Some p ∧ ∀ q, n_parent n = Some q → q ≠ p → q ≠ l → node_at t' q = node_at t q.
Proof.
  intros t pid p l n t' Ep El E. unfold add_node in E. rewrite Ep in E. unfold node_id in E. rewrite El in E. cbn [fmap option_fmap option_map] in E.
  apply indexes_heap in E. unfold node_parent, node_at. rewrite E. unfold set_parent, upd_node, set_heap. cbn [t_heap].
  assert (∀ x, x ≠ p → t_heap (add_child t p l (n_id n)).1 !! x = t_heap t !! x) as Ha.
  { intros x N. unfold add_child. case_decide; [done|]. unfold upd_node, set_heap. cbn [fst t_heap]. by rewrite lookup_alter_ne. }
  split.
  - rewrite lookup_alter. assert (is_Some (t_heap (add_child t p l (n_id n)).1 !! l)) as [x ->]; [|done].
    unfold add_child. case_decide; [by exists n|]. unfold upd_node, set_heap. cbn [fst t_heap]. apply lookup_alter_is_Some. by exists n.
  - intros q _ N1 N2. rewrite lookup_alter_ne by done. by apply Ha.
Qed.
(** C, a child of B, is added under A. *)
Example C11_sat_moved : match run_calls new_tree [TAddNode None idA; TAddNode (Some idA) idB; TAddNode (Some idB) idC] with
  | Ok (t, _) => match get t idA, get t idB, get t idC with
      | Some lA, Some lB, Some lC => match add_node t (Some idA) lC with
          | Ok t' => bool_decide (node_parent t lC = Some lB) && bool_decide (node_parent t' lC = Some lA) && bool_decide (lB ≠ lA) && bool_decide (lB ≠ lC)
          | _ => false end
      | _, _, _ => false end
  | _ => false end = true.
Proof. vm_compute. reflexivity. Qed.
Print Assumptions C11_id_added_once_refuted.
Print Assumptions C11_moved.
Print Assumptions C11_duplicate_accepted.
Print Assumptions C11_duplicate_root_rejected_partial.

(** ** C12 *)
Theorem C12_update_branch_exact : ∀ t a name id force, repr t a →
  (has a id → ∀ head, a_branches a !! name = Some head → force = true ∨ ancestor_or_self a head id →
     ∃ t', update_branch t name id force = Ok t' ∧ get_by_branch t' name = get t id ∧
     (∀ n, n ≠ name → get_by_branch t' n = get_by_branch t n) ∧ same_tags t t' ∧ same_nodes t t') ∧
  (¬ has a id → update_branch t name id force = Err ENodeNotFound) ∧
  (has a id → a_branches a !! name = None → update_branch t name id force = Err EBranchNotFound) ∧
  (has a id → ∀ head, a_branches a !! name = Some head → force = false → ¬ ancestor_or_self a head id →
     update_branch t name id force = Err EUnreachable).
Proof. exact update_branch_effect. Qed.
Print Assumptions C12_update_branch_exact.
Example C12_sat : match run_calls new_tree (take 5 sample_calls) with
  | Ok (t, _) => update_branch t (B "main") idA false = Err EUnreachable ∧
      (match update_branch t (B "main") idC false with Ok t' => get_by_branch t' (B "main") = get t idC | _ => False end)
  | _ => False end.
Proof. vm_compute. auto. Qed.

(** ** C13 *)
Theorem C13_add_branch_exact : ∀ t a name id, repr t a →
  (¬ has a id ∧ add_branch t name id = Err ENodeNotFound) ∨
  (has a id ∧ ∃ t', add_branch t name id = Ok t' ∧ get_by_branch t' name = get t id ∧
     (∀ n, n ≠ name → get_by_branch t' n = get_by_branch t n) ∧ same_tags t t' ∧ same_nodes t t').
Proof. exact add_branch_effect. Qed.
Theorem C13_add_tag_exact : ∀ t a name id, repr t a →
  (¬ has a id ∧ add_tag t name id = Err ENodeNotFound) ∨
  (has a id ∧ ∃ t', add_tag t name id = Ok t' ∧ get_by_tag t' name = get t id ∧
     (∀ n, n ≠ name → get_by_tag t' n = get_by_tag t n) ∧ same_branches t t' ∧ same_nodes t t').
Proof. exact add_tag_effect. Qed.
Theorem C13_delete_branch_exact : ∀ t name, let '(t', b) := delete_branch t name in
  (b = true ↔ is_Some (get_by_branch t name)) ∧ (b = false → t' = t) ∧
  get_by_branch t' name = None ∧ (∀ n, n ≠ name → get_by_branch t' n = get_by_branch t n) ∧
  same_tags t t' ∧ same_nodes t t'.
Proof. exact delete_branch_effect. Qed.
Theorem C13_delete_tag_exact : ∀ t name, let '(t', b) := delete_tag t name in
  (b = true ↔ is_Some (get_by_tag t name)) ∧ (b = false → t' = t) ∧
  get_by_tag t' name = None ∧ (∀ n, n ≠ name → get_by_tag t' n = get_by_tag t n) ∧
  same_branches t t' ∧ same_nodes t t'.
Proof. exact delete_tag_effect. Qed.
Print Assumptions C13_add_branch_exact.
Print Assumptions C13_add_tag_exact.
Print Assumptions C13_delete_branch_exact.
Print Assumptions C13_delete_tag_exact.
Example C13_sat : match run_calls new_tree sample_calls with
  | Ok (t, _) => (delete_branch t (B "main")).2 = true ∧ (delete_branch t (B "x")).2 = false | _ => False end.
Proof. vm_compute. auto. Qed.

(** ** C14 *)
Theorem C14_no_dangling : ∀ cs t rs, all_fresh empty_atree cs → run_calls new_tree cs = Ok (t, rs) →
  ∀ name l, get_by_branch t name = Some l ∨ get_by_tag t name = Some l →
  ∃ id, node_id t l = Some id ∧ get t id = Some l.
Proof.
  intros cs t rs F E. destruct (run_calls_refines cs new_tree empty_atree repr_new F) as (t' & a & rs' & E' & _ & R).
  rewrite E in E'. injection E' as <- <-. destruct (repr_observes _ _ R) as [O1 _ _ _ O5 _ O7 _].
  intros name l [H|H]; [destruct (O5 _ _ H) as (id & _ & G)|destruct (O7 _ _ H) as (id & _ & G)];
    exists id; split; auto; exact (sh_id _ _ _ _ (O1 _ _ G)).
Qed.
Print Assumptions C14_no_dangling.
Example C14_sat : match run_calls new_tree sample_calls with
  | Ok (t, _) => get_by_branch t (B "main") = get t idC ∧ is_Some (get t idC) ∧ is_Some (get_by_tag t (B "ROOT")) | _ => False end.
Proof. vm_compute. eauto. Qed.

(** ** C15 *)
(** [key_id key] is the ID the key spells (32 hex digits, else 26 base32 characters). The condition excludes
    exactly the strings on which the base32 decoder panics (C04). *)
Theorem C15_search_order : ∀ t a key, repr t a → decode_b32 key ≠ Panic →
  ∃ o, search t key = Ok o ∧ found_of t o = Some (search_spec a (key_id key) key).
Proof. exact search_correct. Qed.
Print Assumptions C15_search_order.
(** Without the condition it is false: a tag can have a 26-byte name with a line feed, and then searching it panics. *)
Theorem C15_search_order_refuted : ∃ cs t rs key, run_calls new_tree cs = Ok (t, rs) ∧
  Forall (λ r, r = TOk) rs ∧ is_Some (get_by_tag t key) ∧ search t key = Panic.
Proof.
  destruct (check_run_ok [TAddNode None idA; TAddTag (LF :: B "PMWUGCC2MJGDMIAB5FBGGBSHE") idA]
    (λ t rs, bool_decide (Forall (λ r, r = TOk) rs) &&
       bool_decide (is_Some (get_by_tag t (LF :: B "PMWUGCC2MJGDMIAB5FBGGBSHE"))) &&
       match search t (LF :: B "PMWUGCC2MJGDMIAB5FBGGBSHE") with Panic => true | _ => false end))
    as (t & rs & E & H); [vm_compute; reflexivity|].
  eexists _, t, rs, _. split; [exact E|]. clear E.
  apply andb_true_iff in H as [H H3]. apply andb_true_iff in H as [H1 H2].
  split; [exact (bool_decide_eq_true_1 _ H1)|]. split; [exact (bool_decide_eq_true_1 _ H2)|].
  destruct (search t _); try discriminate. reflexivity.
Qed.
Print Assumptions C15_search_order_refuted.
Example C15_sat : match run_calls new_tree sample_calls with
  | Ok (t, _) => (λ o, found_of t <$> o) <$> [match search t (uid_b32 idB) with Ok o => Some o | _ => None end;
       match search t (uid_hex idB) with Ok o => Some o | _ => None end;
       match search t (B "ROOT") with Ok o => Some o | _ => None end;
       match search t (B "main") with Ok o => Some o | _ => None end;
       match search t (B "nope") with Ok o => Some o | _ => None end]
     = Some <$> [Some (FCommit idB); Some (FCommit idB); Some (FTag idA); Some (FBranch idC); Some FNone]
  | _ => False end.
Proof. vm_compute. reflexivity. Qed.
