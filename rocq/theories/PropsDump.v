(** * PropsDump: C16, C17 *)
From Verif Require Import Base Uid UidProofs Tree SpecTree TreeRefine TreeObs Dump DumpProofs PropsTree.
From stdpp Require Import prelude gmap.

(** ** C16 *)
(** [observes t a]: every observer of the Tree interface answers as the plain maps [a] do (SpecTree.v).
    [dumpenv_ok e], [ordb], [ordt]: arbitrary map iteration orders. *)
Theorem C16_dump_load : ∀ t a e ordb ordt, repr t a → dumpenv_ok e →
  (∀ l, ordb l ≡ₚ l) → (∀ l, ordt l ≡ₚ l) →
  ∃ d t', dump t e = Ok d ∧ load ordb ordt d = Ok t' ∧ observes t a ∧ observes t' a ∧ repr t' a.
Proof.
  intros t a e ordb ordt R He Hb Ht. destruct (dump_load t a e ordb ordt R He Hb Ht) as (d & t' & ? & ? & R').
  exists d, t'. eauto 10 using repr_observes.
Qed.
Print Assumptions C16_dump_load.
(** The same for every tree built by API calls. *)
Theorem C16_dump_load_built : ∀ cs t rs, all_fresh empty_atree cs → run_calls new_tree cs = Ok (t, rs) →
  ∃ a, tspecs empty_atree cs a rs ∧ observes t a ∧
  ∀ e ordb ordt, dumpenv_ok e → (∀ l, ordb l ≡ₚ l) → (∀ l, ordt l ≡ₚ l) →
  ∃ d t', dump t e = Ok d ∧ load ordb ordt d = Ok t' ∧ observes t' a.
Proof.
  intros cs t rs F E. destruct (run_calls_refines cs new_tree empty_atree repr_new F) as (t1 & a & rs1 & E1 & S & R).
  rewrite E in E1. injection E1 as <- <-. exists a. split; [done|]. split; [by apply repr_observes|].
  intros e ordb ordt He Hb Ht. destruct (C16_dump_load t a e ordb ordt R He Hb Ht) as (d & t' & ? & ? & ? & ? & ?). eauto.
Qed.
Print Assumptions C16_dump_load_built.
(** What Dump writes: exactly the commits below the root, each once, nested under its parent. *)
Theorem C16_dump_content : ∀ t a e, repr t a → dumpenv_ok e →
  ∃ d, dump t e = Ok d ∧
    default ∅ (d_branches d) = uid_hex <$> a_branches a ∧
    default ∅ (d_tags d) = uid_hex <$> a_tags a ∧
    match d_nodes d with
    | None => a_nodes a = ∅
    | Some nd => ∃ r, is_root a r ∧ describes a r nd
    end.
Proof. exact dump_spec. Qed.
Print Assumptions C16_dump_content.

(** A concrete tree with two children, dumped in reversed order and loaded. *)
Definition two_calls : list tcall :=
  [TAddNode None idA; TAddNode (Some idA) idB; TAddNode (Some idA) idC;
   TAddBranch (B "main") idC; TAddTag (B "ROOT") idA; TAddAnnotation idC (B "k") (B "v")].
Definition rev_env : dumpenv := DumpEnv (λ _ l, rev l) true false.
Example C16_sat : dumpenv_ok rev_env ∧
  match run_calls new_tree two_calls with
  | Ok (t, _) =>
      match dump t rev_env with
      | Ok d => match load (@rev _) id d with
          | Ok t' => (node_id t' <$> get_by_branch t' (B "main")) = Some (Some idC) ∧
                     (node_id t' <$> (root t')) = Some (Some idA) ∧
                     size (t_nodes t') = 3 ∧
                     (nd_children <$> d_nodes d) ≠ Some []
          | _ => False end
      | _ => False end
  | _ => False end.
Proof. split; [intros l xs; symmetry; apply Permutation_rev|]. vm_compute. repeat split; discriminate. Qed.

(** ** C17 *)
(** For every dump that has a node tree: Load returns a tree or an error (it never panics or hangs), and
    if it returns a tree, all IDs in the dump are well formed, the tree's IDs are exactly the dump's,
    every branch and tag of the dump names one of them, and no branch or tag of the tree dangles. *)
Theorem C17_load_no_dangling : ∀ ordb ordt d t, load ordb ordt d = Ok t →
  ∀ name l, get_by_branch t name = Some l ∨ get_by_tag t name = Some l →
  ∃ id, node_id t l = Some id ∧ get t id = Some l.
Proof.
  intros ordb ordt d t E name l H. pose proof (load_total ordb ordt d) as T. rewrite E in T.
  destruct T as [[I1 I2 I3 I4] _].
  destruct H as [H|H]; [apply I3 in H as (id & G)|apply I4 in H as (id & G)];
    exists id; (split; [|done]); destruct (I1 _ _ G) as (n & En & Eid); unfold node_id; rewrite En; cbn;
    by apply uid_hex_inj in Eid as ->.
Qed.
Print Assumptions C17_load_no_dangling.
Theorem C17_load_total : ∀ ordb ordt d, (∃ t, load ordb ordt d = Ok t) ∨ (∃ e, load ordb ordt d = Err e).
Proof.
  intros ordb ordt d. pose proof (load_total ordb ordt d) as T.
  destruct (load ordb ordt d); try done; eauto.
Qed.
Print Assumptions C17_load_total.
(** An ID of a dump: 32 hex digits naming one of its nodes. *)
Definition names_node (nd : ndump) (s : bytes) : Prop :=
  ∃ id c, decode_hex s = Ok id ∧ c ∈ nd_all nd ∧ decode_hex (nd_id c) = Ok id.
Theorem C17_bad_ids_rejected_partial : ∀ ordb ordt d nd, (∀ l, ordb l ≡ₚ l) → (∀ l, ordt l ≡ₚ l) →
  d_nodes d = Some nd →
  (∃ c, c ∈ nd_all nd ∧ ∀ id, decode_hex (nd_id c) ≠ Ok id) ∨
  (∃ name v, default ∅ (d_branches d) !! name = Some v ∧ ¬ names_node nd v) ∨
  (∃ name v, default ∅ (d_tags d) !! name = Some v ∧ ¬ names_node nd v) →
  ∃ e, load ordb ordt d = Err e.
Proof.
  intros ordb ordt d nd Hb Ht End H. pose proof (load_total ordb ordt d) as T.
  destruct (load ordb ordt d) as [t|e| | |]; try done; [|eauto]. exfalso.
  destruct T as (_ & T). destruct (T nd End) as (F & _ & FB & FT).
  destruct H as [(c & Hc & Hn)|[(name & v & Hv & Hn)|(name & v & Hv & Hn)]].
  - rewrite Forall_forall in F. destruct (F c Hc) as (id & E). by eapply Hn.
  - apply Hn. rewrite Forall_forall in FB. apply (FB (name, v)).
    rewrite Hb. by apply elem_of_map_to_list.
  - apply Hn. rewrite Forall_forall in FT. apply (FT (name, v)).
    rewrite Ht. by apply elem_of_map_to_list.
Qed.
Print Assumptions C17_bad_ids_rejected_partial.
(** The loaded tree has exactly the IDs of the dump. *)
Theorem C17_loaded_ids : ∀ ordb ordt d nd t, d_nodes d = Some nd → load ordb ordt d = Ok t →
  ∀ x, is_Some (get t x) ↔ ∃ c, c ∈ nd_all nd ∧ decode_hex (nd_id c) = Ok x.
Proof.
  intros ordb ordt d nd t End E. pose proof (load_total ordb ordt d) as T. rewrite E in T.
  destruct T as (_ & T). apply T, End.
Qed.
Print Assumptions C17_loaded_ids.
(** The full statement is false for a dump without nodes: Load returns an empty tree and silently
    drops the branch. *)
Theorem C17_bad_ids_rejected_refuted : ∃ d name v, d_branches d = Some {[ name := v ]} ∧
  d_nodes d = None ∧ ∀ ordb ordt, load ordb ordt d = Ok new_tree.
Proof. exists (TDump None (Some {[ B "main" := B "xyz" ]}) None), (B "main"), (B "xyz"). done. Qed.
Print Assumptions C17_bad_ids_rejected_refuted.
Definition bad_dump : tdump :=
  TDump (Some (ND (uid_hex idA) [ND (uid_hex idB) [] ∅ ∅] ∅ ∅)) (Some {[ B "main" := uid_hex idC ]}) None.
Example C17_sat : load id id bad_dump = Err ENodeNotFound ∧
  is_ok (load id id (TDump (d_nodes bad_dump) (Some {[ B "main" := uid_hex idB ]}) None)) = true ∧
  is_ok (load id id (TDump (Some (ND (B "zz") [] ∅ ∅)) None None)) = false.
Proof. vm_compute. auto. Qed.
