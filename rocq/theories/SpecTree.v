(** * SpecTree: what the commit tree is supposed to be (C08-C15), without pointers or indexes.

    A tree is a finite map from commit IDs to (parent ID, annotations, data), plus two maps
    from names to IDs. *)
From Verif Require Import Base Uid.

Record anode := ANode {
  an_parent : option uid;
  an_anno : gmap bytes bytes;
  an_data : gmap bytes (option bytes) }.

Record atree := ATree {
  a_nodes : gmap uid anode;
  a_branches : gmap bytes uid;
  a_tags : gmap bytes uid }.

Definition empty_atree : atree := ATree ∅ ∅ ∅.

(** [p] is the parent of [c] *)
Definition parent_of (a : atree) (c p : uid) : Prop :=
  ∃ n, a_nodes a !! c = Some n ∧ an_parent n = Some p.
(** [x] is [y] or an ancestor of [y] *)
Definition ancestor_or_self (a : atree) (x y : uid) : Prop := rtc (parent_of a) y x.
(** commits without a parent *)
Definition is_root (a : atree) (r : uid) : Prop :=
  ∃ n, a_nodes a !! r = Some n ∧ an_parent n = None.
Definition has (a : atree) (id : uid) : Prop := is_Some (a_nodes a !! id).

(** A single rooted tree: at most one root, every parent exists, and following parents from
    any commit ends at the root. Branches and tags name commits of the tree. *)
Record rooted (a : atree) : Prop := {
  ro_unique : ∀ r r', is_root a r → is_root a r' → r = r';
  ro_parent : ∀ c p, parent_of a c p → has a p;
  ro_reach : ∀ c, has a c → ∃ r, is_root a r ∧ ancestor_or_self a r c;
  ro_branch : ∀ n id, a_branches a !! n = Some id → has a id;
  ro_tag : ∀ n id, a_tags a !! n = Some id → has a id }.

(** The chain [id; parent; grandparent; ...; root]. *)
Inductive chain (a : atree) : uid → list uid → Prop :=
  | chain_root id : is_root a id → chain a id [id]
  | chain_step id p l : parent_of a id p → chain a p l → chain a id (id :: l).

(** The calls of the Tree and Node API that change something. [TAddNode None id] is
    [AddNode(nil, NewNode(id))]. The annotation and data calls are made on the node [Get(id)]
    returns. *)
Inductive tcall :=
  | TAddNode (parent : option uid) (id : uid)
  | TAddTag (name : bytes) (id : uid)
  | TDeleteTag (name : bytes)
  | TAddBranch (name : bytes) (id : uid)
  | TUpdateBranch (name : bytes) (id : uid) (force : bool)
  | TDeleteBranch (name : bytes)
  | TAddAnnotation (id : uid) (k v : bytes)
  | TSetAnnotations (id : uid) (m : gmap bytes bytes)
  | TAddData (id : uid) (k : bytes) (v : option bytes)
  | TSetData (id : uid) (m : gmap bytes (option bytes)).

(** Answer: a call that can fail returns an error kind; the Delete calls return a bool. *)
Inductive tans := TOk | TErr (e : err) | TBool (b : bool) | TNoNode.
Global Instance tans_eq_dec : EqDecision tans.
Proof. solve_decision. Defined.

Definition put_node (a : atree) (id : uid) (n : anode) : atree :=
  ATree (<[id := n]> (a_nodes a)) (a_branches a) (a_tags a).
Definition put_branches (a : atree) (m : gmap bytes uid) : atree := ATree (a_nodes a) m (a_tags a).
Definition put_tags (a : atree) (m : gmap bytes uid) : atree := ATree (a_nodes a) (a_branches a) m.

(** What each call does and answers. *)
Inductive tspec (a : atree) : tcall → atree → tans → Prop :=
  | s_root_ok id : (∀ r, ¬ is_root a r) →
      tspec a (TAddNode None id) (put_node a id (ANode None ∅ ∅)) TOk
  | s_root_err id r : is_root a r →
      tspec a (TAddNode None id) a (TErr ERootExists)
  | s_node_ok p id : has a p →
      tspec a (TAddNode (Some p) id) (put_node a id (ANode (Some p) ∅ ∅)) TOk
  | s_node_err p id : ¬ has a p →
      tspec a (TAddNode (Some p) id) a (TErr EParentNotFound)
  | s_tag_ok name id : has a id →
      tspec a (TAddTag name id) (put_tags a (<[name := id]> (a_tags a))) TOk
  | s_tag_err name id : ¬ has a id →
      tspec a (TAddTag name id) a (TErr ENodeNotFound)
  | s_dtag_ok name id : a_tags a !! name = Some id →
      tspec a (TDeleteTag name) (put_tags a (delete name (a_tags a))) (TBool true)
  | s_dtag_none name : a_tags a !! name = None →
      tspec a (TDeleteTag name) a (TBool false)
  | s_br_ok name id : has a id →
      tspec a (TAddBranch name id) (put_branches a (<[name := id]> (a_branches a))) TOk
  | s_br_err name id : ¬ has a id →
      tspec a (TAddBranch name id) a (TErr ENodeNotFound)
  | s_dbr_ok name id : a_branches a !! name = Some id →
      tspec a (TDeleteBranch name) (put_branches a (delete name (a_branches a))) (TBool true)
  | s_dbr_none name : a_branches a !! name = None →
      tspec a (TDeleteBranch name) a (TBool false)
  | s_upd_ok name id force head : has a id → a_branches a !! name = Some head →
      force = true ∨ ancestor_or_self a head id →
      tspec a (TUpdateBranch name id force) (put_branches a (<[name := id]> (a_branches a))) TOk
  | s_upd_nonode name id force : ¬ has a id →
      tspec a (TUpdateBranch name id force) a (TErr ENodeNotFound)
  | s_upd_nobranch name id force : has a id → a_branches a !! name = None →
      tspec a (TUpdateBranch name id force) a (TErr EBranchNotFound)
  | s_upd_unreach name id head : has a id → a_branches a !! name = Some head →
      ¬ ancestor_or_self a head id →
      tspec a (TUpdateBranch name id false) a (TErr EUnreachable)
  | s_anno id n k v : a_nodes a !! id = Some n →
      tspec a (TAddAnnotation id k v) (put_node a id (ANode (an_parent n) (<[k := v]> (an_anno n)) (an_data n))) TOk
  | s_sanno id n m : a_nodes a !! id = Some n →
      tspec a (TSetAnnotations id m) (put_node a id (ANode (an_parent n) m (an_data n))) TOk
  | s_data id n k v : a_nodes a !! id = Some n →
      tspec a (TAddData id k v) (put_node a id (ANode (an_parent n) (an_anno n) (<[k := v]> (an_data n)))) TOk
  | s_sdata id n m : a_nodes a !! id = Some n →
      tspec a (TSetData id m) (put_node a id (ANode (an_parent n) (an_anno n) m)) TOk
  | s_no_anno id k v : ¬ has a id → tspec a (TAddAnnotation id k v) a TNoNode
  | s_no_sanno id m : ¬ has a id → tspec a (TSetAnnotations id m) a TNoNode
  | s_no_data id k v : ¬ has a id → tspec a (TAddData id k v) a TNoNode
  | s_no_sdata id m : ¬ has a id → tspec a (TSetData id m) a TNoNode.

(** The call adds no ID that is already there (C11 is about the others). *)
Definition fresh_call (a : atree) (c : tcall) : Prop :=
  match c with TAddNode _ id => ¬ has a id | _ => True end.

(** A sequence of calls. *)
Inductive tspecs (a : atree) : list tcall → atree → list tans → Prop :=
  | tspecs_nil : tspecs a [] a []
  | tspecs_cons c a' r cs a'' rs : fresh_call a c → tspec a c a' r → tspecs a' cs a'' rs →
      tspecs a (c :: cs) a'' (r :: rs).

(** Every call of the sequence adds only IDs that are not there yet. *)
Fixpoint all_fresh (a : atree) (cs : list tcall) : Prop :=
  match cs with
  | [] => True
  | c :: cs' => fresh_call a c ∧ ∀ a' r, tspec a c a' r → all_fresh a' cs'
  end.
(** A simple sufficient condition: no ID is used in two AddNode calls. *)
Definition added (cs : list tcall) : list uid :=
  omap (λ c, match c with TAddNode _ id => Some id | _ => None end) cs.

(** What [Search(key)] should find, given what [key] means as hex and as base32. *)
Inductive found := FCommit (id : uid) | FTag (id : uid) | FBranch (id : uid) | FNone.
Definition search_spec (a : atree) (as_id : option uid) (key : bytes) : found :=
  let by_name := match a_tags a !! key with
                 | Some id => FTag id
                 | None => match a_branches a !! key with Some id => FBranch id | None => FNone end
                 end in
  match as_id with
  | Some id => if decide (has a id) then FCommit id else by_name
  | None => by_name
  end.
