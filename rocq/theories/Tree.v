(** * Tree: model of pkg/spaces/trees/node.go and tree.go.

    Nodes are pointers in Go ([*defaultNode]); the model keeps them in a heap indexed by
    locations, so that aliasing (the same node reached through parent, children, index,
    branches and tags) is explicit. Each method runs under the tree's locks, so it is modelled
    as one atomic function of the state; the locking itself is modelled in [Locks.v].

    Simplifications: a nil map and an empty map are identified (no method tells them apart
    except that [Dump] writes [null] or [{}]; [Dump.v] covers both). *)
From Verif Require Import Base Uid.

Notation loc := nat.

(** node.go:54-64 [defaultNode]. [n_children] is keyed by the hex form of the child ID.
    A data value is a Go byte slice, which may be nil ([None]). *)
Record node := Node {
  n_id : uid;
  n_parent : option loc;
  n_children : gmap bytes loc;
  n_anno : gmap bytes bytes;
  n_data : gmap bytes (option bytes) }.

(** node.go:49-51 [NewNode] *)
Definition new_node (id : uid) : node := Node id None ∅ ∅ ∅.

(** tree.go:75-86 [defaultTree], together with the heap of nodes. *)
Record tstate := TState {
  t_heap : gmap loc node;
  t_next : loc;                      (* first unused location *)
  t_root : option loc;
  t_nodes : gmap bytes loc;          (* keyed by hex ID *)
  t_branches : gmap bytes loc;
  t_tags : gmap bytes loc }.

(** tree.go:70-72 [NewTree] *)
Definition new_tree : tstate := TState ∅ 0 None ∅ ∅ ∅.

Definition set_heap (t : tstate) (h : gmap loc node) : tstate :=
  TState h (t_next t) (t_root t) (t_nodes t) (t_branches t) (t_tags t).
Definition set_root (t : tstate) (r : option loc) : tstate :=
  TState (t_heap t) (t_next t) r (t_nodes t) (t_branches t) (t_tags t).
Definition set_nodes (t : tstate) (m : gmap bytes loc) : tstate :=
  TState (t_heap t) (t_next t) (t_root t) m (t_branches t) (t_tags t).
Definition set_branches (t : tstate) (m : gmap bytes loc) : tstate :=
  TState (t_heap t) (t_next t) (t_root t) (t_nodes t) m (t_tags t).
Definition set_tags (t : tstate) (m : gmap bytes loc) : tstate :=
  TState (t_heap t) (t_next t) (t_root t) (t_nodes t) (t_branches t) m.

(** Allocation of a node (the [&defaultNode{...}] expression of node.go:50). *)
Definition alloc_node (t : tstate) (n : node) : tstate * loc :=
  (TState (<[t_next t := n]> (t_heap t)) (S (t_next t)) (t_root t) (t_nodes t) (t_branches t) (t_tags t),
   t_next t).

Definition node_at (t : tstate) (l : loc) : option node := t_heap t !! l.

(** ** Methods of nodes *)

(** node.go:69-71, 74-76. Calling a method on a nil pointer or an unallocated location
    cannot happen in the model's reachable states; it is [None]. *)
Definition node_id (t : tstate) (l : loc) : option uid := n_id <$> node_at t l.
Definition node_parent (t : tstate) (l : loc) : option loc := node_at t l ≫= n_parent.
(** node.go:79-94 *)
Definition node_children (t : tstate) (l : loc) : gmap bytes loc :=
  from_option n_children ∅ (node_at t l).
(** node.go:97-103 *)
Definition node_has_child (t : tstate) (l : loc) (id : uid) : bool :=
  bool_decide (is_Some (node_children t l !! uid_hex id)).
(** node.go:106-109, 112-117 *)
Definition node_is_root (t : tstate) (l : loc) : bool := bool_decide (node_parent t l = None).
Definition node_is_leaf (t : tstate) (l : loc) : bool := bool_decide (node_children t l = ∅).

Definition upd_node (t : tstate) (l : loc) (f : node → node) : tstate :=
  set_heap t (alter f l (t_heap t)).

(** node.go:120-122 [SetParent] *)
Definition set_parent (t : tstate) (l : loc) (p : option loc) : tstate :=
  upd_node t l (λ n, Node (n_id n) p (n_children n) (n_anno n) (n_data n)).
(** node.go:126-143 [AddChild]; [cid] is [child.ID()] *)
Definition add_child (t : tstate) (l c : loc) (cid : uid) : tstate * bool :=
  if decide (is_Some (node_children t l !! uid_hex cid)) then (t, false)
  else (upd_node t l (λ n, Node (n_id n) (n_parent n) (<[uid_hex cid := c]> (n_children n)) (n_anno n) (n_data n)), true).
(** node.go:147-161 [DeleteChild] (no caller in the repository) *)
Definition delete_child (t : tstate) (l : loc) (cid : uid) : tstate * bool :=
  if decide (is_Some (node_children t l !! uid_hex cid)) then
    (upd_node t l (λ n, Node (n_id n) (n_parent n) (delete (uid_hex cid) (n_children n)) (n_anno n) (n_data n)), true)
  else (t, false).
(** node.go:178-185 [AddAnnotation], 188-192 [SetAnnotations] *)
Definition add_annotation (t : tstate) (l : loc) (k v : bytes) : tstate :=
  upd_node t l (λ n, Node (n_id n) (n_parent n) (n_children n) (<[k := v]> (n_anno n)) (n_data n)).
Definition set_annotations (t : tstate) (l : loc) (m : gmap bytes bytes) : tstate :=
  upd_node t l (λ n, Node (n_id n) (n_parent n) (n_children n) m (n_data n)).
(** node.go:215-228 [AddData], 231-235 [SetData]. The copies make later changes to the caller's
    slice invisible, which is what values in the model are. *)
Definition add_data (t : tstate) (l : loc) (k : bytes) (v : option bytes) : tstate :=
  upd_node t l (λ n, Node (n_id n) (n_parent n) (n_children n) (n_anno n) (<[k := v]> (n_data n))).
Definition set_data (t : tstate) (l : loc) (m : gmap bytes (option bytes)) : tstate :=
  upd_node t l (λ n, Node (n_id n) (n_parent n) (n_children n) (n_anno n) m).

(** ** Methods of the tree *)

(** tree.go:91-96, 99-104, 107-112, 115-119 *)
Definition get (t : tstate) (id : uid) : option loc := t_nodes t !! uid_hex id.
Definition get_by_branch (t : tstate) (name : bytes) : option loc := t_branches t !! name.
Definition get_by_tag (t : tstate) (name : bytes) : option loc := t_tags t !! name.
Definition root (t : tstate) : option loc := t_root t.

(** tree.go:14-18 *)
Inductive key_type := KBranch | KTag | KCommit.
Global Instance key_type_eq_dec : EqDecision key_type.
Proof. solve_decision. Defined.

(** tree.go:158-184 [Search]. The decoder may panic (see [decode_b32]). *)
Definition search (t : tstate) (key : bytes) : res (option (loc * key_type)) :=
  let rest :=
    match get_by_tag t key with
    | Some l => Ok (Some (l, KTag))
    | None => match get_by_branch t key with
              | Some l => Ok (Some (l, KBranch))
              | None => Ok None
              end
    end in
  let try_id (id : uid) :=
    match get t id with Some l => Ok (Some (l, KCommit)) | None => rest end in
  match decode_hex key with
  | Ok id => try_id id
  | Err _ => match decode_b32 key with
             | Ok id => try_id id
             | Err _ => rest
             | Panic => Panic | Hang => Hang | Crash => Crash
             end
  | Panic => Panic | Hang => Hang | Crash => Crash
  end.

(** tree.go:355-377 [updateIndexes]: breadth-first over the subtree. The fuel is the number of
    heap nodes plus one: more steps mean a node was reached twice (only possible when the caller
    linked nodes into a cycle or a shared subtree itself, which nothing in the repository does;
    a shared subtree would terminate in Go but is reported as [Hang] here). *)
Fixpoint update_indexes_loop (fuel : nat) (t : tstate) (queue : list loc) : res tstate :=
  match queue with
  | [] => Ok t
  | item :: queue' =>
      match fuel with
      | O => Hang
      | S fuel' =>
          match node_at t item with
          | None => Panic
          | Some n =>
              update_indexes_loop fuel' (set_nodes t (<[uid_hex (n_id n) := item]> (t_nodes t)))
                (queue' ++ (map_to_list (n_children n)).*2)
          end
      end
  end.
Definition update_indexes (t : tstate) (l : loc) : res tstate :=
  update_indexes_loop (S (size (t_heap t))) t [l].

(** tree.go:189-217 [AddNode]; the node is a pointer *)
Definition add_node (t : tstate) (parent : option uid) (l : loc) : res tstate :=
  match parent with
  | None =>
      match t_root t with
      | Some _ => Err ERootExists
      | None => update_indexes (set_root t (Some l)) l
      end
  | Some pid =>
      match t_nodes t !! uid_hex pid with
      | None => Err EParentNotFound
      | Some p =>
          match node_id t l with
          | None => Panic
          | Some id =>
              (* the bool returned by AddChild is discarded (tree.go:211) *)
              let t1 := (add_child t p l id).1 in
              update_indexes (set_parent t1 l (Some p)) l
          end
      end
  end.

(** tree.go:222-241 [AddTag] *)
Definition add_tag (t : tstate) (name : bytes) (id : uid) : res tstate :=
  match t_nodes t !! uid_hex id with
  | None => Err ENodeNotFound
  | Some l => Ok (set_tags t (<[name := l]> (t_tags t)))
  end.
(** tree.go:246-256 [DeleteTag] *)
Definition delete_tag (t : tstate) (name : bytes) : tstate * bool :=
  match t_tags t !! name with
  | None => (t, false)
  | Some _ => (set_tags t (delete name (t_tags t)), true)
  end.
(** tree.go:261-281 [AddBranch] *)
Definition add_branch (t : tstate) (name : bytes) (id : uid) : res tstate :=
  match t_nodes t !! uid_hex id with
  | None => Err ENodeNotFound
  | Some l => Ok (set_branches t (<[name := l]> (t_branches t)))
  end.

(** The loop of tree.go:316-325. The fuel is the number of heap nodes plus one: a longer walk
    along parents has visited a location twice and never ends. *)
Fixpoint connected (fuel : nat) (t : tstate) (cur : option loc) (head_hex : bytes) : res bool :=
  match cur with
  | None => Ok false
  | Some c =>
      match fuel with
      | O => Hang
      | S fuel' =>
          match node_at t c with
          | None => Panic
          | Some n =>
              if decide (uid_hex (n_id n) = head_hex) then Ok true
              else connected fuel' t (n_parent n) head_hex
          end
      end
  end.

(** tree.go:287-335 [UpdateBranch] *)
Definition update_branch (t : tstate) (name : bytes) (id : uid) (force : bool) : res tstate :=
  match t_nodes t !! uid_hex id with
  | None => Err ENodeNotFound
  | Some l =>
      match t_branches t !! name with
      | None => Err EBranchNotFound
      | Some h =>
          match node_id t h, node_id t l with
          | Some hid, Some lid =>
              if decide (uid_hex hid = uid_hex lid) then Ok t
              else if force then Ok (set_branches t (<[name := l]> (t_branches t)))
              else
                match connected (S (size (t_heap t))) t (Some l) (uid_hex hid) with
                | Ok true => Ok (set_branches t (<[name := l]> (t_branches t)))
                | Ok false => Err EUnreachable
                | Err e => Err e | Panic => Panic | Hang => Hang | Crash => Crash
                end
          | _, _ => Panic
          end
      end
  end.
(** tree.go:340-350 [DeleteBranch] *)
Definition delete_branch (t : tstate) (name : bytes) : tstate * bool :=
  match t_branches t !! name with
  | None => (t, false)
  | Some _ => (set_branches t (delete name (t_branches t)), true)
  end.
