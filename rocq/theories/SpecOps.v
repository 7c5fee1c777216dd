(** * SpecOps: the operations on an open workspace, and what each should do to the tree *)
From Verif Require Import Base Uid Tree SpecTree TreeRefine TreeObs Branch Ws SpecWs WsProofs Fs Os Layers Mounts Space Manager SpecWorld.

Inductive wsop :=
  | OAddBranch (name ref : bytes) (force : bool)
  | ODelBranch (name : bytes) (global : bool)
  | OAddTag (name ref : bytes) (force : bool)
  | ODelTag (name : bytes)
  | OCommit (date : option bytes) (msg : bytes)
  | OCheckout (key : bytes)
  | OClone (target : path).
(** The operation as the commands call it; the result is the workspace to go on with. *)
Definition run_op (dr : path) (x : ws) (op : wsop) : M ws :=
  match op with
  | OAddBranch n ref f => ws_add_branch x n ref f ;;; ret x
  | ODelBranch n g => ws_delete_branch x n g ;;; ret x
  | OAddTag n ref f => ws_add_tag x n ref f ;;; ret x
  | ODelTag n => ws_delete_tag x n ;;; ret x
  | OCommit d m => commit_ws dr x d m
  | OCheckout k => checkout_ws dr x k
  | OClone p => clone_ws dr x p
  end.

(** The key of local branch [name] of workspace [wid], and of global branch [name] *)
Definition local_key (wid : uid) (name : bytes) : bytes := uid_b32 wid ++ B "/" ++ name.
Definition global_key (name : bytes) : bytes := B "global/" ++ name.
Definition plus_branch (a : atree) (k : bytes) (id : uid) : atree := ATree (a_nodes a) (<[k := id]> (a_branches a)) (a_tags a).
Definition less_branch (a : atree) (k : bytes) : atree := ATree (a_nodes a) (delete k (a_branches a)) (a_tags a).
Definition plus_tag (a : atree) (k : bytes) (id : uid) : atree := ATree (a_nodes a) (a_branches a) (<[k := id]> (a_tags a)).
Definition less_tag (a : atree) (k : bytes) : atree := ATree (a_nodes a) (a_branches a) (delete k (a_tags a)).
Definition plus_node (a : atree) (id : uid) (n : anode) : atree := ATree (<[id := n]> (a_nodes a)) (a_branches a) (a_tags a).
(** The annotations of a commit *)
Definition committed (n : anode) (date : option bytes) (msg : bytes) : anode :=
  ANode (an_parent n)
    (<[B "commit-message" := msg]> (match date with Some d => <[B "commit-date" := d]> (an_anno n) | None => an_anno n end)) (an_data n).
(** The tree [a'] that operation [op] of workspace [x], whose working layer is [hid], makes of tree [a] *)
Definition op_tree (x : ws) (hid : uid) (op : wsop) (a a' : atree) : Prop :=
  match op with
  | OAddBranch n ref force => ∃ id, found_id (resolve a (ws_id x) hid ref) = Some id ∧
      (force = true ∨ a_branches a !! local_key (ws_id x) n = None) ∧ a' = plus_branch a (local_key (ws_id x) n) id
  | ODelBranch n global => (global = true ∨ n ≠ ws_branch x) ∧
      let k := if global : bool then global_key n else local_key (ws_id x) n in
      is_Some (a_branches a !! k) ∧ a' = less_branch a k
  | OAddTag n ref force => ∃ id, found_id (resolve a (ws_id x) hid ref) = Some id ∧
      (force = true ∨ a_tags a !! n = None) ∧ a' = plus_tag a n id
  | ODelTag n => is_Some (a_tags a !! n) ∧ a' = less_tag a n
  | OCommit date msg => ∃ n id, a_nodes a !! hid = Some n ∧ a_nodes a !! id = None ∧
      let a1 := plus_node (plus_node a hid (committed n date msg)) id (ANode (Some hid) ∅ ∅) in
      (ws_branch x = [] ∧ a' = a1 ∨
       ws_branch x ≠ [] ∧ a' = plus_branch a1 (local_key (ws_id x) (ws_branch x)) hid ∧
         ∃ h, a_branches a !! local_key (ws_id x) (ws_branch x) = Some h ∧ ancestor_or_self a h hid)
  | OCheckout key => ∃ c id, found_id (resolve a (ws_id x) hid key) = Some c ∧ a_nodes a !! id = None ∧
      a' = plus_node a id (ANode (Some c) ∅ ∅)
  | OClone _ => ∃ c id, SpecTree.parent_of a hid c ∧ a_nodes a !! id = None ∧ a' = plus_node a id (ANode (Some c) ∅ ∅)
  end.
(** The workspace is detached, or its branch exists and its head is the working layer or an ancestor of it. *)
Definition may_commit (x : ws) (a : atree) (hid : uid) : Prop :=
  ws_branch x = [] ∨ ∃ h, a_branches a !! local_key (ws_id x) (ws_branch x) = Some h ∧ ancestor_or_self a h hid.
(** Commits one after the other: date and message of each *)
Fixpoint commit_all (dr : path) (x : ws) (l : list (option bytes * bytes)) : M ws :=
  match l with
  | [] => ret x
  | (d, m) :: l' => y <- commit_ws dr x d m ;; commit_all dr y l'
  end.
(** The same commit, apart from the names that point at it *)
Definition same_commit (c c' : commit) : Prop := c_id c = c_id c' ∧ c_message c = c_message c' ∧ c_date c = c_date c'.
(** The tree of a new space: root [rid], working layer [id], one branch and the tag ROOT at the root *)
Definition fresh_tree (rid id wid : uid) (branch : bytes) : atree :=
  ATree {[ rid := ANode None ∅ ∅; id := ANode (Some rid) ∅ ∅ ]} {[ local_key wid branch := rid ]} {[ B "ROOT" := rid ]}.
