(** * SpecLocks: calls that happen one at a time (C55, C56) *)
From Verif Require Import Base Uid Tree TreeRefine Locks.

(** What a call does to the tree and answers when nobody else is there: the functions of [Tree.v] *)
Definition answer_of (t0 : tstate) (r : res tstate) : res (tstate * kans) :=
  match r with
  | Ok t => Ok (t, KaErr None) | Err e => Ok (t0, KaErr (Some e))
  | Panic => Panic | Hang => Hang | Crash => Crash
  end.
Definition tree_call (t : tstate) (c : kcall) : res (tstate * kans) :=
  match c with
  | KGet id => Ok (t, KaNode (get t id))
  | KGetByBranch name => Ok (t, KaNode (get_by_branch t name))
  | KGetByTag name => Ok (t, KaNode (get_by_tag t name))
  | KRoot => Ok (t, KaNode (root t))
  | KTags => Ok (t, KaMap (t_tags t))
  | KBranches => Ok (t, KaMap (t_branches t))
  | KSearch key =>
      match search t key with
      | Ok r => Ok (t, KaFound r)
      | Err e => Err e | Panic => Panic | Hang => Hang | Crash => Crash
      end
  | KAddNode p l => answer_of t (add_node t p l)
  | KAddNew p id => let '(t1, l) := alloc_node t (new_node id) in answer_of t1 (add_node t1 p l)
  | KAddTag name id => answer_of t (add_tag t name id)
  | KDeleteTag name => let '(t', b) := delete_tag t name in Ok (t', KaBool b)
  | KAddBranch name id => answer_of t (add_branch t name id)
  | KUpdateBranch name id force => answer_of t (update_branch t name id force)
  | KDeleteBranch name => let '(t', b) := delete_branch t name in Ok (t', KaBool b)
  | KNode _ _ _ => Ok (t, KaUnit)
  end.

(** A goroutine between calls, in a call that has not happened yet, in one that has *)
Inductive amode := AIdle (c : client) | ACalled (c : kcall) (next : kans → client) | AAnswered (a : kans) (next : kans → client).
(** Each call happens at one moment between its start and its answer. *)
Inductive atomic_step : tstate * list amode → list event → tstate * list amode → Prop :=
  | at_call t ms i c next : ms !! i = Some (AIdle (CCall c next)) → atomic_step (t, ms) [EInv i c] (t, <[i := ACalled c next]> ms)
  | at_happen t ms i c next t' a : ms !! i = Some (ACalled c next) → tree_call t c = Ok (t', a) →
      atomic_step (t, ms) [] (t', <[i := AAnswered a next]> ms)
  | at_answer t ms i a next : ms !! i = Some (AAnswered a next) → atomic_step (t, ms) [ERet i a] (t, <[i := AIdle (next a)]> ms).
Inductive atomic : tstate * list amode → list event → tstate * list amode → Prop :=
  | atomic_nil x : atomic x [] x
  | atomic_snoc x h y ev z : atomic x h y → atomic_step y ev z → atomic x (h ++ ev) z.
(** The goroutines use no call that [bad] rejects, whatever answers they get. *)
Inductive uses_only (ok : kcall → Prop) : client → Prop :=
  | uses_end : uses_only ok CEnd
  | uses_call c next : ok c → (∀ a, uses_only ok (next a)) → uses_only ok (CCall c next).
(** Every call but Search *)
Definition single (c : kcall) : Prop := match c with KSearch _ => False | _ => True end.
