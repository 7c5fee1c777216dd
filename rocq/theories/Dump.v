(** * Dump: model of pkg/spaces/trees/dump.go.

    Go iterates maps in an arbitrary order. The order appears here as a parameter ([dumpenv], and
    the [ord] argument of [load]); theorems quantify over all permutations. *)
From Verif Require Import Base Uid Tree.

(** dump.go:20-29 [NodeDump] *)
Inductive ndump := ND (id : bytes) (children : list ndump)
                      (anno : gmap bytes bytes) (data : gmap bytes (option bytes)).
Definition nd_id (d : ndump) : bytes := match d with ND i _ _ _ => i end.
Definition nd_children (d : ndump) : list ndump := match d with ND _ c _ _ => c end.

(** dump.go:10-17 [TreeDump]; [None] is a nil map or pointer. *)
Record tdump := TDump {
  d_nodes : option ndump;
  d_branches : option (gmap bytes bytes);
  d_tags : option (gmap bytes bytes) }.

(** Go's free choices during one Dump: the order in which each children map is iterated, and
    whether an empty branch/tag map is nil (never written) or was emptied by deletions. *)
Record dumpenv := DumpEnv {
  de_children : loc → list (bytes * loc) → list (bytes * loc);
  de_nil_branches : bool;
  de_nil_tags : bool }.
Definition dumpenv_ok (e : dumpenv) : Prop := ∀ l xs, de_children e l xs ≡ₚ xs.

Fixpoint res_mapM {A B} (f : A → res B) (l : list A) : res (list B) :=
  match l with
  | [] => Ok []
  | x :: l' =>
      match f x with
      | Ok y => match res_mapM f l' with
                | Ok ys => Ok (y :: ys)
                | Err e => Err e | Panic => Panic | Hang => Hang | Crash => Crash
                end
      | Err e => Err e | Panic => Panic | Hang => Hang | Crash => Crash
      end
  end.

(** dump.go:43-70. Go fills the children slices level by level; the result is the same nested
    value that this recursion builds, each slice in the order its map was iterated. The recursion
    depth is bounded by the number of nodes (a deeper walk has met a node twice and never ends). *)
Fixpoint dump_node (fuel : nat) (t : tstate) (e : dumpenv) (l : loc) : res ndump :=
  match fuel with
  | O => Hang
  | S fuel' =>
      match node_at t l with
      | None => Panic
      | Some n =>
          match res_mapM (λ kc, dump_node fuel' t e kc.2) (de_children e l (map_to_list (n_children n))) with
          | Ok cs => Ok (ND (uid_hex (n_id n)) cs (n_anno n) (n_data n))
          | Err x => Err x | Panic => Panic | Hang => Hang | Crash => Crash
          end
      end
  end.

(** dump.go:73-85: a branch or tag map with the hex IDs of its nodes *)
Definition dump_names (t : tstate) (nil : bool) (m : gmap bytes loc) : option (gmap bytes bytes) :=
  if decide (m = ∅ ∧ nil = true) then None
  else Some (omap (λ l, uid_hex <$> node_id t l) m).

(** dump.go:32-88 [Dump] *)
Definition dump (t : tstate) (e : dumpenv) : res tdump :=
  let rest nodes := Ok (TDump nodes (dump_names t (de_nil_branches e) (t_branches t))
                                    (dump_names t (de_nil_tags e) (t_tags t))) in
  match t_root t with
  | None => rest None
  | Some r =>
      match dump_node (S (size (t_heap t))) t e r with
      | Ok d => rest (Some d)
      | Err x => Err x | Panic => Panic | Hang => Hang | Crash => Crash
      end
  end.

(** dump.go:122-124: NewNode, SetAnnotations, SetData *)
Definition dump_new_node (id : uid) (d : ndump) : node :=
  match d with ND _ _ anno data => Node id None ∅ anno data end.

(** dump.go:117-129: the children of one item *)
Fixpoint load_children (t : tstate) (pid : uid) (cs : list ndump) : res tstate :=
  match cs with
  | [] => Ok t
  | c :: cs' =>
      match decode_hex (nd_id c) with
      | Ok cid =>
          let '(t1, l) := alloc_node t (dump_new_node cid c) in
          match add_node t1 (Some pid) l with
          | Ok t2 => load_children t2 pid cs'
          | e => e
          end
      | Err e => Err e | Panic => Panic | Hang => Hang | Crash => Crash
      end
  end.

(** Number of nodes of a dump: the number of rounds of the queue loop. *)
Fixpoint nd_size (d : ndump) : nat :=
  match d with ND _ cs _ _ => S (sum_list (map nd_size cs)) end.

(** dump.go:110-131: the queue loop *)
Fixpoint load_queue (fuel : nat) (t : tstate) (q : list ndump) : res tstate :=
  match q with
  | [] => Ok t
  | item :: q' =>
      match fuel with
      | O => Hang
      | S fuel' =>
          match decode_hex (nd_id item) with
          | Ok pid =>
              match load_children t pid (nd_children item) with
              | Ok t' => load_queue fuel' t' (q' ++ nd_children item)
              | e => e
              end
          | Err e => Err e | Panic => Panic | Hang => Hang | Crash => Crash
          end
      end
  end.

(** dump.go:134-153: branches and tags, in the order the maps are iterated *)
Fixpoint load_names (add : tstate → bytes → uid → res tstate) (t : tstate) (l : list (bytes * bytes)) : res tstate :=
  match l with
  | [] => Ok t
  | (name, v) :: l' =>
      match decode_hex v with
      | Ok id => match add t name id with
                 | Ok t' => load_names add t' l'
                 | e => e
                 end
      | Err e => Err e | Panic => Panic | Hang => Hang | Crash => Crash
      end
  end.
Definition names_list (o : option (gmap bytes bytes)) : list (bytes * bytes) :=
  map_to_list (default ∅ o).

(** dump.go:91-156 [Load]. On an error Go also returns the half-built tree, which every caller
    discards. [ordb], [ordt]: the iteration orders of the two maps. *)
Definition load (ordb ordt : list (bytes * bytes) → list (bytes * bytes)) (d : tdump) : res tstate :=
  match d_nodes d with
  | None => Ok new_tree
  | Some nd =>
      match decode_hex (nd_id nd) with
      | Ok rid =>
          let '(t1, l) := alloc_node new_tree (dump_new_node rid nd) in
          match add_node t1 None l with
          | Ok t2 =>
              match load_queue (nd_size nd) t2 [nd] with
              | Ok t3 =>
                  match load_names add_branch t3 (ordb (names_list (d_branches d))) with
                  | Ok t4 => load_names add_tag t4 (ordt (names_list (d_tags d)))
                  | e => e
                  end
              | e => e
              end
          | e => e
          end
      | Err e => Err e | Panic => Panic | Hang => Hang | Crash => Crash
      end
  end.
