(** * Locks: the methods of pkg/spaces/trees/tree.go and node.go as goroutines run them, lock by lock

    [Tree.v] has each method as one step. Here a method is a program of small steps: it takes and
    releases locks, reads and writes the parts of the tree; steps of different goroutines interleave in any order.

    sync.RWMutex: Lock first announces the writer, which keeps new readers and other writers out, and then waits for
    the readers to leave; RLock waits for announced writers. Simplification: when a writer leaves, Go lets the
    readers that wait go first; here anyone may be next, so that all of Go's schedules are covered and some more.
    A goroutine that locks again what it has locked blocks itself, as in Go. *)
From Verif Require Import Base Uid Tree.

(** ** Parts of the tree, and the locks *)
(** tree.go:76-85. [VNodes]: the root, the index of nodes, and the parents and children in the nodes themselves. *)
Inductive var := VNodes | VBranches | VTags.
Global Instance var_eq_dec : EqDecision var.
Proof. solve_decision. Defined.
(** [t] with the part [v] of [s] *)
Definition overlay (v : var) (s t : tstate) : tstate :=
  match v with
  | VNodes => TState (t_heap s) (t_next s) (t_root s) (t_nodes s) (t_branches t) (t_tags t)
  | VBranches => set_branches t (t_branches s)
  | VTags => set_tags t (t_tags s)
  end.
(** The part [v] alone *)
Definition part (v : var) (s : tstate) : tstate := overlay v s new_tree.

(** node.go:58-62 *)
Inductive nlock := NChildren | NAnno | NData.
Global Instance nlock_eq_dec : EqDecision nlock.
Proof. solve_decision. Defined.
(** tree.go:79, 82, 85: one for each part; node.go:58-62: three in each node *)
Inductive lock := LTree (v : var) | LNode (k : nlock) (l : loc).
Global Instance lock_eq_dec : EqDecision lock.
Proof. solve_decision. Defined.
(** [HPending]: announced and waiting *)
Inductive hold := HRead | HPending | HWrite.
Global Instance hold_eq_dec : EqDecision hold.
Proof. solve_decision. Defined.

(** ** Calls and answers *)
(** [KAddNew p id] is [AddNode(p, NewNode(id))], [KAddNode p l] passes a node that exists. [KNode k w l]: a method of
    the node at [l] that uses the lock [k], for writing or not; of these only the locking is modelled. *)
Inductive kcall :=
  | KGet (id : uid) | KGetByBranch (name : bytes) | KGetByTag (name : bytes) | KRoot | KTags | KBranches
  | KSearch (key : bytes)
  | KAddNode (parent : option uid) (l : loc) | KAddNew (parent : option uid) (id : uid)
  | KAddTag (name : bytes) (id : uid) | KDeleteTag (name : bytes)
  | KAddBranch (name : bytes) (id : uid) | KUpdateBranch (name : bytes) (id : uid) (force : bool) | KDeleteBranch (name : bytes)
  | KNode (k : nlock) (w : bool) (l : loc).
Inductive kans :=
  | KaNode (l : option loc) | KaMap (m : gmap bytes loc) | KaFound (r : option (loc * key_type))
  | KaErr (e : option err) | KaBool (b : bool) | KaUnit.
Global Instance kans_eq_dec : EqDecision kans.
Proof. solve_decision. Defined.

(** ** Programs *)
(** [PWait k p] is the second half of [PLock k p] and appears only while a program runs. [PRead v f]
    goes on with what it read; [PStop Hang] is a loop that never ends, [PStop Panic] the end of the process. *)
Inductive prog :=
  | PDone (a : kans)
  | PRLock (k : lock) (p : prog) | PLock (k : lock) (p : prog) | PWait (k : lock) (p : prog)
  | PRUnlock (k : lock) (p : prog) | PUnlock (k : lock) (p : prog)
  | PRead (v : var) (f : tstate → prog) | PWrite (v : var) (t : tstate) (p : prog)
  | PStop (r : res (tstate * kans)).

(** tree.go:91-96, 99-104, 107-112, 115-119 *)
Definition read_prog (v : var) (get : tstate → kans) : prog :=
  PRLock (LTree v) (PRead v (λ t, PRUnlock (LTree v) (PDone (get t)))).
Definition lookup_prog (v : var) (get : tstate → option loc) (found : loc → prog) (otherwise : prog) : prog :=
  PRLock (LTree v) (PRead v (λ t, PRUnlock (LTree v) (match get t with Some l => found l | None => otherwise end))).
(** tree.go:158-184 [Search]: three calls one after the other *)
Definition search_prog (key : bytes) : prog :=
  let rest :=
    lookup_prog VTags (λ t, get_by_tag t key) (λ l, PDone (KaFound (Some (l, KTag))))
      (lookup_prog VBranches (λ t, get_by_branch t key) (λ l, PDone (KaFound (Some (l, KBranch)))) (PDone (KaFound None))) in
  let try_id id := lookup_prog VNodes (λ t, get t id) (λ l, PDone (KaFound (Some (l, KCommit)))) rest in
  match decode_hex key with
  | Ok id => try_id id
  | Err _ => match decode_b32 key with
             | Ok id => try_id id
             | Err _ => rest
             | Panic => PStop Panic | Hang => PStop Hang | Crash => PStop Crash
             end
  | Panic => PStop Panic | Hang => PStop Hang | Crash => PStop Crash
  end.
(** The deferred calls of tree.go:191 *)
Definition add_end (a : kans) : prog := PUnlock (LTree VNodes) (PDone a).
(** tree.go:355-377 [updateIndexes], with Children of node.go:79-94 for each node; the fuel is that of [update_indexes] *)
Fixpoint index_prog (fuel : nat) (queue : list loc) : prog :=
  match queue with
  | [] => add_end (KaErr None)
  | item :: queue' =>
      match fuel with
      | O => PStop Hang
      | S fuel' =>
          PRead VNodes (λ t,
            match node_at t item with
            | None => PStop Panic
            | Some n =>
                PWrite VNodes (set_nodes t (<[uid_hex (n_id n) := item]> (t_nodes t)))
                  (PRLock (LNode NChildren item)
                    (PRead VNodes (λ t', PRUnlock (LNode NChildren item)
                      (index_prog fuel' (queue' ++ (map_to_list (node_children t' item)).*2)))))
            end)
      end
  end.
(** tree.go:193-216, the body of [AddNode] *)
Definition add_node_body (parent : option uid) (l : loc) : prog :=
  PRead VNodes (λ t,
    match parent with
    | None =>
        match t_root t with
        | Some _ => add_end (KaErr (Some ERootExists))
        | None => PWrite VNodes (set_root t (Some l)) (index_prog (S (size (t_heap t))) [l])
        end
    | Some pid =>
        match t_nodes t !! uid_hex pid with
        | None => add_end (KaErr (Some EParentNotFound))
        | Some p =>
            match node_id t l with
            | None => PStop Panic
            | Some id =>
                (* node.go:126-143 *)
                PLock (LNode NChildren p) (PRead VNodes (λ t1, PWrite VNodes (add_child t1 p l id).1
                  (PUnlock (LNode NChildren p)
                    (* node.go:120-122, without a lock *)
                    (PRead VNodes (λ t2, PWrite VNodes (set_parent t2 l (Some p))
                      (PRead VNodes (λ t3, index_prog (S (size (t_heap t3))) [l])))))))
            end
        end
    end).
(** tree.go:222-241 and 261-281: [AddTag], [AddBranch]; the deferred calls release the nodes first *)
Definition name_end (v : var) (a : kans) : prog := PRUnlock (LTree VNodes) (PUnlock (LTree v) (PDone a)).
Definition add_name_prog (v : var) (id : uid) (put : tstate → loc → tstate) : prog :=
  PLock (LTree v) (PRLock (LTree VNodes) (PRead VNodes (λ t,
    match t_nodes t !! uid_hex id with
    | None => name_end v (KaErr (Some ENodeNotFound))
    | Some l => PRead v (λ tv, PWrite v (put tv l) (name_end v (KaErr None)))
    end))).
(** tree.go:246-256 and 340-350: [DeleteTag], [DeleteBranch] *)
Definition delete_prog (v : var) (del : tstate → tstate * bool) : prog :=
  PLock (LTree v) (PRead v (λ t,
    if (del t).2 then PWrite v (del t).1 (PUnlock (LTree v) (PDone (KaBool true)))
    else PUnlock (LTree v) (PDone (KaBool false)))).
(** tree.go:314-325, the walk towards the root, one node at a time; the fuel is that of [connected] *)
Fixpoint walk_prog (fuel : nat) (cur : option loc) (head_hex : bytes) (k : bool → prog) : prog :=
  match cur with
  | None => k false
  | Some c =>
      match fuel with
      | O => PStop Hang
      | S fuel' =>
          PRead VNodes (λ t,
            match node_at t c with
            | None => PStop Panic
            | Some n => if decide (uid_hex (n_id n) = head_hex) then k true else walk_prog fuel' (n_parent n) head_hex k
            end)
      end
  end.
(** tree.go:287-335 [UpdateBranch] *)
Definition update_branch_prog (name : bytes) (id : uid) (force : bool) : prog :=
  let fin a := name_end VBranches a in
  let move l := PRead VBranches (λ t, PWrite VBranches (set_branches t (<[name := l]> (t_branches t))) (fin (KaErr None))) in
  PLock (LTree VBranches) (PRLock (LTree VNodes) (PRead VNodes (λ t,
    match t_nodes t !! uid_hex id with
    | None => fin (KaErr (Some ENodeNotFound))
    | Some l => PRead VBranches (λ tb,
        match t_branches tb !! name with
        | None => fin (KaErr (Some EBranchNotFound))
        | Some h => PRead VNodes (λ t2,
            match node_id t2 h, node_id t2 l with
            | Some hid, Some lid =>
                if decide (uid_hex hid = uid_hex lid) then fin (KaErr None)
                else if force then move l
                else walk_prog (S (size (t_heap t2))) (Some l) (uid_hex hid)
                  (λ b, if b then move l else fin (KaErr (Some EUnreachable)))
            | _, _ => PStop Panic
            end)
        end)
    end))).
(** node.go:78-235: lock, use, unlock. [Annotations] and [Data] return without locking when there is nothing. *)
Definition node_prog (k : nlock) (w : bool) (l : loc) : prog :=
  if w then PLock (LNode k l) (PUnlock (LNode k l) (PDone KaUnit)) else PRLock (LNode k l) (PRUnlock (LNode k l) (PDone KaUnit)).
Definition code (c : kcall) : prog :=
  match c with
  | KGet id => read_prog VNodes (λ t, KaNode (get t id))
  | KGetByBranch name => read_prog VBranches (λ t, KaNode (get_by_branch t name))
  | KGetByTag name => read_prog VTags (λ t, KaNode (get_by_tag t name))
  | KRoot => read_prog VNodes (λ t, KaNode (root t))
  (* tree.go:122-136, 139-153 *)
  | KTags => read_prog VTags (λ t, KaMap (t_tags t))
  | KBranches => read_prog VBranches (λ t, KaMap (t_branches t))
  | KSearch key => search_prog key
  | KAddNode p l => PLock (LTree VNodes) (add_node_body p l)
  (* the allocation, which nobody else can see, is put inside *)
  | KAddNew p id => PLock (LTree VNodes) (PRead VNodes (λ t,
      PWrite VNodes (alloc_node t (new_node id)).1 (add_node_body p (alloc_node t (new_node id)).2)))
  | KAddTag name id => add_name_prog VTags id (λ t l, set_tags t (<[name := l]> (t_tags t)))
  | KDeleteTag name => delete_prog VTags (λ t, delete_tag t name)
  | KAddBranch name id => add_name_prog VBranches id (λ t l, set_branches t (<[name := l]> (t_branches t)))
  | KUpdateBranch name id force => update_branch_prog name id force
  | KDeleteBranch name => delete_prog VBranches (λ t, delete_branch t name)
  | KNode k w l => node_prog k w l
  end.

(** ** Goroutines *)
(** What a goroutine does with the tree: a call, and depending on the answer what comes next *)
Inductive client := CEnd | CCall (c : kcall) (next : kans → client).
Inductive tmode := TIdle (c : client) | TRun (p : prog) (next : kans → client).
Record thread := Thread { th_mode : tmode; th_held : list (lock * hold) }.
Record system := System { sy_store : tstate; sy_threads : list thread }.
Definition start (t : tstate) (cs : list client) : system := System t ((λ c, Thread (TIdle c) []) <$> cs).
(** Who holds [k] in a way that [bad] says; and letting go of it *)
Definition held_so (bad : hold → bool) (k : lock) (ths : list thread) : bool :=
  existsb (λ th, existsb (λ x, bool_decide (x.1 = k) && bad x.2) (th_held th)) ths.
Definition as_writer (h : hold) : bool := match h with HRead => false | _ => true end.
Definition as_reader (h : hold) : bool := match h with HRead => true | _ => false end.
Definition let_go (k : lock) (held : list (lock * hold)) : list (lock * hold) := filter (λ x, x.1 ≠ k) held.

(** What is seen from outside: goroutine [i] makes a call, or gets an answer. *)
Inductive event := EInv (i : nat) (c : kcall) | ERet (i : nat) (a : kans).
(** One step of goroutine [i]; [None]: it is blocked, or at its end *)
Definition thread_step (ths : list thread) (t : tstate) (i : nat) (th : thread) : option (thread * tstate * list event) :=
  let held := th_held th in
  match th_mode th with
  | TIdle CEnd => None
  | TIdle (CCall c next) => Some (Thread (TRun (code c) next) held, t, [EInv i c])
  | TRun p next =>
      match p with
      | PDone a => Some (Thread (TIdle (next a)) held, t, [ERet i a])
      | PRLock k p' => if held_so as_writer k ths then None else Some (Thread (TRun p' next) ((k, HRead) :: held), t, [])
      | PLock k p' => if held_so as_writer k ths then None else Some (Thread (TRun (PWait k p') next) ((k, HPending) :: held), t, [])
      | PWait k p' => if held_so as_reader k ths then None else Some (Thread (TRun p' next) ((k, HWrite) :: let_go k held), t, [])
      | PRUnlock k p' => Some (Thread (TRun p' next) (let_go k held), t, [])
      | PUnlock k p' => Some (Thread (TRun p' next) (let_go k held), t, [])
      | PRead v f => Some (Thread (TRun (f (part v t)) next) held, t, [])
      | PWrite v t' p' => Some (Thread (TRun p' next) held, overlay v t' t, [])
      | PStop r => Some (th, t, [])
      end
  end.
Definition step_of (s : system) (i : nat) : option (system * list event) :=
  match sy_threads s !! i with
  | None => None
  | Some th =>
      match thread_step (sy_threads s) (sy_store s) i th with
      | None => None
      | Some (th', t', ev) => Some (System t' (<[i := th']> (sy_threads s)), ev)
      end
  end.
(** A schedule says who is next. *)
Fixpoint exec (l : list nat) (s : system) : option (system * list event) :=
  match l with
  | [] => Some (s, [])
  | i :: l' =>
      match step_of s i with
      | None => None
      | Some (s1, ev) => match exec l' s1 with Some (s2, ev') => Some (s2, ev ++ ev') | None => None end
      end
  end.
