(** * Ws: the parts of pkg/workspaces/workspace.go and commit.go that only read the tree.
    A workspace is given by its ID [w], its working layer [head] and its current branch. *)
From Verif Require Import Base Uid Tree Branch Date.

(** workspace.go:345-363 [Search]. The node is [None] when it is nil in Go (HEAD of a workspace whose
    working layer is a root). *)
Definition ws_search (t : tstate) (w : uid) (head : loc) (ref : bytes) : res (option (option loc * key_type)) :=
  if decide (ref = B "HEAD") then Ok (Some (node_parent t head, KCommit))
  else
    match search t ref with
    | Ok (Some (l, ty)) => Ok (Some (Some l, ty))
    | Ok None =>
        let fix first (bs : list branch) :=
          match bs with
          | [] => Ok None
          | b :: bs' => match get_by_branch t (full_name b) with
                        | Some l => Ok (Some (Some l, KBranch))
                        | None => first bs'
                        end
          end in
        first (parse_local w ref)
    | Err e => Err e | Panic => Panic | Hang => Hang | Crash => Crash
    end.

(** A branch with its head *)
Record hbranch := HB { hb_branch : branch; hb_head : loc }.
(** The loop of workspace.go:142-152, 173-187, 199-209 over the entries of Branches() in iteration
    order [l], keeping the branches [keep] accepts. Names that do not parse are skipped. *)
Fixpoint parsed (l : list (bytes * loc)) : list hbranch :=
  match l with
  | [] => []
  | (n, h) :: l' => match parse_full n with Ok b => HB b h :: parsed l' | _ => parsed l' end
  end.
(** The sort: sort.Slice orders by [less]; elements that compare equal stay in iteration order here
    (in Go their order is unspecified). *)
Definition hb_le_name (x y : hbranch) : Prop := bytes_leb (br_name (hb_branch x)) (br_name (hb_branch y)) = true.
Global Instance hb_le_name_dec : RelDecision hb_le_name.
Proof. intros x y. unfold hb_le_name. apply _. Defined.
(** workspace.go:154-166: local branches first, then by name *)
Definition hb_le (x y : hbranch) : Prop :=
  (if is_local (hb_branch x) then (if is_local (hb_branch y) then bytes_leb (br_name (hb_branch x)) (br_name (hb_branch y)) else true)
   else (if is_local (hb_branch y) then false else bytes_leb (br_name (hb_branch x)) (br_name (hb_branch y)))) = true.
Global Instance hb_le_dec : RelDecision hb_le.
Proof. intros x y. unfold hb_le. apply _. Defined.
Definition of_ws (w : uid) (b : branch) : bool :=
  match br_ws b with Some u => bool_decide (uid_b32 u = uid_b32 w) | None => false end.
(** workspace.go:140-168 [AllBranches] *)
Definition all_branches (t : tstate) (ord : list (bytes * loc) → list (bytes * loc)) (w : uid) : list hbranch :=
  merge_sort hb_le (filter (λ x, is_global (hb_branch x) || of_ws w (hb_branch x) = true) (parsed (ord (map_to_list (t_branches t))))).
(** workspace.go:171-194 [LocalBranches] *)
Definition local_branches (t : tstate) (ord : list (bytes * loc) → list (bytes * loc)) (w : uid) : list hbranch :=
  merge_sort hb_le_name (filter (λ x, of_ws w (hb_branch x) = true) (parsed (ord (map_to_list (t_branches t))))).
(** workspace.go:197-216 [RemoteBranches] *)
Definition remote_branches (t : tstate) (ord : list (bytes * loc) → list (bytes * loc)) : list hbranch :=
  merge_sort hb_le_name (filter (λ x, is_global (hb_branch x) = true) (parsed (ord (map_to_list (t_branches t))))).
Definition name_le (x y : bytes) : Prop := bytes_leb x y = true.
Global Instance name_le_dec : RelDecision name_le.
Proof. intros x y. unfold name_le. apply _. Defined.
(** workspace.go:285-301 [Tags] *)
Definition tag_list (t : tstate) (ord : list (bytes * loc) → list (bytes * loc)) : list bytes :=
  merge_sort name_le (filter (λ n, n ≠ B "ROOT") (ord (map_to_list (t_tags t))).*1).

(** commit.go:65-71 [defaultCommit] as built by GetCommitFromNode *)
Record commit := Commit {
  c_id : uid;
  c_date : option time;
  c_message : bytes;
  c_branches : list branch;
  c_tags : list bytes }.
(** commit.go:59-62 *)
Definition anno_date : bytes := B "commit-date".
Definition anno_message : bytes := B "commit-message".
(** commit.go:19-57 *)
Definition commit_of (t : tstate) (ordb ordt : list (bytes * loc) → list (bytes * loc)) (w : uid) (l : loc) : res commit :=
  match node_at t l with
  | None => Panic
  | Some n =>
      let ds := default [] (n_anno n !! anno_date) in
      Ok (Commit (n_id n)
        (match ds with [] => None | _ => parse_rfc3339 ds end)
        (default [] (n_anno n !! anno_message))
        (hb_branch <$> filter (λ x, (uid_hex <$> node_id t (hb_head x)) = Some (uid_hex (n_id n))) (all_branches t ordb w))
        ((filter (λ x, (uid_hex <$> node_id t x.2) = Some (uid_hex (n_id n))) (ordt (map_to_list (t_tags t)))).*1))
  end.
(** The loop of workspace.go:129-134. The fuel is the number of heap nodes plus one: a longer walk has
    met a location twice and never ends. *)
Fixpoint history_from (fuel : nat) (t : tstate) (ordb ordt : list (bytes * loc) → list (bytes * loc)) (w : uid) (cur : loc) : res (list commit) :=
  if node_is_root t cur then Ok []
  else match fuel with
       | O => Hang
       | S f =>
           match commit_of t ordb ordt w cur with
           | Ok c => match node_parent t cur with
                     | None => Panic
                     | Some p => match history_from f t ordb ordt w p with
                                 | Ok cs => Ok (c :: cs)
                                 | r => r
                                 end
                     end
           | Err e => Err e | Panic => Panic | Hang => Hang | Crash => Crash
           end
       end.
(** workspace.go:121-137 [GetHistory] *)
Definition get_history (t : tstate) (ordb ordt : list (bytes * loc) → list (bytes * loc)) (w : uid) (head : loc) (ref : bytes) : res (list commit) :=
  match ws_search t w head ref with
  | Ok (Some (Some l, _)) => history_from (S (size (t_heap t))) t ordb ordt w l
  | Ok _ => Err ERefNotFound
  | Err e => Err e | Panic => Panic | Hang => Hang | Crash => Crash
  end.
(** commit.go:102-110 [SetToNode]: [date] is the formatted time *)
Definition set_to_node (t : tstate) (l : loc) (date : option bytes) (msg : bytes) : tstate :=
  let t1 := match date with Some d => add_annotation t l anno_date d | None => t end in
  add_annotation t1 l anno_message msg.
