(** * Commands: model of pkg/commands/*.go, the RunE functions, and of the set-up that runs before them
    (stackcrisp.go:26-48, pkg/utils/cmd/cmd_util.go:77-130).

    Not modelled: option parsing by cobra (see [Cli.v]), logging,
    the wrapping of error messages. [dr] is the manager's data root. *)
From Verif Require Import Base Uid Tree Dump Save Branch Date Ws Fs Overlay Os Layers Mounts Space Manager.

(** cmd_util.go:78-102 [ChangeWorkingDirectory] *)
Definition change_dir (arg : bytes) : M unit :=
  match arg with
  | [] => ret tt
  | _ =>
      p <- fp_abs arg ;;
      os_chdir p ;;;
      modify (λ w, set_pwd w (Some p))
  end.
(** manager_default.go:33-45 [New], cmd_util.go:105-130 [InjectManagerIfNecessary]: the data root *)
Definition inject_manager (data_root : bytes) : M path :=
  dr <- fp_abs data_root ;;
  se <- prepare dr (MState false None) ;;
  match se.2 with
  | Some e => fail e
  | None => ret dr
  end.
(** stackcrisp.go:26-48, run as root: set-up, then the command *)
Definition with_manager (chdir data_root : bytes) (body : path → M unit) : M unit :=
  change_dir chdir ;;;
  dr <- inject_manager data_root ;;
  body dr.

(** init.go:26-61 *)
Definition cmd_init (dr : path) (args : list bytes) (branch : bytes) : M unit :=
  p <- fp_abs (default (B ".") (head args)) ;;
  e <- fs_is_exists p ;;
  bad <- (if e : bool then d <- fs_is_empty_dir p ;; ret (negb d) else ret false) ;;
  if bad : bool then fail ENotEmptyDir
  else
    x <- create_workspace dr p branch ;;
    expand x.
(** clone.go:25-64; cobra checks that there are one or two arguments. *)
Definition cmd_clone (dr : path) (source : bytes) (target : option bytes) : M unit :=
  p <- fp_abs (default (B ".") target) ;;
  x <- get_workspace dr source ;;
  y <- clone_ws dr x p ;;
  expand y.
(** commands/commit.go:25-57. NewCommitInfo (workspaces/commit.go:10-16) takes the current time. *)
Definition cmd_commit (dr : path) (msg : bytes) : M unit :=
  x <- get_workspace dr (B ".") ;;
  now <- next_choice ch_time ;;
  y <- commit_ws dr x (Some (fmt_rfc3339 now)) msg ;;
  expand y ;;;
  remove_mount dr x.
(** checkout.go:24-58 *)
Definition cmd_checkout (dr : path) (key : bytes) : M unit :=
  x <- get_workspace dr (B ".") ;;
  y <- checkout_ws dr x key ;;
  expand y ;;;
  remove_mount dr x.

Fixpoint print_all (l : list bytes) : M unit :=
  match l with
  | [] => ret tt
  | s :: l' => println s ;;; print_all l'
  end.
Fixpoint for_each {A} (l : list A) (f : A → M unit) : M unit :=
  match l with
  | [] => ret tt
  | a :: l' => f a ;;; for_each l' f
  end.

(** options/branch.go:17-30 *)
Record branch_opts := BranchOpts {
  bo_list : bool; bo_current : bool; bo_delete : bool; bo_remotes : bool; bo_all : bool; bo_force : bool }.
(** commands/branch.go:70-87 *)
Definition list_branches (x : ws) (o : branch_opts) : M unit :=
  ord <- next_choice ch_locs ;;
  t <- gets w_tree ;;
  print_all ((λ b, local_name (hb_branch b)) <$>
    (if bo_remotes o then remote_branches t ord
     else if bo_all o then all_branches t ord (ws_id x)
     else local_branches t ord (ws_id x))).
(** commands/branch.go:25-60, 90-111 *)
Definition cmd_branch (dr : path) (o : branch_opts) (args : list bytes) : M unit :=
  x <- get_workspace dr (B ".") ;;
  if bo_list o then list_branches x o
  else if bo_current o then println (local_name (ws_current x))
  else if bo_delete o then for_each args (λ n, ws_delete_branch x n (bo_remotes o))
  else match args with
       | [] => list_branches x o
       | n :: rest => ws_add_branch x n (default (B "HEAD") (head rest)) (bo_force o)
       end.

(** options/tag.go:15-22 *)
Record tag_opts := TagOpts { to_list : bool; to_delete : bool; to_force : bool }.
(** tag.go:62-69 *)
Definition list_tags (x : ws) : M unit :=
  ord <- next_choice ch_locs ;;
  t <- gets w_tree ;;
  print_all (tag_list t ord).
(** tag.go:25-52, 72-94 *)
Definition cmd_tag (dr : path) (o : tag_opts) (args : list bytes) : M unit :=
  x <- get_workspace dr (B ".") ;;
  if to_list o then list_tags x
  else if to_delete o then for_each args (λ n, ws_delete_tag x n)
  else match args with
       | [] => list_tags x
       | n :: rest => ws_add_tag x n (default (B "HEAD") (head rest)) (to_force o)
       end.

(** ** log *)
Definition ESC (code : bytes) : bytes := n2b 27 :: B "[" ++ code ++ B "m".
(** log.go:51-68: the names shown beside a commit *)
Definition pointer_of (b : branch) : bytes :=
  ESC (if is_local b then B "32" else B "31") ++ local_name b ++ ESC (B "0").
Definition head_pointer (b : branch) : bytes :=
  ESC (B "34") ++ B "HEAD -> " ++ ESC (B "32") ++ local_name b ++ ESC (B "0").
Definition add_pointer (cur : branch) (acc : list bytes) (b : branch) : list bytes :=
  if decide (full_name cur = full_name b) then head_pointer b :: acc else acc ++ [pointer_of b].
Definition pointers (cur : branch) (c : commit) : list bytes :=
  foldl (add_pointer cur) ((λ t, ESC (B "33") ++ B "tag: " ++ t ++ ESC (B "0")) <$> c_tags c) (c_branches c).
(** strings.Join *)
Fixpoint join_with (sep : bytes) (l : list bytes) : bytes :=
  match l with
  | [] => []
  | [s] => s
  | s :: l' => s ++ sep ++ join_with sep l'
  end.
(** log.go:70-77 *)
Definition commit_line (cur : branch) (c : commit) : bytes :=
  ESC (B "33") ++ B "commit " ++ uid_hex (c_id c) ++ ESC (B "0") ++
  match pointers cur c with
  | [] => []
  | ps => B " (" ++ join_with (ESC (B "33") ++ B ", " ++ ESC (B "0")) ps ++ B ")"
  end.
(** strings.TrimRight(s, "\r\n ") *)
Definition trimmed (c : ascii) : bool := bool_decide (c = n2b 13 ∨ c = n2b 10 ∨ c = " "%char).
Fixpoint trim_right (s : bytes) : bytes :=
  match s with
  | [] => []
  | c :: s' => match trim_right s' with
               | [] => if trimmed c then [] else [c]
               | r => c :: r
               end
  end.
(** strings.ReplaceAll(s, "\n", "\n    ") *)
Definition indent (s : bytes) : bytes := flat_map (λ c, if decide (c = n2b 10) then c :: B "    " else [c]) s.
(** log.go:50-86. [c.Date != nil] compares the method value, which is never nil, so the date is always
    dereferenced. *)
Definition log_one (cur : branch) (c : commit) : M unit :=
  println (commit_line cur c) ;;;
  match c_date c with
  | None => panic
  | Some d =>
      println (B "Date:  " ++ fmt_log d) ;;;
      match c_message c with
      | [] => ret tt
      | m => println [] ;;; println (B "    " ++ indent (trim_right m)) ;;; println []
      end
  end.
(** log.go:24-89 *)
Definition cmd_log (dr : path) (args : list bytes) : M unit :=
  x <- get_workspace dr (B ".") ;;
  ordb <- next_choice ch_locs ;;
  ordt <- next_choice ch_locs ;;
  t <- gets w_tree ;;
  cs <- lift (get_history t ordb ordt (ws_id x) (ws_head x) (default (B "HEAD") (head args))) ;;
  for_each cs (log_one (ws_current x)).
