(** * SpecCmds: the commands, what each should do, and layers that nothing may write to *)
From Verif Require Import Base Uid Tree SpecTree TreeRefine Dump Json Save SaveProofs Branch Date Ws SpecWs WsProofs Fs Overlay Os Layers Mounts Space Manager Commands LayerProofs SpecWorld SpecOps SpecMachine.

Inductive command :=
  | CInit (args : list bytes) (branch : bytes)
  | CClone (source : bytes) (target : option bytes)
  | CCommit (msg : bytes)
  | CCheckout (key : bytes)
  | CBranch (opts : branch_opts) (args : list bytes)
  | CTag (opts : tag_opts) (args : list bytes)
  | CLog (args : list bytes).
Definition run_cmd (dr : path) (c : command) : M unit :=
  match c with
  | CInit args branch => cmd_init dr args branch
  | CClone source target => cmd_clone dr source target
  | CCommit msg => cmd_commit dr msg
  | CCheckout key => cmd_checkout dr key
  | CBranch o args => cmd_branch dr o args
  | CTag o args => cmd_tag dr o args
  | CLog args => cmd_log dr args
  end.
(** filepath.Abs of a command-line argument *)
Definition abs_of (w : world) (s : bytes) : path := if is_abs s then pjoin [] s else pjoin (getwd_of w) s.
(** Argument [s] means path [p] in this process, and its working directory still exists, if it matters. *)
Definition finds (w : world) (s : bytes) (p : path) : Prop :=
  abs_of w s = p ∧ (is_abs s = true ∨ is_dir_at (w_fs w) (getwd_of w) = true ∨ getwd_of w ≠ w_cwd w).
(** Where the workspace is that the command opens, and the path at which it shows its result *)
Definition cmd_source (c : command) : bytes := match c with CClone source _ => source | _ => B "." end.
Definition cmd_target (c : command) : bytes :=
  match c with
  | CInit args _ => default (B ".") (head args)
  | CClone _ target => default (B ".") target
  | _ => B "."
  end.

(** A workspace as it is found: its mount is the one the path leads to or lies in, and the information
    file of that mount is complete. *)
Record found_at (dr : path) (w : world) (arg : bytes) (x : ws) (hid : uid) : Prop := {
  fa_path : ws_path x = abs_of w arg;
  fa_mount : ws_mount x = mounted_mount (mv_id (ws_mount x)) (mount_dir dr (mv_id (ws_mount x)));
  fa_link : ∀ mid, outside dr (ws_path x) →
    fget (w_fs w) (ws_path x) = Some (FLink (path_str (mount_dir dr mid ++ [B "merged"]))) → mv_id (ws_mount x) = mid;
  fa_here : ∀ mid k, ws_path x = mount_dir dr mid ++ k → (∀ s, fget (w_fs w) (ws_path x) ≠ Some (FLink s)) → mv_id (ws_mount x) = mid;
  fa_info : ∃ y, fget (w_fs w) (ws_file dr (mv_id (ws_mount x))) = Some (FFile (marshal_wsinfo (ws_info y hid))) ∧
    mv_id (ws_mount y) = mv_id (ws_mount x) ∧ ws_id x = ws_id y ∧ sp_id (ws_space x) = sp_id (ws_space y) ∧ ws_branch x = sanitize (ws_branch y) }.

(** The operations the command should perform, one after the other; a commit is dated by the clock. *)
Definition cmd_does (o : oracle) (c : command) (l : list wsop) : Prop :=
  match c with
  | CInit _ _ => False
  | CClone _ _ => ∃ p, l = [OClone p]
  | CCommit msg => ∃ n, l = [OCommit (Some (fmt_rfc3339 (ch_time (o n)))) msg]
  | CCheckout key => l = [OCheckout key]
  | CBranch opts args =>
      if bo_list opts || bo_current opts then l = []
      else if bo_delete opts then l = (λ n, ODelBranch n (bo_remotes opts)) <$> args
      else match args with
           | [] => l = []
           | n :: rest => l = [OAddBranch n (match rest with ref :: _ => ref | [] => B "HEAD" end) (bo_force opts)]
           end
  | CTag opts args =>
      if to_list opts then l = []
      else if to_delete opts then l = ODelTag <$> args
      else match args with
           | [] => l = []
           | n :: rest => l = [OAddTag n (match rest with ref :: _ => ref | [] => B "HEAD" end) (to_force opts)]
           end
  | CLog _ => l = []
  end.
Fixpoint op_all (x : ws) (hid : uid) (l : list wsop) (a a' : atree) : Prop :=
  match l with
  | [] => a' = a
  | op :: l' => ∃ a1, op_tree x hid op a a1 ∧ op_all x hid l' a1 a'
  end.

(** A layer that exists and that no mount writes to *)
Definition frozen (dr : path) (w : world) (id : uid) : Prop :=
  is_dir_at (w_fs w) (diff_dir (layers_root dr) id) = true ∧
  ∀ m, m ∈ w_mounts w → mn_upper m ≠ Some (diff_dir (layers_root dr) id).
Definition same_layer (dr : path) (fs fs' : files) (id : uid) : Prop :=
  ∀ q, is_prefix (diff_dir (layers_root dr) id) q = true → fget fs' q = fget fs q.
Definition layers_kept (dr : path) (w w' : world) : Prop :=
  ∀ id, frozen dr w id → frozen dr w' id ∧ same_layer dr (w_fs w) (w_fs w') id.
(** Mounts that are new write only to layers that are new. A layer changes only if it still is written to
    at the end. *)
Definition layers_safe (dr : path) (w w' : world) : Prop :=
  (∀ m, m ∈ w_mounts w' → m ∈ w_mounts w ∨ mn_upper m = None ∨
     ∃ id, mn_upper m = Some (diff_dir (layers_root dr) id) ∧ fget (w_fs w) (layer_dir (layers_root dr) id) = None) ∧
  ∀ id, is_dir_at (w_fs w) (diff_dir (layers_root dr) id) = true →
    (∀ m, m ∈ w_mounts w' → mn_upper m ≠ Some (diff_dir (layers_root dr) id)) → same_layer dr (w_fs w) (w_fs w') id.
(** Layers that are new are empty. *)
Definition new_empty (dr : path) (w w' : world) : Prop :=
  ∀ i k, fget (w_fs w) (layer_dir (layers_root dr) i) = None → k ≠ [] → fget (w_fs w') (diff_dir (layers_root dr) i ++ k) = None.
(** No layer changes, whether something writes to it or not. *)
Definition untouched (dr : path) (w w' : world) : Prop :=
  ∀ id, is_dir_at (w_fs w) (diff_dir (layers_root dr) id) = true → same_layer dr (w_fs w) (w_fs w') id.

(** The file with the saved tree of space [sid] *)
Notation tree_at dr sid := (tree_file (the_space dr sid)).
Definition writes_path (c : command) : Prop :=
  match c with CInit _ _ | CClone _ _ | CCommit _ | CCheckout _ => True | _ => False end.
(** What a command that is not init may do to the saved trees. Either it failed without touching one, or
    it opened workspace [x] and performed the first [k] of its operations; if it succeeded, all. Then the
    space of [x] holds the resulting tree, unless the command failed and left a file that no Load accepts, which takes a write
    that happened partly.
    The other spaces are as before. *)
Definition cmd_trees (dr : path) (c : command) (o : oracle) (w : world) (r : res unit) (w' : world) : Prop :=
  failed r ∧ (∀ sid, fget (w_fs w') (tree_at dr sid) = fget (w_fs w) (tree_at dr sid)) ∨
  ∃ x sid hid a l k a', found_at dr w (cmd_source c) x hid ∧ ws_space x = the_space dr sid ∧ holds (w_fs w) (the_space dr sid) a ∧
    cmd_does o c l ∧ k ≤ length l ∧ (failed r ∨ k = length l) ∧ op_all x hid (take k l) a a' ∧
    (holds (w_fs w') (the_space dr sid) (san_tree a') ∨ failed r ∧ ¬ whole o ∧ holds_torn (w_fs w') (the_space dr sid)) ∧
    ∀ s, s ≠ sid → fget (w_fs w') (tree_at dr s) = fget (w_fs w) (tree_at dr s).
(** What init may do: there is a new space, perhaps without a tree or with a file that no Load accepts, if
    it failed. *)
Definition init_trees (dr : path) (branch : bytes) (o : oracle) (w : world) (r : res unit) (w' : world) : Prop :=
  failed r ∧ (∀ sid, fget (w_fs w') (tree_at dr sid) = fget (w_fs w) (tree_at dr sid)) ∨
  ∃ sid rid id wid, fget (w_fs w) (space_dir dr sid) = None ∧ rid ≠ id ∧
    (holds (w_fs w') (the_space dr sid) (san_tree (fresh_tree rid id wid branch)) ∨
     failed r ∧ ¬ whole o ∧ holds_torn (w_fs w') (the_space dr sid)) ∧
    ∀ s, s ≠ sid → fget (w_fs w') (tree_at dr s) = fget (w_fs w) (tree_at dr s).

(** ** What may happen to a machine *)
(** Users change files outside the data root, and through the mounted workspaces. *)
Definition user_change (dr : path) (w w' : world) : Prop :=
  fs_wf (w_fs w') ∧ w_mounts w' = w_mounts w ∧
  ∀ q, fget (w_fs w') q = fget (w_fs w) q ∨ is_prefix dr q = false ∨
    ∃ m u, m ∈ w_mounts w ∧ is_prefix (mounts_root dr) (mn_at m) = true ∧ mn_upper m = Some u ∧ under u q = true.
Definition same_disk (w w' : world) : Prop := w_fs w' = w_fs w ∧ w_mounts w' = w_mounts w.
Inductive step (dr : path) (w w' : world) : Prop :=
  | step_cmd c o w0 r : same_disk w w0 → fair o → (writes_path c → outside dr (abs_of w0 (cmd_target c))) →
      run_cmd dr c o w0 = (r, w') → step dr w w'
  | step_user : user_change dr w w' → step dr w w'
  (** mounts end, for instance when the machine restarts *)
  | step_lost : w_fs w' = w_fs w → (∀ m, m ∈ w_mounts w' → m ∈ w_mounts w) → step dr w w'.
(** What is stored for a stack of layers, topmost first *)
Definition content (dr : path) (fs : files) (ids : list uid) : path → option fobj :=
  view (layer_at fs <$> (diff_dir (layers_root dr) <$> ids)).

(** ** What a workspace shows *)
Notation merged_dir dr mid := (mount_dir dr mid ++ [B "merged"]).
Notation work_dir dr mid := (mount_dir dr mid ++ [B "work"]).
(** The commands that make a new mount *)
Definition makes_mount (c : command) : Prop := match c with CClone _ _ | CCommit _ | CCheckout _ => True | _ => False end.
(** The mount that should come out *)
Definition stack_of (dr : path) (mid id : uid) (ch : list uid) : mount :=
  Mnt (merged_dir dr mid) (diff_dir (layers_root dr) <$> ch) (Some (diff_dir (layers_root dr) id)) (Some (work_dir dr mid)).
(** The option string for [n] lower layers fits into a page (C34). *)
Definition fits (dr : path) (n : nat) : Prop := (length (path_str dr) + 41) * n + 2 * length (path_str dr) + 106 ≤ 4095.
(** The commit whose content the new mount of an operation should show *)
Definition based_on (x : ws) (hid : uid) (op : wsop) (a : atree) (base : uid) : Prop :=
  match op with
  | OCommit _ _ => base = hid
  | OCheckout key => found_id (resolve a (ws_id x) hid key) = Some base
  | OClone _ => SpecTree.parent_of a hid base
  | _ => False
  end.
(** Path [p] leads to a mount that shows [V]. *)
Definition visible (w : world) (p : path) (V : path → option fobj) : Prop :=
  ∃ m, fget (w_fs w) p = Some (FLink (path_str (mn_at m))) ∧ mount_at (w_mounts w) (mn_at m) = Some m ∧
    ∀ k, k ≠ [] → mount_view (w_fs w) m k = V k.
