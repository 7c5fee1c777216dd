(** * SpecVcs: a version control system in a few lines, which the program is compared with *)
From Verif Require Import Base Uid Tree SpecTree TreeRefine TreeObs Dump Json Save SaveProofs Branch Date Ws SpecWs WsProofs Fs Overlay Os Layers Mounts Space Manager Commands LayerProofs SpecWorld SpecOps SpecMachine SpecCmds SpecLog Story SpecUsable SpecNames.
From stdpp Require Import prelude gmap sorting.

(** A workspace: its ID, its space, its working layer and its branch ([] if it is detached) *)
Record place := Place { pl_id : uid; pl_space : uid; pl_head : uid; pl_branch : bytes }.
(** Workspaces by path, and the trees of spaces *)
Record vcs := Vcs { v_places : gmap path place; v_trees : gmap uid atree }.
Definition put_tree (V : vcs) (sid : uid) (a : atree) : vcs := Vcs (v_places V) (<[sid := a]> (v_trees V)).
Definition put_place (V : vcs) (p : path) (pl : place) (a : atree) : vcs := Vcs (<[p := pl]> (v_places V)) (<[pl_space pl := a]> (v_trees V)).
(** Workspace [x] of the program has the ID and the branch of [pl]. *)
Definition stands_for (x : ws) (pl : place) : Prop := ws_id x = pl_id pl ∧ ws_branch x = pl_branch pl.
(** [id] is the layer that was added to [a]. *)
Definition added (a a' : atree) (id : uid) : Prop := ¬ has a id ∧ has a' id.
(** Nothing is there and it could be made, or it is an empty directory. *)
Definition free_spot (w : world) (p : path) : Prop :=
  fget (w_fs w) p = None ∧ is_dir_at (w_fs w) (parent_dir p) = true ∨ is_dir_at (w_fs w) p = true ∧ ∀ n, fget (w_fs w) (p ++ [n]) = None.
(** What a command does in directory [d]: its result is [r] and [V] becomes [V']. Machine [w] is looked at only for what is at the
    target of init and clone. Names are saved as UTF-8 ([sanitize], [san_tree], C19). *)
Definition vstep (w : world) (V : vcs) (d : path) (c : command) (r : res unit) (V' : vcs) : Prop :=
  match c with
  | CInit args branch =>
      let p := abs_from d (default (B ".") (head args)) in
      (free_spot w p ∧ r = Ok tt ∧ ∃ pl rid, V' = put_place V p pl (san_tree (fresh_tree rid (pl_head pl) (pl_id pl) branch)) ∧ pl_branch pl = sanitize branch ∧
         rid ≠ pl_head pl ∧ ∀ p2 pl2, v_places V !! p2 = Some pl2 → pl_space pl2 ≠ pl_space pl) ∨
      (¬ free_spot w p ∧ failed r ∧ V' = V)
  | CClone source target =>
      let q := abs_from d (default (B ".") target) in
      match v_places V !! abs_from d source with
      | None => failed r ∧ V' = V
      | Some pl => ∃ x a a', stands_for x pl ∧ v_trees V !! pl_space pl = Some a ∧ op_tree x (pl_head pl) (OClone q) a a' ∧
          ((can_replace w q ∧ r = Ok tt ∧ ∃ pl', V' = put_place V q pl' (san_tree a') ∧ pl_space pl' = pl_space pl ∧ pl_branch pl' = pl_branch pl ∧ added a a' (pl_head pl')) ∨
           (¬ can_replace w q ∧ failed r ∧ V' = put_tree V (pl_space pl) (san_tree a')))
      end
  | _ =>
      match v_places V !! d with
      | None => failed r ∧ V' = V
      | Some pl => ∃ x a, stands_for x pl ∧ v_trees V !! pl_space pl = Some a ∧
          match c with
          | CCommit msg =>
              (may_commit x a (pl_head pl) ∧ r = Ok tt ∧ ∃ t a' id, op_tree x (pl_head pl) (OCommit (Some (fmt_rfc3339 t)) msg) a a' ∧ added a a' id ∧
                 V' = put_place V d (Place (pl_id pl) (pl_space pl) id (pl_branch pl)) (san_tree a')) ∨
              (¬ may_commit x a (pl_head pl) ∧ failed r ∧ V' = V)
          | CCheckout key =>
              (is_Some (meant x (pl_head pl) a key) ∧ r = Ok tt ∧ ∃ a' id, op_tree x (pl_head pl) (OCheckout key) a a' ∧ added a a' id ∧
                 V' = put_place V d (Place (pl_id pl) (pl_space pl) id (match resolve a (pl_id pl) (pl_head pl) key with SpecTree.FBranch _ => sanitize key | _ => [] end)) (san_tree a')) ∨
              (meant x (pl_head pl) a key = None ∧ failed r ∧ V' = V)
          | _ => ∃ a', names_result x (pl_head pl) c a a' r ∧ V' = put_tree V (pl_space pl) (san_tree a')
          end
      end
  end.
(** The path of the workspace that a command moves or makes *)
Definition target_of (d : path) (c : command) : path :=
  match c with CInit args _ => abs_from d (default (B ".") (head args)) | CClone _ target => abs_from d (default (B ".") target) | _ => d end.
(** Mount [mid], if it is mounted at all, shows the whole history of layer [hid], and writes to that layer. *)
Definition stacked (dr : path) (w : world) (mid : uid) (a : atree) (hid : uid) : Prop :=
  ∃ lows, (mounts_below (w_mounts w) (mount_dir dr mid) = [] ∨ mounts_below (w_mounts w) (mount_dir dr mid) = [stack_of dr mid hid lows]) ∧ chain a hid (hid :: lows).
(** The workspace at [p] is mounted. When the computer is restarted none is any more. *)
Definition awake (dr : path) (w : world) (p : path) : Prop :=
  ∃ mid, fget (w_fs w) p = Some (FLink (path_str (merged_dir dr mid))) ∧ mounts_below (w_mounts w) (mount_dir dr mid) ≠ [].
(** The machine is in working order, and every workspace of [V] is where it should be and, if it is mounted, shows the history of its working layer. *)
Record models (dr : path) (w : world) (V : vcs) : Prop := {
  md_order : in_order dr w;
  md_places : ∃ mids : path → uid,
    (∀ p q, is_Some (v_places V !! p) → is_Some (v_places V !! q) → mids p = mids q → p = q) ∧
    ∀ p pl, v_places V !! p = Some pl → outside dr p ∧ ∃ y a, workspace_at dr w p (mids p) y (pl_head pl) a ∧ v_trees V !! pl_space pl = Some a ∧
      (∃ c, SpecTree.parent_of a (pl_head pl) c) ∧ ws_id y = pl_id pl ∧ sp_id (ws_space y) = pl_space pl ∧ sanitize (ws_branch y) = pl_branch pl ∧ stacked dr w (mids p) a (pl_head pl) }.
(** Space [sid] has a workspace, and tree [a]. The layers that are new in the trees of such spaces are new on the disk, and empty. *)
Definition used (V : vcs) (sid : uid) (a : atree) : Prop := (∃ p pl, v_places V !! p = Some pl ∧ pl_space pl = sid) ∧ v_trees V !! sid = Some a.
Definition layers_new (dr : path) (w w' : world) (V V' : vcs) : Prop :=
  ∀ sid a' i, used V' sid a' → has a' i → (∃ a, used V sid a ∧ has a i) ∨ fget (w_fs w) (layer_dir (layers_root dr) i) = None ∧ new_empty dr w w'.
(** A command changes no layer that was there. The working layers it makes are new, and then new layers are empty and their workspace is mounted.
    The other workspaces stay mounted if they were. *)
Definition files_step (dr : path) (w w' : world) (V V' : vcs) : Prop :=
  untouched dr w w' ∧ layers_new dr w w' V V' ∧
  ∀ p pl, v_places V' !! p = Some pl → v_places V !! p = Some pl ∧ (awake dr w p → awake dr w' p) ∨
    fget (w_fs w) (layer_dir (layers_root dr) (pl_head pl)) = None ∧ new_empty dr w w' ∧ awake dr w' p.
(** Histories of workspaces are at most [n] layers long. *)
Definition depth (V : vcs) (n : nat) : Prop := ∀ p pl a c ch, v_places V !! p = Some pl → v_trees V !! pl_space pl = Some a → chain a c ch → length ch ≤ n.
(** No link is in the way that is not a workspace, and nothing is mounted at the target of init. The directory of the other commands is
    a workspace or a plain directory. *)
Definition plain_spot (dr : path) (w : world) (p : path) : Prop := outside dr p ∧ ∀ s, fget (w_fs w) p ≠ Some (FLink s).
Definition allowed (dr : path) (V : vcs) (w : world) (d : path) (c : command) : Prop :=
  runs_in (enter d w) d ∧
  match c with
  | CInit args _ => let p := abs_from d (default (B ".") (head args)) in plain_spot dr w p ∧ ∀ m, m ∈ w_mounts w → mn_at m ≠ p
  | CClone source target =>
      (is_Some (v_places V !! abs_from d source) ∨ plain_spot dr w (abs_from d source)) ∧
      let q := abs_from d (default (B ".") target) in outside dr q ∧ ((∃ s, fget (w_fs w) q = Some (FLink s)) → is_Some (real_path (w_fs w) q))
  | _ => is_Some (v_places V !! d) ∨ plain_spot dr w d
  end.
(** Processes one after the other, in the directories and with the commands [l]. Users change what they like in between, but no link that
    is a workspace, and the computer may be restarted. Nothing fails and random IDs are new. However the commands end, the version control system follows, and in the end [Q] holds. *)
Fixpoint follows (dr : path) (l : list (path * command)) (Q : vcs → world → Prop) (V : vcs) (w : world) : Prop :=
  match l with
  | [] => Q V w
  | (d, c) :: l' => ∀ w1 o r w', meanwhile dr w w1 → (∀ p, is_Some (v_places V !! p) → fget (w_fs w1) p = fget (w_fs w) p) →
      fair o → no_faults o → new_ids dr o (enter d w1) → allowed dr V w1 d c → run_cmd dr c o (enter d w1) = (r, w') →
      ∃ V', vstep w1 V d c r V' ∧ follows dr l' Q V' w'
  end.

(** ** What workspaces show *)
(** The layers below the new working layer that a command starts, topmost first: those of the commit it is based on. init starts
    on an empty one (C81_init). *)
Definition next_base (V : vcs) (d : path) (c : command) (ch : list uid) : Prop :=
  match c with
  | CCommit _ => ∃ pl a, v_places V !! d = Some pl ∧ v_trees V !! pl_space pl = Some a ∧ chain a (pl_head pl) ch
  | CCheckout key => ∃ pl a i x, v_places V !! d = Some pl ∧ v_trees V !! pl_space pl = Some a ∧ stands_for x pl ∧ meant x (pl_head pl) a key = Some i ∧ chain a i ch
  | CClone source _ => ∃ pl a i, v_places V !! abs_from d source = Some pl ∧ v_trees V !! pl_space pl = Some a ∧ SpecTree.parent_of a (pl_head pl) i ∧ chain a i ch
  | _ => False
  end.
(** No two workspaces work on the same layer. *)
Definition apart (V : vcs) : Prop := ∀ p q pl pq, v_places V !! p = Some pl → v_places V !! q = Some pq → pl_head pl = pl_head pq → p = q.
(** A layer that is there and that no workspace works on *)
Definition sealed (dr : path) (w : world) (V : vcs) (i : uid) : Prop :=
  is_dir_at (w_fs w) (diff_dir (layers_root dr) i) = true ∧ ∀ p pl, v_places V !! p = Some pl → pl_head pl ≠ i.
(** Users change what they like outside the data root and in workspaces, but no link that is a workspace. In the data root they change
    nothing but the working layers of workspaces: mounts that no workspace leads to any more are left alone. Again the computer may be restarted. *)
Definition user_edits (dr : path) (V : vcs) (w w' : world) : Prop :=
  meanwhile dr w w' ∧ (∀ p, is_Some (v_places V !! p) → fget (w_fs w') p = fget (w_fs w) p) ∧
  ∀ i, (∀ p pl, v_places V !! p = Some pl → pl_head pl ≠ i) → same_layer dr (w_fs w) (w_fs w') i.
(** As [follows], for such users *)
Fixpoint works (dr : path) (l : list (path * command)) (Q : vcs → world → Prop) (V : vcs) (w : world) : Prop :=
  match l with
  | [] => Q V w
  | (d, c) :: l' => ∀ w1 o r w', user_edits dr V w w1 → fair o → no_faults o → new_ids dr o (enter d w1) → allowed dr V w1 d c → run_cmd dr c o (enter d w1) = (r, w') →
      ∃ V', vstep w1 V d c r V' ∧ files_step dr w1 w' V V' ∧ works dr l' Q V' w'
  end.

(** ** What commands print *)
(** The lines that a command prints in directory [d] if its result is [r]. Only branch, tag and log print any. log stops in a panic
    after the first line about a commit without a date (C52). *)
Definition vlines (V : vcs) (d : path) (c : command) (r : res unit) (lines : list bytes) : Prop :=
  match c, v_places V !! d with
  | CBranch opts args, Some pl => ∃ a, v_trees V !! pl_space pl = Some a ∧
      if bo_list opts then branch_listing a opts (pl_id pl) lines
      else if bo_current opts then lines = [pl_branch pl]
      else if bo_delete opts then lines = []
      else match args with [] => branch_listing a opts (pl_id pl) lines | _ => lines = [] end
  | CTag opts args, Some pl => ∃ a, v_trees V !! pl_space pl = Some a ∧
      if to_list opts then tag_listing a lines
      else if to_delete opts then lines = []
      else match args with [] => tag_listing a lines | _ => lines = [] end
  | CLog args, Some pl => ∃ x a, stands_for x pl ∧ v_trees V !! pl_space pl = Some a ∧
      match meant x (pl_head pl) a (ref_arg args) with
      | None => lines = []
      | Some id => ∃ ch, chain a id ch ∧
          ((∀ c, c ∈ removelast ch → ∃ d, dated a c d) ∧ r = Ok tt ∧ log_entries a (pl_id pl) (local_branch (pl_id pl) (pl_branch pl)) (removelast ch) lines ∨
           ∃ c l1 l2 entries names line, removelast ch = l1 ++ c :: l2 ∧ (∀ d, ¬ dated a c d) ∧ r = Panic ∧
             log_entries a (pl_id pl) (local_branch (pl_id pl) (pl_branch pl)) l1 entries ∧ title c names line ∧ lines = entries ++ [line])
      end
  | _, _ => lines = []
  end.
(** All branches belong to workspaces. *)
Definition own_branches (a : atree) : Prop := ∀ k, is_Some (a_branches a !! k) → ∃ wid n, k = local_key wid n.
Definition all_own (V : vcs) : Prop := ∀ sid a, v_trees V !! sid = Some a → own_branches a.
(** The branches of workspace [wid], sorted; a name with a line feed is not shown (C22). *)
Definition own_listing (a : atree) (opts : branch_opts) (wid : uid) (lines : list bytes) : Prop :=
  StronglySorted lex_le lines ∧ NoDup lines ∧ ∀ n, n ∈ lines ↔ bo_remotes opts = false ∧ LF ∉ n ∧ is_Some (a_branches a !! local_key wid n).
