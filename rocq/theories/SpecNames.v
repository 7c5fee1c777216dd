(** * SpecNames: what branch, tag and log should do on a machine in working order *)
From Verif Require Import Base Uid Tree SpecTree TreeRefine TreeObs Json Save SaveProofs Branch Ws SpecWs WsProofs Fs Overlay Os Layers Mounts Space Manager Commands LayerProofs SpecWorld SpecOps SpecMachine SpecCmds SpecLog Story SpecUsable.
From stdpp Require Import prelude gmap.

(** The commit that [ref] means in workspace [x]. A text on which the base32 decoder panics (C04) means nothing. *)
Definition meant (x : ws) (hid : uid) (a : atree) (ref : bytes) : option uid :=
  match decode_b32 ref with Panic => None | _ => found_id (resolve a (ws_id x) hid ref) end.
Definition ref_arg (rest : list bytes) : bytes := match rest with ref :: _ => ref | [] => B "HEAD" end.
(** branch NAME [REF] and tag NAME [REF]: tree [a] becomes [a'] and the result is [r]. *)
Definition branch_added (x : ws) (hid : uid) (n ref : bytes) (force : bool) (a a' : atree) (r : res unit) : Prop :=
  match meant x hid a ref with
  | None => failed r ∧ a' = a
  | Some id =>
      if decide (is_Some (a_branches a !! local_key (ws_id x) n) ∧ force = false) then r = Err EBranchExists ∧ a' = a
      else r = Ok tt ∧ a' = plus_branch a (local_key (ws_id x) n) id
  end.
Definition tag_added (x : ws) (hid : uid) (n ref : bytes) (force : bool) (a a' : atree) (r : res unit) : Prop :=
  match meant x hid a ref with
  | None => failed r ∧ a' = a
  | Some id =>
      if decide (is_Some (a_tags a !! n) ∧ force = false) then r = Err ETagExists ∧ a' = a
      else r = Ok tt ∧ a' = plus_tag a n id
  end.
(** Every commit that log shows has a date. *)
Definition can_log (x : ws) (hid : uid) (a : atree) (ref : bytes) : Prop :=
  ∃ id ch, meant x hid a ref = Some id ∧ chain a id ch ∧ ∀ c, c ∈ removelast ch → ∃ d, dated a c d.
(** What branch, tag and log make of the tree, and with which result *)
Definition names_result (x : ws) (hid : uid) (c : command) (a a' : atree) (r : res unit) : Prop :=
  match c with
  | CBranch opts args =>
      if bo_list opts || bo_current opts then r = Ok tt ∧ a' = a
      else if bo_delete opts then deletions x hid ((λ n, ODelBranch n (bo_remotes opts)) <$> args) a a' r
      else match args with
           | [] => r = Ok tt ∧ a' = a
           | n :: rest => branch_added x hid n (ref_arg rest) (bo_force opts) a a' r
           end
  | CTag opts args =>
      if to_list opts then r = Ok tt ∧ a' = a
      else if to_delete opts then deletions x hid (ODelTag <$> args) a a' r
      else match args with
           | [] => r = Ok tt ∧ a' = a
           | n :: rest => tag_added x hid n (ref_arg rest) (to_force opts) a a' r
           end
  | CLog args => a' = a ∧ (r = Ok tt ↔ can_log x hid a (ref_arg args))
  | _ => False
  end.
Definition names_cmd (c : command) : Prop := match c with CBranch _ _ | CTag _ _ | CLog _ => True | _ => False end.
(** From [w] to [w'] nothing changed on the machine but the tree of space [sid], which is now [a']. All workspaces are where they
    were. *)
Record relabelled (dr : path) (w w' : world) (sid : uid) (a' : atree) : Prop := {
  rl_order : in_order dr w';
  rl_files : same_but [tree_at dr sid] (w_fs w) (w_fs w');
  rl_mounts : w_mounts w' = w_mounts w;
  rl_proc : w_cwd w' = w_cwd w ∧ w_pwd w' = w_pwd w;
  rl_places : ∀ p mid y hid a, workspace_at dr w p mid y hid a →
    workspace_at dr w' p mid y hid (if decide (sp_id (ws_space y) = sid) then san_tree a' else a) }.
(** The command does not move branch [b]: it creates another one, or has no --force. (A name that is not UTF-8 is not another
    one, if it becomes [b] when the tree is saved, C19.) *)
Definition spares (b : bytes) (c : command) : Prop :=
  match c with
  | CBranch opts args => ∀ n, head args = Some n → sanitize n = b → n = b ∧ bo_force opts = false
  | _ => True
  end.
(** What people do in workspaces: commit, or use names *)
Inductive act := ACommit (msg : bytes) | ANames (c : command).
(** Acts in workspaces, each in a new process, whatever happened before each of them, except to the links [ps]. Provided no call
    fails and the random IDs are new, every commit succeeds, and in the end [Q] holds. *)
Fixpoint session (dr : path) (ps : list path) (l : list (path * act)) (Q : world → Prop) (w : world) : Prop :=
  match l with
  | [] => Q w
  | (p, act) :: l' => ∀ w1 o, meanwhile dr w w1 → (∀ q, q ∈ ps → fget (w_fs w1) q = fget (w_fs w) q) → fair o → no_faults o →
      match act with
      | ACommit m => new_ids dr o (enter p w1) → ∃ w', cmd_commit dr m o (enter p w1) = (Ok tt, w') ∧ session dr ps l' Q w'
      | ANames c => ∀ r w', run_cmd dr c o (enter p w1) = (r, w') → session dr ps l' Q w'
      end
  end.
Fixpoint commits_in (l : list (path * act)) : nat :=
  match l with [] => 0 | (_, ACommit _) :: l' => S (commits_in l') | _ :: l' => commits_in l' end.
(** A workspace with ID [wid], on branch [b] or detached, is at [p], can commit, and has at most [n] layers. *)
Definition commits_on (dr : path) (w : world) (n : nat) (p : path) (wid : uid) (b : bytes) : Prop :=
  ∃ mid y hid a ch, workspace_at dr w p mid y hid a ∧ ws_id y = wid ∧ sanitize (ws_branch y) = b ∧ may_commit (read_back y) a hid ∧ chain a hid ch ∧ length ch ≤ n.
