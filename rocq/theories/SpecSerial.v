(** * SpecSerial: a process that waits while others run *)
From Verif Require Import Base Uid Tree SpecTree Dump Json Save Branch Date Ws SpecWs Fs Overlay Os Layers Mounts Space Manager Commands SpecWorld SpecOps SpecMachine SpecCmds Story SpecUsable SpecVcs.
From stdpp Require Import prelude gmap.

(** What commit, checkout, branch, tag and log do when they have loaded workspace [x] (the definitions of Commands.v without their first line);
    init and clone are not among them. *)
Definition after_load (dr : path) (c : command) (x : ws) : option (M unit) :=
  match c with
  | CInit _ _ | CClone _ _ => None
  | CCommit msg => Some (now <- next_choice ch_time ;; y <- commit_ws dr x (Some (fmt_rfc3339 now)) msg ;; expand y ;;; remove_mount dr x)
  | CCheckout key => Some (y <- checkout_ws dr x key ;; expand y ;;; remove_mount dr x)
  | CBranch o args => Some (
      if bo_list o then list_branches x o
      else if bo_current o then println (local_name (ws_current x))
      else if bo_delete o then for_each args (λ n, ws_delete_branch x n (bo_remotes o))
      else match args with
           | [] => list_branches x o
           | n :: rest => ws_add_branch x n (default (B "HEAD") (head rest)) (bo_force o)
           end)
  | CTag o args => Some (
      if to_list o then list_tags x
      else if to_delete o then for_each args (λ n, ws_delete_tag x n)
      else match args with
           | [] => list_tags x
           | n :: rest => ws_add_tag x n (default (B "HEAD") (head rest)) (to_force o)
           end)
  | CLog args => Some (
      ordb <- next_choice ch_locs ;; ordt <- next_choice ch_locs ;; t <- gets w_tree ;;
      cs <- lift (get_history t ordb ordt (ws_id x) (ws_head x) (default (B "HEAD") (head args))) ;;
      for_each cs (log_one (ws_current x)))
  end.
(** A process stops after [w1], others change files and mounts into those of [wm], and it goes on. Its memory, its output
    and its working directory are its own. *)
Definition resumed (w1 wm : world) : world := World (w_fs wm) (w_mounts wm) (w_tree w1) (w_cwd w1) (w_pwd w1) (w_out w1) (w_tick wm) (w_ids w1) (w_owned wm).
(** The command does not concern the workspace at [p] of space [sid]: it neither moves nor makes it, and it works in another space, if it works in one. *)
Definition source_of (d : path) (c : command) : path := match c with CClone source _ => abs_from d source | _ => d end.
Definition elsewhere (V : vcs) (p : path) (sid : uid) (d : path) (c : command) : Prop :=
  target_of d c ≠ p ∧ match c with CInit _ _ => True | _ => ∀ pl, v_places V !! source_of d c = Some pl → pl_space pl ≠ sid end.
(** As [follows] of SpecVcs, for commands that run while a process waits that works at [p] in space [sid] *)
Fixpoint meantime (dr : path) (p : path) (sid : uid) (l : list (path * command)) (Q : vcs → world → Prop) (V : vcs) (w : world) : Prop :=
  match l with
  | [] => Q V w
  | (d, c) :: l' => ∀ w1 o r w', meanwhile dr w w1 → (∀ q, is_Some (v_places V !! q) → fget (w_fs w1) q = fget (w_fs w) q) → w_tick w ≤ w_tick w1 →
      fair o → no_faults o → new_ids dr o (enter d w1) → allowed dr V w1 d c → elsewhere V p sid d c → run_cmd dr c o (enter d w1) = (r, w') →
      ∃ V', vstep w1 V d c r V' ∧ meantime dr p sid l' Q V' w'
  end.
