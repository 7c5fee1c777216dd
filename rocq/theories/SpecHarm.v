(** * SpecHarm: what a command that fails or is killed may leave of the version control system *)
From Verif Require Import Base Uid Tree SpecTree TreeRefine TreeObs Dump Json Save SaveProofs Branch Date Ws SpecWs WsProofs Fs Overlay Os Layers Mounts Space Manager Commands LayerProofs SpecWorld SpecOps SpecMachine SpecCmds SpecLog Story SpecUsable SpecNames SpecVcs.
From stdpp Require Import prelude gmap.

Definition less_place (V : vcs) (p : path) : vcs := Vcs (delete p (v_places V)) (v_trees V).
Definition less_space (V : vcs) (sid : uid) : vcs := Vcs (filter (λ e, pl_space e.2 ≠ sid) (v_places V)) (v_trees V).
(** What is left of [V] when command [c] in directory [d] ends in any way whatsoever. Either nothing happened, or the workspace it is about performed
    the first of its operations. All workspaces are still there, except that
    - the one at the path where clone, commit and checkout show their result may be lost if they performed their operation;
    - those of the same space are lost if the system stopped half-way through writing its file. *)
Definition partly (o : oracle) (V : vcs) (d : path) (c : command) (V' : vcs) : Prop :=
  V' = V ∨
  ∃ pl x a l k a', v_places V !! abs_from d (cmd_source c) = Some pl ∧ stands_for x pl ∧ v_trees V !! pl_space pl = Some a ∧
    cmd_does o c l ∧ k ≤ length l ∧ op_all x (pl_head pl) (take k l) a a' ∧
    (V' = put_tree V (pl_space pl) (san_tree a') ∨
     makes_mount c ∧ k = length l ∧ V' = put_tree (less_place V (abs_from d (cmd_target c))) (pl_space pl) (san_tree a') ∨
     ¬ whole o ∧ V' = less_space V (pl_space pl)).
(** The layers that command [c] in directory [d] may change: the working layer of the workspace whose commit or checkout it is *)
Definition at_risk (V : vcs) (d : path) (c : command) (i : uid) : Prop :=
  match c with CCommit _ | CCheckout _ => ∃ pl, v_places V !! d = Some pl ∧ pl_head pl = i | _ => False end.
Definition spared (dr : path) (V : vcs) (d : path) (c : command) (w w' : world) : Prop :=
  ∀ i, is_dir_at (w_fs w) (diff_dir (layers_root dr) i) = true → ¬ at_risk V d c i → same_layer dr (w_fs w) (w_fs w') i.
(** The workspaces that are left in [V] stay mounted if they were. *)
Definition stay_awake (dr : path) (V : vcs) (w w' : world) : Prop := ∀ p, is_Some (v_places V !! p) → awake dr w p → awake dr w' p.
(** As [follows], but anything may fail and any process may be killed. Where nothing fails and random IDs are new, the version control system takes
    its step; in every case it survives. *)
Fixpoint survives (dr : path) (l : list (path * command)) (Q : vcs → world → Prop) (V : vcs) (w : world) : Prop :=
  match l with
  | [] => Q V w
  | (d, c) :: l' => ∀ w1 o r w', meanwhile dr w w1 → (∀ p, is_Some (v_places V !! p) → fget (w_fs w1) p = fget (w_fs w) p) →
      fair o → allowed dr V w1 d c → run_cmd dr c o (enter d w1) = (r, w') →
      (no_faults o → new_ids dr o (enter d w1) → ∃ V', vstep w1 V d c r V' ∧ files_step dr w1 w' V V' ∧ survives dr l' Q V' w') ∧
      ∃ V', partly o V d c V' ∧ spared dr V d c w1 w' ∧ stay_awake dr V' w1 w' ∧ survives dr l' Q V' w'
  end.
