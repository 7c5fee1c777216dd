(** * SpecSnap: version control of whole trees of files, which the program with its layers and mounts is compared with *)
From Verif Require Import Base Uid Tree SpecTree TreeRefine TreeObs Dump Json Save SaveProofs Branch Date Ws SpecWs WsProofs Fs Overlay Os Layers Mounts Space Manager Commands LayerProofs SpecWorld SpecOps SpecMachine SpecCmds SpecLog Story SpecUsable SpecNames SpecVcs Edits SpecEdits.
From stdpp Require Import prelude gmap.

(** A snapshot of all files for each layer: what a workspace on it shows *)
Notation snaps := (uid → path → option fobj).
(** The machine stores these snapshots. No two workspaces work on the same layer, nothing is based on a layer that a workspace works on,
    and no layer belongs to two spaces. *)
Record snapped (dr : path) (w : world) (V : vcs) (Sn : snaps) : Prop := {
  sn_models : models dr w V;
  sn_apart : apart V;
  sn_tips : ∀ p pl sid a i, v_places V !! p = Some pl → used V sid a → ¬ SpecTree.parent_of a i (pl_head pl);
  sn_own : ∀ s1 s2 a1 a2 i, used V s1 a1 → used V s2 a2 → has a1 i → has a2 i → s1 = s2;
  sn_files : ∀ sid a i ch k, used V sid a → chain a i ch → k ≠ [] → content dr (w_fs w) ch k = Sn i k }.
(** The snapshot of which a command makes a copy to work on *)
Definition copy_of (V : vcs) (Sn : snaps) (d : path) (c : command) (F : path → option fobj) : Prop :=
  match c with
  | CInit _ _ => F = λ _, None
  | CCommit _ => ∃ pl, v_places V !! d = Some pl ∧ F = Sn (pl_head pl)
  | CCheckout key => ∃ pl a x i, v_places V !! d = Some pl ∧ v_trees V !! pl_space pl = Some a ∧ stands_for x pl ∧ meant x (pl_head pl) a key = Some i ∧ F = Sn i
  | CClone source _ => ∃ pl a i, v_places V !! abs_from d source = Some pl ∧ v_trees V !! pl_space pl = Some a ∧ SpecTree.parent_of a (pl_head pl) i ∧ F = Sn i
  | _ => False
  end.
Definition copies (c : command) : Prop := match c with CInit _ _ | CCommit _ | CCheckout _ | CClone _ _ => True | _ => False end.
(** What a command with result [r] does to snapshots: those of all layers on the disk stay. If it succeeds, init, commit, checkout and clone make a copy, which
    the workspace at [target_of] works on. *)
Definition sstep (dr : path) (w : world) (V : vcs) (Sn : snaps) (d : path) (c : command) (r : res unit) (V' : vcs) (Sn' : snaps) : Prop :=
  (∀ i, fget (w_fs w) (layer_dir (layers_root dr) i) ≠ None → Sn' i = Sn i) ∧
  (copies c → r = Ok tt → ∃ F pl, copy_of V Sn d c F ∧ v_places V' !! target_of d c = Some pl ∧ Sn' (pl_head pl) = F).
(** An edit changes one snapshot. *)
Definition redone (Sn : snaps) (h : uid) (e : edit) : snaps := λ i, if decide (i = h) then edited e (Sn h) else Sn i.
(** checkout does not name the layer that another workspace works on (C43). *)
Definition proper (V : vcs) (d : path) (c : command) : Prop :=
  match c with
  | CCheckout key => ∀ pl a x i, v_places V !! d = Some pl → v_trees V !! pl_space pl = Some a → stands_for x pl → meant x (pl_head pl) a key = Some i →
      ∀ p pq, v_places V !! p = Some pq → p ≠ d → pl_head pq ≠ i
  | _ => True
  end.
(** What happens apart from commands and edits: users change files outside the data root, but no link that is a workspace, and the computer may be
    restarted. *)
Definition aside (dr : path) (V : vcs) (w w' : world) : Prop :=
  meanwhile dr w w' ∧ (∀ p, is_Some (v_places V !! p) → fget (w_fs w') p = fget (w_fs w) p) ∧ ∀ i, same_layer dr (w_fs w) (w_fs w') i.
Definition mounted_step (dr : path) (V : vcs) (d : path) (c : command) (r : res unit) (w w' : world) : Prop :=
  (∀ p, is_Some (v_places V !! p) → awake dr w p → awake dr w' p) ∧ (copies c → r = Ok tt → awake dr w' (target_of d c)).
(** Commands in new processes, and edits *)
Inductive deed := DCmd (d : path) (c : command) | DEdit (p : path) (e : edit).
(** However they go, if nothing fails and random IDs are new: each command has the effect it should have on workspaces, trees and snapshots. An edit
    succeeds exactly if the workspace is mounted and the edit is possible in the snapshot it works on, and then changes that one only. Workspaces stay mounted,
    and those that commands make or move are mounted. In the end [Q] holds. *)
Fixpoint lives (dr : path) (l : list deed) (Q : vcs → snaps → world → Prop) (V : vcs) (Sn : snaps) (w : world) : Prop :=
  match l with
  | [] => Q V Sn w
  | DCmd d c :: l' => ∀ w1 o r w', aside dr V w w1 → fair o → no_faults o → new_ids dr o (enter d w1) → allowed dr V w1 d c → proper V d c → run_cmd dr c o (enter d w1) = (r, w') →
      ∃ V' Sn', vstep w1 V d c r V' ∧ sstep dr w1 V Sn d c r V' Sn' ∧ mounted_step dr V d c r w1 w' ∧ lives dr l' Q V' Sn' w'
  | DEdit p e :: l' => ∀ w1 pl, aside dr V w w1 → v_places V !! p = Some pl →
      (awake dr w1 p ∧ can_edit e (Sn (pl_head pl)) ∧ ∃ w', edit_at w1 p e = Some w' ∧ awake dr w' p ∧ lives dr l' Q V (redone Sn (pl_head pl) e) w') ∨
      (¬ (awake dr w1 p ∧ can_edit e (Sn (pl_head pl))) ∧ edit_at w1 p e = None ∧ lives dr l' Q V Sn w1)
  end.
