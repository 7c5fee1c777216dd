(** * SpecKernel: sessions as in SpecSnap, with paths that are resolved as the kernel does *)
From Verif Require Import Base Uid Tree SpecTree TreeRefine TreeObs Dump Json Save SaveProofs Branch Date Ws SpecWs WsProofs Fs Overlay Os Layers Mounts Space Manager Commands LayerProofs SpecWorld SpecOps SpecMachine SpecCmds SpecLog Story SpecUsable SpecNames SpecVcs Edits SpecEdits SpecSnap
  Deep SpecDeep DeepStart SpecStart.
From stdpp Require Import prelude gmap.

(** [p] is a workspace or a directory, and nothing is mounted at it or above it. *)
Definition reachable (V : vcs) (w : world) (p : path) : Prop := good_path p ∧ clear_of (w_mounts w) p ∧ (is_Some (v_places V !! p) ∨ is_dir_at (w_fs w) p = true).
(** Commands run in such directories, and commit and checkout in workspaces. The target of init and clone is a plain place. Nothing is mounted at the data root or above it. *)
Definition reaches (dr : path) (V : vcs) (w : world) (d : path) (c : command) : Prop :=
  clear_of (w_mounts w) (mounts_root dr) ∧ reachable V w d ∧
  match c with
  | CInit _ _ => plain_place w (target_of d c)
  | CClone source _ => reachable V w (abs_from d source) ∧ plain_place w (target_of d c)
  | CCommit _ | CCheckout _ => is_Some (v_places V !! d)
  | _ => True
  end.
(** [lives] of SpecSnap, for [deep_run] *)
Fixpoint deep_lives (dr : path) (l : list deed) (Q : vcs → snaps → world → Prop) (V : vcs) (Sn : snaps) (w : world) : Prop :=
  match l with
  | [] => Q V Sn w
  | DCmd d c :: l' => ∀ w1 o r w', aside dr V w w1 → fair o → no_faults o → new_ids dr o (enter d w1) → allowed dr V w1 d c → reaches dr V w1 d c → proper V d c →
      deep_run dr c o (deep_enter d w1) = (r, w') →
      ∃ V' Sn', vstep w1 V d c r V' ∧ sstep dr w1 V Sn d c r V' Sn' ∧ mounted_step dr V d c r w1 w' ∧ deep_lives dr l' Q V' Sn' w'
  | DEdit p e :: l' => ∀ w1 pl, aside dr V w w1 → v_places V !! p = Some pl →
      (awake dr w1 p ∧ can_edit e (Sn (pl_head pl)) ∧ ∃ w', edit_at w1 p e = Some w' ∧ awake dr w' p ∧ deep_lives dr l' Q V (redone Sn (pl_head pl) e) w') ∨
      (¬ (awake dr w1 p ∧ can_edit e (Sn (pl_head pl))) ∧ edit_at w1 p e = None ∧ deep_lives dr l' Q V Sn w1)
  end.
