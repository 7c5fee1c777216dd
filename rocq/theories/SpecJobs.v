(** * SpecJobs: processes as in SpecProcess, with paths that are resolved as the kernel does *)
From Verif Require Import Base Uid Tree SpecTree Fs Overlay Os Layers Mounts Space Manager Commands SpecWorld SpecOps SpecMachine SpecCmds SpecLog Story SpecUsable SpecOrder SpecNames SpecVcs SpecHarm SpecProcess Deep DeepStart SpecKernel DeepProcess.
From Verif Require Cli PropsOptions.
From stdpp Require Import prelude gmap.

(** As [endures] of SpecWhole *)
Fixpoint deep_endures (dr : path) (l : list job) (Q : vcs → world → Prop) (V : vcs) (w : world) : Prop :=
  match l with
  | [] => Q V w
  | j :: l' => ∀ c ids w1 o r w', PropsOptions.meant (j_name j) (j_items j) = Some c → j_valid dr j →
      meanwhile dr w w1 → (∀ p, is_Some (v_places V !! p) → fget (w_fs w1) p = fget (w_fs w) p) → below_dirs dr w1 →
      fair o → runs_in (enter (j_dir j) w1) (j_dir j) → reachable V w1 (j_dir j) → allowed dr V w1 (j_at j) c → reaches dr V w1 (j_at j) c →
      deep_process ids (PropsOptions.value (j_items j) (B "chdir") []) (j_root j) c o (deep_enter (j_dir j) w1) = (r, w') →
      (no_faults o → many_new_ids dr o (enter (j_dir j) w1) →
        ∃ V' lines, vstep w1 V (j_at j) c r V' ∧ files_step dr w1 w' V V' ∧ screen w' = screen w1 ++ lines ∧ vlines V (j_at j) c r lines ∧ deep_endures dr l' Q V' w') ∧
      ∃ V', partly o V (j_at j) c V' ∧ spared dr V (j_at j) c w1 w' ∧ stay_awake dr V' w1 w' ∧ deep_endures dr l' Q V' w'
  end.
