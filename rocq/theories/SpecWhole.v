(** * SpecWhole: command lines, whatever fails *)
From Verif Require Import Base Uid Tree SpecTree Fs Overlay Os Layers Mounts Space Manager Commands SpecWorld SpecOps SpecMachine SpecCmds SpecLog Story SpecUsable SpecOrder SpecNames SpecVcs SpecHarm SpecProcess.
From Verif Require Cli PropsOptions.
From stdpp Require Import prelude gmap.

(** As [serves], but anything may fail and any process may be killed at any time, also while it prepares the data root. A process in which nothing fails does all that
    [serves] says; in every case no more is lost than [partly], [spared] and [stay_awake] say. *)
Fixpoint endures (dr : path) (l : list job) (Q : vcs → world → Prop) (V : vcs) (w : world) : Prop :=
  match l with
  | [] => Q V w
  | j :: l' => ∀ c w1 o r w', PropsOptions.meant (j_name j) (j_items j) = Some c → j_valid dr j →
      meanwhile dr w w1 → (∀ p, is_Some (v_places V !! p) → fget (w_fs w1) p = fget (w_fs w) p) → below_dirs dr w1 →
      fair o → runs_in (enter (j_dir j) w1) (j_dir j) → allowed dr V w1 (j_at j) c →
      Cli.process (j_uid j) (j_gid j) (j_line j) o (enter (j_dir j) w1) = (r, w') →
      (no_faults o → many_new_ids dr o (enter (j_dir j) w1) →
        ∃ V' lines, vstep w1 V (j_at j) c r V' ∧ files_step dr w1 w' V V' ∧ screen w' = screen w1 ++ lines ∧ vlines V (j_at j) c r lines ∧ endures dr l' Q V' w') ∧
      ∃ V', partly o V (j_at j) c V' ∧ spared dr V (j_at j) c w1 w' ∧ stay_awake dr V' w1 w' ∧ endures dr l' Q V' w'
  end.
