(** * SpecProcess: command lines, from a machine on which the program has never run *)
From Verif Require Import Base Uid Tree SpecTree Fs Overlay Os Layers Mounts Space Manager Commands SpecWorld SpecOps SpecMachine SpecCmds SpecLog Story SpecUsable SpecOrder SpecNames SpecVcs.
From Verif Require Cli PropsOptions.
From stdpp Require Import prelude gmap.

(** A process that someone starts: the directory, the user and the group, the name of the command and what follows it *)
Record job := Job { j_dir : path; j_uid : N; j_gid : N; j_name : bytes; j_items : list PropsOptions.item }.
Definition j_line (j : job) : list bytes := j_name j :: concat (PropsOptions.written <$> j_items j).
(** The directory in which the command works *)
Definition j_at (j : job) : path :=
  let arg := PropsOptions.value (j_items j) (B "chdir") [] in match arg with [] => j_dir j | _ => abs_from (j_dir j) arg end.
(** The data root as it is written, or the default *)
Definition j_root (j : job) : bytes := PropsOptions.value (j_items j) (B "data-root") (B "/var/lib/stackcrisp").
(** The command line is valid and names this data root. A relative name is relative to the directory in which the command works. *)
Definition j_valid (dr : path) (j : job) : Prop :=
  Forall (PropsOptions.item_ok (j_name j)) (j_items j) ∧ (j_uid j < 2 ^ 63)%N ∧ (j_gid j < 2 ^ 63)%N ∧
  abs_from (j_at j) (j_root j) = dr.
(** The machine holds [V]. There may be no data root yet, or an incomplete one, and then there are no workspaces. *)
Definition stands (dr : path) (w : world) (V : vcs) : Prop := models dr w V ∨ founded dr w ∧ v_places V = ∅.
(** The directories above the data root exist. *)
Definition below_dirs (dr : path) (w : world) : Prop := is_dir_at (w_fs w) [] = true ∧ ∀ q, is_prefix q dr = true → q ≠ dr → is_dir_at (w_fs w) q = true.
(** As [follows], for whole processes *)
Fixpoint serves (dr : path) (l : list job) (Q : vcs → world → Prop) (V : vcs) (w : world) : Prop :=
  match l with
  | [] => Q V w
  | j :: l' => ∀ c w1 o r w', PropsOptions.meant (j_name j) (j_items j) = Some c → j_valid dr j →
      meanwhile dr w w1 → (∀ p, is_Some (v_places V !! p) → fget (w_fs w1) p = fget (w_fs w) p) → below_dirs dr w1 →
      fair o → no_faults o → many_new_ids dr o (enter (j_dir j) w1) → runs_in (enter (j_dir j) w1) (j_dir j) → allowed dr V w1 (j_at j) c →
      Cli.process (j_uid j) (j_gid j) (j_line j) o (enter (j_dir j) w1) = (r, w') →
      ∃ V' lines, vstep w1 V (j_at j) c r V' ∧ files_step dr w1 w' V V' ∧ screen w' = screen w1 ++ lines ∧ vlines V (j_at j) c r lines ∧ serves dr l' Q V' w'
  end.
