(** * SpecOrder: whole processes, and a data root that is prepared or can be *)
From Verif Require Import Base Uid Tree Branch Date Ws Fs Overlay Os Layers Mounts Space Manager Commands SpecMachine SpecCmds SpecUsable.

(** The data root and the directories that Prepare makes in it *)
Definition base_dirs (dr : path) : list path := [dr; layers_root dr; spaces_root dr; mounts_root dr].
(** The data root may be missing or incomplete, but nothing else is in the place of its directories. *)
Record founded (dr : path) (w : world) : Prop := {
  fo_machine : machine dr (w_fs w) (w_mounts w);
  fo_points : ∀ m, m ∈ w_mounts w → is_prefix (mounts_root dr) (mn_at m) = true → is_dir_at (w_fs w) (mn_at m) = true;
  fo_base : ∀ q, q ∈ base_dirs dr → fget (w_fs w) q = None ∨ is_dir_at (w_fs w) q = true }.
(** What can happen to a machine: Prepare runs in a new process with any faults, or any step of C44 happens. *)
Inductive happens (dr : path) (w w' : world) : Prop :=
  | happens_prepare o w0 r : same_disk w w0 → is_dir_at (w_fs w0) [] = true → prepare dr (MState false None) o w0 = (r, w') → happens dr w w'
  | happens_step : step dr w w' → happens dr w w'.
(** The directories above the data root exist or can be made. *)
Definition reachable (dr : path) (w : world) : Prop :=
  is_dir_at (w_fs w) [] = true ∧ ∀ q, is_prefix q dr = true → fget (w_fs w) q = None ∨ is_dir_at (w_fs w) q = true.
(** As [new_ids], for a whole process *)
Definition many_new_ids (dr : path) (o : oracle) (w : world) : Prop := ∀ n, w_tick w ≤ n ≤ 60 + w_tick w →
  fget (w_fs w) (mount_dir dr (ch_uid (o n))) = None ∧ fget (w_fs w) (ws_file dr (ch_uid (o n))) = None ∧
  fget (w_fs w) (layer_dir (layers_root dr) (ch_uid (o n))) = None ∧ fget (w_fs w) (space_dir dr (ch_uid (o n))) = None ∧
  ∀ k, w_tick w ≤ k < n → ch_uid (o k) ≠ ch_uid (o n).
