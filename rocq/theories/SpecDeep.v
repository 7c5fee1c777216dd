(** * SpecDeep: where paths lead *)
From Verif Require Import Base Uid Tree Dump Save Branch Date Ws Fs Overlay Os Layers Mounts Space Manager Commands SpecCmds Deep.

(** No mount is at [p] or above it. *)
Definition clear_of (ms : list mount) (p : path) : Prop := ∀ m, m ∈ ms → is_prefix (mn_at m) p = false.
(** [t] is a directory of the machine, in no mount, but perhaps with one at itself. *)
Definition usual_dir (w : world) (t : path) : Prop :=
  good_path t ∧ is_dir_at (w_fs w) t = true ∧ ∀ m, m ∈ w_mounts w → is_prefix (mn_at m) t = true → mn_at m = t.
(** [q] is such a directory or a link to one. *)
Definition usual (w : world) (q : path) : Prop :=
  usual_dir w q ∨ good_path q ∧ clear_of (w_mounts w) q ∧ ∃ t, fget (w_fs w) q = Some (FLink (path_str t)) ∧ usual_dir w t.
(** Mount [m] shows directories all the way down to [k]. *)
Definition shown_dir (fs : files) (m : mount) (k : path) : Prop :=
  good_path k ∧ ∀ n, 0 < n ≤ length k → mount_view fs m (take n k) = Some (FDir false).
(** The commands that leave the mount of the workspace as it is *)
Definition stays_mounted (c : command) : Prop := match c with CBranch _ _ | CTag _ _ | CLog _ => True | _ => False end.
(** The commands that replace it by a new one, and move the link *)
Definition moves (c : command) : Prop := match c with CCommit _ | CCheckout _ => True | _ => False end.
(** The same, but for where the process is *)
Definition at_dir (q : path) (w : world) : world := set_pwd (set_cwd w q) (Some q).
