(** * SpecOwner: whom files belong to, as C74 speaks about it *)
From Verif Require Import Base Uid Tree Dump Json Branch Date Ws Fs Overlay Os Layers Mounts Space Manager Commands SpecWorld SpecOps SpecMachine SpecCmds.

(** The last time the file at [q] was given to somebody *)
Definition owner_of (w : world) (q : path) : option owned := head (filter (λ e, ow_at e = q) (w_owned w)).
(** At [p] there is a link to a mount. The link and what is mounted, as they are now, were given to [ids], nobody else since. *)
Definition belongs_to (w : world) (p : path) (ids : Z * Z) : Prop :=
  ∃ mp m e1 e2, fget (w_fs w) p = Some (FLink (path_str mp)) ∧ mount_at (w_mounts w) mp = Some m ∧
    owner_of w p = Some e1 ∧ ow_obj e1 = fget (w_fs w) p ∧ ow_ids e1 = ids ∧
    owner_of w mp = Some e2 ∧ ow_mount e2 = Some m ∧ ow_ids e2 = ids.
(** The workspace that a command replaces, if it does, is mounted where its link leads. *)
Definition in_place (dr : path) (w : world) (c : command) : Prop :=
  match c with
  | CCommit _ | CCheckout _ => ∃ old, fget (w_fs w) (abs_of w (cmd_target c)) = Some (FLink (path_str (merged_dir dr old))) ∧ is_dir_at (w_fs w) (merged_dir dr old) = true
  | _ => True
  end.
