(** * SpecMachine: what a data root may look like between commands, whatever has failed before *)
From Verif Require Import Base Uid Tree SpecTree TreeRefine Dump Save SaveProofs Branch Ws Fs Overlay Os Layers Mounts Space Manager LayerProofs SpaceProofs SpecWorld FaultProofs.

Definition the_space (dr : path) (sid : uid) : space := Space sid (space_dir dr sid).
(** The tree file of a space is absent, unreadable, or a saved tree whose layers all exist. *)
Definition tree_state (dr : path) (fs : files) (sid : uid) : Prop :=
  fget fs (tree_file (the_space dr sid)) = None ∨ holds_torn fs (the_space dr sid) ∨
  ∃ a, holds fs (the_space dr sid) (san_tree a) ∧ layers_present fs (layers_root dr) a.
(** The mount of a workspace: it is mounted below the mounts directory and writes into a layer, or nowhere. *)
Definition own_mount (dr : path) (fs : files) (m : mount) : Prop :=
  (∃ mid, mn_at m = mount_dir dr mid ++ [B "merged"]) ∧
  ∀ u, mn_upper m = Some u → ∃ id, u = diff_dir (layers_root dr) id ∧ is_dir_at fs u = true.
Record machine (dr : path) (fs : files) (ms : list mount) : Prop := {
  mc_wf : fs_wf fs;
  mc_info : ∀ mid y, fget fs (ws_file dr mid) = Some y → ∃ raw, y = FFile raw ∧ info_text mid raw;
  mc_tree : ∀ sid, tree_state dr fs sid;
  mc_mounts : ∀ m, m ∈ ms → is_prefix (mounts_root dr) (mn_at m) = true → own_mount dr fs m }.
(** A path of the user: neither in the data root nor above it *)
Definition outside (dr p : path) : Prop := is_prefix dr p = false ∧ is_prefix p dr = false.
