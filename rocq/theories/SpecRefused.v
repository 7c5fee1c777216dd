(** * SpecRefused: what commands leave behind when they are refused *)
From Verif Require Import Base Uid Tree SpecTree TreeRefine Dump Json Save SaveProofs Branch Date Ws SpecWs WsProofs Fs Overlay Os Layers Mounts Space Manager Commands LayerProofs SpecWorld SpecOps SpecMachine SpecCmds Story SpecUsable.

(** Nothing at all: files and mounts are the same. *)
Definition same_machine (w w' : world) : Prop := w_fs w' = w_fs w ∧ w_mounts w' = w_mounts w.
(** An empty mount directory [mid] and an empty layer [id], both new, and nothing else *)
Record left_dirs (dr : path) (w w' : world) (mid id : uid) : Prop := {
  ld_mid : fget (w_fs w) (mount_dir dr mid) = None;
  ld_id : fget (w_fs w) (layer_dir (layers_root dr) id) = None;
  ld_new : ∀ q, q = mount_dir dr mid ∨ q = layer_dir (layers_root dr) id ∨ q = diff_dir (layers_root dr) id → fget (w_fs w') q = Some (FDir false);
  ld_same : ∀ q, q ≠ mount_dir dr mid → q ≠ layer_dir (layers_root dr) id → q ≠ diff_dir (layers_root dr) id → fget (w_fs w') q = fget (w_fs w) q;
  ld_mounts : w_mounts w' = w_mounts w }.
(** No link can be put at [p]: its directory does not exist, or it is a directory that is not empty or has something mounted on it, or
    it is a link to something outside the data root that does not exist. *)
Definition blocked (dr : path) (w : world) (p : path) : Prop :=
  fget (w_fs w) p = None ∧ is_dir_at (w_fs w) (parent_dir p) = false ∨
  is_dir_at (w_fs w) p = true ∧ ((∃ n, is_Some (fget (w_fs w) (p ++ [n]))) ∨ ∃ m, m ∈ w_mounts w ∧ mn_at m = p) ∨
  ∃ s, fget (w_fs w) p = Some (FLink s) ∧ is_prefix dr (abs_from (parent_dir p) s) = false ∧ fget (w_fs w) (abs_from (parent_dir p) s) = None.
(** A mounted stack [mid] with the record of workspace [y] and the new working layer [id] in the saved tree [a'], but no link to it. All workspaces
    are where they were, and no file outside the data root and no layer has changed. *)
Record left_mounted (dr : path) (w w' : world) (mid : uid) (y : ws) (id : uid) (a' : atree) : Prop := {
  lm_order : in_order dr w';
  lm_user : ∀ q, is_prefix dr q = false → fget (w_fs w') q = fget (w_fs w) q;
  lm_new : fget (w_fs w) (mount_dir dr mid) = None;
  lm_mount : ∃ m, w_mounts w' = m :: w_mounts w ∧ mn_at m = merged_dir dr mid;
  lm_info : fget (w_fs w') (ws_file dr mid) = Some (FFile (marshal_wsinfo (ws_info y id)));
  lm_tree : holds (w_fs w') (the_space dr (sp_id (ws_space y))) (san_tree a');
  lm_places : ∀ p2 mid2 y2 hid2 a2, workspace_at dr w p2 mid2 y2 hid2 a2 →
    workspace_at dr w' p2 mid2 y2 hid2 (if decide (sp_id (ws_space y2) = sp_id (ws_space y)) then san_tree a' else a2);
  lm_layers : untouched dr w w';
  lm_head : has a' id;
  lm_layer : fget (w_fs w) (layer_dir (layers_root dr) id) = None;
  lm_empty : new_empty dr w w' }.
