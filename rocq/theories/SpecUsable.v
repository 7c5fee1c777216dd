(** * SpecUsable: machines and workspaces in working order *)
From Verif Require Import Base Uid Tree SpecTree TreeRefine Dump Json Save SaveProofs Branch Date Ws SpecWs WsProofs Fs Overlay Os Layers Mounts Space Manager Commands LayerProofs SpecWorld SpecOps SpecMachine SpecCmds Story.

(** The random IDs drawn next (more than any command draws) name nothing yet and differ from each other. *)
Definition new_ids (dr : path) (o : oracle) (w : world) : Prop := ∀ n, w_tick w ≤ n ≤ 40 + w_tick w →
  fget (w_fs w) (mount_dir dr (ch_uid (o n))) = None ∧ fget (w_fs w) (ws_file dr (ch_uid (o n))) = None ∧
  fget (w_fs w) (layer_dir (layers_root dr) (ch_uid (o n))) = None ∧ fget (w_fs w) (space_dir dr (ch_uid (o n))) = None ∧
  ∀ k, w_tick w ≤ k < n → ch_uid (o k) ≠ ch_uid (o n).
(** The data root is prepared; what is mounted in it is mounted on directories. *)
Record in_order (dr : path) (w : world) : Prop := {
  io_machine : machine dr (w_fs w) (w_mounts w);
  io_points : ∀ m, m ∈ w_mounts w → is_prefix (mounts_root dr) (mn_at m) = true → is_dir_at (w_fs w) (mn_at m) = true;
  io_layers : is_dir_at (w_fs w) (layers_root dr) = true;
  io_spaces : is_dir_at (w_fs w) (spaces_root dr) = true;
  io_mounts : is_dir_at (w_fs w) (mounts_root dr) = true }.
(** Mount [mid] is mounted once, or no more since the computer was restarted. Its mount point is there. *)
Definition mounted_once (dr : path) (w : world) (mid : uid) : Prop :=
  is_dir_at (w_fs w) (merged_dir dr mid) = true ∧
  (mounts_below (w_mounts w) (mount_dir dr mid) = [] ∨ ∃ m, mounts_below (w_mounts w) (mount_dir dr mid) = [m] ∧ mn_at m = merged_dir dr mid).
(** At path [p] there is a workspace: [p] is a link to its mount [mid]; the record of
    the mount is [y] with working layer [hid]; the saved tree of its space is [a] and has that layer. *)
Record workspace_at (dr : path) (w : world) (p : path) (mid : uid) (y : ws) (hid : uid) (a : atree) : Prop := {
  wa_link : fget (w_fs w) p = Some (FLink (path_str (merged_dir dr mid)));
  wa_mount : mounted_once dr w mid;
  wa_info : fget (w_fs w) (ws_file dr mid) = Some (FFile (marshal_wsinfo (ws_info y hid)));
  wa_mid : mv_id (ws_mount y) = mid;
  wa_tree : holds (w_fs w) (the_space dr (sp_id (ws_space y))) a;
  wa_head : has a hid }.
(** The workspace as it is read back from its record: the branch name has passed through JSON. *)
Definition read_back (y : ws) : ws := WS (ws_id y) (ws_path y) (ws_space y) (ws_mount y) (ws_head y) (sanitize (ws_branch y)).
(** The process was started in [d], a directory, or a link to one that is known by PWD *)
Inductive runs_in (w : world) (d : path) : Prop :=
  | in_dir : is_dir_at (w_fs w) d = true → w_cwd w = d → w_pwd w = None ∨ w_pwd w = Some d → runs_in w d
  | in_link : fget (w_fs w) d = Some (FLink (path_str (w_cwd w))) → good_path (w_cwd w) → is_dir_at (w_fs w) (w_cwd w) = true →
      w_pwd w = Some d → runs_in w d.
(** A link can be put at [p]: nothing is there, or something that can be removed. *)
Definition can_replace (w : world) (p : path) : Prop :=
  fget (w_fs w) p = None ∧ is_dir_at (w_fs w) (parent_dir p) = true ∨
  is_Some (real_path (w_fs w) p) ∧
    (is_dir_at (w_fs w) p = true → (∀ n, fget (w_fs w) (p ++ [n]) = None) ∧ ∀ m, m ∈ w_mounts w → mn_at m ≠ p).
(** From [w] to [w'] workspace [y] with mount [mid], working layer [id] and saved tree [a'] was put at [p].
    Its mount shows the history of that layer, which is new. New layers are empty. Mount [old] is gone with its record. All other workspaces
    are where they were, their mounts are the same, and no layer has changed. *)
Record put_at (dr : path) (w w' : world) (p : path) (old : option uid) (mid : uid) (y : ws) (id : uid) (a' : atree) : Prop := {
  pa_order : in_order dr w';
  pa_here : workspace_at dr w' p mid y id (san_tree a');
  pa_others : ∀ p2 mid2 y2 hid2 a2, workspace_at dr w p2 mid2 y2 hid2 a2 → p2 ≠ p → outside dr p2 → old ≠ Some mid2 →
    workspace_at dr w' p2 mid2 y2 hid2 (if decide (sp_id (ws_space y2) = sp_id (ws_space y)) then san_tree a' else a2);
  pa_gone : ∀ i, old = Some i → mounts_below (w_mounts w') (mount_dir dr i) = [] ∧ fget (w_fs w') (mount_dir dr i) = None ∧ fget (w_fs w') (ws_file dr i) = None;
  pa_mounts : ∀ i, i ≠ mid → old ≠ Some i → mounts_below (w_mounts w') (mount_dir dr i) = mounts_below (w_mounts w) (mount_dir dr i);
  pa_layers : untouched dr w w';
  pa_new : fget (w_fs w) (layer_dir (layers_root dr) id) = None;
  pa_empty : new_empty dr w w';
  pa_stack : ∃ ch, mounts_below (w_mounts w') (mount_dir dr mid) = [stack_of dr mid id ch] ∧ chain (san_tree a') id (id :: ch) }.
(** What may happen between processes: users change files, and mounts end, for instance all of them when the computer is restarted. *)
Definition meanwhile (dr : path) (w w' : world) : Prop :=
  ∃ v, user_change dr w v ∧ w_fs w' = w_fs v ∧ sublist (w_mounts w') (w_mounts v).
(** Commits, each in a new process, with the paths and messages [l]. Whatever happened before each of them, except to the
    links [ps], and however it goes, provided no call fails and the random IDs are new, it succeeds, and in the end [Q] holds. *)
Fixpoint commits (dr : path) (ps : list path) (l : list (path * bytes)) (Q : world → Prop) (w : world) : Prop :=
  match l with
  | [] => Q w
  | (p, m) :: l' => ∀ w1 o, meanwhile dr w w1 → (∀ q, q ∈ ps → fget (w_fs w1) q = fget (w_fs w) q) → fair o → no_faults o → new_ids dr o (enter p w1) →
      ∃ w', cmd_commit dr m o (enter p w1) = (Ok tt, w') ∧ commits dr ps l' Q w'
  end.
Definition has_message (a : atree) (c : uid) (m : bytes) : Prop := ∃ n, a_nodes a !! c = Some n ∧ an_anno n !! B "commit-message" = Some m.
(** A workspace with ID [wid] is at [p], can commit, and has at most [n] layers. *)
Definition can_commit_at (dr : path) (w : world) (n : nat) (p : path) (wid : uid) : Prop :=
  ∃ mid y hid a ch, workspace_at dr w p mid y hid a ∧ ws_id y = wid ∧ may_commit (read_back y) a hid ∧ chain a hid ch ∧ length ch ≤ n.
