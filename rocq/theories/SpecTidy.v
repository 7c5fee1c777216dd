(** * SpecTidy: machines on which no mount writes to a committed layer *)
From Verif Require Import Base Uid Tree SpecTree TreeRefine Dump Json Save SaveProofs Branch Date Ws SpecWs WsProofs Fs Overlay Os Layers Mounts Space Manager Commands LayerProofs SpecWorld SpecOps SpecMachine SpecCmds.

Definition writes_to (dr : path) (m : mount) (id : uid) : Prop := mn_upper m = Some (diff_dir (layers_root dr) id).
(** A layer with a child is never the top of a mount. The working layer a workspace is recorded with exists
    and is written to only by the mount of that workspace. *)
Record tidy (dr : path) (w : world) : Prop := {
  ti_tree : ∀ sid a c p m, holds (w_fs w) (the_space dr sid) a → SpecTree.parent_of a c p → m ∈ w_mounts w → ¬ writes_to dr m p;
  ti_info : ∀ mid y hid, fget (w_fs w) (ws_file dr mid) = Some (FFile (marshal_wsinfo (ws_info y hid))) →
    is_Some (fget (w_fs w) (layer_dir (layers_root dr) hid)) ∧ is_dir_at (w_fs w) (merged_dir dr mid) = true ∧
    ∀ m, m ∈ w_mounts w → writes_to dr m hid → mn_at m = merged_dir dr mid;
  ti_exists : ∀ m id, m ∈ w_mounts w → writes_to dr m id → is_Some (fget (w_fs w) (layer_dir (layers_root dr) id)) }.
(** A checkout names a layer that no mount writes to. *)
Definition ref_committed (dr : path) (c : command) (w : world) : Prop :=
  ∀ key x hid a base m, c = CCheckout key → found_at dr w (cmd_source c) x hid → holds (w_fs w) (ws_space x) a →
    found_id (resolve a (ws_id x) hid key) = Some base → m ∈ w_mounts w → ¬ writes_to dr m base.
(** The saved trees, the records of the workspaces and their directories are as before, and no mount is new. *)
Definition nothing_new (dr : path) (w w' : world) : Prop :=
  (∀ sid, fget (w_fs w') (tree_at dr sid) = fget (w_fs w) (tree_at dr sid)) ∧
  (∀ i, fget (w_fs w') (ws_file dr i) = fget (w_fs w) (ws_file dr i)) ∧
  (∀ i, is_dir_at (w_fs w) (merged_dir dr i) = true → is_dir_at (w_fs w') (merged_dir dr i) = true) ∧
  ∀ m, m ∈ w_mounts w' → m ∈ w_mounts w.
(** What happens when references name committed layers and no operation stops half way: init, clone, commit
    and checkout succeed, or are refused without effect; branch, tag and log succeed or fail; users change
    files; mounts end. *)
Inductive good_step (dr : path) (w w' : world) : Prop :=
  | gs_cmd c o w0 : same_disk w w0 → fair o → honest o → (writes_path c → outside dr (abs_of w0 (cmd_target c))) → ref_committed dr c w0 →
      run_cmd dr c o w0 = (Ok tt, w') → good_step dr w w'
  | gs_refused c o w0 r : same_disk w w0 → fair o → (writes_path c → outside dr (abs_of w0 (cmd_target c))) →
      run_cmd dr c o w0 = (r, w') → nothing_new dr w0 w' → good_step dr w w'
  | gs_small c o w0 r : same_disk w w0 → fair o → ¬ writes_path c → run_cmd dr c o w0 = (r, w') → good_step dr w w'
  | gs_user : user_change dr w w' → good_step dr w w'
  | gs_lost : w_fs w' = w_fs w → (∀ m, m ∈ w_mounts w' → m ∈ w_mounts w) → good_step dr w w'.
(** A machine on which this program has not run yet *)
Record fresh_machine (dr : path) (w : world) : Prop := {
  fm_wf : fs_wf (w_fs w);
  fm_mounts : ∀ n, fget (w_fs w) (mounts_root dr ++ [n]) = None;
  fm_spaces : ∀ n, fget (w_fs w) (spaces_root dr ++ [n]) = None;
  fm_none : ∀ m, m ∈ w_mounts w → is_prefix (mounts_root dr) (mn_at m) = false ∧ ∀ id, ¬ writes_to dr m id }.
(** Commit [p] of space [sid]: some layer was made on top of it. [ch] is the stack of layers it consists of. *)
Definition commit_in (dr : path) (fs : files) (sid : uid) (p : uid) (ch : list uid) : Prop :=
  ∃ a c, holds fs (the_space dr sid) a ∧ SpecTree.parent_of a c p ∧ chain a p ch.
