(** * SpecWorld: words used to state what commands do to a machine *)
From Verif Require Import Base Uid Tree SpecTree TreeRefine Dump Save SaveProofs Branch Ws WsProofs Fs Os Layers Mounts Space Manager.

(** Go's maps are iterated in some order: the orders the oracle chooses are permutations. *)
Definition fair (o : oracle) : Prop :=
  ∀ n, dumpenv_ok (ch_dump (o n)) ∧ (∀ l, ch_names (o n) l ≡ₚ l) ∧ is_order (ch_locs (o n)).
(** No system call fails. *)
Definition no_faults (o : oracle) : Prop := ∀ n, ch_fault (o n) = FNone.
(** A call that fails for another reason does not say that the file is missing. *)
Definition honest (o : oracle) : Prop := ∀ n k, ch_fault (o n) ≠ FFail ENOENT k.
(** The next random IDs name nothing in the data root [dr] yet. *)
Definition fresh_ids (dr : path) (o : oracle) (w : world) : Prop := ∀ n, w_tick w ≤ n ≤ 2 + w_tick w →
  fget (w_fs w) (mount_dir dr (ch_uid (o n))) = None ∧ fget (w_fs w) (ws_file dr (ch_uid (o n))) = None ∧
  fget (w_fs w) (layer_dir (layers_root dr) (ch_uid (o n))) = None.
(** No call takes place partly: a failed one has no effect, and the process ends only between calls. *)
Definition whole (o : oracle) : Prop := ∀ n, match ch_fault (o n) with FNone | FFail _ O | FKill O => True | _ => False end.
Definition failed {A} (r : res A) : Prop := ∀ x, r ≠ Ok x.
(** Loading the bytes, or any first part of them, reports an error *)
Definition torn (raw : bytes) : Prop := ∀ n ordb ordt, ∃ e, load_bytes ordb ordt (take n raw) = Err e.
(** The bytes load as tree [a], whatever the iteration orders; a first part of them does not load. *)
Definition loads_as (raw : bytes) (a : atree) : Prop :=
  (∀ ordb ordt, (∀ l, ordb l ≡ₚ l) → (∀ l, ordt l ≡ₚ l) → ∃ t, load_bytes ordb ordt raw = Ok t ∧ repr t a) ∧
  ∀ n, take n raw = raw ∨ torn (take n raw).
(** The saved tree of a space is [a] *)
Definition holds (fs : files) (sp : space) (a : atree) : Prop :=
  ∃ raw, fget fs (tree_file sp) = Some (FFile raw) ∧ loads_as raw a.
Definition holds_torn (fs : files) (sp : space) : Prop :=
  ∃ raw, fget fs (tree_file sp) = Some (FFile raw) ∧ torn raw.
(** Only the paths [ps] may differ *)
Definition same_but (ps : list path) (fs fs' : files) : Prop := ∀ p, p ∉ ps → fget fs' p = fget fs p.
(** The process is as before, apart from its tree *)
Definition same_proc (w w' : world) : Prop := w_cwd w' = w_cwd w ∧ w_pwd w' = w_pwd w ∧ w_out w' = w_out w.
(** The process has loaded tree [a]; the working layer of workspace [x] is [hid]. *)
Definition opened (w : world) (x : ws) (a : atree) (hid : uid) : Prop :=
  repr (w_tree w) a ∧ get (w_tree w) hid = Some (ws_head x).
