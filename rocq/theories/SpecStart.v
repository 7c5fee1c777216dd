(** * SpecStart: where a new workspace may be put. *)
From Verif Require Import Base Uid Tree Dump Save Branch Date Ws Fs Overlay Os Layers Mounts Space Manager Commands SpecCmds Deep SpecDeep.
From stdpp Require Import prelude.

(** [p] is a place in a directory of the machine, in no mount. Nothing is there, or a file, a directory, or a link to a directory. *)
Definition plain_place (w : world) (p : path) : Prop :=
  good_path p ∧ p ≠ [] ∧ clear_of (w_mounts w) p ∧ is_dir_at (w_fs w) (parent_dir p) = true ∧
  ∀ s, fget (w_fs w) p = Some (FLink s) → ∃ t, s = path_str t ∧ usual_dir w t.
(** The path [p] leads to the place [q]: it is [q] itself, or it goes through a link [l] on the way. *)
Definition through (w : world) (p q : path) : Prop :=
  p = q ∨ ∃ l t k c, p = l ++ k ++ [c] ∧ q = t ++ k ++ [c] ∧ usual w l ∧ real_path (w_fs w) l = Some t ∧ usual_dir w (t ++ k) ∧ l ≠ q.
(** The workspace [x], as if its path were [q] *)
Definition at_path (q : path) (x : ws) : ws := WS (ws_id x) q (ws_space x) (ws_mount x) (ws_head x) (ws_branch x).
(** init and clone that put the link at [q], but record the path they were given *)
Definition init_at (dr : path) (args : list bytes) (branch : bytes) (q : path) : M unit :=
  p <- fp_abs (default (B ".") (head args)) ;;
  e <- fs_is_exists q ;;
  bad <- (if e : bool then d <- fs_is_empty_dir q ;; ret (negb d) else ret false) ;;
  if bad : bool then fail ENotEmptyDir else x <- create_workspace dr p branch ;; expand (at_path q x).
Definition clone_at (dr : path) (source : bytes) (target : option bytes) (q : path) : M unit :=
  p <- fp_abs (default (B ".") target) ;;
  x <- get_workspace dr source ;;
  y <- clone_ws dr x p ;;
  expand (at_path q y).
(** The link of a workspace is at [q] and leads to its mount, and its record names the path [p], which leads there too. *)
Definition put_at (dr : path) (p q : path) (w : world) : Prop := ∃ mid info,
  fget (w_fs w) q = Some (FLink (path_str (merged_dir dr mid))) ∧ (∃ m, m ∈ w_mounts w ∧ mn_at m = merged_dir dr mid) ∧ leads w p = Some (merged_dir dr mid) ∧
  fget (w_fs w) (ws_file dr mid) = Some (FFile (marshal_wsinfo info)) ∧ wi_path info = path_str p.
(** Something else is mounted at the directory [p]. *)
Definition busy (w : world) (p : path) : Prop := usual_dir w p ∧ p ≠ [] ∧ ∃ m, m ∈ w_mounts w ∧ mn_at m = p.
(** What is at [p] is as it was, and all is still mounted. *)
Definition left_alone (p : path) (w w' : world) : Prop := fget (w_fs w') p = fget (w_fs w) p ∧ ∀ m, m ∈ w_mounts w → m ∈ w_mounts w'.
