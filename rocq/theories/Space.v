(** * Space: model of pkg/spaces/default.go. The tree of the space is the process's [w_tree]. *)
From Verif Require Import Base Uid Tree Dump Save Branch Date Fs Overlay Os Layers Mounts.

(** default.go:38-44 [defaultSpace] without the tree *)
Record space := Space { sp_id : uid; sp_dir : path }.
(** default.go:187-189 *)
Definition tree_file (sp : space) : path := sp_dir sp ++ [B "tree.json"].

(** A call of a tree method *)
Definition tree_do (f : tstate → res tstate) : M unit := λ _ w,
  match f (w_tree w) with
  | Ok t => (Ok tt, set_tree w t)
  | Err e => (Err e, w) | Panic => (Panic, w) | Hang => (Hang, w) | Crash => (Crash, w)
  end.
(** trees.NewNode(id) *)
Definition make_node (id : uid) : M loc := λ _ w,
  let '(t, l) := alloc_node (w_tree w) (new_node id) in (Ok l, set_tree w t).

Definition root_tag : bytes := B "ROOT".
(** default.go:59-79 [Init] *)
Definition space_init (lroot : path) : M unit :=
  modify (λ w, set_tree w new_tree) ;;;
  id <- layer_create lroot ;;
  l <- make_node id ;;
  tree_do (λ t, add_node t None l) ;;;
  tree_do (λ t, add_tag t root_tag id).
(** default.go:81-103 [Load]: of the read errors only "does not exist" is returned; after any other one
    the bytes read so far are decoded. *)
Definition space_load (sp : space) : M unit :=
  re <- os_read_file (tree_file sp) ;;
  if decide (re.2 = Some ENOENT) then fail ENOENT
  else
    ordb <- next_choice ch_names ;;
    ordt <- next_choice ch_names ;;
    t <- lift (load_bytes ordb ordt re.1) ;;
    modify (λ w, set_tree w t).
(** default.go:106-124 [Save] *)
Definition space_save (sp : space) : M unit :=
  e <- next_choice ch_dump ;;
  t <- gets w_tree ;;
  raw <- lift (tree_bytes t e) ;;
  os_write_file (tree_file sp) raw.
(** default.go:127-150 [CreateLayer] *)
Definition create_layer (lroot : path) (base : uid) : M loc :=
  t <- gets w_tree ;;
  match get t base with
  | None => fail ELayerNotFound
  | Some b =>
      id <- layer_create lroot ;;
      l <- make_node id ;;
      match node_id t b with
      | None => panic
      | Some bid => tree_do (λ t, add_node t (Some bid) l) ;;; ret l
      end
  end.
(** The loop of default.go:168-177: the layers of [cur] and its ancestors, in that order. The fuel is the
    number of heap nodes plus one. *)
Fixpoint collect_layers (fuel : nat) (lroot : path) (cur : option loc) : M (list path) :=
  match cur with
  | None => ret []
  | Some c =>
      match fuel with
      | O => lift Hang
      | S f =>
          t <- gets w_tree ;;
          match node_at t c with
          | None => panic
          | Some n =>
              id <- layer_get lroot (n_id n) ;;
              ls <- collect_layers f lroot (n_parent n) ;;
              ret (diff_dir lroot id :: ls)
          end
      end
  end.
(** default.go:153-184 [CreateMount] *)
Definition space_create_mount (lroot : path) (commit mid : uid) (mroot : path) : M (mountv * loc) :=
  l <- create_layer lroot commit ;;
  t <- gets w_tree ;;
  ls <- collect_layers (S (size (t_heap t))) lroot (Some l) ;;
  m <- lift (mounts_new mid (reverse ls) mroot) ;;
  ret (m, l).
