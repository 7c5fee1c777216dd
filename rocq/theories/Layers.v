(** * Layers: model of pkg/layers/layer.go and manager.go. [root] is the manager's layersDataRoot. *)
From Verif Require Import Base Uid Tree Fs Overlay Os.

(** manager.go:118-120, layer.go:46-48. The base32 text of an ID is a plain file name, so
    filepath.Join appends it. *)
Definition layer_dir (root : path) (id : uid) : path := root ++ [uid_b32 id].
Definition diff_dir (root : path) (id : uid) : path := layer_dir root id ++ [B "diff"].

(** layer.go:51-59 [Save] *)
Definition layer_save (root : path) (id : uid) : M unit :=
  d <- fs_is_dir (diff_dir root id) ;;
  if d : bool then ret tt else os_mkdir (diff_dir root id).
(** manager.go:44-57 [Create] *)
Definition layer_create (root : path) : M uid :=
  id <- new_random_uid ;;
  os_mkdir (layer_dir root id) ;;;
  layer_save root id ;;;
  ret id.
(** manager.go:60-69 [Get] *)
Definition layer_get (root : path) (id : uid) : M uid :=
  d <- fs_is_dir (layer_dir root id) ;;
  if d : bool then ret id else fail ELayerNotFound.
(** manager.go:82-97: an entry that is not a directory or whose name is no ID is skipped. The decoder may
    panic (see [decode_b32]). *)
Fixpoint layer_ids (fs : files) (root : path) (names : list bytes) : res (list uid) :=
  match names with
  | [] => Ok []
  | n :: names' =>
      match fget fs (root ++ [n]) with
      | Some (FDir _) =>
          match decode_b32 n with
          | Ok id => match layer_ids fs root names' with
                     | Ok ids => Ok (id :: ids)
                     | Err e => Err e | Panic => Panic | Hang => Hang | Crash => Crash
                     end
          | Err _ => layer_ids fs root names'
          | Panic => Panic | Hang => Hang | Crash => Crash
          end
      | _ => layer_ids fs root names'
      end
  end.
(** manager.go:72-100 [List]. The entry types come from the directory listing, not from further calls. *)
Definition layer_list (root : path) : M (list uid) :=
  names <- os_readdir root ;;
  fs <- gets w_fs ;;
  lift (layer_ids fs root names).
(** manager.go:103-115 [Delete] (no caller in the repository) *)
Definition layer_delete (root : path) (id : uid) : M uid :=
  d <- fs_is_dir (layer_dir root id) ;;
  if d : bool then os_remove_all (layer_dir root id) ;;; ret id else fail ELayerNotFound.
