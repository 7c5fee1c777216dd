(** * Edits: what happens when a user changes files in an overlay mount.

    No code of the program: the kernel's side of the mounts that mounts/overlay_linux.go:15-41 makes (Linux, fs/overlayfs/copy_up.c
    and dir.c), with the same limits as Overlay.v. Renaming a directory is refused: overlayfs does so (EXDEV) if a lower layer has it too,
    and mv copies it then. That a directory that only the upper layer has could be renamed is left out. *)
From Verif Require Import Base Fs Overlay Os.

Inductive edit :=
  | EWrite (k : path) (data : bytes)   (* create a file or replace its content *)
  | EMkdir (k : path)
  | ELink (k : path) (target : bytes)  (* create a symbolic link *)
  | ERemove (k : path)                 (* unlink or rmdir *)
  | ERename (k l : path).              (* rename a file or a link, over another one or not *)
(** ovl_copy_up: the directories above [k] are created in the upper layer. *)
Definition ancestors (k : path) : list path := (λ n, take n k) <$> seq 1 (pred (length k)).
Definition copy_up (fs : files) (u k : path) : files :=
  foldl (λ fs q, match fget fs (u ++ q) with None => fset fs (u ++ q) (FDir false) | Some _ => fs end) fs (ancestors k).
(** ovl_create_upper and ovl_create_over_whiteout: [x] is created in the upper layer. *)
Definition make (fs : files) (u k : path) (x : fobj) : files := fset (copy_up fs u k) (u ++ k) x.
Definition drop_tree (fs : files) (p : path) : files := filter (λ kv, is_prefix p kv.1 = false) fs.
(** ovl_lower_positive: the lower layers would show something at [k] if the upper layer had nothing there. *)
Definition lower_shows (fs : files) (u : path) (lows : list path) (k : path) : bool :=
  negb (covered (layer_at fs u) k) && bool_decide (view (layer_at fs <$> lows) k ≠ None).
(** ovl_remove_upper and ovl_remove_and_whiteout *)
Definition remove_at (fs : files) (u : path) (lows : list path) (k : path) : files :=
  if lower_shows fs u lows k then make (drop_tree fs (u ++ k)) u k FWhite else drop_tree fs (u ++ k).
(** The directory of [k] is shown. *)
Definition in_shown_dir (F : path → option fobj) (k : path) : bool :=
  match k with
  | [] => false
  | _ => match parent_dir k with [] => true | d => bool_decide (F d = Some (FDir false)) end
  end.
(** Nothing is shown in [k]. *)
Definition shows_none (fs : files) (ds : list path) (k : path) : bool :=
  forallb (λ d, forallb (λ n, bool_decide (view (layer_at fs <$> ds) (k ++ [n]) = None)) (children fs (d ++ k))) ds.
(** The files after an edit in mount [m]. ovl_rename copies up what is renamed, and leaves a whiteout if a lower layer has it; [None] if it is refused (no such directory, wrong kind, not empty, read-only). *)
Definition edit_mount (fs : files) (m : mount) (e : edit) : option files :=
  u ← mn_upper m;
  let F := mount_view fs m in
  match e with
  | EWrite k data =>
      if in_shown_dir F k then match F k with None | Some (FFile _) => Some (make fs u k (FFile data)) | _ => None end else None
  | EMkdir k => if in_shown_dir F k then match F k with None => Some (make fs u k (FDir true)) | _ => None end else None
  | ELink k s => if in_shown_dir F k then match F k with None => Some (make fs u k (FLink s)) | _ => None end else None
  | ERemove k =>
      if in_shown_dir F k && shows_none fs (u :: mn_lowers m) k
      then match F k with None => None | Some _ => Some (remove_at fs u (mn_lowers m) k) end else None
  | ERename k l =>
      if in_shown_dir F k && in_shown_dir F l && negb (bool_decide (F l = Some (FDir false)))
      then match F k with
           | Some (FFile _ as x) | Some (FLink _ as x) => Some (if decide (k = l) then fs else remove_at (make fs u l x) u (mn_lowers m) k)
           | _ => None
           end else None
  end.
