(** * Mounts: model of pkg/mounts, and of how the kernel reads the option string of an overlay mount.

    The kernel part follows Linux 5.x-6.4 (fs/namespace.c copy_mount_options and path_mount,
    fs/overlayfs/super.c ovl_next_opt, ovl_parse_opt, ovl_split_lowerdirs, ovl_fill_super) with 4096-byte
    pages. Simplifications: options other than the three directories are rejected (the kernel knows some
    more); all refusals for overlapping directories are EINVAL. *)
From Verif Require Import Base Uid Tree Branch Fs Overlay Os Layers.

(** ** The option string *)
(** strings.Join(l, ":") *)
Fixpoint join_colon (l : list bytes) : bytes :=
  match l with
  | [] => []
  | [s] => s
  | s :: l' => s ++ B ":" ++ join_colon l'
  end.
(** overlay_linux.go:31-36 *)
Definition overlay_data (lowers : list path) (upper work : path) : bytes :=
  B "lowerdir=" ++ join_colon (path_str <$> lowers)
  ++ B ",upperdir=" ++ path_str upper ++ B ",workdir=" ++ path_str work.

(** ** The kernel *)
(** copy_mount_options, path_mount: one page whose last byte is cleared *)
Definition page_cut (data : bytes) : bytes := take 4095 data.
(** ovl_next_opt: options end at a comma; a backslash keeps the next character *)
Fixpoint split_opts (esc : bool) (s : bytes) : list bytes :=
  match s with
  | [] => [[]]
  | c :: s' =>
      if esc then match split_opts false s' with h :: r => (c :: h) :: r | [] => [[]] end
      else if decide (c = ","%char) then [] :: split_opts false s'
      else match split_opts (bool_decide (c = "\"%char)) s' with h :: r => (c :: h) :: r | [] => [[]] end
  end.
(** ovl_split_lowerdirs: directories end at a colon; a backslash is dropped and keeps the next character *)
Fixpoint split_lower (esc : bool) (s : bytes) : list bytes :=
  match s with
  | [] => [[]]
  | c :: s' =>
      if esc then match split_lower false s' with h :: r => (c :: h) :: r | [] => [[]] end
      else if decide (c = "\"%char) then split_lower true s'
      else if decide (c = ":"%char) then [] :: split_lower false s'
      else match split_lower false s' with h :: r => (c :: h) :: r | [] => [[]] end
  end.
(** ovl_unescape *)
Fixpoint unescape (s : bytes) : bytes :=
  match s with
  | [] => []
  | c :: s' => if decide (c = "\"%char)
               then match s' with [] => [] | d :: s'' => d :: unescape s'' end
               else c :: unescape s'
  end.
Record mopts := MOpts { mo_lower : option bytes; mo_upper : option bytes; mo_work : option bytes }.
(** ovl_parse_opt: of several options of one kind the last counts *)
Definition parse_opt (o : res mopts) (s : bytes) : res mopts :=
  match o with
  | Ok m =>
      match s with
      | [] => Ok m
      | _ =>
        match trim_prefix (B "lowerdir=") s with
        | Some v => Ok (MOpts (Some v) (mo_upper m) (mo_work m))
        | None =>
          match trim_prefix (B "upperdir=") s with
          | Some v => Ok (MOpts (mo_lower m) (Some v) (mo_work m))
          | None =>
            match trim_prefix (B "workdir=") s with
            | Some v => Ok (MOpts (mo_lower m) (mo_upper m) (Some v))
            | None => Err EINVAL
            end
          end
        end
      end
  | r => r
  end.
Definition parse_opts (data : bytes) : res mopts :=
  foldl parse_opt (Ok (MOpts None None None)) (split_opts false data).
(** The directories meant by an option string, as path strings *)
Record odirs := ODirs { od_lowers : list bytes; od_upper : option bytes; od_work : option bytes }.
Definition kernel_dirs (data : bytes) : res odirs :=
  match parse_opts (page_cut data) with
  | Ok (MOpts (Some l) u w) => Ok (ODirs (split_lower false l) (unescape <$> u) (unescape <$> w))
  | Ok (MOpts None _ _) => Err EINVAL
  | Err e => Err e | Panic => Panic | Hang => Hang | Crash => Crash
  end.

(** kern_path of a directory name given in an option *)
Definition kern_dir (w : world) (s : bytes) : res path :=
  match s with
  | [] => Err EINVAL
  | _ => match real_path (w_fs w) (abs_from (w_cwd w) s) with
         | Some q => if is_dir_at (w_fs w) q then Ok q else Err ENOTDIR
         | None => Err ENOENT
         end
  end.
Fixpoint kern_dirs (w : world) (l : list bytes) : res (list path) :=
  match l with
  | [] => Ok []
  | s :: l' => match kern_dir w s with
               | Ok p => match kern_dirs w l' with
                         | Ok ps => Ok (p :: ps)
                         | Err e => Err e | Panic => Panic | Hang => Hang | Crash => Crash
                         end
               | Err e => Err e | Panic => Panic | Hang => Hang | Crash => Crash
               end
  end.
(** ovl_check_overlapping_layers: no layer lies strictly inside another one *)
Definition overlapping (ls : list path) : bool := existsb (λ p, existsb (λ q, under p q) ls) ls.
(** ovl_fill_super *)
Definition overlay_of (w : world) (target : path) (d : odirs) : res mount :=
  match od_upper d, od_work d with
  | Some u, Some k =>
      match kern_dir w u with
      | Ok u' =>
          match kern_dir w k with
          | Ok k' =>
              if is_prefix u' k' || is_prefix k' u' then Err EINVAL
              else match kern_dirs w (od_lowers d) with
                   | Ok ls => if (500 <? length ls) || overlapping (u' :: ls) then Err EINVAL
                              else Ok (Mnt target ls (Some u') (Some k'))
                   | Err e => Err e | Panic => Panic | Hang => Hang | Crash => Crash
                   end
          | Err e => Err e | Panic => Panic | Hang => Hang | Crash => Crash
          end
      | Err e => Err e | Panic => Panic | Hang => Hang | Crash => Crash
      end
  | Some _, None => Err EINVAL
  | None, _ =>
      match kern_dirs w (od_lowers d) with
      | Ok ls => if (length ls <? 2) || (500 <? length ls) || overlapping ls then Err EINVAL
                 else Ok (Mnt target ls None None)
      | Err e => Err e | Panic => Panic | Hang => Hang | Crash => Crash
      end
  end.
(** syscall.Mount("overlay", target, "overlay", 0, data) *)
Definition sys_mount (target : path) (data : bytes) : M unit := sys_atomic (λ _ w,
  match real_path (w_fs w) target with
  | Some q =>
      if is_dir_at (w_fs w) q then
        match kernel_dirs data with
        | Ok d => match overlay_of w q d with
                  | Ok m => (Ok tt, set_mounts w (m :: w_mounts w))
                  | Err e => (Err e, w) | Panic => (Panic, w) | Hang => (Hang, w) | Crash => (Crash, w)
                  end
        | Err e => (Err e, w) | Panic => (Panic, w) | Hang => (Hang, w) | Crash => (Crash, w)
        end
      else (Err ENOTDIR, w)
  | None => (Err ENOENT, w)
  end).
(** syscall.Unmount(target, 0): the newest mount there. That a process uses the mount (EBUSY) is a fault
    the oracle may inject. *)
Fixpoint drop_mount (ms : list mount) (p : path) : list mount :=
  match ms with
  | [] => []
  | m :: ms' => if decide (mn_at m = p) then ms' else m :: drop_mount ms' p
  end.
Definition sys_umount (target : path) : M unit := sys_atomic (λ _ w,
  match real_path (w_fs w) target with
  | Some q => if mounted_at (w_mounts w) q then (Ok tt, set_mounts w (drop_mount (w_mounts w) q)) else (Err EINVAL, w)
  | None => (Err ENOENT, w)
  end).

(** ** pkg/mounts *)
(** overlay.go:4-18, the part mounts.New fills in *)
Record ovl_opts := OvlOpts { oo_path : path; oo_lowers : list path; oo_upper : path; oo_work : path }.
(** mount.go:97-110: a mount value; [mv_opts = None] is a mountedMount. *)
Record mountv := MountV { mv_id : uid; mv_path : path; mv_opts : option ovl_opts }.
(** mount.go:32-69 [New]; [layers] are the layers, root first, given by their diff directories. *)
Definition mounts_new (id : uid) (layers : list path) (root : path) : res mountv :=
  if length layers <? 2 then Err ETooFewLayers
  else
    let at_ := root ++ [B "merged"] in
    Ok (MountV id at_ (Some (OvlOpts at_ (reverse (take (pred (length layers)) layers))
                                     (default [] (list.last layers)) (root ++ [B "work"])))).
(** mount.go:72-80 [NewMountedMount] *)
Definition mounted_mount (id : uid) (root : path) : mountv := MountV id (root ++ [B "merged"]) None.

Definition ensure_dir (p : path) : M unit :=
  d <- fs_is_dir p ;;
  if d : bool then ret tt
  else r <- attempt (os_mkdir p) ;;
       match r with
       | inl _ => ret tt
       | inr e => if decide (e = EEXIST) then ret tt else fail e
       end.
(** mount_linux.go:17-44 [Mount], mount.go:120-122 for an already mounted one *)
Definition mount_mount (m : mountv) : M unit :=
  match mv_opts m with
  | None => fail EAlreadyMounted
  | Some oo =>
      ensure_dir (oo_path oo) ;;;
      ensure_dir (oo_work oo) ;;;
      sys_mount (oo_path oo) (overlay_data (oo_lowers oo) (oo_upper oo) (oo_work oo)) ;;;
      os_chown (oo_path oo)
  end.
(** mount_linux.go:47-51 [Umount] *)
Definition mount_umount (m : mountv) : M unit := sys_umount (mv_path m).
(** mount.go:130-140 [CreateSymlink] *)
Definition create_symlink (m : mountv) (p : path) : M unit :=
  os_symlink (path_str (mv_path m)) p ;;;
  os_lchown p.
