(** * Os: the operating system calls the program makes (packages os and syscall, pkg/utils/fs), with
    every way they may fail, and filepath.Abs. *)
From Verif Require Import Base Uid Tree Dump Branch Date Fs Overlay.

(** Where a path leads when its last component may be a symbolic link (at most 40 links) *)
Fixpoint real (fuel : nat) (fs : files) (p : path) : option path :=
  match fget fs p with
  | None => None
  | Some (FLink s) => match fuel with O => None | S f => real f fs (abs_from (parent_dir p) s) end
  | Some _ => Some p
  end.
Definition real_path (fs : files) (p : path) : option path := real 40 fs p.
Definition is_dir_at (fs : files) (p : path) : bool :=
  match fget fs p with Some (FDir _) => true | _ => false end.
Definition mounted_at (ms : list mount) (p : path) : bool := existsb (λ m, bool_decide (mn_at m = p)) ms.

(** os.Stat, os.Lstat *)
Definition os_stat (p : path) : M fobj := look (λ w,
  match real_path (w_fs w) p with
  | Some q => match fget (w_fs w) q with Some x => Ok x | None => Err ENOENT end
  | None => Err ENOENT
  end).
Definition os_lstat (p : path) : M fobj := look (λ w, opt_to_res ENOENT (fget (w_fs w) p)).
(** utils/fs/stat.go:6-9, 12-19, 36-43: any error counts as "no" *)
Definition fs_is_exists (p : path) : M bool :=
  r <- attempt (os_stat p) ;; ret (match r with inl _ => true | inr _ => false end).
Definition fs_is_dir (p : path) : M bool :=
  r <- attempt (os_stat p) ;; ret (match r with inl (FDir _) => true | _ => false end).
Definition fs_is_symlink (p : path) : M bool :=
  r <- attempt (os_lstat p) ;; ret (match r with inl (FLink _) => true | _ => false end).
(** The newest mount at a path *)
Definition mount_at (ms : list mount) (p : path) : option mount :=
  head (filter (λ m, mn_at m = p) ms).
(** os.ReadDir: the sorted names in a directory; the root of a mounted overlay lists what is visible there. *)
Definition os_readdir (p : path) : M (list bytes) := look (λ w,
  match real_path (w_fs w) p with
  | Some q => match fget (w_fs w) q with
              | Some (FDir _) =>
                  Ok (match mount_at (w_mounts w) q with
                      | Some m => top_names (w_fs w) (option_list (mn_upper m) ++ mn_lowers m)
                      | None => children (w_fs w) q
                      end)
              | Some _ => Err ENOTDIR
              | None => Err ENOENT
              end
  | None => Err ENOENT
  end).
(** utils/fs/stat.go:22-33 *)
Definition fs_is_empty_dir (p : path) : M bool :=
  d <- fs_is_dir p ;;
  if d : bool then
    r <- attempt (os_readdir p) ;; ret (match r with inl [] => true | _ => false end)
  else ret false.

(** os.Readlink *)
Definition os_readlink (p : path) : M bytes := look (λ w,
  match fget (w_fs w) p with Some (FLink s) => Ok s | Some _ => Err EINVAL | None => Err ENOENT end).
(** os.Mkdir *)
Definition mkdir_in (fs : files) (p : path) : res files :=
  match fget fs p with
  | Some _ => Err EEXIST
  | None => match fget fs (parent_dir p) with
            | Some (FDir _) => Ok (fset fs p (FDir false))
            | Some _ => Err ENOTDIR
            | None => Err ENOENT
            end
  end.
Definition os_mkdir (p : path) : M unit := sys_atomic (λ _ w,
  match mkdir_in (w_fs w) p with
  | Ok f => (Ok tt, set_fs w f)
  | Err e => (Err e, w) | Panic => (Panic, w) | Hang => (Hang, w) | Crash => (Crash, w)
  end).
(** os.MkdirAll: the missing directories from the top; a partial effect makes some of them. *)
Fixpoint mkdir_all_in (fs : files) (done todo : path) : res files :=
  match todo with
  | [] => Ok fs
  | n :: todo' =>
      let p := done ++ [n] in
      match fget fs p with
      | Some (FDir _) => mkdir_all_in fs p todo'
      | Some _ => Err ENOTDIR
      | None => mkdir_all_in (fset fs p (FDir false)) p todo'
      end
  end.
Definition os_mkdir_all (p : path) : M unit := sys
  (λ _ w, match mkdir_all_in (w_fs w) [] p with
          | Ok f => (Ok tt, set_fs w f)
          | Err e => (Err e, w) | Panic => (Panic, w) | Hang => (Hang, w) | Crash => (Crash, w)
          end)
  (λ _ n w, match mkdir_all_in (w_fs w) [] (take n p) with Ok f => set_fs w f | _ => w end).
(** os.ReadFile. On an error the bytes read so far are returned with it. *)
Definition os_read_file (p : path) : M (bytes * option err) := λ o w,
  let c := o (w_tick w) in
  let w1 := tick w in
  let data := match real_path (w_fs w) p with
              | Some q => match fget (w_fs w) q with
                          | Some (FFile d) => inl d
                          | Some (FDir _) => inr EINVAL
                          | _ => inr ENOENT
                          end
              | None => inr ENOENT
              end in
  match ch_fault c with
  | FNone => match data with inl d => (Ok (d, None), w1) | inr e => (Ok ([], Some e), w1) end
  | FFail e n => match data with inl d => (Ok (take n d, Some e), w1) | inr _ => (Ok ([], Some e), w1) end
  | FKill _ => (Crash, w1)
  end.
(** os.WriteFile: open with O_TRUNC, then write. Partial effect [S n]: the file holds the first [n] bytes. *)
Definition write_in (fs : files) (p : path) (d : bytes) : res files :=
  match fget fs p with
  | Some (FFile _) => Ok (fset fs p (FFile d))
  | Some _ => Err EINVAL
  | None => if is_dir_at fs (parent_dir p) then Ok (fset fs p (FFile d)) else Err ENOENT
  end.
Definition os_write_file (p : path) (d : bytes) : M unit := sys
  (λ _ w, match write_in (w_fs w) p d with
          | Ok f => (Ok tt, set_fs w f)
          | Err e => (Err e, w) | Panic => (Panic, w) | Hang => (Hang, w) | Crash => (Crash, w)
          end)
  (λ _ n w, match write_in (w_fs w) p (take (pred n) d) with Ok f => set_fs w f | _ => w end).
(** os.Remove: a file, a link, or an empty directory that is not a mount point *)
Definition remove_in (w : world) (p : path) : res files :=
  match fget (w_fs w) p with
  | None => Err ENOENT
  | Some (FDir _) =>
      if mounted_at (w_mounts w) p then Err EBUSY
      else match children (w_fs w) p with
           | [] => Ok (fdel (w_fs w) p)
           | _ => Err ENOTEMPTY
           end
  | Some _ => Ok (fdel (w_fs w) p)
  end.
Definition os_remove (p : path) : M unit := sys_atomic (λ _ w,
  match remove_in w p with
  | Ok f => (Ok tt, set_fs w f)
  | Err e => (Err e, w) | Panic => (Panic, w) | Hang => (Hang, w) | Crash => (Crash, w)
  end).
(** os.RemoveAll(p). Everything below [p] goes except what [keep] retains. Where an overlay is mounted
    at or below [p] the entries visible in it are removed through it: its upper directory loses its
    entries and gets a whiteout for every name that shows in the lower directories; the mount point and
    the directories above it stay, and the call fails with EBUSY. *)
Definition mounts_below (ms : list mount) (p : path) : list mount := filter (λ m, is_prefix p (mn_at m) = true) ms.
Definition removed_by (ms : list mount) (p q : path) : bool :=
  (is_prefix p q && negb (existsb (λ m, is_prefix q (mn_at m)) ms))
  || existsb (λ m, match mn_upper m with Some u => under u q | None => false end) (mounts_below ms p).
Definition whiteouts (fs : files) (ms : list mount) (p : path) : list path :=
  concat ((λ m, match mn_upper m with
                | Some u => (λ n, u ++ [n]) <$> top_names fs (mn_lowers m)
                | None => []
                end) <$> mounts_below ms p).
(** A directory goes only after everything in it. *)
Definition stays (fs : files) (keep : path → bool) (q : path) : bool :=
  existsb (λ kv, is_prefix q kv.1 && keep kv.1) fs.
Definition remove_all_in (w : world) (p : path) (keep : path → bool) : files :=
  foldr (λ q fs, if keep q || stays (w_fs w) keep q then fs else fset fs q FWhite)
    (filter (λ kv, removed_by (w_mounts w) p kv.1 = false ∨ stays (w_fs w) keep kv.1 = true) (w_fs w))
    (whiteouts (w_fs w) (w_mounts w) p).
Definition os_remove_all (p : path) : M unit := sys
  (λ _ w, (match mounts_below (w_mounts w) p with [] => Ok tt | _ => Err EBUSY end,
           set_fs w (remove_all_in w p (λ _, false))))
  (λ c _ w, set_fs w (remove_all_in w p (ch_keep c))).
(** os.Symlink *)
Definition os_symlink (target : bytes) (p : path) : M unit := sys_atomic (λ _ w,
  match fget (w_fs w) p with
  | Some _ => (Err EEXIST, w)
  | None => if is_dir_at (w_fs w) (parent_dir p)
            then (Ok tt, set_fs w (fset (w_fs w) p (FLink target))) else (Err ENOENT, w)
  end).
(** os.Chown (follows links), os.Lchown, with the user and group of the process' options. -1 leaves the owner as it is. *)
Definition give (w : world) (q : path) : world :=
  add_owned w (Owned q (fget (w_fs w) q) (mount_at (w_mounts w) q) (w_ids w)).
Definition os_chown (p : path) : M unit := sys_atomic (λ _ w,
  match real_path (w_fs w) p with Some q => (Ok tt, give w q) | None => (Err ENOENT, w) end).
Definition os_lchown (p : path) : M unit := sys_atomic (λ _ w,
  match fget (w_fs w) p with Some _ => (Ok tt, give w p) | None => (Err ENOENT, w) end).
(** os.Chdir *)
Definition os_chdir (p : path) : M unit := sys_atomic (λ _ w,
  match real_path (w_fs w) p with
  | Some q => if is_dir_at (w_fs w) q then (Ok tt, set_cwd w q) else (Err ENOTDIR, w)
  | None => (Err ENOENT, w)
  end).
(** os.Getwd: PWD if it leads to the working directory, else the physical path *)
Definition getwd_of (w : world) : path :=
  match w_pwd w with
  | Some p => if decide (real_path (w_fs w) p = Some (w_cwd w)) then p else w_cwd w
  | None => w_cwd w
  end.
Definition os_getwd : M path := look (λ w,
  if is_dir_at (w_fs w) (getwd_of w) || bool_decide (getwd_of w ≠ w_cwd w) then Ok (getwd_of w) else Err ENOENT).
(** filepath.Abs *)
Definition fp_abs (s : bytes) : M path :=
  if is_abs s then ret (pjoin [] s) else d <- os_getwd ;; ret (pjoin d s).
(** uid.NewUID128; time.Now; the map orders. None of them fails. *)
Definition next_choice {A} (f : choice → A) : M A := λ o w, (Ok (f (o (w_tick w))), tick w).
Definition new_random_uid : M uid := next_choice ch_uid.
Definition println (s : bytes) : M unit := modify (λ w, add_out w s).
