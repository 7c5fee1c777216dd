(** * Deep: paths that lead through links and into mounts.

    Os.v follows a link only as the last component of a path, and has no paths inside mounts. Here the calls that
    a command makes with the paths of its user resolve them as the kernel does (path_resolution(7)): each component may be a link, and
    below a mount point is what the mount shows. Paths inside the data root, which the program makes itself, stay as in Os.v.

    Simplifications: links of the kinds of /proc are left out; permission to search directories is taken as given. *)
From Verif Require Import Base Uid Tree Dump Save Branch Date Ws Fs Overlay Edits Os Layers Mounts Space Manager Commands SpecCmds SpecSerial.

(** The mount that the path [q], without links, is in: the longest mount point, and there the newest *)
Fixpoint mount_over (ms : list mount) (q : path) : option mount :=
  match ms with
  | [] => None
  | m :: ms' =>
      match mount_over ms' q with
      | Some m' => if is_prefix (mn_at m) q && (length (mn_at m') <=? length (mn_at m)) then Some m else Some m'
      | None => if is_prefix (mn_at m) q then Some m else None
      end
  end.
Definition obj_at (w : world) (q : path) : option fobj :=
  match mount_over (w_mounts w) q with
  | Some m => if decide (mn_at m = q) then Some (FDir false) else mount_view (w_fs w) m (drop (length (mn_at m)) q)
  | None => fget (w_fs w) q
  end.
Definition dir_here (w : world) (q : path) : bool := match obj_at w q with Some (FDir _) => true | _ => false end.
(** Where the names [todo] lead from the directory [p], with at most [links] links on the way *)
Fixpoint lead (links : nat) (w : world) : path → list bytes → option path :=
  fix go (p : path) (todo : list bytes) {struct todo} : option path :=
    match todo with
    | [] => Some p
    | c :: todo' =>
        if decide (c = [] ∨ c = B ".") then go p todo'
        else if decide (c = B "..") then go (parent_dir p) todo'
        else match obj_at w (p ++ [c]) with
             | Some (FDir _) => go (p ++ [c]) todo'
             | Some (FLink s) =>
                 match links with
                 | O => None
                 | S n => lead n w (if is_abs s then [] else p) (split_slash s ++ todo')
                 end
             | Some _ => match todo' with [] => Some (p ++ [c]) | _ => None end
             | None => None
             end
    end.
Definition leads (w : world) (p : path) : option path := lead 40 w [] p.
(** The place of the last component itself, as lstat, readlink, unlink and symlink take it *)
Definition spot (w : world) (p : path) : option path :=
  match list.last p with
  | None => Some []
  | Some c => match leads w (parent_dir p) with
              | Some d => if dir_here w d then Some (d ++ [c]) else None
              | None => None
              end
  end.

(** ** Calls *)
Definition deep_is_symlink (p : path) : M bool :=
  r <- attempt (look (λ w, opt_to_res ENOENT (match spot w p with Some q => obj_at w q | None => None end))) ;;
  ret (match r with inl (FLink _) => true | _ => false end).
Definition deep_readlink (p : path) : M bytes := look (λ w,
  match match spot w p with Some q => obj_at w q | None => None end with
  | Some (FLink s) => Ok s | Some _ => Err EINVAL | None => Err ENOENT end).
Definition deep_exists (p : path) : M bool :=
  r <- attempt (look (λ w, opt_to_res ENOENT (leads w p))) ;; ret (match r with inl _ => true | inr _ => false end).
Definition deep_getwd_of (w : world) : path :=
  match w_pwd w with
  | Some p => if decide (leads w p = Some (w_cwd w)) then p else w_cwd w
  | None => w_cwd w
  end.
Definition deep_getwd : M path := look (λ w,
  if dir_here w (deep_getwd_of w) || bool_decide (deep_getwd_of w ≠ w_cwd w) then Ok (deep_getwd_of w) else Err ENOENT).
Definition deep_abs (s : bytes) : M path :=
  if is_abs s then ret (pjoin [] s) else d <- deep_getwd ;; ret (pjoin d s).
Definition deep_chdir (p : path) : M unit := sys_atomic (λ _ w,
  match leads w p with
  | Some q => if dir_here w q then (Ok tt, set_cwd w q) else (Err ENOTDIR, w)
  | None => (Err ENOENT, w)
  end).
(** Inside a mount, removing and creating are the edits of Edits.v. *)
Definition deep_remove (p : path) : M unit := sys_atomic (λ _ w,
  match spot w p with
  | None => (Err ENOENT, w)
  | Some q =>
      match mount_over (w_mounts w) q with
      | None => match remove_in w q with
                | Ok f => (Ok tt, set_fs w f)
                | Err e => (Err e, w) | Panic => (Panic, w) | Hang => (Hang, w) | Crash => (Crash, w)
                end
      | Some m =>
          if decide (mn_at m = q) then (Err EBUSY, w)
          else match edit_mount (w_fs w) m (ERemove (drop (length (mn_at m)) q)) with
               | Some f => (Ok tt, set_fs w f)
               | None => (Err (match obj_at w q with None => ENOENT | Some _ => ENOTEMPTY end), w)
               end
      end
  end).
Definition deep_symlink (target : bytes) (p : path) : M unit := sys_atomic (λ _ w,
  match spot w p with
  | None => (Err ENOENT, w)
  | Some q =>
      match obj_at w q with
      | Some _ => (Err EEXIST, w)
      | None =>
          match mount_over (w_mounts w) q with
          | None => (Ok tt, set_fs w (fset (w_fs w) q (FLink target)))
          | Some m => match edit_mount (w_fs w) m (ELink (drop (length (mn_at m)) q) target) with
                      | Some f => (Ok tt, set_fs w f)
                      | None => (Err EINVAL, w)
                      end
          end
      end
  end).
Definition deep_lchown (p : path) : M unit := sys_atomic (λ _ w,
  match spot w p with
  | None => (Err ENOENT, w)
  | Some q => match obj_at w q with
              | Some x => (Ok tt, add_owned w (Owned q (Some x) (mount_at (w_mounts w) q) (w_ids w)))
              | None => (Err ENOENT, w)
              end
  end).

(** ** The program *)
(** manager_default.go:181-245, the part of [GetWorkspaceFromPath] after the paths are known *)
Definition load_from (dr p mp : path) : M ws :=
  mid <- lift (decode_b32 (rel_first (mounts_root dr) mp)) ;;
  wi <- load_ws_info dr mid ;;
  wid <- lift (decode_b32 (wi_id wi)) ;;
  sid <- lift (decode_b32 (wi_space wi)) ;;
  let sp := Space sid (pjoin (spaces_root dr) (wi_space wi)) in
  space_load sp ;;;
  let m := mounted_mount mid (pjoin (mounts_root dr) (wi_mount wi)) in
  hid <- lift (decode_hex (wi_head wi)) ;;
  t <- gets w_tree ;;
  match get t hid with
  | None => fail EHeadNotFound
  | Some h => ret (WS wid p sp m h (wi_branch wi))
  end.
(** manager_default.go:166-245 [GetWorkspaceFromPath] *)
Definition deep_get_workspace (dr : path) (arg : bytes) : M ws :=
  p <- deep_abs arg ;;
  link <- deep_is_symlink p ;;
  mp <- (if link : bool then s <- deep_readlink p ;; deep_abs s else ret p) ;;
  load_from dr p mp.
(** workspace.go:80-118 [Expand] *)
Definition deep_expand (x : ws) : M unit :=
  mount_mount (ws_mount x) ;;;
  pwd <- deep_getwd ;;
  os_chdir [] ;;;
  e <- deep_exists (ws_path x) ;;
  (if e : bool then deep_remove (ws_path x) else ret tt) ;;;
  deep_symlink (path_str (mv_path (ws_mount x))) (ws_path x) ;;;
  deep_lchown (ws_path x) ;;;
  deep_chdir pwd.
(** manager_default.go:248-285 [RemoveWorkspaceMount] *)
Definition deep_remove_mount (dr : path) (x : ws) : M unit :=
  pwd <- deep_getwd ;;
  os_chdir [] ;;;
  attempt (mount_umount (ws_mount x)) ;;;
  os_remove_all (mount_dir dr (mv_id (ws_mount x))) ;;;
  r <- attempt (os_remove (ws_file dr (mv_id (ws_mount x)))) ;;
  match r with
  | inr e => if decide (e = ENOENT) then deep_chdir pwd else fail e
  | inl _ => deep_chdir pwd
  end.
(** commit.go:25-57, checkout.go:24-58, branch.go:25-111, tag.go:25-94, log.go:24-89: the commands that work in the workspace of the working
    directory. *)
Definition deep_rest (dr : path) (c : command) (x : ws) : option (M unit) :=
  match c with
  | CCommit msg => Some (now <- next_choice ch_time ;; y <- commit_ws dr x (Some (fmt_rfc3339 now)) msg ;; deep_expand y ;;; deep_remove_mount dr x)
  | CCheckout key => Some (y <- checkout_ws dr x key ;; deep_expand y ;;; deep_remove_mount dr x)
  | c => after_load dr c x
  end.
Definition deep_cmd (dr : path) (c : command) : M unit :=
  x <- deep_get_workspace dr (B ".") ;; match deep_rest dr c x with Some m => m | None => fail EOptions end.
(** cmd_util.go:78-102 [ChangeWorkingDirectory], the option -C *)
Definition deep_change_dir (arg : bytes) : M unit :=
  match arg with
  | [] => ret tt
  | _ => p <- deep_abs arg ;; deep_chdir p ;;; modify (λ w, set_pwd w (Some p))
  end.
(** A process that a shell starts which has changed its directory to [d] *)
Definition deep_enter (d : path) (w : world) : world := set_pwd (set_cwd (set_tree w new_tree) (default d (leads w d))) (Some d).
