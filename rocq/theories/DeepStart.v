(** * DeepStart: init and clone, with paths that lead through links and into mounts.

    The rules for paths are those of Deep.v. *)
From Verif Require Import Base Uid Tree Dump Save Branch Date Ws Fs Overlay Edits Os Layers Mounts Space Manager Commands SpecCmds SpecSerial Deep.

(** utils/fs/stat.go:12-19: any error counts as "no" *)
Definition deep_is_dir (p : path) : M bool :=
  r <- attempt (look (λ w, opt_to_res ENOENT (dir_here w <$> leads w p))) ;; ret (match r with inl b => b | inr _ => false end).
(** The names in the directory [q], a path without links: in a mount, those that the mount shows *)
Definition names_in (w : world) (q : path) : list bytes :=
  match mount_over (w_mounts w) q with
  | None => children (w_fs w) q
  | Some m =>
      let ds := option_list (mn_upper m) ++ mn_lowers m in
      if decide (mn_at m = q) then top_names (w_fs w) ds
      else let k := drop (length (mn_at m)) q in
           filter (λ n, is_Some (mount_view (w_fs w) m (k ++ [n]))) (merge_sort name_leq (remove_dups (concat ((λ d, children (w_fs w) (d ++ k)) <$> ds))))
  end.
Definition deep_readdir (p : path) : M (list bytes) := look (λ w,
  match leads w p with
  | Some q => if dir_here w q then Ok (names_in w q) else Err ENOTDIR
  | None => Err ENOENT
  end).
(** utils/fs/stat.go:22-33 *)
Definition deep_is_empty_dir (p : path) : M bool :=
  d <- deep_is_dir p ;;
  if d : bool then r <- attempt (deep_readdir p) ;; ret (match r with inl [] => true | _ => false end)
  else ret false.
(** init.go:26-61 *)
Definition deep_init (dr : path) (args : list bytes) (branch : bytes) : M unit :=
  p <- deep_abs (default (B ".") (head args)) ;;
  e <- deep_exists p ;;
  bad <- (if e : bool then d <- deep_is_empty_dir p ;; ret (negb d) else ret false) ;;
  if bad : bool then fail ENotEmptyDir else x <- create_workspace dr p branch ;; deep_expand x.
(** clone.go:25-64 *)
Definition deep_clone (dr : path) (source : bytes) (target : option bytes) : M unit :=
  p <- deep_abs (default (B ".") target) ;;
  x <- deep_get_workspace dr source ;;
  y <- clone_ws dr x p ;;
  deep_expand y.
Definition deep_run (dr : path) (c : command) : M unit :=
  match c with
  | CInit args branch => deep_init dr args branch
  | CClone source target => deep_clone dr source target
  | c => deep_cmd dr c
  end.
