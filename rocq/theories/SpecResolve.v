(** * SpecResolve: what path_resolution(7) says *)
From Verif Require Import Base Uid Tree Dump Save Branch Date Ws Fs Overlay Os Layers Mounts Space Manager Commands SpecCmds Deep SpecDeep.

Definition is_name (c : bytes) : Prop := c ≠ [] ∧ c ≠ B "." ∧ c ≠ B "..".
Definition plain_file (x : fobj) : Prop := match x with FFile _ | FWhite => True | FDir _ | FLink _ => False end.
(** From directory [p] the names [l] lead to [q], through [n] links. *)
Inductive resolves (w : world) : nat → path → list bytes → path → Prop :=
  | rs_here p : resolves w 0 p [] p
  | rs_same n p c l q : c = [] ∨ c = B "." → resolves w n p l q → resolves w n p (c :: l) q
  | rs_up n p l q : resolves w n (parent_dir p) l q → resolves w n p (B ".." :: l) q
  | rs_down n p c l q o : is_name c → obj_at w (p ++ [c]) = Some (FDir o) → resolves w n (p ++ [c]) l q → resolves w n p (c :: l) q
  | rs_file p c x : is_name c → obj_at w (p ++ [c]) = Some x → plain_file x → resolves w 0 p [c] (p ++ [c])
  | rs_absolute n p c s l q : is_name c → obj_at w (p ++ [c]) = Some (FLink s) → is_abs s = true → resolves w n [] (split_slash s ++ l) q → resolves w (S n) p (c :: l) q
  | rs_relative n p c s l q : is_name c → obj_at w (p ++ [c]) = Some (FLink s) → is_abs s = false → resolves w n p (split_slash s ++ l) q → resolves w (S n) p (c :: l) q.
(** A path without links: directories all the way, and a directory or a file at the end *)
Definition real_dir (w : world) (q : path) : Prop := Forall is_name q ∧ ∀ i, 0 < i ≤ length q → dir_here w (take i q) = true.
Definition real (w : world) (q : path) : Prop :=
  real_dir w q ∨ ∃ p c x, q = p ++ [c] ∧ real_dir w p ∧ is_name c ∧ obj_at w q = Some x ∧ plain_file x.
(** [m] is the mount that [q] is in: no other mount point above [q] is longer, and it is the newest of those at the same point. Newer mounts come first. *)
Definition topmost (ms : list mount) (q : path) (m : mount) : Prop :=
  is_prefix (mn_at m) q = true ∧ ∃ newer older, ms = newer ++ m :: older ∧
    (∀ m', m' ∈ newer → is_prefix (mn_at m') q = true → length (mn_at m') < length (mn_at m)) ∧
    (∀ m', m' ∈ older → is_prefix (mn_at m') q = true → length (mn_at m') ≤ length (mn_at m)).
