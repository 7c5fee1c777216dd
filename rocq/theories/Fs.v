(** * Fs: machines, processes and programs.

    A world is one machine: files, mounts, and of the running process its working directory, the PWD
    variable, the in-memory tree of the space it works on, and its output. Every call to the operating
    system asks an oracle what happens: it may succeed, fail with any error and any partial effect, or
    the process may be killed before, during or after the call. Theorems quantify over all oracles.

    Simplifications: a path is a list of names from the root; a symbolic link is followed only as the
    last component of a path; owners, permissions and times are not modelled; reading and writing below
    a mount point is modelled by [Overlay.v], not as paths of the file system. The program makes no links
    inside its data root; a link found there makes the call that meets it fail. *)
From Verif Require Import Base Uid Tree Dump Branch Date.

Notation path := (list bytes).

(** ** Path strings *)
Definition SLASH : ascii := "/"%char.
(** strings.Split(s, "/") *)
Fixpoint split_slash (s : bytes) : list bytes :=
  match s with
  | [] => [[]]
  | c :: s' =>
      match split_slash s' with
      | [] => [[]]
      | h :: r => if decide (c = SLASH) then [] :: h :: r else (c :: h) :: r
      end
  end.
(** filepath.Clean of a rooted path, component by component: "" and "." are dropped, ".." removes the
    last name and stops at the root. *)
Definition clean_step (p : path) (c : bytes) : path :=
  if decide (c = [] ∨ c = B ".") then p
  else if decide (c = B "..") then removelast p
  else p ++ [c].
Definition walk (p : path) (cs : list bytes) : path := foldl clean_step p cs.
(** filepath.Join(p, s); also filepath.Abs(s) for a relative s in directory p *)
Definition pjoin (p : path) (s : bytes) : path := walk p (split_slash s).
Definition is_abs (s : bytes) : bool := match s with c :: _ => bool_decide (c = SLASH) | [] => false end.
(** filepath.Abs(s) in directory p *)
Definition abs_from (p : path) (s : bytes) : path := if is_abs s then pjoin [] s else pjoin p s.
(** The string of a clean absolute path *)
Fixpoint path_str' (p : path) : bytes :=
  match p with [] => [] | c :: p' => SLASH :: c ++ path_str' p' end.
Definition path_str (p : path) : bytes := match p with [] => B "/" | _ => path_str' p end.
(** A name as it can occur in a clean path *)
Definition good_name (c : bytes) : Prop := c ≠ [] ∧ c ≠ B "." ∧ c ≠ B ".." ∧ SLASH ∉ c.
Definition good_path (p : path) : Prop := Forall good_name p.

Fixpoint is_prefix (p q : path) : bool :=
  match p, q with
  | [], _ => true
  | a :: p', b :: q' => bool_decide (a = b) && is_prefix p' q'
  | _ :: _, [] => false
  end.
Definition under (p q : path) : bool := is_prefix p q && negb (bool_decide (p = q)).
(** The first component of filepath.Rel(base, target), both absolute and clean, split at "/"
    (manager_default.go:185-189): "." when equal, ".." when the target leaves the base. *)
Fixpoint rel_first (base target : path) : bytes :=
  match base, target with
  | [], [] => B "."
  | [], c :: _ => c
  | a :: base', b :: target' => if decide (a = b) then rel_first base' target' else B ".."
  | _ :: _, [] => B ".."
  end.
Definition parent_dir (p : path) : path := removelast p.

(** ** Files *)
Inductive fobj :=
  | FDir (opaque : bool)        (* opaque: an overlay directory that hides the one below *)
  | FFile (data : bytes)
  | FLink (target : bytes)
  | FWhite.                     (* an overlay whiteout *)
Global Instance fobj_eq_dec : EqDecision fobj.
Proof. solve_decision. Defined.
(** The files of a machine: the first entry of a path counts. *)
Notation files := (list (path * fobj)).
Fixpoint fget (fs : files) (p : path) : option fobj :=
  match fs with
  | [] => None
  | (q, x) :: fs' => if decide (q = p) then Some x else fget fs' p
  end.
Definition fdel (fs : files) (p : path) : files := filter (λ kv, kv.1 ≠ p) fs.
Definition fset (fs : files) (p : path) (x : fobj) : files := (p, x) :: fdel fs p.

(** An overlay mount *)
Record mount := Mnt { mn_at : path; mn_lowers : list path; mn_upper : option path; mn_work : option path }.

(** What the oracle decides about one call *)
Inductive fault :=
  | FNone
  | FFail (e : err) (n : nat)   (* error e after partial effect n; 0 is no effect *)
  | FKill (n : nat).            (* killed after partial effect n; 0 is before the call *)
Record choice := Choice {
  ch_fault : fault;
  ch_uid : uid;                 (* the next random ID *)
  ch_time : time;               (* the clock *)
  ch_keep : path → bool;        (* what an interrupted RemoveAll leaves *)
  ch_dump : dumpenv;            (* map iteration orders *)
  ch_names : list (bytes * bytes) → list (bytes * bytes);
  ch_locs : list (bytes * loc) → list (bytes * loc) }.
Definition oracle := nat → choice.

(** A call of chown that succeeded: the path, the object and the mount that were there, user and group *)
Record owned := Owned { ow_at : path; ow_obj : option fobj; ow_mount : option mount; ow_ids : Z * Z }.

Record world := World {
  w_fs : files;
  w_mounts : list mount;        (* newest first *)
  w_tree : tstate;              (* the tree of the space this process has loaded *)
  w_cwd : path;
  w_pwd : option path;          (* the PWD variable *)
  w_out : list bytes;           (* lines printed, newest first *)
  w_tick : nat;
  w_ids : Z * Z;                (* the options --uid and --gid of the process: manager.go:31-35 *)
  w_owned : list owned }.       (* newest first *)

Definition set_fs (w : world) (f : files) : world :=
  World f (w_mounts w) (w_tree w) (w_cwd w) (w_pwd w) (w_out w) (w_tick w) (w_ids w) (w_owned w).
Definition set_mounts (w : world) (ms : list mount) : world :=
  World (w_fs w) ms (w_tree w) (w_cwd w) (w_pwd w) (w_out w) (w_tick w) (w_ids w) (w_owned w).
Definition set_tree (w : world) (t : tstate) : world :=
  World (w_fs w) (w_mounts w) t (w_cwd w) (w_pwd w) (w_out w) (w_tick w) (w_ids w) (w_owned w).
Definition set_cwd (w : world) (p : path) : world :=
  World (w_fs w) (w_mounts w) (w_tree w) p (w_pwd w) (w_out w) (w_tick w) (w_ids w) (w_owned w).
Definition set_pwd (w : world) (p : option path) : world :=
  World (w_fs w) (w_mounts w) (w_tree w) (w_cwd w) p (w_out w) (w_tick w) (w_ids w) (w_owned w).
Definition add_out (w : world) (l : bytes) : world :=
  World (w_fs w) (w_mounts w) (w_tree w) (w_cwd w) (w_pwd w) (l :: w_out w) (w_tick w) (w_ids w) (w_owned w).
Definition set_ids (w : world) (i : Z * Z) : world :=
  World (w_fs w) (w_mounts w) (w_tree w) (w_cwd w) (w_pwd w) (w_out w) (w_tick w) i (w_owned w).
Definition add_owned (w : world) (e : owned) : world :=
  World (w_fs w) (w_mounts w) (w_tree w) (w_cwd w) (w_pwd w) (w_out w) (w_tick w) (w_ids w) (e :: w_owned w).
Definition tick (w : world) : world :=
  World (w_fs w) (w_mounts w) (w_tree w) (w_cwd w) (w_pwd w) (w_out w) (S (w_tick w)) (w_ids w) (w_owned w).

(** ** Programs *)
Definition M (A : Type) : Type := oracle → world → res A * world.
Definition ret {A} (a : A) : M A := λ _ w, (Ok a, w).
Definition fail {A} (e : err) : M A := λ _ w, (Err e, w).
Definition panic {A} : M A := λ _ w, (Panic, w).
Definition bind {A C} (m : M A) (f : A → M C) : M C := λ o w,
  match m o w with
  | (Ok a, w1) => f a o w1
  | (Err e, w1) => (Err e, w1)
  | (Panic, w1) => (Panic, w1)
  | (Hang, w1) => (Hang, w1)
  | (Crash, w1) => (Crash, w1)
  end.
(** The error value is inspected by the caller *)
Definition attempt {A} (m : M A) : M (A + err) := λ o w,
  match m o w with
  | (Ok a, w1) => (Ok (inl a), w1)
  | (Err e, w1) => (Ok (inr e), w1)
  | (Panic, w1) => (Panic, w1)
  | (Hang, w1) => (Hang, w1)
  | (Crash, w1) => (Crash, w1)
  end.
Notation "x <- m ;; f" := (bind m (λ x, f)) (at level 100, m at next level, right associativity).
Notation "m ;;; f" := (bind m (λ _, f)) (at level 100, right associativity).
Definition lift {A} (r : res A) : M A := λ _ w, (r, w).
Definition gets {A} (f : world → A) : M A := λ _ w, (Ok (f w), w).
Definition modify (f : world → world) : M unit := λ _ w, (Ok tt, f w).

(** One call to the operating system: [full] is what it does when nothing goes wrong, [part n] the
    state after partial effect [n]. *)
Definition sys {A} (full : choice → world → res A * world) (part : choice → nat → world → world) : M A := λ o w,
  let c := o (w_tick w) in
  let w1 := tick w in
  match ch_fault c with
  | FNone => full c w1
  | FFail e O => (Err e, w1)
  | FFail e (S n) => (Err e, part c (S n) w1)
  | FKill O => (Crash, w1)
  | FKill (S n) => (Crash, part c (S n) w1)
  end.
(** A call that happens completely or not at all: a failed one has no effect, a killed one any. *)
Definition sys_atomic {A} (full : choice → world → res A * world) : M A := λ o w,
  let c := o (w_tick w) in
  let w1 := tick w in
  match ch_fault c with
  | FNone => full c w1
  | FFail e _ => (Err e, w1)
  | FKill O => (Crash, w1)
  | FKill (S _) => (Crash, (full c w1).2)
  end.
(** A call that only looks *)
Definition look {A} (f : world → res A) : M A := sys_atomic (λ _ w, (f w, w)).

