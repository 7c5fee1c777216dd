(** * Story: sequences of events on a machine, for the concrete cases beside the theorems and for counterexamples *)
From Verif Require Import Base Uid Tree SpecTree TreeRefine Dump Json Save SaveProofs Branch Date Ws SpecWs WsProofs Fs Overlay Os Layers Mounts Space Manager Commands LayerProofs SpecWorld SpecOps SpecMachine SpecCmds Sample.

Inductive event :=
  (** a new process with working directory [d] runs a command; [o] decides what fails *)
  | Do (o : oracle) (d : path) (c : command)
  (** the user writes file [n] in the workspace at [p] *)
  | Put (p : path) (n data : bytes).
(** A new process in directory [d] *)
Definition enter (d : path) (w : world) : world := set_pwd (set_cwd (set_tree w new_tree) (default d (real_path (w_fs w) d))) (Some d).
(** The mount that a workspace path leads to *)
Definition mount_of (w : world) (p : path) : option mount :=
  match fget (w_fs w) p with Some (FLink s) => mount_at (w_mounts w) (pjoin [] s) | _ => None end.
Definition put (w : world) (p : path) (n data : bytes) : option world :=
  m ← mount_of w p; u ← mn_upper m; Some (set_fs w (fset (w_fs w) (u ++ [n]) (FFile data))).
(** The content of file [n] in the workspace at [p], as the user sees it *)
Definition shown (w : world) (p : path) (n : bytes) : option bytes :=
  m ← mount_of w p; match mount_view (w_fs w) m [n] with Some (FFile d) => Some d | _ => None end.
(** All events happen, whether commands fail or not. The result says which succeeded. *)
Fixpoint story (dr : path) (l : list event) (w : world) : list bool * world :=
  match l with
  | [] => ([], w)
  | Do o d c :: l' => let r := run_cmd dr c o (enter d w) in let s := story dr l' r.2 in (is_ok r.1 :: s.1, s.2)
  | Put p n data :: l' =>
      match put w p n data with
      | Some w1 => let s := story dr l' w1 in (true :: s.1, s.2)
      | None => let s := story dr l' w in (false :: s.1, s.2)
      end
  end.
(** What makes each event a step of the machine, as a test *)
Definition wf_test (fs : files) : bool := forallb (λ e, bool_decide (e.1 = []) || is_dir_at fs (parent_dir e.1)) fs.
Definition outside_test (dr p : path) : bool := negb (is_prefix dr p) && negb (is_prefix p dr).
Definition put_test (dr : path) (w : world) (p : path) (n data : bytes) : bool :=
  match m ← mount_of w p; u ← mn_upper m; Some (m, u) with
  | Some (m, u) => is_prefix (mounts_root dr) (mn_at m) && wf_test (fset (w_fs w) (u ++ [n]) (FFile data))
  | None => true
  end.
Fixpoint story_test (dr : path) (l : list event) (w : world) : bool :=
  match l with
  | [] => true
  | Do o d c :: l' => outside_test dr (abs_of (enter d w) (cmd_target c)) && story_test dr l' (run_cmd dr c o (enter d w)).2
  | Put p n data :: l' => put_test dr w p n data && story_test dr l' (default w (put w p n data))
  end.
(** A test after a command that succeeded *)
Definition then_ok {A} (r : res A * world) (g : A → world → bool) : bool := match r with (Ok x, w) => g x w | _ => false end.
Definition then_some {A} (r : option A) (g : A → bool) : bool := match r with Some x => g x | _ => false end.
(** The story goes as [bs] says, which events succeed and which fail, and then [g] holds. *)
Definition told (dr : path) (l : list event) (w : world) (bs : list bool) (g : world → bool) : bool :=
  match story dr l w with (r, w') => bool_decide (r = bs) && g w' end.
