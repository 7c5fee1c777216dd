(** * SpecInterleave: processes that overlap *)
From Verif Require Import Base Uid Tree SpecTree Dump Json Save Branch Date Ws SpecWs Fs Overlay Os Layers Mounts Space Manager Commands SpecWorld SpecOps SpecMachine SpecCmds Story SpecUsable SpecVcs SpecSerial.
From stdpp Require Import prelude gmap.

(** A process that was started at [wt_path] in a workspace of space [wt_space]. It has loaded workspace [wt_ws] and waits. [wt_world] has its memory. *)
Record waiting := Waiting { wt_path : path; wt_space : uid; wt_ws : ws; wt_world : world }.
(** A process starts and loads its workspace; the [i]-th process that waits goes on and ends; a process runs from start to end. *)
Inductive happening := Starts (p : path) | GoesOn (i : nat) (c : command) | Runs (d : path) (c : command).
(** What users do, and restarts, between one and the next *)
Definition users (dr : path) (V : vcs) (w w1 : world) : Prop :=
  meanwhile dr w w1 ∧ (∀ q, is_Some (v_places V !! q) → fget (w_fs w1) q = fget (w_fs w) q) ∧ w_tick w ≤ w_tick w1.
(** Whatever happens as in [l] while the processes [ps] wait, provided that no two processes overlap which work in the same space, and that nothing fails and random IDs
    are new: processes that start in a workspace load it, every process acts on what is there when it goes on, as version control does,
    and in the end [Q] holds. *)
Fixpoint interleaved (dr : path) (l : list happening) (Q : list waiting → vcs → world → Prop) (ps : list waiting) (V : vcs) (w : world) : Prop :=
  match l with
  | [] => Q ps V w
  | Starts p :: l' => ∀ w1 o pl, users dr V w w1 → fair o → no_faults o → v_places V !! p = Some pl → pl_space pl ∉ wt_space <$> ps →
      ∃ x w2, get_workspace dr (B ".") o (enter p w1) = (Ok x, w2) ∧ interleaved dr l' Q (ps ++ [Waiting p (pl_space pl) x w2]) V w2
  | GoesOn i c :: l' => ∀ w1 o q m r w', users dr V w w1 → fair o → no_faults o → ps !! i = Some q → new_ids dr o (resumed (wt_world q) w1) →
      after_load dr c (wt_ws q) = Some m → m o (resumed (wt_world q) w1) = (r, w') →
      ∃ V', vstep w1 V (wt_path q) c r V' ∧ interleaved dr l' Q (delete i ps) V' w'
  | Runs d c :: l' => ∀ w1 o r w', users dr V w w1 → fair o → no_faults o → new_ids dr o (enter d w1) → allowed dr V w1 d c →
      (∀ q, q ∈ ps → elsewhere V (wt_path q) (wt_space q) d c) → run_cmd dr c o (enter d w1) = (r, w') →
      ∃ V', vstep w1 V d c r V' ∧ interleaved dr l' Q ps V' w'
  end.
