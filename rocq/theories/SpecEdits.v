(** * SpecEdits: edits as a user sees them *)
From Verif Require Import Base Fs Overlay Os Edits Story.

(** What is shown after an edit: only the paths that are edited change. *)
Definition edited (e : edit) (F : path → option fobj) : path → option fobj := λ q,
  match e with
  | EWrite k data => if decide (q = k) then Some (FFile data) else F q
  | EMkdir k => if decide (q = k) then Some (FDir false) else F q
  | ELink k s => if decide (q = k) then Some (FLink s) else F q
  | ERemove k => if decide (q = k) then None else F q
  | ERename k l => if decide (q = l) then F k else if decide (q = k) then None else F q
  end.
(** When an edit succeeds *)
Definition dir_of_shown (F : path → option fobj) (k : path) : Prop := k ≠ [] ∧ (parent_dir k = [] ∨ F (parent_dir k) = Some (FDir false)).
Definition can_edit (e : edit) (F : path → option fobj) : Prop :=
  match e with
  | EWrite k _ => dir_of_shown F k ∧ (F k = None ∨ ∃ data, F k = Some (FFile data))
  | EMkdir k | ELink k _ => dir_of_shown F k ∧ F k = None
  | ERemove k => dir_of_shown F k ∧ F k ≠ None ∧ ∀ n, F (k ++ [n]) = None
  | ERename k l => dir_of_shown F k ∧ dir_of_shown F l ∧ ((∃ data, F k = Some (FFile data)) ∨ ∃ s, F k = Some (FLink s)) ∧ F l ≠ Some (FDir false)
  end.
Global Instance dir_of_shown_dec F k : Decision (dir_of_shown F k).
Proof. unfold dir_of_shown. apply _. Defined.
(** An edit by a user in the workspace at [p]. It is refused if the workspace is not mounted. *)
Definition edit_at (w : world) (p : path) (e : edit) : option world :=
  m ← Story.mount_of w p; fs ← edit_mount (w_fs w) m e; Some (set_fs w fs).
