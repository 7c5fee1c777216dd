(** * SpecClean: the rules of filepath.Clean for rooted paths *)
From Verif Require Import Base Fs.
From stdpp Require Import prelude.

(** The rules of its documentation, on the names between the slashes: several slashes count as one and "." is eliminated; ".." is eliminated along
    with the name before it; ".." at the root is eliminated. *)
Inductive cleans : path → path → Prop :=
  | cleans_drop l1 c l2 : c = [] ∨ c = B "." → cleans (l1 ++ c :: l2) (l1 ++ l2)
  | cleans_back l1 c l2 : c ≠ [] → c ≠ B "." → c ≠ B ".." → cleans (l1 ++ c :: B ".." :: l2) (l1 ++ l2)
  | cleans_root l2 : cleans (B ".." :: l2) l2.
(** The rules are applied until no more applies. *)
Definition cleaned (l t : path) : Prop := rtc cleans l t ∧ ∀ u, ¬ cleans t u.
(** [s] is the names [l] with slashes in between. *)
Fixpoint with_slashes (l : list bytes) : bytes :=
  match l with [] => [] | [c] => c | c :: l' => c ++ SLASH :: with_slashes l' end.
