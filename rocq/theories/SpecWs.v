(** * SpecWs: what references, listings and histories should be (C24-C26, C29). *)
From Verif Require Import Base Uid SpecTree TreeObs Date.

(** What [ref] names in a workspace with ID [w] whose working layer is [hid]. *)
Definition resolve (a : atree) (w hid : uid) (ref : bytes) : found :=
  if decide (ref = B "HEAD") then
    match a_nodes a !! hid ≫= an_parent with Some p => FCommit p | None => FNone end
  else
    match search_spec a (key_id ref) ref with
    | FNone =>
        match a_branches a !! (uid_b32 w ++ B "/" ++ ref) with
        | Some id => FBranch id
        | None =>
            if decide (take 7 ref = B "origin/") then
              match a_branches a !! (B "global/" ++ drop 7 ref) with Some id => FBranch id | None => FNone end
            else FNone
        end
    | f => f
    end.
Definition found_id (f : found) : option uid :=
  match f with FCommit id | FTag id | FBranch id => Some id | FNone => None end.

(** Ascending byte order: a string comes before its extensions; otherwise the first difference decides. *)
Definition lex_le (x y : bytes) : Prop :=
  (∃ z, y = x ++ z) ∨ (∃ p a b x' y', x = p ++ a :: x' ∧ y = p ++ b :: y' ∧ (N_of_ascii a < N_of_ascii b)%N).

(** The Gregorian calendar: how many days the twelve months of a year have *)
Definition leap_year (y : N) : Prop := (N.divide 4 y ∧ ¬ N.divide 100 y) ∨ N.divide 400 y.
Global Instance divide_dec a b : Decision (N.divide (Npos a) b).
Proof. refine (cast_if (decide (b mod (Npos a) = 0)%N)); by rewrite <-N.mod_divide. Defined.
Global Instance leap_year_dec y : Decision (leap_year y).
Proof. unfold leap_year. apply _. Defined.
Definition month_lengths (y : N) : list N :=
  [31; if decide (leap_year y) then 29 else 28; 31; 30; 31; 30; 31; 31; 30; 31; 30; 31]%N.
