(** * SpecNumber: texts of whole numbers, as Go writes them *)
From Verif Require Import Base.

Definition small : bytes := B "0123456789abcdefghijklmnopqrstuvwxyz".
Definition capital : bytes := B "0123456789ABCDEFGHIJKLMNOPQRSTUVWXYZ".
(** [c] is the digit of value [d]. *)
Definition digit_value (c : ascii) (d : N) : Prop := small !! N.to_nat d = Some c ∨ capital !! N.to_nat d = Some c.
(** The digits [s] after digits of value [k] have the value [n] in base [b]. *)
Inductive places (b : N) : N → bytes → N → Prop :=
  | no_more k : places b k [] k
  | one_more k c d s n : digit_value c d → (d < b)%N → places b (k * b + d) s n → places b k (c :: s) n.
(** Decimal, or in the base that the prefix tells *)
Inductive numeral : bytes → N → Prop :=
  | decimal c s n : c ≠ "0"%char → places 10 0 (c :: s) n → numeral (c :: s) n
  | octal s n : places 8 0 s n → numeral ("0"%char :: s) n
  | prefixed p b c s n : (p, b) ∈ [("b", 2); ("B", 2); ("o", 8); ("O", 8); ("x", 16); ("X", 16)]%char%N → places b 0 (c :: s) n → numeral ("0"%char :: p :: c :: s) n.
(** With a sign, or without *)
Inductive signed : bytes → Z → Prop :=
  | no_sign s n : numeral s n → signed s (Z.of_N n)
  | plus s n : numeral s n → signed ("+"%char :: s) (Z.of_N n)
  | minus s n : numeral s n → signed ("-"%char :: s) (- Z.of_N n).
(** Lines may stand between digits, and between a prefix and a digit: never two together, and none at the end. [true] says that a line may come next. *)
Inductive spaced (b : N) : bool → N → bytes → N → Prop :=
  | at_end k : spaced b true k [] k
  | digit_next a k c d s n : digit_value c d → (d < b)%N → spaced b true (k * b + d) s n → spaced b a k (c :: s) n
  | line_next k s n : spaced b false k s n → spaced b true k ("_"%char :: s) n.
Inductive written : bytes → N → Prop :=
  | w_decimal c s n : c ≠ "0"%char → spaced 10 false 0 (c :: s) n → written (c :: s) n
  | w_octal s n : spaced 8 true 0 s n → written ("0"%char :: s) n
  | w_prefixed p b c s n : (p, b) ∈ [("b", 2); ("B", 2); ("o", 8); ("O", 8); ("x", 16); ("X", 16)]%char%N → spaced b true 0 (c :: s) n → written ("0"%char :: p :: c :: s) n.
Inductive written_signed : bytes → Z → Prop :=
  | w_no_sign s n : written s n → written_signed s (Z.of_N n)
  | w_plus s n : written s n → written_signed ("+"%char :: s) (Z.of_N n)
  | w_minus s n : written s n → written_signed ("-"%char :: s) (- Z.of_N n).
