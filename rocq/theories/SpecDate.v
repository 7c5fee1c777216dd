(** * SpecDate: dates and the numbers in texts *)
From Verif Require Import Base.

(** The days of month [m] of year [y] in the Gregorian calendar *)
Definition leap_year (y : N) : Prop := (N.divide 4 y ∧ ¬ N.divide 100 y ∨ N.divide 400 y)%N.
Inductive last_day (y : N) : N → N → Prop :=
  | long m : m ∈ [1; 3; 5; 7; 8; 10; 12]%N → last_day y m 31
  | short m : m ∈ [4; 6; 9; 11]%N → last_day y m 30
  | leap_february : leap_year y → last_day y 2 29
  | february : ¬ leap_year y → last_day y 2 28.
(** The day after *)
Inductive day_after (y m d : N) : N → N → N → Prop :=
  | next_day n : last_day y m n → (d < n)%N → day_after y m d y m (d + 1)
  | next_month : last_day y m d → (m < 12)%N → day_after y m d y (m + 1) 1
  | next_year : m = 12%N → d = 31%N → day_after y m d (y + 1) 1 1.
Definition week : list bytes := [B "Sun"; B "Mon"; B "Tue"; B "Wed"; B "Thu"; B "Fri"; B "Sat"].
Definition months : list bytes := [B "Jan"; B "Feb"; B "Mar"; B "Apr"; B "May"; B "Jun"; B "Jul"; B "Aug"; B "Sep"; B "Oct"; B "Nov"; B "Dec"].
(** [s] is the number [n] with zeros in front. *)
Definition is_digit (c : ascii) : Prop := (48 ≤ b2n c ≤ 57)%N.
Definition reads (s : bytes) (n : N) : Prop := Forall is_digit s ∧ fold_left (λ a c, 10 * a + (b2n c - 48))%N s 0%N = n.
(** The part of a text *)
Definition part (i n : nat) (s : bytes) : bytes := take n (drop i s).
