(** * Date: commit times, time.Format(time.RFC3339) and time.Parse(time.RFC3339)
    (pkg/workspaces/commit.go:22-30, 102-107) and the layout of pkg/commands/log.go:79.
    Simplifications: years 0-9999; no fraction of a second (Format with this layout drops it); Parse accepts
    exactly the strict form (the library also takes fractions and one-digit hours, which this program
    never writes). *)
From Verif Require Import Base.

Record time := Time {
  tm_year : N; tm_mon : N; tm_day : N;
  tm_hour : N; tm_min : N; tm_sec : N;
  tm_off : Z }.                        (* seconds east of UTC *)
Global Instance time_eq_dec : EqDecision time.
Proof. solve_decision. Defined.

Definition leap (y : N) : bool :=
  ((y mod 4 =? 0) && (negb (y mod 100 =? 0) || (y mod 400 =? 0)))%N.
Definition days_in (y m : N) : N :=
  match m with
  | 2 => if leap y then 29 else 28
  | 4 | 6 | 9 | 11 => 30
  | _ => 31
  end%N.

Definition digit (n : N) : ascii := n2b (48 + n).
Definition fmt2 (n : N) : bytes := [digit (n / 10); digit (n mod 10)].
Definition fmt4 (n : N) : bytes := fmt2 (n / 100) ++ fmt2 (n mod 100).
(** The zone: Z for UTC, else the offset in whole minutes, the seconds of the offset dropped. *)
Definition fmt_zone (off : Z) : bytes :=
  if (off =? 0)%Z then B "Z"
  else let z := Z.quot off 60 in
       let a := Z.abs_N z in
       (if (z <? 0)%Z then B "-" else B "+") ++ fmt2 (a / 60) ++ B ":" ++ fmt2 (a mod 60).
Definition fmt_rfc3339 (t : time) : bytes :=
  fmt4 (tm_year t) ++ B "-" ++ fmt2 (tm_mon t) ++ B "-" ++ fmt2 (tm_day t) ++ B "T" ++
  fmt2 (tm_hour t) ++ B ":" ++ fmt2 (tm_min t) ++ B ":" ++ fmt2 (tm_sec t) ++ fmt_zone (tm_off t).

(** ** Parse *)
Definition dig (c : ascii) : option N :=
  let n := b2n c in if (48 <=? n)%N && (n <=? 57)%N then Some (n - 48)%N else None.
Definition num2 (s : bytes) : option (N * bytes) :=
  match s with
  | a :: b :: r => match dig a, dig b with Some x, Some y => Some (x * 10 + y, r)%N | _, _ => None end
  | _ => None
  end.
Definition num4 (s : bytes) : option (N * bytes) :=
  match num2 s with
  | Some (x, r) => match num2 r with Some (y, r') => Some (x * 100 + y, r')%N | None => None end
  | None => None
  end.
Definition lit (c : ascii) (s : bytes) : option bytes :=
  match s with a :: r => if decide (a = c) then Some r else None | [] => None end.
(** The zone: hours at most 23, minutes at most 59 *)
Definition parse_zone (s : bytes) : option Z :=
  match s with
  | [] => None
  | c :: r =>
      if decide (c = "Z"%char) then match r with [] => Some 0%Z | _ => None end
      else if decide (c = "+"%char ∨ c = "-"%char) then
        '(h, r1) ← num2 r; r2 ← lit ":"%char r1; '(m, r3) ← num2 r2;
        match r3 with
        | [] => if (h <=? 23)%N && (m <=? 59)%N then
                  let o := (Z.of_N (h * 60 + m) * 60)%Z in
                  Some (if decide (c = "-"%char) then (- o)%Z else o)
                else None
        | _ => None
        end
      else None
  end.
Definition time_ok (t : time) : bool :=
  (1 <=? tm_mon t)%N && (tm_mon t <=? 12)%N && (1 <=? tm_day t)%N && (tm_day t <=? days_in (tm_year t) (tm_mon t))%N &&
  (tm_hour t <=? 23)%N && (tm_min t <=? 59)%N && (tm_sec t <=? 59)%N.
Definition parse_rfc3339 (s : bytes) : option time :=
  '(y, s) ← num4 s; s ← lit "-"%char s; '(mo, s) ← num2 s; s ← lit "-"%char s; '(d, s) ← num2 s;
  s ← lit "T"%char s; '(h, s) ← num2 s; s ← lit ":"%char s; '(mi, s) ← num2 s; s ← lit ":"%char s;
  '(sec, s) ← num2 s; off ← parse_zone s;
  let t := Time y mo d h mi sec off in
  if time_ok t then Some t else None.

(** ** Display: time.ANSIC+" -0700", i.e. "Mon Jan _2 15:04:05 2006 -0700" *)
Definition month_name (m : N) : bytes :=
  match m with
  | 1 => B "Jan" | 2 => B "Feb" | 3 => B "Mar" | 4 => B "Apr" | 5 => B "May" | 6 => B "Jun"
  | 7 => B "Jul" | 8 => B "Aug" | 9 => B "Sep" | 10 => B "Oct" | 11 => B "Nov" | _ => B "Dec"
  end%N.
(** Days from 0000-03-01 (a Wednesday), Gregorian calendar extended backwards. *)
Definition day_number (y m d : N) : Z :=
  let y' := (Z.of_N y - (if (m <=? 2)%N then 1 else 0))%Z in
  let m' := (if (m <=? 2)%N then Z.of_N m + 9 else Z.of_N m - 3)%Z in
  (365 * y' + y' / 4 - y' / 100 + y' / 400 + (153 * m' + 2) / 5 + Z.of_N d - 1)%Z.
Definition weekday_name (y m d : N) : bytes :=
  match ((day_number y m d + 3) mod 7)%Z with
  | 0 => B "Sun" | 1 => B "Mon" | 2 => B "Tue" | 3 => B "Wed" | 4 => B "Thu" | 5 => B "Fri" | _ => B "Sat"
  end%Z.
Definition fmt_day_sp (d : N) : bytes := if (d <? 10)%N then [" "%char; digit d] else fmt2 d.
Definition fmt_off (off : Z) : bytes :=
  let z := Z.quot off 60 in let a := Z.abs_N z in
  (if (z <? 0)%Z then B "-" else B "+") ++ fmt2 (a / 60) ++ fmt2 (a mod 60).
Definition fmt_log (t : time) : bytes :=
  weekday_name (tm_year t) (tm_mon t) (tm_day t) ++ B " " ++ month_name (tm_mon t) ++ B " " ++ fmt_day_sp (tm_day t) ++
  B " " ++ fmt2 (tm_hour t) ++ B ":" ++ fmt2 (tm_min t) ++ B ":" ++ fmt2 (tm_sec t) ++ B " " ++ fmt4 (tm_year t) ++
  B " " ++ fmt_off (tm_off t).
