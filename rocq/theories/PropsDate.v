(** * PropsDate: how log shows dates (C60) *)
From Verif Require Import Base Date DateProofs SpecDate.
From Coq Require Import Lia.
From stdpp Require Import prelude.

Lemma reads2 n : (n < 100)%N → reads (fmt2 n) n.
Proof.
  intros H. assert (forallb (λ i, forallb (λ c, (48 <=? b2n c) && (b2n c <=? 57))%N (fmt2 (N.of_nat i)) && (fold_left (λ a c, 10 * a + (b2n c - 48)) (fmt2 (N.of_nat i)) 0 =? N.of_nat i)%N)%N (seq 0 100) = true) as A by (vm_compute; reflexivity).
  rewrite forallb_forall in A. specialize (A (N.to_nat n)). rewrite N2Nat.id in A. destruct (andb_prop _ _ (A ltac:(apply in_seq; lia))) as [A1 A2]. split; [|by apply N.eqb_eq].
  rewrite forallb_forall in A1. apply Forall_forall. intros c Hc. apply elem_of_list_In in Hc. specialize (A1 c Hc). apply andb_prop in A1 as [A3 A4]. apply N.leb_le in A3. apply N.leb_le in A4. split; done.
Qed.
Lemma reads4 n : (n < 10000)%N → reads (fmt4 n) n.
Proof.
  intros H. unfold fmt4. destruct (reads2 (n / 100)) as [A1 A2]; [by apply N.div_lt_upper_bound|]. destruct (reads2 (n mod 100)) as [B1 B2]; [by apply N.mod_lt|].
  split; [by apply Forall_app|]. rewrite fold_left_app, A2. unfold fmt2 in *. cbn [fold_left] in *. rewrite N.mul_0_r, N.add_0_l in B2. pose proof (N.div_mod n 100 ltac:(done)). lia.
Qed.
Lemma weekday3 y m d : ∃ a b c, weekday_name y m d = [a; b; c].
Proof. unfold weekday_name. destruct (_ mod 7)%Z as [|p|p]; try (by eexists _, _, _). do 3 (destruct p as [p|p|]; try (by eexists _, _, _)). Qed.
Lemma month3 m : (1 ≤ m ≤ 12)%N → months !! N.to_nat (m - 1) = Some (month_name m) ∧ ∃ a b c, month_name m = [a; b; c].
Proof.
  intros H. assert (m = 1 ∨ m = 2 ∨ m = 3 ∨ m = 4 ∨ m = 5 ∨ m = 6 ∨ m = 7 ∨ m = 8 ∨ m = 9 ∨ m = 10 ∨ m = 11 ∨ m = 12)%N as C by lia.
  destruct C as [->|[->|[->|[->|[->|[->|[->|[->|[->|[->|[->| ->]]]]]]]]]]]; (split; [reflexivity|by eexists _, _, _]).
Qed.
Lemma abs_minutes off : Z.abs_N (Z.quot off 60) = Z.to_N (Z.abs off / 60).
Proof. apply N2Z.inj. rewrite N2Z.inj_abs_N, Z2N.id by (apply Z.div_pos; lia). rewrite <-(Z.quot_abs off 60) by done. apply Z.quot_div_nonneg; lia. Qed.
(** Each field of the date is where the layout has it, with the right number. *)
Theorem C60_fields : ∀ t, time_ok t = true → (tm_year t < 10000)%N → (Z.abs (tm_off t) < 360000)%Z →
  let s := fmt_log t in
  length s = 30 ∧ part 0 3 s = weekday_name (tm_year t) (tm_mon t) (tm_day t) ∧ months !! N.to_nat (tm_mon t - 1) = Some (part 4 3 s) ∧
  (if (tm_day t <? 10)%N then part 8 1 s = B " " ∧ reads (part 9 1 s) (tm_day t) else reads (part 8 2 s) (tm_day t)) ∧
  reads (part 11 2 s) (tm_hour t) ∧ reads (part 14 2 s) (tm_min t) ∧ reads (part 17 2 s) (tm_sec t) ∧ reads (part 20 4 s) (tm_year t) ∧
  part 25 1 s = (if (tm_off t <=? -60)%Z then B "-" else B "+") ∧
  reads (part 26 2 s) (Z.to_N (Z.abs (tm_off t) / 3600)) ∧ reads (part 28 2 s) (Z.to_N (Z.abs (tm_off t) / 60 mod 60)).
Proof.
  intros t Ok Hy Ho s. unfold time_ok in Ok. rewrite !andb_true_iff, !N.leb_le in Ok. destruct Ok as ((((((M1 & M2) & D1) & D2) & H1) & H2) & H3).
  assert (tm_day t < 100)%N as D3. { assert (days_in (tm_year t) (tm_mon t) ≤ 31)%N; [|lia]. unfold days_in. repeat case_match; lia. }
  destruct (weekday3 (tm_year t) (tm_mon t) (tm_day t)) as (a & b & c & Ew). destruct (month3 (tm_mon t)) as (Em & e & f & g & Eg); [lia|].
  assert (∃ h i, fmt_day_sp (tm_day t) = [h; i] ∧ if (tm_day t <? 10)%N then [h] = B " " ∧ reads [i] (tm_day t) else reads [h; i] (tm_day t)) as (h & i & Ed & Hd).
  { unfold fmt_day_sp. destruct (tm_day t <? 10)%N eqn:L.
    - apply N.ltb_lt in L. eexists _, _. split; [reflexivity|]. split; [reflexivity|]. destruct (reads2 (tm_day t) D3) as [R1 R2]. unfold fmt2 in R1, R2. rewrite N.div_small, N.mod_small in R1, R2 by done.
      apply Forall_cons in R1 as [_ R1]. split; [done|]. cbn [fold_left] in *. exact R2.
    - eexists _, _. split; [reflexivity|]. by apply reads2. }
  pose proof (reads2 (tm_hour t) ltac:(lia)) as Rh. pose proof (reads2 (tm_min t) ltac:(lia)) as Rm. pose proof (reads2 (tm_sec t) ltac:(lia)) as Rs. pose proof (reads4 (tm_year t) Hy) as Ry.
  assert (∃ sg, (if (Z.quot (tm_off t) 60 <? 0)%Z then B "-" else B "+") = [sg] ∧ [sg] = if (tm_off t <=? -60)%Z then B "-" else B "+") as (sg & Es & Hs).
  { assert ((Z.quot (tm_off t) 60 <? 0)%Z = (tm_off t <=? -60)%Z) as ->; [|destruct (tm_off t <=? -60)%Z; by eexists].
    destruct (Z.leb_spec (tm_off t) (-60)) as [L|L]; [apply Z.ltb_lt|apply Z.ltb_ge]; Z.to_euclidean_division_equations; lia. }
  pose proof (reads2 (Z.abs_N (Z.quot (tm_off t) 60) / 60)) as Ro. pose proof (reads2 (Z.abs_N (Z.quot (tm_off t) 60) mod 60)) as Rp.
  assert (Z.abs_N (Z.quot (tm_off t) 60) / 60 = Z.to_N (Z.abs (tm_off t) / 3600))%N as E1.
  { rewrite abs_minutes. change 60%N with (Z.to_N 60). rewrite <-Z2N.inj_div by (try lia; apply Z.div_pos; lia). f_equal. rewrite Z.div_div by lia. done. }
  assert (Z.abs_N (Z.quot (tm_off t) 60) mod 60 = Z.to_N (Z.abs (tm_off t) / 60 mod 60))%N as E2.
  { rewrite abs_minutes. change 60%N with (Z.to_N 60). rewrite <-Z2N.inj_mod by (try lia; apply Z.div_pos; lia). done. }
  specialize (Ro ltac:(rewrite E1; assert (Z.abs (tm_off t) / 3600 < 100)%Z by (apply Z.div_lt_upper_bound; lia); lia)).
  specialize (Rp ltac:(rewrite E2; pose proof (Z.mod_pos_bound (Z.abs (tm_off t) / 60) 60 ltac:(lia)); lia)). rewrite <-E1, <-E2.
  unfold s, fmt_log, fmt_off. cbv zeta. rewrite Ew, Ed, Es, Eg. unfold fmt4 in *. unfold fmt2 in *. change (B " ") with [" "%char] in *. change (B ":") with [":"%char].
  cbn [app part take drop length] in *. unfold part. cbn [take drop]. rewrite Em, Eg. split_and!; try done.
Qed.
(** Weekdays follow each other, from the first day of year 0 to the last of year 9999 and beyond. *)
Lemma weekday_week y m d : week !! Z.to_nat ((day_number y m d + 3) mod 7) = Some (weekday_name y m d).
Proof.
  unfold weekday_name. pose proof (Z.mod_pos_bound (day_number y m d + 3) 7 ltac:(lia)) as H. set (z := ((day_number y m d + 3) mod 7)%Z) in *. clearbody z.
  assert (z = 0 ∨ z = 1 ∨ z = 2 ∨ z = 3 ∨ z = 4 ∨ z = 5 ∨ z = 6)%Z as C by lia. destruct C as [->|[->|[->|[->|[->|[->| ->]]]]]]; reflexivity.
Qed.
Lemma leap_mod y : leap_year y ↔ (Z.of_N y mod 4 = 0 ∧ Z.of_N y mod 100 ≠ 0 ∨ Z.of_N y mod 400 = 0)%Z.
Proof.
  unfold leap_year. rewrite <-!N.mod_divide by done. change 4%Z with (Z.of_N 4). change 100%Z with (Z.of_N 100). change 400%Z with (Z.of_N 400). rewrite <-!N2Z.inj_mod. lia.
Qed.
(** The days before the first of a month, from March on *)
Definition before (m : N) : Z := nth (N.to_nat m) [275; 306; 337; 0; 31; 61; 92; 122; 153; 184; 214; 245; 275]%Z ((153 * (Z.of_N m - 3) + 2) / 5)%Z.
Lemma day_number_march y m d : day_number y m d =
  (let y' := Z.of_N y - (if (m <=? 2)%N then 1 else 0) in 365 * y' + y' / 4 - y' / 100 + y' / 400 + before m + Z.of_N d - 1)%Z.
Proof.
  unfold day_number. cbv zeta. do 3 f_equal. destruct (decide (m < 13)%N) as [H|H].
  - assert (m = 0 ∨ m = 1 ∨ m = 2 ∨ m = 3 ∨ m = 4 ∨ m = 5 ∨ m = 6 ∨ m = 7 ∨ m = 8 ∨ m = 9 ∨ m = 10 ∨ m = 11 ∨ m = 12)%N as C by lia. 
    destruct C as [->|[->|[->|[->|[->|[->|[->|[->|[->|[->|[->|[->| ->]]]]]]]]]]]]; try reflexivity.
  - unfold before. rewrite nth_overflow by (cbn; lia). destruct (N.leb_spec m 2); [lia|done].
Qed.
Lemma div_pred x k : (0 < k)%Z → ((x - 1) / k = x / k - (if x mod k =? 0 then 1 else 0))%Z.
Proof.
  intros H. pose proof (Z.div_mod x k ltac:(lia)) as E. pose proof (Z.mod_pos_bound x k H) as P. destruct (Z.eqb_spec (x mod k) 0) as [Q|Q].
  - symmetry. apply (Z.div_unique _ _ _ (k - 1)); [lia|]. rewrite Q in E. lia.
  - symmetry. apply (Z.div_unique _ _ _ (x mod k - 1)); lia.
Qed.
Lemma mod_parts x : (x mod 400 = 0 → x mod 100 = 0)%Z ∧ (x mod 100 = 0 → x mod 4 = 0)%Z.
Proof. split; intros H; apply Z.mod_divide in H; try lia; destruct H as [k ->]; apply Z.mod_divide; try lia; [exists (k * 4)%Z|exists (k * 25)%Z]; lia. Qed.
Lemma day_number_after y m d y' m' d' : day_after y m d y' m' d' → day_number y' m' d' = (day_number y m d + 1)%Z.
Proof.
  intros A. rewrite !day_number_march. cbv zeta. destruct A as [n L H|L H| -> ->].
  - lia.
  - assert (∀ a b : N, (a <=? 2)%N = (b <=? 2)%N → before b = (before a + Z.of_N d)%Z →
      (let y' := Z.of_N y - (if (b <=? 2)%N then 1 else 0) in 365 * y' + y' / 4 - y' / 100 + y' / 400 + before b + Z.of_N 1 - 1)%Z =
      ((let y' := Z.of_N y - (if (a <=? 2)%N then 1 else 0) in 365 * y' + y' / 4 - y' / 100 + y' / 400 + before a + Z.of_N d - 1) + 1)%Z) as S.
    { intros a b E1 E2. rewrite E1, E2. cbv zeta. lia. }
    cbv zeta in S. inversion L as [m0 Hm E1 E2|m0 Hm E1 E2|Hl E1 E2|Hl E1 E2]; subst.
    + repeat (apply elem_of_cons in Hm as [->|Hm]; [first [lia|apply S; reflexivity]|]). by apply elem_of_nil in Hm.
    + repeat (apply elem_of_cons in Hm as [->|Hm]; [apply S; reflexivity|]). by apply elem_of_nil in Hm.
    + apply leap_mod in Hl. clear S H L. cbn [N.leb N.compare N.add Pos.add Pos.succ Pos.compare Pos.compare_cont]. change (before (2 + 1)) with 0%Z. change (before 2) with 337%Z. change (Z.of_N 29) with 29%Z. change (Z.of_N 1) with 1%Z.
      rewrite !div_pred, !Z.sub_0_r by lia.
      destruct (mod_parts (Z.of_N y)) as [P1 P2]. destruct (Z.eqb_spec (Z.of_N y mod 4) 0), (Z.eqb_spec (Z.of_N y mod 100) 0), (Z.eqb_spec (Z.of_N y mod 400) 0); lia.
    + rewrite leap_mod in Hl. clear S H L. cbn [N.leb N.compare N.add Pos.add Pos.succ Pos.compare Pos.compare_cont]. change (before (2 + 1)) with 0%Z. change (before 2) with 337%Z. change (Z.of_N 28) with 28%Z. change (Z.of_N 1) with 1%Z.
      rewrite !div_pred, !Z.sub_0_r by lia.
      destruct (mod_parts (Z.of_N y)) as [P1 P2]. destruct (Z.eqb_spec (Z.of_N y mod 4) 0), (Z.eqb_spec (Z.of_N y mod 100) 0), (Z.eqb_spec (Z.of_N y mod 400) 0); lia.
  - change (before 12) with 275%Z. change (before 1) with 306%Z. cbn [N.leb N.compare Pos.compare Pos.compare_cont]. rewrite N2Z.inj_add. change (Z.of_N 1) with 1%Z. change (Z.of_N 31) with 31%Z.
    replace (Z.of_N y + 1 - 1)%Z with (Z.of_N y - 0)%Z by lia. lia.
Qed.
Lemma next_mod n : Z.to_nat ((n + 1) mod 7) = S (Z.to_nat (n mod 7)) mod 7.
Proof.
  pose proof (Z.mod_pos_bound n 7 ltac:(lia)) as H. rewrite <-Z.add_mod_idemp_l by done. set (z := (n mod 7)%Z) in *. clearbody z.
  assert (z = 0 ∨ z = 1 ∨ z = 2 ∨ z = 3 ∨ z = 4 ∨ z = 5 ∨ z = 6)%Z as C by lia. destruct C as [->|[->|[->|[->|[->|[->| ->]]]]]]; reflexivity.
Qed.
(** Weekdays follow each other through all dates, and one of them is known. *)
Theorem C60_weekday : weekday_name 2000 1 1 = B "Sat" ∧
  ∀ y m d y' m' d', day_after y m d y' m' d' → ∃ i, i < 7 ∧ week !! i = Some (weekday_name y m d) ∧ week !! (S i mod 7) = Some (weekday_name y' m' d').
Proof.
  split; [vm_compute; reflexivity|]. intros y m d y' m' d' A. exists (Z.to_nat ((day_number y m d + 3) mod 7)). pose proof (Z.mod_pos_bound (day_number y m d + 3) 7 ltac:(lia)) as H.
  split; [lia|]. split; [apply weekday_week|]. rewrite <-weekday_week, (day_number_after _ _ _ _ _ _ A). f_equal.
  replace (day_number y m d + 1 + 3)%Z with ((day_number y m d + 3) + 1)%Z by lia. symmetry. apply next_mod.
Qed.
Print Assumptions C60_fields.
Print Assumptions C60_weekday.
(** A leap day and the end of a year in a zone west of Greenwich *)
Example C60_sat2 : let t := Time 2000 2 29 23 4 5 (-34200) in
  time_ok t = true ∧ fmt_log t = B "Tue Feb 29 23:04:05 2000 -0930" ∧ day_after 2000 2 29 2000 3 1 ∧ day_after 2000 2 28 2000 2 29 ∧ day_after 1999 12 31 2000 1 1.
Proof.
  cbv zeta. split; [vm_compute; reflexivity|]. split; [vm_compute; reflexivity|]. assert (leap_year 2000) as L by (right; by exists 5%N). split; [|split].
  - apply (next_month 2000 2 29); [by apply leap_february|done].
  - apply (next_day 2000 2 28 29); [by apply leap_february|done].
  - by apply (next_year 1999 12 31).
Qed.
