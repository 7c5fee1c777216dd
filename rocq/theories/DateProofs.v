(** * DateProofs: what is written is read back. *)
From Verif Require Import Base Date.
From Coq Require Import Lia.
From stdpp Require Import prelude.

Lemma num2_fmt2 n r : (n < 100)%N → num2 (fmt2 n ++ r) = Some (n, r).
Proof.
  intros H. assert (forallb (λ i, match num2 (fmt2 (N.of_nat i)) with Some (x, []) => (x =? N.of_nat i)%N | _ => false end)
    (seq 0 100) = true) as A by (vm_compute; reflexivity).
  rewrite forallb_forall in A. specialize (A (N.to_nat n)).
  rewrite N2Nat.id in A. unfold fmt2 in *. cbn [app num2] in *.
  destruct (dig _) as [x|]; [|discriminate A; apply in_seq; lia].
  destruct (dig _) as [y|]; [|discriminate A; apply in_seq; lia].
  assert (x * 10 + y = n)%N as ->; [|done]. apply N.eqb_eq, A, in_seq. lia.
Qed.
Lemma num4_fmt4 n r : (n < 10000)%N → num4 (fmt4 n ++ r) = Some (n, r).
Proof.
  intros H. unfold num4, fmt4. rewrite <-app_assoc, num2_fmt2; [|by apply N.div_lt_upper_bound].
  rewrite num2_fmt2 by (by apply N.mod_lt). f_equal. f_equal. symmetry. rewrite N.mul_comm. by apply N.div_mod.
Qed.
Lemma lit_app c r : lit c (c :: r) = Some r.
Proof. unfold lit. by rewrite decide_True. Qed.

(** Zone offsets in whole minutes, less than a day. *)
Definition zone_ok (off : Z) : Prop := (off = 60 * (Z.quot off 60) ∧ -86400 < off < 86400)%Z.
Definition good_time (t : time) : Prop := (tm_year t < 10000)%N ∧ time_ok t = true ∧ zone_ok (tm_off t).

Lemma parse_zone_fmt off : zone_ok off → parse_zone (fmt_zone off) = Some off.
Proof.
  intros [H1 H2]. unfold fmt_zone. destruct (Z.eqb_spec off 0) as [->|N]; [done|].
  set (z := Z.quot off 60) in *. clearbody z.
  assert (Z.abs_N z < 1440)%N as B by lia.
  assert (z ≠ 0)%Z as Nz by lia.
  assert (Z.abs_N z / 60 < 24)%N as B1 by (apply N.div_lt_upper_bound; lia).
  assert (Z.abs_N z mod 60 < 60)%N as B2 by (by apply N.mod_lt).
  assert (Z.abs_N z / 60 * 60 + Z.abs_N z mod 60 = Z.abs_N z)%N as E.
  { rewrite N.mul_comm. symmetry. by apply N.div_mod. }
  set (h := (Z.abs_N z / 60)%N) in *. set (m := (Z.abs_N z mod 60)%N) in *. clearbody h m.
  assert (((h <=? 23) && (m <=? 59))%N = true) as C.
  { apply andb_true_iff. split; apply N.leb_le; lia. }
  destruct (Z.ltb_spec z 0); cbn [list_ascii_of_string app].
  - cbn [parse_zone]. rewrite decide_False by done. rewrite decide_True by (by right).
    rewrite num2_fmt2 by lia. cbn [mbind option_bind]. rewrite lit_app. cbn [mbind option_bind].
    rewrite <-(app_nil_r (fmt2 m)), num2_fmt2 by lia. cbn [mbind option_bind]. rewrite C.
    rewrite decide_True by done. f_equal. rewrite E. lia.
  - cbn [parse_zone]. rewrite decide_False by done. rewrite decide_True by (by left).
    rewrite num2_fmt2 by lia. cbn [mbind option_bind]. rewrite lit_app. cbn [mbind option_bind].
    rewrite <-(app_nil_r (fmt2 m)), num2_fmt2 by lia. cbn [mbind option_bind]. rewrite C.
    rewrite decide_False by done. f_equal. rewrite E. lia.
Qed.
Lemma time_ok_bounds t : time_ok t = true →
  (tm_mon t < 100 ∧ tm_day t < 100 ∧ tm_hour t < 100 ∧ tm_min t < 100 ∧ tm_sec t < 100)%N.
Proof.
  unfold time_ok. rewrite !andb_true_iff, !N.leb_le. intros [[[[[[? ?] ?] Hd] ?] ?] ?].
  assert (days_in (tm_year t) (tm_mon t) <= 31)%N.
  { unfold days_in. repeat case_match; lia. }
  lia.
Qed.
Lemma parse_fmt t : good_time t → parse_rfc3339 (fmt_rfc3339 t) = Some t.
Proof.
  intros (Hy & Hok & Hz). destruct (time_ok_bounds t Hok) as (B1 & B2 & B3 & B4 & B5).
  unfold parse_rfc3339, fmt_rfc3339.
  rewrite num4_fmt4 by done. cbn [mbind option_bind list_ascii_of_string app]. rewrite lit_app. cbn [mbind option_bind].
  rewrite num2_fmt2 by done. cbn [mbind option_bind list_ascii_of_string app]. rewrite lit_app. cbn [mbind option_bind].
  rewrite num2_fmt2 by done. cbn [mbind option_bind list_ascii_of_string app]. rewrite lit_app. cbn [mbind option_bind].
  rewrite num2_fmt2 by done. cbn [mbind option_bind list_ascii_of_string app]. rewrite lit_app. cbn [mbind option_bind].
  rewrite num2_fmt2 by done. cbn [mbind option_bind list_ascii_of_string app]. rewrite lit_app. cbn [mbind option_bind].
  rewrite num2_fmt2 by done. cbn [mbind option_bind list_ascii_of_string app].
  rewrite parse_zone_fmt by done. cbn [mbind option_bind].
  destruct t. cbn in *. by rewrite Hok.
Qed.
Lemma fmt2_length n : length (fmt2 n) = 2.
Proof. done. Qed.
(** What comes back of any time: the offset without its seconds. *)
Definition whole_minutes (t : time) : time :=
  Time (tm_year t) (tm_mon t) (tm_day t) (tm_hour t) (tm_min t) (tm_sec t) (60 * Z.quot (tm_off t) 60).
Lemma fmt_whole t : (Z.quot (tm_off t) 60 ≠ 0)%Z → fmt_rfc3339 t = fmt_rfc3339 (whole_minutes t).
Proof.
  intros N. unfold fmt_rfc3339, whole_minutes. cbn [tm_year tm_mon tm_day tm_hour tm_min tm_sec tm_off].
  do 11 f_equal. unfold fmt_zone. 
  destruct (Z.eqb_spec (tm_off t) 0) as [E|E]; [by rewrite E in N|].
  destruct (Z.eqb_spec (60 * Z.quot (tm_off t) 60) 0) as [E'|E']; [lia|].
  rewrite (Z.mul_comm 60), Z.quot_mul by done. done.
Qed.
