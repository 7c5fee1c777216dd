(** * PropsNumber: numbers in options are read exactly (C92) *)
From Verif Require Import Base Uid Tree Branch Date Ws Fs Overlay Os Layers Mounts Space Manager Commands Cli SpecNumber.
From Coq Require Import Lia.
From stdpp Require Import prelude.

Definition value_test (c : ascii) : bool :=
  match digit_of c with
  | Some d => (d <? 36)%N && (bool_decide (small !! N.to_nat d = Some c) || bool_decide (capital !! N.to_nat d = Some c))
  | None => bool_decide (c ∉ small) && bool_decide (c ∉ capital)
  end.
Lemma all_bytes : forallb (λ i, value_test (n2b (N.of_nat i))) (seq 0 256) = true.
Proof. vm_compute. reflexivity. Qed.
Lemma all_values : forallb (λ i, match small !! i, capital !! i with Some c, Some c' => bool_decide (digit_of c = Some (N.of_nat i)) && bool_decide (digit_of c' = Some (N.of_nat i)) && bool_decide (c ≠ "_"%char) && bool_decide (c' ≠ "_"%char) | _, _ => false end) (seq 0 36) = true.
Proof. vm_compute. reflexivity. Qed.
Lemma value_below c d : digit_value c d → (d < 36)%N.
Proof. intros [H|H]; apply lookup_lt_Some in H; [change (length small) with 36 in H|change (length capital) with 36 in H]; lia. Qed.
Lemma digit_of_value c d : digit_of c = Some d ↔ digit_value c d.
Proof.
  split.
  - intros E. pose proof all_bytes as H. rewrite forallb_forall in H. specialize (H (N.to_nat (b2n c))). rewrite N2Nat.id in H.
    assert (n2b (b2n c) = c) as Q by apply ascii_N_embedding. rewrite Q in H. unfold value_test in H. rewrite E in H.
    specialize (H ltac:(apply in_seq; pose proof (N_ascii_bounded c); lia)). apply andb_true_iff in H as [_ H]. apply orb_true_iff in H as [H|H]; apply bool_decide_eq_true in H; [by left|by right].
  - intros V. pose proof (value_below _ _ V) as L. pose proof all_values as H. rewrite forallb_forall in H. specialize (H (N.to_nat d) ltac:(apply in_seq; lia)). rewrite N2Nat.id in H.
    destruct (small !! N.to_nat d) as [c1|] eqn:E1; [|done]. destruct (capital !! N.to_nat d) as [c2|] eqn:E2; [|done].
    apply andb_true_iff in H as [H _]. apply andb_true_iff in H as [H _]. apply andb_true_iff in H as [H1 H2]. apply bool_decide_eq_true in H1. apply bool_decide_eq_true in H2.
    destruct V as [V|V]; [rewrite E1 in V|rewrite E2 in V]; by injection V as <-.
Qed.
Lemma line_no_digit d : ¬ digit_value "_" d.
Proof. rewrite <-digit_of_value. by vm_compute. Qed.
Lemma places_grow b k s n : (1 ≤ b)%N → places b k s n → (k ≤ n)%N.
Proof. intros Hb H. induction H as [|k c d s n _ _ _ IH]; [done|]. nia. Qed.
(** The loop reads digits; lines are left out. *)
Lemma digits_read b max k s n : (1 ≤ b)%N → places b k s n → (k ≤ max)%N → parse_digits b max k s = if (n <=? max)%N then Some n else None.
Proof.
  intros Hb H. induction H as [k|k c d s n V D H IH]; intros Hk; cbn [parse_digits].
  - by rewrite (proj2 (N.leb_le _ _)).
  - rewrite decide_False by (intros ->; by apply line_no_digit in V). apply digit_of_value in V as ->. rewrite (proj2 (N.leb_gt _ _)) by done.
    destruct (N.ltb_spec max (k * b + d)) as [L|L]; [|by apply IH]. apply places_grow in H; [|done]. by rewrite (proj2 (N.leb_gt _ _)) by lia.
Qed.
Definition no_lines (s : bytes) : bytes := filter (λ c, c ≠ "_"%char) s.
Lemma digits_sound b max k s n : parse_digits b max k s = Some n → (k ≤ max)%N → places b k (no_lines s) n ∧ (n ≤ max)%N.
Proof.
  revert k. induction s as [|c s IH]; intros k; cbn [parse_digits]; [intros [= <-] H; split; [constructor|done]|].
  unfold no_lines. rewrite filter_cons. destruct (decide (c = "_"%char)) as [->|Nc].
  - rewrite decide_False by tauto. apply IH.
  - rewrite decide_True by done. destruct (digit_of c) as [d|] eqn:V; [|done]. destruct (N.leb_spec b d) as [|D]; [done|]. destruct (N.ltb_spec max (k * b + d)) as [|L]; [done|]. intros H _.
    destruct (IH _ H L) as [A1 A2]. split; [|done]. econstructor; [by apply digit_of_value|done|done].
Qed.
Lemma no_lines_id s : "_"%char ∉ s → no_lines s = s.
Proof.
  induction s as [|c s IH]; [done|]. intros H. apply not_elem_of_cons in H as [H1 H2]. unfold no_lines. rewrite filter_cons, decide_True by congruence. f_equal. by apply IH.
Qed.
Lemma places_no_line b k s n : places b k s n → "_"%char ∉ s.
Proof. intros H. induction H as [k|k c d s n V D H IH]; [by apply not_elem_of_nil|]. apply not_elem_of_cons. split; [intros <-; by apply line_no_digit in V|done]. Qed.
Lemma places_split b k s n c r : places b k s n → s = c :: r → ∃ d, digit_value c d ∧ (d < b)%N.
Proof. intros H ->. inversion H; subst. eauto. Qed.
Definition bases : list (ascii * N) := [("b", 2); ("B", 2); ("o", 8); ("O", 8); ("x", 16); ("X", 16)]%char%N.
(** What the second letter tells *)
Definition second_test (c : ascii) : bool :=
  let b := if (lower c =? b2n "b")%N then Some 2%N else if (lower c =? b2n "o")%N then Some 8%N else if (lower c =? b2n "x")%N then Some 16%N else None in
  match b with Some b => bool_decide ((c, b) ∈ bases) | None => bool_decide (c ∉ bases.*1) end.
Lemma all_seconds : forallb (λ i, second_test (n2b (N.of_nat i))) (seq 0 256) = true.
Proof. vm_compute. reflexivity. Qed.
Lemma second c : second_test c = true.
Proof.
  pose proof all_seconds as H. rewrite forallb_forall in H. specialize (H (N.to_nat (b2n c)) ltac:(apply in_seq; pose proof (N_ascii_bounded c); lia)). rewrite N2Nat.id in H.
  assert (n2b (b2n c) = c) as Q by apply ascii_N_embedding. by rewrite Q in H.
Qed.
Lemma base_prefixed p b c s : (p, b) ∈ bases → base_of ("0"%char :: p :: c :: s) = (b, c :: s) ∧ (1 ≤ b)%N ∧ p ≠ "_"%char.
Proof. intros H. unfold bases in H. repeat (apply elem_of_cons in H as [H|H]; [injection H as -> ->; split; [reflexivity|split; [lia|discriminate]]|]). by apply elem_of_nil in H. Qed.
Lemma base_octal s n : places 8 0 s n → base_of ("0"%char :: s) = (8%N, s).
Proof.
  intros H. destruct s as [|c [|c2 s]]; [done|done|]. destruct (places_split _ _ _ _ _ _ H eq_refl) as (d & V & L). cbn [base_of].
  assert (d ∈ [0; 1; 2; 3; 4; 5; 6; 7]%N) as Hd by (rewrite !elem_of_cons; lia).
  destruct V as [V|V]; repeat (apply elem_of_cons in Hd as [->|Hd]; [vm_compute in V; injection V as <-; reflexivity|]); by apply elem_of_nil in Hd.
Qed.
Lemma base_decimal c s : c ≠ "0"%char → base_of (c :: s) = (10%N, c :: s).
Proof. intros H. unfold base_of. by destruct c as [[] [] [] [] [] [] [] []]. Qed.
Lemma numeral_base s n : numeral s n → s ≠ [] ∧ "_"%char ∉ s ∧ (1 ≤ (base_of s).1)%N ∧ places (base_of s).1 0 (base_of s).2 n.
Proof.
  intros [c s' n' N H|s' n' H|p b c s' n' P H].
  - rewrite base_decimal by done. split; [done|]. split; [by eapply places_no_line|done].
  - rewrite (base_octal _ _ H). split; [done|]. split; [|done]. apply not_elem_of_cons. split; [done|by eapply places_no_line].
  - destruct (base_prefixed p b c s' P) as (-> & B1 & Np). split; [done|]. split; [|done]. apply not_elem_of_cons. split; [done|]. apply not_elem_of_cons. split; [congruence|by eapply places_no_line].
Qed.
(** A numeral is read as its value, if that is not too large. *)
Theorem C92_read : ∀ max s n, numeral s n → parse_uint max s = if (n <=? max)%N then Some n else None.
Proof.
  intros max s n H. destruct (numeral_base _ _ H) as (N & L & Hb & P). unfold parse_uint. destruct s as [|c s]; [done|]. rewrite (digits_read _ max _ _ _ Hb P) by lia.
  destruct (n <=? max)%N; [|done]. by rewrite decide_False.
Qed.
Lemma lines_only hex r : r ≠ [] → no_lines r = [] → lines_ok hex SawDigit r = false.
Proof.
  intros N E. destruct r as [|c r]; [done|]. unfold no_lines in E. rewrite filter_cons in E. destruct (decide (c ≠ "_"%char)) as [|Q]; [done|]. apply dec_stable in Q as ->.
  cbn [lines_ok]. replace ((((48 <=? b2n "_") && (b2n "_" <=? 57)) || hex && (97 <=? lower "_") && (lower "_" <=? 102)))%N with false by (by destruct hex).
  rewrite decide_True by done. destruct r as [|c r]; [done|]. rewrite filter_cons in E. destruct (decide (c ≠ "_"%char)) as [|Q]; [done|]. apply dec_stable in Q as ->.
  cbn [lines_ok]. replace ((((48 <=? b2n "_") && (b2n "_" <=? 57)) || hex && (97 <=? lower "_") && (lower "_" <=? 102)))%N with false by (by destruct hex). done.
Qed.
Lemma no_lines_cons c s : c ≠ "_"%char → no_lines (c :: s) = c :: no_lines s.
Proof. intros H. unfold no_lines. by rewrite filter_cons, decide_True. Qed.
(** Nothing else is read, but for lines between digits. *)
Theorem C92_only : ∀ max s n, parse_uint max s = Some n → numeral (no_lines s) n ∧ (n ≤ max)%N.
Proof.
  intros max s n E. unfold parse_uint in E. destruct s as [|c s]; [done|]. destruct (parse_digits _ max 0 _) as [n'|] eqn:Ep; [|done].
  assert (n' = n ∧ ("_"%char ∈ c :: s → underscore_ok (c :: s) = true)) as [-> U].
  { destruct (decide ("_"%char ∈ c :: s)); [destruct (underscore_ok (c :: s)); [|done]|]; injection E as ->; by split. }
  clear E. apply digits_sound in Ep as [P L]; [|lia]. split; [|done].
  destruct (decide (c = "0"%char)) as [->|N0].
  - rewrite no_lines_cons by done. destruct s as [|p [|c s]]; [by apply octal|by apply octal|]. pose proof (second p) as T. unfold second_test in T.
    assert (∀ b, (p, b) ∈ bases → places b 0 (no_lines (c :: s)) n → numeral ("0"%char :: no_lines (p :: c :: s)) n) as H.
    { intros b Hb Pb. destruct (base_prefixed p b c s Hb) as (_ & _ & Np). rewrite no_lines_cons by done. destruct (no_lines (c :: s)) as [|c' s'] eqn:En; [|by apply (prefixed p b)].
      exfalso. assert ("_"%char ∈ "0"%char :: p :: c :: s) as Hl. { do 2 apply elem_of_list_further. destruct (decide ("_"%char ∈ c :: s)) as [|Q]; [done|]. by rewrite no_lines_id in En. }
      specialize (U Hl). unfold underscore_ok in U. assert ((lower p =? b2n "b") || (lower p =? b2n "o") || (lower p =? b2n "x") = true)%N as Q.
      { unfold bases in Hb. repeat (apply elem_of_cons in Hb as [Hb|Hb]; [injection Hb as -> ->; reflexivity|]). by apply elem_of_nil in Hb. }
      rewrite Q, lines_only in U by done. done. }
    cbn [base_of] in P. destruct (lower p =? b2n "b")%N; [apply bool_decide_eq_true in T; by eapply H|]. destruct (lower p =? b2n "o")%N; [apply bool_decide_eq_true in T; by eapply H|]. destruct (lower p =? b2n "x")%N; [apply bool_decide_eq_true in T; by eapply H|].
    by apply octal.
  - rewrite base_decimal in P by done. cbn [fst snd] in P. assert (c ≠ "_"%char) as Nl.
    { intros ->. specialize (U ltac:(by left)). by cbn in U. }
    rewrite no_lines_cons in * by done. by apply decimal.
Qed.
(** The same with signs, for 64 bits *)
Definition in_64_bits (z : Z) : Prop := (- 2 ^ 63 ≤ z < 2 ^ 63)%Z.
Global Instance in_64_bits_dec z : Decision (in_64_bits z). Proof. unfold in_64_bits. apply _. Defined.
Lemma numeral_sign s n : numeral s n → ∃ c s', s = c :: s' ∧ c ≠ "-"%char ∧ c ≠ "+"%char.
Proof.
  intros [c s' n' N H|s' n' H|p b c s' n' P H]; [|by eexists _, _..]. destruct (places_split _ _ _ _ _ _ H eq_refl) as (d & V & _). exists c, s'. split; [done|].
  apply digit_of_value in V. split; intros ->; vm_compute in V; discriminate V.
Qed.
Lemma parse_plain c s : c ≠ "-"%char → c ≠ "+"%char → parse_int (c :: s) = match parse_uint max_uint64 (c :: s) with Some n => if (n <? 2 ^ 63)%N then Some (Z.of_N n) else None | None => None end.
Proof. intros H1 H2. unfold parse_int. by destruct c as [[] [] [] [] [] [] [] []]. Qed.
Theorem C92_signed : ∀ s z, signed s z → parse_int s = if decide (in_64_bits z) then Some z else None.
Proof.
  assert (∀ s n, numeral s n → match parse_uint max_uint64 s with Some n => if (n <? 2 ^ 63)%N then Some (Z.of_N n) else None | None => None end = if decide (in_64_bits (Z.of_N n)) then Some (Z.of_N n) else None) as Pos.
  { intros s n H. rewrite (C92_read _ _ _ H). unfold in_64_bits. change (2 ^ 63)%Z with (Z.of_N (2 ^ 63)). destruct (N.leb_spec n max_uint64) as [L|L].
    - destruct (N.ltb_spec n (2 ^ 63)) as [L2|L2]; [rewrite decide_True by lia|rewrite decide_False by lia]; done.
    - rewrite decide_False; [done|]. assert (2 ^ 63 < max_uint64)%N by done. lia. }
  intros s z [s' n H|s' n H|s' n H].
  - destruct (numeral_sign _ _ H) as (c & r & -> & H1 & H2). rewrite parse_plain by done. by apply Pos.
  - cbn [parse_int]. by apply Pos.
  - cbn [parse_int]. rewrite (C92_read _ _ _ H). unfold in_64_bits. change (2 ^ 63)%Z with (Z.of_N (2 ^ 63)). assert (2 ^ 63 < max_uint64)%N as M by done. destruct (N.leb_spec n max_uint64) as [L|L].
    + destruct (N.leb_spec n (2 ^ 63)) as [L2|L2]; [rewrite decide_True by lia|rewrite decide_False by lia]; done.
    + rewrite decide_False; [done|lia].
Qed.
Theorem C92_only_signed : ∀ s z, parse_int s = Some z → signed (no_lines s) z ∧ in_64_bits z.
Proof.
  assert (∀ s n, parse_uint max_uint64 s = Some n → (n < 2 ^ 63)%N → numeral (no_lines s) n ∧ in_64_bits (Z.of_N n)) as Pos.
  { intros s n H L. apply C92_only in H as [H _]. split; [done|]. unfold in_64_bits. change (2 ^ 63)%Z with (Z.of_N (2 ^ 63)). lia. }
  intros s z E. destruct s as [|c s]; [done|]. destruct (decide (c = "-"%char)) as [->|N1]; [|destruct (decide (c = "+"%char)) as [->|N2]].
  - cbn [parse_int] in E. destruct (parse_uint max_uint64 s) as [n|] eqn:P; [|done]. destruct (N.leb_spec n (2 ^ 63)) as [L|]; [|done]. injection E as <-. apply C92_only in P as [P _].
    rewrite no_lines_cons by done. split; [by constructor|]. unfold in_64_bits. change (2 ^ 63)%Z with (Z.of_N (2 ^ 63)). lia.
  - cbn [parse_int] in E. destruct (parse_uint max_uint64 s) as [n|] eqn:P; [|done]. destruct (N.ltb_spec n (2 ^ 63)) as [L|]; [|done]. injection E as <-. destruct (Pos _ _ P L) as [A1 A2].
    rewrite no_lines_cons by done. split; [by constructor|done].
  - rewrite parse_plain in E by done. destruct (parse_uint max_uint64 (c :: s)) as [n|] eqn:P; [|done]. destruct (N.ltb_spec n (2 ^ 63)) as [L|]; [|done]. injection E as <-. destruct (Pos _ _ P L) as [A1 A2].
    split; [by constructor|done].
Qed.
(** With lines: exactly what is written by the rules is read. *)
Definition counts (hex : bool) (c : ascii) : bool := (((48 <=? b2n c) && (b2n c <=? 57)) || (hex && (97 <=? lower c) && (lower c <=? 102)))%N.
Definition counts_test (c : ascii) : bool :=
  match digit_of c with Some d => (if (d <? 10)%N then counts false c && counts true c else true) && (if (d <? 16)%N then counts true c else true) | None => true end.
Lemma all_counts : forallb (λ i, counts_test (n2b (N.of_nat i))) (seq 0 256) = true.
Proof. vm_compute. reflexivity. Qed.
Definition same_digits (hex : bool) (b : N) : Prop := (hex = false ∧ (b ≤ 10)%N) ∨ (hex = true ∧ b = 16%N).
Lemma digit_counts hex b c d : same_digits hex b → digit_of c = Some d → (d < b)%N → counts hex c = true.
Proof.
  intros S E L. pose proof all_counts as H. rewrite forallb_forall in H. specialize (H (N.to_nat (b2n c)) ltac:(apply in_seq; pose proof (N_ascii_bounded c); lia)). rewrite N2Nat.id in H.
  assert (n2b (b2n c) = c) as Q by apply ascii_N_embedding. rewrite Q in H. unfold counts_test in H. rewrite E in H. apply andb_true_iff in H as [H1 H2].
  destruct S as [[-> Lb]|[-> ->]].
  - rewrite (proj2 (N.ltb_lt _ _)) in H1 by lia. by apply andb_true_iff in H1 as [? _].
  - by rewrite (proj2 (N.ltb_lt _ _)) in H2 by lia.
Qed.
Lemma line_counts hex : counts hex "_" = false.
Proof. by destruct hex. Qed.
Lemma lines_digit hex l c s : counts hex c = true → lines_ok hex l (c :: s) = lines_ok hex SawDigit s.
Proof. intros H. cbn [lines_ok]. unfold counts in H. by rewrite H. Qed.
Lemma lines_line hex l s : lines_ok hex l ("_"%char :: s) = match l with SawDigit => lines_ok hex SawLine s | _ => false end.
Proof. cbn [lines_ok]. pose proof (line_counts hex) as H. unfold counts in H. rewrite H. by rewrite decide_True. Qed.
Definition allows (a : bool) (l : saw) : Prop := if a then l = SawDigit else l = SawStart ∨ l = SawLine.
Lemma spaced_grow b a k s n : (1 ≤ b)%N → spaced b a k s n → (k ≤ n)%N.
Proof. intros Hb H. induction H as [|a k c d s n _ _ _ IH|]; [done| |done]. nia. Qed.
Lemma spaced_reads b hex max a k s n l : same_digits hex b → (1 ≤ b)%N → spaced b a k s n → (n ≤ max)%N → allows a l → parse_digits b max k s = Some n ∧ lines_ok hex l s = true.
Proof.
  intros S Hb H L. revert l. induction H as [k|a k c d s n V D H IH|k s n H IH]; intros l Hl.
  - rewrite Hl. done.
  - cbn [parse_digits]. rewrite decide_False by (intros ->; by apply line_no_digit in V). apply digit_of_value in V as V'. rewrite V', (proj2 (N.leb_gt _ _)) by done.
    pose proof (spaced_grow _ _ _ _ _ Hb H) as Gr. rewrite (proj2 (N.ltb_ge _ _)) by lia. rewrite lines_digit by (by eapply digit_counts). by apply IH.
  - cbn [allows] in Hl. subst l. rewrite lines_line. cbn [parse_digits]. rewrite decide_True by done. apply IH; [done|by right].
Qed.
Lemma reads_spaced b hex max a k s n l : same_digits hex b → parse_digits b max k s = Some n → lines_ok hex l s = true → (k ≤ max)%N → allows a l → (l = SawStart → s ≠ []) → spaced b a k s n ∧ (n ≤ max)%N.
Proof.
  intros S. revert a k l. induction s as [|c s IH]; intros a k l P O L Hl Hs.
  - cbn [parse_digits] in P. injection P as <-. destruct a; [split; [constructor|done]|]. destruct Hl as [->| ->]; [by destruct (Hs eq_refl)|done].
  - destruct (decide (c = "_"%char)) as [->|Nc].
    + rewrite lines_line in O. cbn [parse_digits] in P. rewrite decide_True in P by done. destruct a; [|by destruct Hl as [->| ->]]. cbn [allows] in Hl. subst l.
      destruct (IH false k SawLine P O L (or_intror eq_refl) ltac:(done)) as [A1 A2]. split; [by constructor|done].
    + cbn [parse_digits] in P. rewrite decide_False in P by done. destruct (digit_of c) as [d|] eqn:V; [|done]. destruct (N.leb_spec b d) as [|D]; [done|]. destruct (N.ltb_spec max (k * b + d)) as [|L2]; [done|].
      rewrite lines_digit in O by (by eapply digit_counts). destruct (IH true _ SawDigit P O L2 eq_refl ltac:(done)) as [A1 A2]. split; [|done]. econstructor; [by apply digit_of_value|done|done].
Qed.
Lemma plain_lines b hex max k s n : same_digits hex b → parse_digits b max k s = Some n → "_"%char ∉ s → lines_ok hex SawDigit s = true.
Proof.
  intros S. revert k. induction s as [|c s IH]; intros k P Nl; [done|]. apply not_elem_of_cons in Nl as [N1 N2]. cbn [parse_digits] in P. rewrite decide_False in P by congruence.
  destruct (digit_of c) as [d|] eqn:V; [|done]. destruct (N.leb_spec b d) as [|D]; [done|]. destruct (N.ltb_spec max (k * b + d)) as [|L2]; [done|]. rewrite lines_digit by (by eapply digit_counts). by eapply IH.
Qed.
Lemma prefix_base p b : (p, b) ∈ bases → ∀ c s, base_of ("0"%char :: p :: c :: s) = (b, c :: s) ∧ underscore_ok ("0"%char :: p :: c :: s) = lines_ok (b =? 16)%N SawDigit (c :: s) ∧ same_digits (b =? 16)%N b ∧ (1 ≤ b)%N.
Proof.
  intros H c s. unfold bases in H.
  repeat (apply elem_of_cons in H as [H|H]; [injection H as -> ->; split; [reflexivity|split; [reflexivity|split; [first [left; split; [reflexivity|lia]|right; split; reflexivity]|lia]]]|]). by apply elem_of_nil in H.
Qed.
Lemma no_prefix p b : (p, b) ∈ bases → ∀ d, digit_value p d → (8 ≤ d)%N.
Proof.
  intros H d V. apply digit_of_value in V. unfold bases in H. repeat (apply elem_of_cons in H as [H|H]; [injection H as -> ->; vm_compute in V; injection V as <-; lia|]). by apply elem_of_nil in H.
Qed.
(** Texts with a leading 0 that have no prefix *)
Lemma octal_base s : (∀ p c r, s = p :: c :: r → p ∉ bases.*1) → base_of ("0"%char :: s) = (8%N, s).
Proof.
  intros H. destruct s as [|p [|c r]]; [done|done|]. specialize (H p c r eq_refl). pose proof (second p) as T. unfold second_test in T. cbn [base_of].
  assert (∀ b, (p, b) ∈ bases → False) as X by (intros b Hb; apply H; apply elem_of_list_fmap; by exists (p, b)).
  destruct (lower p =? b2n "b")%N; [apply bool_decide_eq_true in T; by apply X in T|]. destruct (lower p =? b2n "o")%N; [apply bool_decide_eq_true in T; by apply X in T|]. destruct (lower p =? b2n "x")%N; [apply bool_decide_eq_true in T; by apply X in T|]. done.
Qed.
Lemma octal_lines s : (∀ p r, s = p :: r → p ∉ bases.*1) → underscore_ok ("0"%char :: s) = lines_ok false SawDigit s.
Proof.
  intros H. destruct s as [|p r]; [done|]. specialize (H p r eq_refl). pose proof (second p) as T. unfold second_test in T. unfold underscore_ok.
  assert (∀ b, (p, b) ∈ bases → False) as X by (intros b Hb; apply H; apply elem_of_list_fmap; by exists (p, b)).
  destruct (lower p =? b2n "b")%N; [apply bool_decide_eq_true in T; by apply X in T|]. destruct (lower p =? b2n "o")%N; [apply bool_decide_eq_true in T; by apply X in T|]. destruct (lower p =? b2n "x")%N; [apply bool_decide_eq_true in T; by apply X in T|].
  cbn [orb]. by apply lines_digit.
Qed.
Lemma octal_first s n max : parse_digits 8 max 0 s = Some n → ∀ p r, s = p :: r → p ∉ bases.*1.
Proof.
  intros P p r -> H. apply elem_of_list_fmap in H as ((p' & b) & -> & H). cbn [fst] in P. cbn [parse_digits] in P. destruct (base_prefixed p' b "0" [] H) as (_ & _ & Np). rewrite decide_False in P by done.
  destruct (digit_of p') as [d|] eqn:V; [|done]. apply digit_of_value in V. pose proof (no_prefix _ _ H _ V) as L. by rewrite (proj2 (N.leb_le _ _)) in P by lia.
Qed.
Lemma decimal_lines c s : c ≠ "0"%char → underscore_ok (c :: s) = lines_ok false SawStart (c :: s).
Proof. intros H. unfold underscore_ok. by destruct c as [[] [] [] [] [] [] [] []]. Qed.
Theorem C92_exact : ∀ max s n, parse_uint max s = Some n ↔ written s n ∧ (n ≤ max)%N.
Proof.
  intros max s n.
  assert (s ≠ [] → parse_uint max s = Some n ↔ parse_digits (base_of s).1 max 0 (base_of s).2 = Some n ∧ ("_"%char ∈ s → underscore_ok s = true)) as Ep.
  { intros Ns. unfold parse_uint. destruct s as [|c s]; [done|]. destruct (parse_digits _ max 0 _) as [n'|]; [|naive_solver].
    destruct (decide ("_"%char ∈ c :: s)) as [I|I]; [|naive_solver]. destruct (underscore_ok (c :: s)); [naive_solver|]. split; [done|]. intros [_ Q]. by specialize (Q I). }
  assert (same_digits false 8 ∧ same_digits false 10) as [S8 S10] by (split; left; lia).
  split.
  - intros E. destruct (decide (s = [])) as [->|Ns]; [done|]. apply (Ep Ns) in E as [P U]. clear Ep. destruct s as [|c s]; [done|]. clear Ns.
    destruct (decide (c = "0"%char)) as [->|N0].
    + assert ((∃ p b c r, s = p :: c :: r ∧ (p, b) ∈ bases) ∨ ∀ p c r, s = p :: c :: r → p ∉ bases.*1) as [(p & b & c & r & -> & Hb)|Hn].
      { destruct s as [|p [|c r]]; [right; naive_solver..|]. destruct (decide (p ∈ bases.*1)) as [I|I]; [|right; naive_solver]. left. apply elem_of_list_fmap in I as ((p' & b) & -> & I). by exists p', b, c, r. }
      * destruct (prefix_base p b Hb c r) as (Eb & Eu & S & _). rewrite Eb in P. cbn [fst snd] in P. rewrite Eu in U.
        assert (lines_ok (b =? 16)%N SawDigit (c :: r) = true) as O.
        { destruct (decide ("_"%char ∈ c :: r)) as [I|I]; [apply U; by do 2 apply elem_of_list_further|by eapply plain_lines]. }
        destruct (reads_spaced _ _ _ true _ _ _ _ S P O ltac:(lia) eq_refl ltac:(done)) as [A1 A2]. split; [|done]. by apply (w_prefixed p b).
      * rewrite octal_base in P by done. cbn [fst snd] in P. pose proof (octal_first _ _ _ P) as Hf.
        assert (lines_ok false SawDigit s = true) as O.
        { destruct (decide ("_"%char ∈ s)) as [I|I]; [rewrite <-(octal_lines s Hf); apply U; by apply elem_of_list_further|exact (plain_lines _ _ _ _ _ _ S8 P I)]. }
        destruct (reads_spaced _ _ _ true _ _ _ _ S8 P O ltac:(lia) eq_refl ltac:(done)) as [A1 A2]. split; [|done]. by apply w_octal.
    + rewrite base_decimal in P by done. cbn [fst snd] in P. rewrite decimal_lines in U by done.
      assert (lines_ok false SawStart (c :: s) = true) as O.
      { destruct (decide ("_"%char ∈ c :: s)) as [I|I]; [by apply U|]. pose proof (plain_lines _ _ _ _ _ _ S10 P I) as O.
        cbn [parse_digits] in P. apply not_elem_of_cons in I as [I1 _]. rewrite decide_False in P by congruence. destruct (digit_of c) as [d|] eqn:V; [|done]. destruct (N.leb_spec 10 d) as [|D]; [done|].
        rewrite lines_digit in O |- * by (by eapply digit_counts). done. }
      destruct (reads_spaced _ _ _ false _ _ _ _ S10 P O ltac:(lia) (or_introl eq_refl) ltac:(done)) as [A1 A2]. split; [|done]. by apply w_decimal.
  - intros [W L]. apply Ep; [by destruct W|]. clear Ep. destruct W as [c s n N0 H|s n H|p b c s n Hb H].
    + rewrite base_decimal, decimal_lines by done. cbn [fst snd]. destruct (spaced_reads _ _ max _ _ _ _ SawStart S10 ltac:(lia) H L (or_introl eq_refl)) as [A1 A2]. by split.
    + destruct (spaced_reads _ _ max _ _ _ _ SawDigit S8 ltac:(lia) H L eq_refl) as [A1 A2]. pose proof (octal_first _ _ _ A1) as Hf. rewrite octal_lines by done. rewrite octal_base by (intros p c r Q; by apply (Hf p (c :: r))). by split.
    + destruct (prefix_base p b Hb c s) as (-> & -> & S & Hb1). cbn [fst snd]. destruct (spaced_reads _ _ max _ _ _ _ SawDigit S Hb1 H L eq_refl) as [A1 A2]. by split.
Qed.
Lemma written_sign s n : written s n → ∃ c s', s = c :: s' ∧ c ≠ "-"%char ∧ c ≠ "+"%char.
Proof.
  intros [c s' n' N H|s' n' H|p b c s' n' P H]; [|by eexists _, _..]. inversion H as [|a k c' d s2 n2 V D H2|]; subst. exists c, s'. split; [done|].
  apply digit_of_value in V. split; intros ->; vm_compute in V; discriminate V.
Qed.
Theorem C92_exact_signed : ∀ s z, parse_int s = Some z ↔ written_signed s z ∧ in_64_bits z.
Proof.
  assert (2 ^ 63 < max_uint64)%N as M by done.
  assert (∀ s z, match parse_uint max_uint64 s with Some n => if (n <? 2 ^ 63)%N then Some (Z.of_N n) else None | None => None end = Some z ↔ ∃ n, z = Z.of_N n ∧ written s n ∧ in_64_bits z) as Pos.
  { intros s z. unfold in_64_bits. change (2 ^ 63)%Z with (Z.of_N (2 ^ 63)). split.
    - destruct (parse_uint max_uint64 s) as [n|] eqn:P; [|done]. destruct (N.ltb_spec n (2 ^ 63)) as [L|]; [|done]. intros [= <-]. apply C92_exact in P as [P _]. exists n. split; [done|]. split; [done|lia].
    - intros (n & -> & W & I). rewrite (proj2 (C92_exact max_uint64 s n)) by (split; [done|lia]). by rewrite (proj2 (N.ltb_lt _ _)) by lia. }
  intros s z. split.
  - intros E. destruct s as [|c s]; [done|]. destruct (decide (c = "-"%char)) as [->|N1]; [|destruct (decide (c = "+"%char)) as [->|N2]].
    + cbn [parse_int] in E. destruct (parse_uint max_uint64 s) as [n|] eqn:P; [|done]. destruct (N.leb_spec n (2 ^ 63)) as [L|]; [|done]. injection E as <-. apply C92_exact in P as [P _].
      split; [by constructor|]. unfold in_64_bits. change (2 ^ 63)%Z with (Z.of_N (2 ^ 63)). lia.
    + cbn [parse_int] in E. apply Pos in E as (n & -> & W & I). split; [by constructor|done].
    + rewrite parse_plain in E by done. apply Pos in E as (n & -> & W & I). split; [by constructor|done].
  - intros [W I]. destruct W as [s n H|s n H|s n H].
    + destruct (written_sign _ _ H) as (c & r & -> & H1 & H2). rewrite parse_plain by done. apply Pos. by exists n.
    + cbn [parse_int]. apply Pos. by exists n.
    + cbn [parse_int]. unfold in_64_bits in I. change (2 ^ 63)%Z with (Z.of_N (2 ^ 63)) in I. rewrite (proj2 (C92_exact max_uint64 s n)) by (split; [done|lia]). by rewrite (proj2 (N.leb_le _ _)) by lia.
Qed.
(** So what the options --uid, --gid and --verbose are set to is what their last values say. Options that are not given leave the owner as it is, and tell little. *)
Theorem C92_options : ∀ i name s z, last_set (i_sets i) name = Some s → written_signed s z → in_64_bits z → opt_int i name = z.
Proof. intros i name s z E S I. unfold opt_int. rewrite E. cbn [mbind option_bind]. by rewrite (proj2 (C92_exact_signed s z) (conj S I)). Qed.
Theorem C92_verbose : ∀ i s n, last_set (i_sets i) (B "verbose") = Some s → written s n → (n < 2 ^ 32)%N → verbosity i = n.
Proof.
  intros i s n E S I. unfold verbosity. rewrite E. cbn [mbind option_bind]. rewrite (proj2 (C92_exact max_uint32 s n)); [done|]. split; [done|]. assert (max_uint32 = 2 ^ 32 - 1)%N by done. lia.
Qed.
Theorem C92_not_given : ∀ i name, last_set (i_sets i) name = None → opt_int i name = (-1)%Z ∧ (name = B "verbose" → verbosity i = 0%N).
Proof. intros i name E. split; [unfold opt_int; by rewrite E|]. intros ->. unfold verbosity. by rewrite E. Qed.
Print Assumptions C92_read.
Print Assumptions C92_only.
Print Assumptions C92_signed.
Print Assumptions C92_only_signed.
Print Assumptions C92_exact.
Print Assumptions C92_exact_signed.
Print Assumptions C92_options.
Print Assumptions C92_verbose.
Print Assumptions C92_not_given.
(** -1 leaves the owner as it is; 0x3E8 and 1_000 are 1000; 010 is 8; 08, 1__0 and numbers that do not fit are refused. *)
Example C92_sat : signed (B "-1") (-1) ∧ numeral (B "0x3E8") 1000 ∧ numeral (B "010") 8 ∧ written (B "0x_ff") 255 ∧ ¬ (∃ n, written (B "0_x1") n) ∧
  parse_int (B "-1") = Some (-1)%Z ∧ parse_uint max_uint32 (B "0x3E8") = Some 1000%N ∧ parse_uint max_uint32 (B "1_000") = Some 1000%N ∧ parse_uint max_uint32 (B "010") = Some 8%N ∧
  parse_uint max_uint32 (B "08") = None ∧ parse_uint max_uint32 (B "1__0") = None ∧ parse_uint max_uint32 (B "4294967296") = None ∧ parse_int (B "-9223372036854775809") = None.
Proof.
  assert (∀ c d, digit_of c = Some d → digit_value c d) as V by (intros c d; apply digit_of_value).
  split. { apply (SpecNumber.minus (B "1") 1). apply decimal; [discriminate|]. apply (one_more _ _ _ 1%N); [apply V; reflexivity|done|]. constructor. }
  split. { apply (prefixed "x" 16); [do 4 apply elem_of_list_further; by left|]. apply (one_more _ _ _ 3%N); [apply V; reflexivity|done|]. apply (one_more _ _ _ 14%N); [apply V; reflexivity|done|]. apply (one_more _ _ _ 8%N); [apply V; reflexivity|done|]. constructor. }
  split. { apply octal. apply (one_more _ _ _ 1%N); [apply V; reflexivity|done|]. apply (one_more _ _ _ 0%N); [apply V; reflexivity|done|]. constructor. }
  split. { apply (C92_exact 255). vm_compute. reflexivity. }
  split. { intros [n H]. assert (parse_uint n (B "0_x1") = Some n) as Q by (apply C92_exact; split; [exact H|apply N.le_refl]). cbn in Q. discriminate Q. }
  split; [vm_compute; reflexivity|]. split; [vm_compute; reflexivity|]. split; [vm_compute; reflexivity|]. split; [vm_compute; reflexivity|]. split; [vm_compute; reflexivity|]. split; [vm_compute; reflexivity|]. split; vm_compute; reflexivity.
Qed.
