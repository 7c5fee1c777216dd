(** * Lemmas about the command line *)
From Coq Require Import Lia.
From stdpp Require Import prelude gmap.
From Verif Require Import Base Fs Errors Ws Os Commands Cli.

Lemma two_step {A} (P : list A → Prop) :
  P [] → (∀ s r, P r → (∀ v r', r = v :: r' → P r') → P (s :: r)) → ∀ l, P l.
Proof.
  intros H0 H1 l. cut (P l ∧ ∀ v r', l = v :: r' → P r'); [tauto|].
  induction l as [|s r [IH1 IH2]]; split; [exact H0|done| |].
  - by apply H1.
  - intros v r' [= -> ->]. done.
Qed.

(** ** Find *)
Lemma strip_app fs args ex x l :
  strip_flags fs args = x :: l → ∃ l', strip_flags fs (args ++ ex) = x :: l'.
Proof.
  revert args l. apply (two_step (λ args, ∀ l, strip_flags fs args = x :: l → ∃ l', strip_flags fs (args ++ ex) = x :: l')).
  { done. }
  intros s r IH1 IH2 l. cbn [strip_flags app].
  destruct (decide _); [done|].
  destruct (takes_next fs s).
  - destruct r as [|v [|w r]]; [done..|]. cbn [app]. apply (IH2 v (w :: r) eq_refl).
  - destruct (decide _); [|apply IH1]. intros [= -> <-]. eauto.
Qed.
Lemma minus_app fs args ex x l :
  strip_flags fs args = x :: l → args_minus_first fs (args ++ ex) x = args_minus_first fs args x ++ ex.
Proof.
  revert args l.
  apply (two_step (λ args, ∀ l, strip_flags fs args = x :: l → args_minus_first fs (args ++ ex) x = args_minus_first fs args x ++ ex)).
  { done. }
  intros s r IH1 IH2 l. cbn [strip_flags app args_minus_first].
  destruct (decide (s = _)); [done|].
  destruct (takes_next fs s).
  - destruct r as [|v [|w r]]; [done..|]. intros H. cbn [app].
    change (s :: v :: args_minus_first fs ((w :: r) ++ ex) x = (s :: v :: args_minus_first fs (w :: r) x) ++ ex).
    by rewrite (IH2 v (w :: r) eq_refl l H).
  - destruct (decide (s ≠ [] ∧ _)) as [[Hne Hd]|Hn].
    + intros [= -> <-]. by rewrite !decide_True.
    + intros H. destruct (decide (dashed s = false ∧ s = x)) as [[Hd ->]|_]; [done|].
      cbn [app]. by rewrite (IH1 l H).
Qed.
(** Lines with an own command: the arguments that are left *)
Lemma find_cmd_app args ex c rest :
  find_cmd args = Ok (c, rest) → c ≠ CRoot → find_cmd (args ++ ex) = Ok (c, rest ++ ex).
Proof.
  unfold find_cmd. destruct (strip_flags global_flags args) as [|x l] eqn:E; [by intros [= <- <-]|].
  destruct (strip_app _ _ ex _ _ E) as [l' ->]. destruct (find_next x); [|done].
  intros [= <- <-] _. by rewrite (minus_app _ _ _ _ _ E).
Qed.

(** ** Parse *)
Lemma parse_app fs args p ex q :
  parse_args fs args = Ok p → p_dash p = false → parse_args fs ex = Ok q →
  parse_args fs (args ++ ex) = Ok (Parsed (p_sets p ++ p_sets q) (p_args p ++ p_args q) (p_dash q)).
Proof.
  intros Hp Hd Hq. revert args p Hp Hd.
  apply (two_step (λ args, ∀ p, parse_args fs args = Ok p → p_dash p = false →
    parse_args fs (args ++ ex) = Ok (Parsed (p_sets p ++ p_sets q) (p_args p ++ p_args q) (p_dash q)))).
  { intros p [= <-] _. cbn [app p_sets p_args]. rewrite Hq. by destruct q. }
  intros s r IH1 IH2 p. cbn [parse_args app].
  assert (Hgen : ∀ e : res effect,
    (e ← e; match e.2 with
       | None => p ← parse_args fs r; Ok (Parsed (e.1 ++ p_sets p) (p_args p) (p_dash p))
       | Some f => match r with
           | [] => Err EOptions
           | v :: rest' => s ← set_flag f v; p ← parse_args fs rest'; Ok (Parsed (e.1 ++ s :: p_sets p) (p_args p) (p_dash p))
           end
       end) = Ok p → p_dash p = false →
    (e ← e; match e.2 with
       | None => p ← parse_args fs (r ++ ex); Ok (Parsed (e.1 ++ p_sets p) (p_args p) (p_dash p))
       | Some f => match r ++ ex with
           | [] => Err EOptions
           | v :: rest' => s ← set_flag f v; p ← parse_args fs rest'; Ok (Parsed (e.1 ++ s :: p_sets p) (p_args p) (p_dash p))
           end
       end) = Ok (Parsed (p_sets p ++ p_sets q) (p_args p ++ p_args q) (p_dash q))).
  { intros [[sets [f|]]|? | | |]; try done; cbn [mbind res_bind rbind fst snd].
    - destruct r as [|v r']; [done|]. cbn [app]. destruct (set_flag f v) as [st| | | |]; try done. cbn [rbind].
      destruct (parse_args fs r') as [p'| | | |] eqn:E; try done. cbn [rbind].
      intros [= <-] Hd. cbn [p_sets p_args p_dash] in *.
      rewrite (IH2 v r' eq_refl p' E Hd). cbn [rbind p_sets p_args p_dash]. by rewrite <- app_assoc.
    - destruct (parse_args fs r) as [p'| | | |] eqn:E; try done. cbn [rbind].
      intros [= <-] Hd. cbn [p_sets p_args p_dash] in *.
      rewrite (IH1 p' eq_refl Hd). cbn [rbind p_sets p_args p_dash]. by rewrite <- app_assoc. }
  destruct (token_of s); [|by intros [= <-]|apply Hgen|apply Hgen].
  destruct (parse_args fs r) as [p'| | | |] eqn:E; try done. cbn [mbind res_bind rbind].
  intros [= <-] Hd. cbn [p_sets p_args p_dash] in *.
  rewrite (IH1 p' eq_refl Hd). done.
Qed.
Lemma parse_app_dash fs args p ex :
  parse_args fs args = Ok p → p_dash p = true →
  parse_args fs (args ++ ex) = Ok (Parsed (p_sets p) (p_args p ++ ex) true).
Proof.
  revert args p.
  apply (two_step (λ args, ∀ p, parse_args fs args = Ok p → p_dash p = true →
    parse_args fs (args ++ ex) = Ok (Parsed (p_sets p) (p_args p ++ ex) true))).
  { by intros p [= <-]. }
  intros s r IH1 IH2 p. cbn [parse_args app].
  assert (Hgen : ∀ e : res effect,
    (e ← e; match e.2 with
       | None => p ← parse_args fs r; Ok (Parsed (e.1 ++ p_sets p) (p_args p) (p_dash p))
       | Some f => match r with
           | [] => Err EOptions
           | v :: rest' => s ← set_flag f v; p ← parse_args fs rest'; Ok (Parsed (e.1 ++ s :: p_sets p) (p_args p) (p_dash p))
           end
       end) = Ok p → p_dash p = true →
    (e ← e; match e.2 with
       | None => p ← parse_args fs (r ++ ex); Ok (Parsed (e.1 ++ p_sets p) (p_args p) (p_dash p))
       | Some f => match r ++ ex with
           | [] => Err EOptions
           | v :: rest' => s ← set_flag f v; p ← parse_args fs rest'; Ok (Parsed (e.1 ++ s :: p_sets p) (p_args p) (p_dash p))
           end
       end) = Ok (Parsed (p_sets p) (p_args p ++ ex) true)).
  { intros [[sets [f|]]|? | | |]; try done; cbn [mbind res_bind rbind fst snd].
    - destruct r as [|v r']; [done|]. cbn [app]. destruct (set_flag f v) as [st| | | |]; try done. cbn [rbind].
      destruct (parse_args fs r') as [p'| | | |] eqn:E; try done. cbn [rbind].
      intros [= <-] Hd. cbn [p_sets p_args p_dash] in *.
      rewrite (IH2 v r' eq_refl p' E Hd). done.
    - destruct (parse_args fs r) as [p'| | | |] eqn:E; try done. cbn [rbind].
      intros [= <-] Hd. cbn [p_sets p_args p_dash] in *.
      rewrite (IH1 p' eq_refl Hd). done. }
  destruct (token_of s); [|by intros [= <-]|apply Hgen|apply Hgen].
  destruct (parse_args fs r) as [p'| | | |] eqn:E; try done. cbn [mbind res_bind rbind].
  intros [= <-] Hd. cbn [p_sets p_args p_dash] in *.
  rewrite (IH1 p' eq_refl Hd). done.
Qed.
(** "--" is met only if it is there. *)
Lemma token_dash s : token_of s = TDash → s = B "--".
Proof.
  destruct s as [|a [|b [|c s]]]; cbn [token_of]; [done| | |];
    repeat (let x := fresh "x" in
            match goal with |- context [match ?a with Ascii _ _ _ _ _ _ _ _ => _ end] =>
              destruct a as [[] [] [] [] [] [] [] []] end); done.
Qed.
Lemma dash_in fs args p : parse_args fs args = Ok p → p_dash p = true → B "--" ∈ args.
Proof.
  revert args p. apply (two_step (λ args, ∀ p, parse_args fs args = Ok p → p_dash p = true → B "--" ∈ args)).
  { by intros p [= <-]. }
  intros s r IH1 IH2 p. cbn [parse_args].
  assert (Hgen : ∀ e : res effect,
    (e ← e; match e.2 with
       | None => p ← parse_args fs r; Ok (Parsed (e.1 ++ p_sets p) (p_args p) (p_dash p))
       | Some f => match r with
           | [] => Err EOptions
           | v :: rest' => s ← set_flag f v; p ← parse_args fs rest'; Ok (Parsed (e.1 ++ s :: p_sets p) (p_args p) (p_dash p))
           end
       end) = Ok p → p_dash p = true → B "--" ∈ s :: r).
  { intros [[sets [f|]]|? | | |]; try done; cbn [mbind res_bind rbind fst snd].
    - destruct r as [|v r']; [done|]. destruct (set_flag f v) as [st| | | |]; try done. cbn [rbind].
      destruct (parse_args fs r') as [p'| | | |] eqn:E; try done. cbn [rbind].
      intros [= <-] Hd. do 2 right. by apply (IH2 v r' eq_refl p' E Hd).
    - destruct (parse_args fs r) as [p'| | | |] eqn:E; try done. cbn [rbind].
      intros [= <-] Hd. right. by apply (IH1 p' eq_refl Hd). }
  destruct (token_of s) eqn:Et; [| |apply Hgen|apply Hgen].
  - destruct (parse_args fs r) as [p'| | | |] eqn:E; try done. cbn [mbind res_bind rbind].
    intros [= <-] Hd. right. by apply (IH1 p' eq_refl Hd).
  - intros _ _. apply token_dash in Et as ->. left.
Qed.
Lemma minus_sub fs args x y : y ∈ args_minus_first fs args x → y ∈ args.
Proof.
  revert args. apply (two_step (λ args, y ∈ args_minus_first fs args x → y ∈ args)).
  { done. }
  intros s r IH1 IH2. cbn [args_minus_first].
  destruct (decide _); [done|]. destruct (takes_next fs s).
  - destruct r as [|v r]; [done|]. rewrite !elem_of_cons. intros [?|[?|H]]; [tauto..|]. do 2 right. by apply (IH2 v r).
  - destruct (decide _); rewrite ?elem_of_cons; [tauto|]. intros [?|H]; [tauto|]. right. by apply IH1.
Qed.

(** ** Numbers *)
Lemma digits_app fuel n acc : digits fuel n acc = digits fuel n [] ++ acc.
Proof.
  revert n acc. induction fuel as [|fuel IH]; intros n acc; [done|]. cbn [digits].
  destruct (n <? 10)%N; [done|]. rewrite IH, (IH _ [_]), <- app_assoc. done.
Qed.
Lemma digit_of_digit d : (d < 10)%N → digit_of (n2b (48 + d)) = Some d ∧ n2b (48 + d) ≠ "_"%char.
Proof.
  intros Hd. assert (d ∈ [0; 1; 2; 3; 4; 5; 6; 7; 8; 9]%N) as H.
  { rewrite !elem_of_cons. lia. }
  repeat (apply elem_of_cons in H as [->|H]; [split; [reflexivity|discriminate]|]).
  by apply elem_of_nil in H.
Qed.
Lemma size_pos_log p : (N.pos p < 2 ^ N.of_nat (Pos.size_nat p))%N.
Proof.
  induction p as [p IH|p IH|]; cbn [Pos.size_nat]; rewrite ?Nat2N.inj_succ, ?N.pow_succ_r'; lia.
Qed.
Lemma size_bound n : (n < 2 ^ N.of_nat (N.size_nat n))%N.
Proof. destruct n as [|p]; [done|]. apply size_pos_log. Qed.
Lemma parse_digits_digits max fuel n rest :
  (n < 2 ^ N.of_nat fuel)%N → (n <= max)%N →
  parse_digits 10 max 0 (digits (S fuel) n rest) = parse_digits 10 max n rest.
Proof.
  revert n rest. induction fuel as [|fuel IH]; intros n rest Hn Hm.
  - assert (n = 0)%N as -> by (change (2 ^ N.of_nat 0)%N with 1%N in Hn; lia). cbn [digits].
    change (0 <? 10)%N with true. cbn iota.
    destruct (digit_of_digit 0) as [E1 E2]; [lia|]. change (0 mod 10)%N with 0%N. cbn [parse_digits].
    rewrite decide_False, E1 by done. cbn. destruct max; done.
  - destruct (digit_of_digit (n mod 10)) as [E1 E2]; [apply N.mod_lt; lia|].
    remember (S fuel) as fl eqn:Efl. cbn [digits].
    destruct (N.ltb_spec n 10) as [Hlt|Hge].
    + cbn [parse_digits]. rewrite decide_False, E1 by done. rewrite (N.mod_small n 10) by lia.
      replace (10 <=? n)%N with false by (symmetry; apply N.leb_gt; lia).
      replace (max <? 0 * 10 + n)%N with false by (symmetry; apply N.ltb_ge; lia).
      f_equal.
    + subst fl. rewrite IH.
      * cbn [parse_digits]. rewrite decide_False, E1 by done.
        pose proof (N.mod_lt n 10 ltac:(lia)).
        replace (10 <=? n mod 10)%N with false by (symmetry; apply N.leb_gt; lia).
        assert (n / 10 * 10 + n mod 10 = n)%N as -> by (pose proof (N.div_mod n 10 ltac:(lia)); lia).
        replace (max <? n)%N with false by (symmetry; apply N.ltb_ge; lia). done.
      * rewrite Nat2N.inj_succ, N.pow_succ_r' in Hn. apply N.div_lt_upper_bound; lia.
      * pose proof (N.div_le_upper_bound n 10 n ltac:(lia) ltac:(lia)). lia.
Qed.
Lemma digits_first fuel n rest :
  (n < 2 ^ N.of_nat fuel)%N → (n ≠ 0)%N →
  ∃ d r, (0 < d < 10)%N ∧ digits (S fuel) n rest = n2b (48 + d) :: r.
Proof.
  revert n rest. induction fuel as [|fuel IH]; intros n rest Hn H0.
  - change (2 ^ N.of_nat 0)%N with 1%N in Hn. lia.
  - remember (S fuel) as fl eqn:Efl. cbn [digits]. destruct (N.ltb_spec n 10) as [Hlt|Hge].
    + exists n, rest. rewrite (N.mod_small n 10) by lia. split; [lia|done].
    + subst fl. apply IH.
      * rewrite Nat2N.inj_succ, N.pow_succ_r' in Hn. apply N.div_lt_upper_bound; lia.
      * intros E. apply N.div_small_iff in E; lia.
Qed.
Lemma digits_plain fuel n c : c ∈ digits fuel n [] → c ≠ "_"%char.
Proof.
  revert n. induction fuel as [|fuel IH]; intros n; cbn [digits]; [by intros ?%elem_of_nil|].
  assert (n2b (48 + n mod 10) ≠ "_"%char) as Hc by (apply digit_of_digit, N.mod_lt; lia).
  destruct (n <? 10)%N; [by intros ->%elem_of_list_singleton|].
  rewrite digits_app. intros [H|H]%elem_of_app; [by eapply IH|]. by apply elem_of_list_singleton in H as ->.
Qed.
Lemma parse_int_fmt n : (n < 2 ^ 63)%N → parse_int (fmt_d n) = Some (Z.of_N n).
Proof.
  intros Hn. destruct (decide (n = 0)%N) as [->|H0]; [done|].
  assert (Hu : parse_uint max_uint64 (fmt_d n) = Some n).
  { unfold parse_uint. assert (base_of (fmt_d n) = (10%N, fmt_d n) ∧ fmt_d n ≠ []) as [Eb Ene].
    { unfold fmt_d. destruct (digits_first _ n [] (size_bound n) H0) as (d & r & Hd & ->). split; [|done].
      assert (d ∈ [1; 2; 3; 4; 5; 6; 7; 8; 9]%N) as H by (rewrite !elem_of_cons; lia).
      repeat (apply elem_of_cons in H as [->|H]; [reflexivity|]). by apply elem_of_nil in H. }
    rewrite Eb. cbn [fst snd]. unfold fmt_d at 2. rewrite parse_digits_digits by first [apply size_bound|unfold max_uint64; lia].
    cbn [parse_digits]. rewrite decide_False; [by destruct (fmt_d n)|].
    intros Hin. by eapply digits_plain. }
  assert ((n <? 2 ^ 63)%N = true) as Hlt by (apply N.ltb_lt; lia).
  assert (∃ c r, fmt_d n = c :: r ∧ c ≠ "-"%char ∧ c ≠ "+"%char) as (c & r & E & Hc1 & Hc2).
  { unfold fmt_d. destruct (digits_first _ n [] (size_bound n) H0) as (d & r & Hd & ->).
    eexists _, _. split; [done|].
    assert (d ∈ [1; 2; 3; 4; 5; 6; 7; 8; 9]%N) as H by (rewrite !elem_of_cons; lia).
    repeat (apply elem_of_cons in H as [->|H]; [split; discriminate|]). by apply elem_of_nil in H. }
  rewrite E in *. unfold parse_int.
  assert (∀ A (a b x : A), c ≠ "-"%char → c ≠ "+"%char →
    match c with "-"%char => a | "+"%char => b | _ => x end = x) as Hm.
  { intros A a b x H1 H2. destruct c as [[] [] [] [] [] [] [] []]; try done; by destruct H1 || by destruct H2. }
  rewrite Hu, Hlt. rewrite Hm by done. done.
Qed.

(** ** The arguments that are added *)
Lemma extra_parse c uid gid :
  (uid < 2 ^ 63)%N → (gid < 2 ^ 63)%N →
  parse_args (flags_of c) [B "--uid"; fmt_d uid; B "--gid"; fmt_d gid] =
  Ok (Parsed [(B "uid", fmt_d uid); (B "gid", fmt_d gid)] [] false).
Proof.
  intros Hu Hg. pose proof (parse_int_fmt _ Hu) as Eu. pose proof (parse_int_fmt _ Hg) as Eg.
  generalize dependent (fmt_d uid). intros u Eu. generalize dependent (fmt_d gid). intros g Eg.
  cbn [parse_args].
  assert (∀ n, n = B "uid" ∨ n = B "gid" → long_arg (flags_of c) n = Ok ([], Some (Flag n None KInt))) as Hl.
  { intros n [-> | ->]; destruct c; reflexivity. }
  change (token_of (B "--uid")) with (TLong (B "uid")). change (token_of (B "--gid")) with (TLong (B "gid")). cbn iota.
  rewrite (Hl (B "uid")), (Hl (B "gid")) by tauto.
  cbn [mbind res_bind rbind fst snd]. unfold set_flag. cbn [f_kind f_name value_ok]. rewrite Eu, Eg. reflexivity.
Qed.
Lemma last_set_app s t name :
  last_set (s ++ t) name = match last_set t name with Some v => Some v | None => last_set s name end.
Proof.
  induction s as [|[n v] s IH]; [cbn [app last_set]; by destruct (last_set t name)|]. cbn [app last_set]. rewrite IH.
  by destruct (last_set t name).
Qed.
