(** * JsonProofs: printing then parsing gives the sanitized value; a strict prefix never parses. *)
From Verif Require Import Base Json.
From Coq Require Import Lia.
From stdpp Require Import prelude.

Ltac dsur :=
  match goal with
  | H : context [if ?b then hex4 ?w ?x ?y ?z else None] |- _ => destruct (if b then hex4 w x y z else None)
  | |- context [if ?b then hex4 ?w ?x ?y ?z else None] => destruct (if b then hex4 w x y z else None)
  end.
(** ** UTF-8 *)
Ltac bdestr :=
  repeat match goal with
  | H : context [if ?b then _ else _] |- _ => destruct b eqn:?
  | H : context [match ?l with [] => _ | _ :: _ => _ end] |- _ => destruct l eqn:?; try discriminate
  end.
Lemma utf8_head_Some s n : utf8_head s = Some n → 1 ≤ n ≤ length s ∧ n ≤ 4.
Proof.
  unfold utf8_head. intros H. destruct s as [|a s1]; [discriminate|].
  bdestr; simplify_eq; cbn; lia.
Qed.
Lemma utf8_head_app s n t : utf8_head s = Some n → utf8_head (s ++ t) = Some n.
Proof.
  destruct s as [|a s1]; [discriminate|]. cbn [utf8_head app].
  destruct (b2n a <? 128)%N; [done|].
  destruct (in_range 194 223 (b2n a)).
  { destruct s1 as [|b s2]; [discriminate|]. cbn [app]. by destruct (is_cont b). }
  destruct (in_range 224 239 (b2n a)).
  { destruct s1 as [|b [|c s2]]; [discriminate..|]. cbn [app]. done. }
  destruct (in_range 240 244 (b2n a)); [|done].
  destruct s1 as [|b [|c [|d s2]]]; [discriminate..|]. cbn [app]. done.
Qed.
Lemma utf8_head_take s n : utf8_head s = Some n → utf8_head (take n s) = Some n.
Proof.
  destruct s as [|a s1]; [discriminate|]. cbn [utf8_head].
  destruct (b2n a <? 128)%N eqn:E1; [intros [= <-]; cbn; by rewrite E1|].
  destruct (in_range 194 223 (b2n a)) eqn:E2.
  { destruct s1 as [|b s2]; [discriminate|]. destruct (is_cont b) eqn:E; [|done].
    intros [= <-]. cbn [take utf8_head]. by rewrite E1, E2, E. }
  destruct (in_range 224 239 (b2n a)) eqn:E3.
  { destruct s1 as [|b [|c s2]]; [discriminate..|]. destruct (_ && _) eqn:E; [|done].
    intros [= <-]. cbn [take utf8_head]. by rewrite E1, E2, E3, E. }
  destruct (in_range 240 244 (b2n a)) eqn:E4; [|done].
  destruct s1 as [|b [|c [|d s2]]]; [discriminate..|]. destruct (_ && _) eqn:E; [|done].
  intros [= <-]. cbn [take utf8_head]. by rewrite E1, E2, E3, E4, E.
Qed.
(** A multi-byte sequence starts with a byte of at least 194. *)
Lemma utf8_head_multi a b s n : utf8_head (a :: b :: s) = Some n → n ≠ 1 → (194 <= b2n a)%N.
Proof.
  cbn [utf8_head]. destruct (b2n a <? 128)%N; [congruence|].
  unfold in_range. intros H Hn.
  destruct (194 <=? b2n a)%N eqn:E; [by apply N.leb_le in E|]. apply N.leb_gt in E.
  cbn [andb] in H. destruct (224 <=? b2n a)%N eqn:E'; [apply N.leb_le in E'; lia|].
  cbn [andb] in H. destruct (240 <=? b2n a)%N eqn:E''; [apply N.leb_le in E''; lia|]. done.
Qed.

Lemma runes_fuel_enough s : ∀ f, length s ≤ f → runes_fuel f s = runes s.
Proof.
  unfold runes. remember (length s) as k eqn:Hk. revert s Hk.
  induction (lt_wf k) as [k _ IH]. intros s Hk f Hf.
  destruct s as [|a s1]; [destruct f; by subst|].
  destruct f as [|f]; [cbn in *; lia|]. destruct k as [|k]; [by subst|]. cbn in Hk.
  cbn [runes_fuel]. destruct (utf8_head (a :: s1)) as [n|] eqn:E.
  - destruct (utf8_head_Some _ _ E) as [Hn _]. f_equal.
    assert (length (drop n (a :: s1)) < S k) as Hl by (rewrite drop_length; cbn; lia).
    rewrite (IH _ Hl _ eq_refl f) by lia. symmetry. apply (IH _ Hl _ eq_refl). lia.
  - f_equal. assert (length s1 < S k) as Hl by lia.
    rewrite (IH _ Hl _ eq_refl f) by lia. symmetry. apply (IH _ Hl _ eq_refl). lia.
Qed.
Lemma runes_cons_good a s n : utf8_head (a :: s) = Some n →
  runes (a :: s) = RGood (take n (a :: s)) :: runes (drop n (a :: s)).
Proof.
  intros E. unfold runes at 1. cbn [length runes_fuel]. rewrite E. f_equal.
  apply runes_fuel_enough. destruct (utf8_head_Some _ _ E). rewrite drop_length. cbn. lia.
Qed.
Lemma runes_cons_bad a s : utf8_head (a :: s) = None → runes (a :: s) = RBad :: runes s.
Proof. intros E. unfold runes at 1. cbn [length runes_fuel]. by rewrite E. Qed.

(** Induction along the runes of a string. *)
Lemma runes_ind (P : bytes → Prop) :
  P [] → (∀ a s n, utf8_head (a :: s) = Some n → P (drop n (a :: s)) → P (a :: s)) →
  (∀ a s, utf8_head (a :: s) = None → P s → P (a :: s)) → ∀ s, P s.
Proof.
  intros H0 H1 H2 s. remember (length s) as k eqn:Hk. revert s Hk.
  induction (lt_wf k) as [k _ IH]. intros [|a s] Hk; [done|].
  destruct (utf8_head (a :: s)) as [n|] eqn:E.
  - eapply H1; [done|]. apply (IH (length (drop n (a :: s)))); [|done].
    destruct (utf8_head_Some _ _ E). rewrite drop_length. cbn in *. lia.
  - apply H2; [done|]. apply (IH (length s)); [cbn in Hk; lia|done].
Qed.
Definition rune_ok (r : rune) : Prop := match r with RGood l => utf8_head l = Some (length l) | RBad => True end.
Lemma runes_ok s : Forall rune_ok (runes s).
Proof.
  induction s as [|a s n E IH|a s E IH] using runes_ind; [constructor| |].
  - rewrite (runes_cons_good _ _ _ E). constructor; [|done]. cbn [rune_ok].
    rewrite (utf8_head_take _ _ E). rewrite take_length_le; [done|]. apply (utf8_head_Some _ _ E).
  - rewrite (runes_cons_bad _ _ E). by constructor.
Qed.

(** Sanitizing changes nothing iff the string is valid UTF-8. *)
Lemma valid_utf8_cons_bad a s : utf8_head (a :: s) = None → valid_utf8 (a :: s) = false.
Proof. intros E. unfold valid_utf8. by rewrite (runes_cons_bad _ _ E). Qed.
Lemma valid_utf8_cons_good a s n : utf8_head (a :: s) = Some n → valid_utf8 (a :: s) = valid_utf8 (drop n (a :: s)).
Proof. intros E. unfold valid_utf8. by rewrite (runes_cons_good _ _ _ E). Qed.
Lemma sanitize_valid s : valid_utf8 s = true → sanitize s = s.
Proof.
  induction s as [|a s n E IH|a s E IH] using runes_ind; [done| |].
  - rewrite (valid_utf8_cons_good _ _ _ E). intros H. unfold sanitize in *. rewrite (runes_cons_good _ _ _ E).
    cbn [map concat san_rune]. rewrite (IH H). apply take_drop.
  - rewrite (valid_utf8_cons_bad _ _ E). discriminate.
Qed.
Lemma sanitize_good l : rune_ok (RGood l) → ∀ s, sanitize (l ++ s) = l ++ sanitize s.
Proof.
  cbn. intros H s. pose proof (utf8_head_app _ _ s H) as E.
  destruct l as [|a l]; [done|]. unfold sanitize. rewrite <-app_comm_cons in *. rewrite (runes_cons_good _ _ _ E).
  cbn [map concat san_rune]. rewrite app_comm_cons, take_app, drop_app. done.
Qed.
Lemma valid_good l : rune_ok (RGood l) → ∀ s, valid_utf8 (l ++ s) = valid_utf8 s.
Proof.
  cbn. intros H s. pose proof (utf8_head_app _ _ s H) as E.
  destruct l as [|a l]; [done|]. rewrite <-app_comm_cons in *. rewrite (valid_utf8_cons_good _ _ _ E).
  by rewrite app_comm_cons, drop_app.
Qed.
Lemma fffd_ok : rune_ok (RGood fffd).
Proof. reflexivity. Qed.
Lemma sanitize_is_valid s : valid_utf8 (sanitize s) = true.
Proof.
  unfold sanitize. pose proof (runes_ok s) as F. induction F as [|r l Hr F IH]; [done|].
  cbn [map concat]. destruct r as [g|]; cbn [san_rune].
  - by rewrite (valid_good _ Hr).
  - by rewrite (valid_good _ fffd_ok).
Qed.
Lemma sanitize_id_iff s : sanitize s = s ↔ valid_utf8 s = true.
Proof. split; [intros <-; apply sanitize_is_valid|apply sanitize_valid]. Qed.
Lemma sanitize_idemp s : sanitize (sanitize s) = sanitize s.
Proof. apply sanitize_valid, sanitize_is_valid. Qed.

(** ** String literals *)
Lemma b2n_lt_128 a : (b2n a < 128)%N → ∀ b0 b1 b2 b3 b4 b5 b6 b7, a = Ascii b0 b1 b2 b3 b4 b5 b6 b7 → b7 = false.
Proof. intros H b0 b1 b2 b3 b4 b5 b6 b7 ->. destruct b7; [|done]. exfalso. revert H. destruct b0, b1, b2, b3, b4, b5, b6; vm_compute; discriminate. Qed.

Lemma step_ascii a x : (b2n a < 128)%N → dec_step (esc_ascii a ++ x) = SOut [a] x.
Proof.
  destruct a as [b0 b1 b2 b3 b4 b5 b6 b7]. intros H. pose proof (b2n_lt_128 _ H _ _ _ _ _ _ _ _ eq_refl) as ->. clear H.
  destruct b0, b1, b2, b3, b4, b5, b6; reflexivity.
Qed.
Lemma step_rune r x : rune_ok r → dec_step (enc_rune r ++ x) = SOut (san_rune r) x.
Proof.
  destruct r as [l|]; [|intros _; reflexivity]. cbn [rune_ok san_rune]. intros H.
  destruct l as [|a [|b l]]; [discriminate| |].
  - cbn [enc_rune]. apply step_ascii. cbn [utf8_head] in H.
    destruct (b2n a <? 128)%N eqn:E; [by apply N.ltb_lt|]. exfalso.
    destruct (in_range _ _ _); [done|]. destruct (in_range _ _ _); [done|]. by destruct (in_range _ _ _).
  - cbn [enc_rune]. destruct (decide (a :: b :: l = LSEP)) as [->|_]; [reflexivity|].
    destruct (decide (a :: b :: l = PSEP)) as [->|_]; [reflexivity|].
    pose proof (utf8_head_multi _ _ _ _ H ltac:(cbn; lia)) as Ha.
    pose proof (utf8_head_app _ _ x H) as HA. cbn [app] in *. unfold dec_step.
    assert (Ascii.eqb a QUOTE = false) as ->.
    { apply Ascii.eqb_neq. intros ->. vm_compute in Ha. done. }
    assert (Ascii.eqb a BSL = false) as ->.
    { apply Ascii.eqb_neq. intros ->. vm_compute in Ha. done. }
    destruct (N.ltb_spec (b2n a) 32) as [?|_]; [lia|]. rewrite HA.
    change (a :: b :: l ++ x) with ((a :: b :: l) ++ x). by rewrite take_app, drop_app.
Qed.
Lemma enc_rune_nonempty r : rune_ok r → 1 ≤ length (enc_rune r).
Proof.
  intros H. destruct (enc_rune r) eqn:E; [|cbn; lia]. pose proof (step_rune r [] H) as S. rewrite E in S. discriminate.
Qed.

Lemma dec_str_fuel_concat rs x : Forall rune_ok rs → ∀ f, length rs < f →
  dec_str_fuel f (concat (map enc_rune rs) ++ QUOTE :: x) = Some (concat (map san_rune rs), x).
Proof.
  induction 1 as [|r rs Hr F IH]; intros f Hf; (destruct f as [|f]; [cbn in Hf; lia|]).
  - reflexivity.
  - cbn [map concat dec_str_fuel]. rewrite <-app_assoc, step_rune by done. rewrite IH by (cbn in Hf; lia). done.
Qed.
Lemma concat_enc_length rs : Forall rune_ok rs → length rs ≤ length (concat (map enc_rune rs)).
Proof.
  induction 1 as [|r rs Hr F IH]; [cbn; lia|]. cbn [map concat length]. rewrite app_length.
  pose proof (enc_rune_nonempty r Hr). lia.
Qed.
Lemma dec_enc_str s x : dec_str (enc_str s ++ QUOTE :: x) = Some (sanitize s, x).
Proof.
  unfold dec_str, enc_str, sanitize. pose proof (runes_ok s) as F.
  apply dec_str_fuel_concat; [done|]. rewrite app_length. cbn. pose proof (concat_enc_length _ F). lia.
Qed.

(** Reading more text does not change what was read. *)
Definition ext_step (st : sstep) (x : bytes) : sstep :=
  match st with SEnd r => SEnd (r ++ x) | SFail => SFail | SOut o r => SOut o (r ++ x) end.
Lemma dec_step_shrinks s o r : dec_step s = SOut o r → length r < length s.
Proof.
  unfold dec_step. destruct s as [|c s1]; [discriminate|].
  destruct (Ascii.eqb c QUOTE); [discriminate|]. destruct (Ascii.eqb c BSL).
  - destruct s1 as [|e s2]; [discriminate|]. destruct (Ascii.eqb e "u").
    + destruct s2 as [|h1 [|h2 [|h3 [|h4 s3]]]]; try discriminate. destruct (hex4 h1 h2 h3 h4) as [v|]; [|discriminate].
      destruct (in_range 55296 57343 v).
      * destruct s3 as [|b [|u [|g1 [|g2 [|g3 [|g4 s4]]]]]];
          try (intros [= <- <-]; cbn; lia).
        dsur; [|intros [= <- <-]; cbn; lia].
        destruct (_ && _); intros [= <- <-]; cbn; lia.
      * intros [= <- <-]; cbn; lia.
    + destruct (short_esc e); [|discriminate]. intros [= <- <-]; cbn; lia.
  - destruct (b2n c <? 32)%N; [discriminate|]. destruct (utf8_head (c :: s1)) as [n|] eqn:E.
    + destruct (utf8_head_Some _ _ E). intros [= <- <-]. rewrite drop_length. cbn in *. lia.
    + intros [= <- <-]. cbn. lia.
Qed.

Lemma dec_high (s : bytes) : Forall (λ c, (128 <= b2n c)%N) s → ∀ f, dec_str_fuel f s = None.
Proof.
  intros F f. revert s F. induction f as [|f IH]; intros s F; [done|]. cbn [dec_str_fuel].
  destruct (dec_step s) as [r| |o r] eqn:E; [|done|].
  - exfalso. unfold dec_step in E. destruct s as [|c s1]; [discriminate|]. apply Forall_cons_1 in F as [Hc F].
    destruct (Ascii.eqb c QUOTE) eqn:Eq; [apply Ascii.eqb_eq in Eq as ->; vm_compute in Hc; done|].
    destruct (Ascii.eqb c BSL) eqn:Eb; [apply Ascii.eqb_eq in Eb as ->; vm_compute in Hc; done|].
    destruct (b2n c <? 32)%N; [discriminate|]. by destruct (utf8_head (c :: s1)).
  - unfold dec_step in E. destruct s as [|c s1]; [discriminate|]. pose proof F as F0. apply Forall_cons_1 in F as [Hc F].
    destruct (Ascii.eqb c QUOTE) eqn:Eq; [discriminate|].
    destruct (Ascii.eqb c BSL) eqn:Eb; [apply Ascii.eqb_eq in Eb as ->; vm_compute in Hc; done|].
    destruct (b2n c <? 32)%N; [discriminate|].
    destruct (utf8_head (c :: s1)) as [n|]; injection E as <- <-; rewrite IH; try done. by apply Forall_drop.
Qed.
Lemma is_cont_high b : is_cont b = true → (128 <= b2n b)%N.
Proof. unfold is_cont, in_range. intros [H _]%andb_true_iff. by apply N.leb_le. Qed.
Lemma in_range_ge lo hi x : in_range lo hi x = true → (lo <= x)%N.
Proof. unfold in_range. intros [H _]%andb_true_iff. by apply N.leb_le. Qed.

(** A text that only becomes a sequence when extended consists of high bytes. *)
Lemma utf8_head_grow a (s : bytes) x n : utf8_head (a :: s) = None → utf8_head ((a :: s) ++ x) = Some n →
  Forall (λ c, (128 <= b2n c)%N) s.
Proof.
  cbn [app utf8_head]. destruct (b2n a <? 128)%N; [done|].
  destruct (in_range 194 223 (b2n a)).
  { destruct s as [|b s]; [constructor|]. cbn [app]. by destruct (is_cont b). }
  destruct (in_range 224 239 (b2n a)).
  { destruct s as [|b [|c s]]; [constructor| |].
    - cbn [app]. destruct x as [|c x]; [done|]. destruct (_ && _) eqn:E; [|done]. intros _ _.
      apply andb_true_iff in E as [E _]. constructor; [|constructor]. apply in_range_ge in E. by destruct (_ =? _)%N; [lia|].
    - cbn [app]. by destruct (_ && _). }
  destruct (in_range 240 244 (b2n a)); [|done].
  destruct s as [|b [|c [|d s]]]; [constructor| | |].
  - cbn [app]. destruct x as [|c [|d x]]; [done..|]. destruct (_ && _) eqn:E; [|done]. intros _ _.
    apply andb_true_iff in E as [E _]. apply andb_true_iff in E as [E _].
    constructor; [|constructor]. apply in_range_ge in E. by destruct (_ =? _)%N; [lia|].
  - cbn [app]. destruct x as [|d x]; [done..|]. destruct (_ && _) eqn:E; [|done]. intros _ _.
    apply andb_true_iff in E as [E _]. apply andb_true_iff in E as [E E2].
    constructor; [|constructor; [by apply is_cont_high|constructor]]. apply in_range_ge in E. by destruct (_ =? _)%N; [lia|].
  - cbn [app]. by destruct (_ && _).
Qed.

(** A text shorter than a \u escape that starts like one does not read. *)
Lemma dec_short_u s f : length s < 6 → dec_str_fuel f (BSL :: "u"%char :: s) = None ∨ 4 ≤ length s.
Proof.
  intros _. destruct (decide (4 ≤ length s)) as [|Hs]; [by right|left]. destruct f; [done|]. cbn [dec_str_fuel].
  destruct s as [|h1 [|h2 [|h3 [|h4 s]]]]; try reflexivity. cbn in Hs. lia.
Qed.

Lemma dec_str_fuel_app f : ∀ s o r x, dec_str_fuel f s = Some (o, r) → dec_str_fuel f (s ++ x) = Some (o, r ++ x).
Proof.
  induction f as [|f IH]; intros s o r x H; [done|]. cbn [dec_str_fuel] in *.
  destruct (dec_step s) as [r0| |o0 r0] eqn:E; [|done|].
  - injection H as <- <-. unfold dec_step in *. destruct s as [|c s1]; [discriminate|]. cbn [app].
    destruct (Ascii.eqb c QUOTE) eqn:Eq; [by injection E as ->|]. exfalso.
    destruct (Ascii.eqb c BSL).
    + destruct s1 as [|e s2]; [discriminate|]. destruct (Ascii.eqb e "u"); [|by destruct (short_esc e)].
      destruct s2 as [|h1 [|h2 [|h3 [|h4 s3]]]]; try discriminate. destruct (hex4 h1 h2 h3 h4) as [v|]; [|discriminate].
      destruct (in_range 55296 57343 v); [|discriminate].
      destruct s3 as [|b [|u [|g1 [|g2 [|g3 [|g4 s4]]]]]]; try discriminate.
      dsur; [|discriminate]. by destruct (_ && _).
    + destruct (b2n c <? 32)%N; [done|]. by destruct (utf8_head _).
  - destruct (dec_str_fuel f r0) as [[o1 r1]|] eqn:E1; [|done]. cbn [prepend] in H. injection H as <- <-.
    assert (dec_step (s ++ x) = SOut o0 (r0 ++ x)) as ->.
    2:{ rewrite (IH _ _ _ x E1). done. }
    unfold dec_step in *. destruct s as [|c s1]; [discriminate|]. cbn [app].
    destruct (Ascii.eqb c QUOTE) eqn:Eq; [done|].
    destruct (Ascii.eqb c BSL).
    + destruct s1 as [|e s2]; [discriminate|]. cbn [app].
      destruct (Ascii.eqb e "u"); [|destruct (short_esc e); [|done]; by injection E as <- <-].
      destruct s2 as [|h1 [|h2 [|h3 [|h4 s3]]]]; try discriminate. cbn [app].
      destruct (hex4 h1 h2 h3 h4) as [v|]; [|discriminate].
      destruct (in_range 55296 57343 v); [|by injection E as <- <-].
      (* a surrogate: was the rest long enough? *)
      assert (∀ s3', 6 ≤ length s3' ∨ (∀ t, s3' ≠ BSL :: "u"%char :: t) ∧ s3' ≠ [BSL] ∧ s3' ≠ [] ∨ dec_str_fuel f s3' = None) as K.
      { intros s3'. destruct (decide (6 ≤ length s3')) as [|Hl]; [by left|right].
        destruct s3' as [|c1 s3']; [right; by destruct f|].
        destruct (decide (c1 = BSL)) as [->|]; [|left; split; [congruence|split; congruence]].
        destruct s3' as [|c2 s3']; [right; by destruct f|].
        destruct (decide (c2 = "u"%char)) as [->|]; [|left; split; [congruence|split; congruence]].
        right. destruct (dec_short_u s3' f) as [?|?]; [cbn in Hl; lia|done|cbn in Hl; lia]. }
      assert (∀ b u, (∀ t, b :: u :: t ≠ BSL :: "u"%char :: t) → Ascii.eqb b BSL && Ascii.eqb u "u" = false) as K2.
      { intros b u Hb. destruct (Ascii.eqb b BSL) eqn:Eb; [|done]. destruct (Ascii.eqb u "u") eqn:Eu; [|done].
        apply Ascii.eqb_eq in Eb as ->. apply Ascii.eqb_eq in Eu as ->. by destruct (Hb []). }
      destruct (decide (6 ≤ length s3)) as [Hl|Hl].
      { destruct s3 as [|b [|u [|g1 [|g2 [|g3 [|g4 s4]]]]]]; try (cbn in Hl; lia). cbn [app].
        dsur; [|by injection E as <- <-].
        destruct (_ && _); by injection E as <- <-. }
      assert (SOut fffd s3 = SOut o0 r0) as E2.
      { destruct s3 as [|b [|u [|g1 [|g2 [|g3 [|g4 s4]]]]]]; try done. cbn in Hl. lia. }
      injection E2 as <- <-.
      destruct (K s3) as [?|[(K3 & K4 & K5)|K3]]; [done| |congruence].
      destruct s3 as [|b [|u s3]]; [done| |].
      * cbn [app]. destruct x as [|u [|g1 [|g2 [|g3 [|g4 s4]]]]]; try done.
        assert (Ascii.eqb b BSL = false) as ->. { apply Ascii.eqb_neq. intros ->. by apply K4. }
        done.
      * cbn [app]. rewrite K2. 2:{ intros t [= -> ->]. by destruct (K3 s3). }
        by destruct (s3 ++ x) as [|g1 [|g2 [|g3 [|g4 s4]]]].
    + destruct (b2n c <? 32)%N; [done|].
      destruct (utf8_head (c :: s1)) as [n|] eqn:En.
      * pose proof (utf8_head_app _ _ x En) as EA. cbn [app] in EA. rewrite EA.
        injection E as <- <-. destruct (utf8_head_Some _ _ En) as [[? Hle] _].
        change (c :: s1 ++ x) with ((c :: s1) ++ x). by rewrite take_app_le, drop_app_le by done.
      * injection E as <- <-. destruct (utf8_head (c :: s1 ++ x)) as [n|] eqn:EA; [|done].
        pose proof (utf8_head_grow _ _ _ _ En EA) as F. by rewrite (dec_high _ F) in E1.
Qed.
Lemma dec_str_fuel_mono f : ∀ s o f', dec_str_fuel f s = Some o → f ≤ f' → dec_str_fuel f' s = Some o.
Proof.
  induction f as [|f IH]; intros s o f' H Hf; [done|]. destruct f' as [|f']; [lia|]. cbn [dec_str_fuel] in *.
  destruct (dec_step s); [done|done|]. destruct (dec_str_fuel f rest) as [[o1 r1]|] eqn:E; [|done].
  by rewrite (IH _ _ f' E) by lia.
Qed.
Lemma dec_str_app s o r x : dec_str s = Some (o, r) → dec_str (s ++ x) = Some (o, r ++ x).
Proof.
  unfold dec_str. intros H. eapply dec_str_fuel_mono; [by apply dec_str_fuel_app|]. rewrite app_length. lia.
Qed.
Lemma dec_str_fuel_shrinks f : ∀ s o r, dec_str_fuel f s = Some (o, r) → length r < length s.
Proof.
  induction f as [|f IH]; intros s o r H; [done|]. cbn [dec_str_fuel] in H.
  destruct (dec_step s) as [r0| |o0 r0] eqn:E; [|done|].
  - injection H as <- <-. unfold dec_step in E. destruct s as [|c s1]; [discriminate|].
    destruct (Ascii.eqb c QUOTE) eqn:Eq; [injection E as <-; cbn; lia|]. exfalso.
    destruct (Ascii.eqb c BSL).
    + destruct s1 as [|e s2]; [discriminate|]. destruct (Ascii.eqb e "u"); [|by destruct (short_esc e)].
      destruct s2 as [|h1 [|h2 [|h3 [|h4 s3]]]]; try discriminate. destruct (hex4 h1 h2 h3 h4) as [v|]; [|discriminate].
      destruct (in_range 55296 57343 v); [|discriminate].
      destruct s3 as [|b [|u [|g1 [|g2 [|g3 [|g4 s4]]]]]]; try discriminate.
      dsur; [|discriminate]. by destruct (_ && _).
    + destruct (b2n c <? 32)%N; [done|]. by destruct (utf8_head _).
  - apply dec_step_shrinks in E. destruct (dec_str_fuel f r0) as [[o1 r1]|] eqn:E1; [|done].
    injection H as <- <-. apply IH in E1. lia.
Qed.

(** ** Values *)
Lemma skip_ws_app s c r x : skip_ws s = c :: r → skip_ws (s ++ x) = c :: r ++ x.
Proof. induction s as [|d s IH]; [done|]. cbn. destruct (is_ws d); [done|]. by intros [= -> ->]. Qed.
Lemma expect_app c s r x : expect c s = Some r → expect c (s ++ x) = Some (r ++ x).
Proof.
  unfold expect. destruct (skip_ws s) as [|d t] eqn:E; [done|]. rewrite (skip_ws_app _ _ _ x E).
  destruct (Ascii.eqb d c); [|done]. by intros [= <-].
Qed.
(** [expect] fails on a text that has a further token: it also fails on the extension. *)
Lemma expect_app_None c d s r x : expect d s = Some r → c ≠ d → expect c (s ++ x) = None.
Proof.
  unfold expect. destruct (skip_ws s) as [|e t] eqn:E; [done|]. rewrite (skip_ws_app _ _ _ x E).
  destruct (Ascii.eqb e d) eqn:Ed; [|done]. apply Ascii.eqb_eq in Ed as ->. intros _ Hne.
  destruct (Ascii.eqb d c) eqn:Ec; [|done]. by apply Ascii.eqb_eq in Ec as ->.
Qed.
Lemma expect_None_app c s x e t : skip_ws s = e :: t → expect c s = None → expect c (s ++ x) = None.
Proof.
  unfold expect. intros E. rewrite E, (skip_ws_app _ _ _ x E). by destruct (Ascii.eqb e c).
Qed.
Lemma value_skip f s v : parse_value f s = Some v → ∃ e t, skip_ws s = e :: t.
Proof. destruct f; [done|]. cbn [parse_value]. destruct (skip_ws s); [done|]. eauto. Qed.
Lemma members_skip f s v : parse_members f s = Some v → ∃ e t, skip_ws s = e :: t.
Proof. destruct f; [done|]. cbn [parse_members]. unfold expect at 1. destruct (skip_ws s); [done|]. eauto. Qed.
Lemma items_skip f s v : parse_items f s = Some v → ∃ e t, skip_ws s = e :: t.
Proof.
  destruct f; [done|]. cbn [parse_items]. destruct (parse_value f s) eqn:E; [|done]. intros _. by eapply value_skip.
Qed.

Lemma parse_app f :
  (∀ s v r x, parse_value f s = Some (v, r) → parse_value f (s ++ x) = Some (v, r ++ x)) ∧
  (∀ s v r x, parse_members f s = Some (v, r) → parse_members f (s ++ x) = Some (v, r ++ x)) ∧
  (∀ s v r x, parse_items f s = Some (v, r) → parse_items f (s ++ x) = Some (v, r ++ x)).
Proof.
  induction f as [|f (IHv & IHm & IHi)]; [done|]. split; [|split]; intros s v r x H.
  - cbn [parse_value] in *. destruct (skip_ws s) as [|c s1] eqn:E; [done|]. rewrite (skip_ws_app _ _ _ x E).
    destruct (Ascii.eqb c QUOTE).
    { destruct (dec_str s1) as [[str r0]|] eqn:Ed; [|done]. rewrite (dec_str_app _ _ _ x Ed). by injection H as <- <-. }
    destruct (Ascii.eqb c "{").
    { destruct (expect "}" s1) as [r0|] eqn:Ee; [rewrite (expect_app _ _ _ x Ee); by injection H as <- <-|].
      destruct (parse_members f s1) as [[ms r0]|] eqn:Em; [|done].
      destruct (members_skip _ _ _ Em) as (e & t & Es). rewrite (expect_None_app _ _ _ _ _ Es Ee).
      rewrite (IHm _ _ _ x Em). by injection H as <- <-. }
    destruct (Ascii.eqb c "[").
    { destruct (expect "]" s1) as [r0|] eqn:Ee; [rewrite (expect_app _ _ _ x Ee); by injection H as <- <-|].
      destruct (parse_items f s1) as [[ms r0]|] eqn:Em; [|done].
      destruct (items_skip _ _ _ Em) as (e & t & Es). rewrite (expect_None_app _ _ _ _ _ Es Ee).
      rewrite (IHi _ _ _ x Em). by injection H as <- <-. }
    destruct (Ascii.eqb c "n"); [|done].
    destruct s1 as [|a [|b [|d s2]]]; try done. cbn [app]. destruct (_ && _); [|done]. by injection H as <- <-.
  - cbn [parse_members] in *. destruct (expect QUOTE s) as [s1|] eqn:E; [|done]. rewrite (expect_app _ _ _ x E).
    destruct (dec_str s1) as [[k r0]|] eqn:Ed; [|done]. rewrite (dec_str_app _ _ _ x Ed).
    destruct (expect ":" r0) as [r1|] eqn:Ec; [|done]. rewrite (expect_app _ _ _ x Ec).
    destruct (parse_value f r1) as [[v1 r2]|] eqn:Ev; [|done]. rewrite (IHv _ _ _ x Ev).
    destruct (expect "," r2) as [r3|] eqn:Ek.
    + rewrite (expect_app _ _ _ x Ek). destruct (parse_members f r3) as [[ms r4]|] eqn:Em; [|done].
      rewrite (IHm _ _ _ x Em). by injection H as <- <-.
    + destruct (expect "}" r2) as [r3|] eqn:El; [|done]. rewrite (expect_app_None "," _ _ _ x El) by done.
      rewrite (expect_app _ _ _ x El). by injection H as <- <-.
  - cbn [parse_items] in *.
    destruct (parse_value f s) as [[v1 r2]|] eqn:Ev; [|done]. rewrite (IHv _ _ _ x Ev).
    destruct (expect "," r2) as [r3|] eqn:Ek.
    + rewrite (expect_app _ _ _ x Ek). destruct (parse_items f r3) as [[ms r4]|] eqn:Em; [|done].
      rewrite (IHi _ _ _ x Em). by injection H as <- <-.
    + destruct (expect "]" r2) as [r3|] eqn:El; [|done]. rewrite (expect_app_None "," _ _ _ x El) by done.
      rewrite (expect_app _ _ _ x El). by injection H as <- <-.
Qed.

Lemma parse_mono f :
  (∀ s v f', parse_value f s = Some v → f ≤ f' → parse_value f' s = Some v) ∧
  (∀ s v f', parse_members f s = Some v → f ≤ f' → parse_members f' s = Some v) ∧
  (∀ s v f', parse_items f s = Some v → f ≤ f' → parse_items f' s = Some v).
Proof.
  induction f as [|f (IHv & IHm & IHi)]; [done|]. split; [|split]; intros s v f' H Hf; (destruct f' as [|f']; [lia|]).
  - cbn [parse_value] in *. destruct (skip_ws s) as [|c s1] eqn:E; [done|].
    destruct (Ascii.eqb c QUOTE); [done|]. destruct (Ascii.eqb c "{").
    { destruct (expect "}" s1); [done|]. destruct (parse_members f s1) as [p|] eqn:Em; [|done].
      by rewrite (IHm _ _ f' Em) by lia. }
    destruct (Ascii.eqb c "["); [|done].
    destruct (expect "]" s1); [done|]. destruct (parse_items f s1) as [p|] eqn:Em; [|done].
    by rewrite (IHi _ _ f' Em) by lia.
  - cbn [parse_members] in *. destruct (expect QUOTE s) as [s1|]; [|done].
    destruct (dec_str s1) as [[k r0]|]; [|done]. destruct (expect ":" r0) as [r1|]; [|done].
    destruct (parse_value f r1) as [[v1 r2]|] eqn:Ev; [|done]. rewrite (IHv _ _ f' Ev) by lia.
    destruct (expect "," r2) as [r3|]; [|done]. destruct (parse_members f r3) as [p|] eqn:Em; [|done].
    by rewrite (IHm _ _ f' Em) by lia.
  - cbn [parse_items] in *.
    destruct (parse_value f s) as [[v1 r2]|] eqn:Ev; [|done]. rewrite (IHv _ _ f' Ev) by lia.
    destruct (expect "," r2) as [r3|]; [|done]. destruct (parse_items f r3) as [p|] eqn:Em; [|done].
    by rewrite (IHi _ _ f' Em) by lia.
Qed.

(** Round trip *)
Section json_ind.
  Variable P : json → Prop.
  Hypothesis HN : P JNull.
  Hypothesis HS : ∀ s, P (JStr s).
  Hypothesis HA : ∀ l, Forall P l → P (JArr l).
  Hypothesis HO : ∀ l, Forall (λ kv, P kv.2) l → P (JObj l).
  Fixpoint json_rect' (j : json) : P j :=
    match j with
    | JNull => HN
    | JStr s => HS s
    | JArr l => HA l ((fix go l := match l return Forall P l with
        | [] => Forall_nil_2 _ | x :: l' => Forall_cons_2 _ _ _ (json_rect' x) (go l') end) l)
    | JObj l => HO l ((fix go l := match l return Forall (λ kv, P kv.2) l with
        | [] => Forall_nil_2 _ | x :: l' => Forall_cons_2 _ _ _ (json_rect' x.2) (go l') end) l)
    end.
End json_ind.

Fixpoint jsan (j : json) : json :=
  match j with
  | JNull => JNull
  | JStr s => JStr (sanitize s)
  | JArr l => JArr (map jsan l)
  | JObj l => JObj (map (λ kv, (sanitize kv.1, jsan kv.2)) l)
  end.

Lemma p_json_head j : ∃ c t, p_json j = c :: t ∧ is_ws c = false ∧ c ≠ "]"%char ∧ c ≠ ","%char.
Proof. destruct j; eexists _, _; (split; [reflexivity|]); repeat split; discriminate. Qed.
Lemma skip_ws_cons c t : is_ws c = false → skip_ws (c :: t) = c :: t.
Proof. intros H. cbn. by rewrite H. Qed.
Lemma expect_here c t : is_ws c = false → expect c (c :: t) = Some t.
Proof. intros H. unfold expect. rewrite skip_ws_cons by done. by rewrite Ascii.eqb_refl. Qed.
Lemma expect_other c d t : is_ws d = false → d ≠ c → expect c (d :: t) = None.
Proof. intros H Hne. unfold expect. rewrite skip_ws_cons by done. destruct (Ascii.eqb d c) eqn:E; [|done]. by apply Ascii.eqb_eq in E. Qed.

Definition member (kv : bytes * json) : bytes := quoted kv.1 ++ ":"%char :: p_json kv.2.
Definition reads (j : json) : Prop := ∀ x, ∃ f, parse_value f (p_json j ++ x) = Some (jsan j, x).

Lemma items_read l : Forall reads l → l ≠ [] → ∀ x, ∃ f,
  parse_items f (sep_by (map p_json l) ++ "]"%char :: x) = Some (map jsan l, x).
Proof.
  induction 1 as [|j l Hj F IH]; [done|]. intros _ x. destruct l as [|j' l].
  - destruct (Hj ("]"%char :: x)) as [f E]. exists (S f). cbn [map sep_by parse_items]. rewrite E.
    rewrite expect_other by done. by rewrite expect_here.
  - destruct (IH ltac:(done) x) as [f1 E1].
    set (rest := sep_by (map p_json (j' :: l)) ++ "]"%char :: x) in *.
    destruct (Hj (","%char :: rest)) as [f2 E2]. exists (S (f1 + f2)).
    change (sep_by (map p_json (j :: j' :: l))) with (p_json j ++ ","%char :: sep_by (map p_json (j' :: l))).
    rewrite <-app_assoc. cbn [app parse_items]. fold rest.
    rewrite (proj1 (parse_mono f2) _ _ (f1 + f2) E2) by lia. rewrite expect_here by done.
    rewrite (proj2 (proj2 (parse_mono f1)) _ _ (f1 + f2) E1) by lia. done.
Qed.
Lemma members_read l : Forall (λ kv, reads kv.2) l → l ≠ [] → ∀ x, ∃ f,
  parse_members f (sep_by (map member l) ++ "}"%char :: x) = Some (map (λ kv, (sanitize kv.1, jsan kv.2)) l, x).
Proof.
  induction 1 as [|[k j] l Hj F IH]; [done|]. intros _ x. cbn [snd] in Hj. destruct l as [|kv' l].
  - destruct (Hj ("}"%char :: x)) as [f E]. exists (S f). cbn [map sep_by]. unfold member, quoted.
    cbn [fst snd app parse_members]. rewrite expect_here by done. rewrite <-!app_assoc. cbn [app]. rewrite dec_enc_str.
    rewrite expect_here by done. rewrite E. rewrite expect_other by done. by rewrite expect_here.
  - destruct (IH ltac:(done) x) as [f1 E1].
    set (rest := sep_by (map member (kv' :: l)) ++ "}"%char :: x) in *.
    destruct (Hj (","%char :: rest)) as [f2 E2]. exists (S (f1 + f2)).
    change (sep_by (map member ((k, j) :: kv' :: l))) with (member (k, j) ++ ","%char :: sep_by (map member (kv' :: l))).
    rewrite <-app_assoc. unfold member at 1, quoted. cbn [fst snd app parse_members].
    rewrite expect_here by done. rewrite <-!app_assoc. cbn [app]. rewrite dec_enc_str.
    rewrite expect_here by done. fold rest.
    rewrite (proj1 (parse_mono f2) _ _ (f1 + f2) E2) by lia. rewrite expect_here by done.
    rewrite (proj1 (proj2 (parse_mono f1)) _ _ (f1 + f2) E1) by lia. done.
Qed.
Lemma json_reads j : reads j.
Proof.
  induction j as [|s|l F|l F] using json_rect'; intros x.
  - by exists 1.
  - exists 1. cbn [p_json jsan parse_value]. unfold quoted. cbn [app]. rewrite skip_ws_cons by done.
    cbn [Ascii.eqb]. rewrite Ascii.eqb_refl, <-app_assoc. cbn [app]. by rewrite dec_enc_str.
  - destruct l as [|j l]; [by exists 1|].
    destruct (items_read (j :: l) F ltac:(done) x) as [f E]. exists (S f).
    cbn [p_json jsan]. set (body := sep_by (map p_json (j :: l))) in *.
    assert (∃ c t, body = c :: t ∧ is_ws c = false ∧ c ≠ "]"%char) as (c & t & Eb & Hc1 & Hc2).
    { destruct (p_json_head j) as (c & t & Ej & ? & ? & ?). unfold body. destruct l as [|j' l].
      - cbn. rewrite Ej. eauto 10.
      - change (sep_by (map p_json (j :: j' :: l))) with (p_json j ++ ","%char :: sep_by (map p_json (j' :: l))).
        rewrite Ej. eexists _, _. split; [reflexivity|]. done. }
    cbn [parse_value app]. rewrite skip_ws_cons by done. rewrite <-app_assoc. cbn [app].
    change (Ascii.eqb "[" QUOTE) with false. change (Ascii.eqb "[" "{") with false. change (Ascii.eqb "[" "[") with true. cbn iota.
    rewrite E. rewrite Eb. cbn [app]. rewrite expect_other by done. done.
  - destruct l as [|j l]; [by exists 1|].
    destruct (members_read (j :: l) F ltac:(done) x) as [f E]. exists (S f).
    cbn [p_json jsan]. fold member. change (λ kv : bytes * json, quoted kv.1 ++ ":"%char :: p_json kv.2) with member.
    set (body := sep_by (map member (j :: l))) in *.
    assert (∃ t, body = QUOTE :: t) as (t & Eb).
    { unfold body. destruct l as [|j' l]; eexists; reflexivity. }
    cbn [parse_value app]. rewrite skip_ws_cons by done. rewrite <-app_assoc. cbn [app].
    change (Ascii.eqb "{" QUOTE) with false. change (Ascii.eqb "{" "{") with true. cbn iota.
    rewrite E. rewrite Eb. cbn [app]. rewrite expect_other by done. done.
Qed.

(** The amount of fuel that a text of a given length needs. *)
Lemma skip_ws_length s : length (skip_ws s) ≤ length s.
Proof. induction s as [|c s IH]; [done|]. cbn. destruct (is_ws c); cbn; lia. Qed.
Lemma expect_shrinks c s r : expect c s = Some r → length r < length s.
Proof.
  unfold expect. pose proof (skip_ws_length s). destruct (skip_ws s) as [|d t]; [done|].
  destruct (Ascii.eqb d c); [|done]. intros [= <-]. cbn in *. lia.
Qed.
Lemma parse_shrinks f :
  (∀ s v r, parse_value f s = Some (v, r) → length r < length s) ∧
  (∀ s v r, parse_members f s = Some (v, r) → length r < length s) ∧
  (∀ s v r, parse_items f s = Some (v, r) → length r < length s).
Proof.
  induction f as [|f (IHv & IHm & IHi)]; [done|]. split; [|split]; intros s v r H.
  - cbn [parse_value] in *. pose proof (skip_ws_length s) as Hl. destruct (skip_ws s) as [|c s1] eqn:E; [done|]. cbn in Hl.
    destruct (Ascii.eqb c QUOTE).
    { destruct (dec_str s1) as [[str r0]|] eqn:Ed; [|done]. apply dec_str_fuel_shrinks in Ed. injection H as <- <-. lia. }
    destruct (Ascii.eqb c "{").
    { destruct (expect "}" s1) as [r0|] eqn:Ee; [apply expect_shrinks in Ee; injection H as <- <-; lia|].
      destruct (parse_members f s1) as [[ms r0]|] eqn:Em; [|done]. apply IHm in Em. injection H as <- <-. lia. }
    destruct (Ascii.eqb c "[").
    { destruct (expect "]" s1) as [r0|] eqn:Ee; [apply expect_shrinks in Ee; injection H as <- <-; lia|].
      destruct (parse_items f s1) as [[ms r0]|] eqn:Em; [|done]. apply IHi in Em. injection H as <- <-. lia. }
    destruct (Ascii.eqb c "n"); [|done].
    destruct s1 as [|a [|b [|d s2]]]; try done. destruct (_ && _); [|done]. injection H as <- <-. cbn in Hl. lia.
  - cbn [parse_members] in *. destruct (expect QUOTE s) as [s1|] eqn:E; [|done]. apply expect_shrinks in E.
    destruct (dec_str s1) as [[k r0]|] eqn:Ed; [|done]. apply dec_str_fuel_shrinks in Ed.
    destruct (expect ":" r0) as [r1|] eqn:Ec; [|done]. apply expect_shrinks in Ec.
    destruct (parse_value f r1) as [[v1 r2]|] eqn:Ev; [|done]. apply IHv in Ev.
    destruct (expect "," r2) as [r3|] eqn:Ek.
    + apply expect_shrinks in Ek. destruct (parse_members f r3) as [[ms r4]|] eqn:Em; [|done]. apply IHm in Em.
      injection H as <- <-. lia.
    + destruct (expect "}" r2) as [r3|] eqn:El; [|done]. apply expect_shrinks in El. injection H as <- <-. lia.
  - cbn [parse_items] in *. destruct (parse_value f s) as [[v1 r2]|] eqn:Ev; [|done]. apply IHv in Ev.
    destruct (expect "," r2) as [r3|] eqn:Ek.
    + apply expect_shrinks in Ek. destruct (parse_items f r3) as [[ms r4]|] eqn:Em; [|done]. apply IHi in Em.
      injection H as <- <-. lia.
    + destruct (expect "]" r2) as [r3|] eqn:El; [|done]. apply expect_shrinks in El. injection H as <- <-. lia.
Qed.

Lemma parse_fuel f :
  (∀ s v r, parse_value f s = Some (v, r) → parse_value (length s - length r) s = Some (v, r)) ∧
  (∀ s v r, parse_members f s = Some (v, r) → parse_members (length s - length r) s = Some (v, r)) ∧
  (∀ s v r, parse_items f s = Some (v, r) → parse_items (length s - length r) s = Some (v, r)).
Proof.
  induction f as [|f (IHv & IHm & IHi)]; [done|]. split; [|split]; intros s v r H.
  - pose proof (proj1 (parse_shrinks _) _ _ _ H) as Hs. cbn [parse_value] in H.
    destruct (length s - length r) as [|g] eqn:Eg; [lia|]. cbn [parse_value].
    pose proof (skip_ws_length s) as Hl. destruct (skip_ws s) as [|c s1] eqn:E; [done|]. cbn in Hl.
    destruct (Ascii.eqb c QUOTE); [done|]. destruct (Ascii.eqb c "{").
    { destruct (expect "}" s1) as [r0|] eqn:Ee; [done|].
      destruct (parse_members f s1) as [[ms r0]|] eqn:Em; [|done]. injection H as <- <-.
      rewrite (proj1 (proj2 (parse_mono _)) _ _ g (IHm _ _ _ Em)) by lia. done. }
    destruct (Ascii.eqb c "["); [|done].
    destruct (expect "]" s1) as [r0|] eqn:Ee; [done|].
    destruct (parse_items f s1) as [[ms r0]|] eqn:Em; [|done]. injection H as <- <-.
    rewrite (proj2 (proj2 (parse_mono _)) _ _ g (IHi _ _ _ Em)) by lia. done.
  - pose proof (proj1 (proj2 (parse_shrinks _)) _ _ _ H) as Hs. cbn [parse_members] in H.
    destruct (length s - length r) as [|g] eqn:Eg; [lia|]. cbn [parse_members].
    destruct (expect QUOTE s) as [s1|] eqn:E; [|done]. apply expect_shrinks in E.
    destruct (dec_str s1) as [[k r0]|] eqn:Ed; [|done]. apply dec_str_fuel_shrinks in Ed.
    destruct (expect ":" r0) as [r1|] eqn:Ec; [|done]. apply expect_shrinks in Ec.
    destruct (parse_value f r1) as [[v1 r2]|] eqn:Ev; [|done].
    pose proof (proj1 (parse_shrinks _) _ _ _ Ev) as Hv.
    destruct (expect "," r2) as [r3|] eqn:Ek.
    + pose proof (expect_shrinks _ _ _ Ek). destruct (parse_members f r3) as [[ms r4]|] eqn:Em; [|done]. injection H as <- <-.
      pose proof (proj1 (proj2 (parse_shrinks _)) _ _ _ Em).
      rewrite (proj1 (parse_mono _) _ _ g (IHv _ _ _ Ev)) by lia. rewrite Ek.
      rewrite (proj1 (proj2 (parse_mono _)) _ _ g (IHm _ _ _ Em)) by lia. done.
    + destruct (expect "}" r2) as [r3|] eqn:El; [|done]. pose proof (expect_shrinks _ _ _ El). injection H as <- <-.
      rewrite (proj1 (parse_mono _) _ _ g (IHv _ _ _ Ev)) by lia. by rewrite Ek, El.
  - pose proof (proj2 (proj2 (parse_shrinks _)) _ _ _ H) as Hs. cbn [parse_items] in H.
    destruct (length s - length r) as [|g] eqn:Eg; [lia|]. cbn [parse_items].
    destruct (parse_value f s) as [[v1 r2]|] eqn:Ev; [|done].
    pose proof (proj1 (parse_shrinks _) _ _ _ Ev) as Hv.
    destruct (expect "," r2) as [r3|] eqn:Ek.
    + pose proof (expect_shrinks _ _ _ Ek). destruct (parse_items f r3) as [[ms r4]|] eqn:Em; [|done]. injection H as <- <-.
      pose proof (proj2 (proj2 (parse_shrinks _)) _ _ _ Em).
      rewrite (proj1 (parse_mono _) _ _ g (IHv _ _ _ Ev)) by lia. rewrite Ek.
      rewrite (proj2 (proj2 (parse_mono _)) _ _ g (IHi _ _ _ Em)) by lia. done.
    + destruct (expect "]" r2) as [r3|] eqn:El; [|done]. pose proof (expect_shrinks _ _ _ El). injection H as <- <-.
      rewrite (proj1 (parse_mono _) _ _ g (IHv _ _ _ Ev)) by lia. by rewrite Ek, El.
Qed.
Lemma parse_value_length f s v r : parse_value f s = Some (v, r) → parse_value (length s) s = Some (v, r).
Proof. intros H. apply (proj1 (parse_fuel f)) in H. eapply (proj1 (parse_mono _)); [exact H|lia]. Qed.

(** What was printed is read back, sanitized. *)
Lemma parse_print j : parse_json (p_json j) = Some (jsan j).
Proof.
  unfold parse_json. destruct (json_reads j []) as [f E]. rewrite app_nil_r in E.
  by rewrite (parse_value_length _ _ _ _ E).
Qed.

(** A printed object, array, string or null cut short is never read. *)
Lemma parse_prefix j p x : p_json j = p ++ x → x ≠ [] → parse_json p = None.
Proof.
  intros E Hx. unfold parse_json. destruct (parse_value (length p) p) as [[v r]|] eqn:Ep; [|done].
  exfalso. pose proof (proj1 (parse_app _) _ _ _ x Ep) as Ea. rewrite <-E in Ea.
  destruct (json_reads j []) as [f Ef]. rewrite app_nil_r in Ef.
  apply parse_value_length in Ea. apply parse_value_length in Ef. rewrite Ef in Ea.
  injection Ea as _ Hr. symmetry in Hr. apply app_nil in Hr as [_ ?]. done.
Qed.

(** ** base64 *)
Definition b64_ok4 (x : N) : bool := match b64_val (b64_char x) with Some y => (x =? y)%N | None => false end.
Lemma b64_val_char x : (x < 64)%N → b64_val (b64_char x) = Some x.
Proof.
  intros H. assert (forallb (λ i, b64_ok4 (N.of_nat i)) (seq 0 64) = true) as A by (vm_compute; reflexivity).
  rewrite forallb_forall in A. specialize (A (N.to_nat x)). rewrite N2Nat.id in A.
  unfold b64_ok4 in A. assert (In (N.to_nat x) (seq 0 64)) as Hin. { apply in_seq. split; [lia|]. change (0 + 64) with 64. lia. }
  specialize (A Hin). destruct (b64_val (b64_char x)) as [y|]; [|discriminate]. apply N.eqb_eq in A. by subst.
Qed.
Lemma b2n_lt a : (b2n a < 256)%N.
Proof. apply N_ascii_bounded. Qed.
Lemma quarter_lt x : (x < 256 → x / 4 < 64)%N.
Proof. intros. apply N.div_lt_upper_bound; lia. Qed.
Lemma mod4_lt x y : (y < 256 → x mod 4 * 16 + y / 16 < 64)%N.
Proof. intros. pose proof (N.mod_lt x 4 ltac:(lia)). assert (y / 16 < 16)%N by (apply N.div_lt_upper_bound; lia). lia. Qed.
Lemma mod16_lt y z : (z < 256 → y mod 16 * 4 + z / 64 < 64)%N.
Proof. intros. pose proof (N.mod_lt y 16 ltac:(lia)). assert (z / 64 < 4)%N by (apply N.div_lt_upper_bound; lia). lia. Qed.
Lemma comb1 x y : (y < 256 → x / 4 * 4 + (x mod 4 * 16 + y / 16) / 16 = x)%N.
Proof.
  intros. assert (y / 16 < 16)%N by (apply N.div_lt_upper_bound; lia).
  rewrite N.div_add_l by lia. rewrite (N.div_small (y / 16)) by lia. pose proof (N.div_mod x 4 ltac:(lia)). lia.
Qed.
Lemma comb2 x y z : (y < 256 → z < 256 → (x mod 4 * 16 + y / 16) mod 16 * 16 + (y mod 16 * 4 + z / 64) / 4 = y)%N.
Proof.
  intros. assert (y / 16 < 16)%N by (apply N.div_lt_upper_bound; lia).
  assert (z / 64 < 4)%N by (apply N.div_lt_upper_bound; lia).
  rewrite (N.add_comm (x mod 4 * 16)), N.mod_add by lia. rewrite (N.mod_small (y / 16)) by lia.
  rewrite N.div_add_l by lia. rewrite (N.div_small (z / 64)) by lia. pose proof (N.div_mod y 16 ltac:(lia)). lia.
Qed.
Lemma comb3 y z : (z < 256 → (y mod 16 * 4 + z / 64) mod 4 * 64 + z mod 64 = z)%N.
Proof.
  intros. assert (z / 64 < 4)%N by (apply N.div_lt_upper_bound; lia).
  rewrite (N.add_comm (y mod 16 * 4)), N.mod_add by lia. rewrite (N.mod_small (z / 64)) by lia. pose proof (N.div_mod z 64 ltac:(lia)). lia.
Qed.
Lemma b64_round s : b64_decode (b64_encode s) = Some s.
Proof.
  remember (length s) as k eqn:Hk. revert s Hk. induction (lt_wf k) as [k _ IH]. intros s Hk.
  destruct s as [|a [|b [|c s]]]; [done| | |].
  - cbn [b64_encode b64_decode]. pose proof (b2n_lt a) as Ha. pose proof (mod4_lt (b2n a) 0 ltac:(lia)) as Hm.
    change (0 / 16)%N with 0%N in Hm. rewrite N.add_0_r in Hm.
    rewrite !b64_val_char by (assumption || by apply quarter_lt). cbn.
    pose proof (comb1 (b2n a) 0 ltac:(lia)) as E. change (0 / 16)%N with 0%N in E. rewrite N.add_0_r in E.
    rewrite E. by rewrite ascii_N_embedding.
  - cbn [b64_encode b64_decode]. pose proof (b2n_lt a) as Ha. pose proof (b2n_lt b) as Hb.
    pose proof (mod16_lt (b2n b) 0 ltac:(lia)) as Hm. change (0 / 64)%N with 0%N in Hm. rewrite N.add_0_r in Hm.
    rewrite !b64_val_char by (assumption || by apply quarter_lt || by apply mod4_lt).
    change (b64_val "=") with (@None N). cbn iota. rewrite Ascii.eqb_refl.
    pose proof (comb2 (b2n a) (b2n b) 0 Hb ltac:(lia)) as E. change (0 / 64)%N with 0%N in E. rewrite N.add_0_r in E.
    rewrite E, comb1 by done. by rewrite !ascii_N_embedding.
  - cbn [b64_encode b64_decode]. pose proof (b2n_lt a) as Ha. pose proof (b2n_lt b) as Hb. pose proof (b2n_lt c) as Hc.
    rewrite !b64_val_char by (by apply quarter_lt || by apply mod4_lt || by apply mod16_lt || (apply N.mod_lt; lia)).
    rewrite (IH (length s)); [|cbn in Hk; lia|done].
    rewrite comb1, comb2, comb3 by done. by rewrite !ascii_N_embedding.
Qed.
(** base64 text is plain ASCII, so JSON keeps it. *)
Definition b64_plain (c : ascii) : bool := (b2n c <? 128)%N.
Lemma plain_valid s : Forall (λ c, (b2n c < 128)%N) s → valid_utf8 s = true.
Proof.
  induction 1 as [|c s Hc F IH]; [done|]. apply N.ltb_lt in Hc.
  assert (utf8_head (c :: s) = Some 1) as E by (cbn; by rewrite Hc).
  rewrite (valid_utf8_cons_good _ _ _ E). done.
Qed.
Lemma plain_valid_app s r : Forall (λ c, (b2n c < 128)%N) s → valid_utf8 (s ++ r) = valid_utf8 r.
Proof.
  induction 1 as [|c s Hc F IH]; [done|]. apply N.ltb_lt in Hc.
  assert (utf8_head (c :: s ++ r) = Some 1) as E by (cbn; by rewrite Hc).
  rewrite <-app_comm_cons, (valid_utf8_cons_good _ _ _ E). done.
Qed.
Lemma b64_char_plain x : (x < 64)%N → (b2n (b64_char x) < 128)%N.
Proof.
  intros H. assert (forallb (λ i, b64_plain (b64_char (N.of_nat i))) (seq 0 64) = true) as A by (vm_compute; reflexivity).
  rewrite forallb_forall in A. specialize (A (N.to_nat x)). rewrite N2Nat.id in A.
  assert (In (N.to_nat x) (seq 0 64)) as Hin. { apply in_seq. split; [lia|]. change (0 + 64) with 64. lia. }
  specialize (A Hin). by apply N.ltb_lt in A.
Qed.
Lemma b64_encode_plain s : Forall (λ c, (b2n c < 128)%N) (b64_encode s).
Proof.
  remember (length s) as k eqn:Hk. revert s Hk. induction (lt_wf k) as [k _ IH]. intros s Hk.
  destruct s as [|a [|b [|c s]]]; [constructor| | |]; cbn [b64_encode];
    pose proof (b2n_lt a) as Ha.
  - pose proof (mod4_lt (b2n a) 0 ltac:(lia)) as Hm. change (0 / 16)%N with 0%N in Hm. rewrite N.add_0_r in Hm.
    repeat constructor; apply b64_char_plain; [by apply quarter_lt|done].
  - pose proof (b2n_lt b) as Hb.
    pose proof (mod16_lt (b2n b) 0 ltac:(lia)) as Hm. change (0 / 64)%N with 0%N in Hm. rewrite N.add_0_r in Hm.
    repeat constructor; apply b64_char_plain; [by apply quarter_lt|by apply mod4_lt|done].
  - pose proof (b2n_lt b) as Hb. pose proof (b2n_lt c) as Hc.
    constructor; [by apply b64_char_plain, quarter_lt|]. constructor; [by apply b64_char_plain, mod4_lt|].
    constructor; [by apply b64_char_plain, mod16_lt|].
    constructor; [apply b64_char_plain, N.mod_lt; lia|]. apply (IH (length s)); [cbn in Hk; lia|done].
Qed.
