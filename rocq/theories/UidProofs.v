(** * UidProofs: lemmas for C01-C07 *)
From Verif Require Import Base Uid SpecUid.
From Coq Require Import Lia ZifyBool ZifyNat ZifyN.
Ltac Zify.zify_post_hook ::= Z.div_mod_to_equations.

Ltac byte_sweep := intros [[] [] [] [] [] [] [] []]; vm_compute; try reflexivity.
Ltac sym_sweep := intros [[[[[] []] []] []] []]; vm_compute; try reflexivity.

(** ** hex *)

Lemma hex_byte_rt a :
  hex_val (hex_char (b2n a / 16)) = Some (b2n a / 16)%N ∧
  hex_val (hex_char (b2n a mod 16)) = Some (b2n a mod 16)%N ∧
  n2b (b2n a / 16 * 16 + b2n a mod 16) = a.
Proof. revert a; byte_sweep; auto. Qed.

Lemma hex_decode_encode l : hex_decode (hex_encode l) = Ok l.
Proof.
  induction l as [|a l IH]; [reflexivity|].
  unfold hex_encode; cbn [flat_map app hex_decode].
  destruct (hex_byte_rt a) as (-> & -> & E).
  fold (hex_encode l). rewrite IH, E. reflexivity.
Qed.

Lemma hex_encode_length l : length (hex_encode l) = 2 * length l.
Proof. induction l as [|a l IH]; [reflexivity|]. cbn [hex_encode flat_map app length] in *.
  fold (hex_encode l). rewrite IH. lia. Qed.

Lemma hex_char_lower a :
  hex_char (b2n a / 16) ∈ hex_digits_lower ∧ hex_char (b2n a mod 16) ∈ hex_digits_lower.
Proof.
  revert a. assert (∀ a, bool_decide (hex_char (b2n a / 16) ∈ hex_digits_lower) &&
     bool_decide (hex_char (b2n a mod 16) ∈ hex_digits_lower) = true) as H by byte_sweep.
  intros a. specialize (H a). apply andb_true_iff in H as [H1 H2].
  apply bool_decide_eq_true in H1, H2. auto.
Qed.

Lemma hex_encode_lower l : Forall (λ c, c ∈ hex_digits_lower) (hex_encode l).
Proof. induction l as [|a l IH]; [constructor|]. cbn [hex_encode flat_map app].
  destruct (hex_char_lower a). constructor; [done|]. constructor; [done|]. exact IH. Qed.

Lemma ubytes_length u : length (ubytes u) = 16.
Proof. destruct u; reflexivity. Qed.
Lemma to_array16_ubytes u : to_array16 (ubytes u) = Ok u.
Proof. destruct u; reflexivity. Qed.
Lemma ubytes_inj u v : ubytes u = ubytes v → u = v.
Proof. intros H. apply (f_equal to_array16) in H. rewrite !to_array16_ubytes in H. congruence. Qed.
Lemma to_array16_ok l u : to_array16 l = Ok u ↔ 16 ≤ length l ∧ take 16 l = ubytes u.
Proof.
  split.
  - do 16 (destruct l as [|? l]; [discriminate|]). cbn. intros [= <-]. split; [lia|reflexivity].
  - intros [H1 H2]. do 16 (destruct l as [|? l]; [cbn in H1; lia|]). cbn in *.
    destruct u; injection H2 as -> -> -> -> -> -> -> -> -> -> -> -> -> -> -> ->. reflexivity.
Qed.
Lemma to_array16_panic l : to_array16 l = Panic ↔ length l < 16.
Proof.
  split.
  - do 16 (destruct l as [|? l]; [cbn; lia|]). discriminate.
  - intros H. do 16 (destruct l as [|? l]; [reflexivity|]). cbn in H; lia.
Qed.
Lemma to_array16_cases l : to_array16 l = Panic ∨ ∃ u, to_array16 l = Ok u.
Proof. do 16 (destruct l as [|? l]; [left; reflexivity|]). right; eauto. Qed.

Lemma decode_hex_hex u : decode_hex (uid_hex u) = Ok u.
Proof.
  unfold decode_hex, uid_hex. rewrite decide_True by (rewrite hex_encode_length, ubytes_length; reflexivity).
  rewrite hex_decode_encode. apply to_array16_ubytes.
Qed.
Lemma uid_hex_length u : length (uid_hex u) = 32.
Proof. unfold uid_hex. rewrite hex_encode_length, ubytes_length. reflexivity. Qed.
Lemma uid_hex_inj u v : uid_hex u = uid_hex v → u = v.
Proof. intros H. apply (f_equal decode_hex) in H. rewrite !decode_hex_hex in H. congruence. Qed.
Global Instance uid_hex_Inj : Inj (=) (=) uid_hex.
Proof. intros u v. apply uid_hex_inj. Qed.

Lemma hex_val_digit a : (∃ x, hex_val a = Some x) ↔ a ∈ hex_digits.
Proof.
  revert a. assert (∀ a, eqb (match hex_val a with Some _ => true | None => false end)
     (bool_decide (a ∈ hex_digits)) = true) as H by byte_sweep.
  intros a. specialize (H a). apply eqb_prop in H.
  destruct (hex_val a) as [x|] eqn:E.
  - symmetry in H; apply bool_decide_eq_true in H. split; eauto.
  - symmetry in H; apply bool_decide_eq_false in H. split; [intros [? ?]; discriminate|done].
Qed.

Lemma hex_val_lower p x : hex_val p = Some x → (x < 16)%N ∧ hex_char x = lower p.
Proof.
  revert p x. assert (∀ p, match hex_val p with Some x =>
    (x <? 16)%N && bool_decide (hex_char x = lower p) | None => true end = true) as H by byte_sweep.
  intros p x E. specialize (H p). rewrite E in H. apply andb_true_iff in H as [H1 H2].
  apply bool_decide_eq_true in H2. split; [lia|done].
Qed.

Lemma b2n_n2b n : (n < 256)%N → b2n (n2b n) = n.
Proof. apply N_ascii_embedding. Qed.

Lemma hex_decode_ok n s : length s = 2 * n →
  (Forall (λ c, c ∈ hex_digits) s ∧ ∃ t, hex_decode s = Ok t ∧ length t = n ∧ hex_encode t = lower <$> s)
  ∨ (¬ Forall (λ c, c ∈ hex_digits) s ∧ hex_decode s = Err EHexByte).
Proof.
  revert s. induction n as [|n IH]; intros s Hs.
  - destruct s; [|discriminate]. left. split; [constructor|]. exists []. auto.
  - destruct s as [|p [|q s]]; [cbn in Hs; lia..|]. cbn [length] in Hs.
    cbn [hex_decode]. 
    destruct (hex_val p) as [x|] eqn:Ep.
    2:{ right. split; [|done]. intros H. apply Forall_cons_1 in H as [H _]. apply hex_val_digit in H as [? ?]; congruence. }
    destruct (hex_val q) as [y|] eqn:Eq.
    2:{ right. split; [|done]. intros H. apply Forall_cons_1 in H as [_ H]. apply Forall_cons_1 in H as [H _].
        apply hex_val_digit in H as [? ?]; congruence. }
    destruct (hex_val_lower _ _ Ep) as [Hx Lx]. destruct (hex_val_lower _ _ Eq) as [Hy Ly].
    destruct (IH s ltac:(lia)) as [(HF & t & Et & Lt & Het)|(HF & Et)].
    + left. split. { constructor; [apply hex_val_digit; eauto|]. constructor; [apply hex_val_digit; eauto|done]. }
      rewrite Et. eexists; split; [done|]. split; [cbn; lia|].
      cbn [hex_encode flat_map app fmap list_fmap]. fold (hex_encode t).
      rewrite b2n_n2b by lia. rewrite Het.
      replace ((x * 16 + y) / 16)%N with x by lia. replace ((x * 16 + y) mod 16)%N with y by lia.
      rewrite Lx, Ly. reflexivity.
    + right. split; [|by rewrite Et]. intros H. apply Forall_cons_1 in H as [_ H].
      apply Forall_cons_1 in H as [_ H]. done.
Qed.

Lemma decode_hex_ok s u : decode_hex s = Ok u ↔
  length s = 32 ∧ Forall (λ c, c ∈ hex_digits) s ∧ uid_hex u = lower <$> s.
Proof.
  unfold decode_hex. destruct (decide (length s = 32)) as [Hl|Hl].
  2:{ split; [discriminate|]. intros [? _]; done. }
  destruct (hex_decode_ok 16 s Hl) as [(HF & t & Et & Lt & Het)|(HF & Et)]; rewrite Et.
  - rewrite to_array16_ok. rewrite take_ge by lia. split.
    + intros [_ ->]. auto.
    + intros (_ & _ & Hh). split; [lia|]. assert (hex_encode t = hex_encode (ubytes u)) as Hh'.
      { rewrite Het. unfold uid_hex in Hh. done. }
      apply (f_equal hex_decode) in Hh'. rewrite !hex_decode_encode in Hh'. congruence.
  - split; [discriminate|]. intros (_ & ? & _); done.
Qed.
Lemma decode_hex_err s : (length s = 32 ∧ Forall (λ c, c ∈ hex_digits) s) ∧ (∃ u, decode_hex s = Ok u)
  ∨ ¬ (length s = 32 ∧ Forall (λ c, c ∈ hex_digits) s) ∧ (∃ e, decode_hex s = Err e).
Proof.
  unfold decode_hex. destruct (decide (length s = 32)) as [Hl|Hl].
  2:{ right. split; [intros [? _]; done|eauto]. }
  destruct (hex_decode_ok 16 s Hl) as [(HF & t & Et & Lt & Het)|(HF & Et)]; rewrite Et.
  - left. split; [done|]. destruct (to_array16_cases t) as [Hp|?]; [|done].
    apply to_array16_panic in Hp. lia.
  - right. split; [intros [_ ?]; done|eauto].
Qed.

(** ** base32 *)

Lemma b32_sym_char q : b32_sym (b32_char q) = Some q.
Proof. revert q; sym_sweep. Qed.
Lemma b32_char_sym a q : b32_sym a = Some q → a = b32_char q.
Proof.
  revert a q. assert (∀ a, match b32_sym a with Some q => bool_decide (a = b32_char q) | None => true end = true) as H by byte_sweep.
  intros a q E. specialize (H a). rewrite E in H. by apply bool_decide_eq_true in H.
Qed.
Lemma b32_char_odd q : b32_char q ∉ odd_bytes.
Proof.
  revert q. assert (∀ q, bool_decide (b32_char q ∉ odd_bytes) = true) as H by sym_sweep.
  intros q. exact (bool_decide_eq_true_1 _ (H q)).
Qed.
Lemma b32_char_alpha q : b32_char q ∈ b32_alphabet.
Proof.
  revert q. assert (∀ q, bool_decide (b32_char q ∈ b32_alphabet) = true) as H by sym_sweep.
  intros q. exact (bool_decide_eq_true_1 _ (H q)).
Qed.
Lemma b32_sym_alpha a : a ∈ b32_alphabet ↔ ∃ q, b32_sym a = Some q.
Proof.
  revert a. assert (∀ a, eqb (match b32_sym a with Some _ => true | None => false end)
     (bool_decide (a ∈ b32_alphabet)) = true) as H by byte_sweep.
  intros a. specialize (H a). apply eqb_prop in H.
  destruct (b32_sym a) as [x|] eqn:E.
  - symmetry in H; apply bool_decide_eq_true in H. split; eauto.
  - symmetry in H; apply bool_decide_eq_false in H. split; [done|intros [? ?]; discriminate].
Qed.
Lemma alpha_syms s : Forall (λ c, c ∈ b32_alphabet) s → ∃ q, s = b32_char <$> q.
Proof.
  induction 1 as [|a s Ha _ [q ->]]; [by exists []|].
  apply b32_sym_alpha in Ha as [x Hx]. exists (x :: q). cbn. f_equal. by apply b32_char_sym.
Qed.
Lemma syms_alpha q : Forall (λ c, c ∈ b32_alphabet) (b32_char <$> q).
Proof. induction q; constructor; auto using b32_char_alpha. Qed.
Lemma b32_char_inj p q : b32_char p = b32_char q → p = q.
Proof. intros H. apply (f_equal b32_sym) in H. rewrite !b32_sym_char in H. congruence. Qed.
Global Instance b32_char_Inj : Inj (=) (=) b32_char.
Proof. intros p q. apply b32_char_inj. Qed.

Lemma strip_alpha s : Forall (λ c, c ∈ b32_alphabet) s → strip_newlines s = s.
Proof.
  induction 1 as [|a s Ha _ IH]; [done|]. unfold strip_newlines in *.
  rewrite filter_cons_True, IH; [done|].
  apply b32_sym_alpha in Ha as [q Hq]. apply b32_char_sym in Hq as ->.
  pose proof (b32_char_odd q) as H. unfold odd_bytes in H.
  split; intros Heq; rewrite Heq in H; set_solver.
Qed.

Lemma quantum_full slots acc q rest : length q = slots →
  b32_quantum slots acc ((b32_char <$> q) ++ rest) = Some (acc ++ q, false, rest).
Proof.
  revert slots acc. induction q as [|x q IH]; intros slots acc; cbn [length]; intros <-.
  - cbn. by rewrite app_nil_r.
  - cbn [b32_quantum fmap list_fmap app]. rewrite bool_decide_eq_false_2; [cbn [andb]|].
    + rewrite b32_sym_char, IH by done. by rewrite <-app_assoc.
    + pose proof (b32_char_odd x) as H. intros E; rewrite E in H. set_solver.
Qed.
Lemma quantum_tail slots acc q : length q < slots →
  b32_quantum slots acc (b32_char <$> q) = Some (acc ++ q, true, []).
Proof.
  revert slots acc. induction q as [|x q IH]; intros [|slots] acc; cbn [length]; intros Hl; try lia.
  - cbn. by rewrite app_nil_r.
  - cbn [b32_quantum fmap list_fmap]. rewrite bool_decide_eq_false_2; [cbn [andb]|].
    + rewrite b32_sym_char, IH by lia. by rewrite <-app_assoc.
    + pose proof (b32_char_odd x) as H. intros E; rewrite E in H. set_solver.
Qed.
Lemma quantum_inv slots acc src q fin rest :
  b32_quantum slots acc src = Some (q, fin, rest) →
  ∃ q' mid, q = acc ++ q' ∧ src = (b32_char <$> q') ++ mid ++ rest ∧ length q' ≤ slots ∧
    (fin = false → mid = [] ∧ length q' = slots).
Proof.
  revert acc src. induction slots as [|slots IH]; intros acc src; cbn [b32_quantum].
  { intros [= <- <- <-]. exists [], []. rewrite app_nil_r. repeat split; auto. }
  destruct src as [|c src].
  { intros [= <- <- <-]. exists [], []. rewrite app_nil_r. repeat split; auto; cbn; lia. }
  destruct (bool_decide (c = pad_byte) && (2 <=? length acc) && (length src <? 8)).
  - destruct (length src + length acc <? 7); [done|].
    destruct (forallb _ _); [|done]. destruct (_ || _); [done|].
    intros [= <- <- <-]. exists [], [c]. rewrite app_nil_r. repeat split; auto; cbn; try lia; done.
  - destruct (b32_sym c) as [x|] eqn:E; [|done]. intros H%IH.
    destruct H as (q' & mid & -> & -> & Hl & Hf). exists (x :: q'), mid.
    apply b32_char_sym in E as ->. rewrite <-app_assoc. split; [done|]. split; [done|].
    split; [cbn; lia|]. intros F; destruct (Hf F); split; [done|cbn; lia].
Qed.
Lemma pack_length q : length q ≤ 8 → 8 * length (b32_pack q) ≤ 5 * length q.
Proof.
  intros H. do 9 (destruct q as [|[[[[? ?] ?] ?] ?] q]; [cbn; lia|]). cbn in H; lia.
Qed.
Lemma loop_inv fuel src r : b32_loop fuel src = Some r →
  ∃ qs tl, src = (b32_char <$> qs) ++ tl ∧ 8 * length r ≤ 5 * length qs.
Proof.
  revert src r. induction fuel as [|fuel IH]; intros [|c src] r; cbn [b32_loop];
    try (intros [= <-]; exists [], []; cbn; auto with lia); try done.
  destruct (b32_quantum 8 [] (c :: src)) as [[[q fin] rest]|] eqn:E; [|done].
  apply quantum_inv in E as (q' & mid & -> & -> & Hl & Hf). rewrite app_nil_l.
  pose proof (pack_length q' Hl) as Hp.
  destruct fin.
  - intros [= <-]. exists q', (mid ++ rest). auto.
  - destruct (Hf eq_refl) as [-> _]. destruct (b32_loop fuel rest) as [t|] eqn:Et; [|done].
    intros [= <-]. apply IH in Et as (qs & tl & -> & Hl').
    exists (q' ++ qs), tl. rewrite fmap_app, !app_length. cbn [app]. rewrite <-app_assoc. split; [done|lia].
Qed.

(** The 26 symbols of an ID, as 8 + 8 + 8 + 2 *)
Definition loop26 (q1 q2 q3 q4 : list sym) : bytes :=
  b32_pack q1 ++ b32_pack q2 ++ b32_pack q3 ++ b32_pack q4.
Lemma loop_26 q1 q2 q3 q4 : length q1 = 8 → length q2 = 8 → length q3 = 8 → length q4 = 2 →
  b32_loop 26 (b32_char <$> (q1 ++ q2 ++ q3 ++ q4)) = Some (loop26 q1 q2 q3 q4).
Proof.
  intros H1 H2 H3 H4. rewrite !fmap_app.
  destruct q1 as [|x1 q1]; [done|]. destruct q2 as [|x2 q2]; [done|].
  destruct q3 as [|x3 q3]; [done|]. destruct q4 as [|x4 q4]; [done|].
  change 26 with (S (S (S (S 22)))).
  pose proof (quantum_full 8 [] (x1::q1) ((b32_char <$> x2::q2) ++ (b32_char <$> x3::q3) ++ (b32_char <$> x4::q4)) H1) as Q1.
  pose proof (quantum_full 8 [] (x2::q2) ((b32_char <$> x3::q3) ++ (b32_char <$> x4::q4)) H2) as Q2.
  pose proof (quantum_full 8 [] (x3::q3) (b32_char <$> x4::q4) H3) as Q3.
  pose proof (quantum_tail 8 [] (x4::q4) ltac:(lia)) as Q4.
  cbn [fmap list_fmap app b32_loop] in *.
  rewrite Q1; cbn [b32_loop fmap list_fmap app]. rewrite Q2; cbn [b32_loop fmap list_fmap app].
  rewrite Q3; cbn [b32_loop fmap list_fmap app]. rewrite Q4. reflexivity.
Qed.

Lemma b32_syms_length u : length (b32_syms (ubytes u)) = 26.
Proof. destruct u as [[] [] [] [] [] [] [] [] [] [] [] [] [] [] [] []]. reflexivity. Qed.
Lemma uid_b32_length u : length (uid_b32 u) = 26.
Proof. unfold uid_b32, b32_encode. by rewrite fmap_length, b32_syms_length. Qed.
Lemma uid_b32_alpha u : Forall (λ c, c ∈ b32_alphabet) (uid_b32 u).
Proof. apply syms_alpha. Qed.

Lemma split26 {A} (q : list A) : length q = 26 →
  ∃ q1 q2 q3 q4, q = q1 ++ q2 ++ q3 ++ q4 ∧ length q1 = 8 ∧ length q2 = 8 ∧ length q3 = 8 ∧ length q4 = 2.
Proof.
  intros H. exists (take 8 q), (take 8 (drop 8 q)), (take 8 (drop 16 q)), (drop 24 q).
  rewrite !take_length, !drop_length. repeat split; try lia.
  rewrite <-(take_drop 8 q) at 1. f_equal. rewrite <-(take_drop 8 (drop 8 q)) at 1. f_equal.
  rewrite drop_drop. rewrite <-(take_drop 8 (drop (8+8) q)) at 1. f_equal.
  rewrite drop_drop. reflexivity.
Qed.

(** Decoding 26 symbols succeeds; re-encoding keeps the first 25 symbols and clears the
    two low bits of the last one. *)
Definition clear2 (s : sym) : sym := match s with (a,b,c,_,_) => (a,b,c,false,false) end.
Lemma decode_syms q : length q = 26 →
  ∃ u, decode_b32 (b32_char <$> q) = Ok u ∧
       take 25 (b32_syms (ubytes u)) = take 25 q ∧
       drop 25 (b32_syms (ubytes u)) = clear2 <$> drop 25 q.
Proof.
  intros Hq. unfold decode_b32. rewrite decide_True by (by rewrite fmap_length).
  unfold b32_decode. rewrite strip_alpha by apply syms_alpha. rewrite fmap_length, Hq.
  destruct (split26 q Hq) as (q1 & q2 & q3 & q4 & -> & H1 & H2 & H3 & H4).
  rewrite loop_26 by done. clear Hq.
  do 9 (destruct q1 as [|[[[[? ?] ?] ?] ?] q1]; [try discriminate|]); [|discriminate].
  do 9 (destruct q2 as [|[[[[? ?] ?] ?] ?] q2]; [try discriminate|]); [|discriminate].
  do 9 (destruct q3 as [|[[[[? ?] ?] ?] ?] q3]; [try discriminate|]); [|discriminate].
  do 3 (destruct q4 as [|[[[[? ?] ?] ?] ?] q4]; [try discriminate|]); [|discriminate].
  cbn [loop26 b32_pack app to_array16]. eexists; split; [reflexivity|]. split; reflexivity.
Qed.
Lemma decode_enc_syms u : b32_syms (ubytes u) = b32_syms (ubytes u) ∧ clear2 <$> drop 25 (b32_syms (ubytes u)) = drop 25 (b32_syms (ubytes u)).
Proof. split; [done|]. destruct u as [[] [] [] [] [] [] [] [] [] [] [] [] [] [] [] []]. reflexivity. Qed.
Lemma b32_syms_inj u v : b32_syms (ubytes u) = b32_syms (ubytes v) → u = v.
Proof.
  destruct u as [[] [] [] [] [] [] [] [] [] [] [] [] [] [] [] []].
  destruct v as [[] [] [] [] [] [] [] [] [] [] [] [] [] [] [] []].
  cbn. intros [=]. by subst.
Qed.

Lemma decode_b32_b32 u : decode_b32 (uid_b32 u) = Ok u.
Proof.
  destruct (decode_syms (b32_syms (ubytes u)) (b32_syms_length u)) as (v & Hv & Ht & Hd).
  unfold uid_b32, b32_encode. rewrite Hv. f_equal. apply b32_syms_inj.
  rewrite <-(take_drop 25 (b32_syms (ubytes v))), <-(take_drop 25 (b32_syms (ubytes u))).
  rewrite Ht, Hd. f_equal. apply decode_enc_syms.
Qed.
Lemma uid_b32_inj u v : uid_b32 u = uid_b32 v → u = v.
Proof. intros H. apply (f_equal decode_b32) in H. rewrite !decode_b32_b32 in H. congruence. Qed.
Global Instance uid_b32_Inj : Inj (=) (=) uid_b32.
Proof. intros u v. apply uid_b32_inj. Qed.

Lemma strip_length s : length (strip_newlines s) ≤ length s.
Proof. apply filter_length. Qed.
Lemma strip_same s : length (strip_newlines s) = length s → strip_newlines s = s.
Proof.
  unfold strip_newlines. induction s as [|a s IH]; [done|]. rewrite filter_cons.
  destruct (decide _); cbn [length]; intros H.
  - f_equal. apply IH. lia.
  - pose proof (filter_length (λ c, c ≠ CR ∧ c ≠ LF) s). lia.
Qed.

(** Whatever the input, a success means 26 characters of the alphabet. *)
Lemma decode_b32_ok_alpha s u : decode_b32 s = Ok u → ∃ q, s = b32_char <$> q ∧ length q = 26.
Proof.
  unfold decode_b32. destruct (decide (length s = 26)) as [Hl|]; [|done].
  unfold b32_decode. destruct (b32_loop _ _) as [r|] eqn:E; [|done].
  intros H%to_array16_ok. destruct H as [H _].
  apply loop_inv in E as (qs & tl & Es & Hr).
  pose proof (strip_length s) as Hs.
  assert (length (strip_newlines s) = length qs + length tl) as Hlen.
  { rewrite Es, app_length, fmap_length. done. }
  assert (tl = []) as -> by (destruct tl; [done|cbn in *; lia]).
  rewrite app_nil_r in Es. exists qs. cbn in Hlen.
  rewrite <-(strip_same s) by lia. split; [done|lia].
Qed.

Lemma drop25 {A} (q : list A) : length q = 26 → ∃ x, q = take 25 q ++ [x] ∧ drop 25 q = [x].
Proof.
  intros H. destruct (drop 25 q) as [|x [|y l]] eqn:E.
  - apply (f_equal length) in E. rewrite drop_length in E. cbn in E; lia.
  - exists x. split; [|done]. by rewrite <-E, take_drop.
  - apply (f_equal length) in E. rewrite drop_length in E. cbn in E; lia.
Qed.

Lemma index_sym q : index_of (b32_char q) b32_alphabet = Some (N.to_nat (sym_val q)).
Proof. revert q; sym_sweep. Qed.
Lemma sym_val_div4 p q : (N.to_nat (sym_val p) / 4 = N.to_nat (sym_val q) / 4) ↔ clear2 p = clear2 q.
Proof.
  destruct p as [[[[[] []] []] []] []], q as [[[[[] []] []] []] []]; vm_compute; split; congruence.
Qed.

Lemma decode_b32_spellings s u : decode_b32 s = Ok u ↔
  length s = 26 ∧ take 25 s = take 25 (uid_b32 u) ∧
  ∃ c d i j, drop 25 s = [c] ∧ drop 25 (uid_b32 u) = [d] ∧
    index_of c b32_alphabet = Some i ∧ index_of d b32_alphabet = Some j ∧ i / 4 = j / 4.
Proof.
  pose proof (b32_syms_length u) as Lu.
  destruct (drop25 _ Lu) as (d & Ed & Dd).
  assert (drop 25 (uid_b32 u) = [b32_char d]) as HDd.
  { unfold uid_b32, b32_encode. by rewrite <-fmap_drop, Dd. }
  assert (clear2 d = d) as Hcd.
  { pose proof (proj2 (decode_enc_syms u)) as H. rewrite Dd in H. by injection H. }
  split.
  - intros H. destruct (decode_b32_ok_alpha _ _ H) as (q & -> & Hq).
    destruct (decode_syms q Hq) as (v & Hv & Ht & Hd). rewrite Hv in H. injection H as ->.
    destruct (drop25 _ Hq) as (c & Ec & Dc).
    rewrite fmap_length. split; [done|]. split.
    + unfold uid_b32, b32_encode. rewrite <-!fmap_take. by rewrite Ht.
    + exists (b32_char c), (b32_char d), (N.to_nat (sym_val c)), (N.to_nat (sym_val d)).
      rewrite <-fmap_drop, Dc, !index_sym. repeat split; auto.
      rewrite Dd, Dc in Hd. injection Hd as Hd'. apply sym_val_div4. by rewrite Hcd.
  - intros (Hl & Ht & c & d' & i & j & Dc & Dd' & Ic & Id & Hij).
    rewrite HDd in Dd'. injection Dd' as <-.
    assert (Forall (λ c, c ∈ b32_alphabet) s) as HF.
    { rewrite <-(take_drop 25 s), Ht, Dc. apply Forall_app. split.
      - apply Forall_take, uid_b32_alpha.
      - constructor; [|constructor]. clear -Ic. revert i Ic. generalize b32_alphabet as l.
        induction l as [|a l IH]; cbn; [done|]. intros i. destruct (decide (c = a)); [set_solver|].
        destruct (index_of c l); [|done]. intros _. right. eauto. }
    apply alpha_syms in HF as [q ->]. rewrite fmap_length in Hl.
    destruct (decode_syms q Hl) as (v & Hv & Htv & Hdv). rewrite Hv. f_equal.
    apply b32_syms_inj.
    rewrite <-(take_drop 25 (b32_syms (ubytes v))), <-(take_drop 25 (b32_syms (ubytes u))).
    rewrite Htv, Hdv, Dd. f_equal.
    + unfold uid_b32, b32_encode in Ht. rewrite <-!fmap_take in Ht. by apply (inj (fmap b32_char)) in Ht.
    + destruct (drop25 _ Hl) as (x & Ex & Dx). rewrite Dx. cbn. f_equal.
      rewrite <-fmap_drop, Dx in Dc. injection Dc as <-. rewrite index_sym in Ic, Id.
      injection Ic as <-. injection Id as <-. apply sym_val_div4 in Hij. congruence.
Qed.

(** Exact outcome for strings without the byte 0xFF. *)
Lemma filter_nl_in s c : c ∈ strip_newlines s → c ∈ s ∧ c ≠ CR ∧ c ≠ LF.
Proof. unfold strip_newlines. rewrite elem_of_list_filter. tauto. Qed.

Lemma loop_nopad fuel src : pad_byte ∉ src → ¬ Forall (λ c, c ∈ b32_alphabet) src →
  b32_loop fuel src = None.
Proof.
  revert src. induction fuel as [|fuel IH]; intros [|c src] Hp HF; cbn [b32_loop];
    try done; try (by destruct HF).
  destruct (b32_quantum 8 [] (c :: src)) as [[[q fin] rest]|] eqn:E; [|done].
  assert (∀ slots acc src q fin rest, b32_quantum slots acc src = Some (q, fin, rest) → pad_byte ∉ src →
     ∃ q', src = (b32_char <$> q') ++ rest ∧ (fin = true → rest = [])) as Q.
  { clear. induction slots as [|slots IH]; intros acc src q fin rest; cbn [b32_quantum].
    { intros [= <- <- <-] _. exists []. by split. }
    destruct src as [|c src]. { intros [= <- <- <-] _. exists []. by split. }
    intros H Hp. rewrite bool_decide_eq_false_2 in H by (intros ->; set_solver). cbn [andb] in H.
    destruct (b32_sym c) as [x|] eqn:E; [|done]. apply IH in H as (q' & -> & Hf); [|set_solver].
    exists (x :: q'). apply b32_char_sym in E as ->. auto. }
  destruct (Q _ _ _ _ _ _ E Hp) as (q' & Es & Hf). rewrite Es in *.
  destruct fin.
  - rewrite (Hf eq_refl), app_nil_r in HF. destruct HF. apply syms_alpha.
  - rewrite IH; [done|set_solver|]. intros H. apply HF, Forall_app. split; [apply syms_alpha|done].
Qed.

Lemma loop_total fuel q : length q ≤ fuel → ∃ r, b32_loop fuel (b32_char <$> q) = Some r.
Proof.
  revert q. induction fuel as [|fuel IH]; intros q Hq.
  { destruct q; [|cbn in *; lia]. cbn. eauto. }
  destruct q as [|x q]; [cbn; eauto|].
  destruct (decide (length (x :: q) < 8)) as [H8|H8].
  - pose proof (quantum_tail 8 [] (x :: q) H8) as Q. cbn [fmap list_fmap b32_loop] in *. rewrite Q. eauto.
  - pose proof (quantum_full 8 [] (take 8 (x :: q)) (b32_char <$> drop 8 (x :: q))) as Q.
    rewrite <-fmap_app, take_drop in Q. specialize (Q ltac:(rewrite take_length; lia)).
    destruct (IH (drop 8 (x :: q))) as [r Hr]. { rewrite drop_length. lia. }
    remember (b32_char <$> drop 8 (x :: q)) as d eqn:Ed; clear Ed.
    cbn [fmap list_fmap b32_loop] in Q |- *. rewrite Q. rewrite Hr. eauto.
Qed.

Lemma decode_b32_nopad s : pad_byte ∉ s → length s = 26 →
  let t := strip_newlines s in
  (Forall (λ c, c ∈ b32_alphabet) t ∧ t = s ∧ ∃ u, decode_b32 s = Ok u) ∨
  (Forall (λ c, c ∈ b32_alphabet) t ∧ t ≠ s ∧ decode_b32 s = Panic) ∨
  (¬ Forall (λ c, c ∈ b32_alphabet) t ∧ decode_b32 s = Err EBase32).
Proof.
  intros Hp Hl t. assert (pad_byte ∉ t) as Hpt.
  { intros H. apply filter_nl_in in H as [? _]; done. }
  destruct (decide (Forall (λ c, c ∈ b32_alphabet) t)) as [HF|HF].
  2:{ right; right. split; [done|]. unfold decode_b32. rewrite decide_True by done.
      unfold b32_decode. fold t. rewrite loop_nopad by done. done. }
  destruct (alpha_syms _ HF) as [q Hq].
  destruct (decide (t = s)) as [Hts|Hts].
  - left. split; [done|]. split; [done|].
    destruct (decode_syms q) as (u & Hu & _).
    { apply (f_equal length) in Hq. rewrite fmap_length in Hq. congruence. }
    exists u. by rewrite <-Hts, Hq.
  - right; left. split; [done|]. split; [done|].
    assert (length t < 26) as Hlt.
    { pose proof (strip_length s). fold t in H. destruct (decide (length t = length s)); [|lia].
      destruct Hts. by apply strip_same. }
    unfold decode_b32. rewrite decide_True by done. unfold b32_decode. fold t.
    assert (length q = length t) as Hlq by (by rewrite Hq, fmap_length).
    destruct (loop_total (length t) q ltac:(lia)) as [r Hr]. rewrite <-Hq in Hr. rewrite Hr.
    apply loop_inv in Hr as (qs & tl & Es & Hb). apply to_array16_panic.
    rewrite Es in Hlt. rewrite app_length, fmap_length in Hlt. lia.
Qed.

Lemma uid_string_inj u v : uid_string u = uid_string v → u = v.
Proof.
  unfold uid_string. intros H. apply app_inj_1 in H as [H _]; [by apply uid_hex_inj|].
  by rewrite !uid_hex_length.
Qed.

(** ** NewUID128 *)
Lemma byte_at_0 v : byte_at v 0 = n2b (v mod 256).
Proof. unfold byte_at. by rewrite N.mul_0_r, N.shiftr_0_r. Qed.
Lemma byte_at_succ v j : byte_at v (N.succ j) = byte_at (v / 256) j.
Proof.
  unfold byte_at. do 2 f_equal. rewrite !N.shiftr_div_pow2.
  rewrite N.mul_succ_r, N.add_comm, N.pow_add_r. change (2 ^ 8)%N with 256%N.
  rewrite N.div_div; [done|done|]. by apply N.pow_nonzero.
Qed.
Lemma le_value_step v r : le_value (byte_at v 0 :: r) = (v mod 256 + 256 * le_value r)%N.
Proof. cbn [le_value]. rewrite byte_at_0, b2n_n2b; [done|]. by apply N.mod_lt. Qed.
Lemma le_value_S v r : le_value r = (v / 256)%N → le_value (byte_at v 0 :: r) = v.
Proof.
  intros H. rewrite le_value_step, H. rewrite N.add_comm. symmetry. by apply N.div_mod.
Qed.
Lemma div256_lt v n : (v < 2 ^ (8 + n) → v / 256 < 2 ^ n)%N.
Proof. intros H. apply N.div_lt_upper_bound; [done|]. by rewrite N.pow_add_r in H. Qed.
Lemma le_value_byte_at v : (v < 2 ^ 64)%N →
  le_value [byte_at v 0; byte_at v 1; byte_at v 2; byte_at v 3; byte_at v 4; byte_at v 5; byte_at v 6; byte_at v 7] = v.
Proof.
  intros H.
  change 7%N with (N.succ 6). change 6%N with (N.succ 5). change 5%N with (N.succ 4).
  change 4%N with (N.succ 3). change 3%N with (N.succ 2). change 2%N with (N.succ 1). change 1%N with (N.succ 0).
  rewrite !byte_at_succ.
  change 64%N with (8 + (8 + (8 + (8 + (8 + (8 + (8 + (8 + 0))))))))%N in H.
  do 8 (apply le_value_S; apply div256_lt in H). cbn [le_value].
  change (2 ^ 0)%N with 1%N in H. symmetry. by apply N.lt_1_r.
Qed.
Lemma byte_at_le a r j : byte_at (b2n a + 256 * r) (N.succ j) = byte_at r j.
Proof.
  unfold byte_at. f_equal. f_equal. rewrite !N.shiftr_div_pow2.
  replace (8 * N.succ j)%N with (8 + 8 * j)%N by lia. rewrite N.pow_add_r.
  change (2 ^ 8)%N with 256%N. rewrite <-N.div_div by (try apply N.pow_nonzero; lia).
  f_equal. pose proof (N_ascii_bounded a). lia.
Qed.
Lemma byte_at_hd a r : byte_at (b2n a + 256 * r) 0 = a.
Proof.
  rewrite byte_at_0. pose proof (N_ascii_bounded a).
  replace ((b2n a + 256 * r) mod 256)%N with (b2n a) by lia. apply ascii_N_embedding.
Qed.
Lemma le_value_bound l : (le_value l < 256 ^ N.of_nat (length l))%N.
Proof.
  induction l as [|a l IH]; cbn [le_value length]; [lia|].
  rewrite Nat2N.inj_succ, N.pow_succ_r'. pose proof (N_ascii_bounded a). lia.
Qed.
Lemma new_uid_surj u : ∃ v w, (v < 2 ^ 64)%N ∧ (w < 2 ^ 64)%N ∧ new_uid v w = u.
Proof.
  destruct u as [a0 a1 a2 a3 a4 a5 a6 a7 a8 a9 a10 a11 a12 a13 a14 a15].
  exists (le_value [a0;a1;a2;a3;a4;a5;a6;a7]), (le_value [a8;a9;a10;a11;a12;a13;a14;a15]).
  split; [apply (le_value_bound [a0;a1;a2;a3;a4;a5;a6;a7])|].
  split; [apply (le_value_bound [a8;a9;a10;a11;a12;a13;a14;a15])|].
  unfold new_uid. cbn [le_value].
  change 7%N with (N.succ 6). change 6%N with (N.succ 5). change 5%N with (N.succ 4).
  change 4%N with (N.succ 3). change 3%N with (N.succ 2). change 2%N with (N.succ 1). change 1%N with (N.succ 0).
  rewrite !byte_at_le, !byte_at_hd. reflexivity.
Qed.
Lemma new_uid_inj v w v' w' : (v < 2^64)%N → (w < 2^64)%N → (v' < 2^64)%N → (w' < 2^64)%N →
  new_uid v w = new_uid v' w' → v = v' ∧ w = w'.
Proof.
  intros Hv Hw Hv' Hw' [=]. split.
  - rewrite <-(le_value_byte_at v), <-(le_value_byte_at v') by done. congruence.
  - rewrite <-(le_value_byte_at w), <-(le_value_byte_at w') by done. congruence.
Qed.

(** The four spellings of an ID *)
Definition low2 (s : sym) (x y : bool) : sym := match s with (a,b,c,_,_) => (a,b,c,x,y) end.
Lemma four_spellings u : ∃ l : list bytes,
  NoDup l ∧ length l = 4 ∧ uid_b32 u ∈ l ∧ ∀ s, decode_b32 s = Ok u ↔ s ∈ l.
Proof.
  destruct (drop25 _ (b32_syms_length u)) as (d & Ed & Dd).
  assert (clear2 d = d) as Hcd.
  { pose proof (proj2 (decode_enc_syms u)) as H. rewrite Dd in H. by injection H. }
  assert (drop 25 (uid_b32 u) = [b32_char d]) as HDd.
  { unfold uid_b32, b32_encode. by rewrite <-fmap_drop, Dd. }
  set (f := λ p : bool * bool, take 25 (uid_b32 u) ++ [b32_char (low2 d p.1 p.2)]).
  assert (Inj (=) (=) f) as Hf.
  { intros [x y] [x' y'] H. unfold f in H; cbn [fst snd] in H. apply app_inj_1 in H as [_ H]; [|done].
    injection H as H. apply b32_char_inj in H. destruct d as [[[[? ?] ?] ?] ?]. cbn in H. congruence. }
  assert (∀ s, decode_b32 s = Ok u ↔ s ∈ f <$> [(false,false);(false,true);(true,false);(true,true)]) as Hs.
  { intros s. rewrite decode_b32_spellings. split.
    - intros (Hl & Ht & c & d' & i & j & Dc & Dd' & Ic & Id & Hij).
      rewrite HDd in Dd'. injection Dd' as <-. rewrite index_sym in Id. injection Id as <-.
      assert (c ∈ b32_alphabet) as Hc.
      { clear -Ic. revert i Ic. generalize b32_alphabet as l.
        induction l as [|a l IH]; cbn; [done|]. intros i. destruct (decide (c = a)); [set_solver|].
        destruct (index_of c l); [|done]. intros _. right. eauto. }
      apply b32_sym_alpha in Hc as [x Hx]. apply b32_char_sym in Hx as ->.
      rewrite index_sym in Ic. injection Ic as <-. apply sym_val_div4 in Hij.
      rewrite <-(take_drop 25 s), Ht, Dc.
      apply elem_of_list_fmap. destruct x as [[[[x1 x2] x3] x4] x5], d as [[[[d1 d2] d3] d4] d5].
      cbn in Hij. injection Hij as -> -> ->. exists (x4, x5). split; [done|].
      destruct x4, x5; set_solver.
    - intros ([x y] & -> & _)%elem_of_list_fmap. unfold f; cbn [fst snd].
      assert (length (take 25 (uid_b32 u)) = 25) as L25 by (rewrite take_length, uid_b32_length; lia).
      split; [rewrite app_length, L25; done|].
      split. { rewrite take_app_alt by done. done. }
      exists (b32_char (low2 d x y)), (b32_char d), (N.to_nat (sym_val (low2 d x y))), (N.to_nat (sym_val d)).
      rewrite drop_app_alt by done. rewrite !index_sym. repeat split; auto.
      apply sym_val_div4. rewrite Hcd. destruct d as [[[[d1 d2] d3] d4] d5]; cbn in *. done. }
  exists (f <$> [(false,false);(false,true);(true,false);(true,true)]).
  split. { apply NoDup_fmap_2; [done|]. apply (bool_decide_eq_true_1 _). reflexivity. }
  split; [done|]. split; [|done]. apply Hs, decode_b32_b32.
Qed.

(** A string the decoder accepts is never one it treats specially. *)
Lemma decode_b32_ok_clean s u : decode_b32 s = Ok u → Forall (λ c, c ∈ b32_alphabet) s.
Proof. intros (q & -> & _)%decode_b32_ok_alpha. apply syms_alpha. Qed.

Lemma decode_b32_plain s : (∀ c, c ∈ odd_bytes → c ∉ s) →
  (∃ u, decode_b32 s = Ok u) ∧ length s = 26 ∧ Forall (λ c, c ∈ b32_alphabet) s
  ∨ (∃ e, decode_b32 s = Err e) ∧ ¬ (length s = 26 ∧ Forall (λ c, c ∈ b32_alphabet) s).
Proof.
  intros Ho. destruct (decide (length s = 26)) as [Hl|Hl].
  2:{ right. split; [|tauto]. unfold decode_b32. rewrite decide_False by done. eauto. }
  assert (strip_newlines s = s) as Hs.
  { unfold strip_newlines. clear Hl. induction s as [|a s IH]; [done|]. rewrite filter_cons_True.
    - f_equal. apply IH. intros c Hc. specialize (Ho c Hc). set_solver.
    - split; intros ->; [apply (Ho CR)|apply (Ho LF)]; unfold odd_bytes, CR, LF; set_solver. }
  destruct (decode_b32_nopad s) as [(?&?&?)|[(?&?&?)|(?&?)]]; [apply Ho; unfold odd_bytes, pad_byte; set_solver|done|..].
  - left. rewrite Hs in *. auto.
  - congruence.
  - right. split; [eauto|]. rewrite Hs in *. tauto.
Qed.

Lemma new_uid_from_hash_long alg data u : 16 ≤ length (alg data) →
  (new_uid_from_hash alg data = Ok u ↔ ubytes u = take 16 (alg data)).
Proof. intros H. unfold new_uid_from_hash. rewrite to_array16_ok. split; [intros [_ ->]; done|intros ->; done]. Qed.
Lemma new_uid_from_hash_short alg data : length (alg data) < 16 ↔ new_uid_from_hash alg data = Panic.
Proof. unfold new_uid_from_hash. by rewrite to_array16_panic. Qed.
