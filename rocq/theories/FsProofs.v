(** * FsProofs: lemmas about paths, file maps and programs *)
From Verif Require Import Base Uid Tree Dump Branch Date Fs.
From Coq Require Import Lia.
From stdpp Require Import prelude.

(** ** Files *)
Lemma fget_fdel fs p q : fget (fdel fs p) q = if decide (p = q) then None else fget fs q.
Proof.
  unfold fdel. induction fs as [|[k x] fs IH]; [cbn; by destruct (decide (p = q))|].
  rewrite filter_cons. destruct (decide (k = p)) as [->|Hk].
  - rewrite decide_False by (cbn; tauto). rewrite IH. cbn [fget]. by destruct (decide (p = q)).
  - rewrite decide_True by done. cbn [fget]. rewrite IH.
    destruct (decide (k = q)) as [->|]; [|done]. by rewrite decide_False by congruence.
Qed.
Lemma fget_fset fs p x q : fget (fset fs p x) q = if decide (p = q) then Some x else fget fs q.
Proof. unfold fset. cbn [fget]. destruct (decide (p = q)); [done|]. rewrite fget_fdel. by rewrite decide_False. Qed.
Lemma fget_fset_eq fs p x : fget (fset fs p x) p = Some x.
Proof. rewrite fget_fset. by rewrite decide_True. Qed.
Lemma fget_fset_ne fs p x q : p ≠ q → fget (fset fs p x) q = fget fs q.
Proof. intros. rewrite fget_fset. by rewrite decide_False. Qed.
Lemma fget_fdel_eq fs p : fget (fdel fs p) p = None.
Proof. rewrite fget_fdel. by rewrite decide_True. Qed.
Lemma fget_fdel_ne fs p q : p ≠ q → fget (fdel fs p) q = fget fs q.
Proof. intros. rewrite fget_fdel. by rewrite decide_False. Qed.
(** Removing entries by a test on the path *)
Lemma fget_filter (P : path → Prop) `{∀ p, Decision (P p)} (fs : files) q :
  fget (filter (λ kv, P kv.1) fs) q = if decide (P q) then fget fs q else None.
Proof.
  induction fs as [|[k x] fs IH]; [cbn; by destruct (decide (P q))|].
  rewrite filter_cons. cbn [fst]. destruct (decide (P k)) as [Hk|Hk].
  - cbn [fget]. destruct (decide (k = q)) as [->|]; [|done]. by rewrite decide_True.
  - rewrite IH. cbn [fget]. destruct (decide (k = q)) as [->|]; [|done]. by rewrite !decide_False.
Qed.
Lemma fget_elem fs p x : fget fs p = Some x → (p, x) ∈ fs.
Proof.
  induction fs as [|[k y] fs IH]; [done|]. cbn [fget]. destruct (decide (k = p)) as [->|].
  - intros [= ->]. left.
  - intros E. right. auto.
Qed.
Lemma elem_fget fs p x : (p, x) ∈ fs → is_Some (fget fs p).
Proof.
  induction fs as [|[k y] fs IH]; [intros H; by apply elem_of_nil in H|]. intros [[= -> ->]|H]%elem_of_cons; cbn [fget].
  - rewrite decide_True by done. eauto.
  - destruct (decide (k = p)); eauto.
Qed.

(** ** Prefixes of paths *)
Lemma is_prefix_spec p q : is_prefix p q = true ↔ ∃ k, q = p ++ k.
Proof.
  revert q. induction p as [|a p IH]; intros q; [split; eauto|].
  destruct q as [|b q]; [split; [done|intros [k [=]]]|]. cbn [is_prefix].
  rewrite andb_true_iff, bool_decide_eq_true, IH. split.
  - intros [-> [k ->]]. by exists k.
  - intros [k [= -> ->]]. eauto.
Qed.
Lemma is_prefix_refl p : is_prefix p p = true.
Proof. apply is_prefix_spec. exists []. by rewrite app_nil_r. Qed.
Lemma is_prefix_app p k : is_prefix p (p ++ k) = true.
Proof. apply is_prefix_spec. eauto. Qed.
Lemma is_prefix_trans p q r : is_prefix p q = true → is_prefix q r = true → is_prefix p r = true.
Proof. rewrite !is_prefix_spec. intros [k ->] [j ->]. exists (k ++ j). by rewrite app_assoc. Qed.
Lemma under_spec p q : under p q = true ↔ ∃ k, k ≠ [] ∧ q = p ++ k.
Proof.
  unfold under. rewrite andb_true_iff, is_prefix_spec, negb_true_iff, bool_decide_eq_false. split.
  - intros [[k ->] N]. exists k. split; [|done]. intros ->. by rewrite app_nil_r in N.
  - intros [k [N ->]]. split; [eauto|]. intros E. apply N. apply (f_equal length) in E. rewrite app_length in E.
    destruct k; [done|]. cbn in E. lia.
Qed.
Lemma prefix_comparable p q r : is_prefix p r = true → is_prefix q r = true → is_prefix p q = true ∨ is_prefix q p = true.
Proof.
  revert q r. induction p as [|a p IH]; intros q r; [by left|]. destruct q as [|b q]; [by right|].
  destruct r as [|c r]; [done|]. cbn [is_prefix]. rewrite !andb_true_iff, !bool_decide_eq_true.
  intros [-> H1] [-> H2]. destruct (IH _ _ H1 H2); auto.
Qed.
(** Below different names of one directory nothing is shared. *)
Lemma diverge (d : path) a b k k' : a ≠ b → d ++ a :: k ≠ d ++ b :: k'.
Proof. intros N E. apply app_inv_head in E. congruence. Qed.
Lemma diverge_prefix (d : path) a b k k' : a ≠ b → is_prefix (d ++ a :: k) (d ++ b :: k') = false.
Proof. intros N. apply not_true_is_false. rewrite is_prefix_spec. intros [j E]. rewrite <-app_assoc in E. apply app_inv_head in E. cbn in E. congruence. Qed.
Lemma parent_dir_app (d : path) n : parent_dir (d ++ [n]) = d.
Proof. unfold parent_dir. by rewrite removelast_last. Qed.
Lemma parent_dir_cases p : p = [] ∨ ∃ d n, p = d ++ [n] ∧ parent_dir p = d.
Proof. destruct p as [|c p] using rev_ind; [by left|]. right. exists p, c. split; [done|]. apply parent_dir_app. Qed.

(** ** Programs *)
Lemma bind_ok {A C} (m : M A) (f : A → M C) o w c w2 : bind m f o w = (Ok c, w2) →
  ∃ a w1, m o w = (Ok a, w1) ∧ f a o w1 = (Ok c, w2).
Proof. unfold bind. destruct (m o w) as [[a|e| | |] w1]; try discriminate. eauto. Qed.
Lemma bind_eq {A C} (m : M A) (f : A → M C) o w a w1 : m o w = (Ok a, w1) → bind m f o w = f a o w1.
Proof. unfold bind. by intros ->. Qed.
Lemma bind_err {A C} (m : M A) (f : A → M C) o w e w1 : m o w = (Err e, w1) → bind m f o w = (Err e, w1).
Proof. unfold bind. by intros ->. Qed.
Lemma attempt_ok {A} (m : M A) o w r w1 : attempt m o w = (Ok r, w1) →
  (∃ a, r = inl a ∧ m o w = (Ok a, w1)) ∨ (∃ e, r = inr e ∧ m o w = (Err e, w1)).
Proof. unfold attempt. destruct (m o w) as [[a|e| | |] w2]; try discriminate; intros [= <- <-]; eauto. Qed.
Lemma bind_assoc {A C D} (m : M A) (f : A → M C) (g : C → M D) o w :
  bind (bind m f) g o w = bind m (λ a, bind (f a) g) o w.
Proof. unfold bind. by destruct (m o w) as [[a|e| | |] w1]. Qed.

(** [P] holds before; then [Q] holds after a normal return and [E] after anything else (an error, a panic,
    an endless loop, a crash). *)
Definition hoare {A} (P : world → Prop) (m : M A) (Q : A → world → Prop) (E : world → Prop) : Prop :=
  ∀ o w, P w → match m o w with (Ok a, w') => Q a w' | (_, w') => E w' end.
Lemma h_ret {A} (a : A) (P : world → Prop) (Q : _ → world → Prop) (E : world → Prop) : (∀ w, P w → Q a w) → hoare P (ret a) Q E.
Proof. intros H o w Hw. cbn. auto. Qed.
Lemma h_fail {A} e (P : world → Prop) (Q : A → world → Prop) (E : world → Prop) : (∀ w, P w → E w) → hoare P (fail e) Q E.
Proof. intros H o w Hw. cbn. auto. Qed.
Lemma h_panic {A} (P : world → Prop) (Q : A → world → Prop) (E : world → Prop) : (∀ w, P w → E w) → hoare P panic Q E.
Proof. intros H o w Hw. cbn. auto. Qed.
Lemma h_lift {A} (r : res A) (P : world → Prop) (Q : A → world → Prop) (E : world → Prop) :
  (∀ w a, r = Ok a → P w → Q a w) → (∀ w, P w → E w) → hoare P (lift r) Q E.
Proof. intros H HE o w Hw. unfold lift. destruct r; auto. Qed.
Lemma h_gets {A} (f : world → A) (P : world → Prop) (Q : A → world → Prop) (E : world → Prop) :
  (∀ w, P w → Q (f w) w) → hoare P (gets f) Q E.
Proof. intros H o w Hw. cbn. auto. Qed.
Lemma h_modify f (P : world → Prop) (Q : _ → world → Prop) (E : world → Prop) : (∀ w, P w → Q tt (f w)) → hoare P (modify f) Q E.
Proof. intros H o w Hw. cbn. auto. Qed.
Lemma h_bind {A C} (m : M A) (f : A → M C) (P : world → Prop) R (Q : _ → world → Prop) (E : world → Prop) :
  hoare P m R E → (∀ a, hoare (R a) (f a) Q E) → hoare P (bind m f) Q E.
Proof.
  intros H1 H2 o w Hw. unfold bind. specialize (H1 o w Hw).
  destruct (m o w) as [[a|e| | |] w1]; auto. apply (H2 a o w1 H1).
Qed.
Lemma h_attempt {A} (m : M A) P (Q : A + err → world → Prop) (E : world → Prop) :
  hoare P m (λ a, Q (inl a)) (λ w, E w ∧ ∀ e, Q (inr e) w) → hoare P (attempt m) Q E.
Proof.
  intros H o w Hw. unfold attempt. specialize (H o w Hw).
  destruct (m o w) as [[a|e| | |] w1]; intuition auto.
Qed.
Lemma h_weaken {A} (m : M A) (P P' : world → Prop) (Q Q' : A → world → Prop) (E E' : world → Prop) :
  hoare P' m Q' E' → (∀ w, P w → P' w) → (∀ a w, Q' a w → Q a w) → (∀ w, E' w → E w) → hoare P m Q E.
Proof. intros H H1 H2 H3 o w Hw. specialize (H o w (H1 _ Hw)). destruct (m o w) as [[a|e| | |] w1]; auto. Qed.
(** An invariant that every step keeps *)
Definition keeps {A} (I : world → Prop) (m : M A) : Prop := hoare I m (λ _, I) I.
Lemma keeps_bind {A C} (m : M A) (f : A → M C) (I : world → Prop) : keeps I m → (∀ a, keeps I (f a)) → keeps I (bind m f).
Proof. intros. by eapply h_bind. Qed.
Lemma keeps_attempt {A} (m : M A) (I : world → Prop) : keeps I m → keeps I (attempt m).
Proof. intros H. apply h_attempt. eapply h_weaken; [exact H| | |]; auto. Qed.
(** A relation between the worlds before and after *)
Lemma hoare_rel {A} (m : M A) (R : world → world → Prop) :
  (∀ w0, hoare (λ w, w = w0) m (λ _, R w0) (R w0)) → ∀ o w, R w (m o w).2.
Proof. intros H o w. specialize (H w o w eq_refl). by destruct (m o w) as [[a|e| | |] w1]. Qed.
Lemma rel_hoare {A} (m : M A) (R : world → world → Prop) w0 :
  (∀ o w, R w (m o w).2) → hoare (λ w, w = w0) m (λ _, R w0) (R w0).
Proof. intros H o w ->. specialize (H o w0). by destruct (m o w0) as [[a|e| | |] w1]. Qed.

