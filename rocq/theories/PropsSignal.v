(** * PropsSignal: what a second interrupt does (C53) *)
From Verif Require Import Base Signal.
From Coq Require Import Lia.
From stdpp Require Import prelude.

(** The signals that arrive in a schedule *)
Definition arrivals (l : list action) : list N := omap (λ a, match a with ASignal n => Some n | _ => None end) l.
(** The goroutine waits, or has nothing more to do. *)
Definition settled (s : sstate) : Prop := ∀ a, own_step a = true → sstep a s = None.
Definition exited (s : sstate) (c : N) : Prop := s_phase s = PExited c.

Lemma ssteps_app l1 l2 s : ssteps (l1 ++ l2) s = match ssteps l1 s with Some s' => ssteps l2 s' | None => None end.
Proof. revert s. induction l1 as [|a l1 IH]; intros s; [done|]. cbn [ssteps app]. destruct (sstep a s); [apply IH|done]. Qed.
Lemma arrivals_app l1 l2 : arrivals (l1 ++ l2) = arrivals l1 ++ arrivals l2.
Proof. apply omap_app. Qed.
Lemma gone_step a s s' : s_phase s = PGone → sstep a s = Some s' → s_phase s' = PGone.
Proof.
  destruct s as [c q ph]. cbn [s_phase]. intros ->. destruct a; cbn [sstep s_phase s_queue s_cancelled]; intros H.
  - injection H as <-. by destruct (_ <? _)%nat.
  - by injection H as <-.
  - by destruct c.
  - by destruct q.
  - done.
Qed.
Lemma gone_steps l s s' : s_phase s = PGone → ssteps l s = Some s' → s_phase s' = PGone.
Proof.
  revert s. induction l as [|a l IH]; intros s Hg H; cbn [ssteps] in H; [congruence|].
  destruct (sstep a s) as [s1|] eqn:E; [|done]. eapply IH; [|exact H]. by eapply gone_step.
Qed.
(** What the goroutine can still take, along every schedule from the start *)
Definition accounted (l : list action) (s : sstate) : Prop :=
  let arr := arrivals l in
  match s_phase s with
  | PFirst => take queue_cap arr = s_queue s ∧ (s_cancelled s = true → ACancel ∈ l)
  | PCancel => arr ≠ [] ∧ head (s_queue s) = arr !! 1
  | PSecond => s_cancelled s = true ∧ (arr ≠ [] ∧ head (s_queue s) = arr !! 1 ∨ head (s_queue s) = arr !! 0 ∧ ACancel ∈ l)
  | PGone => s_cancelled s = true
  | PExited c => s_cancelled s = true ∧ ∃ n, c = (128 + n)%N ∧ (arr !! 1 = Some n ∨ arr !! 0 = Some n ∧ ACancel ∈ l)
  end.
Lemma arrivals_one l a : arrivals (l ++ [a]) = arrivals l ++ match a with ASignal n => [n] | _ => [] end.
Proof. rewrite arrivals_app. by destruct a. Qed.
Lemma head_push (q l : list N) n k : head q = l !! k → k ≤ length l →
  head (if (length q <? queue_cap)%nat then q ++ [n] else q) = (l ++ [n]) !! k.
Proof.
  intros H Hk. destruct q as [|x q]; cbn [head] in H.
  - assert (k = length l) as ->. { symmetry in H. apply lookup_ge_None in H. lia. } cbn. by rewrite list_lookup_middle.
  - rewrite (lookup_app_l_Some l [n] k x) by done. by destruct (_ <? _)%nat.
Qed.
Lemma accounted_step l s a s' : accounted l s → sstep a s = Some s' → accounted (l ++ [a]) s'.
Proof.
  assert (∀ b, ACancel ∈ l → ACancel ∈ l ++ [b]) as Hin by (intros; apply elem_of_app; by left).
  assert (ACancel ∈ l ++ [ACancel]) as Hlast by (apply elem_of_app; right; by left).
  destruct s as [c q ph]. unfold accounted. rewrite arrivals_one. cbn zeta. cbn [s_phase s_queue s_cancelled].
  intros HA H. destruct a as [n| | | |]; rewrite ?app_nil_r.
  - assert (∃ q', q' = (if (length q <? queue_cap)%nat then q ++ [n] else q) ∧ s' = SState c q' ph ∧ ∀ k, ph ≠ PExited k) as (q' & Eq & -> & Hne).
    { destruct ph; cbn [sstep s_phase s_queue s_cancelled] in H; try done; injection H as <-; eexists; (split; [reflexivity|]); by destruct (_ <? _)%nat. }
    cbn [s_phase s_queue s_cancelled]. destruct ph as [| | | |k].
    + destruct HA as [HA Hc]. split; [|auto]. rewrite Eq. destruct (length q <? queue_cap)%nat eqn:L.
      * apply Nat.ltb_lt in L. rewrite <- HA, take_length in L. assert (length (arrivals l) < queue_cap) as L' by lia.
        rewrite <- HA, (take_ge (arrivals l)) by lia. apply take_ge. rewrite app_length. cbn. lia.
      * apply Nat.ltb_ge in L. rewrite <- HA, take_length in L. rewrite take_app_le by lia. done.
    + destruct HA as [HA Hh]. split; [by destruct (arrivals l)|]. rewrite Eq. apply head_push; [done|]. destruct (arrivals l); [done|]. cbn. lia.
    + destruct HA as [Hc [[HA Hh]|[Hh Hi]]]; (split; [done|]).
      * left. split; [by destruct (arrivals l)|]. rewrite Eq. apply head_push; [done|]. destruct (arrivals l); [done|]. cbn. lia.
      * right. split; [|auto]. rewrite Eq. apply head_push; [done|lia].
    + done.
    + by destruct (Hne k).
  - destruct ph as [| | | |k]; cbn in H; try done; injection H as <-; cbn [s_phase s_queue s_cancelled].
    + by destruct HA.
    + done.
    + destruct HA as [_ [HA|[? ?]]]; (split; [done|]); [by left|right; auto].
    + done.
  - destruct ph as [| | | |k]; cbn in H; try done; destruct c; try done; injection H as <-; cbn [s_phase s_queue s_cancelled].
    + destruct HA as [HA Hc]. split; [done|]. right. split; [|auto]. rewrite <- HA. by destruct (arrivals l).
    + done.
  - destruct q as [|n q]; [by destruct ph|]. destruct ph as [| | | |k]; cbn in H; try done; injection H as <-; cbn [s_phase s_queue s_cancelled].
    + destruct HA as [HA Hc]. destruct (arrivals l) as [|x [|y r]]; cbn in HA; try done; injection HA as -> <-; done.
    + destruct HA as [Hc HA]. split; [done|]. exists n. split; [done|]. destruct HA as [[_ HA]|[HA Hi]]; cbn in HA; [by left|right; auto].
  - destruct ph as [| | | |k]; cbn in H; try done. injection H as <-. cbn [s_phase s_queue s_cancelled]. split; [done|]. by left.
Qed.
Lemma accounted_steps l0 l s s' : accounted l0 s → ssteps l s = Some s' → accounted (l0 ++ l) s'.
Proof.
  revert l0 s. induction l as [|a l IH]; intros l0 s HA H; cbn [ssteps] in H; [injection H as <-; by rewrite app_nil_r|].
  destruct (sstep a s) as [s1|] eqn:E; [|done]. rewrite (cons_middle a l0 l), app_assoc. eapply IH; [|exact H]. by eapply accounted_step.
Qed.
Lemma accounted_start p l s : ssteps l (notify p) = Some s → accounted l s.
Proof. intros H. apply (accounted_steps [] l (notify p) s); [|done]. by destruct p. Qed.

(** ** C53 *)
(** The first half of the claim: when a signal has arrived the goroutine is not blocked until the context is cancelled, whatever the schedule. *)
Theorem C53_first_cancels : ∀ p l s, ssteps l (notify p) = Some s → arrivals l ≠ [] →
  s_cancelled s = true ∨ (∃ a s', own_step a = true ∧ sstep a s = Some s') ∧
    ∀ a s' b s'', own_step a = true → sstep a s = Some s' → own_step b = true → sstep b s' = Some s'' → s_cancelled s'' = true.
Proof.
  intros p l s Hl Ha. pose proof (accounted_start _ _ _ Hl) as HA. unfold accounted in HA. destruct s as [c q ph]. cbn zeta in HA. cbn [s_phase s_queue s_cancelled] in *.
  destruct c; [by left|]. right. destruct ph as [| | | |k].
  - destruct HA as [HA _]. destruct q as [|n q]; [by destruct (arrivals l)|]. split; [by eexists AReceive, _|].
    intros a s' b s'' Oa Ea Ob Eb. destruct a; try done. cbn in Ea. injection Ea as <-. destruct b; try done; [by destruct q|]. by injection Eb as <-.
  - split; [by eexists AProceed, _|]. intros a s' b s'' Oa Ea Ob Eb.
    destruct a; try done; [by destruct q|]. cbn in Ea. injection Ea as <-. destruct b; try done; [by injection Eb as <-|]. cbn in Eb. destruct q; [done|]. by injection Eb as <-.
  - by destruct HA.
  - done.
  - by destruct HA.
Qed.
(** The second half is false in the ordinary case: once the goroutine has handled the cancellation and the system is at rest, no number of further
    signals, of any kind and in any schedule, makes the process exit. *)
Theorem C53_later_signals_refuted : ∀ p l s, ssteps l (notify p) = Some s → s_cancelled s = true → settled s → (∀ c, ¬ exited s c) →
  ∀ l' s' c, ssteps l' s = Some s' → ¬ exited s' c.
Proof.
  intros p l s Hl Hc Hs Hx l' s' c Hl' Hx'. assert (s_phase s = PGone) as Hg.
  { destruct s as [c0 q ph]. cbn [s_cancelled s_phase] in *. subst c0. destruct ph as [| | | |k]; [by specialize (Hs ADone eq_refl)|by specialize (Hs AProceed eq_refl)|by specialize (Hs ADone eq_refl)|done|by destruct (Hx k)]. }
  unfold exited in Hx'. by rewrite (gone_steps _ _ _ Hg Hl') in Hx'.
Qed.
(** For every two signals there is such a schedule, in which the second one arrives after the first was handled; and one in which
    it arrives before, and is left in the channel all the same. *)
Theorem C53_second_exits_refuted : ∀ n m, ∃ s1 s2 s3,
  ssteps [ASignal n; AReceive; AProceed; ADone] (notify false) = Some s1 ∧ s_cancelled s1 = true ∧ settled s1 ∧
  ssteps [ASignal m] s1 = Some s2 ∧ settled s2 ∧ (∀ l s c, ssteps l s2 = Some s → ¬ exited s c) ∧
  ssteps [ASignal n; ASignal m; AReceive; AProceed; ADone] (notify false) = Some s3 ∧ settled s3 ∧ s_queue s3 = [m] ∧ (∀ l s c, ssteps l s3 = Some s → ¬ exited s c).
Proof.
  intros n m. exists (SState true [] PGone), (SState true [m] PGone), (SState true [m] PGone).
  assert (∀ q, settled (SState true q PGone)) as Hs by (intros q a Ha; destruct a; try done; by destruct q).
  assert (∀ l s c, ssteps l (SState true [m] PGone) = Some s → ¬ exited s c) as Hx.
  { intros l s c H Hx. unfold exited in Hx. by rewrite (gone_steps _ _ _ (eq_refl : s_phase (SState true [m] PGone) = PGone) H) in Hx. }
  repeat split; [apply Hs|apply Hs|apply Hx|apply Hs|apply Hx].
Qed.
(** What is true of every exit: the code is 128+n for the second signal that arrived; or for the first one, and then somebody else had
    cancelled the context. *)
Theorem C53_exit_partial : ∀ p l s c, ssteps l (notify p) = Some s → exited s c →
  ∃ n, c = (128 + n)%N ∧ (arrivals l !! 1 = Some n ∨ arrivals l !! 0 = Some n ∧ ACancel ∈ l).
Proof. intros p l s c Hl Hx. pose proof (accounted_start _ _ _ Hl) as HA. unfold accounted in HA. unfold exited in Hx. rewrite Hx in HA. apply HA. Qed.
(** The exit that the code intends is possible: the second signal has to be in the channel when the goroutine comes back to it, and the choice
    among the two ready cases has to fall on it. *)
Theorem C53_may_exit : ∀ n m, ∃ s s', ssteps [ASignal n; ASignal m; AReceive; AProceed] (notify false) = Some s ∧
  (sstep AReceive s = Some s' ∧ exited s' (128 + m)) ∧ ∃ s'', sstep ADone s = Some s'' ∧ s_phase s'' = PGone.
Proof. intros n m. eexists _, _. split; [reflexivity|]. split; [by split|]. by eexists. Qed.
(** A signal that arrives when the context is cancelled already may exit although it is the first. *)
Theorem C53_first_exits : ∀ n, ∃ s, ssteps [ACancel; ADone; ASignal n; AReceive] (notify false) = Some s ∧ exited s (128 + n).
Proof. intros n. by eexists. Qed.
Print Assumptions C53_first_cancels.
Print Assumptions C53_later_signals_refuted.
Print Assumptions C53_second_exits_refuted.
Print Assumptions C53_exit_partial.
Print Assumptions C53_may_exit.
Print Assumptions C53_first_exits.
(** SIGINT, then SIGTERM: both outcomes; and one schedule with seven signals, two of which are lost *)
Example C53_sat :
  (∃ s, ssteps [ASignal 2; ASignal 15; AReceive; AProceed; AReceive] (notify false) = Some s ∧ exited s 143) ∧
  (∃ s, ssteps [ASignal 2; AReceive; AProceed; ADone; ASignal 15; ASignal 2] (notify false) = Some s ∧ s_queue s = [15; 2]%N ∧ settled s) ∧
  (∃ s, ssteps [ASignal 2; ASignal 2; ASignal 15; ASignal 2; ASignal 2; ASignal 15; ASignal 15] (notify false) = Some s ∧ s_queue s = [2; 2; 15; 2; 2]%N ∧
     s_cancelled s = false ∧ arrivals [ASignal 2; ACancel; ASignal 15] = [2; 15]%N).
Proof.
  repeat split.
  - by eexists.
  - eexists. split; [reflexivity|]. split; [done|]. intros a Ha. by destruct a.
  - by eexists.
Qed.
