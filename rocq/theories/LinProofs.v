(** * LinProofs: two-phase programs behave as if they ran one at a time *)
From Verif Require Import Base Uid Tree TreeRefine Locks SpecLocks LockProofs.
From Coq Require Import Lia.
From stdpp Require Import prelude gmap.

Lemma part_ext t t' : (∀ v, part v t = part v t') → t = t'.
Proof.
  intros H. destruct t, t'. pose proof (H VNodes) as H1. pose proof (H VBranches) as H2. pose proof (H VTags) as H3. cbn in *.
  injection H1 as -> -> -> ->. injection H2 as ->. injection H3 as ->. done.
Qed.
Lemma part_overlay v t s w : part w (overlay v t s) = if decide (w = v) then part v t else part w s.
Proof. destruct v, w; reflexivity. Qed.
(** [b] with the parts of [s] that [H] allows to write *)
Definition writes (H : list (lock * hold)) (v : var) : bool := bool_decide ((LTree v, HWrite) ∈ H).
Definition mix (P : var → bool) (s b : tstate) : tstate :=
  TState (t_heap (if P VNodes then s else b)) (t_next (if P VNodes then s else b)) (t_root (if P VNodes then s else b)) (t_nodes (if P VNodes then s else b))
    (t_branches (if P VBranches then s else b)) (t_tags (if P VTags then s else b)).
Lemma part_mix P s b v : part v (mix P s b) = if P v then part v s else part v b.
Proof. destruct v; cbn; by destruct (P _). Qed.
Lemma writes_true H v : writes H v = true ↔ (LTree v, HWrite) ∈ H.
Proof. apply bool_decide_eq_true. Qed.
Lemma writes_false H v : writes H v = false ↔ (LTree v, HWrite) ∉ H.
Proof. apply bool_decide_eq_false. Qed.
Definition agree (H : list (lock * hold)) (b a : tstate) : Prop := ∀ v, holds_any H (LTree v) → part v b = part v a.
Lemma shrink p : two_phase true p → ∃ a, ∀ t, run p t = Ok (t, a).
Proof.
  induction p as [a|k p IH|k p IH|k p IH|k p IH|k p IH|v f IH|v t p IH|r]; cbn [two_phase run]; try (intros [? _]; done); try done.
  - intros _. by exists a.
  - destruct (is_tree k); [done|]. by intros [? _].
  - destruct (is_tree k); [done|]. by intros [? _].
Qed.

(** A goroutine and its counterpart *)
Inductive match_thread (σ α : tstate) : thread → amode → Prop :=
  | mt_idle c : uses_only single c → match_thread σ α (Thread (TIdle c) []) (AIdle c)
  | mt_called p next held c : (∀ a, uses_only single (next a)) → two_phase false p →
      (∀ b, agree held b α → run (code c) b = run p (mix (writes held) σ b)) →
      match_thread σ α (Thread (TRun p next) held) (ACalled c next)
  | mt_answered p next held a : (∀ a, uses_only single (next a)) → two_phase true p → (∀ t, run p t = Ok (t, a)) →
      match_thread σ α (Thread (TRun p next) held) (AAnswered a next).
Record sim (s : system) (x : tstate * list amode) : Prop := {
  sim_threads : ∀ i th, sy_threads s !! i = Some th → ∃ m, x.2 !! i = Some m ∧ match_thread (sy_store s) x.1 th m;
  sim_store : ∀ v, (∀ i th c next, sy_threads s !! i = Some th → x.2 !! i = Some (ACalled c next) → (LTree v, HWrite) ∉ th_held th) →
    part v x.1 = part v (sy_store s) }.

(** Others do not notice. *)
Lemma match_other σ α σ' α' th m : match_thread σ α th m →
  (∀ v, holds_any (th_held th) (LTree v) → part v α' = part v α) →
  (∀ v, (LTree v, HWrite) ∈ th_held th → part v σ' = part v σ) → match_thread σ' α' th m.
Proof.
  intros Hm Ha Hs. destruct Hm as [c Hu|p next held c Hu Ht Hr|p next held a Hu Ht Hr]; [by constructor| |by constructor]. constructor; [done|done|].
  intros b Hb. cbn [th_held] in *. rewrite Hr by (intros v Hv; rewrite Hb by done; by apply Ha). f_equal. apply part_ext. intros v. rewrite !part_mix.
  destruct (writes held v) eqn:E; [|done]. symmetry. by apply Hs, writes_true.
Qed.
(** No thread but [i] is in a call that has not happened and may write [v]. *)
Definition others_quiet (s : system) (ms : list amode) (i : nat) (v : var) : Prop :=
  ∀ j th c next, j ≠ i → sy_threads s !! j = Some th → ms !! j = Some (ACalled c next) → (LTree v, HWrite) ∉ th_held th.
Definition busy (th : thread) (m : amode) (v : var) : Prop := (∃ c next, m = ACalled c next) ∧ (LTree v, HWrite) ∈ th_held th.
Lemma sim_at s α ms i th v : sim s (α, ms) → sy_threads s !! i = Some th → others_quiet s ms i v →
  (∀ m, ms !! i = Some m → ¬ busy th m v) → part v α = part v (sy_store s).
Proof.
  intros [_ Ss] Ei Ho Hb. apply Ss. intros j thj c next Hj Ej Hin. destruct (decide (j = i)) as [->|N]; [|by eapply (Ho j)].
  rewrite Ei in Hj. injection Hj as <-. eapply (Hb _ Ej). split; [by eauto|done].
Qed.
Lemma sim_upd s α ms i th th' m' σ' α' : sim s (α, ms) → sy_threads s !! i = Some th → match_thread σ' α' th' m' →
  (∀ j thj v, j ≠ i → sy_threads s !! j = Some thj → holds_any (th_held thj) (LTree v) → part v α' = part v α) →
  (∀ j thj v, j ≠ i → sy_threads s !! j = Some thj → (LTree v, HWrite) ∈ th_held thj → part v σ' = part v (sy_store s)) →
  (∀ v, others_quiet s ms i v → ¬ busy th' m' v → part v α' = part v σ') →
  sim (System σ' (<[i := th']> (sy_threads s))) (α', <[i := m']> ms).
Proof.
  intros [St Ss] Ei Hm Ha Hs Hv. destruct (St i th Ei) as (m & Em & _). cbn [fst snd] in *. pose proof (lookup_lt_Some _ _ _ Em) as L. pose proof (lookup_lt_Some _ _ _ Ei) as L'.
  constructor; cbn [sy_threads sy_store fst snd].
  - intros j thj Hj. apply list_lookup_insert_Some in Hj as [(<- & <- & _)|[N Hj]].
    + exists m'. split; [by apply list_lookup_insert|done].
    + destruct (St j thj Hj) as (mj & Ej & Hmj). exists mj. split; [by rewrite list_lookup_insert_ne|].
      eapply match_other; [exact Hmj|intros v; by apply (Ha j)|intros v; by apply (Hs j)].
  - intros v H. apply Hv.
    + intros j thj c next N Hj Ej. eapply (H j thj c next); by rewrite list_lookup_insert_ne.
    + intros [(c & next & ->) Hin]. eapply (H i th' c next); [by apply list_lookup_insert|by apply list_lookup_insert|done].
Qed.
(** A change of the thread alone, while its call has not happened *)
Lemma sim_quiet s α ms i th th' c next : sim s (α, ms) → sy_threads s !! i = Some th → ms !! i = Some (ACalled c next) →
  match_thread (sy_store s) α th' (ACalled c next) → (∀ v, (LTree v, HWrite) ∈ th_held th → (LTree v, HWrite) ∈ th_held th') →
  sim (System (sy_store s) (<[i := th']> (sy_threads s))) (α, ms).
Proof.
  intros HS Ei Em Hm Hw. rewrite <- (list_insert_id ms i _ Em). eapply sim_upd; try done. intros v Ho Hb. eapply sim_at; [done|done|done|].
  intros m Em'. rewrite Em in Em'. injection Em' as <-. intros [_ Hin]. apply Hb. split; [by eauto|by apply Hw].
Qed.
Lemma same_writes (H H' : list (lock * hold)) : (∀ v, (LTree v, HWrite) ∈ H ↔ (LTree v, HWrite) ∈ H') → ∀ σ b, mix (writes H) σ b = mix (writes H') σ b.
Proof.
  intros Hw σ b. apply part_ext. intros v. rewrite !part_mix. assert (writes H v = writes H' v) as ->; [|done].
  destruct (writes H' v) eqn:E; [by apply writes_true, Hw, writes_true|]. apply writes_false. rewrite Hw. by apply writes_false.
Qed.
(** The call happens: everything it has written becomes visible at once. *)
Lemma happens s α ms i p next held c : fine s → sim s (α, ms) → sy_threads s !! i = Some (Thread (TRun p next) held) → ms !! i = Some (ACalled c next) →
  ∀ a, (∀ t, run p t = Ok (t, a)) → let α' := mix (writes held) (sy_store s) α in
  tree_call α c = Ok (α', a) ∧
  ∀ p' held', two_phase true p' → (∀ t, run p' t = Ok (t, a)) →
    sim (System (sy_store s) (<[i := Thread (TRun p' next) held']> (sy_threads s))) (α', <[i := AAnswered a next]> ms).
Proof.
  intros [_ Hal] HS Ei Em a Ha α'. destruct (sim_threads _ _ HS i _ Ei) as (m & Em' & Hm). cbn [snd fst] in *. rewrite Em in Em'. injection Em' as <-.
  inversion Hm as [|p0 n0 h0 c0 Hu Ht Hr|]; subst. split.
  - rewrite <- code_run, Hr by done. apply Ha.
  - intros p' held' Ht' Ha'. eapply sim_upd; [done|done|by constructor| |done|].
    + intros j thj v N Hj Hh. unfold α'. rewrite part_mix. destruct (writes held v) eqn:E; [|done]. apply writes_true in E. exfalso.
      destruct Hh as [Hh|Hh]; destruct (Hal i j _ thj _ HWrite _ ltac:(done) Ei Hj E Hh) as [[? ?]|[[? ?]|[? ?]]]; done.
    + intros v Ho _. unfold α'. rewrite part_mix. destruct (writes held v) eqn:E; [done|]. eapply sim_at; [done|done|done|]. intros m _ [_ Hin]. apply writes_false in E. done.
Qed.
Lemma step_sim s α ms i s' ev : fine s → sim s (α, ms) → step_of s i = Some (s', ev) →
  ∃ x1 x', (x1 = (α, ms) ∨ atomic_step (α, ms) [] x1) ∧ (ev = [] ∧ x' = x1 ∨ atomic_step x1 ev x') ∧ sim s' x'.
Proof.
  intros Hf HS H. unfold step_of in H. destruct (sy_threads s !! i) as [th|] eqn:Ei; [|done].
  destruct (thread_step (sy_threads s) (sy_store s) i th) as [[[th' t'] ev']|] eqn:Es; [|done]. injection H as <- <-.
  pose proof (fine_ok _ Hf) as Hok. pose proof (fine_alone _ Hf) as Hal.
  pose proof (proj1 (Forall_lookup _ _) Hok i th Ei) as Ho. unfold thread_ok in Ho.
  destruct (sim_threads _ _ HS i th Ei) as (m & Em & Hm). cbn [fst snd] in *. unfold thread_step in Es.
  destruct Hm as [c Hu|p next held c Hu Ht Hr|p next held a Hu Ht Hr]; cbn [th_mode th_held] in *.
  - (* call *) destruct Hu as [|c next Hc Hu]; [done|]. injection Es as <- <- <-. exists (α, ms), (α, <[i := ACalled c next]> ms).
    split; [by left|]. split; [right; by constructor|]. eapply sim_upd; try done.
    + constructor; [done|by apply code_two|]. intros b _. f_equal. apply part_ext. intros v. rewrite part_mix. assert (writes [] v = false) as ->; [|done]. apply writes_false. by intros ?%elem_of_nil.
    + intros v Hq Hb. eapply sim_at; [done|done|done|]. intros m _ [_ Hin]. by apply elem_of_nil in Hin.
  - destruct p as [a|k p|k p|k p|k p|k p|v f|v t0 p|r]; cbn [ordered two_phase] in Ho, Ht.
    + (* return of a call that has not happened *)
      injection Es as <- <- <-. destruct (happens s α ms i _ _ _ _ Hf HS Ei Em a ltac:(done)) as [Hc Hsim].
      set (α' := mix (writes held) (sy_store s) α) in *. pose proof (lookup_lt_Some _ _ _ Em) as L.
      exists (α', <[i := AAnswered a next]> ms), (α', <[i := AIdle (next a)]> (<[i := AAnswered a next]> ms)).
      split; [right; by econstructor|]. split; [right; constructor; by apply list_lookup_insert|].
      specialize (Hsim (PDone a) [] I ltac:(done)).
      assert (sim (System (sy_store s) (<[i := Thread (TIdle (next a)) []]> (<[i := Thread (TRun (PDone a) next) []]> (sy_threads s)))) (α', <[i := AIdle (next a)]> (<[i := AAnswered a next]> ms))) as HS'.
      { eapply (sim_upd (System (sy_store s) (<[i := Thread (TRun (PDone a) next) []]> (sy_threads s))) α'); [exact Hsim|apply list_lookup_insert; by eapply lookup_lt_Some|by constructor|done|done|].
        intros v Hq _. apply (sim_at _ _ _ i _ v Hsim (list_lookup_insert _ _ _ (lookup_lt_Some _ _ _ Ei)) Hq). intros m _ [_ Hin]. by apply elem_of_nil in Hin. }
      rewrite list_insert_insert in HS'. subst held. exact HS'.
    + (* RLock *)
      destruct (held_so as_writer k (sy_threads s)); [done|]. injection Es as <- <- <-. exists (α, ms), (α, ms). split; [by left|]. split; [by left|].
      eapply sim_quiet; [done|done|done| |intros v Hv; by right]. constructor; [done|apply Ht|]. intros b Hb. rewrite Hr.
      2:{ intros v [Hv|Hv]; apply Hb; [left|right]; by right. }
      cbn [run]. f_equal. apply same_writes. intros v. rewrite elem_of_cons. naive_solver.
    + (* Lock, announced *)
      destruct (held_so as_writer k (sy_threads s)); [done|]. injection Es as <- <- <-. exists (α, ms), (α, ms). split; [by left|]. split; [by left|].
      eapply sim_quiet; [done|done|done| |intros v Hv; by right]. constructor; [done|apply Ht|]. intros b Hb. rewrite Hr.
      2:{ intros v [Hv|Hv]; apply Hb; [left|right]; by right. }
      cbn [run]. f_equal. apply same_writes. intros v. rewrite elem_of_cons. naive_solver.
    + (* Lock, taken *)
      destruct (held_so as_reader k (sy_threads s)); [done|]. injection Es as <- <- <-. exists (α, ms), (α, ms). split; [by left|]. split; [by left|].
      destruct Ho as (H0 & -> & Bl & Ho). rewrite let_go_head by done. assert (∀ h, (k, h) ∉ H0) as Hnot by (intros h Hin; specialize (Bl _ Hin); cbn in Bl; lia).
      eapply sim_quiet; [done|done|done| |].
      2:{ intros v Hv. apply elem_of_cons in Hv as [?|Hv]; [done|by right]. }
      constructor; [done|apply Ht|]. intros b Hb. rewrite Hr.
      2:{ intros v [Hv|Hv]; apply Hb; apply elem_of_cons in Hv as [?|Hv]; try done; [left|right]; by right. }
      cbn [run]. f_equal. apply part_ext. intros v. rewrite !part_mix. destruct (writes ((k, HPending) :: H0) v) eqn:E1.
      { apply writes_true, elem_of_cons in E1 as [?|E1]; [done|]. assert (writes ((k, HWrite) :: H0) v = true) as -> by (apply writes_true; by right). done. }
      destruct (writes ((k, HWrite) :: H0) v) eqn:E2; [|done]. apply writes_true, elem_of_cons in E2 as [[= <-]|E2]; [|apply writes_false in E1; destruct E1; by right].
      rewrite (Hb v) by (right; by left). eapply sim_at; [done|exact Ei| |].
      * intros j thj c' n' N Hj _ Hin. destruct (Hal i j _ thj (LTree v) HPending HWrite ltac:(done) Ei Hj ltac:(by left) Hin) as [[? ?]|[[? ?]|[? ?]]]; done.
      * intros m _ [_ Hin]. cbn [th_held] in Hin. apply elem_of_cons in Hin as [?|Hin]; [done|by destruct (Hnot HWrite)].
    + (* RUnlock *)
      injection Es as <- <- <-. destruct (is_tree k) eqn:Ek.
      * destruct (shrink p Ht) as [a Ha]. destruct (happens s α ms i _ _ _ _ Hf HS Ei Em a Ha) as [Hc Hsim].
        eexists _, _. split; [right; by econstructor|]. split; [by left|]. by apply Hsim.
      * exists (α, ms), (α, ms). split; [by left|]. split; [by left|]. assert (∀ v h, (LTree v, h) ∈ held ↔ (LTree v, h) ∈ let_go k held) as Hsame.
        { intros v h. rewrite let_go_in. cbn. split; [|tauto]. intros Hin. split; [done|]. by intros <-. }
        eapply sim_quiet; [done|done|done| |intros v Hv; by apply Hsame]. constructor; [done|apply Ht|]. intros b Hb. rewrite Hr.
        2:{ intros v [Hv|Hv]; apply Hb; [left|right]; by apply Hsame. }
        cbn [run]. f_equal. apply same_writes. intros v. apply Hsame.
    + (* Unlock *)
      injection Es as <- <- <-. destruct (is_tree k) eqn:Ek.
      * destruct (shrink p Ht) as [a Ha]. destruct (happens s α ms i _ _ _ _ Hf HS Ei Em a Ha) as [Hc Hsim].
        eexists _, _. split; [right; by econstructor|]. split; [by left|]. by apply Hsim.
      * exists (α, ms), (α, ms). split; [by left|]. split; [by left|]. assert (∀ v h, (LTree v, h) ∈ held ↔ (LTree v, h) ∈ let_go k held) as Hsame.
        { intros v h. rewrite let_go_in. cbn. split; [|tauto]. intros Hin. split; [done|]. by intros <-. }
        eapply sim_quiet; [done|done|done| |intros v Hv; by apply Hsame]. constructor; [done|apply Ht|]. intros b Hb. rewrite Hr.
        2:{ intros v [Hv|Hv]; apply Hb; [left|right]; by apply Hsame. }
        cbn [run]. f_equal. apply same_writes. intros v. apply Hsame.
    + (* read *)
      injection Es as <- <- <-. exists (α, ms), (α, ms). split; [by left|]. split; [by left|]. eapply sim_quiet; [done|done|done| |done].
      constructor; [done|apply Ht|]. intros b Hb. rewrite Hr by done. cbn [run].
      assert (part v (mix (writes held) (sy_store s) b) = part v (sy_store s)) as ->; [|done]. rewrite part_mix. destruct (writes held v) eqn:E; [done|].
      rewrite Hb by apply Ho. eapply sim_at; [done|exact Ei| |].
      * intros j thj c' n' N Hj _ Hin. destruct Ho as [[Hh|Hh] _]; destruct (Hal i j _ thj (LTree v) _ HWrite ltac:(done) Ei Hj Hh Hin) as [[? ?]|[[? ?]|[? ?]]]; done.
      * intros m _ [_ Hin]. by apply writes_false in E.
    + (* write *)
      injection Es as <- <- <-. exists (α, ms), (α, ms). split; [by left|]. split; [by left|]. destruct Ho as [Hw Ho].
      rewrite <- (list_insert_id ms i _ Em). eapply sim_upd; [done|exact Ei| |done| |].
      * constructor; [done|apply Ht|]. intros b Hb. rewrite Hr by done. cbn [run]. f_equal. apply part_ext. intros w. rewrite part_overlay, !part_mix, part_overlay.
        destruct (decide (w = v)) as [->|N]; [|done]. by rewrite (proj2 (writes_true held v) Hw).
      * intros j thj w N Hj Hin. rewrite part_overlay. destruct (decide (w = v)) as [->|Nw]; [|done]. exfalso.
        destruct (Hal i j _ thj (LTree v) HWrite HWrite ltac:(done) Ei Hj Hw Hin) as [[? ?]|[[? ?]|[? ?]]]; done.
      * intros w Hq Hb. rewrite part_overlay. destruct (decide (w = v)) as [->|Nw]; [exfalso; apply Hb; split; [by eauto|done]|].
        eapply sim_at; [done|exact Ei|done|]. intros m _ [_ Hin]. apply Hb. split; [by eauto|done].
    + (* stopped *)
      injection Es as <- <- <-. exists (α, ms), (α, ms). split; [by left|]. split; [by left|]. rewrite list_insert_id by done. by destruct s.
  - destruct p as [a'|k p|k p|k p|k p|k p|v f|v t0 p|r]; cbn [ordered two_phase] in Ho, Ht; try (by destruct Ht); try done.
    + injection Es as <- <- <-. pose proof (Hr α) as E. cbn in E. injection E as ->. exists (α, ms), (α, <[i := AIdle (next a)]> ms).
      split; [by left|]. split; [right; by constructor|]. subst held. eapply sim_upd; try done; [by constructor|].
      intros v Hq _. eapply sim_at; [done|exact Ei|done|]. intros m _ [_ Hin]. by apply elem_of_nil in Hin.
    + injection Es as <- <- <-. destruct (is_tree k); [|by destruct Ht]. exists (α, ms), (α, ms). split; [by left|]. split; [by left|].
      rewrite <- (list_insert_id ms i _ Em). eapply sim_upd; try done; [by constructor|]. intros v Hq _. eapply sim_at; [done|exact Ei|done|].
      intros m Em' [(c & n & ->) _]. congruence.
    + injection Es as <- <- <-. destruct (is_tree k); [|by destruct Ht]. exists (α, ms), (α, ms). split; [by left|]. split; [by left|].
      rewrite <- (list_insert_id ms i _ Em). eapply sim_upd; try done; [by constructor|]. intros v Hq _. eapply sim_at; [done|exact Ei|done|].
      intros m Em' [(c & n & ->) _]. congruence.
Qed.
Definition at_start (t : tstate) (cs : list client) : tstate * list amode := (t, AIdle <$> cs).
Lemma sim_start t cs : Forall (uses_only single) cs → sim (start t cs) (at_start t cs).
Proof.
  intros Hu. constructor; cbn [start at_start sy_threads sy_store fst snd]; [|done]. intros i th Hi. rewrite list_lookup_fmap in Hi. apply fmap_Some in Hi as (c & Hc & ->).
  exists (AIdle c). rewrite list_lookup_fmap, Hc. split; [done|]. constructor. by eapply Forall_lookup_1.
Qed.
Lemma atomic_then x h y ev z : atomic x h y → y = z ∧ ev = [] ∨ atomic_step y ev z → atomic x (h ++ ev) z.
Proof. intros H [[-> ->]|H']; [by rewrite app_nil_r|by eapply atomic_snoc]. Qed.
Lemma exec_sim x h0 l s s' h y : fine s → atomic x h0 y → sim s y → exec l s = Some (s', h) → ∃ y', atomic x (h0 ++ h) y' ∧ sim s' y'.
Proof.
  revert s h0 h y. induction l as [|i l IH]; intros s h0 h y Hf Ha HS H; cbn [exec] in H; [injection H as <- <-; exists y; by rewrite app_nil_r|].
  destruct (step_of s i) as [[s1 ev]|] eqn:E; [|done]. destruct (exec l s1) as [[s2 ev']|] eqn:E2; [|done]. injection H as <- <-.
  destruct y as [α ms]. destruct (step_sim s α ms i s1 ev Hf HS E) as (x1 & x' & H1 & H2 & HS').
  rewrite app_assoc. eapply (IH s1); [by eapply step_fine| |exact HS'|exact E2].
  eapply atomic_then; [|destruct H2 as [[-> ->]|H2]; [by left|by right]]. rewrite <- (app_nil_r h0). eapply atomic_then; [exact Ha|]. destruct H1 as [->|H1]; [by left|by right].
Qed.
