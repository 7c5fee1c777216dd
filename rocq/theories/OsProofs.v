(** * OsProofs: what the operating system calls do *)
From Verif Require Import Base Uid Tree Dump Branch Date Fs Overlay Os Mounts FsProofs.
From Coq Require Import Lia.
From stdpp Require Import prelude.

(** ** Rules *)
Lemma h_atomic {A} (full : choice → world → res A * world) (P : world → Prop) (Q : A → world → Prop) (E : world → Prop) :
  (∀ w, P w → E (tick w)) →
  (∀ c w, P w → match full c (tick w) with (Ok a, w') => Q a w' ∧ E w' | (_, w') => E w' end) →
  hoare P (sys_atomic full) Q E.
Proof.
  intros H1 H2 o w Hw. unfold sys_atomic. specialize (H2 (o (w_tick w)) w Hw).
  destruct (ch_fault (o (w_tick w))) as [|e n|[|n]]; cbn [snd]; auto; destruct (full _ _) as [[?|?| | |] ?]; cbn; intuition.
Qed.
Lemma h_sys {A} (full : choice → world → res A * world) part (P : world → Prop) (Q : A → world → Prop) (E : world → Prop) :
  (∀ w, P w → E (tick w)) →
  (∀ c w, P w → match full c (tick w) with (Ok a, w') => Q a w' | (_, w') => E w' end) →
  (∀ c n w, P w → E (part c (S n) (tick w))) →
  hoare P (sys full part) Q E.
Proof.
  intros H1 H2 H3 o w Hw. unfold sys. specialize (H2 (o (w_tick w)) w Hw).
  destruct (ch_fault (o (w_tick w))) as [|e [|n]|[|n]]; auto.
Qed.
Lemma h_look {A} (f : world → res A) (P : world → Prop) (Q : A → world → Prop) (E : world → Prop) :
  (∀ w, P w → E (tick w)) → (∀ w a, P w → f (tick w) = Ok a → Q a (tick w)) → hoare P (look f) Q E.
Proof.
  intros H1 H2. apply h_atomic; [done|]. intros c w Hw. destruct (f (tick w)) eqn:F; auto.
Qed.
Lemma h_next {A} (f : choice → A) (P : world → Prop) (Q : A → world → Prop) (E : world → Prop) :
  (∀ c w, P w → Q (f c) (tick w)) → hoare P (next_choice f) Q E.
Proof. intros H o w Hw. cbn. auto. Qed.

(** Invariants that look only at the files, the mounts and so on, not at the clock *)
Definition timeless (I : world → Prop) : Prop := ∀ w, I w → I (tick w).

Lemma look_keeps {A} (f : world → res A) I : timeless I → keeps I (look f).
Proof. intros T. apply h_look; auto. Qed.
Lemma next_keeps {A} (f : choice → A) I : timeless I → keeps I (next_choice f).
Proof. intros T. apply h_next; auto. Qed.
Lemma exists_keeps p I : timeless I → keeps I (fs_is_exists p).
Proof. intros T. unfold fs_is_exists. apply keeps_bind; [apply keeps_attempt, look_keeps, T|]. intros. by apply h_ret. Qed.
Lemma is_dir_keeps p I : timeless I → keeps I (fs_is_dir p).
Proof. intros T. unfold fs_is_dir. apply keeps_bind; [apply keeps_attempt, look_keeps, T|]. intros. by apply h_ret. Qed.
Lemma symlink_keeps p I : timeless I → keeps I (fs_is_symlink p).
Proof. intros T. unfold fs_is_symlink. apply keeps_bind; [apply keeps_attempt, look_keeps, T|]. intros. by apply h_ret. Qed.
Lemma empty_dir_keeps p I : timeless I → keeps I (fs_is_empty_dir p).
Proof.
  intros T. unfold fs_is_empty_dir. apply keeps_bind; [by apply is_dir_keeps|]. intros [|]; [|by apply h_ret].
  apply keeps_bind; [apply keeps_attempt, look_keeps, T|]. intros. by apply h_ret.
Qed.
Lemma fp_abs_keeps s I : timeless I → keeps I (fp_abs s).
Proof. intros T. unfold fp_abs. destruct (is_abs s); [by apply h_ret|]. apply keeps_bind; [by apply look_keeps|]. intros. by apply h_ret. Qed.
Lemma read_file_keeps p I : timeless I → keeps I (os_read_file p).
Proof.
  intros T o w Hw. unfold os_read_file.
  destruct (ch_fault (o (w_tick w))); [destruct (match real_path _ _ with Some _ => _ | None => _ end)| |]; auto.
  destruct (match real_path _ _ with Some _ => _ | None => _ end); auto.
Qed.

(** ** os.Mkdir *)
Lemma mkdir_in_ok fs p f : mkdir_in fs p = Ok f →
  fget fs p = None ∧ is_dir_at fs (parent_dir p) = true ∧ f = fset fs p (FDir false).
Proof.
  unfold mkdir_in, is_dir_at. destruct (fget fs p); [done|].
  destruct (fget fs (parent_dir p)) as [[]|]; try done. by intros [= <-].
Qed.
Lemma mkdir_in_cases fs p : (∃ f, mkdir_in fs p = Ok f) ∨ (∃ e, mkdir_in fs p = Err e).
Proof. unfold mkdir_in. destruct (fget fs p); [eauto|]. destruct (fget fs (parent_dir p)) as [[]|]; eauto. Qed.
Lemma h_mkdir p (P : world → Prop) (Q : unit → world → Prop) (E : world → Prop) :
  (∀ w, P w → E (tick w)) →
  (∀ w, P w → fget (w_fs w) p = None → is_dir_at (w_fs w) (parent_dir p) = true →
     let w' := set_fs (tick w) (fset (w_fs w) p (FDir false)) in Q tt w' ∧ E w') →
  hoare P (os_mkdir p) Q E.
Proof.
  intros H1 H2. apply h_atomic; [done|]. intros _ w Hw. cbn [w_fs tick].
  destruct (mkdir_in_cases (w_fs w) p) as [[f F]|[e F]]; rewrite F; [|auto].
  apply mkdir_in_ok in F as (F1 & F2 & ->). by apply H2.
Qed.
Lemma mkdir_ok p o w u w' : os_mkdir p o w = (Ok u, w') →
  fget (w_fs w) p = None ∧ is_dir_at (w_fs w) (parent_dir p) = true ∧ w' = set_fs (tick w) (fset (w_fs w) p (FDir false)).
Proof.
  unfold os_mkdir, sys_atomic. destruct (ch_fault _) as [|? ?|[|?]]; try done. cbn [w_fs tick].
  destruct (mkdir_in_cases (w_fs w) p) as [[f F]|[e F]]; rewrite F; [|done]. intros [= _ <-].
  apply mkdir_in_ok in F as (F1 & F2 & ->). done.
Qed.

(** ** os.WriteFile *)
Lemma write_in_ok fs p d f : write_in fs p d = Ok f →
  ((∃ x, fget fs p = Some (FFile x)) ∨ (fget fs p = None ∧ is_dir_at fs (parent_dir p) = true)) ∧ f = fset fs p (FFile d).
Proof.
  unfold write_in. destruct (fget fs p) as [[]|]; try done.
  - intros [= <-]. eauto.
  - destruct (is_dir_at fs (parent_dir p)); [|done]. intros [= <-]. eauto.
Qed.
Lemma write_in_cases fs p d : (∃ f, write_in fs p d = Ok f) ∨ (∃ e, write_in fs p d = Err e).
Proof. unfold write_in. destruct (fget fs p) as [[]|]; eauto. destruct (is_dir_at _ _); eauto. Qed.
(** A failed or interrupted write leaves the file as it was or holding a prefix of the data. *)
Lemma h_write p d (P : world → Prop) (Q : unit → world → Prop) (E : world → Prop) :
  (∀ w, P w → E (tick w)) →
  (∀ w n, P w → (∃ x, fget (w_fs w) p = Some (FFile x)) ∨ (fget (w_fs w) p = None ∧ is_dir_at (w_fs w) (parent_dir p) = true) →
     E (set_fs (tick w) (fset (w_fs w) p (FFile (take n d))))) →
  (∀ w, P w → (∃ x, fget (w_fs w) p = Some (FFile x)) ∨ (fget (w_fs w) p = None ∧ is_dir_at (w_fs w) (parent_dir p) = true) →
     Q tt (set_fs (tick w) (fset (w_fs w) p (FFile d)))) →
  hoare P (os_write_file p d) Q E.
Proof.
  intros H1 H2 H3. apply h_sys; [done| |]; [intros _ w Hw|intros _ n w Hw]; cbn [w_fs tick].
  - destruct (write_in_cases (w_fs w) p d) as [[f F]|[e F]]; rewrite F; [|auto].
    apply write_in_ok in F as (F1 & ->). auto.
  - destruct (write_in_cases (w_fs w) p (take (pred (S n)) d)) as [[f F]|[e F]]; rewrite F; [|auto].
    apply write_in_ok in F as (F1 & ->). auto.
Qed.
Lemma write_ok p d o w u w' : os_write_file p d o w = (Ok u, w') →
  ((∃ x, fget (w_fs w) p = Some (FFile x)) ∨ (fget (w_fs w) p = None ∧ is_dir_at (w_fs w) (parent_dir p) = true)) ∧
  w' = set_fs (tick w) (fset (w_fs w) p (FFile d)).
Proof.
  unfold os_write_file, sys. destruct (ch_fault _) as [|? [|?]|[|?]]; try done. cbn [w_fs tick].
  destruct (write_in_cases (w_fs w) p d) as [[f F]|[e F]]; rewrite F; [|done]. intros [= _ <-].
  apply write_in_ok in F as (F1 & ->). done.
Qed.

(** ** os.Remove *)
Lemma remove_in_ok w p f : remove_in w p = Ok f →
  is_Some (fget (w_fs w) p) ∧ f = fdel (w_fs w) p ∧
  (∀ b, fget (w_fs w) p = Some (FDir b) → mounted_at (w_mounts w) p = false ∧ children (w_fs w) p = []).
Proof.
  unfold remove_in. destruct (fget (w_fs w) p) as [[]|]; try done; [|intros [= <-]; eauto with congruence..].
  destruct (mounted_at _ _); [done|]. destruct (children _ _); [|done]. intros [= <-]. eauto.
Qed.
Lemma remove_in_cases w p : (∃ f, remove_in w p = Ok f) ∨ (∃ e, remove_in w p = Err e).
Proof. unfold remove_in. destruct (fget (w_fs w) p) as [[]|]; eauto. destruct (mounted_at _ _); [eauto|]. destruct (children _ _); eauto. Qed.
Lemma h_remove p (P : world → Prop) (Q : unit → world → Prop) (E : world → Prop) :
  (∀ w, P w → E (tick w)) →
  (∀ w, P w → is_Some (fget (w_fs w) p) →
     (∀ b, fget (w_fs w) p = Some (FDir b) → mounted_at (w_mounts w) p = false ∧ children (w_fs w) p = []) →
     let w' := set_fs (tick w) (fdel (w_fs w) p) in Q tt w' ∧ E w') →
  hoare P (os_remove p) Q E.
Proof.
  intros H1 H2. apply h_atomic; [done|]. intros _ w Hw.
  destruct (remove_in_cases (tick w) p) as [[f F]|[e F]]; rewrite F; [|auto].
  apply remove_in_ok in F as (F1 & -> & F2). exact (H2 w Hw F1 F2).
Qed.
Lemma remove_ok p o w u w' : os_remove p o w = (Ok u, w') →
  is_Some (fget (w_fs w) p) ∧ w' = set_fs (tick w) (fdel (w_fs w) p) ∧
  (∀ b, fget (w_fs w) p = Some (FDir b) → mounted_at (w_mounts w) p = false ∧ children (w_fs w) p = []).
Proof.
  unfold os_remove, sys_atomic. destruct (ch_fault _) as [|? ?|[|?]]; try done.
  destruct (remove_in_cases (tick w) p) as [[f F]|[e F]]; rewrite F; [|done]. intros [= _ <-].
  by apply remove_in_ok in F as (F1 & -> & F2).
Qed.

(** ** os.Symlink *)
Lemma h_symlink s p (P : world → Prop) (Q : unit → world → Prop) (E : world → Prop) :
  (∀ w, P w → E (tick w)) →
  (∀ w, P w → fget (w_fs w) p = None → is_dir_at (w_fs w) (parent_dir p) = true →
     let w' := set_fs (tick w) (fset (w_fs w) p (FLink s)) in Q tt w' ∧ E w') →
  hoare P (os_symlink s p) Q E.
Proof.
  intros H1 H2. apply h_atomic; [done|]. intros _ w Hw. cbn [w_fs tick].
  destruct (fget (w_fs w) p) eqn:F; [auto|]. destruct (is_dir_at _ _) eqn:D; [|auto]. by apply H2.
Qed.
Lemma symlink_ok s p o w u w' : os_symlink s p o w = (Ok u, w') →
  fget (w_fs w) p = None ∧ is_dir_at (w_fs w) (parent_dir p) = true ∧ w' = set_fs (tick w) (fset (w_fs w) p (FLink s)).
Proof.
  unfold os_symlink, sys_atomic. destruct (ch_fault _) as [|? ?|[|?]]; try done. cbn [w_fs tick].
  destruct (fget (w_fs w) p) eqn:F; [done|]. destruct (is_dir_at _ _) eqn:D; [|done]. by intros [= _ <-].
Qed.

(** ** os.Chdir *)
Lemma h_chdir p (P : world → Prop) (Q : unit → world → Prop) (E : world → Prop) :
  (∀ w, P w → E (tick w)) →
  (∀ w q, P w → real_path (w_fs w) p = Some q → is_dir_at (w_fs w) q = true →
     let w' := set_cwd (tick w) q in Q tt w' ∧ E w') →
  hoare P (os_chdir p) Q E.
Proof.
  intros H1 H2. apply h_atomic; [done|]. intros _ w Hw. cbn [w_fs tick].
  destruct (real_path (w_fs w) p) as [q|] eqn:F; [|auto]. destruct (is_dir_at _ _) eqn:D; [|auto]. by apply H2.
Qed.
Lemma chdir_ok p o w u w' : os_chdir p o w = (Ok u, w') →
  ∃ q, real_path (w_fs w) p = Some q ∧ is_dir_at (w_fs w) q = true ∧ w' = set_cwd (tick w) q.
Proof.
  unfold os_chdir, sys_atomic. destruct (ch_fault _) as [|? ?|[|?]]; try done. cbn [w_fs tick].
  destruct (real_path (w_fs w) p) as [q|] eqn:F; [|done]. destruct (is_dir_at _ _) eqn:D; [|done]. intros [= _ <-]. eauto.
Qed.

(** ** Calls that only look *)
Lemma look_ok {A} (f : world → res A) o w a w' : look f o w = (Ok a, w') → f (tick w) = Ok a ∧ w' = tick w.
Proof.
  unfold look, sys_atomic. destruct (ch_fault _) as [|? ?|[|?]]; try done. by intros [= -> <-].
Qed.
Lemma chown_any p o w r w' : os_chown p o w = (r, w') → w' = tick w ∨ ∃ q, w' = give (tick w) q.
Proof. unfold os_chown, sys_atomic. destruct (ch_fault _) as [|? ?|[|?]]; cbn [w_fs tick]; try destruct (real_path _ _); intros [= _ <-]; cbn [snd]; eauto. Qed.
Lemma lchown_any p o w r w' : os_lchown p o w = (r, w') → w' = tick w ∨ ∃ q, w' = give (tick w) q.
Proof. unfold os_lchown, sys_atomic. destruct (ch_fault _) as [|? ?|[|?]]; cbn [w_fs tick]; try destruct (fget _ _); intros [= _ <-]; cbn [snd]; eauto. Qed.
Lemma chown_ok p o w u w' : os_chown p o w = (Ok u, w') → ∃ q, real_path (w_fs w) p = Some q ∧ w' = give (tick w) q.
Proof. unfold os_chown, sys_atomic. destruct (ch_fault _) as [|? ?|[|?]]; cbn [w_fs tick]; try destruct (real_path _ _); try done. intros [= _ <-]. eauto. Qed.
Lemma lchown_ok p o w u w' : os_lchown p o w = (Ok u, w') → is_Some (fget (w_fs w) p) ∧ w' = give (tick w) p.
Proof. unfold os_lchown, sys_atomic. destruct (ch_fault _) as [|? ?|[|?]]; cbn [w_fs tick]; try destruct (fget _ _); try done. intros [= _ <-]. eauto. Qed.
Lemma look_any {A} (f : world → res A) o w r w' : look f o w = (r, w') → w' = tick w.
Proof. unfold look, sys_atomic. destruct (ch_fault _) as [|? ?|[|?]]; by intros [= _ <-]. Qed.
(** fsutil.IsDir and the like: "yes" is reliable, "no" may be an error. *)
Lemma is_dir_ok p o w b w' : fs_is_dir p o w = (Ok b, w') →
  w' = tick w ∧ (b = true → ∃ q, real_path (w_fs w) p = Some q ∧ is_dir_at (w_fs w) q = true).
Proof.
  intros (r & w1 & E & [= <- ->])%bind_ok. apply attempt_ok in E as [(x & -> & E)|(e & -> & E)].
  - apply look_ok in E as [E ->]. split; [done|]. cbn [w_fs tick] in E.
    destruct (real_path (w_fs w) p) as [q|]; [|done]. destruct (fget (w_fs w) q) as [y|] eqn:F; [|done].
    injection E as ->. intros H. exists q. split; [done|]. unfold is_dir_at. rewrite F. by destruct x.
  - apply look_any in E as ->. by split.
Qed.
Lemma is_exists_ok p o w b w' : fs_is_exists p o w = (Ok b, w') →
  w' = tick w ∧ (b = true → ∃ q, real_path (w_fs w) p = Some q ∧ is_Some (fget (w_fs w) q)).
Proof.
  intros (r & w1 & E & [= <- ->])%bind_ok. apply attempt_ok in E as [(x & -> & E)|(e & -> & E)].
  - apply look_ok in E as [E ->]. split; [done|]. cbn [w_fs tick] in E.
    destruct (real_path (w_fs w) p) as [q|]; [|done]. destruct (fget (w_fs w) q) as [y|] eqn:F; [|done]. eauto.
  - apply look_any in E as ->. by split.
Qed.
Lemma is_symlink_ok p o w b w' : fs_is_symlink p o w = (Ok b, w') →
  w' = tick w ∧ (b = true → ∃ s, fget (w_fs w) p = Some (FLink s)).
Proof.
  intros (r & w1 & E & [= <- ->])%bind_ok. apply attempt_ok in E as [(x & -> & E)|(e & -> & E)].
  - apply look_ok in E as [E ->]. split; [done|]. cbn [w_fs tick] in E.
    destruct (fget (w_fs w) p) as [y|] eqn:F; [|done]. injection E as ->. destruct x; eauto; done.
  - apply look_any in E as ->. by split.
Qed.
Lemma real_not_link fs p x : fget fs p = Some x → (∀ s, x ≠ FLink s) → real_path fs p = Some p.
Proof. intros E N. unfold real_path. cbn [real]. rewrite E. destruct x; try done. by destruct (N target). Qed.
Lemma real_dir fs p : is_dir_at fs p = true → real_path fs p = Some p.
Proof. unfold is_dir_at. destruct (fget fs p) as [[]|] eqn:E; try done. intros _. by eapply real_not_link. Qed.
Lemma real_exists fuel fs p q : real fuel fs p = Some q → ∃ x, fget fs q = Some x ∧ ∀ s, x ≠ FLink s.
Proof.
  revert p. induction fuel as [|f IH]; intros p; cbn [real]; destruct (fget fs p) as [[]|] eqn:E; try done;
    intros H; try (injection H as <-; eexists; split; [exact E|done]). by eapply IH.
Qed.
Lemma is_dir_at_Some fs p : is_dir_at fs p = true ↔ ∃ b, fget fs p = Some (FDir b).
Proof. unfold is_dir_at. destruct (fget fs p) as [[]|]; split; intros H; eauto; try done; destruct H; done. Qed.

(** ** Creating a directory *)
Lemma h_create_dir (root : path) (p : path) (P : world → Prop) (Q : unit → world → Prop) (E : world → Prop) :
  timeless P → (∀ w, P w → E w) → (∀ w, P w → Q tt w) →
  (∀ w, P w → fget (w_fs w) p = None → is_dir_at (w_fs w) (parent_dir p) = true →
     let w' := set_fs w (fset (w_fs w) p (FDir false)) in Q tt w' ∧ E w') →
  hoare P (d <- fs_is_dir p ;; if d : bool then ret tt else os_mkdir p) Q E.
Proof.
  intros T PE PQ H. eapply h_bind with (R := λ _, P).
  - eapply h_weaken; [by apply is_dir_keeps| | |]; auto.
  - intros [|]; [by apply h_ret|]. apply h_mkdir; [auto|]. intros w Hw N D. exact (H (tick w) (T _ Hw) N D).
Qed.
