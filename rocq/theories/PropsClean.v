(** * PropsClean: paths are cleaned as documented (C96) *)
From Verif Require Import Base Uid Tree Dump Save Branch Date Ws Fs Overlay Edits Os Layers Mounts Space Manager Commands FsProofs OsProofs LayerProofs MountProofs SpecCmds OpenProofs Sample SpecSerial Deep SpecDeep DeepProofs SpecClean.
From Coq Require Import Lia.
From stdpp Require Import prelude gmap.

Definition plain_name (c : bytes) : Prop := c ≠ [] ∧ c ≠ B "." ∧ c ≠ B "..".
Lemma step_plain p c : plain_name c → clean_step p c = p ++ [c].
Proof. intros (N1 & N2 & N3). unfold clean_step. by rewrite decide_False by tauto; rewrite decide_False by done. Qed.
Lemma step_drop p c : c = [] ∨ c = B "." → clean_step p c = p.
Proof. intros H. unfold clean_step. by rewrite decide_True. Qed.
Lemma step_back p : clean_step p (B "..") = removelast p.
Proof. unfold clean_step. rewrite decide_False; [|intros [Q|Q]; discriminate Q]. by rewrite decide_True. Qed.
Lemma walk_app p l1 l2 : walk p (l1 ++ l2) = walk (walk p l1) l2.
Proof. apply foldl_app. Qed.
Lemma walk_plain l : ∀ p, Forall plain_name l → walk p l = p ++ l.
Proof.
  induction l as [|c l IH]; intros p H; [by rewrite app_nil_r|]. inversion_clear H as [|? ? Hc Hl]. change (walk p (c :: l)) with (walk (clean_step p c) l).
  rewrite step_plain by done. rewrite IH by done. by rewrite <-app_assoc.
Qed.
Lemma cleans_walk l t : cleans l t → walk [] l = walk [] t.
Proof.
  intros [l1 c l2 H|l1 c l2 N1 N2 N3|l2].
  - rewrite !walk_app. change (walk (walk [] l1) (c :: l2)) with (walk (clean_step (walk [] l1) c) l2). by rewrite step_drop.
  - rewrite !walk_app. change (walk (walk [] l1) (c :: B ".." :: l2)) with (walk (clean_step (clean_step (walk [] l1) c) (B "..")) l2). rewrite (step_plain _ c (conj N1 (conj N2 N3))). rewrite step_back. by rewrite removelast_last.
  - change (walk [] (B ".." :: l2)) with (walk (clean_step [] (B "..")) l2). by rewrite step_back.
Qed.
Lemma cleans_more l t k : cleans l t → cleans (l ++ k) (t ++ k).
Proof. intros [l1 c l2 H|l1 c l2 N1 N2 N3|l2]; rewrite <-?app_assoc; cbn [app]; by constructor. Qed.
Lemma done_plain t : (∀ u, ¬ cleans t u) → Forall plain_name t.
Proof.
  induction t as [|c t IH] using rev_ind; intros H; [done|]. assert (Forall plain_name t) as F. { apply IH. intros u Q. apply (H (u ++ [c])). by apply cleans_more. }
  apply Forall_app. split; [done|]. apply Forall_singleton. split; [|split]; intros ->.
  - apply (H (t ++ [])). apply cleans_drop. by left.
  - apply (H (t ++ [])). apply cleans_drop. by right.
  - destruct t as [|x t _] using rev_ind; [apply (H []); apply cleans_root|]. apply Forall_app in F as [_ F]. inversion_clear F as [|? ? (N1 & N2 & N3) _].
    apply (H (t ++ [])). rewrite <-app_assoc. cbn [app]. by apply cleans_back.
Qed.
Lemma plain_done t : Forall plain_name t → ∀ u, ¬ cleans t u.
Proof.
  intros F u Q. revert F. destruct Q as [l1 c l2 H|l1 c l2 N1 N2 N3|l2]; intros F.
  - apply Forall_app in F as [_ F]. inversion_clear F as [|? ? (M1 & M2 & M3) _]. by destruct H.
  - apply Forall_app in F as [_ F]. inversion_clear F as [|? ? _ F']. inversion_clear F' as [|? ? (M1 & M2 & M3) _]. done.
  - inversion_clear F as [|? ? (M1 & M2 & M3) _]. done.
Qed.
Lemma walk_names l : Forall plain_name (walk [] l) ∧ rtc cleans l (walk [] l).
Proof.
  induction l as [|c l IH] using rev_ind; [split; [apply Forall_nil_2|apply rtc_refl]|]. destruct IH as [F R]. rewrite walk_app. change (walk (walk [] l) [c]) with (clean_step (walk [] l) c).
  assert (rtc cleans (l ++ [c]) (walk [] l ++ [c])) as R1. { clear F. induction R as [|x y z H1 H2 IH]; [done|]. eapply rtc_l; [|exact IH]. by apply cleans_more. }
  destruct (decide (c = [] ∨ c = B ".")) as [Hd|Hd].
  { rewrite step_drop by done. split; [done|]. eapply rtc_r; [exact R1|]. pose proof (cleans_drop (walk [] l) c [] Hd) as Q. by rewrite app_nil_r in Q. }
  destruct (decide (c = B "..")) as [->|Nb].
  - rewrite step_back. destruct (walk [] l) as [|x t _] using rev_ind.
    + split; [done|]. eapply rtc_r; [exact R1|]. apply cleans_root.
    + rewrite removelast_last. apply Forall_app in F as [F1 F2]. inversion_clear F2 as [|? ? (N1 & N2 & N3) _]. split; [done|]. eapply rtc_r; [exact R1|].
      rewrite <-app_assoc. cbn [app]. pose proof (cleans_back t x [] N1 N2 N3) as Q. by rewrite app_nil_r in Q.
  - rewrite step_plain by (split; [|split]; tauto). split; [|done]. apply Forall_app. split; [done|]. apply Forall_singleton. split; [|split]; tauto.
Qed.
Lemma cleaned_walk l t : cleaned l t ↔ t = walk [] l.
Proof.
  split.
  - intros [R D]. pose proof (walk_plain t [] (done_plain t D)) as E. cbn [app] in E. rewrite <-E. clear D E. induction R as [|x y z H1 H2 IH]; [done|]. by rewrite (cleans_walk x y).
  - intros ->. destruct (walk_names l) as [F R]. split; [done|]. by apply plain_done.
Qed.
Lemma plain_of_good d : good_path d → Forall plain_name d.
Proof. intros G. eapply List.Forall_impl; [|exact G]. intros c (N1 & N2 & N3 & _). by split. Qed.
(** The text [s] in directory [d] means the path that the rules lead to; in whatever order they are applied, they lead to no other. *)
Theorem C96_clean : ∀ d s t, good_path d → cleaned (d ++ split_slash s) t ↔ t = pjoin d s.
Proof. intros d s t G. rewrite cleaned_walk, walk_app. rewrite (walk_plain d) by (by apply plain_of_good). done. Qed.
Print Assumptions C96_clean.
(** A text is split at every slash and nowhere else. *)
Lemma split_cons s : ∃ h r, split_slash s = h :: r.
Proof. induction s as [|c s (h & r & E)]; cbn [split_slash]; [eauto|]. rewrite E. destruct (decide _); eauto. Qed.
Theorem C96_split : ∀ s l, l = split_slash s ↔ l ≠ [] ∧ with_slashes l = s ∧ Forall (λ c, SLASH ∉ c) l.
Proof.
  intros s l. split.
  - intros ->. induction s as [|c s (N & E & F)]; [split; [done|]; split; [done|]; apply Forall_singleton, not_elem_of_nil|].
    cbn [split_slash]. destruct (split_cons s) as (h & r & Q). rewrite Q in *. inversion_clear F as [|? ? Fh Fr]. destruct (decide (c = SLASH)) as [->|Nc].
    + split; [done|]. split; [change (SLASH :: with_slashes (h :: r) = SLASH :: s); by rewrite E|]. repeat constructor; try done. apply not_elem_of_nil.
    + split; [done|]. split; [destruct r; cbn in *; by rewrite E|]. constructor; [|done]. apply not_elem_of_cons. by split; [apply not_eq_sym|].
  - revert s. induction l as [|h l IH]; intros s (N & E & F); [done|]. inversion_clear F as [|? ? Fh Fl].
    assert (∀ h' k, SLASH ∉ h' → split_slash (h' ++ k) = match split_slash k with [] => [] | x :: r => (h' ++ x) :: r end) as A.
    { clear. induction h' as [|c h' IH]; intros k N; [cbn; by destruct (split_slash k)|]. apply not_elem_of_cons in N as [N1 N2]. cbn [app split_slash]. rewrite IH by done.
      destruct (split_cons k) as (x & r & ->). by rewrite decide_False by congruence. }
    destruct l as [|h2 l]; rewrite <-E.
    + change (with_slashes [h]) with h. rewrite <-(app_nil_r h) at 2. rewrite A by done. cbn [split_slash]. by rewrite app_nil_r.
    + change (with_slashes (h :: h2 :: l)) with (h ++ SLASH :: with_slashes (h2 :: l)). rewrite A by done. cbn [split_slash]. rewrite <-(IH (with_slashes (h2 :: l))) by done. rewrite decide_True by done. by rewrite app_nil_r.
Qed.
Print Assumptions C96_split.
(** os.Getwd believes $PWD only if it leads to the working directory. *)
Theorem C96_getwd : ∀ w q, (w_pwd w = Some q → real_path (w_fs w) q = Some (w_cwd w) → getwd_of w = q) ∧
  ((w_pwd w = None ∨ ∃ p, w_pwd w = Some p ∧ real_path (w_fs w) p ≠ Some (w_cwd w)) → getwd_of w = w_cwd w).
Proof.
  intros w q. unfold getwd_of. split.
  - intros -> E. by rewrite decide_True.
  - intros [->|(p & -> & N)]; [done|]. by rewrite decide_False.
Qed.
Print Assumptions C96_getwd.
(** filepath.Abs of a text, by both models of the calls: a text that begins with a slash counts from the root, others from the working directory. Nothing changes. *)
Theorem C96_abs : ∀ s o w p w', good_path (getwd_of w) → fp_abs s o w = (Ok p, w') →
  cleaned ((if is_abs s then [] else getwd_of w) ++ split_slash s) p ∧ w_fs w' = w_fs w ∧ w_mounts w' = w_mounts w ∧ w_cwd w' = w_cwd w ∧ w_out w' = w_out w.
Proof.
  intros s o w p w' G E. pose proof (abs_ok _ _ _ _ _ E) as Ep. split.
  - rewrite Ep. unfold abs_of. destruct (is_abs s); apply C96_clean; done || apply Forall_nil_2.
  - unfold fp_abs in E. destruct (is_abs s); [by injection E as _ <-|]. unfold bind in E. destruct (os_getwd o w) as [[d| | | |] w1] eqn:Q; try done. injection E as _ <-. apply look_any in Q as ->. done.
Qed.
Print Assumptions C96_abs.
Theorem C96_deep_abs : ∀ s o w p w', good_path (deep_getwd_of w) → deep_abs s o w = (Ok p, w') →
  cleaned ((if is_abs s then [] else deep_getwd_of w) ++ split_slash s) p ∧ w_fs w' = w_fs w ∧ w_mounts w' = w_mounts w ∧ w_cwd w' = w_cwd w ∧ w_out w' = w_out w.
Proof.
  intros s o w p w' G E. unfold deep_abs in E. destruct (is_abs s) eqn:A.
  - injection E as <- <-. split; [|split; [reflexivity|]; split; [reflexivity|]; split; reflexivity]. apply (C96_clean [] s); [apply Forall_nil_2|done].
  - unfold bind in E. destruct (deep_getwd o w) as [[d| | | |] w1] eqn:Q; try done. injection E as <- <-. apply look_any in Q as Ew. split; [|rewrite Ew; split; [reflexivity|]; split; [reflexivity|]; split; reflexivity].
    assert (d = deep_getwd_of w) as Ed. 2:{ rewrite Ed. apply (C96_clean (deep_getwd_of w) s); [exact G|reflexivity]. }
    unfold deep_getwd, look, sys_atomic in Q. cbv zeta in Q. rewrite (getwd_ext w (tick w)) in Q by reflexivity. destruct (ch_fault _) as [|? ?|[|?]]; try discriminate Q. destruct (_ || _); [|discriminate Q]. injection Q as Ed _. exact (eq_sym Ed).
Qed.
Print Assumptions C96_deep_abs.
(** "../x/.//../y/" in /h/w is /h/y, and "../../.." is the root. *)
Example C96_sat : cleaned (wdir ++ split_slash (B "../x/.//../y/")) [B "h"; B "y"] ∧ cleaned (wdir ++ split_slash (B "../../..")) [] ∧ good_path wdir.
Proof.
  assert (good_path wdir) as G. { repeat apply Forall_cons_2; try apply Forall_nil_2; (split; [done|]; split; [done|]; split; [done|]; by apply (bool_decide_unpack _); vm_compute). }
  split; [apply C96_clean; [exact G|vm_compute; reflexivity]|]. split; [apply C96_clean; [exact G|vm_compute; reflexivity]|exact G].
Qed.
