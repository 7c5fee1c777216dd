(** * BranchProofs *)
From Verif Require Import Base Uid SpecUid UidProofs Branch.
From Coq Require Import Lia.
From stdpp Require Import prelude gmap.

(** What a full name means: "global/NAME", or "ID/NAME" with a base32 spelling of a workspace ID. The
    name has no line feed. *)
Inductive reads_as : bytes → branch → Prop :=
  | reads_global n : LF ∉ n → reads_as (B "global/" ++ n) (Br None n)
  | reads_local p u n : decode_b32 p = Ok u → LF ∉ n → reads_as (p ++ B "/" ++ n) (Br (Some u) n).

Lemma trim_prefix_app p s : trim_prefix p (p ++ s) = Some s.
Proof. induction p as [|a p IH]; [done|]. cbn. by rewrite decide_True. Qed.
Lemma trim_prefix_Some p s r : trim_prefix p s = Some r ↔ s = p ++ r.
Proof.
  split; [|intros ->; apply trim_prefix_app].
  revert s. induction p as [|a p IH]; intros s; cbn; [congruence|].
  destruct s as [|b s]; [done|]. case_decide as E; [|done]. subst. intros H. apply IH in H. by subst.
Qed.
Lemma no_lf_spec s : no_lf s = true ↔ LF ∉ s.
Proof.
  unfold no_lf. rewrite forallb_forall. split.
  - intros H Hin. apply elem_of_list_In in Hin. specialize (H _ Hin). by rewrite bool_decide_true in H.
  - intros H c Hc. apply elem_of_list_In in Hc. rewrite bool_decide_false; [done|]. by intros ->.
Qed.
Lemma alpha_id_char c : c ∈ b32_alphabet → id_char c = true.
Proof.
  assert (forallb id_char b32_alphabet = true) as A by (vm_compute; reflexivity).
  rewrite forallb_forall in A. intros H. by apply A, elem_of_list_In.
Qed.
Lemma decode_b32_shape p u : decode_b32 p = Ok u → length p = 26 ∧ forallb id_char p = true.
Proof.
  intros H. destruct (decode_b32_ok_alpha p u H) as (q & -> & L). split; [by rewrite fmap_length|].
  apply forallb_forall. intros c Hc. apply elem_of_list_In, elem_of_list_fmap in Hc as (y & -> & _).
  apply alpha_id_char, b32_char_alpha.
Qed.
Lemma id_char_not_odd c : id_char c = true → c ∉ odd_bytes.
Proof.
  intros H O. unfold odd_bytes in O. repeat (apply elem_of_cons in O as [->|O]; [discriminate H|]). by apply elem_of_nil in O.
Qed.
Lemma global_not_id p n x : length p = 26 → forallb id_char p = true → p ++ n ≠ B "global/" ++ x.
Proof.
  intros L F E. destruct p as [|c p]; [done|]. cbn in E. injection E as -> _. cbn in F. discriminate F.
Qed.
Lemma reads_inv s b : reads_as s b →
  (∃ n, s = B "global/" ++ n ∧ LF ∉ n ∧ b = Br None n) ∨
  (∃ p u n, s = p ++ B "/" ++ n ∧ decode_b32 p = Ok u ∧ LF ∉ n ∧ b = Br (Some u) n).
Proof. destruct 1; eauto 10. Qed.
Lemma parse_full_ok s b : parse_full s = Ok b ↔ reads_as s b.
Proof.
  unfold parse_full. destruct (trim_prefix (B "global/") s) as [n|] eqn:E.
  - apply trim_prefix_Some in E as ->. destruct (no_lf n) eqn:N.
    + apply no_lf_spec in N. split.
      * intros [= <-]. by constructor.
      * intros H. apply reads_inv in H as [(n' & E1 & N' & ->)|(p & u & n' & E1 & D & N' & ->)].
        -- apply app_inv_head in E1 as ->. done.
        -- exfalso. destruct (decode_b32_shape _ _ D) as [L F]. symmetry in E1. by eapply global_not_id in E1.
    + split; [done|]. intros H. exfalso. assert (¬ (LF ∉ n)) as N2. { rewrite <-no_lf_spec. congruence. }
      apply reads_inv in H as [(n' & E1 & N' & ->)|(p & u & n' & E1 & D & N' & ->)].
      * apply app_inv_head in E1 as ->. done.
      * destruct (decode_b32_shape _ _ D) as [L F]. symmetry in E1. by eapply global_not_id in E1.
  - assert (∀ n, s ≠ B "global/" ++ n) as NG.
    { intros n ->. by rewrite trim_prefix_app in E. }
    split.
    + destruct ((length (take 26 s) =? 26) && forallb id_char (take 26 s)) eqn:C; [|done].
      destruct (drop 26 s) as [|c n] eqn:D; [done|]. case_decide as Ec; [|done]. subst c.
      destruct (no_lf n) eqn:N; [|done]. apply no_lf_spec in N.
      destruct (decode_b32 (take 26 s)) as [u| | | |] eqn:Du; try done. intros [= <-].
      rewrite <-(take_drop 26 s), D. by apply (reads_local (take 26 s) u n).
    + intros H. apply reads_inv in H as [(n' & E1 & N' & ->)|(p & u & n' & -> & Du & N' & ->)]; [by destruct (NG n')|].
      destruct (decode_b32_shape _ _ Du) as [L F]. rewrite take_app_alt, drop_app_alt by done.
      rewrite L, F. cbn [Nat.eqb andb list_ascii_of_string app]. rewrite decide_True by done.
      rewrite (proj2 (no_lf_spec n') N'). by rewrite Du.
Qed.
Lemma parse_full_total s : (∃ b, parse_full s = Ok b) ∨ (∃ e, parse_full s = Err e).
Proof.
  unfold parse_full. destruct (trim_prefix _ s) as [n|]; [destruct (no_lf n); eauto|].
  destruct ((length (take 26 s) =? 26) && forallb id_char (take 26 s)) eqn:C; [|eauto].
  destruct (drop 26 s) as [|c n]; [eauto|]. case_decide; [|eauto]. destruct (no_lf n); [|eauto].
  apply andb_true_iff in C as [_ C]. rewrite forallb_forall in C.
  destruct (decode_b32_plain (take 26 s)) as [[[u ->] _]|[[e ->] _]]; eauto.
  intros c' O Hin. apply (id_char_not_odd c'); [|done]. by apply C, elem_of_list_In.
Qed.

Lemma uid_b32_id_char u : forallb id_char (uid_b32 u) = true.
Proof. apply (decode_b32_shape _ u), decode_b32_b32. Qed.
Lemma full_name_inj b b' : full_name b = full_name b' → b = b'.
Proof.
  destruct b as [[u|] n], b' as [[u'|] n']; unfold full_name; cbn [br_ws br_name].
  - intros E. apply app_inj_1 in E as [E1 E2]; [|by rewrite !uid_b32_length].
    apply uid_b32_inj in E1 as ->. by injection E2 as ->.
  - intros E. exfalso. eapply (global_not_id (uid_b32 u)); [apply uid_b32_length|apply uid_b32_id_char|exact E].
  - intros E. exfalso. symmetry in E. eapply (global_not_id (uid_b32 u')); [apply uid_b32_length|apply uid_b32_id_char|exact E].
  - intros E. apply app_inv_head in E as ->. done.
Qed.
Lemma reads_full b : LF ∉ br_name b → reads_as (full_name b) b.
Proof. destruct b as [[u|] n]; intros H; constructor; [apply decode_b32_b32|done|done]. Qed.
Lemma lf_not_id s : forallb id_char s = true → LF ∉ s.
Proof. rewrite forallb_forall. intros H Hin. apply elem_of_list_In in Hin. specialize (H _ Hin). discriminate H. Qed.
Lemma reads_no_lf s b : reads_as s b → LF ∉ s.
Proof.
  destruct 1 as [n N|p u n D N].
  - rewrite elem_of_app. intros [H|H]; [|done]. revert H. apply (bool_decide_eq_true_1 _). vm_compute. reflexivity.
  - destruct (decode_b32_shape _ _ D) as [_ F]. rewrite !elem_of_app. intros [H|[H|H]]; [by apply lf_not_id in F| |done].
    revert H. apply (bool_decide_eq_true_1 _). vm_compute. reflexivity.
Qed.
Lemma full_no_lf b : LF ∈ br_name b → LF ∈ full_name b.
Proof. destruct b as [[u|] n]; unfold full_name; cbn [br_ws br_name]; rewrite !elem_of_app; auto. Qed.
Lemma parse_full_name b : parse_full (full_name b) = if decide (LF ∈ br_name b) then Err EBadName else Ok b.
Proof.
  case_decide as H.
  - unfold parse_full. destruct (trim_prefix (B "global/") (full_name b)) as [n|] eqn:E.
    + apply trim_prefix_Some in E. destruct b as [[u|] m]; unfold full_name in E; cbn [br_ws br_name] in *.
      * exfalso. eapply (global_not_id (uid_b32 u)); [apply uid_b32_length|apply uid_b32_id_char|exact E].
      * apply app_inv_head in E as ->. destruct (no_lf n) eqn:N; [|done]. by apply no_lf_spec in N.
    + destruct b as [[u|] m]; unfold full_name in *; cbn [br_ws br_name] in *; [|by rewrite trim_prefix_app in E].
      rewrite take_app_alt, drop_app_alt by (by rewrite uid_b32_length).
      rewrite uid_b32_length, uid_b32_id_char. cbn [Nat.eqb andb list_ascii_of_string app].
      rewrite decide_True by done. destruct (no_lf m) eqn:N; [|done]. by apply no_lf_spec in N.
  - apply parse_full_ok. by apply reads_full.
Qed.
