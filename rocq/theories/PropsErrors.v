(** * PropsErrors: FromError (C54) *)
From Verif Require Import Base Errors.
From Coq Require Import Lia.
From stdpp Require Import prelude.

(** The errors inside an error, named by the way to them: which of the wrapped errors to take at each level *)
Inductive inside : goerr → list nat → goerr → Prop :=
  | inside_here e : inside e [] e
  | inside_below e i e1 p e2 : err_wrapped e !! i = Some e1 → inside e1 p e2 → inside e (i :: p) e2.
(** Further out or further to the left *)
Inductive before : list nat → list nat → Prop :=
  | before_above i p : before [] (i :: p)
  | before_left i j p q : i < j → before (i :: p) (j :: q)
  | before_same i p q : before p q → before (i :: p) (i :: q).
(** The error is a Status, or answers as one; or neither. *)
Definition speaks (e : goerr) (s : status) : Prop := err_own e = Some s ∨ err_own e = None ∧ err_given e = Some s.
Definition silent (e : goerr) : Prop := err_own e = None ∧ err_given e = None.
(** [s] is the outermost Status, the leftmost of these if errors are joined. *)
Definition outermost (e : goerr) (s : status) : Prop :=
  ∃ p e', inside e p e' ∧ speaks e' s ∧ ∀ q e'', inside e q e'' → before q p → silent e''.
Definition no_status (e : goerr) : Prop := ∀ q e', inside e q e' → silent e'.

Fixpoint goerr_ind' (P : goerr → Prop) (H : ∀ t o g l, Forall P l → P (GErr t o g l)) (e : goerr) : P e :=
  match e with
  | GErr t o g l => H t o g l ((fix all (l : list goerr) : Forall P l :=
      match l with [] => Forall_nil_2 P | e :: l' => Forall_cons_2 P e l' (goerr_ind' P H e) (all l') end) l)
  end.
Lemma as_status_cases e : match as_status e with Some s => outermost e s | None => no_status e end.
Proof.
  induction e as [t o g l IH] using goerr_ind'. cbn [as_status]. destruct o as [s|].
  { exists [], (GErr t (Some s) g l). split; [constructor|]. split; [by left|]. intros q e'' _ H. inversion H. }
  destruct g as [s|].
  { exists [], (GErr t None (Some s) l). split; [constructor|]. split; [by right|]. intros q e'' _ H. inversion H. }
  set (first := fix first (l : list goerr) : option status := match l with [] => None | e' :: l' => match as_status e' with Some s => Some s | None => first l' end end).
  assert (match first l with
    | Some s => ∃ l1 e l2, l = l1 ++ e :: l2 ∧ outermost e s ∧ Forall no_status l1
    | None => Forall no_status l end) as H.
  { induction IH as [|e l He IH IH']; [constructor|]. cbn [first]. destruct (as_status e) as [s|]; [by exists [], e, l|].
    fold first. destruct (first l) as [s|]; [|by constructor]. destruct IH' as (l1 & e1 & l2 & -> & Ho & Hn). exists (e :: l1), e1, l2. split; [done|]. split; [done|]. by constructor. }
  destruct (first l) as [s|].
  - destruct H as (l1 & e & l2 & -> & (p & e' & Hi & Hs & Hb) & Hn). exists (length l1 :: p), e'. split; [|split; [done|]].
    { eapply inside_below; [|exact Hi]. cbn [err_wrapped]. by apply list_lookup_middle. }
    intros q e'' Hq B. inversion Hq as [|? i e1 q' ? E1 Hq']; subst; [done|]. cbn [err_wrapped] in E1. inversion B as [|? ? ? ? Lt|? ? ? B']; subst.
    + rewrite lookup_app_l in E1 by done. rewrite Forall_forall in Hn. eapply (Hn e1); [by eapply elem_of_list_lookup_2|exact Hq'].
    + rewrite list_lookup_middle in E1 by done. injection E1 as <-. by eapply Hb.
  - intros q e' Hq. inversion Hq as [|? i e1 q' ? E1 Hq']; subst; [done|]. cbn [err_wrapped] in E1. rewrite Forall_forall in H. eapply (H e1); [by eapply elem_of_list_lookup_2|exact Hq'].
Qed.
Lemma before_total p q : p = q ∨ before p q ∨ before q p.
Proof.
  revert q. induction p as [|i p IH]; intros [|j q]; [by left|by right; left; constructor|by right; right; constructor|].
  destruct (lt_eq_lt_dec i j) as [[Lt| ->]|Lt]; [right; left; by constructor| |right; right; by constructor].
  destruct (IH q) as [->|[B|B]]; [by left|right; left; by constructor|right; right; by constructor].
Qed.
Lemma inside_det e p e1 e2 : inside e p e1 → inside e p e2 → e1 = e2.
Proof. intros H. revert e2. induction H as [|e i e1 p e2 E H IH]; intros e3 H3; inversion H3; subst; [done|]. apply IH. congruence. Qed.
Lemma outermost_det e s s' : outermost e s → outermost e s' → s = s'.
Proof.
  intros (p & e1 & H1 & S1 & B1) (q & e2 & H2 & S2 & B2). destruct (before_total p q) as [->|[B|B]].
  - rewrite (inside_det _ _ _ _ H1 H2) in S1. destruct S1 as [?|[? ?]], S2 as [?|[? ?]]; congruence.
  - destruct (B2 _ _ H1 B) as [? ?]. destruct S1 as [?|[? ?]]; congruence.
  - destruct (B1 _ _ H2 B) as [? ?]. destruct S2 as [?|[? ?]]; congruence.
Qed.
(** ** C54 *)
(** FromError returns the outermost Status, however deep it sits and whatever is wrapped around it. *)
Theorem C54_outermost : ∀ e s, outermost e s → from_error (Some e) = Ok s.
Proof.
  intros e s Ho. unfold from_error. pose proof (as_status_cases e) as H. destruct (as_status e) as [s'|]; [by rewrite (outermost_det _ _ _ H Ho)|].
  destruct Ho as (p & e' & Hi & Hs & _). destruct (H _ _ Hi). destruct Hs as [?|[? ?]]; congruence.
Qed.
(** Otherwise it makes one out of the text. *)
Theorem C54_otherwise : ∀ e, no_status e → from_error (Some e) = Ok (Status 0 (B "InternalError") (err_text e)).
Proof.
  intros e Hn. unfold from_error. pose proof (as_status_cases e) as H. destruct (as_status e) as [s'|]; [|done].
  destruct H as (p & e' & Hi & Hs & _). destruct (Hn _ _ Hi). destruct Hs as [?|[? ?]]; congruence.
Qed.
(** One of the two is the case for every error. *)
Theorem C54_cases : ∀ e, (∃ s, outermost e s) ∨ no_status e.
Proof. intros e. pose proof (as_status_cases e) as H. destruct (as_status e) as [s|]; [left; by exists s|by right]. Qed.
(** Wrapping with %w any number of times keeps the status. *)
Fixpoint wrap_all (texts : list bytes) (e : goerr) : goerr := match texts with [] => e | t :: ts => errorf t [wrap_all ts e] end.
Theorem C54_wrapping : ∀ texts s, from_error (Some (wrap_all texts (status_err s))) = Ok s.
Proof.
  intros texts s. apply C54_outermost. exists (replicate (length texts) 0), (status_err s). split; [|split; [by left|]].
  - induction texts as [|t ts IH]; [constructor|]. cbn [wrap_all length replicate]. by eapply inside_below.
  - induction texts as [|t ts IH]; intros q e'' Hq Bq; [inversion Bq|]. cbn [wrap_all length replicate] in *.
    inversion Hq as [|? i e1 q' ? E1 Hq']; subst; [done|]. cbn in E1. inversion Bq as [| |? ? ? B']; subst; [lia|]. injection E1 as <-. by eapply IH.
Qed.
(** The nil error, the result of every successful call, makes it panic. *)
Theorem C54_nil_panics : from_error None = Panic.
Proof. reflexivity. Qed.
Print Assumptions C54_outermost.
Print Assumptions C54_otherwise.
Print Assumptions C54_cases.
Print Assumptions C54_wrapping.
Print Assumptions C54_nil_panics.
(** A joined error whose first part has no status and whose second wraps two of them *)
Example C54_sat : let s := Status 7 (B "LayerNotFound") (B "gone") in
  let e := errorf (B "all") [errorf (B "a") []; errorf (B "b") [GErr (B "c") (Some s) None [status_err (new_status (B "X") (B "y"))]]] in
  outermost e s ∧ from_error (Some e) = Ok s ∧ status_text s = B "LayerNotFound(7): gone" ∧
  from_error (Some (errorf (B "all") [errorf (B "a") []])) = Ok (Status 0 (B "InternalError") (B "all")).
Proof.
  split; [|split; [reflexivity|split; vm_compute; reflexivity]].
  exists [1; 0], (GErr (B "c") (Some (Status 7 (B "LayerNotFound") (B "gone"))) None [status_err (new_status (B "X") (B "y"))]).
  split; [do 2 (eapply inside_below; [reflexivity|]); constructor|]. split; [by left|]. intros q e'' Hq Bq.
  inversion Hq as [|? i e1 q' ? E1 Hq']; subst; [done|]. inversion Bq as [|? ? ? ? Lt|? ? ? B']; subst.
  - assert (i = 0) as -> by lia. injection E1 as <-. inversion Hq' as [|? j e2 q2 ? E2 _]; subst; [done|]. by destruct j.
  - injection E1 as <-. inversion Hq' as [|? j e2 q2 ? E2 Hq2]; subst; [done|]. inversion B' as [|? ? ? ? Lt|? ? ? B2]; subst; [lia|inversion B2].
Qed.
(** The text of a status *)
Theorem C54_text : ∀ s, (st_code s = 0%N → status_text s = st_reason s ++ B ": " ++ st_message s) ∧
  (st_code s ≠ 0%N → status_text s = st_reason s ++ B "(" ++ fmt_d (st_code s) ++ B "): " ++ st_message s).
Proof. intros s. unfold status_text. split; intros H; [by rewrite H|]. by apply N.eqb_neq in H as ->. Qed.
Print Assumptions C54_text.
