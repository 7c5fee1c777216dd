(** * EditProofs: lemmas about edits in overlay mounts *)
From Verif Require Import Base Fs Overlay Os FsProofs LayerProofs ExpandProofs Edits SpecEdits.
From Coq Require Import Lia.
From stdpp Require Import prelude.

(** ** Layers *)
Definition is_dir (x : option fobj) : Prop := ∃ b, x = Some (FDir b).
Definition layer_wf (L : layer) : Prop := ∀ k n, k ≠ [] → L (k ++ [n]) ≠ None → is_dir (L k).
Definition shows_wf (F : path → option fobj) : Prop := ∀ k n, k ≠ [] → F (k ++ [n]) ≠ None → F k = Some (FDir false).
Lemma layer_at_wf fs d : fs_wf fs → layer_wf (layer_at fs d).
Proof.
  intros W k n _ H. unfold layer_at in *. rewrite app_assoc in H. destruct (fget fs ((d ++ k) ++ [n])) eqn:E; [|done]. apply W in E.
  unfold is_dir_at in E. destruct (fget fs (d ++ k)) as [[b| | |]|] eqn:Ek; try done. by exists b.
Qed.
Lemma covered_snoc (L : layer) k n : k ≠ [] → covered L (k ++ [n]) = covered L k || hides (L k).
Proof.
  intros N. unfold covered. rewrite app_length. cbn [length]. replace (pred (length k + 1)) with (pred (length k) + 1) by (destruct k; [done|cbn; lia]).
  rewrite seq_app, existsb_app. cbn [seq existsb]. replace (1 + pred (length k)) with (length k) by (destruct k; [done|cbn; lia]).
  rewrite take_app, orb_false_r. f_equal. apply eq_iff_eq_true. rewrite !existsb_exists. split; intros (x & Hx & E); exists x; (split; [done|]); apply in_seq in Hx; [rewrite take_app_le in E by lia|rewrite take_app_le by lia]; done.
Qed.
Lemma covered_one (L : layer) n : covered L [n] = false.
Proof. done. Qed.
Lemma view_wf Ls : Forall layer_wf Ls → shows_wf (view Ls).
Proof.
  induction Ls as [|L Ls IH]; intros W k n Nk H; [done|]. apply Forall_cons in W as [Wl W]. cbn [view] in *.
  destruct (L (k ++ [n])) as [x|] eqn:E.
  - destruct (Wl k n Nk) as [b Ek]; [by rewrite E|]. by rewrite Ek.
  - rewrite covered_snoc in H by done. destruct (L k) as [y|] eqn:Ek.
    + destruct (covered L k) eqn:C; [by cbn in H|]. cbn [orb] in H. destruct y as [[]| | |]; try done.
    + destruct (covered L k); [by cbn in H|]. cbn in H. by apply IH with n.
Qed.
(** Below what is no directory nothing is shown. *)
Lemma shows_below F k j : shows_wf F → k ≠ [] → F k ≠ Some (FDir false) → j ≠ [] → F (k ++ j) = None.
Proof.
  intros W Nk H Nj. induction j as [|n j IH] using rev_ind; [done|]. rewrite app_assoc. destruct (F ((k ++ j) ++ [n])) eqn:E; [|done].
  assert (F (k ++ j) = Some (FDir false)) as Q by (apply (W _ n); [by destruct k|by rewrite E]). destruct j as [|c j]; [by rewrite app_nil_r in Q|]. by rewrite IH in Q.
Qed.
Lemma shows_empty F k j : shows_wf F → k ≠ [] → (∀ n, F (k ++ [n]) = None) → j ≠ [] → F (k ++ j) = None.
Proof.
  intros W Nk H Nj. destruct j as [|n j]; [done|]. change (n :: j) with ([n] ++ j). rewrite app_assoc. destruct j as [|c j]; [by rewrite app_nil_r|].
  apply shows_below; [done|by destruct k|by rewrite H|done].
Qed.
(** What a layer above a view shows *)
Definition over (L : layer) (Lo : path → option fobj) (k : path) : option fobj :=
  match L k with Some x => shown x | None => if covered L k then None else Lo k end.
Lemma over_view L Ls k : view (L :: Ls) k = over L (view Ls) k.
Proof. done. Qed.
Lemma over_wf L Lo : layer_wf L → shows_wf Lo → shows_wf (over L Lo).
Proof.
  intros Wl W k n Nk H. unfold over in *. destruct (L (k ++ [n])) as [x|] eqn:E.
  - destruct (Wl k n Nk) as [b Ek]; [by rewrite E|]. by rewrite Ek.
  - rewrite covered_snoc in H by done. destruct (L k) as [y|] eqn:Ek.
    + destruct (covered L k) eqn:C; [by cbn in H|]. cbn [orb] in H. destruct y as [[]| | |]; try done.
    + destruct (covered L k); [by cbn in H|]. cbn in H. by apply W with n.
Qed.
(** Whether a path is covered depends on the paths above it. *)
Lemma covered_ext (L L' : layer) k : (∀ q j, q ≠ [] → j ≠ [] → k = q ++ j → hides (L' q) = hides (L q)) → covered L' k = covered L k.
Proof.
  intros H. unfold covered. apply eq_iff_eq_true. rewrite !existsb_exists.
  assert (∀ x, In x (seq 1 (pred (length k))) → hides (L' (take x k)) = hides (L (take x k))) as Q.
  { intros x Hx. apply in_seq in Hx. apply (H _ (drop x k)); [| |by rewrite take_drop].
    - destruct k; [cbn in Hx; lia|]. by destruct x; [lia|].
    - intros E. apply (f_equal length) in E. rewrite drop_length in E. cbn in E. lia. }
  split; intros (x & Hx & E); exists x; (split; [done|]); [rewrite <-Q by done|rewrite Q by done]; done.
Qed.
Lemma covered_at (L : layer) q j : q ≠ [] → j ≠ [] → hides (L q) = true → covered L (q ++ j) = true.
Proof.
  intros Nq Nj H. unfold covered. apply existsb_exists. exists (length q). split; [|by rewrite take_app]. apply in_seq. rewrite app_length. destruct q; [done|]. destruct j; [done|]. cbn. lia.
Qed.
Lemma covered_below (L : layer) q j : q ≠ [] → j ≠ [] → covered L q = true → covered L (q ++ j) = true.
Proof.
  intros Nq Nj H. unfold covered in *. apply existsb_exists in H as (x & Hx & H). apply in_seq in Hx. apply existsb_exists. exists x. split; [|by rewrite take_app_le by lia].
  apply in_seq. rewrite app_length. destruct j; [done|]. cbn. lia.
Qed.
(** ** Copying up a directory changes nothing that is shown. *)
Lemma up_same (L L' : layer) Lo q k : shows_wf Lo → (∀ k, L' k = if decide (k = q) then Some (FDir false) else L k) → L q = None → over L Lo q = Some (FDir false) →
  over L' Lo k = over L Lo k.
Proof.
  intros W E Nq Hq. unfold over at 1. rewrite E. case_decide as D; [by subst; rewrite Hq|]. unfold over.
  rewrite (covered_ext L L' k); [done|]. intros q' j _ _ _. rewrite E. case_decide; [subst; by rewrite Nq|done].
Qed.
(** ** Creating something that is no directory to be merged *)
Lemma make_shows (L L' : layer) Lo q x k : shows_wf Lo → layer_wf L → (∀ k, L' k = if decide (k = q) then Some x else L k) → hides (Some x) = true → q ≠ [] → (∀ b, L q ≠ Some (FDir b)) →
  (over L Lo q ≠ Some (FDir false)) → over L' Lo k = if decide (k = q) then shown x else over L Lo k.
Proof.
  intros W Wl E Hx Nq Nd Hq. case_decide as D; [subst; unfold over; by rewrite E, decide_True|]. destruct (decide (is_prefix q k = true)) as [P|P].
  - apply is_prefix_spec in P as [j ->]. assert (j ≠ []) as Nj by (intros ->; by rewrite app_nil_r in D).
    rewrite (shows_below (over L Lo) q j) by (try done; by apply over_wf). unfold over. rewrite E, decide_False by done.
    assert (L (q ++ j) = None) as ->.
    { clear D E. induction j as [|n j IH] using rev_ind; [done|]. destruct (L (q ++ j ++ [n])) eqn:En; [|done]. rewrite app_assoc in En. destruct (Wl (q ++ j) n) as [b Eb]; [by destruct q|by rewrite En|].
      destruct j as [|c j]; [rewrite app_nil_r in Eb; by destruct (Nd b)|]. by rewrite IH in Eb. }
    rewrite covered_at; [done|done|done|]. by rewrite E, decide_True.
  - unfold over. rewrite E, decide_False by done. rewrite (covered_ext L L' k); [done|]. intros q' j _ _ ->. rewrite E. case_decide; [|done]. subst. destruct P. apply is_prefix_app.
Qed.
(** ** Removing what shows nothing below *)
Lemma drop_shows (L L' : layer) Lo q k : shows_wf Lo → layer_wf L → (∀ k, L' k = if is_prefix q k then None else L k) → q ≠ [] → (covered L q = true ∨ Lo q = None) →
  (∀ j, j ≠ [] → over L Lo (q ++ j) = None) → over L' Lo k = if decide (k = q) then None else over L Lo k.
Proof.
  intros W Wl E Nq Hq Hb. assert (∀ q' j', q = q' ++ j' → j' ≠ [] → L' q' = L q') as Ea.
  { intros q' j' Eq Nj. rewrite E. destruct (is_prefix q q') eqn:P; [|done]. apply is_prefix_spec in P as [z Ez]. apply (f_equal length) in Eq, Ez. rewrite app_length in Eq, Ez. destruct j'; [done|]. cbn in Eq. lia. }
  assert (covered L' q = covered L q) as Cq by (apply covered_ext; intros q' j' _ Nj Eq; by rewrite (Ea q' j')).
  case_decide as D.
  - subst. unfold over. rewrite E, is_prefix_refl, Cq. destruct Hq as [->| ->]; [done|]. by case (covered L q).
  - destruct (is_prefix q k) eqn:P.
    + pose proof P as P'. apply is_prefix_spec in P' as [j ->]. assert (j ≠ []) as Nj by (intros ->; by rewrite app_nil_r in D). rewrite (Hb j Nj). unfold over. rewrite E, P.
      destruct Hq as [Hq|Hq]; [rewrite covered_below; [done|done|done|congruence]|]. rewrite (shows_below Lo) by (try done; by rewrite Hq). by case (covered L' (q ++ j)).
    + unfold over. rewrite E, P. rewrite (covered_ext L L' k); [done|]. intros q' j _ _ ->. rewrite E. destruct (is_prefix q q') eqn:P'; [|done].
      rewrite (is_prefix_trans q q' (q' ++ j)) in P; [done|done|apply is_prefix_app].
Qed.

(** ** On the files of a machine *)
(** [fs'] differs from [fs] only below [u]. *)
Definition only_under (u : path) (fs fs' : files) : Prop := ∀ q, under u q = false → fget fs' q = fget fs q.
Definition apart_from (u : path) (d : path) : Prop := is_prefix u d = false ∧ is_prefix d u = false.
Lemma only_refl u fs : only_under u fs fs.
Proof. by intros q _. Qed.
Lemma only_trans u f1 f2 f3 : only_under u f1 f2 → only_under u f2 f3 → only_under u f1 f3.
Proof. intros A C q H. by rewrite C, A. Qed.
Lemma only_lows u fs fs' lows : only_under u fs fs' → Forall (apart_from u) lows → ∀ k, view (layer_at fs' <$> lows) k = view (layer_at fs <$> lows) k.
Proof.
  intros O A k. assert (∀ d k, d ∈ lows → layer_at fs' d k = layer_at fs d k) as H.
  { intros d j Hd. unfold layer_at. apply O. rewrite Forall_forall in A. destruct (A d Hd) as [A1 A2]. unfold under. apply andb_false_iff. left.
    apply not_true_is_false. intros P. destruct (prefix_comparable u d (d ++ j)) as [Q|Q]; [done|apply is_prefix_app|congruence..]. }
  clear A O. induction lows as [|d lows IH]; [done|]. rewrite !fmap_cons. cbn [view]. rewrite (H d k) by left. rewrite (covered_ext (layer_at fs d) (layer_at fs' d)) by (intros q j _ _ _; rewrite H by left; done).
  pose proof (IH (λ d' j Hd, H d' j (elem_of_list_further _ _ _ Hd))) as Q. by rewrite Q.
Qed.
Lemma only_layer u fs fs' d : only_under u fs fs' → apart_from u d → ∀ k, layer_at fs' d k = layer_at fs d k.
Proof.
  intros O [A1 A2] k. apply O. unfold under. apply andb_false_iff. left. apply not_true_is_false. intros P. destruct (prefix_comparable u d (d ++ k)) as [Q|Q]; [done|apply is_prefix_app|congruence..].
Qed.
Lemma wf_set fs p x : fs_wf fs → is_dir_at fs p = false → is_dir_at fs (parent_dir p) = true → fs_wf (fset fs p x).
Proof.
  intros W N D q n y. rewrite fget_fset. case_decide as E.
  - intros [= <-]. subst p. rewrite parent_dir_app in D. unfold is_dir_at in *. rewrite fget_fset_ne; [done|].
    intros E. apply (f_equal length) in E. rewrite app_length in E. cbn in E. lia.
  - intros H. apply W in H. unfold is_dir_at in *. rewrite fget_fset. case_decide; [subst; congruence|done].
Qed.
Lemma under_app u (k : path) : k ≠ [] → under u (u ++ k) = true.
Proof. intros N. apply under_spec. by exists k. Qed.
Lemma only_fset u fs k x : k ≠ [] → only_under u fs (fset fs (u ++ k) x).
Proof. intros N q Hq. apply fget_fset_ne. intros <-. by rewrite under_app in Hq. Qed.
Lemma layer_fset fs u k x j : layer_at (fset fs (u ++ k) x) u j = if decide (j = k) then Some x else layer_at fs u j.
Proof. unfold layer_at. rewrite fget_fset. case_decide as D; case_decide as D'; try done; [apply app_inv_head in D; congruence|congruence]. Qed.
Lemma parent_app u (k : path) : k ≠ [] → parent_dir (u ++ k) = u ++ parent_dir k.
Proof. intros N. destruct k as [|n k _] using rev_ind; [done|]. by rewrite app_assoc, !parent_dir_app. Qed.

Section mounted.
Context (u : path) (lows : list path) (A : Forall (apart_from u) lows).
Notation F fs := (over (layer_at fs u) (view (layer_at fs <$> lows))).
Lemma lows_wf fs : fs_wf fs → shows_wf (view (layer_at fs <$> lows)).
Proof. intros W. apply view_wf, Forall_forall. intros L HL. apply elem_of_list_fmap in HL as (d & -> & _). by apply layer_at_wf. Qed.
Lemma F_wf fs : fs_wf fs → shows_wf (F fs).
Proof. intros W. apply over_wf; [by apply layer_at_wf|by apply lows_wf]. Qed.
Lemma over_lows fs fs' L k : only_under u fs fs' → over L (view (layer_at fs' <$> lows)) k = over L (view (layer_at fs <$> lows)) k.
Proof. intros O. unfold over. destruct (L k); [done|]. destruct (covered L k); [done|]. by apply (only_lows u). Qed.
(** The upper layer has the directories above [k]. *)
Definition has_above (fs : files) (k : path) : Prop := is_dir_at fs (u ++ parent_dir k) = true.
Lemma up_step fs q : fs_wf fs → is_dir_at fs u = true → q ≠ [] → F fs q = Some (FDir false) → has_above fs q →
  let fs' := match fget fs (u ++ q) with None => fset fs (u ++ q) (FDir false) | Some _ => fs end in
  fs_wf fs' ∧ only_under u fs fs' ∧ (∀ k, F fs' k = F fs k) ∧ is_dir_at fs' (u ++ q) = true ∧ (∀ p, fget fs p ≠ None → fget fs' p = fget fs p) ∧
  (∀ p, fget fs' p ≠ None → fget fs p ≠ None ∨ p = u ++ q).
Proof.
  intros W Du Nq Hq Ha fs'. destruct (fget fs (u ++ q)) as [x|] eqn:E; subst fs'.
  - split; [done|]. split; [apply only_refl|]. split; [done|]. split; [|split; [done|by left]]. unfold over, layer_at in Hq. rewrite E in Hq. unfold is_dir_at. rewrite E. by destruct x as [[]| | |].
  - assert (only_under u fs (fset fs (u ++ q) (FDir false))) as O by (by apply only_fset). split; [|split; [done|]].
    { apply wf_set; [done|unfold is_dir_at; by rewrite E|]. by rewrite parent_app. }
    split; [|split; [unfold is_dir_at; by rewrite fget_fset_eq|]].
    + intros k. rewrite (over_lows fs) by done. apply (up_same (layer_at fs u) _ _ q); [by apply lows_wf|apply layer_fset|done|done].
    + split; [intros p Hp; apply fget_fset_ne; by intros <-|]. intros p. rewrite fget_fset. case_decide; [by right|by left].
Qed.
Lemma ancestors_snoc k n : k ≠ [] → ancestors (k ++ [n]) = ancestors k ++ [k].
Proof.
  intros N. unfold ancestors. rewrite app_length. cbn [length]. replace (pred (length k + 1)) with (pred (length k) + 1) by (destruct k; [done|cbn; lia]).
  rewrite seq_app, fmap_app. cbn [seq fmap list_fmap]. replace (1 + pred (length k)) with (length k) by (destruct k; [done|cbn; lia]). rewrite take_app. f_equal.
  apply list_fmap_ext. intros i x Hi. apply lookup_seq in Hi as [-> Hi]. by rewrite take_app_le by lia.
Qed.
Lemma copy_up_snoc fs k n : k ≠ [] → copy_up fs u (k ++ [n]) = let fs1 := copy_up fs u k in match fget fs1 (u ++ k) with None => fset fs1 (u ++ k) (FDir false) | Some _ => fs1 end.
Proof. intros N. unfold copy_up. rewrite ancestors_snoc by done. by rewrite foldl_app. Qed.
Lemma copy_up_spec k : k ≠ [] → ∀ fs, fs_wf fs → is_dir_at fs u = true → (parent_dir k = [] ∨ F fs (parent_dir k) = Some (FDir false)) →
  let fs' := copy_up fs u k in
  fs_wf fs' ∧ only_under u fs fs' ∧ (∀ j, F fs' j = F fs j) ∧ has_above fs' k ∧ (∀ p, fget fs p ≠ None → fget fs' p = fget fs p) ∧
  (∀ p, fget fs' p ≠ None → fget fs p ≠ None ∨ ∃ j, j ≠ [] ∧ u ++ k = p ++ j).
Proof.
  induction k as [|n k IH] using rev_ind; intros Nk fs W Du Hp; [done|]. rewrite parent_dir_app in Hp. destruct (decide (k = [])) as [->|N].
  - cbn zeta. unfold copy_up, ancestors, has_above. cbn [app length pred seq fmap list_fmap foldl]. split; [done|]. split; [apply only_refl|]. split; [done|]. split; [|split; [done|by left]].
    change [n] with ([] ++ [n]). by rewrite parent_dir_app, app_nil_r.
  - destruct Hp as [->|Hp]; [done|]. assert (parent_dir k = [] ∨ F fs (parent_dir k) = Some (FDir false)) as Hp'.
    { destruct (parent_dir_cases k) as [->|(d & m & -> & Ed)]; [done|]. rewrite Ed. destruct (decide (d = [])) as [->|Nd]; [by left|right]. apply (F_wf fs W d m Nd). by rewrite Hp. }
    destruct (IH N fs W Du Hp') as (W1 & O1 & S1 & H1 & K1 & B1). rewrite copy_up_snoc by done. cbn zeta.
    assert (is_dir_at (copy_up fs u k) u = true) as Du1 by (unfold is_dir_at in *; rewrite K1; [done|]; by destruct (fget fs u)).
    destruct (up_step (copy_up fs u k) k W1 Du1 N) as (W2 & O2 & S2 & D2 & K2 & B2); [by rewrite S1|done|].
    split; [done|]. split; [by eapply only_trans|]. split; [intros j; by rewrite S2|]. split; [unfold has_above; by rewrite parent_dir_app|]. split.
    + intros p Hn. rewrite K2; [by apply K1|]. by rewrite K1.
    + intros p Hn. destruct (B2 p Hn) as [Q| ->]; [|right; exists [n]; by rewrite app_assoc]. destruct (B1 p Q) as [Q'|(j & Nj & Ej)]; [by left|right]. exists (j ++ [n]). split; [by destruct j|]. by rewrite !app_assoc, Ej.
Qed.
(** Creating a file, a link, a whiteout or a new directory *)
Lemma make_spec fs k x : fs_wf fs → is_dir_at fs u = true → hides (Some x) = true → k ≠ [] → (parent_dir k = [] ∨ F fs (parent_dir k) = Some (FDir false)) →
  F fs k ≠ Some (FDir false) → let fs' := make fs u k x in
  fs_wf fs' ∧ only_under u fs fs' ∧ ∀ j, F fs' j = if decide (j = k) then shown x else F fs j.
Proof.
  intros W Du Hx Nk Hp Hk fs'. destruct (copy_up_spec k Nk fs W Du Hp) as (W1 & O1 & S1 & H1 & K1 & B1). unfold make in fs'.
  assert (∀ b, layer_at (copy_up fs u k) u k ≠ Some (FDir b)) as Nd by (intros b Q; apply Hk; rewrite <-S1; unfold over; by rewrite Q).
  assert (only_under u (copy_up fs u k) fs') as O2 by (by apply only_fset). split; [|split].
  - apply wf_set; [done| |by rewrite parent_app]. unfold is_dir_at. unfold layer_at in Nd. destruct (fget (copy_up fs u k) (u ++ k)) as [[b| | |]|]; try done. by destruct (Nd b).
  - by eapply only_trans.
  - intros j. rewrite over_lows with (fs := copy_up fs u k) by done. rewrite (make_shows (layer_at (copy_up fs u k) u) _ _ k x).
    + case_decide; [done|]. by rewrite S1.
    + by apply lows_wf.
    + by apply layer_at_wf.
    + apply layer_fset.
    + done.
    + done.
    + done.
    + by rewrite S1.
Qed.
Lemma fget_drop fs p q : fget (drop_tree fs p) q = if is_prefix p q then None else fget fs q.
Proof. unfold drop_tree. etrans; [apply (@fget_filter (λ q, is_prefix p q = false) (λ q, decide_rel (=) (is_prefix p q) false))|]. destruct (is_prefix p q); [by rewrite decide_False|by rewrite decide_True]. Qed.
Lemma drop_wf fs p : fs_wf fs → p ≠ [] → fs_wf (drop_tree fs p).
Proof.
  intros W Np q n x. rewrite fget_drop. destruct (is_prefix p (q ++ [n])) eqn:P; [done|]. intros H. apply W in H. unfold is_dir_at in *. rewrite fget_drop.
  destruct (is_prefix p q) eqn:P'; [|done]. rewrite (is_prefix_trans p q (q ++ [n])) in P; [done|done|apply is_prefix_app].
Qed.
Lemma prefix_same (q j : path) : is_prefix (u ++ q) (u ++ j) = is_prefix q j.
Proof.
  apply eq_iff_eq_true. rewrite !is_prefix_spec. split; intros [z Ez]; exists z; [rewrite <-app_assoc in Ez; by apply app_inv_head in Ez|by rewrite Ez, app_assoc].
Qed.
(** Removing a file, a link or an empty directory *)
Lemma remove_spec fs k : fs_wf fs → is_dir_at fs u = true → k ≠ [] → (parent_dir k = [] ∨ F fs (parent_dir k) = Some (FDir false)) →
  (∀ n, F fs (k ++ [n]) = None) → let fs' := remove_at fs u lows k in
  fs_wf fs' ∧ only_under u fs fs' ∧ ∀ j, F fs' j = if decide (j = k) then None else F fs j.
Proof.
  intros W Du Nk Hp Hn fs'. assert (only_under u fs (drop_tree fs (u ++ k))) as O1.
  { intros q Hq. rewrite fget_drop. destruct (is_prefix (u ++ k) q) eqn:P; [|done]. apply is_prefix_spec in P as [z ->]. rewrite <-app_assoc, under_app in Hq; [done|by destruct k]. }
  assert (fs_wf (drop_tree fs (u ++ k))) as W1 by (apply drop_wf; [done|by destruct u]).
  assert (∀ j, layer_at (drop_tree fs (u ++ k)) u j = if is_prefix k j then None else layer_at fs u j) as E1 by (intros j; unfold layer_at; by rewrite fget_drop, prefix_same).
  assert (∀ j, j ≠ [] → F fs (k ++ j) = None) as Hb by (intros j Nj; apply shows_empty; [by apply F_wf|done|done|done]).
  unfold remove_at in fs'. destruct (lower_shows fs u lows k) eqn:Ls.
  - apply andb_true_iff in Ls as [Cv Lk]. apply negb_true_iff in Cv. apply bool_decide_eq_true in Lk.
    assert (∀ j, F (drop_tree fs (u ++ k)) j = F fs j ∨ is_prefix k j = true) as S1.
    { intros j. destruct (is_prefix k j) eqn:P; [by right|left]. rewrite over_lows with (fs := fs) by done. unfold over. rewrite E1, P.
      rewrite (covered_ext (layer_at fs u) (layer_at (drop_tree fs (u ++ k)) u) j); [done|]. intros q' z _ _ ->. rewrite E1. destruct (is_prefix k q') eqn:P'; [|done].
      rewrite (is_prefix_trans k q' (q' ++ z)) in P; [done|done|apply is_prefix_app]. }
    (* the lower object at [k] shines through for a moment; only [u] is changed where it matters *)
    assert (is_dir_at (drop_tree fs (u ++ k)) u = true) as Du1.
    { unfold is_dir_at in *. rewrite fget_drop. destruct (is_prefix (u ++ k) u) eqn:P; [|done]. apply is_prefix_spec in P as [z Ez]. apply (f_equal length) in Ez. rewrite !app_length in Ez. destruct k; [done|]. cbn in Ez. lia. }
    assert (parent_dir k = [] ∨ F (drop_tree fs (u ++ k)) (parent_dir k) = Some (FDir false)) as Hp1.
    { destruct Hp as [Hp|Hp]; [by left|right]. destruct (S1 (parent_dir k)) as [->|P]; [done|]. apply is_prefix_spec in P as [z Ez]. destruct (parent_dir_cases k) as [->|(d & m & -> & Ed)]; [done|].
      rewrite Ed in Ez. apply (f_equal length) in Ez. rewrite !app_length in Ez. cbn in Ez. lia. }
    destruct (copy_up_spec k Nk _ W1 Du1 Hp1) as (W2 & O2 & S2 & H2 & K2 & B2). unfold make in fs'. set (g := copy_up (drop_tree fs (u ++ k)) u k) in *.
    assert (∀ j, layer_at g u (k ++ j) = None) as Nb.
    { intros j. destruct (layer_at g u (k ++ j)) eqn:Q; [|done]. unfold layer_at in Q. destruct (B2 (u ++ k ++ j)) as [Q'|(z & Nz & Ez)]; [by rewrite Q| |].
      - rewrite fget_drop, app_assoc, is_prefix_app in Q'. done.
      - apply (f_equal length) in Ez. rewrite !app_length in Ez. destruct z; [done|]. cbn in Ez. lia. }
    assert (only_under u g fs') as O3 by (by apply only_fset). split; [|split].
    + apply wf_set; [done| |by rewrite parent_app]. unfold is_dir_at. specialize (Nb []). unfold layer_at in Nb. rewrite app_nil_r in Nb. by rewrite Nb.
    + eapply only_trans; [exact O1|]. by eapply only_trans.
    + intros j. rewrite over_lows with (fs := g) by done. destruct (is_prefix k j) eqn:P.
      * pose proof P as P'. apply is_prefix_spec in P' as [z ->]. unfold over at 1. unfold fs'. rewrite layer_fset. destruct (decide (k ++ z = k)) as [D|D]; [done|].
        assert (z ≠ []) as Nz by (intros ->; by rewrite app_nil_r in D). rewrite Nb, (Hb z Nz). rewrite covered_at; [done|done|done|]. by rewrite layer_fset, decide_True.
      * rewrite decide_False by (intros ->; by rewrite is_prefix_refl in P). unfold over at 1. unfold fs'. rewrite layer_fset, decide_False by (intros ->; by rewrite is_prefix_refl in P).
        rewrite (covered_ext (layer_at g u) (layer_at (fset g (u ++ k) FWhite) u) j).
        2:{ intros q' z _ _ ->. rewrite layer_fset. case_decide; [|done]. subst. by rewrite is_prefix_app in P. }
        fold (over (layer_at g u) (view (layer_at g <$> lows)) j). rewrite S2. destruct (S1 j) as [->|Q]; [done|congruence].
  - split; [done|]. split; [done|]. intros j. subst fs'. rewrite over_lows with (fs := fs) by done. apply (drop_shows (layer_at fs u)); [by apply lows_wf|by apply layer_at_wf|done|done| |done].
    apply andb_false_iff in Ls as [Ls|Ls]; [left; by apply negb_false_iff in Ls|right]. apply bool_decide_eq_false in Ls. by destruct (view _ k); [destruct Ls|].
Qed.
End mounted.
