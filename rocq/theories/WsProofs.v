(** * WsProofs: listings, reference resolution, history *)
From Verif Require Import Base Uid SpecUid UidProofs Tree SpecTree TreeRefine TreeObs SaveProofs Branch BranchProofs Ws Date DateProofs SpecWs.
From Coq Require Import Lia.
From stdpp Require Import prelude gmap sorting.

(** ** Sorting *)
Lemma sorted_unique {A} (R : relation A) (l1 : list A) : ∀ l2, l1 ≡ₚ l2 →
  (∀ x y, x ∈ l1 → y ∈ l1 → R x y → R y x → x = y) →
  StronglySorted R l1 → StronglySorted R l2 → l1 = l2.
Proof.
  induction l1 as [|x l1 IH]; intros l2 P AS S1 S2.
  { by apply Permutation_nil_l in P as ->. }
  destruct l2 as [|y l2]; [by apply Permutation_nil_r in P|].
  apply StronglySorted_inv in S1 as [S1 F1]. apply StronglySorted_inv in S2 as [S2 F2].
  rewrite Forall_forall in F1, F2.
  assert (x = y) as ->.
  { assert (y ∈ x :: l1) as Hy by (rewrite P; left). assert (x ∈ y :: l2) as Hx by (rewrite <-P; left).
    apply elem_of_cons in Hx as [?|Hx]; [done|].
    destruct (proj1 (elem_of_cons _ _ _) Hy) as [?|Hy']; [done|].
    apply AS; [left|done|by apply F1|by apply F2]. }
  f_equal. apply IH; [by apply Permutation_cons_inv in P| |done|done].
  intros a b Ha Hb. apply AS; by right.
Qed.
Lemma hb_le_name_trans : Transitive hb_le_name.
Proof. intros x y z. apply bytes_leb_trans. Qed.
Lemma hb_le_name_total : Total hb_le_name.
Proof. intros x y. apply bytes_leb_total. Qed.
Lemma hb_le_trans : Transitive hb_le.
Proof.
  intros x y z. unfold hb_le.
  destruct (is_local (hb_branch x)), (is_local (hb_branch y)), (is_local (hb_branch z)); try done; apply bytes_leb_trans.
Qed.
Lemma hb_le_total : Total hb_le.
Proof.
  intros x y. unfold hb_le. destruct (is_local (hb_branch x)), (is_local (hb_branch y)); auto; apply bytes_leb_total.
Qed.
Lemma name_le_trans : Transitive name_le.
Proof. intros x y z. apply bytes_leb_trans. Qed.
Lemma name_le_total : Total name_le.
Proof. intros x y. apply bytes_leb_total. Qed.

(** ** Listings *)
Lemma parsed_elem L b l : HB b l ∈ parsed L ↔ ∃ k, (k, l) ∈ L ∧ reads_as k b.
Proof.
  induction L as [|[n h] L IH]; cbn [parsed].
  - rewrite elem_of_nil. split; [done|]. intros (k & H & _). by apply elem_of_nil in H.
  - destruct (parse_full n) as [b'| | | |] eqn:E.
    + rewrite elem_of_cons, IH. split.
      * intros [[= -> ->]|(k & Hk & Hr)].
        -- exists n. split; [left|by apply parse_full_ok].
        -- exists k. split; [by right|done].
      * intros (k & Hk & Hr). apply elem_of_cons in Hk as [[= -> ->]|Hk]; [|eauto].
        left. apply parse_full_ok in Hr. congruence.
    + rewrite IH. split; intros (k & Hk & Hr); exists k; (split; [|done]); [by right|].
      apply elem_of_cons in Hk as [[= -> ->]|Hk]; [|done]. apply parse_full_ok in Hr. congruence.
    + rewrite IH. split; intros (k & Hk & Hr); exists k; (split; [|done]); [by right|].
      apply elem_of_cons in Hk as [[= -> ->]|Hk]; [|done]. apply parse_full_ok in Hr. congruence.
    + rewrite IH. split; intros (k & Hk & Hr); exists k; (split; [|done]); [by right|].
      apply elem_of_cons in Hk as [[= -> ->]|Hk]; [|done]. apply parse_full_ok in Hr. congruence.
    + rewrite IH. split; intros (k & Hk & Hr); exists k; (split; [|done]); [by right|].
      apply elem_of_cons in Hk as [[= -> ->]|Hk]; [|done]. apply parse_full_ok in Hr. congruence.
Qed.
Lemma parsed_perm L L' : L ≡ₚ L' → parsed L ≡ₚ parsed L'.
Proof.
  induction 1 as [|[n h] L L' _ IH|[n h] [m g] L|L1 L2 L3 _ IH1 _ IH2]; cbn [parsed].
  - done.
  - destruct (parse_full n); by rewrite IH.
  - destruct (parse_full n), (parse_full m); try done. apply perm_swap.
  - by rewrite IH1.
Qed.
Definition is_order (ord : list (bytes * loc) → list (bytes * loc)) : Prop := ∀ l, ord l ≡ₚ l.
Lemma entries_elem (t : tstate) ord b l : is_order ord →
  HB b l ∈ parsed (ord (map_to_list (t_branches t))) ↔ ∃ k, get_by_branch t k = Some l ∧ reads_as k b.
Proof.
  intros O. rewrite parsed_elem. split; intros (k & H & Hr); exists k; (split; [|done]).
  - rewrite (O _) in H. by apply elem_of_map_to_list in H.
  - rewrite (O _). by apply elem_of_map_to_list.
Qed.
Lemma of_ws_spec w b : of_ws w b = true ↔ br_ws b = Some w.
Proof.
  unfold of_ws. destruct (br_ws b) as [u|]; [|done]. rewrite bool_decide_eq_true. split.
  - by intros ->%uid_b32_inj.
  - by intros [= ->].
Qed.
Lemma is_global_spec b : is_global b = true ↔ br_ws b = None.
Proof. unfold is_global, is_local. by destruct (br_ws b). Qed.

Lemma local_elem (t : tstate) ord w b l : is_order ord →
  HB b l ∈ local_branches t ord w ↔ br_ws b = Some w ∧ ∃ k, get_by_branch t k = Some l ∧ reads_as k b.
Proof.
  intros O. unfold local_branches. rewrite merge_sort_Permutation, elem_of_list_filter, entries_elem by done.
  cbn [hb_branch]. by rewrite of_ws_spec.
Qed.
Lemma remote_elem (t : tstate) ord b l : is_order ord →
  HB b l ∈ remote_branches t ord ↔ br_ws b = None ∧ ∃ k, get_by_branch t k = Some l ∧ reads_as k b.
Proof.
  intros O. unfold remote_branches. rewrite merge_sort_Permutation, elem_of_list_filter, entries_elem by done.
  cbn [hb_branch]. by rewrite is_global_spec.
Qed.
Lemma all_elem (t : tstate) ord w b l : is_order ord →
  HB b l ∈ all_branches t ord w ↔ (br_ws b = None ∨ br_ws b = Some w) ∧ ∃ k, get_by_branch t k = Some l ∧ reads_as k b.
Proof.
  intros O. unfold all_branches. rewrite merge_sort_Permutation, elem_of_list_filter, entries_elem by done.
  cbn [hb_branch]. by rewrite orb_true_iff, is_global_spec, of_ws_spec.
Qed.

(** Every branch name of the tree that parses is the full name of the branch it reads as (no other
    spelling of a workspace ID). All names this program writes are like that. *)
Definition canonical (t : tstate) : Prop :=
  ∀ k l b, get_by_branch t k = Some l → reads_as k b → k = full_name b.

Lemma canonical_entry (t : tstate) b l : canonical t →
  (∃ k, get_by_branch t k = Some l ∧ reads_as k b) ↔ get_by_branch t (full_name b) = Some l ∧ LF ∉ br_name b.
Proof.
  intros C. split.
  - intros (k & G & Hr). pose proof (C _ _ _ G Hr) as ->. split; [done|].
    intros H. by apply full_no_lf, (reads_no_lf _ _ Hr) in H.
  - intros [G N]. exists (full_name b). split; [done|]. by apply reads_full.
Qed.
Lemma parsed_nodup L : NoDup L.*1 → (∀ k l b, (k, l) ∈ L → reads_as k b → k = full_name b) →
  NoDup (hb_branch <$> parsed L).
Proof.
  induction L as [|[n h] L IH]; intros N C; [constructor|]. cbn in N. apply NoDup_cons in N as [N1 N2].
  assert (NoDup (hb_branch <$> parsed L)) as IH'. { apply IH; [done|]. intros k l b Hk. apply (C k l b). by right. }
  cbn [parsed]. destruct (parse_full n) as [b| | | |] eqn:E; try exact IH'.
  apply parse_full_ok in E. cbn. apply NoDup_cons. split; [|exact IH'].
  intros Hin. apply elem_of_list_fmap in Hin as ([b' l] & -> & Hin). cbn in E.
  apply parsed_elem in Hin as (k & Hk & Hr).
  assert (n = full_name b') as E1. { eapply C; [by left|done]. }
  assert (k = full_name b') as E2. { eapply C; [by right|done]. }
  apply N1. rewrite E1, <-E2. by apply (elem_of_list_fmap_1 fst _ _ Hk).
Qed.
Lemma entries_nodup (t : tstate) ord : is_order ord → canonical t →
  NoDup (hb_branch <$> parsed (ord (map_to_list (t_branches t)))).
Proof.
  intros O C. apply parsed_nodup.
  - rewrite (O _). apply NoDup_fst_map_to_list.
  - intros k l b Hk. rewrite (O _) in Hk. apply elem_of_map_to_list in Hk. by apply (C k l b).
Qed.
Lemma filter_fmap_nodup {A C} (f : A → C) (P : A → Prop) `{∀ x, Decision (P x)} (l : list A) :
  NoDup (f <$> l) → NoDup (f <$> filter P l).
Proof.
  induction l as [|x l IH]; [done|]. rewrite fmap_cons, filter_cons, NoDup_cons. intros [N1 N2].
  case_decide; [|by apply IH]. rewrite fmap_cons. apply NoDup_cons. split; [|by apply IH].
  intros Hin. apply N1. apply elem_of_list_fmap in Hin as (y & -> & Hy). apply elem_of_list_filter in Hy as [_ Hy].
  by apply elem_of_list_fmap_1.
Qed.
(** In a canonical tree two entries with the same branch are the same entry. *)
Lemma same_branch_entry (t : tstate) ord x y : is_order ord → canonical t →
  x ∈ parsed (ord (map_to_list (t_branches t))) → y ∈ parsed (ord (map_to_list (t_branches t))) →
  hb_branch x = hb_branch y → x = y.
Proof.
  intros O C Hx Hy E. destruct x as [b l], y as [b' l']. cbn in E. subst b'.
  apply entries_elem in Hx as (k & G & Hr); [|done]. apply entries_elem in Hy as (k' & G' & Hr'); [|done].
  pose proof (C _ _ _ G Hr) as ->. pose proof (C _ _ _ G' Hr') as ->. congruence.
Qed.

Lemma local_nodup (t : tstate) ord w : is_order ord → canonical t → NoDup (hb_branch <$> local_branches t ord w).
Proof. intros O C. unfold local_branches. rewrite merge_sort_Permutation. apply filter_fmap_nodup. by apply entries_nodup. Qed.
Lemma remote_nodup (t : tstate) ord : is_order ord → canonical t → NoDup (hb_branch <$> remote_branches t ord).
Proof. intros O C. unfold remote_branches. rewrite merge_sort_Permutation. apply filter_fmap_nodup. by apply entries_nodup. Qed.
Lemma all_nodup (t : tstate) ord w : is_order ord → canonical t → NoDup (hb_branch <$> all_branches t ord w).
Proof. intros O C. unfold all_branches. rewrite merge_sort_Permutation. apply filter_fmap_nodup. by apply entries_nodup. Qed.

Lemma branch_eq (b b' : branch) : br_ws b = br_ws b' → br_name b = br_name b' → b = b'.
Proof. destruct b, b'; cbn; by intros -> ->. Qed.
Lemma local_det (t : tstate) ord ord' w : is_order ord → is_order ord' → canonical t →
  local_branches t ord w = local_branches t ord' w.
Proof.
  intros O O' C. unfold local_branches. apply sorted_unique with hb_le_name.
  - rewrite !merge_sort_Permutation. by rewrite (parsed_perm _ _ (transitivity (O _) (symmetry (O' _)))).
  - intros x y. rewrite !merge_sort_Permutation, !elem_of_list_filter, !of_ws_spec. intros [Wx Hx] [Wy Hy] L1 L2.
    eapply same_branch_entry; [exact O|exact C|exact Hx|exact Hy|]. apply branch_eq; [congruence|]. by apply bytes_leb_anti.
  - apply StronglySorted_merge_sort; [apply hb_le_name_trans|apply hb_le_name_total].
  - apply StronglySorted_merge_sort; [apply hb_le_name_trans|apply hb_le_name_total].
Qed.
Lemma remote_det (t : tstate) ord ord' : is_order ord → is_order ord' → canonical t →
  remote_branches t ord = remote_branches t ord'.
Proof.
  intros O O' C. unfold remote_branches. apply sorted_unique with hb_le_name.
  - rewrite !merge_sort_Permutation. by rewrite (parsed_perm _ _ (transitivity (O _) (symmetry (O' _)))).
  - intros x y. rewrite !merge_sort_Permutation, !elem_of_list_filter, !is_global_spec. intros [Wx Hx] [Wy Hy] L1 L2.
    eapply same_branch_entry; [exact O|exact C|exact Hx|exact Hy|]. apply branch_eq; [congruence|]. by apply bytes_leb_anti.
  - apply StronglySorted_merge_sort; [apply hb_le_name_trans|apply hb_le_name_total].
  - apply StronglySorted_merge_sort; [apply hb_le_name_trans|apply hb_le_name_total].
Qed.
Lemma all_det (t : tstate) ord ord' w : is_order ord → is_order ord' → canonical t →
  all_branches t ord w = all_branches t ord' w.
Proof.
  intros O O' C. unfold all_branches. apply sorted_unique with hb_le.
  - rewrite !merge_sort_Permutation. by rewrite (parsed_perm _ _ (transitivity (O _) (symmetry (O' _)))).
  - intros x y. rewrite !merge_sort_Permutation, !elem_of_list_filter, !orb_true_iff, !is_global_spec, !of_ws_spec.
    intros [Wx Hx] [Wy Hy] L1 L2.
    eapply same_branch_entry; [exact O|exact C|exact Hx|exact Hy|].
    unfold hb_le, is_local in L1, L2. destruct (br_ws (hb_branch x)) as [u|] eqn:Ex, (br_ws (hb_branch y)) as [v|] eqn:Ey; try done.
    + apply branch_eq; [|by apply bytes_leb_anti]. rewrite Ex, Ey. destruct Wx as [?|Wx], Wy as [?|Wy]; congruence.
    + apply branch_eq; [congruence|]. by apply bytes_leb_anti.
  - apply StronglySorted_merge_sort; [apply hb_le_trans|apply hb_le_total].
  - apply StronglySorted_merge_sort; [apply hb_le_trans|apply hb_le_total].
Qed.

Lemma tag_elem (t : tstate) ord n : is_order ord → n ∈ tag_list t ord ↔ n ≠ B "ROOT" ∧ is_Some (get_by_tag t n).
Proof.
  intros O. unfold tag_list. rewrite merge_sort_Permutation, elem_of_list_filter, (O _).
  split; intros [N H]; (split; [done|]).
  - apply elem_of_list_fmap in H as ([k l] & -> & H). apply elem_of_map_to_list in H. by exists l.
  - destruct H as [l H]. apply elem_of_list_fmap. exists (n, l). split; [done|]. by apply elem_of_map_to_list.
Qed.
Lemma tag_nodup (t : tstate) ord : is_order ord → NoDup (tag_list t ord).
Proof. intros O. unfold tag_list. rewrite merge_sort_Permutation. apply NoDup_filter. rewrite (O _). apply NoDup_fst_map_to_list. Qed.
Lemma tag_sorted (t : tstate) ord : StronglySorted name_le (tag_list t ord).
Proof. apply StronglySorted_merge_sort; [apply name_le_trans|apply name_le_total]. Qed.
Lemma tag_det (t : tstate) ord ord' : is_order ord → is_order ord' → tag_list t ord = tag_list t ord'.
Proof.
  intros O O'. apply sorted_unique with name_le.
  - unfold tag_list. rewrite !merge_sort_Permutation, (O _), (O' _). done.
  - intros x y _ _. apply bytes_leb_anti.
  - apply tag_sorted.
  - apply tag_sorted.
Qed.

(** ** References *)
Lemma get_by_branch_repr (t : tstate) a n : repr t a →
  match a_branches a !! n with
  | Some id => ∃ l, get_by_branch t n = Some l ∧ node_id t l = Some id ∧ get t id = Some l
  | None => get_by_branch t n = None
  end.
Proof.
  intros R. unfold get_by_branch. rewrite (r_br _ _ R). destruct (a_branches a !! n) as [id|] eqn:E; [|done].
  destruct (get_Some _ _ _ R (ro_branch _ (r_ok _ _ R) _ _ E)) as (l & ? & ? & G & _ & N).
  exists l. cbn. split; [done|]. split; [|done]. eapply sh_id. by eapply repr_shows.
Qed.
Lemma trim_origin ref : trim_prefix (B "origin/") ref = if decide (take 7 ref = B "origin/") then Some (drop 7 ref) else None.
Proof.
  destruct (trim_prefix (B "origin/") ref) as [n|] eqn:E.
  - apply trim_prefix_Some in E as ->. rewrite take_app_alt, drop_app_alt by done. by rewrite decide_True.
  - rewrite decide_False; [done|]. intros H. rewrite <-(take_drop 7 ref), H, trim_prefix_app in E. done.
Qed.
(** The node a search returned, as an ID with its kind. *)
Definition ws_found (t : tstate) (o : option (option loc * key_type)) : option found :=
  match o with
  | None | Some (None, _) => Some FNone
  | Some (Some l, ty) => found_of t (Some (l, ty))
  end.
Lemma ws_search_correct (t : tstate) a w hid head ref : repr t a → get t hid = Some head →
  ref = B "HEAD" ∨ decode_b32 ref ≠ Panic →
  ∃ o, ws_search t w head ref = Ok o ∧ ws_found t o = Some (resolve a w hid ref).
Proof.
  intros R G NP. unfold ws_search, resolve. case_decide as EH.
  - eexists. split; [reflexivity|]. destruct (get_Some' _ _ _ _ R G) as (an & n & E & N).
    rewrite E. cbn [mbind option_bind]. unfold node_parent. rewrite (ni_at _ _ _ _ _ _ N). cbn [mbind option_bind].
    rewrite (ni_parent _ _ _ _ _ _ N). destruct (an_parent an) as [p|] eqn:Ep; [|done]. cbn [mbind option_bind].
    assert (has a p) as Hp. { eapply (ro_parent _ (r_ok _ _ R) hid). by exists an. }
    destruct (get_Some _ _ _ R Hp) as (pl & ? & ? & Gp & _). rewrite Gp. cbn.
    by rewrite (sh_id _ _ _ _ (repr_shows _ _ _ _ R Gp)).
  - destruct NP as [?|NP]; [done|]. destruct (search_correct t a ref R NP) as (o & -> & Fo).
    destruct o as [[l ty]|].
    + eexists. split; [reflexivity|]. cbn [ws_found]. rewrite Fo.
      destruct (search_spec a (key_id ref) ref) eqn:Es; try done. exfalso. cbn [found_of] in Fo.
      destruct (node_id t l); [|done]. cbn in Fo. destruct ty; done.
    + cbn [found_of] in Fo. injection Fo as Fo. rewrite <-Fo. unfold parse_local. rewrite trim_origin.
      pose proof (get_by_branch_repr t a (uid_b32 w ++ B "/" ++ ref) R) as H1.
      change (full_name (local_branch w ref)) with (uid_b32 w ++ B "/" ++ ref).
      destruct (a_branches a !! (uid_b32 w ++ B "/" ++ ref)) as [id|].
      { destruct H1 as (l & -> & Ni & _). eexists. split; [reflexivity|]. cbn. by rewrite Ni. }
      rewrite H1. destruct (decide (take 7 ref = B "origin/")); [|by eexists].
      pose proof (get_by_branch_repr t a (B "global/" ++ drop 7 ref) R) as H2.
      change (full_name (global_branch (drop 7 ref))) with (B "global/" ++ drop 7 ref).
      destruct (a_branches a !! (B "global/" ++ drop 7 ref)) as [id|].
      { destruct H2 as (l & -> & Ni & _). eexists. split; [reflexivity|]. cbn. by rewrite Ni. }
      rewrite H2. by eexists.
Qed.
Lemma search_indexed (t : tstate) a ref l ty : repr t a → search t ref = Ok (Some (l, ty)) → ∃ id, get t id = Some l.
Proof.
  intros R. destruct (repr_observes _ _ R) as [O1 O2 O3 O4 O5 O6 O7 O8]. unfold search. rewrite search_name_eq.
  set (rest := match get_by_tag t ref with
    | Some l => Some (l, KTag)
    | None => match get_by_branch t ref with Some l => Some (l, KBranch) | None => None end end).
  assert (rest = Some (l, ty) → ∃ id, get t id = Some l) as HN.
  { unfold rest. intros E. destruct (get_by_tag t ref) as [h|] eqn:Et.
    - injection E as -> _. destruct (O7 _ _ Et) as (id & _ & G). eauto.
    - destruct (get_by_branch t ref) as [h|] eqn:Eb; [|done].
      injection E as -> _. destruct (O5 _ _ Eb) as (id & _ & G). eauto. }
  clearbody rest.
  assert (∀ i, match get t i with Some l => Ok (Some (l, KCommit)) | None => Ok rest end = Ok (Some (l, ty)) → ∃ id, get t id = Some l) as HI.
  { intros i. destruct (get t i) eqn:Gi; [intros [= -> _]; eauto|intros [= E]; auto]. }
  destruct (decode_hex ref); [apply HI| |done|done|done].
  destruct (decode_b32 ref); [apply HI| |done|done|done].
  intros [= E]. auto.
Qed.
Lemma ws_search_indexed (t : tstate) a w hid head ref l ty : repr t a → get t hid = Some head →
  ws_search t w head ref = Ok (Some (Some l, ty)) → ∃ id, get t id = Some l.
Proof.
  intros R G. destruct (repr_observes _ _ R) as [O1 O2 O3 O4 O5 O6 O7 O8]. unfold ws_search. case_decide.
  - intros [= E _]. destruct (get_Some' _ _ _ _ R G) as (an & n & _ & N). rewrite (node_is_parent _ _ _ _ _ _ N) in E.
    destruct (an_parent an) as [p|]; [|done]. by exists p.
  - destruct (search t ref) as [[[h k]|]| | | |] eqn:Es; try done.
    + intros [= -> _]. by eapply search_indexed.
    + generalize (parse_local w ref). intros bs. induction bs as [|b bs IH]; [done|].
      destruct (get_by_branch t (full_name b)) as [h|] eqn:Eb; [|exact IH].
      intros [= -> _]. destruct (O5 _ _ Eb) as (id & _ & Gi). eauto.
Qed.

(** ** History *)
(** Local branches before global ones, else by name. *)
Definition branch_order (b b' : branch) : Prop :=
  match br_ws b, br_ws b' with
  | Some _, None => True
  | None, Some _ => False
  | _, _ => bytes_leb (br_name b) (br_name b') = true
  end.
Lemma filter_sorted {A} (R : relation A) (P : A → Prop) `{∀ x, Decision (P x)} (l : list A) :
  StronglySorted R l → StronglySorted R (filter P l).
Proof.
  induction 1 as [|x l S IH F]; [constructor|]. rewrite filter_cons. case_decide; [|done]. constructor; [done|].
  rewrite Forall_forall in F. apply Forall_forall. intros y Hy. apply elem_of_list_filter in Hy as [_ Hy]. auto.
Qed.
Lemma fmap_sorted {A C} (R : relation A) (R' : relation C) (f : A → C) (l : list A) :
  (∀ x y, R x y → R' (f x) (f y)) → StronglySorted R l → StronglySorted R' (f <$> l).
Proof.
  intros H. induction 1 as [|x l S IH F]; [constructor|]. cbn. constructor; [done|].
  rewrite Forall_forall in F. apply Forall_forall. intros y Hy. apply elem_of_list_fmap in Hy as (z & -> & Hz). auto.
Qed.
Lemma hb_le_order x y : hb_le x y → branch_order (hb_branch x) (hb_branch y).
Proof. unfold hb_le, branch_order, is_local. by destruct (br_ws (hb_branch x)), (br_ws (hb_branch y)). Qed.
Lemma all_sorted (t : tstate) ord w : StronglySorted branch_order (hb_branch <$> all_branches t ord w).
Proof.
  apply fmap_sorted with hb_le; [apply hb_le_order|].
  apply StronglySorted_merge_sort; [apply hb_le_trans|apply hb_le_total].
Qed.
Lemma local_sorted (t : tstate) ord w :
  StronglySorted (λ b b', bytes_leb (br_name b) (br_name b') = true) (hb_branch <$> local_branches t ord w).
Proof.
  apply fmap_sorted with hb_le_name; [done|].
  apply StronglySorted_merge_sort; [apply hb_le_name_trans|apply hb_le_name_total].
Qed.
Lemma remote_sorted (t : tstate) ord :
  StronglySorted (λ b b', bytes_leb (br_name b) (br_name b') = true) (hb_branch <$> remote_branches t ord).
Proof.
  apply fmap_sorted with hb_le_name; [done|].
  apply StronglySorted_merge_sort; [apply hb_le_name_trans|apply hb_le_name_total].
Qed.
(** What a listed commit [c] should say about commit [id]. *)
Record commit_shows (a : atree) (w id : uid) (c : commit) : Prop := {
  cs_id : c_id c = id;
  cs_anno : ∃ an, a_nodes a !! id = Some an ∧
     c_message c = default [] (an_anno an !! anno_message) ∧
     c_date c = match an_anno an !! anno_date with Some (d :: ds) => parse_rfc3339 (d :: ds) | _ => None end;
  cs_branches : ∀ b, b ∈ c_branches c ↔
     (br_ws b = None ∨ br_ws b = Some w) ∧ ∃ k, a_branches a !! k = Some id ∧ reads_as k b;
  cs_branches_sorted : StronglySorted branch_order (c_branches c);
  cs_tags : ∀ n, n ∈ c_tags c ↔ a_tags a !! n = Some id;
  cs_tags_once : NoDup (c_tags c) }.

Lemma head_is (t : tstate) a id l : repr t a → (∃ i, get t i = Some l) →
  (uid_hex <$> node_id t l) = Some (uid_hex id) ↔ get t id = Some l.
Proof.
  intros R [i G]. rewrite (sh_id _ _ _ _ (repr_shows _ _ _ _ R G)). cbn. split.
  - intros E. assert (uid_hex i = uid_hex id) as <-%uid_hex_inj by congruence. done.
  - intros G'. by rewrite (get_inj _ _ _ _ _ R G G').
Qed.
Lemma branch_head_iff (t : tstate) a k id : repr t a →
  (∃ l, get_by_branch t k = Some l ∧ get t id = Some l) ↔ a_branches a !! k = Some id.
Proof.
  intros R. pose proof (get_by_branch_repr t a k R) as H. destruct (a_branches a !! k) as [i|].
  - destruct H as (l & Gb & Ni & G). split.
    + intros (l' & E & G'). assert (l' = l) as -> by congruence. f_equal. by eapply get_inj.
    + intros [= ->]. eauto.
  - rewrite H. split; [|done]. by intros (? & ? & ?).
Qed.
Lemma tag_head_iff (t : tstate) a k id : repr t a →
  (∃ l, get_by_tag t k = Some l ∧ get t id = Some l) ↔ a_tags a !! k = Some id.
Proof.
  intros R. unfold get_by_tag. rewrite (r_tag _ _ R). destruct (a_tags a !! k) as [i|] eqn:E; cbn.
  - destruct (get_Some _ _ _ R (ro_tag _ (r_ok _ _ R) _ _ E)) as (l & ? & ? & G & _). split.
    + intros (l' & E1 & G'). f_equal. by eapply get_inj.
    + intros [= ->]. eauto.
  - split; [|done]. by intros (? & ? & ?).
Qed.
Lemma commit_of_shows (t : tstate) a ordb ordt w id l : repr t a → is_order ordb → is_order ordt → get t id = Some l →
  ∃ c, commit_of t ordb ordt w l = Ok c ∧ commit_shows a w id c.
Proof.
  intros R Ob Ot G. destruct (get_Some' _ _ _ _ R G) as (an & n & E & N).
  unfold commit_of. rewrite (ni_at _ _ _ _ _ _ N), (ni_id _ _ _ _ _ _ N), (ni_anno _ _ _ _ _ _ N).
  eexists. split; [reflexivity|]. constructor; cbn [c_id c_date c_message c_branches c_tags].
  - done.
  - exists an. split; [done|]. split; [done|]. by destruct (an_anno an !! anno_date) as [[|]|].
  - intros b. rewrite elem_of_list_fmap. split.
    + intros ([b' h] & -> & Hin). cbn. apply elem_of_list_filter in Hin as [Hh Hin]. cbn in Hh.
      apply all_elem in Hin as [W (k & Gk & Hr)]; [|done]. split; [done|]. exists k. split; [|done].
      apply (branch_head_iff t a k id R). exists h. split; [done|]. apply (head_is t a id h R); [|done].
      unfold get_by_branch in Gk. rewrite (r_br _ _ R) in Gk. destruct (a_branches a !! k); [|done]. eauto.
    + intros [W (k & Ek & Hr)]. apply (branch_head_iff t a k id R) in Ek as (h & Gk & Gh).
      exists (HB b h). split; [done|]. apply elem_of_list_filter. split; [|apply all_elem; eauto].
      cbn. apply (head_is t a id h R); eauto.
  - apply fmap_sorted with hb_le; [apply hb_le_order|]. apply filter_sorted.
    apply StronglySorted_merge_sort; [apply hb_le_trans|apply hb_le_total].
  - intros m. rewrite elem_of_list_fmap. split.
    + intros ([k h] & -> & Hin). cbn. apply elem_of_list_filter in Hin as [Hh Hin]. cbn in Hh.
      rewrite (Ot _) in Hin. apply elem_of_map_to_list in Hin.
      apply (tag_head_iff t a k id R). exists h. split; [done|]. apply (head_is t a id h R); [|done].
      rewrite (r_tag _ _ R) in Hin. destruct (a_tags a !! k); [|done]. eauto.
    + intros Em. apply (tag_head_iff t a m id R) in Em as (h & Gk & Gh).
      exists (m, h). split; [done|]. apply elem_of_list_filter. cbn. split; [apply (head_is t a id h R); eauto|].
      rewrite (Ot _). by apply elem_of_map_to_list.
  - apply filter_fmap_nodup. rewrite (Ot _). apply NoDup_fst_map_to_list.
Qed.
Lemma history_from_spec (t : tstate) a ordb ordt w : repr t a → is_order ordb → is_order ordt →
  ∀ ch id l fuel, chain a id ch → get t id = Some l → length ch ≤ S fuel →
  ∃ cs, history_from fuel t ordb ordt w l = Ok cs ∧ Forall2 (commit_shows a w) (removelast ch) cs.
Proof.
  intros R Ob Ot. induction ch as [|x ch IH]; intros id l fuel Hch G Hl; [inversion Hch|].
  inversion Hch as [? Hr|? p ? Hp Hc]; subst.
  - exists []. cbn. split; [|constructor]. destruct (get_Some' _ _ _ _ R G) as (an & n & E & N).
    assert (node_is_root t l = true) as Hroot.
    { unfold node_is_root. apply bool_decide_eq_true. unfold node_parent. rewrite (ni_at _ _ _ _ _ _ N). cbn.
      rewrite (ni_parent _ _ _ _ _ _ N). destruct Hr as (m & Em & Pm). rewrite E in Em. injection Em as <-. by rewrite Pm. }
    destruct fuel; cbn; by rewrite Hroot.
  - destruct (get_Some' _ _ _ _ R G) as (an & n & E & N).
    assert (has a p) as Hhp by (by eapply (ro_parent _ (r_ok _ _ R))).
    destruct (get_Some _ _ _ R Hhp) as (pl & ? & ? & Gp & _).
    assert (node_parent t l = Some pl) as Ep.
    { unfold node_parent. rewrite (ni_at _ _ _ _ _ _ N). cbn. rewrite (ni_parent _ _ _ _ _ _ N).
      destruct Hp as (m & Em & Pm). rewrite E in Em. injection Em as <-. by rewrite Pm. }
    assert (node_is_root t l = false) as Hroot.
    { unfold node_is_root. apply bool_decide_eq_false. by rewrite Ep. }
    destruct ch as [|y ch]; [inversion Hc|].
    destruct fuel as [|fuel]; [cbn in Hl; lia|].
    destruct (IH p pl fuel Hc Gp) as (cs & Ecs & F); [cbn in *; lia|].
    destruct (commit_of_shows t a ordb ordt w x l R Ob Ot G) as (c & Ec & Sc).
    exists (c :: cs). split.
    + cbn [history_from]. rewrite Hroot, Ec, Ep, Ecs. done.
    + change (removelast (x :: y :: ch)) with (x :: removelast (y :: ch)). by constructor.
Qed.
Lemma get_history_spec (t : tstate) a ordb ordt w hid head ref : repr t a → is_order ordb → is_order ordt →
  get t hid = Some head → ref = B "HEAD" ∨ decode_b32 ref ≠ Panic →
  match found_id (resolve a w hid ref) with
  | None => get_history t ordb ordt w head ref = Err ERefNotFound
  | Some id => ∃ ch cs, chain a id ch ∧ get_history t ordb ordt w head ref = Ok cs ∧
                        Forall2 (commit_shows a w) (removelast ch) cs
  end.
Proof.
  intros R Ob Ot G NP. unfold get_history.
  destruct (ws_search_correct t a w hid head ref R G NP) as (o & Es0 & Fo). rewrite Es0.
  destruct o as [[[l|] ty]|]; cbn [ws_found] in Fo.
  - cbn [found_of] in Fo. destruct (node_id t l) as [id|] eqn:Ni; [|done]. cbn in Fo. injection Fo as Fo.
    assert (found_id (resolve a w hid ref) = Some id) as Eid by (rewrite <-Fo; by destruct ty).
    rewrite Eid.
    assert (has a id) as Hid.
    { clear -R G Eid. unfold resolve in Eid. case_decide.
      - destruct (a_nodes a !! hid) as [an|] eqn:E; [|done]. cbn in Eid. destruct (an_parent an) eqn:P; [|done].
        injection Eid as ->. eapply (ro_parent _ (r_ok _ _ R) hid). by exists an.
      - assert (∀ n i, a_branches a !! n = Some i → has a i) as HB by apply (ro_branch _ (r_ok _ _ R)).
        assert (∀ n i, a_tags a !! n = Some i → has a i) as HT by apply (ro_tag _ (r_ok _ _ R)).
        destruct (search_spec a (key_id ref) ref) eqn:Es.
        1-3: cbn in Eid; injection Eid as ->; unfold search_spec in Es; repeat case_match; simplify_eq; eauto.
        cbn [found_id] in Eid; repeat case_match; cbn [found_id] in *; simplify_eq; eauto. }
    destruct (chain_exists a id (r_ok _ _ R) Hid) as (ch & Hch).
    destruct (get_Some _ _ _ R Hid) as (l' & ? & ? & G' & _).
    assert (l' = l) as ->.
    { destruct (ws_search_indexed t a w hid head ref l ty R G Es0) as (i & Gi).
      rewrite (sh_id _ _ _ _ (repr_shows _ _ _ _ R Gi)) in Ni. congruence. }
    destruct (history_from_spec t a ordb ordt w R Ob Ot ch id l (S (size (t_heap t))) Hch G') as (cs & E & F).
    { pose proof (chain_heap_size _ _ _ _ R Hch). lia. }
    eauto.
  - injection Fo as Fo. rewrite <-Fo. done.
  - injection Fo as Fo. rewrite <-Fo. done.
Qed.

(** ** Annotations *)
(** The abstract node after SetToNode *)
Definition dated (an : anode) (date : option bytes) (msg : bytes) : anode :=
  ANode (an_parent an) (<[anno_message := msg]> (match date with Some d => <[anno_date := d]> (an_anno an) | None => an_anno an end)) (an_data an).
Definition dated_node (n : node) (date : option bytes) (msg : bytes) : node :=
  Node (n_id n) (n_parent n) (n_children n)
    (<[anno_message := msg]> (match date with Some d => <[anno_date := d]> (n_anno n) | None => n_anno n end)) (n_data n).
Lemma set_to_node_eq (t : tstate) l date msg : set_to_node t l date msg = upd_node t l (λ n, dated_node n date msg).
Proof.
  unfold set_to_node. destruct date as [d|]; [|done]. unfold add_annotation, upd_node, set_heap. cbn.
  f_equal. by rewrite <-alter_compose.
Qed.
Lemma set_to_node_repr (t : tstate) a id an l date msg : repr t a → get t id = Some l → a_nodes a !! id = Some an →
  repr (set_to_node t l date msg) (put_node a id (dated an date msg)).
Proof.
  intros R G E. rewrite set_to_node_eq. eapply repr_upd_node; [done|done|done|done|done| |].
  - intros n H. cbn. by rewrite H.
  - intros n H. cbn. done.
Qed.

(** ** The sorting order *)
Lemma bytes_leb_lex x y : bytes_leb x y = true ↔ lex_le x y.
Proof.
  revert y. induction x as [|a x IH]; intros y.
  { split; [intros _; left; by exists y|done]. }
  destruct y as [|b y].
  { split; [done|]. intros [[z [=]]|(p & c & d & x' & y' & _ & E & _)]. destruct p; discriminate E. }
  rewrite bytes_leb_cases, IH. split.
  - intros [L|[-> [[z ->]|(p & c & d & x' & y' & -> & -> & L)]]].
    + right. by exists [], a, b, x, y.
    + left. by exists z.
    + right. by exists (b :: p), c, d, x', y'.
  - intros [[z [= -> ->]]|(p & c & d & x' & y' & E1 & E2 & L)].
    + right. split; [done|]. left. by exists z.
    + destruct p as [|e p]; cbn in E1, E2; injection E1 as -> ->; injection E2 as -> ->; [by left|].
      right. split; [done|]. right. by exists p, c, d, x', y'.
Qed.

(** ** The calendar *)
Lemma leap_spec y : leap y = true ↔ leap_year y.
Proof.
  unfold leap, leap_year.
  assert (N.divide 400 y → N.divide 4 y) as D4 by (intros D; transitivity 400%N; [by exists 100%N|done]).
  rewrite <-!N.mod_divide in * by done.
  destruct (N.eqb_spec (y mod 4) 0) as [A|A], (N.eqb_spec (y mod 100) 0) as [C|C], (N.eqb_spec (y mod 400) 0) as [D|D];
    cbn; tauto || (split; [done|tauto]).
Qed.
Lemma month_len_spec y mo len : (1 <= mo)%N → nth_error (month_lengths y) (N.to_nat mo - 1) = Some len →
  (mo <= 12)%N ∧ len = days_in y mo.
Proof.
  intros L H. assert (mo <= 12)%N as U.
  { assert (nth_error (month_lengths y) (N.to_nat mo - 1) ≠ None) as U by (by rewrite H).
    apply nth_error_Some in U. cbn [month_lengths length] in U. lia. }
  split; [done|].
  assert (mo = 1 ∨ mo = 2 ∨ mo = 3 ∨ mo = 4 ∨ mo = 5 ∨ mo = 6 ∨ mo = 7 ∨ mo = 8 ∨ mo = 9 ∨ mo = 10 ∨ mo = 11 ∨ mo = 12)%N as C by lia.
  assert ((if decide (leap_year y) then 29 else 28)%N = if leap y then 29%N else 28%N) as E.
  { pose proof (leap_spec y) as LS. destruct (decide (leap_year y)) as [Y|Y], (leap y); try done; exfalso; [|apply Y]; by apply LS in Y || apply LS. }
  revert H. unfold month_lengths. rewrite E. clear E L U.
  repeat destruct C as [->|C]; [..|subst]; cbn [N.to_nat]; intros H; injection H as <-; done.
Qed.
Lemma good_time_gregorian y mo d h mi sec off : good_time (Time y mo d h mi sec off) ↔
  (y < 10000 ∧ (∃ len, nth_error (month_lengths y) (N.to_nat mo - 1) = Some len ∧ 1 <= d <= len) ∧ 1 <= mo ∧ h < 24 ∧ mi < 60 ∧ sec < 60)%N ∧
  (∃ k, off = 60 * k)%Z ∧ (-86400 < off < 86400)%Z.
Proof.
  unfold good_time, time_ok, zone_ok. cbn [tm_year tm_mon tm_day tm_hour tm_min tm_sec tm_off].
  rewrite !andb_true_iff, !N.leb_le. split.
  - intros (Y & ((((((M1 & M2) & D1) & D2) & Hh) & Hm) & Hs) & Z1 & Z2). split; [|split; [eauto|done]].
    split; [done|]. split; [|lia].
    destruct (nth_error (month_lengths y) (N.to_nat mo - 1)) as [len|] eqn:E.
    + destruct (month_len_spec _ _ _ M1 E) as [_ ->]. eauto.
    + apply nth_error_None in E. cbn [month_lengths length] in E. lia.
  - intros ((Y & (len & E & D) & M1 & Hh & Hm & Hs) & (k & ->) & Z2). destruct (month_len_spec _ _ _ M1 E) as [M2 ->].
    split; [done|]. split; [lia|]. split; [|lia]. rewrite (Z.mul_comm 60 k), Z.quot_mul by done. lia.
Qed.
