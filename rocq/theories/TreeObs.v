(** * TreeObs: what a user of the Tree API sees of a model state; consequences of [repr]. *)
From Verif Require Import Base Uid SpecUid UidProofs Tree SpecTree TreeRefine.
From Coq Require Import Lia.

(** The node at [l], seen through the Node interface, is commit [id] of [a]. *)
Record shows (t : tstate) (a : atree) (id : uid) (l : loc) : Prop := {
  sh_has : has a id;
  sh_id : node_id t l = Some id;
  sh_parent : ∀ p, node_parent t l ≫= node_id t = Some p ↔ parent_of a id p;
  sh_children : ∀ k c, node_children t l !! k ≫= node_id t = Some c ↔ k = uid_hex c ∧ parent_of a c id;
  sh_anno : ∀ an, a_nodes a !! id = Some an → n_anno <$> node_at t l = Some (an_anno an);
  sh_data : ∀ an, a_nodes a !! id = Some an → n_data <$> node_at t l = Some (an_data an) }.

(** Every observer of the Tree interface answers as the plain maps do. *)
Record observes (t : tstate) (a : atree) : Prop := {
  ob_get : ∀ id l, get t id = Some l → shows t a id l;
  ob_get_none : ∀ id, get t id = None → ¬ has a id;
  ob_root : ∀ l, root t = Some l → ∃ id, is_root a id ∧ get t id = Some l;
  ob_root_none : root t = None → a_nodes a = ∅;
  ob_branch : ∀ name l, get_by_branch t name = Some l → ∃ id, a_branches a !! name = Some id ∧ get t id = Some l;
  ob_branch_none : ∀ name, get_by_branch t name = None → a_branches a !! name = None;
  ob_tag : ∀ name l, get_by_tag t name = Some l → ∃ id, a_tags a !! name = Some id ∧ get t id = Some l;
  ob_tag_none : ∀ name, get_by_tag t name = None → a_tags a !! name = None }.

Lemma repr_shows t a id l : repr t a → get t id = Some l → shows t a id l.
Proof.
  intros R G. destruct (get_Some' _ _ _ _ R G) as (an & n & E & [A1 A2 A3 A4 A5 A6]).
  constructor.
  - by exists an.
  - unfold node_id. by rewrite A1, <-A2.
  - intros p. unfold node_parent. rewrite A1. cbn. rewrite A5. split.
    + destruct (an_parent an) as [q|] eqn:Eq; [|done]. cbn. destruct (get t q) as [ql|] eqn:Gq; [|done].
      cbn. destruct (get_Some' _ _ _ _ R Gq) as (? & m & ? & M). unfold node_id.
      rewrite (ni_at _ _ _ _ _ _ M). cbn. rewrite (ni_id _ _ _ _ _ _ M). intros [= <-]. by exists an.
    + intros (an' & E' & P). rewrite E in E'. injection E' as <-. rewrite P. cbn.
      destruct (get_Some t a p R) as (pl & ? & m & Gp & ? & M).
      { apply (ro_parent _ (r_ok _ _ R) id). by exists an. }
      rewrite Gp. cbn. unfold node_id. rewrite (ni_at _ _ _ _ _ _ M). cbn. by rewrite (ni_id _ _ _ _ _ _ M).
  - intros k c. unfold node_children. rewrite A1. cbn. split.
    + destruct (n_children n !! k) as [cl|] eqn:Ec; [|done]. cbn. apply A6 in Ec as (cid & -> & Hc & Gc).
      destruct (get_Some' _ _ _ _ R Gc) as (? & m & ? & M). unfold node_id.
      rewrite (ni_at _ _ _ _ _ _ M). cbn. rewrite (ni_id _ _ _ _ _ _ M). intros [= <-]. done.
    + intros [-> Hc]. assert (has a c) as Hh by (destruct Hc as (x & Ex & _); by exists x).
      destruct (get_Some t a c R Hh) as (cl & ? & m & Gc & ? & M).
      assert (n_children n !! uid_hex c = Some cl) as -> by (apply A6; eauto).
      cbn. unfold node_id. rewrite (ni_at _ _ _ _ _ _ M). cbn. by rewrite (ni_id _ _ _ _ _ _ M).
  - intros an' E'. rewrite E in E'. injection E' as <-. rewrite A1. cbn. by rewrite A3.
  - intros an' E'. rewrite E in E'. injection E' as <-. rewrite A1. cbn. by rewrite A4.
Qed.

Lemma repr_observes t a : repr t a → observes t a.
Proof.
  intros R. constructor.
  - intros id l. by apply repr_shows.
  - intros id G H. destruct (get_Some _ _ _ R H) as (? & ? & ? & ? & _). congruence.
  - intros l E. by apply (r_root _ _ R).
  - intros E. apply map_eq. intros id. rewrite lookup_empty. apply eq_None_not_Some. intros Hid.
    destruct (ro_reach _ (r_ok _ _ R) id Hid) as (r & Hr & _).
    destruct (get_Some t a r R) as (l & ? & ? & G & _). { destruct Hr as (n & ? & _). by exists n. }
    assert (t_root t = Some l) as H by (apply (r_root _ _ R); eauto). unfold root in E. congruence.
  - intros name l. by apply branch_head.
  - intros name. by apply get_br_None.
  - intros name l E. unfold get_by_tag in E. rewrite (r_tag _ _ R) in E. destruct (a_tags a !! name); eauto. done.
  - intros name. by apply get_tag_None.
Qed.

Lemma tspec_det a c a1 r1 a2 r2 : tspec a c a1 r1 → tspec a c a2 r2 → a1 = a2 ∧ r1 = r2.
Proof.
  intros H1 H2. 
  inversion H1; subst; inversion H2; subst; auto;
  repeat match goal with
  | H : ∀ r, ¬ is_root _ r, H' : is_root _ ?r |- _ => by destruct (H r)
  | H : ¬ has _ ?x, H' : has _ ?x |- _ => by destruct H
  | H : ¬ has _ ?x, H' : a_nodes _ !! ?x = Some ?n |- _ => destruct H; by exists n
  | H : _ = Some ?x, H' : _ = Some ?y |- _ => rewrite H in H'; injection H' as ->
  | H : _ = Some ?x, H' : _ = None |- _ => rewrite H in H'; discriminate
  | H : ?f = true ∨ _ |- _ => destruct H
  end; try done; auto.
Qed.

Lemma run_calls_refines cs : ∀ t a, repr t a → all_fresh a cs →
  ∃ t' a' rs, run_calls t cs = Ok (t', rs) ∧ tspecs a cs a' rs ∧ repr t' a'.
Proof.
  induction cs as [|c cs IH]; intros t a R F.
  - exists t, a, []. split; [done|]. split; [constructor|done].
  - destruct F as [F1 F2]. destruct (run_call_refines t a c R F1) as (t1 & a1 & r & E1 & S1 & R1).
    destruct (IH t1 a1 R1 (F2 _ _ S1)) as (t2 & a2 & rs & E2 & S2 & R2).
    exists t2, a2, (r :: rs). cbn [run_calls]. rewrite E1, E2. split; [done|]. split; [by econstructor|done].
Qed.

Lemma tspec_has a c a' r x : tspec a c a' r → has a' x → has a x ∨ (∃ p, c = TAddNode p x).
Proof.
  intros H Hx. inversion H; subst; auto; destruct Hx as [n0 E]; cbn in E;
  match type of E with <[?i := _]> _ !! x = _ => destruct (decide (x = i)) as [->|];
     [|rewrite lookup_insert_ne in E by done; left; by eexists] | _ => left; by eexists end;
  eauto; left; by eexists.
Qed.
Lemma nodup_all_fresh cs : ∀ a, NoDup (added cs) → (∀ id, id ∈ added cs → ¬ has a id) → all_fresh a cs.
Proof.
  induction cs as [|c cs IH]; intros a Hnd Hf; [done|]. cbn [all_fresh].
  split. { destruct c; try done. cbn. apply Hf. cbn. left. }
  intros a' r Hs. apply IH.
  - destruct c; cbn in Hnd; try done. by apply NoDup_cons_1_2 in Hnd.
  - intros id Hid Hh. destruct (tspec_has _ _ _ _ _ Hs Hh) as [Ha|[p ->]].
    + apply (Hf id); [|done]. destruct c; cbn; try done. by right.
    + cbn in Hnd. by apply NoDup_cons_1_1 in Hnd.
Qed.

(** ** The shape of the pointer structure (C09) *)
Record tree_shape (t : tstate) : Prop := {
  ts_root : ∀ l, root t = Some l → node_parent t l = None ∧ ∃ id, get t id = Some l;
  ts_up : ∀ id l, get t id = Some l → root t ≠ Some l →
    ∃ pid p, get t pid = Some p ∧ node_parent t l = Some p ∧ node_children t p !! uid_hex id = Some l;
  ts_down : ∀ id l k c, get t id = Some l → node_children t l !! k = Some c →
    node_parent t c = Some l ∧ ∃ cid, k = uid_hex cid ∧ get t cid = Some c;
  ts_reach : ∀ id l, get t id = Some l → ∃ k r, root t = Some r ∧ Nat.iter k (λ o, o ≫= node_parent t) (Some l) = Some r;
  ts_id : ∀ id l, get t id = Some l → node_id t l = Some id }.

Lemma node_is_parent t a id an l n : node_is t a id an l n → node_parent t l = an_parent an ≫= get t.
Proof. intros [A1 _ _ _ A5 _]. unfold node_parent. by rewrite A1. Qed.
Lemma repr_shape t a : repr t a → tree_shape t.
Proof.
  intros R. constructor.
  - intros l (r & (an & E & P) & G)%(r_root _ _ R). split; [|eauto].
    destruct (r_node _ _ R _ _ E) as (l' & n & G' & N). rewrite G in G'. injection G' as <-.
    rewrite (node_is_parent _ _ _ _ _ _ N), P. done.
  - intros id l G Nr. destruct (get_Some' _ _ _ _ R G) as (an & n & E & N).
    destruct (an_parent an) as [pid|] eqn:P.
    + assert (parent_of a id pid) as PO by (by exists an).
      destruct (get_Some t a pid R (ro_parent _ (r_ok _ _ R) _ _ PO)) as (p & ? & m & Gp & ? & M).
      exists pid, p. split; [done|]. split.
      * rewrite (node_is_parent _ _ _ _ _ _ N), P. done.
      * unfold node_children. rewrite (ni_at _ _ _ _ _ _ M). cbn. apply (ni_children _ _ _ _ _ _ M). eauto.
    + destruct Nr. apply (r_root _ _ R). exists id. split; [by exists an|done].
  - intros id l k c G Hc. destruct (get_Some' _ _ _ _ R G) as (an & n & E & N).
    unfold node_children in Hc. rewrite (ni_at _ _ _ _ _ _ N) in Hc. cbn in Hc.
    apply (ni_children _ _ _ _ _ _ N) in Hc as (cid & -> & (m & Em & Pm) & Gc). split; [|eauto].
    destruct (get_Some' _ _ _ _ R Gc) as (? & n' & Em' & M). rewrite Em in Em'. injection Em' as <-.
    rewrite (node_is_parent _ _ _ _ _ _ M), Pm. done.
  - intros id l G. destruct (chain_exists a id (r_ok _ _ R) (get_has _ _ _ _ R G)) as [ch Hch].
    revert l G. induction Hch as [id Hr|id p ch Hp Hch IH]; intros l G.
    + exists 0, l. split; [|done]. apply (r_root _ _ R). eauto.
    + destruct (get_Some t a p R (ro_parent _ (r_ok _ _ R) _ _ Hp)) as (pl & ? & m & Gp & ? & M).
      destruct (IH _ Gp) as (k & r & Hr & Hk). exists (S k), r. split; [done|].
      rewrite Nat.iter_succ_r. cbn [mbind option_bind].
      destruct (get_Some' _ _ _ _ R G) as (an & n & E & N). destruct Hp as (an' & E' & P).
      rewrite E in E'. injection E' as <-. rewrite (node_is_parent _ _ _ _ _ _ N), P. cbn. by rewrite Gp.
  - intros id l G. destruct (get_Some' _ _ _ _ R G) as (an & n & E & N). unfold node_id.
    rewrite (ni_at _ _ _ _ _ _ N). cbn. by rewrite (ni_id _ _ _ _ _ _ N).
Qed.

(** ** Search *)
Definition found_of (t : tstate) (o : option (loc * key_type)) : option found :=
  match o with
  | None => Some FNone
  | Some (l, ty) => (λ id, match ty with KCommit => FCommit id | KTag => FTag id | KBranch => FBranch id end) <$> node_id t l
  end.
(** What a key means as an ID: hex first, then base32. *)
Definition key_id (key : bytes) : option uid :=
  match decode_hex key with
  | Ok id => Some id
  | _ => match decode_b32 key with Ok id => Some id | _ => None end
  end.
Lemma search_by_name t a key : repr t a →
  found_of t (match get_by_tag t key with
    | Some l => Some (l, KTag)
    | None => match get_by_branch t key with Some l => Some (l, KBranch) | None => None end end)
  = Some (search_spec a None key).
Proof.
  intros R. destruct (repr_observes _ _ R) as [O1 O2 O3 O4 O5 O6 O7 O8]. unfold search_spec.
  destruct (get_by_tag t key) as [l|] eqn:Et.
  - destruct (O7 _ _ Et) as (id & Ea & G). rewrite Ea. cbn. by rewrite (sh_id _ _ _ _ (O1 _ _ G)).
  - rewrite (O8 _ Et). destruct (get_by_branch t key) as [l|] eqn:Eb.
    + destruct (O5 _ _ Eb) as (id & Ea & G). rewrite Ea. cbn. by rewrite (sh_id _ _ _ _ (O1 _ _ G)).
    + rewrite (O6 _ Eb). done.
Qed.
Lemma search_id t a key id : repr t a →
  match get t id with Some l => found_of t (Some (l, KCommit)) = Some (search_spec a (Some id) key)
  | None => search_spec a (Some id) key = search_spec a None key end.
Proof.
  intros R. destruct (repr_observes _ _ R) as [O1 O2 O3 O4 O5 O6 O7 O8]. unfold search_spec.
  destruct (get t id) as [l|] eqn:G.
  - rewrite decide_True by apply (sh_has _ _ _ _ (O1 _ _ G)). cbn. by rewrite (sh_id _ _ _ _ (O1 _ _ G)).
  - rewrite decide_False by auto. done.
Qed.
Lemma search_name_eq t key :
  match get_by_tag t key with
  | Some l => Ok (Some (l, KTag))
  | None => match get_by_branch t key with Some l => Ok (Some (l, KBranch)) | None => Ok None end
  end = Ok (match get_by_tag t key with
    | Some l => Some (l, KTag)
    | None => match get_by_branch t key with Some l => Some (l, KBranch) | None => None end end).
Proof. destruct (get_by_tag t key); [done|]. by destruct (get_by_branch t key). Qed.
(** Whenever the ID decoders do not panic, Search finds what the specification says. *)
Lemma search_correct t a key : repr t a → decode_b32 key ≠ Panic →
  ∃ o, search t key = Ok o ∧ found_of t o = Some (search_spec a (key_id key) key).
Proof.
  intros R NP. unfold search, key_id. rewrite search_name_eq.
  pose proof (search_by_name t a key R) as HN.
  destruct (decode_hex key) as [id| | | |] eqn:EH.
  - pose proof (search_id t a key id R) as HI. destruct (get t id) as [l|]; [eauto|].
    eexists; split; [done|]. by rewrite HI.
  - destruct (decode_b32 key) as [id| | | |] eqn:EB.
    + pose proof (search_id t a key id R) as HI. destruct (get t id) as [l|]; [eauto|].
      eexists; split; [done|]. by rewrite HI.
    + eauto.
    + done.
    + exfalso. unfold decode_b32 in EB. destruct (decide _); [|done]. destruct (b32_decode key) as [r|]; [|done].
      destruct (to_array16_cases r) as [?|[? ?]]; congruence.
    + exfalso. unfold decode_b32 in EB. destruct (decide _); [|done]. destruct (b32_decode key) as [r|]; [|done].
      destruct (to_array16_cases r) as [?|[? ?]]; congruence.
  - exfalso. destruct (decode_hex_err key) as [(_ & ? & ?)|(_ & ? & ?)]; congruence.
  - exfalso. destruct (decode_hex_err key) as [(_ & ? & ?)|(_ & ? & ?)]; congruence.
  - exfalso. destruct (decode_hex_err key) as [(_ & ? & ?)|(_ & ? & ?)]; congruence.
Qed.

(** ** Exact effects of the calls, as seen by the observers *)

(** Nothing about nodes changed. *)
Definition same_nodes (t t' : tstate) : Prop :=
  root t' = root t ∧ (∀ id, get t' id = get t id) ∧ (∀ l, node_at t' l = node_at t l).
Definition same_branches (t t' : tstate) : Prop := ∀ n, get_by_branch t' n = get_by_branch t n.
Definition same_tags (t t' : tstate) : Prop := ∀ n, get_by_tag t' n = get_by_tag t n.

Lemma add_branch_effect t a name id : repr t a →
  (¬ has a id ∧ add_branch t name id = Err ENodeNotFound) ∨
  (has a id ∧ ∃ t', add_branch t name id = Ok t' ∧ get_by_branch t' name = get t id ∧
     (∀ n, n ≠ name → get_by_branch t' n = get_by_branch t n) ∧ same_tags t t' ∧ same_nodes t t').
Proof.
  intros R. unfold add_branch. change (t_nodes t !! uid_hex id) with (get t id).
  destruct (get t id) as [l|] eqn:E.
  - right. split; [by eapply get_has|]. eexists; split; [done|]. unfold get_by_branch; cbn.
    split; [by rewrite lookup_insert|]. split; [|done]. intros n Hn. by rewrite lookup_insert_ne.
  - left. split; [|done]. intros H. destruct (get_Some _ _ _ R H) as (? & ? & ? & ? & _). congruence.
Qed.
Lemma add_tag_effect t a name id : repr t a →
  (¬ has a id ∧ add_tag t name id = Err ENodeNotFound) ∨
  (has a id ∧ ∃ t', add_tag t name id = Ok t' ∧ get_by_tag t' name = get t id ∧
     (∀ n, n ≠ name → get_by_tag t' n = get_by_tag t n) ∧ same_branches t t' ∧ same_nodes t t').
Proof.
  intros R. unfold add_tag. change (t_nodes t !! uid_hex id) with (get t id).
  destruct (get t id) as [l|] eqn:E.
  - right. split; [by eapply get_has|]. eexists; split; [done|]. unfold get_by_tag; cbn.
    split; [by rewrite lookup_insert|]. split; [|done]. intros n Hn. by rewrite lookup_insert_ne.
  - left. split; [|done]. intros H. destruct (get_Some _ _ _ R H) as (? & ? & ? & ? & _). congruence.
Qed.
Lemma delete_branch_effect t name :
  let '(t', b) := delete_branch t name in
  (b = true ↔ is_Some (get_by_branch t name)) ∧ (b = false → t' = t) ∧
  get_by_branch t' name = None ∧ (∀ n, n ≠ name → get_by_branch t' n = get_by_branch t n) ∧
  same_tags t t' ∧ same_nodes t t'.
Proof.
  unfold delete_branch, get_by_branch. destruct (t_branches t !! name) as [l|] eqn:E; cbn.
  - split; [split; eauto|]. split; [done|]. split; [by rewrite lookup_delete|].
    split; [intros n Hn; by rewrite lookup_delete_ne|done].
  - split; [split; [done|intros [? [=]]]|]. done.
Qed.
Lemma delete_tag_effect t name :
  let '(t', b) := delete_tag t name in
  (b = true ↔ is_Some (get_by_tag t name)) ∧ (b = false → t' = t) ∧
  get_by_tag t' name = None ∧ (∀ n, n ≠ name → get_by_tag t' n = get_by_tag t n) ∧
  same_branches t t' ∧ same_nodes t t'.
Proof.
  unfold delete_tag, get_by_tag. destruct (t_tags t !! name) as [l|] eqn:E; cbn.
  - split; [split; eauto|]. split; [done|]. split; [by rewrite lookup_delete|].
    split; [intros n Hn; by rewrite lookup_delete_ne|done].
  - split; [split; [done|intros [? [=]]]|]. done.
Qed.

Lemma update_branch_effect t a name id force : repr t a →
  (has a id → ∀ head, a_branches a !! name = Some head → force = true ∨ ancestor_or_self a head id →
     ∃ t', update_branch t name id force = Ok t' ∧ get_by_branch t' name = get t id ∧
     (∀ n, n ≠ name → get_by_branch t' n = get_by_branch t n) ∧ same_tags t t' ∧ same_nodes t t') ∧
  (¬ has a id → update_branch t name id force = Err ENodeNotFound) ∧
  (has a id → a_branches a !! name = None → update_branch t name id force = Err EBranchNotFound) ∧
  (has a id → ∀ head, a_branches a !! name = Some head → force = false → ¬ ancestor_or_self a head id →
     update_branch t name id force = Err EUnreachable).
Proof.
  intros R.
  destruct (run_call_refines t a (TUpdateBranch name id force) R I) as (t' & a' & r & E & S & R').
  cbn [run_call] in E.
  assert (∀ a2 r2, tspec a (TUpdateBranch name id force) a2 r2 → a2 = a' ∧ r2 = r) as D.
  { intros a2 r2 H. by eapply tspec_det. }
  split; [|split; [|split]].
  - intros H head Hb Hf. destruct (D _ _ (s_upd_ok a name id force head H Hb Hf)) as [<- <-].
    destruct (update_branch t name id force) as [t2| | | |] eqn:EU; try discriminate.
    injection E as ->. exists t'. split; [done|].
    unfold update_branch in EU.
    assert (∃ l, get t id = Some l) as [l Gl]. { destruct (get_Some _ _ _ R H) as (l & ? & ? & ? & _). eauto. }
    change (t_nodes t !! uid_hex id) with (get t id) in EU. rewrite Gl in EU.
    destruct (t_branches t !! name) as [h|] eqn:EB; [|discriminate].
    destruct (node_id t h) as [hid|] eqn:Eh; [|discriminate]. destruct (node_id t l) as [lid|] eqn:El; [|discriminate].
    destruct (decide (uid_hex hid = uid_hex lid)) as [Eq|Ne].
    + injection EU as ->. apply uid_hex_inj in Eq as ->. split; [|done].
      unfold get_by_branch. rewrite EB, Gl. f_equal.
      destruct (branch_head _ _ _ _ R EB) as (x & _ & Gx).
      pose proof (sh_id _ _ _ _ (repr_shows _ _ _ _ R Gx)) as I1.
      pose proof (sh_id _ _ _ _ (repr_shows _ _ _ _ R Gl)) as I2.
      assert (x = id) as -> by congruence. congruence.
    + assert (t' = set_branches t (<[name := l]> (t_branches t))) as ->.
      { destruct force; [congruence|]. destruct (connected _ _ _ _) as [[]| | | |]; congruence. }
      unfold get_by_branch; cbn. rewrite Gl, lookup_insert. split; [done|].
      split; [|done]. intros n Hn. by rewrite lookup_insert_ne.
  - intros H. destruct (D _ _ (s_upd_nonode a name id force H)) as [_ <-].
    destruct (update_branch t name id force); congruence.
  - intros H Hb. destruct (D _ _ (s_upd_nobranch a name id force H Hb)) as [_ <-].
    destruct (update_branch t name id force); congruence.
  - intros H head Hb -> Hf. destruct (D _ _ (s_upd_unreach a name id head H Hb Hf)) as [_ <-].
    destruct (update_branch t name id false); congruence.
Qed.

(** AddNode failures, whatever the new ID. *)
Lemma add_node_root_err t a l : repr t a → (∃ r, is_root a r) → add_node t None l = Err ERootExists.
Proof.
  intros R [r Hr]. unfold add_node. destruct (get_Some t a r R) as (rl & ? & ? & G & _).
  { destruct Hr as (n & E & _). by exists n. }
  assert (t_root t = Some rl) as -> by (apply (r_root _ _ R); eauto). done.
Qed.
Lemma add_node_parent_err t a q l : repr t a → ¬ has a q → add_node t (Some q) l = Err EParentNotFound.
Proof. intros R H. pose proof (get_None _ _ _ R H) as E. unfold get in E. unfold add_node. by rewrite E. Qed.
Lemma add_node_effect t a p id : repr t a → ¬ has a id →
  let '(t1, l) := alloc_node t (new_node id) in
  match p with
  | None => (∃ r, is_root a r) ∧ add_node t1 p l = Err ERootExists ∨
            (∀ r, ¬ is_root a r) ∧ ∃ t', add_node t1 p l = Ok t' ∧ repr t' (put_node a id (ANode None ∅ ∅))
  | Some q => ¬ has a q ∧ add_node t1 p l = Err EParentNotFound ∨
              has a q ∧ ∃ t', add_node t1 p l = Ok t' ∧ repr t' (put_node a id (ANode (Some q) ∅ ∅))
  end.
Proof.
  intros R F. destruct (run_call_refines t a (TAddNode p id) R F) as (t' & a' & r & E & S & R').
  cbn [run_call] in E. destruct (alloc_node t (new_node id)) as [t1 l].
  destruct p as [q|]; inversion S; subst.
  - right. split; [done|]. destruct (add_node t1 (Some q) l); try discriminate. injection E as ->. eauto.
  - left. split; [done|]. destruct (add_node t1 (Some q) l); try discriminate; congruence.
  - right. split; [done|]. destruct (add_node t1 None l); try discriminate. injection E as ->. eauto.
  - left. split; [eauto|]. destruct (add_node t1 None l); try discriminate; congruence.
Qed.

(** The fate of AddNode with an ID that is already in the tree, under an existing parent. *)
Lemma add_node_dup_accepted t a q id : repr t a → has a q →
  ∃ t', run_call t (TAddNode (Some q) id) = Ok (t', TOk).
Proof.
  intros R Hq. destruct (get_Some _ _ _ R Hq) as (pl & an & n & G & Ea & N).
  cbn [run_call alloc_node]. unfold add_node. cbn [t_nodes].
  change (t_nodes t !! uid_hex q) with (get t q). rewrite G.
  unfold node_id, node_at; cbn [t_heap]. rewrite lookup_insert. cbn [fmap option_fmap option_map new_node n_id].
  pose proof (get_lt _ _ _ _ R G) as Hlt.
  erewrite update_indexes_leaf; [eauto| |].
  { unfold node_at, set_parent, upd_node, add_child. cbn [t_heap set_heap].
    destruct (decide _); cbn [fst t_heap set_heap upd_node].
    - rewrite lookup_alter, lookup_insert. reflexivity.
    - rewrite lookup_alter, lookup_alter_ne by lia. rewrite lookup_insert. reflexivity. }
  reflexivity.
Qed.

(** For concrete runs: a boolean check of the final state, by computation. *)
Definition check_run (cs : list tcall) (f : tstate → list tans → bool) : bool :=
  match run_calls new_tree cs with Ok (t, rs) => f t rs | _ => false end.
Lemma check_run_ok cs f : check_run cs f = true → ∃ t rs, run_calls new_tree cs = Ok (t, rs) ∧ f t rs = true.
Proof. unfold check_run. destruct (run_calls new_tree cs) as [[t rs]| | | |]; try done. eauto. Qed.
