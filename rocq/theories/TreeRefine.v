(** * TreeRefine: the pointer tree of [Tree.v] refines the plain maps of [SpecTree.v]. *)
From Verif Require Import Base Uid UidProofs Tree SpecTree.
From Coq Require Import Lia.

(** Running one call of the API on the model ([NewNode] then [AddNode]; [Get] then the
    node method). *)
Definition on_node (t : tstate) (id : uid) (f : loc → tstate) : res (tstate * tans) :=
  match get t id with Some l => Ok (f l, TOk) | None => Ok (t, TNoNode) end.
Definition run_call (t : tstate) (c : tcall) : res (tstate * tans) :=
  let lift (t0 : tstate) (r : res tstate) :=
    match r with
    | Ok t' => Ok (t', TOk) | Err e => Ok (t0, TErr e)
    | Panic => Panic | Hang => Hang | Crash => Crash
    end in
  match c with
  | TAddNode p id => let '(t1, l) := alloc_node t (new_node id) in lift t1 (add_node t1 p l)
  | TAddTag n id => lift t (add_tag t n id)
  | TDeleteTag n => let '(t', b) := delete_tag t n in Ok (t', TBool b)
  | TAddBranch n id => lift t (add_branch t n id)
  | TUpdateBranch n id f => lift t (update_branch t n id f)
  | TDeleteBranch n => let '(t', b) := delete_branch t n in Ok (t', TBool b)
  | TAddAnnotation id k v => on_node t id (λ l, add_annotation t l k v)
  | TSetAnnotations id m => on_node t id (λ l, set_annotations t l m)
  | TAddData id k v => on_node t id (λ l, add_data t l k v)
  | TSetData id m => on_node t id (λ l, set_data t l m)
  end.
Fixpoint run_calls (t : tstate) (cs : list tcall) : res (tstate * list tans) :=
  match cs with
  | [] => Ok (t, [])
  | c :: cs' =>
      match run_call t c with
      | Ok (t', r) => match run_calls t' cs' with
                      | Ok (t'', rs) => Ok (t'', r :: rs)
                      | Err e => Err e | Panic => Panic | Hang => Hang | Crash => Crash
                      end
      | Err e => Err e | Panic => Panic | Hang => Hang | Crash => Crash
      end
  end.

(** What the node at [l] looks like through the accessors of the Node interface. *)
Record node_is (t : tstate) (a : atree) (id : uid) (an : anode) (l : loc) (n : node) : Prop := {
  ni_at : node_at t l = Some n;
  ni_id : n_id n = id;
  ni_anno : n_anno n = an_anno an;
  ni_data : n_data n = an_data an;
  ni_parent : n_parent n = an_parent an ≫= get t;
  ni_children : ∀ k c, n_children n !! k = Some c ↔
    ∃ cid, k = uid_hex cid ∧ parent_of a cid id ∧ get t cid = Some c }.

Record repr (t : tstate) (a : atree) : Prop := {
  r_dom : ∀ k l, t_nodes t !! k = Some l → ∃ id, k = uid_hex id ∧ has a id;
  r_node : ∀ id an, a_nodes a !! id = Some an → ∃ l n, get t id = Some l ∧ node_is t a id an l n;
  r_root : ∀ l, t_root t = Some l ↔ ∃ r, is_root a r ∧ get t r = Some l;
  r_br : ∀ name, t_branches t !! name = a_branches a !! name ≫= get t;
  r_tag : ∀ name, t_tags t !! name = a_tags a !! name ≫= get t;
  r_next : ∀ l, is_Some (t_heap t !! l) → l < t_next t;
  r_ok : rooted a }.

Lemma get_None t a id : repr t a → ¬ has a id → get t id = None.
Proof.
  intros R H. destruct (get t id) as [l|] eqn:E; [|done].
  apply (r_dom _ _ R) in E as (id' & E & Hh). apply uid_hex_inj in E as ->. done.
Qed.
Lemma get_Some t a id : repr t a → has a id → ∃ l an n, get t id = Some l ∧ a_nodes a !! id = Some an ∧ node_is t a id an l n.
Proof. intros R [an Han]. destruct (r_node _ _ R _ _ Han) as (l & n & ? & ?). eauto 10. Qed.
Lemma get_has t a id l : repr t a → get t id = Some l → has a id.
Proof. intros R E. destruct (decide (has a id)) as [|N]; [done|]. rewrite (get_None _ _ _ R N) in E. done. Qed.
Lemma get_Some' t a id l : repr t a → get t id = Some l → ∃ an n, a_nodes a !! id = Some an ∧ node_is t a id an l n.
Proof.
  intros R E. destruct (get_Some _ _ _ R (get_has _ _ _ _ R E)) as (l' & an & n & E' & ? & ?).
  rewrite E in E'. injection E' as <-. eauto.
Qed.
Lemma get_inj t a x y l : repr t a → get t x = Some l → get t y = Some l → x = y.
Proof.
  intros R E1 E2. destruct (get_Some' _ _ _ _ R E1) as (? & n & ? & N1).
  destruct (get_Some' _ _ _ _ R E2) as (? & m & ? & N2).
  pose proof (ni_at _ _ _ _ _ _ N1) as A1. rewrite (ni_at _ _ _ _ _ _ N2) in A1. injection A1 as <-.
  by rewrite <-(ni_id _ _ _ _ _ _ N1), <-(ni_id _ _ _ _ _ _ N2).
Qed.
Lemma get_lt t a id l : repr t a → get t id = Some l → l < t_next t.
Proof.
  intros R E. destruct (get_Some' _ _ _ _ R E) as (? & n & _ & N).
  apply (r_next _ _ R). exists n. apply (ni_at _ _ _ _ _ _ N).
Qed.

Arguments get : simpl never.

(** ** Chains *)
Lemma parent_of_det a c p p' : parent_of a c p → parent_of a c p' → p = p'.
Proof. intros (n & E & P) (n' & E' & P'). congruence. Qed.
Lemma is_root_no_parent a r p : is_root a r → parent_of a r p → False.
Proof. intros (n & E & P) (n' & E' & P'). congruence. Qed.
Lemma chain_exists a c : rooted a → has a c → ∃ l, chain a c l.
Proof.
  intros R H. destruct (ro_reach _ R _ H) as (r & Hr & Hc). unfold ancestor_or_self in Hc.
  clear H. induction Hc as [x|x y z Hxy Hyz IH].
  - exists [x]. by constructor.
  - destruct IH as [l Hl]; [done|]. exists (x :: l). by econstructor.
Qed.
Lemma chain_det a c l l' : chain a c l → chain a c l' → l = l'.
Proof.
  intros H. revert l'. induction H as [id Hr|id p l Hp Hl IH]; intros l' H'.
  - inversion H'; subst; [done|]. exfalso; eauto using is_root_no_parent.
  - inversion H'; subst; [exfalso; eauto using is_root_no_parent|].
    f_equal. apply IH. match goal with H : parent_of a id ?q |- _ => by rewrite (parent_of_det _ _ _ _ Hp H) end.
Qed.
Lemma chain_anc a c l x : chain a c l → x ∈ l ↔ ancestor_or_self a x c.
Proof.
  intros H. induction H as [id Hr|id p l Hp Hl IH].
  - rewrite elem_of_list_singleton. split; [intros ->; apply rtc_refl|].
    intros H. inversion H; subst; [done|]. exfalso; eauto using is_root_no_parent.
  - rewrite elem_of_cons, IH. split.
    + intros [->|H]; [apply rtc_refl|]. by eapply rtc_l.
    + intros H. inversion H as [|? y ? Hy ?]; subst; [by left|]. right. by rewrite (parent_of_det _ _ _ _ Hp Hy).
Qed.
Lemma chain_has a c l x : rooted a → chain a c l → x ∈ l → has a x.
Proof.
  intros R H. induction H as [id Hr|id p l Hp Hl IH].
  - rewrite elem_of_list_singleton. intros ->. destruct Hr as (n & E & _). by exists n.
  - intros [->|Hx]%elem_of_cons; [|auto]. destruct Hp as (n & E & _). by exists n.
Qed.
Lemma chain_suffix a c l x : chain a c l → x ∈ l → ∃ l', chain a x l' ∧ length l' ≤ length l.
Proof.
  intros H. induction H as [id Hr|id p l Hp Hl IH].
  - rewrite elem_of_list_singleton. intros ->. exists [id]. split; [by constructor|done].
  - intros [->|Hx]%elem_of_cons.
    + exists (id :: l). split; [by econstructor|done].
    + destruct (IH Hx) as (l' & ? & ?). exists l'. split; [done|cbn; lia].
Qed.
Lemma chain_nodup a c l : chain a c l → NoDup l.
Proof.
  intros H. induction H as [id Hr|id p l Hp Hl IH]; [apply NoDup_singleton|].
  constructor; [|done]. intros Hin. destruct (chain_suffix _ _ _ _ Hl Hin) as (l' & H' & Hlen).
  assert (chain a id (id :: l)) as H0 by (by econstructor).
  rewrite (chain_det _ _ _ _ H' H0) in Hlen. cbn in Hlen. lia.
Qed.

Lemma nodup_size {K} `{Countable K} {A} (m : gmap K A) (l : list K) :
  NoDup l → (∀ x, x ∈ l → is_Some (m !! x)) → length l ≤ size m.
Proof.
  intros Hnd Hin. rewrite <-size_dom.
  assert (size (list_to_set l : gset K) = length l) as <-.
  { by rewrite size_list_to_set. }
  apply subseteq_size. intros x. rewrite elem_of_list_to_set, elem_of_dom. apply Hin.
Qed.

Lemma chain_heap_size t a c l : repr t a → chain a c l → length l ≤ size (t_heap t).
Proof.
  intros R H. 
  set (f := λ x, default 0 (get t x)).
  assert (∀ x, x ∈ l → get t x = Some (f x)) as Hf.
  { intros x Hx. destruct (get_Some _ _ _ R (chain_has _ _ _ _ (r_ok _ _ R) H Hx)) as (p & ? & ? & E & _).
    unfold f. by rewrite E. }
  rewrite <-(fmap_length f l). apply nodup_size.
  - apply NoDup_fmap_2_strong; [|by eapply chain_nodup].
    intros x y Hx Hy E. apply (get_inj _ _ _ _ (f x) R); [by apply Hf|rewrite E; by apply Hf].
  - intros p. rewrite elem_of_list_fmap. intros (x & -> & Hx).
    destruct (get_Some' _ _ _ _ R (Hf _ Hx)) as (? & n & _ & N). exists n. apply (ni_at _ _ _ _ _ _ N).
Qed.

Lemma connected_spec t a c l h fuel : repr t a → chain a c l → length l ≤ fuel →
  connected fuel t (get t c) (uid_hex h) = Ok (bool_decide (h ∈ l)).
Proof.
  intros R H. revert fuel. induction H as [id Hr|id p l Hp Hl IH]; intros fuel Hf.
  - destruct Hr as (an & E & Ep).
    destruct (r_node _ _ R _ _ E) as (lo & n & Hget & N).
    destruct fuel as [|fuel]; [cbn in Hf; lia|]. rewrite Hget. cbn [connected].
    rewrite (ni_at _ _ _ _ _ _ N), (ni_id _ _ _ _ _ _ N).
    destruct (decide (uid_hex id = uid_hex h)) as [Eq|Ne].
    + apply uid_hex_inj in Eq as ->. rewrite bool_decide_eq_true_2; [done|]. set_solver.
    + rewrite (ni_parent _ _ _ _ _ _ N), Ep. rewrite bool_decide_eq_false_2; [by destruct fuel|].
      rewrite elem_of_list_singleton. intros ->. done.
  - destruct Hp as (an & E & Ep).
    destruct (r_node _ _ R _ _ E) as (lo & n & Hget & N).
    destruct fuel as [|fuel]; [cbn in Hf; lia|]. rewrite Hget. cbn [connected].
    rewrite (ni_at _ _ _ _ _ _ N), (ni_id _ _ _ _ _ _ N).
    destruct (decide (uid_hex id = uid_hex h)) as [Eq|Ne].
    + apply uid_hex_inj in Eq as ->. rewrite bool_decide_eq_true_2; [done|]. set_solver.
    + rewrite (ni_parent _ _ _ _ _ _ N), Ep. cbn [mbind option_bind].
      rewrite IH by (cbn in Hf; lia). f_equal. apply bool_decide_ext.
      rewrite elem_of_cons. split; [by right|]. intros [->|?]; done.
Qed.

(** ** The initial state *)
Lemma repr_new : repr new_tree empty_atree.
Proof.
  constructor; cbn.
  - intros k l; rewrite lookup_empty; done.
  - intros id an; rewrite lookup_empty; done.
  - intros l; split; [done|]. intros (r & (n & E & _) & _). cbn in E. by rewrite lookup_empty in E.
  - intros name. by rewrite !lookup_empty.
  - intros name. by rewrite !lookup_empty.
  - intros l [? E]. by rewrite lookup_empty in E.
  - constructor; cbn.
    + intros r r' (n & E & _). cbn in E. by rewrite lookup_empty in E.
    + intros c p (n & E & _). cbn in E. by rewrite lookup_empty in E.
    + intros c [n E]. cbn in E. by rewrite lookup_empty in E.
    + intros n id. by rewrite lookup_empty.
    + intros n id. by rewrite lookup_empty.
Qed.

(** ** Changing branches and tags only *)
Lemma repr_branches t a m m' : repr t a →
  (∀ name, m !! name = m' !! name ≫= get t) → (∀ n id, m' !! n = Some id → has a id) →
  repr (set_branches t m) (put_branches a m').
Proof.
  intros R Hm Hok. destruct R as [R1 R2 R3 R4 R5 R6 R7]. constructor; cbn; auto.
  - intros id an E. destruct (R2 _ _ E) as (l & n & ? & [? ? ? ? ? ?]). exists l, n. split; [done|]. by constructor.
  - destruct R7. by constructor.
Qed.
Lemma repr_tags t a m m' : repr t a →
  (∀ name, m !! name = m' !! name ≫= get t) → (∀ n id, m' !! n = Some id → has a id) →
  repr (set_tags t m) (put_tags a m').
Proof.
  intros R Hm Hok. destruct R as [R1 R2 R3 R4 R5 R6 R7]. constructor; cbn; auto.
  - intros id an E. destruct (R2 _ _ E) as (l & n & ? & [? ? ? ? ? ?]). exists l, n. split; [done|]. by constructor.
  - destruct R7. by constructor.
Qed.

Lemma insert_get (t : tstate) (m : gmap bytes loc) (m' : gmap bytes uid) (name : bytes) id l :
  (∀ n : bytes, m !! n = m' !! n ≫= get t) → get t id = Some l →
  ∀ n : bytes, <[name := l]> m !! n = <[name := id]> m' !! n ≫= get t.
Proof.
  intros H E n. destruct (decide (n = name)) as [->|]; [by rewrite !lookup_insert|].
  by rewrite !lookup_insert_ne.
Qed.
Lemma delete_get (t : tstate) (m : gmap bytes loc) (m' : gmap bytes uid) (name : bytes) :
  (∀ n : bytes, m !! n = m' !! n ≫= get t) →
  ∀ n : bytes, delete name m !! n = delete name m' !! n ≫= get t.
Proof.
  intros H n. destruct (decide (n = name)) as [->|]; [by rewrite !lookup_delete|].
  by rewrite !lookup_delete_ne.
Qed.
Lemma insert_has (a : atree) (m' : gmap bytes uid) (name : bytes) id :
  (∀ n x, m' !! n = Some x → has a x) → has a id → ∀ n x, <[name := id]> m' !! n = Some x → has a x.
Proof. intros H Hid n x [[<- <-]|[? ?]]%lookup_insert_Some; eauto. Qed.
Lemma delete_has (a : atree) (m' : gmap bytes uid) (name : bytes) :
  (∀ n x, m' !! n = Some x → has a x) → ∀ n x, delete name m' !! n = Some x → has a x.
Proof. intros H n x [? ?]%lookup_delete_Some; eauto. Qed.

(** ** Changing the annotations and data of one node *)
Lemma put_parent_of a id an an' c p : a_nodes a !! id = Some an → an_parent an' = an_parent an →
  parent_of (put_node a id an') c p ↔ parent_of a c p.
Proof.
  intros E P. unfold parent_of; cbn. destruct (decide (c = id)) as [->|].
  - rewrite lookup_insert. split; intros (n & H & Hp).
    + injection H as <-. exists an. split; [done|congruence].
    + exists an'. split; [done|congruence].
  - by rewrite lookup_insert_ne.
Qed.
Lemma put_is_root a id an an' r : a_nodes a !! id = Some an → an_parent an' = an_parent an →
  is_root (put_node a id an') r ↔ is_root a r.
Proof.
  intros E P. unfold is_root; cbn. destruct (decide (r = id)) as [->|].
  - rewrite lookup_insert. split; intros (n & H & Hp).
    + injection H as <-. exists an. split; [done|congruence].
    + exists an'. split; [done|congruence].
  - by rewrite lookup_insert_ne.
Qed.
Lemma put_has a id an an' x : a_nodes a !! id = Some an → has (put_node a id an') x ↔ has a x.
Proof.
  intros E. unfold has; cbn. destruct (decide (x = id)) as [->|].
  - rewrite lookup_insert, E. split; eauto.
  - by rewrite lookup_insert_ne.
Qed.
Lemma put_rooted a id an an' : rooted a → a_nodes a !! id = Some an → an_parent an' = an_parent an →
  rooted (put_node a id an').
Proof.
  intros R E P. constructor.
  - intros r r'. rewrite !(put_is_root a id an an') by done. apply R.
  - intros c p. rewrite (put_parent_of a id an an'), (put_has a id an an') by done. apply R.
  - intros c. rewrite (put_has a id an an') by done. intros (r & Hr & Hc)%(ro_reach _ R).
    exists r. rewrite (put_is_root a id an an') by done. split; [done|].
    unfold ancestor_or_self in *. eapply rtc_subrel; [|done]. intros x y.
    by rewrite (put_parent_of a id an an').
  - cbn. intros n x. rewrite (put_has a id an an') by done. apply R.
  - cbn. intros n x. rewrite (put_has a id an an') by done. apply R.
Qed.

Lemma repr_upd_node t a id an an' l f : repr t a →
  a_nodes a !! id = Some an → get t id = Some l → an_parent an' = an_parent an →
  (∀ n, n_id (f n) = n_id n ∧ n_parent (f n) = n_parent n ∧ n_children (f n) = n_children n) →
  (∀ n, n_anno n = an_anno an → n_anno (f n) = an_anno an') →
  (∀ n, n_data n = an_data an → n_data (f n) = an_data an') →
  repr (upd_node t l f) (put_node a id an').
Proof.
  intros R E G P F FA FD. destruct R as [R1 R2 R3 R4 R5 R6 R7] eqn:HR. 
  assert (∀ x, get (upd_node t l f) x = get t x) as Gt by done.
  constructor; cbn -[get]; auto.
  - intros k l' H. destruct (R1 _ _ H) as (x & ? & Hh). exists x. split; [done|]. by apply (put_has a id an an').
  - intros x anx Hx. destruct (decide (x = id)) as [->|Ne].
    + rewrite lookup_insert in Hx. injection Hx as <-.
      destruct (R2 _ _ E) as (l' & n & G' & [A1 A2 A3 A4 A5 A6]).
      rewrite G in G'. injection G' as <-. exists l, (f n). split; [done|].
      destruct (F n) as (F1 & F2 & F3). constructor; cbn -[get].
      * unfold node_at in *. cbn. by rewrite lookup_alter, A1.
      * by rewrite F1.
      * auto.
      * auto.
      * rewrite F2, A5, P. done.
      * intros k c. rewrite F3, A6. by setoid_rewrite (put_parent_of a id an an').
    + rewrite lookup_insert_ne in Hx by done. destruct (R2 _ _ Hx) as (l' & n & G' & [A1 A2 A3 A4 A5 A6]).
      exists l', n. split; [done|]. constructor; cbn -[get]; auto.
      * unfold node_at in *. cbn. rewrite lookup_alter_ne; [done|]. intros <-. destruct Ne.
        eapply (get_inj t a x id l); [done|done|done].
      * intros k c. rewrite A6. by setoid_rewrite (put_parent_of a id an an').
  - intros l'. rewrite R3. by setoid_rewrite (put_is_root a id an an').
  - intros l' [n Hl]. apply R6. rewrite lookup_alter_Some in Hl.
    destruct Hl as [(<- & n' & ? & _)|(_ & ?)]; eauto.
  - by eapply put_rooted.
Qed.

(** ** Adding a node *)
Lemma update_indexes_leaf t l n : node_at t l = Some n → n_children n = ∅ →
  update_indexes t l = Ok (set_nodes t (<[uid_hex (n_id n) := l]> (t_nodes t))).
Proof.
  intros E C. unfold update_indexes. 
  assert (∃ s, size (t_heap t) = S s) as [s ->].
  { destruct (size (t_heap t)) as [|s] eqn:Es; [|eauto]. apply map_size_empty_inv in Es.
    unfold node_at in E. rewrite Es, lookup_empty in E. done. }
  cbn [update_indexes_loop]. rewrite E, C. rewrite map_to_list_empty. reflexivity.
Qed.

Lemma add_rooted a id p : rooted a → ¬ has a id →
  match p with None => ∀ r, ¬ is_root a r | Some q => has a q end →
  rooted (put_node a id (ANode p ∅ ∅)).
Proof.
  intros R Hn Hp.
  assert (∀ c q, parent_of a c q → parent_of (put_node a id (ANode p ∅ ∅)) c q) as M.
  { intros c q (n & E & Q). exists n. cbn. rewrite lookup_insert_ne; [done|]. intros <-. destruct Hn. by exists n. }
  assert (∀ c, has a c → has (put_node a id (ANode p ∅ ∅)) c) as H1.
  { intros c [n E]. unfold has; cbn. destruct (decide (c = id)) as [->|]; [rewrite lookup_insert; eauto|].
    rewrite lookup_insert_ne by done. eauto. }
  assert (∀ r, is_root a r → is_root (put_node a id (ANode p ∅ ∅)) r) as H2.
  { intros r (n & E & Q). exists n. cbn. rewrite lookup_insert_ne; [done|]. intros <-. destruct Hn. by exists n. }
  assert (∀ r, is_root (put_node a id (ANode p ∅ ∅)) r → is_root a r ∨ (r = id ∧ p = None)) as H3.
  { intros r (n & E & Q). cbn in E. destruct (decide (r = id)) as [->|].
    - rewrite lookup_insert in E. injection E as <-. by right.
    - rewrite lookup_insert_ne in E by done. left. by exists n. }
  constructor.
  - intros r r' [Hr|[-> Hq]]%H3 [Hr'|[-> Hq']]%H3; [by apply R| | |done].
    + subst p. by destruct (Hp r).
    + subst p. by destruct (Hp r').
  - intros c q (n & E & Q). cbn in E. destruct (decide (c = id)) as [->|].
    + rewrite lookup_insert in E. injection E as <-. cbn in Q. subst p. auto.
    + rewrite lookup_insert_ne in E by done. apply H1, (ro_parent _ R c q). by exists n.
  - intros c Hc. assert (has a c ∨ c = id) as [Hc'| ->].
    { destruct Hc as [n E]. cbn in E. destruct (decide (c = id)) as [->|]; [by right|].
      rewrite lookup_insert_ne in E by done. left. by exists n. }
    + destruct (ro_reach _ R _ Hc') as (r & Hr & Hrc). exists r. split; [auto|].
      eapply rtc_subrel; [|exact Hrc]. auto.
    + destruct p as [q|].
      * destruct (ro_reach _ R _ Hp) as (r & Hr & Hrc). exists r. split; [auto|].
        apply (rtc_l _ _ q).
        -- exists (ANode (Some q) ∅ ∅). cbn. by rewrite lookup_insert.
        -- eapply rtc_subrel; [|exact Hrc]. auto.
      * exists id. split; [|apply rtc_refl]. exists (ANode None ∅ ∅). cbn. by rewrite lookup_insert.
  - cbn. intros n x E. eapply H1, (ro_branch _ R), E.
  - cbn. intros n x E. eapply H1, (ro_tag _ R), E.
Qed.

(** The garbage node left by a failed AddNode changes nothing. *)
Lemma repr_alloc t a n : repr t a → repr (alloc_node t n).1 a.
Proof.
  intros R. assert (∀ l m, node_at t l = Some m → node_at (alloc_node t n).1 l = Some m) as M.
  { intros l m E. unfold node_at in *; cbn. rewrite lookup_insert_ne; [done|].
    pose proof (r_next _ _ R l ltac:(eauto)). lia. }
  destruct R as [R1 R2 R3 R4 R5 R6 R7]. constructor; auto.
  - intros id an E. destruct (R2 _ _ E) as (l & m & ? & [? ? ? ? ? ?]). exists l, m. split; [done|]. constructor; auto.
  - cbn. intros l [m [[<- <-]|[? ?]]%lookup_insert_Some]; [lia|]. specialize (R6 l ltac:(eauto)). lia.
Qed.

(** Generic insertion of a fresh leaf: [p] is the location of the parent, if any. *)
Definition grow (t : tstate) (id : uid) (pl : option loc) : tstate :=
  let l := t_next t in
  let h := match pl with
           | Some p => alter (λ n, Node (n_id n) (n_parent n) (<[uid_hex id := l]> (n_children n)) (n_anno n) (n_data n)) p (t_heap t)
           | None => t_heap t
           end in
  TState (<[l := Node id pl ∅ ∅ ∅]> h) (S l)
    (match pl with None => Some l | Some _ => t_root t end)
    (<[uid_hex id := l]> (t_nodes t)) (t_branches t) (t_tags t).

Lemma repr_grow t a id p : repr t a → ¬ has a id →
  match p with None => ∀ r, ¬ is_root a r | Some q => has a q end →
  repr (grow t id (p ≫= get t)) (put_node a id (ANode p ∅ ∅)).
Proof.
  intros R Hn Hp. set (l := t_next t). set (pl := p ≫= get t).
  set (a' := put_node a id (ANode p ∅ ∅)).
  assert (rooted a') as Ra' by (by apply add_rooted; [apply R| |]).
  assert (∀ x, get (grow t id pl) x = if decide (x = id) then Some l else get t x) as Gt.
  { intros x. unfold get; cbn. destruct (decide (x = id)) as [->|]; [by rewrite lookup_insert|].
    rewrite lookup_insert_ne; [done|]. intros E%uid_hex_inj. congruence. }
  assert (∀ x l', get t x = Some l' → get (grow t id pl) x = Some l') as Gmono.
  { intros x l' E. rewrite Gt. rewrite decide_False; [done|]. intros ->. rewrite (get_None _ _ _ R Hn) in E. done. }
  assert (∀ x, a_nodes a' !! x = if decide (x = id) then Some (ANode p ∅ ∅) else a_nodes a !! x) as At.
  { intros x. cbn. destruct (decide (x = id)) as [->|]; [by rewrite lookup_insert|by rewrite lookup_insert_ne]. }
  assert (∀ c q, parent_of a' c q ↔ (c = id ∧ p = Some q) ∨ parent_of a c q) as Pt.
  { intros c q. unfold parent_of. rewrite At. destruct (decide (c = id)) as [->|Ne].
    - split.
      + intros (n & [= <-] & E). left. done.
      + intros [[_ ->]|(n & E & _)]; [by eexists|]. destruct Hn. by exists n.
    - split; [by right|]. intros [[? _]|?]; [done|done]. }
  assert (match pl with Some q => q < l | None => True end) as Hpl.
  { unfold pl. destruct p as [q|]; [|done]. cbn. destruct (get t q) eqn:E; [|done]. by eapply get_lt. }
  assert (is_Some pl ↔ is_Some p) as Hsome.
  { unfold pl. destruct p as [q|]; cbn; [|split; intros [? [=]]].
    destruct (get_Some _ _ _ R Hp) as (? & ? & ? & -> & _). split; eauto. }
  destruct R as [R1 R2 R3 R4 R5 R6 R7] eqn:HR. clear HR.
  constructor.
  - intros k l' H. cbn in H. rewrite lookup_insert_Some in H. destruct H as [[<- <-]|[Hne H]].
    + exists id. split; [done|]. unfold has. rewrite At, decide_True by done. eauto.
    + destruct (R1 _ _ H) as (x & -> & Hx). exists x. split; [done|].
      unfold has. rewrite At. destruct (decide (x = id)); eauto.
  - intros x anx. rewrite At. destruct (decide (x = id)) as [->|Ne].
    + intros [= <-]. exists l, (Node id pl ∅ ∅ ∅). rewrite Gt, decide_True by done. split; [done|].
      constructor; cbn -[get]; auto.
      * unfold node_at; cbn. by rewrite lookup_insert.
      * unfold pl. destruct p as [q|]; [|done]. cbn -[get grow]. rewrite Gt.
        rewrite decide_False; [done|]. intros ->. done.
      * intros k c. rewrite lookup_empty. split; [done|]. intros (cid & -> & Hc & _).
        apply Pt in Hc as [[-> ->]|Hc].
        -- done.
        -- destruct Hn. by eapply (ro_parent _ R7).
    + intros E. destruct (R2 _ _ E) as (l' & n & G' & [A1 A2 A3 A4 A5 A6]).
      assert (l' < l) as Hl' by (by eapply get_lt).
      assert (n_parent n = an_parent anx ≫= get (grow t id pl)) as HP.
      { rewrite A5. destruct (an_parent anx) as [q|] eqn:Eq; [|done]. cbn -[get grow].
        rewrite Gt, decide_False; [done|]. intros ->. destruct Hn. apply (ro_parent _ R7 x). by exists anx. }
      destruct (decide (Some l' = pl)) as [Epl|Npl].
      * (* the parent *)
        exists l', (Node (n_id n) (n_parent n) (<[uid_hex id := l]> (n_children n)) (n_anno n) (n_data n)).
        split; [auto|]. constructor; cbn -[get grow]; auto.
        -- unfold node_at, grow; cbn. rewrite <-Epl. rewrite lookup_insert_ne by lia.
           rewrite lookup_alter. unfold node_at in A1. by rewrite A1.
        -- assert (p = Some x) as ->.
           { unfold pl in Epl. destruct p as [q|]; [|done]. cbn in Epl. f_equal. eapply (get_inj t a); [done|symmetry; exact Epl|done]. }
           intros k c. rewrite lookup_insert_Some, A6. split.
           ++ intros [[<- <-]|[Hne (cid & -> & Hc & Hg)]].
              ** exists id. rewrite Gt, decide_True by done. split; [done|]. split; [|done]. apply Pt. by left.
              ** exists cid. split; [done|]. split; [apply Pt; by right|]. by apply Gmono.
           ++ intros (cid & -> & [[-> _]|Hc]%Pt & Hg).
              ** left. rewrite Gt, decide_True in Hg by done. injection Hg as <-. done.
              ** right. assert (cid ≠ id) as Hne.
                 { intros ->. destruct Hc as (m & Em & _). destruct Hn. by exists m. }
                 rewrite Gt, decide_False in Hg by done.
                 split; [intros Eq%uid_hex_inj; congruence|]. exists cid. done.
      * exists l', n. split; [auto|]. constructor; cbn -[get grow]; auto.
        -- unfold node_at, grow; cbn. rewrite lookup_insert_ne by lia.
           destruct pl as [q|]; [|done]. rewrite lookup_alter_ne; [done|]. congruence.
        -- intros k c. rewrite A6. split.
           ++ intros (cid & -> & Hc & Hg). exists cid. split; [done|]. split; [apply Pt; by right|]. by apply Gmono.
           ++ intros (cid & -> & [[-> ->]|Hc]%Pt & Hg).
              ** destruct Npl. unfold pl. cbn. done.
              ** assert (cid ≠ id) as Hne.
                 { intros ->. destruct Hc as (m & Em & _). destruct Hn. by exists m. }
                 rewrite Gt, decide_False in Hg by done. exists cid. done.
  - (* root *)
    intros l'. cbn -[get]. destruct pl as [q|] eqn:Epl.
    + destruct (proj1 Hsome) as [q' ->]; [eauto|].
      rewrite R3. split; intros (r & Hr & Hg).
      * exists r. split; [|by apply Gmono]. destruct Hr as (m & Em & ?). exists m. rewrite At, decide_False; [done|].
        intros ->. destruct Hn. by exists m.
      * exists r. destruct Hr as (m & Em & Hm). rewrite At in Em. destruct (decide (r = id)) as [->|].
        -- injection Em as <-. done.
        -- split; [by exists m|]. rewrite Gt, decide_False in Hg; done.
    + assert (p = None) as ->. { destruct p; [|done]. destruct (proj2 Hsome) as [? [=]]. eauto. }
      split.
      * intros [= <-]. exists id. split; [|by rewrite Gt, decide_True]. exists (ANode None ∅ ∅).
        rewrite At, decide_True by done. done.
      * intros (r & (m & Em & Hm) & Hg). rewrite At in Em. destruct (decide (r = id)) as [->|].
        -- rewrite Gt, decide_True in Hg by done. done.
        -- destruct (Hp r). by exists m.
  - intros name. cbn -[get grow]. rewrite R4. destruct (a_branches a !! name) as [x|] eqn:E; [|done].
    cbn -[get grow]. rewrite Gt, decide_False; [done|]. intros ->. destruct Hn. by eapply (ro_branch _ R7).
  - intros name. cbn -[get grow]. rewrite R5. destruct (a_tags a !! name) as [x|] eqn:E; [|done].
    cbn -[get grow]. rewrite Gt, decide_False; [done|]. intros ->. destruct Hn. by eapply (ro_tag _ R7).
  - cbn. intros l' [m Em]. fold l. rewrite lookup_insert_Some in Em. destruct Em as [[<- _]|[_ Em]]; [unfold l; lia|].
    assert (is_Some (t_heap t !! l')) as Hs.
    { destruct pl; [|eauto]. rewrite lookup_alter_Some in Em. destruct Em as [(<- & ? & ? & _)|[_ ?]]; eauto. }
    specialize (R6 _ Hs). unfold l. lia.
  - done.
Qed.

Lemma add_node_fresh t a id p : repr t a → ¬ has a id →
  add_node (alloc_node t (new_node id)).1 p (alloc_node t (new_node id)).2 =
  match p with
  | None => match t_root t with Some _ => Err ERootExists | None => Ok (grow t id None) end
  | Some q => match get t q with None => Err EParentNotFound | Some pl => Ok (grow t id (Some pl)) end
  end.
Proof.
  intros R Hn. destruct p as [q|]; unfold add_node; cbn [fst snd alloc_node].
  - cbn [t_nodes]. unfold get. destruct (t_nodes t !! uid_hex q) as [pl|] eqn:E; [|done].
    assert (pl < t_next t) as Hlt by (eapply get_lt; [done|exact E]).
    assert (node_children (alloc_node t (new_node id)).1 pl !! uid_hex id = None) as Hc.
    { destruct (get_Some' t a q pl R E) as (an & n & Ea & [A1 A2 A3 A4 A5 A6]).
      unfold node_children. unfold node_at in *. cbn. rewrite lookup_insert_ne by lia. rewrite A1. cbn.
      destruct (n_children n !! uid_hex id) as [c|] eqn:Ec; [|done].
      apply A6 in Ec as (cid & Eq & (m & Em & _) & _). apply uid_hex_inj in Eq as ->. destruct Hn. by exists m. }
    unfold node_id, node_at. cbn [t_heap]. rewrite lookup_insert. cbn [fmap option_fmap option_map new_node n_id].
    unfold add_child. cbn [alloc_node fst] in Hc. rewrite Hc.
    rewrite decide_False by (intros [? [=]]). cbn [fst].
    erewrite update_indexes_leaf.
    2:{ unfold node_at, set_parent, upd_node. cbn. rewrite lookup_alter, lookup_alter_ne by lia.
        rewrite lookup_insert. reflexivity. }
    2:{ reflexivity. }
    f_equal. unfold grow, set_nodes, set_parent, upd_node, set_heap. cbn. f_equal.
    rewrite alter_insert_ne by lia. rewrite alter_insert. reflexivity.
  - cbn [t_root]. destruct (t_root t); [done|]. erewrite update_indexes_leaf.
    2:{ unfold node_at, set_root. cbn. rewrite lookup_insert. reflexivity. }
    2:{ reflexivity. }
    reflexivity.
Qed.

(** ** Refinement of every call *)
Lemma branch_head t a name h : repr t a → t_branches t !! name = Some h →
  ∃ id, a_branches a !! name = Some id ∧ get t id = Some h.
Proof. intros R E. rewrite (r_br _ _ R) in E. destruct (a_branches a !! name); [eauto|done]. Qed.

Lemma get_br_None t a name : repr t a → t_branches t !! name = None → a_branches a !! name = None.
Proof.
  intros R E. rewrite (r_br _ _ R) in E. destruct (a_branches a !! name) as [id|] eqn:Eb; [|done].
  destruct (get_Some _ _ _ R (ro_branch _ (r_ok _ _ R) _ _ Eb)) as (? & ? & ? & G & _). cbn in E. congruence.
Qed.
Lemma get_tag_None t a name : repr t a → t_tags t !! name = None → a_tags a !! name = None.
Proof.
  intros R E. rewrite (r_tag _ _ R) in E. destruct (a_tags a !! name) as [id|] eqn:Eb; [|done].
  destruct (get_Some _ _ _ R (ro_tag _ (r_ok _ _ R) _ _ Eb)) as (? & ? & ? & G & _). cbn in E. congruence.
Qed.

Lemma has_dec a id : has a id ∨ ¬ has a id.
Proof. destruct (decide (has a id)); auto. Qed.

Lemma repr_same_branches t a name l id : repr t a → a_branches a !! name = Some id → get t id = Some l →
  set_branches t (<[name := l]> (t_branches t)) = t ∧ put_branches a (<[name := id]> (a_branches a)) = a.
Proof.
  intros R E G. split.
  - rewrite insert_id; [by destruct t|]. rewrite (r_br _ _ R), E. done.
  - rewrite insert_id by done. by destruct a.
Qed.

Lemma run_call_refines t a c : repr t a → fresh_call a c →
  ∃ t' a' r, run_call t c = Ok (t', r) ∧ tspec a c a' r ∧ repr t' a'.
Proof.
  intros R F. destruct c as [p id|name id|name|name id|name id force|name|id k v|id m|id k v|id m]; cbn [run_call].
  - (* AddNode *)
    cbn in F. pose proof (add_node_fresh t a id p R F) as HA.
    destruct (alloc_node t (new_node id)) as [t1 l] eqn:Eal. cbn [fst snd] in HA. rewrite HA.
    assert (repr t1 a) as R1. { pose proof (repr_alloc t a (new_node id) R) as H. by rewrite Eal in H. }
    destruct p as [q|].
    + destruct (get t q) as [pl|] eqn:Eq.
      * exists (grow t id (Some pl)), (put_node a id (ANode (Some q) ∅ ∅)), TOk.
        split; [done|]. pose proof (get_has t a q pl R Eq) as Hq. split; [by constructor|].
        pose proof (repr_grow t a id (Some q) R F Hq) as H. cbn in H. by rewrite Eq in H.
      * exists t1, a, (TErr EParentNotFound). split; [done|]. split; [|done]. constructor.
        intros Hq. destruct (get_Some _ _ _ R Hq) as (? & ? & ? & ? & _). congruence.
    + destruct (t_root t) as [rl|] eqn:Er.
      * exists t1, a, (TErr ERootExists). split; [done|]. split; [|done].
        apply (r_root _ _ R) in Er as (r & Hr & _). by econstructor.
      * assert (∀ r, ¬ is_root a r) as Hno.
        { intros r Hr. destruct (get_Some t a r R) as (l' & ? & ? & G & _).
          { destruct Hr as (n & E & _). by exists n. }
          assert (t_root t = Some l') as H by (apply (r_root _ _ R); eauto). congruence. }
        exists (grow t id None), (put_node a id (ANode None ∅ ∅)), TOk. split; [done|].
        split; [by constructor|]. apply (repr_grow t a id None R F Hno).
  - (* AddTag *)
    unfold add_tag. change (t_nodes t !! uid_hex id) with (get t id). destruct (get t id) as [l|] eqn:E.
    + eexists _, _, _. split; [reflexivity|]. pose proof (get_has _ _ _ _ R E) as Hid. split; [by constructor|].
      apply repr_tags; [done|by apply insert_get; [apply R|]|]. apply insert_has; [|done]. apply R.
    + eexists _, _, _. split; [reflexivity|]. split; [|done]. constructor. intros H.
      destruct (get_Some _ _ _ R H) as (? & ? & ? & ? & _). congruence.
  - (* DeleteTag *)
    unfold delete_tag. destruct (t_tags t !! name) as [l|] eqn:E.
    + rewrite (r_tag _ _ R) in E. destruct (a_tags a !! name) as [x|] eqn:Ea; [|done].
      eexists _, _, _. split; [reflexivity|]. split; [by econstructor|].
      apply repr_tags; [done|apply delete_get, R|apply delete_has, R].
    + eexists _, _, _. split; [reflexivity|]. split; [|done]. constructor. by eapply get_tag_None.
  - (* AddBranch *)
    unfold add_branch. change (t_nodes t !! uid_hex id) with (get t id). destruct (get t id) as [l|] eqn:E.
    + eexists _, _, _. split; [reflexivity|]. pose proof (get_has _ _ _ _ R E) as Hid. split; [by constructor|].
      apply repr_branches; [done|by apply insert_get; [apply R|]|]. apply insert_has; [|done]. apply R.
    + eexists _, _, _. split; [reflexivity|]. split; [|done]. constructor. intros H.
      destruct (get_Some _ _ _ R H) as (? & ? & ? & ? & _). congruence.
  - (* UpdateBranch *)
    unfold update_branch. change (t_nodes t !! uid_hex id) with (get t id). destruct (get t id) as [l|] eqn:E.
    2:{ eexists _, _, _. split; [reflexivity|]. split; [|done]. constructor. intros H.
        destruct (get_Some _ _ _ R H) as (? & ? & ? & ? & _). congruence. }
    pose proof (get_has _ _ _ _ R E) as Hid.
    destruct (t_branches t !! name) as [h|] eqn:Eb.
    2:{ eexists _, _, _. split; [reflexivity|]. split; [|done]. constructor; [done|]. by eapply get_br_None. }
    destruct (branch_head _ _ _ _ R Eb) as (hid & Ea & Gh).
    destruct (get_Some' _ _ _ _ R E) as (an & n & Han & N). destruct (get_Some' _ _ _ _ R Gh) as (hn & m & Hhn & M).
    unfold node_id. rewrite (ni_at _ _ _ _ _ _ N), (ni_at _ _ _ _ _ _ M). cbn [fmap option_fmap option_map].
    rewrite (ni_id _ _ _ _ _ _ N), (ni_id _ _ _ _ _ _ M).
    assert (repr (set_branches t (<[name := l]> (t_branches t))) (put_branches a (<[name := id]> (a_branches a)))) as RB.
    { apply repr_branches; [done|by apply insert_get; [apply R|]|]. apply insert_has; [|done]. apply R. }
    destruct (decide (uid_hex hid = uid_hex id)) as [Eq|Ne].
    { apply uid_hex_inj in Eq as ->. destruct (repr_same_branches t a name l id R Ea E) as [E1 E2].
      exists t, a, TOk. split; [done|]. split; [|done].
      assert (tspec a (TUpdateBranch name id force) (put_branches a (<[name := id]> (a_branches a))) TOk) as HS.
      { apply (s_upd_ok a name id force id); [done|done|]. right. apply rtc_refl. }
      by rewrite E2 in HS. }
    destruct force.
    { eexists _, _, _. split; [reflexivity|]. split; [|done]. econstructor; eauto. }
    destruct (chain_exists a id (r_ok _ _ R) Hid) as [ch Hch].
    rewrite <-E, (connected_spec t a id ch hid) by (try done; pose proof (chain_heap_size _ _ _ _ R Hch); lia).
    destruct (bool_decide (hid ∈ ch)) eqn:Ed.
    + apply bool_decide_eq_true in Ed. eexists _, _, _. split; [reflexivity|]. split; [|done].
      econstructor; eauto. right. by eapply chain_anc.
    + apply bool_decide_eq_false in Ed. eexists _, _, _. split; [reflexivity|]. split; [|done].
      econstructor; eauto. intros H. by apply Ed, (chain_anc _ _ _ _ Hch).
  - (* DeleteBranch *)
    unfold delete_branch. destruct (t_branches t !! name) as [l|] eqn:E.
    + rewrite (r_br _ _ R) in E. destruct (a_branches a !! name) as [x|] eqn:Ea; [|done].
      eexists _, _, _. split; [reflexivity|]. split; [by econstructor|].
      apply repr_branches; [done|apply delete_get, R|apply delete_has, R].
    + eexists _, _, _. split; [reflexivity|]. split; [|done]. constructor. by eapply get_br_None.
  - unfold on_node. destruct (get t id) as [l|] eqn:E.
    + destruct (get_Some' _ _ _ _ R E) as (an & n & Han & N).
      eexists _, _, _. split; [reflexivity|]. split; [by constructor|].
      eapply repr_upd_node; cbn; eauto. intros ? ->; done.
    + eexists _, _, _. split; [reflexivity|]. split; [|done]. constructor. intros H.
      destruct (get_Some _ _ _ R H) as (? & ? & ? & ? & _). congruence.
  - unfold on_node. destruct (get t id) as [l|] eqn:E.
    + destruct (get_Some' _ _ _ _ R E) as (an & n & Han & N).
      eexists _, _, _. split; [reflexivity|]. split; [by constructor|].
      eapply repr_upd_node; cbn; eauto.
    + eexists _, _, _. split; [reflexivity|]. split; [|done]. constructor. intros H.
      destruct (get_Some _ _ _ R H) as (? & ? & ? & ? & _). congruence.
  - unfold on_node. destruct (get t id) as [l|] eqn:E.
    + destruct (get_Some' _ _ _ _ R E) as (an & n & Han & N).
      eexists _, _, _. split; [reflexivity|]. split; [by constructor|].
      eapply repr_upd_node; cbn; eauto. intros ? ->; done.
    + eexists _, _, _. split; [reflexivity|]. split; [|done]. constructor. intros H.
      destruct (get_Some _ _ _ R H) as (? & ? & ? & ? & _). congruence.
  - unfold on_node. destruct (get t id) as [l|] eqn:E.
    + destruct (get_Some' _ _ _ _ R E) as (an & n & Han & N).
      eexists _, _, _. split; [reflexivity|]. split; [by constructor|].
      eapply repr_upd_node; cbn; eauto.
    + eexists _, _, _. split; [reflexivity|]. split; [|done]. constructor. intros H.
      destruct (get_Some _ _ _ R H) as (? & ? & ? & ? & _). congruence.
Qed.
