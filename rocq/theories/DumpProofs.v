(** * DumpProofs: Dump then Load gives the same tree (C16); what Load accepts (C17). *)
From Verif Require Import Base Uid UidProofs Tree SpecTree TreeRefine TreeObs Dump.
From Coq Require Import Lia.
From stdpp Require Import prelude gmap.

(** [nd] describes commit [id] of [a] with all its descendants. *)
Inductive describes (a : atree) : uid → ndump → Prop :=
  | describes_intro id an cids cs :
      a_nodes a !! id = Some an → NoDup cids → (∀ c, c ∈ cids ↔ parent_of a c id) →
      Forall2 (describes a) cids cs →
      describes a id (ND (uid_hex id) cs (an_anno an) (an_data an)).

Lemma describes_id a id nd : describes a id nd → nd_id nd = uid_hex id.
Proof. by inversion 1. Qed.

(** ** Dump *)
Lemma repr_id (t : tstate) a id l : repr t a → get t id = Some l → node_id t l = Some id.
Proof. intros R G. exact (sh_id _ _ _ _ (repr_shows _ _ _ _ R G)). Qed.
Arguments node_id : simpl never.
Lemma res_mapM_Forall2 {A B C} (f : A → res B) (P : C → B → Prop) (l : list A) (cs : list C) :
  Forall2 (λ x c, ∃ y, f x = Ok y ∧ P c y) l cs → ∃ ys, res_mapM f l = Ok ys ∧ Forall2 P cs ys.
Proof.
  induction 1 as [|x c l cs (y & E & Hy) _ (ys & E' & Hys)]; [exists []; auto|].
  exists (y :: ys). cbn. rewrite E, E'. auto.
Qed.

Lemma dump_node_describes (t : tstate) a e : repr t a → dumpenv_ok e →
  ∀ fuel id l ch, get t id = Some l → chain a id ch → size (t_heap t) < fuel + length ch →
  ∃ nd, dump_node fuel t e l = Ok nd ∧ describes a id nd.
Proof.
  intros R He. induction fuel as [|fuel IH]; intros id l ch G Hch Hf.
  { pose proof (chain_heap_size _ _ _ _ R Hch). lia. }
  destruct (get_Some' _ _ _ _ R G) as (an & n & E & N). cbn [dump_node].
  rewrite (ni_at _ _ _ _ _ _ N).
  set (kcs := de_children e l (map_to_list (n_children n))).
  assert (∀ k c, (k, c) ∈ kcs ↔ n_children n !! k = Some c) as Hkcs.
  { intros k c. unfold kcs. rewrite (He l). apply elem_of_map_to_list. }
  assert (NoDup kcs.*1) as Hnd.
  { unfold kcs. rewrite (He l). apply NoDup_fst_map_to_list. }
  (* the child ids, in iteration order *)
  set (cids := (λ kc, default id (node_id t kc.2)) <$> kcs).
  assert (∀ k c, (k, c) ∈ kcs → ∃ cid, node_id t c = Some cid ∧ k = uid_hex cid ∧ parent_of a cid id ∧ get t cid = Some c) as Hc.
  { intros k c Hin. apply Hkcs in Hin. apply (ni_children _ _ _ _ _ _ N) in Hin as (cid & -> & Hp & Gc).
    exists cid. split; [by eapply repr_id|done]. }
  destruct (res_mapM_Forall2 (λ kc, dump_node fuel t e kc.2) (describes a) kcs cids) as (cs & Ecs & Hcs).
  { unfold cids. apply Forall2_fmap_r. apply Forall_Forall2_diag. apply Forall_forall.
    intros [k c] Hin. destruct (Hc _ _ Hin) as (cid & Eid & -> & Hp & Gc). cbn. rewrite Eid. cbn.
    apply (IH cid c (cid :: ch)); [done|by econstructor|cbn; lia]. }
  rewrite Ecs. eexists. split; [reflexivity|].
  rewrite (ni_id _ _ _ _ _ _ N), (ni_anno _ _ _ _ _ _ N), (ni_data _ _ _ _ _ _ N).
  apply (describes_intro a id an cids cs); [done| | |done].
  - unfold cids. apply (NoDup_fmap_1 uid_hex). 
    replace (uid_hex <$> ((λ kc, default id (node_id t kc.2)) <$> kcs)) with (kcs.*1); [done|].
    rewrite <-list_fmap_compose. apply list_fmap_ext. intros i [k c] Hi.
    destruct (Hc k c) as (cid & Eid & -> & _); [by eapply elem_of_list_lookup_2|]. cbn. by rewrite Eid.
  - intros c. unfold cids. rewrite elem_of_list_fmap. split.
    + intros ([k l'] & -> & Hin). destruct (Hc _ _ Hin) as (cid & Eid & _ & Hp & _). cbn. by rewrite Eid.
    + intros Hp. assert (has a c) as Hh by (destruct Hp as (x & Ex & _); by exists x).
      destruct (get_Some t a c R Hh) as (cl & ? & m & Gc & _ & M).
      exists (uid_hex c, cl). split.
      * cbn. by rewrite (repr_id _ _ _ _ R Gc).
      * apply Hkcs, (ni_children _ _ _ _ _ _ N). eauto.
Qed.

Lemma dump_names_spec (t : tstate) (m : gmap bytes loc) (m' : gmap bytes uid) nil a : repr t a →
  (∀ name, m !! name = m' !! name ≫= get t) → (∀ n id, m' !! n = Some id → has a id) →
  default ∅ (dump_names t nil m) = uid_hex <$> m'.
Proof.
  intros R Hm Hh. unfold dump_names.
  assert (omap (λ l, uid_hex <$> node_id t l) m = uid_hex <$> m') as E.
  { apply map_eq. intros n. rewrite lookup_omap, lookup_fmap, Hm.
    destruct (m' !! n) as [id|] eqn:En; [|done]. cbn.
    destruct (get_Some t a id R (Hh _ _ En)) as (l & ? & ? & G & _). rewrite G. cbn.
    by rewrite (repr_id _ _ _ _ R G). }
  destruct (decide _) as [[-> _]|]; cbn [default from_option].
  - rewrite <-E. by rewrite omap_empty.
  - done.
Qed.

(** What Dump returns for a represented tree. *)
Lemma dump_spec (t : tstate) a e : repr t a → dumpenv_ok e →
  ∃ d, dump t e = Ok d ∧
    default ∅ (d_branches d) = uid_hex <$> a_branches a ∧
    default ∅ (d_tags d) = uid_hex <$> a_tags a ∧
    match d_nodes d with
    | None => a_nodes a = ∅
    | Some nd => ∃ r, is_root a r ∧ describes a r nd
    end.
Proof.
  intros R He. unfold dump. destruct (t_root t) as [rl|] eqn:Er.
  - apply (r_root _ _ R) in Er as (r & Hr & G).
    destruct (dump_node_describes t a e R He (S (size (t_heap t))) r rl [r] G ltac:(by constructor)) as (nd & E & Hd); [lia|].
    rewrite E. eexists; split; [reflexivity|]. cbn.
    split; [eapply dump_names_spec; [done|apply R|apply R]|].
    split; [eapply dump_names_spec; [done|apply R|apply R]|]. eauto.
  - eexists; split; [reflexivity|]. cbn.
    split; [eapply dump_names_spec; [done|apply R|apply R]|].
    split; [eapply dump_names_spec; [done|apply R|apply R]|].
    by apply (ob_root_none _ _ (repr_observes _ _ R)).
Qed.

(** ** Load *)

(** Adding a fresh node with annotations and data = adding it, then setting both. *)
Definition put_full (a : atree) (id : uid) (p : option uid) (anno : gmap bytes bytes) (data : gmap bytes (option bytes)) : atree :=
  put_node a id (ANode p anno data).

Definition grow_full (t : tstate) (id : uid) (pl : option loc) anno data : tstate :=
  upd_node (grow t id pl) (t_next t) (λ n, Node (n_id n) (n_parent n) (n_children n) anno data).

Lemma repr_grow_full (t : tstate) a id p anno data : repr t a → ¬ has a id →
  match p with None => ∀ r, ¬ is_root a r | Some q => has a q end →
  repr (grow_full t id (p ≫= get t) anno data) (put_full a id p anno data).
Proof.
  intros R Hn Hp. pose proof (repr_grow t a id p R Hn Hp) as RG.
  replace (put_full a id p anno data) with (put_node (put_node a id (ANode p ∅ ∅)) id (ANode p anno data)).
  2:{ unfold put_full, put_node. cbn. by rewrite insert_insert. }
  apply (repr_upd_node _ _ id (ANode p ∅ ∅)); [exact RG| | |reflexivity|done|done|done].
  - cbn. by rewrite lookup_insert.
  - unfold get, grow. cbn. by rewrite lookup_insert.
Qed.

(** [add_node] of a freshly allocated leaf. *)
Lemma add_node_fresh_full (t : tstate) a id p anno data : repr t a → ¬ has a id →
  let '(t1, l) := alloc_node t (Node id None ∅ anno data) in
  add_node t1 p l =
  match p with
  | None => match t_root t with Some _ => Err ERootExists | None => Ok (grow_full t id None anno data) end
  | Some q => match get t q with None => Err EParentNotFound | Some pl => Ok (grow_full t id (Some pl) anno data) end
  end.
Proof.
  intros R Hn. cbn [alloc_node]. destruct p as [q|]; unfold add_node.
  - cbn [t_nodes]. unfold get. destruct (t_nodes t !! uid_hex q) as [pl|] eqn:E; [|done].
    assert (pl < t_next t) as Hlt by (eapply get_lt; [done|exact E]).
    assert (node_children (alloc_node t (Node id None ∅ anno data)).1 pl !! uid_hex id = None) as Hc.
    { destruct (get_Some' t a q pl R E) as (an & n & Ea & [A1 A2 A3 A4 A5 A6]).
      unfold node_children. unfold node_at in *. cbn. rewrite lookup_insert_ne by lia. rewrite A1. cbn.
      destruct (n_children n !! uid_hex id) as [c|] eqn:Ec; [|done].
      apply A6 in Ec as (cid & Eq & (m & Em & _) & _). apply uid_hex_inj in Eq as ->. destruct Hn. by exists m. }
    unfold node_id, node_at. cbn [t_heap]. rewrite lookup_insert. cbn [fmap option_fmap option_map n_id].
    unfold add_child. cbn [alloc_node fst] in Hc. rewrite Hc.
    rewrite decide_False by (intros [? [=]]). cbn [fst].
    erewrite update_indexes_leaf.
    2:{ unfold node_at, set_parent, upd_node. cbn. rewrite lookup_alter, lookup_alter_ne by lia.
        rewrite lookup_insert. reflexivity. }
    2:{ reflexivity. }
    f_equal. unfold grow_full, grow, set_nodes, set_parent, upd_node, set_heap. cbn. f_equal.
    rewrite alter_insert_ne by lia. rewrite !alter_insert. reflexivity.
  - cbn [t_root]. destruct (t_root t); [done|]. erewrite update_indexes_leaf.
    2:{ unfold node_at, set_root. cbn. rewrite lookup_insert. reflexivity. }
    2:{ reflexivity. }
    f_equal. unfold grow_full, grow, set_nodes, set_root, upd_node, set_heap. cbn. f_equal.
    rewrite alter_insert. reflexivity.
Qed.

(** Partial trees: the nodes of [a'] are nodes of [a]; no branches and tags yet. *)
Definition part (a' a : atree) : Prop := a_nodes a' ⊆ a_nodes a ∧ a_branches a' = ∅ ∧ a_tags a' = ∅.

Lemma part_has a' a x : part a' a → has a' x → has a x.
Proof. intros [H _] [n E]. exists n. by eapply lookup_weaken. Qed.
Lemma part_parent a' a c p : part a' a → parent_of a' c p → parent_of a c p.
Proof. intros [H _] (n & E & P). exists n. split; [by eapply lookup_weaken|done]. Qed.
Lemma part_parent_inv a' a c p : part a' a → has a' c → parent_of a c p → parent_of a' c p.
Proof.
  intros [H _] [m Em] (n & E & P). exists m. split; [done|].
  rewrite (lookup_weaken _ _ _ _ Em H) in E. congruence.
Qed.

Lemma part_grow a' a id an : part a' a → a_nodes a !! id = Some an →
  part (put_full a' id (an_parent an) (an_anno an) (an_data an)) a.
Proof.
  intros [H1 [H2 H3]] E. split; [|done]. cbn. apply insert_subseteq_l; [|done]. rewrite E. by destruct an.
Qed.

(** Loading the children of one item. *)
Lemma load_children_spec (t : tstate) a' a pid : ∀ cids cs,
  repr t a' → part a' a → has a' pid →
  Forall2 (describes a) cids cs → NoDup cids → (∀ c, c ∈ cids → parent_of a c pid ∧ ¬ has a' c) →
  ∃ t' a'', load_children t pid cs = Ok t' ∧ repr t' a'' ∧ part a'' a ∧
    (∀ x, has a'' x ↔ has a' x ∨ x ∈ cids).
Proof.
  intros cids cs R P Hp HF. revert t a' R P Hp. induction HF as [|cid nd cids cs Hd HF IH]; intros t a' R P Hpid Hnd Hc.
  { exists t, a'. split; [done|]. split; [done|]. split; [done|]. intros x. rewrite elem_of_nil. tauto. }
  apply NoDup_cons in Hnd as [Hni Hnd].
  destruct (Hc cid ltac:(by left)) as [Hcp Hcn].
  inversion Hd as [? an gcids gcs Ea _ _ _ E1 E2]; subst. clear Hd.
  assert (an_parent an = Some pid) as Ep. { destruct Hcp as (m & Em & Pm). congruence. }
  cbn [load_children nd_id]. rewrite decode_hex_hex. cbn [dump_new_node].
  pose proof (add_node_fresh_full t a' cid (Some pid) (an_anno an) (an_data an) R Hcn) as HA.
  destruct (alloc_node t _) as [t1 l]. rewrite HA.
  destruct (get_Some t a' pid R Hpid) as (pl & an0 & n0 & Gp & _). rewrite Gp.
  pose proof (repr_grow_full t a' cid (Some pid) (an_anno an) (an_data an) R Hcn Hpid) as RG.
  cbn [mbind option_bind] in RG. rewrite Gp in RG. rewrite <-Ep in RG.
  assert (∀ x, has (put_full a' cid (an_parent an) (an_anno an) (an_data an)) x ↔ has a' x ∨ x = cid) as Hh.
  { intros x. unfold has; cbn. destruct (decide (x = cid)) as [->|].
    - rewrite lookup_insert. split; eauto.
    - rewrite lookup_insert_ne by done. naive_solver. }
  destruct (IH _ _ RG (part_grow _ _ _ _ P Ea)) as (t' & a'' & EL & R' & P' & H').
  { apply Hh. by left. }
  { done. }
  { intros c Hin. destruct (Hc c ltac:(by right)) as [? Hn']. split; [done|]. rewrite Hh. intros [?| ->]; done. }
  exists t', a''. split; [done|]. split; [done|]. split; [done|].
  intros x. rewrite H', Hh, elem_of_cons. tauto.
Qed.

(** The queue loop. *)
Lemma describes_children a id nd : describes a id nd →
  ∃ cids, NoDup cids ∧ (∀ c, c ∈ cids ↔ parent_of a c id) ∧ Forall2 (describes a) cids (nd_children nd).
Proof. inversion 1; subst. eauto. Qed.
Definition q_size (q : list ndump) : nat := sum_list (map nd_size q).
Lemma q_size_app q1 q2 : q_size (q1 ++ q2) = q_size q1 + q_size q2.
Proof. unfold q_size. rewrite map_app. induction q1; cbn; lia. Qed.
Lemma nd_size_eq nd : nd_size nd = S (q_size (nd_children nd)).
Proof. by destruct nd. Qed.

Lemma load_queue_spec a : rooted a → ∀ fuel t a' ids q,
  repr t a' → part a' a → Forall2 (describes a) ids q → NoDup ids →
  (∀ id, id ∈ ids → has a' id) →
  (∀ id c, id ∈ ids → parent_of a c id → ¬ has a' c) →
  (∀ x, has a x → has a' x ∨ ∃ id, id ∈ ids ∧ ancestor_or_self a id x) →
  q_size q ≤ fuel →
  ∃ t' a'', load_queue fuel t q = Ok t' ∧ repr t' a'' ∧ a_nodes a'' = a_nodes a ∧ a_branches a'' = ∅ ∧ a_tags a'' = ∅.
Proof.
  intros RA. induction fuel as [|fuel IH]; intros t a' ids q R P HF Hnd Hin Hfresh Hcov Hf.
  - destruct HF as [|id nd ids q Hd HF].
    2:{ exfalso. unfold q_size in Hf. cbn in Hf. rewrite nd_size_eq in Hf. lia. }
    exists t, a'. split; [done|]. split; [done|]. destruct P as (P1 & P2 & P3). split; [|done].
    apply (anti_symm (⊆)); [done|]. apply map_subseteq_spec. intros x n Ex.
    destruct (Hcov x ltac:(by exists n)) as [[m Em]|(id & Hi & _)]; [|by apply elem_of_nil in Hi].
    rewrite (lookup_weaken _ _ _ _ Em P1) in Ex. congruence.
  - destruct HF as [|id nd ids q Hd HF].
    { exists t, a'. split; [done|]. split; [done|]. destruct P as (P1 & P2 & P3). split; [|done].
      apply (anti_symm (⊆)); [done|]. apply map_subseteq_spec. intros x n Ex.
      destruct (Hcov x ltac:(by exists n)) as [[m Em]|(id & Hi & _)]; [|by apply elem_of_nil in Hi].
      rewrite (lookup_weaken _ _ _ _ Em P1) in Ex. congruence. }
    cbn [load_queue]. rewrite (describes_id _ _ _ Hd), decode_hex_hex.
    destruct (describes_children _ _ _ Hd) as (cids & Cnd & Cin & CF).
    destruct (load_children_spec t a' a id cids (nd_children nd) R P) as (t' & a'' & EL & R' & P' & H').
    { apply Hin. by left. } { done. } { done. }
    { intros c Hc%Cin. split; [done|]. apply (Hfresh id); [by left|done]. }
    rewrite EL. apply NoDup_cons in Hnd as [Hni Hnd].
    apply (IH t' a'' (ids ++ cids)); auto.
    + by apply Forall2_app.
    + apply NoDup_app. split; [done|]. split; [|done]. intros x Hx Hc.
      apply (Hfresh id x); [by left|by apply Cin|]. apply Hin. by right.
    + intros x. rewrite elem_of_app, H'. intros [Hx|Hx]; [|by right]. left. apply Hin. by right.
    + intros x c Hx Hp. rewrite H'. intros [Hc|Hc].
      * (* c already there before *)
        rewrite elem_of_app in Hx. destruct Hx as [Hx|Hx].
        -- revert Hc. apply (Hfresh x); [by right|done].
        -- apply (Hfresh id x); [by left|by apply Cin|].
           pose proof (part_parent_inv _ _ _ _ P Hc Hp) as Hp'. by apply (ro_parent _ (r_ok _ _ R) c).
      * (* c is a child of id *)
        apply Cin in Hc. pose proof (parent_of_det _ _ _ _ Hp Hc) as ->.
        rewrite elem_of_app in Hx. destruct Hx as [Hx|Hx]; [done|].
        apply (Hfresh id id); [by left|by apply Cin|]. apply Hin. by left.
    + intros x Hx. destruct (Hcov x Hx) as [Hx'|(i & Hi & Hanc)].
      { left. apply H'. by left. }
      apply elem_of_cons in Hi as [->|Hi].
      2:{ right. exists i. split; [|done]. apply elem_of_app. by left. }
      unfold ancestor_or_self in Hanc. apply rtc_inv_r in Hanc as [->|(c & Hc & Hp)].
      * left. apply H'. left. apply Hin. by left.
      * right. exists c. split; [|exact Hc]. apply elem_of_app. right. by apply Cin.
    + rewrite q_size_app. unfold q_size in Hf. cbn in Hf. rewrite nd_size_eq in Hf. unfold q_size in *. lia.
Qed.

(** Branches and tags *)
Definition ins {V} (l : list (bytes * V)) (m : gmap bytes V) : gmap bytes V :=
  foldl (λ m kv, <[kv.1 := kv.2]> m) m l.
Lemma ins_lookup {V} (l : list (bytes * V)) (m : gmap bytes V) k v : NoDup l.*1 →
  ins l m !! k = Some v ↔ (k, v) ∈ l ∨ (k ∉ l.*1 ∧ m !! k = Some v).
Proof.
  revert m. induction l as [|[k' v'] l IH]; intros m Hnd; cbn.
  { rewrite elem_of_nil. set_solver. }
  cbn in Hnd. apply NoDup_cons in Hnd as [Hni Hnd]. unfold ins in *. rewrite IH by done.
  rewrite !elem_of_cons. rewrite lookup_insert_Some. split.
  - intros [H|[H [[<- <-]|[Hne H']]]]; [by auto|by auto|]. right. split; [|done]. intros [->|?]; done.
  - intros [[[= -> ->]|H]|[H H']]; [|by auto|].
    + right. split; [done|]. by left.
    + right. split; [tauto|]. right. split; [|done]. intros ->. tauto.
Qed.
Lemma ins_map {V} (l : list (bytes * V)) (m : gmap bytes V) : l ≡ₚ map_to_list m → ins l ∅ = m.
Proof.
  intros H. assert (NoDup l.*1) as Hnd. { rewrite H. apply NoDup_fst_map_to_list. }
  apply map_eq. intros k. apply option_eq. intros v. rewrite ins_lookup by done.
  rewrite H, elem_of_map_to_list, lookup_empty. naive_solver.
Qed.

Lemma load_names_branches (t : tstate) a : ∀ l (ids : list (bytes * uid)),
  l = (λ kv, (kv.1, uid_hex kv.2)) <$> ids → Forall (λ kv, has a kv.2) ids → repr t a →
  ∃ t', load_names add_branch t l = Ok t' ∧ repr t' (put_branches a (ins ids (a_branches a))).
Proof.
  intros l ids ->. revert t a. induction ids as [|[k id] ids IH]; intros t a HF R; cbn [load_names fmap list_fmap fst snd].
  { exists t. split; [done|]. cbn. by destruct a. }
  apply Forall_cons_1 in HF as [Hid HF]. rewrite decode_hex_hex. cbn in Hid.
  destruct (run_call_refines t a (TAddBranch k id) R I) as (t1 & a1 & r & E & S & R1).
  inversion S; subst; [|done]. cbn [run_call] in E.
  destruct (add_branch t k id) as [t2| | | |]; try discriminate. injection E as ->.
  destruct (IH t1 (put_branches a (<[k:=id]> (a_branches a))) HF R1) as (t' & E' & R'). exists t'. split; [done|].
  unfold put_branches in *. cbn in *. done.
Qed.
Lemma load_names_tags (t : tstate) a : ∀ l (ids : list (bytes * uid)),
  l = (λ kv, (kv.1, uid_hex kv.2)) <$> ids → Forall (λ kv, has a kv.2) ids → repr t a →
  ∃ t', load_names add_tag t l = Ok t' ∧ repr t' (put_tags a (ins ids (a_tags a))).
Proof.
  intros l ids ->. revert t a. induction ids as [|[k id] ids IH]; intros t a HF R; cbn [load_names fmap list_fmap fst snd].
  { exists t. split; [done|]. cbn. by destruct a. }
  apply Forall_cons_1 in HF as [Hid HF]. rewrite decode_hex_hex. cbn in Hid.
  destruct (run_call_refines t a (TAddTag k id) R I) as (t1 & a1 & r & E & S & R1).
  inversion S; subst; [|done]. cbn [run_call] in E.
  destruct (add_tag t k id) as [t2| | | |]; try discriminate. injection E as ->.
  destruct (IH t1 (put_tags a (<[k:=id]> (a_tags a))) HF R1) as (t' & E' & R'). exists t'. split; [done|].
  unfold put_tags in *. cbn in *. done.
Qed.


(** A permutation of an image is the image of a permutation. *)
Lemma perm_of_fmap {A B} (f : A → B) (l : list A) (l' : list B) : l' ≡ₚ f <$> l → ∃ l0, l' = f <$> l0 ∧ l0 ≡ₚ l.
Proof. intros H. apply Permutation_map_inv in H as (l0 & -> & H). exists l0. split; [done|]. by symmetry. Qed.

(** ** C16 *)
Lemma load_describes a d ordb ordt :
  rooted a → (∀ l, ordb l ≡ₚ l) → (∀ l, ordt l ≡ₚ l) →
  default ∅ (d_branches d) = uid_hex <$> a_branches a →
  default ∅ (d_tags d) = uid_hex <$> a_tags a →
  match d_nodes d with
  | None => a_nodes a = ∅
  | Some nd => ∃ r, is_root a r ∧ describes a r nd
  end →
  ∃ t', load ordb ordt d = Ok t' ∧ repr t' a.
Proof.
  intros RA Hb Ht Db Dt Dn. unfold load. destruct (d_nodes d) as [nd|].
  - destruct Dn as (r & Hr & Hd). rewrite (describes_id _ _ _ Hd), decode_hex_hex.
    inversion Hd as [? an cids cs Ea Hnd Hc HF]; subst. cbn [dump_new_node].
    assert (an_parent an = None) as Ep. { destruct Hr as (m & Em & Pm). congruence. }
    assert (¬ has empty_atree r) as Hne. { intros [n E]. cbn in E. by rewrite lookup_empty in E. }
    assert (∀ x, ¬ is_root empty_atree x) as Hnr. { intros x (n & E & _). cbn in E. by rewrite lookup_empty in E. }
    pose proof (add_node_fresh_full new_tree empty_atree r None (an_anno an) (an_data an) repr_new Hne) as HA.
    destruct (alloc_node new_tree _) as [t1 l]. rewrite HA. cbn [t_root new_tree].
    pose proof (repr_grow_full new_tree empty_atree r None (an_anno an) (an_data an) repr_new Hne Hnr) as RG.
    cbn [mbind option_bind] in RG. rewrite <-Ep in RG.
    set (a1 := put_full empty_atree r (an_parent an) (an_anno an) (an_data an)) in *.
    assert (∀ x, has a1 x ↔ x = r) as Hh1.
    { intros x. unfold has, a1; cbn. destruct (decide (x = r)) as [->|].
      - rewrite lookup_insert. split; eauto.
      - rewrite lookup_insert_ne, lookup_empty by done. split; [intros [? ?]; done|done]. }
    destruct (load_queue_spec a RA (nd_size (ND (uid_hex r) cs (an_anno an) (an_data an)))
      (grow_full new_tree r None (an_anno an) (an_data an)) a1 [r] [ND (uid_hex r) cs (an_anno an) (an_data an)])
      as (t3 & a3 & EL & R3 & N3 & B3 & T3).
    { done. }
    { apply (part_grow empty_atree a r an); [|done]. split; [|done]. apply map_empty_subseteq. }
    { by constructor. } { apply NoDup_singleton. }
    { intros id ->%elem_of_list_singleton. by apply Hh1. }
    { intros id c ->%elem_of_list_singleton Hp. rewrite Hh1. intros ->. by eapply is_root_no_parent. }
    { intros x Hx. right. exists r. split; [by left|]. destruct (ro_reach _ RA x Hx) as (r' & Hr' & Hanc).
      by rewrite (ro_unique _ RA _ _ Hr Hr'). }
    { unfold q_size; cbn; lia. }
    rewrite EL.
    assert (∀ x, has a x ↔ has a3 x) as Hh3 by (intros x; unfold has; by rewrite N3).
    unfold names_list. rewrite Db, Dt.
    assert (ordb (map_to_list (uid_hex <$> a_branches a)) ≡ₚ (λ kv : bytes * uid, (kv.1, uid_hex kv.2)) <$> map_to_list (a_branches a)) as Pb.
    { rewrite Hb, map_to_list_fmap. apply Permutation_refl'. apply list_fmap_ext. by intros ? [] ?. }
    assert (ordt (map_to_list (uid_hex <$> a_tags a)) ≡ₚ (λ kv : bytes * uid, (kv.1, uid_hex kv.2)) <$> map_to_list (a_tags a)) as Pt.
    { rewrite Ht, map_to_list_fmap. apply Permutation_refl'. apply list_fmap_ext. by intros ? [] ?. }
    apply perm_of_fmap in Pb as (idsb & Eb & Pb). apply perm_of_fmap in Pt as (idst & Et & Pt).
    destruct (load_names_branches t3 a3 _ idsb Eb) as (t4 & E4 & R4); [|done|].
    { apply Forall_forall. intros [k id] Hin. rewrite Pb in Hin. apply elem_of_map_to_list in Hin. cbn.
      apply Hh3. by eapply (ro_branch _ RA). }
    rewrite E4. rewrite B3, (ins_map _ _ Pb) in R4.
    destruct (load_names_tags t4 (put_branches a3 (a_branches a)) _ idst Et) as (t5 & E5 & R5); [|done|].
    { apply Forall_forall. intros [k id] Hin. rewrite Pt in Hin. apply elem_of_map_to_list in Hin. cbn.
      apply Hh3. by eapply (ro_tag _ RA). }
    rewrite E5. exists t5. split; [done|]. cbn in R5. rewrite T3, (ins_map _ _ Pt) in R5.
    unfold put_tags, put_branches in R5. cbn in R5. rewrite N3 in R5. by destruct a.
  - exists new_tree. split; [done|].
    assert (∀ x, ¬ has a x) as Hn. { intros x [n E]. rewrite Dn, lookup_empty in E. done. }
    assert (a_branches a = ∅) as HB.
    { apply map_empty. intros n. destruct (a_branches a !! n) as [id|] eqn:E; [|done].
      destruct (Hn id). by eapply (ro_branch _ RA). }
    assert (a_tags a = ∅) as HT.
    { apply map_empty. intros n. destruct (a_tags a !! n) as [id|] eqn:E; [|done].
      destruct (Hn id). by eapply (ro_tag _ RA). }
    replace a with empty_atree; [apply repr_new|]. destruct a; cbn in *; by subst.
Qed.

Lemma dump_load (t : tstate) a e ordb ordt : repr t a → dumpenv_ok e → (∀ l, ordb l ≡ₚ l) → (∀ l, ordt l ≡ₚ l) →
  ∃ d t', dump t e = Ok d ∧ load ordb ordt d = Ok t' ∧ repr t' a.
Proof.
  intros R He Hb Ht. destruct (dump_spec t a e R He) as (d & E & Db & Dt & Dn).
  destruct (load_describes a d ordb ordt (r_ok _ _ R) Hb Ht Db Dt Dn) as (t' & EL & R').
  eauto.
Qed.

(** ** C17 *)

(** Index consistency, kept by Load even for dumps with duplicate IDs. *)
Record indexed (t : tstate) : Prop := {
  ix_nodes : ∀ k l, t_nodes t !! k = Some l → ∃ n, node_at t l = Some n ∧ uid_hex (n_id n) = k;
  ix_next : ∀ l, is_Some (t_heap t !! l) → l < t_next t;
  ix_br : ∀ name l, t_branches t !! name = Some l → ∃ id, get t id = Some l;
  ix_tag : ∀ name l, t_tags t !! name = Some l → ∃ id, get t id = Some l }.

Lemma indexed_new : indexed new_tree.
Proof. constructor; cbn; intros; try (by rewrite lookup_empty in *). destruct H as [? H]. by rewrite lookup_empty in H. Qed.

Definition ids_in (t : tstate) : list uid → Prop := Forall (λ id, is_Some (get t id)).

(** Adding a freshly allocated leaf to an indexed tree, whatever its ID. No branches yet. *)
Lemma add_node_indexed t id p anno data :
  indexed t → t_branches t = ∅ → t_tags t = ∅ →
  let '(t1, l) := alloc_node t (Node id None ∅ anno data) in
  match add_node t1 p l with
  | Ok t' => indexed t' ∧ t_branches t' = ∅ ∧ t_tags t' = ∅ ∧
             (∀ x, is_Some (get t' x) ↔ is_Some (get t x) ∨ x = id) ∧
             match p with None => t_root t = None | Some q => is_Some (get t q) end
  | Err _ => True
  | _ => False
  end.
Proof.
  intros [I1 I2 _ _] HB HT. cbn [alloc_node].
  assert (∀ (h : gmap loc node) pl, h !! t_next t = Some (Node id pl ∅ anno data) →
     (∀ l n, t_heap t !! l = Some n → ∃ n', h !! l = Some n' ∧ n_id n' = n_id n) →
     (∀ l, is_Some (h !! l) → l < S (t_next t)) →
     ∀ rt, indexed (TState h (S (t_next t)) rt (<[uid_hex id := t_next t]> (t_nodes t)) ∅ ∅)) as K.
  { intros h pl Hh Hm Hn rt. constructor; cbn.
    - intros k l. rewrite lookup_insert_Some. intros [[<- <-]|[Hne Hk]].
      + eexists. split; [exact Hh|done].
      + destruct (I1 _ _ Hk) as (n & E & Ek). destruct (Hm _ _ E) as (n' & E' & Eid). exists n'. split; [done|]. by rewrite Eid.
    - done.
    - intros ? ?. by rewrite lookup_empty.
    - intros ? ?. by rewrite lookup_empty. }
  assert (∀ h rt x, is_Some (get (TState h (S (t_next t)) rt (<[uid_hex id := t_next t]> (t_nodes t)) ∅ ∅) x) ↔ is_Some (get t x) ∨ x = id) as G.
  { intros h rt x. unfold get; cbn. destruct (decide (x = id)) as [->|Ne].
    - rewrite lookup_insert. split; eauto.
    - rewrite lookup_insert_ne; [|intros E%uid_hex_inj; congruence]. naive_solver. }
  destruct p as [q|]; unfold add_node; cbn [t_nodes t_root].
  - destruct (t_nodes t !! uid_hex q) as [pl|] eqn:Eq; [|done].
    destruct (I1 _ _ Eq) as (pn & Epn & Ehex). pose proof (I2 pl ltac:(eauto)) as Hlt.
    unfold node_id, node_at. cbn [t_heap]. rewrite lookup_insert. cbn [fmap option_fmap option_map n_id].
    erewrite update_indexes_leaf.
    2:{ unfold add_child. destruct (decide _); unfold node_at, set_parent, upd_node; cbn.
        - rewrite lookup_alter, lookup_insert. reflexivity.
        - rewrite lookup_alter, lookup_alter_ne by lia. rewrite lookup_insert. reflexivity. }
    2:{ reflexivity. }
    cbn [n_id]. unfold set_nodes, set_parent, upd_node, add_child.
    destruct (decide _) as [Hd|Hd]; cbn; rewrite HB, HT.
    + split; [|split; [done|split; [done|split; [apply G|unfold get; rewrite Eq; eauto]]]].
      apply (K _ (Some pl)).
      * by rewrite lookup_alter, lookup_insert.
      * intros l n E. exists n. pose proof (I2 l ltac:(eauto)). rewrite lookup_alter_ne, lookup_insert_ne by lia. done.
      * intros l [n Hl]. rewrite lookup_alter_Some in Hl. destruct Hl as [(<- & _)|(_ & Hl)]; [lia|].
        rewrite lookup_insert_Some in Hl. destruct Hl as [[<- _]|[_ Hl]]; [lia|]. specialize (I2 l ltac:(eauto)). lia.
    + split; [|split; [done|split; [done|split; [apply G|unfold get; rewrite Eq; eauto]]]].
      apply (K _ (Some pl)).
      * rewrite lookup_alter, lookup_alter_ne by lia. by rewrite lookup_insert.
      * intros l n E. pose proof (I2 l ltac:(eauto)). rewrite lookup_alter_ne by lia.
        destruct (decide (l = pl)) as [->|].
        -- rewrite lookup_alter, lookup_insert_ne by lia. rewrite E. cbn. eauto.
        -- rewrite lookup_alter_ne, lookup_insert_ne by lia. eauto.
      * intros l [n Hl]. rewrite lookup_alter_Some in Hl. destruct Hl as [(<- & _)|(_ & Hl)]; [lia|].
        rewrite lookup_alter_Some in Hl. destruct Hl as [(<- & _)|(_ & Hl)]; [lia|].
        rewrite lookup_insert_Some in Hl. destruct Hl as [[<- _]|[_ Hl]]; [lia|]. specialize (I2 l ltac:(eauto)). lia.
  - destruct (t_root t) eqn:Er; [done|]. erewrite update_indexes_leaf.
    2:{ unfold node_at, set_root. cbn. rewrite lookup_insert. reflexivity. }
    2:{ reflexivity. }
    unfold set_nodes, set_root. cbn. rewrite HB, HT.
    split; [|split; [done|split; [done|split; [apply G|done]]]].
    apply (K _ None).
    + by rewrite lookup_insert.
    + intros l n E. exists n. pose proof (I2 l ltac:(eauto)). rewrite lookup_insert_ne by lia. done.
    + intros l [n Hl]. rewrite lookup_insert_Some in Hl. destruct Hl as [[<- _]|[_ Hl]]; [lia|]. specialize (I2 l ltac:(eauto)). lia.
Qed.

Lemma decode_hex_no_panic s : (∃ u, decode_hex s = Ok u) ∨ (∃ e, decode_hex s = Err e).
Proof. destruct (decode_hex_err s) as [[_ ?]|[_ ?]]; auto. Qed.

(** IDs written in a dump: the direct children of a list of items. *)
Definition child_ids (q : list ndump) : list bytes := nd_id <$> q.

Lemma load_children_total pid cs : ∀ t, indexed t → t_branches t = ∅ → t_tags t = ∅ →
  match load_children t pid cs with
  | Ok t' => indexed t' ∧ t_branches t' = ∅ ∧ t_tags t' = ∅ ∧
      Forall (λ c, ∃ id, decode_hex (nd_id c) = Ok id) cs ∧
      (∀ x, is_Some (get t' x) ↔ is_Some (get t x) ∨ ∃ c, c ∈ cs ∧ decode_hex (nd_id c) = Ok x)
  | Err _ => True
  | _ => False
  end.
Proof.
  induction cs as [|c cs IH]; intros t HI HB HT; cbn [load_children].
  { split; [done|]. split; [done|]. split; [done|]. split; [constructor|]. intros x. set_solver. }
  destruct (decode_hex_no_panic (nd_id c)) as [[cid E]|[e E]]; rewrite E; [|done].
  destruct c as [cid' ccs anno data]. cbn [dump_new_node nd_id] in *.
  pose proof (add_node_indexed t cid (Some pid) anno data HI HB HT) as HA.
  destruct (alloc_node t _) as [t1 l]. destruct (add_node t1 (Some pid) l) as [t2| | | |]; try done.
  destruct HA as (HI2 & HB2 & HT2 & HG & _). specialize (IH t2 HI2 HB2 HT2).
  destruct (load_children t2 pid cs) as [t3| | | |]; try done.
  destruct IH as (? & ? & ? & HF & HG3). split; [done|]. split; [done|]. split; [done|].
  split; [constructor; eauto|]. intros x. rewrite HG3, HG. split.
  - intros [[Hx| ->]|(c & Hc & Ec)]; [by left| |].
    + right. eexists. split; [by left|done].
    + right. exists c. split; [by right|done].
  - intros [Hx|(c & [->|Hc]%elem_of_cons & Ec)]; [auto| |eauto].
    left. right. cbn in Ec. congruence.
Qed.

(** All nodes of a dump *)
Fixpoint nd_all (d : ndump) : list ndump := match d with ND _ cs _ _ => d :: flat_map nd_all cs end.
Lemma nd_all_eq d : nd_all d = d :: flat_map nd_all (nd_children d).
Proof. by destruct d. Qed.

Lemma load_queue_total : ∀ fuel q t, indexed t → t_branches t = ∅ → t_tags t = ∅ → q_size q ≤ fuel →
  match load_queue fuel t q with
  | Ok t' => indexed t' ∧ t_branches t' = ∅ ∧ t_tags t' = ∅ ∧
      Forall (λ c, ∃ id, decode_hex (nd_id c) = Ok id) (flat_map nd_all q) ∧
      (∀ x, is_Some (get t' x) ↔ is_Some (get t x) ∨
         ∃ d, d ∈ flat_map nd_all (flat_map nd_children q) ∧ decode_hex (nd_id d) = Ok x)
  | Err _ => True
  | _ => False
  end.
Proof.
  induction fuel as [|fuel IH]; intros q t HI HB HT Hf.
  { destruct q as [|d q]; [|unfold q_size in Hf; cbn in Hf; rewrite nd_size_eq in Hf; lia].
    cbn. split; [done|]. split; [done|]. split; [done|]. split; [constructor|]. set_solver. }
  destruct q as [|d q].
  { cbn. split; [done|]. split; [done|]. split; [done|]. split; [constructor|]. set_solver. }
  cbn [load_queue]. destruct (decode_hex_no_panic (nd_id d)) as [[pid E]|[e E]]; rewrite E; [|done].
  pose proof (load_children_total pid (nd_children d) t HI HB HT) as HC.
  destruct (load_children t pid (nd_children d)) as [t'| | | |]; try done.
  destruct HC as (HI' & HB' & HT' & HF' & HG').
  assert (q_size (q ++ nd_children d) ≤ fuel) as Hf'.
  { rewrite q_size_app. unfold q_size in Hf. cbn in Hf. rewrite nd_size_eq in Hf. unfold q_size in *. lia. }
  specialize (IH (q ++ nd_children d) t' HI' HB' HT' Hf').
  destruct (load_queue fuel t' (q ++ nd_children d)) as [t2| | | |]; try done.
  destruct IH as (? & ? & ? & HF & HG). split; [done|]. split; [done|]. split; [done|].
  rewrite flat_map_app in HF. split.
  - cbn [flat_map]. rewrite nd_all_eq. apply Forall_app in HF as [HF1 HF2].
    cbn [app]. constructor; [eauto|]. apply Forall_app. done.
  - intros x. rewrite HG, HG'. cbn [flat_map]. rewrite !flat_map_app. setoid_rewrite elem_of_app.
    split.
    + intros [[?|(c & Hc & Ec)]|(d' & [Hd|Hd] & Ed)]; [by left| | |].
      * right. exists c. split; [|done]. left. apply elem_of_list_In, in_flat_map. exists c.
        split; [by apply elem_of_list_In|]. rewrite nd_all_eq. by left.
      * right. eauto.
      * right. exists d'. split; [|done]. left. apply elem_of_list_In, in_flat_map.
        apply elem_of_list_In, in_flat_map in Hd as (y & Hy & Hd). apply in_flat_map in Hy as (z & Hz & Hy).
        exists z. split; [done|]. rewrite nd_all_eq. right. apply in_flat_map. eauto.
    + intros [?|(d' & [Hd|Hd] & Ed)]; [auto| |].
      * apply elem_of_list_In, in_flat_map in Hd as (c & Hc & Hd). rewrite nd_all_eq in Hd.
        destruct Hd as [->|Hd].
        -- left. right. exists d'. split; [by apply elem_of_list_In|done].
        -- right. exists d'. split; [|done]. right. apply elem_of_list_In, in_flat_map.
           apply in_flat_map in Hd as (y & Hy & Hd). exists y. split; [|done]. apply in_flat_map. eauto.
      * right. eauto.
Qed.

Lemma load_names_total (br : bool) l : ∀ t, indexed t →
  match load_names (if br then add_branch else add_tag) t l with
  | Ok t' => indexed t' ∧ (∀ x, get t' x = get t x) ∧
      (if br then t_tags t' = t_tags t else t_branches t' = t_branches t) ∧
      Forall (λ kv, ∃ id, decode_hex kv.2 = Ok id ∧ is_Some (get t id)) l
  | Err _ => True
  | _ => False
  end.
Proof.
  induction l as [|[k v] l IH]; intros t HI; cbn [load_names].
  { split; [done|]. split; [done|]. split; [by destruct br|]. constructor. }
  destruct (decode_hex_no_panic v) as [[id E]|[e E]]; rewrite E; [|done].
  assert (∀ t', (∃ lo, get t id = Some lo ∧ t' = if br then set_branches t (<[k := lo]> (t_branches t)) else set_tags t (<[k := lo]> (t_tags t))) →
    match load_names (if br then add_branch else add_tag) t' l with
    | Ok t'' => indexed t'' ∧ (∀ x, get t'' x = get t x) ∧
        (if br then t_tags t'' = t_tags t else t_branches t'' = t_branches t) ∧
        Forall (λ kv, ∃ id, decode_hex kv.2 = Ok id ∧ is_Some (get t id)) ((k, v) :: l)
    | Err _ => True | _ => False end) as K.
  { intros t' (lo & G & ->). destruct HI as [I1 I2 I3 I4]. destruct br.
    - specialize (IH (set_branches t (<[k := lo]> (t_branches t)))).
      destruct (load_names add_branch _ l) as [t2| | | |]; try (apply IH); try done;
      [destruct IH as (? & HG & ? & HF)|..].
      1: { constructor; cbn; auto. intros name l0. rewrite lookup_insert_Some. intros [[<- <-]|[_ ?]]; eauto. }
      1: { split; [done|]. split; [done|]. split; [done|]. constructor; [|done]. exists id. split; [done|]. rewrite G. eauto. }
      all: constructor; cbn; auto; intros name l0; rewrite lookup_insert_Some; intros [[<- <-]|[_ ?]]; eauto.
    - specialize (IH (set_tags t (<[k := lo]> (t_tags t)))).
      destruct (load_names add_tag _ l) as [t2| | | |]; try (apply IH); try done;
      [destruct IH as (? & HG & ? & HF)|..].
      1: { constructor; cbn; auto. intros name l0. rewrite lookup_insert_Some. intros [[<- <-]|[_ ?]]; eauto. }
      1: { split; [done|]. split; [done|]. split; [done|]. constructor; [|done]. exists id. split; [done|]. rewrite G. eauto. }
      all: constructor; cbn; auto; intros name l0; rewrite lookup_insert_Some; intros [[<- <-]|[_ ?]]; eauto. }
  destruct br; unfold add_branch, add_tag; change (t_nodes t !! uid_hex id) with (get t id);
    (destruct (get t id) as [lo|] eqn:G; [|done]); apply K; eauto.
Qed.

Lemma load_total ordb ordt d :
  match load ordb ordt d with
  | Ok t => indexed t ∧ ∀ nd, d_nodes d = Some nd →
      Forall (λ c, ∃ id, decode_hex (nd_id c) = Ok id) (nd_all nd) ∧
      (∀ x, is_Some (get t x) ↔ ∃ c, c ∈ nd_all nd ∧ decode_hex (nd_id c) = Ok x) ∧
      Forall (λ kv, ∃ id c, decode_hex kv.2 = Ok id ∧ c ∈ nd_all nd ∧ decode_hex (nd_id c) = Ok id) (ordb (names_list (d_branches d))) ∧
      Forall (λ kv, ∃ id c, decode_hex kv.2 = Ok id ∧ c ∈ nd_all nd ∧ decode_hex (nd_id c) = Ok id) (ordt (names_list (d_tags d)))
  | Err _ => True
  | _ => False
  end.
Proof.
  unfold load. destruct (d_nodes d) as [nd|]; [|split; [apply indexed_new|done]].
  destruct (decode_hex_no_panic (nd_id nd)) as [[rid E]|[e E]]; rewrite E; [|done].
  destruct nd as [nid ncs anno data] eqn:End. cbn [dump_new_node]. rewrite <-End in *.
  pose proof (add_node_indexed new_tree rid None anno data indexed_new eq_refl eq_refl) as HA.
  destruct (alloc_node new_tree _) as [t1 l]. destruct (add_node t1 None l) as [t2| | | |]; try done.
  destruct HA as (I2 & B2 & T2 & G2 & _).
  pose proof (load_queue_total (nd_size nd) [nd] t2 I2 B2 T2) as HQ.
  assert (q_size [nd] ≤ nd_size nd) as Hq by (unfold q_size; cbn; lia). specialize (HQ Hq).
  destruct (load_queue (nd_size nd) t2 [nd]) as [t3| | | |]; try done.
  destruct HQ as (I3 & B3 & T3 & F3 & G3).
  pose proof (load_names_total true (ordb (names_list (d_branches d))) t3 I3) as HB. cbn iota in HB.
  destruct (load_names add_branch t3 _) as [t4| | | |]; try done.
  destruct HB as (I4 & G4 & _ & F4).
  pose proof (load_names_total false (ordt (names_list (d_tags d))) t4 I4) as HT. cbn iota in HT.
  destruct (load_names add_tag t4 _) as [t5| | | |]; try done.
  destruct HT as (I5 & G5 & _ & F5).
  split; [done|]. intros nd' [= <-].
  assert (∀ x, is_Some (get t3 x) ↔ ∃ c, c ∈ nd_all nd ∧ decode_hex (nd_id c) = Ok x) as HH.
  { intros x. rewrite G3, G2. cbn [flat_map]. rewrite app_nil_r. split.
    - intros [[[? H]| ->]|(c & Hc & Ec)].
      + unfold get in H; cbn in H. by rewrite lookup_empty in H.
      + exists nd. split; [rewrite nd_all_eq; by left|done].
      + exists c. split; [rewrite nd_all_eq; by right|done].
    - intros (c & Hc & Ec). rewrite nd_all_eq in Hc. apply elem_of_cons in Hc as [->|Hc]; [|eauto].
      left. right. congruence. }
  split. { cbn [flat_map] in F3. by rewrite app_nil_r in F3. }
  split. { intros x. by rewrite G5, G4. }
  split.
  - eapply Forall_impl; [exact F4|]. intros kv (id & Ek & Hs). apply HH in Hs as (c & ? & ?). eauto.
  - eapply Forall_impl; [exact F5|]. intros kv (id & Ek & Hs). rewrite G4 in Hs. apply HH in Hs as (c & ? & ?). eauto.
Qed.
