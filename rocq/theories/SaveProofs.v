(** * SaveProofs: what Save writes is read back by Load. *)
From Verif Require Import Base Uid UidProofs Tree SpecTree TreeRefine TreeObs Dump DumpProofs Json JsonProofs Save SpecUid.
From Coq Require Import Lia.
From stdpp Require Import prelude gmap sorting.

Lemma sorted_entries_perm {V} (m : gmap bytes V) : sorted_entries m ≡ₚ map_to_list m.
Proof. apply merge_sort_Permutation. Qed.

(** The order of keys is a total order. *)
Lemma bytes_leb_refl x : bytes_leb x x = true.
Proof. induction x as [|a x IH]; [done|]. cbn. by rewrite N.ltb_irrefl. Qed.
Lemma bytes_leb_cases a x b y : bytes_leb (a :: x) (b :: y) = true ↔
  (b2n a < b2n b)%N ∨ a = b ∧ bytes_leb x y = true.
Proof.
  cbn. destruct (N.ltb_spec (b2n a) (b2n b)); [split; [by left|done]|].
  destruct (N.ltb_spec (b2n b) (b2n a)).
  - split; [done|]. intros [?|[-> ?]]; lia.
  - assert (a = b) as ->. { rewrite <-(ascii_N_embedding a), <-(ascii_N_embedding b). f_equal. unfold b2n in *. lia. }
    split; [by right|]. intros [?|[_ ?]]; [lia|done].
Qed.
Lemma bytes_leb_trans x y z : bytes_leb x y = true → bytes_leb y z = true → bytes_leb x z = true.
Proof.
  revert y z. induction x as [|a x IH]; intros [|b y] [|c z]; try done.
  rewrite !bytes_leb_cases. intros [?|[-> ?]] [?|[-> ?]]; [left; lia|by left|by left|right; eauto].
Qed.
Lemma bytes_leb_total x y : bytes_leb x y = true ∨ bytes_leb y x = true.
Proof.
  revert y. induction x as [|a x IH]; intros [|b y]; [by left|by left|by right|].
  rewrite !bytes_leb_cases. destruct (N.lt_trichotomy (b2n a) (b2n b)) as [?|[E|?]]; [by left; left| |by right; left].
  assert (a = b) as ->. { rewrite <-(ascii_N_embedding a), <-(ascii_N_embedding b). f_equal. exact E. }
  destruct (IH y); [left|right]; by right.
Qed.
Lemma bytes_leb_anti x y : bytes_leb x y = true → bytes_leb y x = true → x = y.
Proof.
  revert y. induction x as [|a x IH]; intros [|b y]; try done.
  rewrite !bytes_leb_cases. intros [?|[-> ?]] [?|[? ?]]; subst; try lia. f_equal. auto.
Qed.
Lemma sorted_keys_unique {V} (l1 : list (bytes * V)) : ∀ l2, l1 ≡ₚ l2 → NoDup l1.*1 →
  StronglySorted key_le l1 → StronglySorted key_le l2 → l1 = l2.
Proof.
  induction l1 as [|x l1 IH]; intros l2 P N S1 S2.
  { by apply Permutation_nil_l in P as ->. }
  destruct l2 as [|y l2]; [by apply Permutation_nil_r in P|].
  apply StronglySorted_inv in S1 as [S1 F1]. apply StronglySorted_inv in S2 as [S2 F2].
  rewrite Forall_forall in F1, F2.
  assert (x = y) as ->.
  { assert (y ∈ x :: l1) as Hy by (rewrite P; left). assert (x ∈ y :: l2) as Hx by (rewrite <-P; left).
    apply elem_of_cons in Hx as [?|Hx]; [done|]. apply elem_of_cons in Hy as [?|Hy]; [done|].
    exfalso. cbn in N. apply NoDup_cons in N as [N _]. apply N.
    assert (x.1 = y.1) as ->; [|by apply elem_of_list_fmap_1].
    apply bytes_leb_anti; [by apply F1|by apply F2]. }
  f_equal. apply IH; [by apply Permutation_cons_inv in P| |done|done]. cbn in N. by apply NoDup_cons in N as [_ N].
Qed.
Lemma sorted_entries_sorted {V} (m : gmap bytes V) : StronglySorted key_le (sorted_entries m).
Proof.
  apply StronglySorted_merge_sort.
  - intros x y z. apply bytes_leb_trans.
  - intros x y. apply bytes_leb_total.
Qed.
Lemma sorted_entries_fmap {V W} (f : V → W) (m : gmap bytes V) :
  sorted_entries (f <$> m) = prod_map id f <$> sorted_entries m.
Proof.
  apply sorted_keys_unique.
  - rewrite !sorted_entries_perm. by rewrite map_to_list_fmap.
  - rewrite sorted_entries_perm. apply NoDup_fst_map_to_list.
  - apply sorted_entries_sorted.
  - apply StronglySorted_fmap with key_le; [done|]. apply sorted_entries_sorted.
Qed.

(** Sanitizing every key and value of a map, in sorted key order (so of keys that become equal the
    one with the greatest original key wins). *)
Definition san_map {V W} (f : V → W) (m : gmap bytes V) : gmap bytes W :=
  last_wins ((λ kv, (sanitize kv.1, f kv.2)) <$> sorted_entries m).
Lemma san_map_valid {V W} (f : V → W) (m : gmap bytes V) :
  (∀ k v, m !! k = Some v → valid_utf8 k = true) → san_map f m = f <$> m.
Proof.
  intros H. unfold san_map, last_wins. 
  assert ((λ kv : bytes * V, (sanitize kv.1, f kv.2)) <$> sorted_entries m ≡ₚ map_to_list (f <$> m)) as P.
  { rewrite map_to_list_fmap, sorted_entries_perm. apply Permutation_refl'. apply list_fmap_ext.
    intros i [k v] E. apply elem_of_list_lookup_2, elem_of_map_to_list in E. unfold compose, prod_map. cbn [fst snd].
    by rewrite sanitize_valid by (by eapply H). }
  by apply ins_map in P.
Qed.

Lemma u_entries_map {V W} (f : json → option W) (g : V → json) (h : V → W) (l : list (bytes * V)) :
  (∀ v, f (jsan (g v)) = Some (h v)) →
  u_entries f (map (λ kv, (sanitize kv.1, jsan kv.2)) ((λ kv, (kv.1, g kv.2)) <$> l))
  = Some ((λ kv, (sanitize kv.1, h kv.2)) <$> l).
Proof.
  intros H. induction l as [|[k v] l IH]; [done|]. cbn [fmap list_fmap map u_entries fst snd]. rewrite H.
  cbn [fmap] in IH. rewrite IH. done.
Qed.
Lemma u_map_san {V W} (f : json → option W) (g : V → json) (h : V → W) (m : gmap bytes V) :
  (∀ v, f (jsan (g v)) = Some (h v)) →
  u_map f (Some (jsan (JObj ((λ kv, (kv.1, g kv.2)) <$> sorted_entries m)))) = Some (Some (san_map h m)).
Proof. intros H. cbn [jsan u_map]. by rewrite (u_entries_map f g h _ H). Qed.
Lemma u_str_map m : u_map u_sval (Some (jsan (j_str_map m))) = Some (Some (san_map sanitize m)).
Proof. unfold j_str_map. by apply (u_map_san u_sval JStr sanitize). Qed.
Lemma u_data_json v : u_data (jsan (j_data v)) = Some v.
Proof.
  destruct v as [b|]; [|done]. cbn. rewrite sanitize_valid by apply plain_valid, b64_encode_plain.
  by rewrite b64_round.
Qed.
Lemma u_data_map (m : gmap bytes (option bytes)) :
  u_map u_data (Some (jsan (JObj ((λ kv, (kv.1, j_data kv.2)) <$> sorted_entries m)))) = Some (Some (san_map id m)).
Proof. apply (u_map_san u_data j_data id). intros v. apply u_data_json. Qed.

(** The dump after a round through the file. *)
Fixpoint san_node (d : ndump) : ndump :=
  match d with ND i cs anno data => ND (sanitize i) (map san_node cs) (san_map sanitize anno) (san_map id data) end.
Definition san_dump (d : tdump) : tdump :=
  TDump (san_node <$> d_nodes d) (san_map sanitize <$> d_branches d) (san_map sanitize <$> d_tags d).

Section nd_ind.
  Variable P : ndump → Prop.
  Hypothesis H : ∀ i cs anno data, Forall P cs → P (ND i cs anno data).
  Fixpoint nd_ind' (d : ndump) : P d :=
    match d with
    | ND i cs anno data => H i cs anno data ((fix go l := match l return Forall P l with
        | [] => Forall_nil_2 _ | x :: l' => Forall_cons_2 _ _ _ (nd_ind' x) (go l') end) cs)
    end.
End nd_ind.

Lemma san_map_empty {V W} (f : V → W) : san_map f (∅ : gmap bytes V) = ∅.
Proof. unfold san_map, sorted_entries. by rewrite map_to_list_empty. Qed.

Lemma foldr_max_le (f : json → nat) (l : list json) j : j ∈ l → f j ≤ foldr (λ j m, f j `max` m) 0 l.
Proof. induction 1 as [j l|j j' l _ IH]; cbn; lia. Qed.

Lemma opt_mapM_map {A B C} (f : B → option C) (g : A → B) (h : A → C) (l : list A) :
  (∀ x, x ∈ l → f (g x) = Some (h x)) → opt_mapM f (map g l) = Some (map h l).
Proof.
  induction l as [|x l IH]; intros H; [done|]. cbn. rewrite H by left. rewrite IH; [done|].
  intros y Hy. apply H. by right.
Qed.
Lemma map_map' {A B C} (f : B → C) (g : A → B) (l : list A) : map f (map g l) = map (λ x, f (g x)) l.
Proof. apply map_map. Qed.

Lemma jdepth_children i cs anno data c : c ∈ cs →
  S (S (jdepth (jsan (j_node c)))) ≤ jdepth (jsan (j_node (ND i cs anno data))).
Proof.
  intros Hc. destruct cs as [|c0 cs]; [by apply elem_of_nil in Hc|].
  cbn [j_node omit_empty app jsan map jdepth foldr snd].
  assert (jdepth (jsan (j_node c)) ≤
    foldr (λ j m, jdepth j `max` m) 0 (map jsan (map j_node (c0 :: cs)))) as L.
  { apply (foldr_max_le jdepth). rewrite map_map'. apply elem_of_list_fmap. exists c. done. }
  cbn [map foldr] in L. lia.
Qed.

Lemma u_node_json d : ∀ f, jdepth (jsan (j_node d)) ≤ f → u_node f (jsan (j_node d)) = Some (san_node d).
Proof.
  induction d as [i cs anno data F] using nd_ind'. intros f Hf.
  destruct f as [|f]; [cbn in Hf; lia|].
  assert (∀ c, c ∈ cs → u_node f (jsan (j_node c)) = Some (san_node c)) as HC.
  { intros c Hc. rewrite Forall_forall in F. apply F; [done|].
    pose proof (jdepth_children i cs anno data c Hc). lia. }
  clear Hf. cbn [san_node]. cbn [j_node].
  assert (∀ l, opt_mapM (u_node f) (map jsan (map j_node cs)) = Some l → l = map san_node cs) as HM.
  { intros l. rewrite map_map'. rewrite (opt_mapM_map _ _ san_node); [congruence|done]. }
  assert (opt_mapM (u_node f) (map jsan (map j_node cs)) = Some (map san_node cs)) as HM'.
  { rewrite map_map'. by apply opt_mapM_map. }
  clear HM. set (jcs := map j_node cs) in *. 
  assert (Ha : omit_empty (map_to_list anno) (B "annotations", j_str_map anno) = [] ∧ anno = ∅ ∨
     omit_empty (map_to_list anno) (B "annotations", j_str_map anno) = [(B "annotations", j_str_map anno)]).
  { destruct (map_to_list anno) eqn:E; [|by right]. left. split; [done|]. by apply map_to_list_empty_iff. }
  set (jd := JObj ((λ kv, (kv.1, j_data kv.2)) <$> sorted_entries data)).
  assert (Hd : omit_empty (map_to_list data) (B "data", jd) = [] ∧ data = ∅ ∨
     omit_empty (map_to_list data) (B "data", jd) = [(B "data", jd)]).
  { destruct (map_to_list data) eqn:E; [|by right]. left. split; [done|]. by apply map_to_list_empty_iff. }
  assert (Hcs : omit_empty cs (B "children", JArr jcs) = [] ∧ cs = [] ∨
     omit_empty cs (B "children", JArr jcs) = [(B "children", JArr jcs)]).
  { destruct cs; [by left|by right]. }
  pose proof (u_str_map anno) as Ua. pose proof (u_data_map data) as Ud. fold jd in Ud.
  set (ja := j_str_map anno) in *. clearbody ja jd jcs.
  destruct Ha as [[-> ->]| ->], Hd as [[-> ->]| ->], Hcs as [[-> ->]| ->]; cbn [app];
    cbn [jsan map fst snd];
    change (sanitize (B "id")) with (B "id"); change (sanitize (B "children")) with (B "children");
    change (sanitize (B "annotations")) with (B "annotations"); change (sanitize (B "data")) with (B "data");
    cbn [u_node];
    repeat match goal with |- context [field_of ?k ?l] =>
      let v := eval lazy -[jsan sanitize map] in (field_of k l) in change (field_of k l) with v end;
    cbn [u_str];
    rewrite ?HM', ?Ua, ?Ud; cbn [u_map default from_option id map]; rewrite ?san_map_empty; reflexivity.
Qed.

Lemma j_node_not_null d : jsan (j_node d) ≠ JNull.
Proof. by destruct d. Qed.

Lemma unmarshal_marshal d : unmarshal_dump (marshal_dump d) = Some (san_dump d).
Proof.
  unfold unmarshal_dump, marshal_dump. rewrite parse_print. unfold j_dump. cbn [jsan map fst snd].
  change (sanitize (B "nodes")) with (B "nodes"); change (sanitize (B "branches")) with (B "branches");
  change (sanitize (B "tags")) with (B "tags"). cbn [u_dump].
  repeat match goal with |- context [field_of ?k ?l] =>
      let v := eval lazy -[jsan sanitize j_node j_opt_map d_nodes d_branches d_tags] in (field_of k l) in change (field_of k l) with v end.
  assert (∀ o, u_map u_sval (Some (jsan (j_opt_map o))) = Some (san_map sanitize <$> o)) as HO.
  { intros [m|]; [apply u_str_map|done]. }
  rewrite !HO. unfold san_dump. destruct (d_nodes d) as [n|]; [|done].
  destruct (jsan (j_node n)) as [| | |] eqn:E; try (by destruct n).
  rewrite <-E. rewrite u_node_json by done. done.
Qed.

(** ** The tree after a round through the file *)
Lemma uid_hex_plain u : Forall (λ c, (b2n c < 128)%N) (uid_hex u).
Proof.
  unfold uid_hex. eapply Forall_impl; [apply hex_encode_lower|].
  intros c Hc. unfold hex_digits_lower in Hc. 
  repeat (apply elem_of_cons in Hc as [->|Hc]; [vm_compute; reflexivity|]). by apply elem_of_nil in Hc.
Qed.
Lemma uid_hex_valid u : valid_utf8 (uid_hex u) = true.
Proof. apply plain_valid, uid_hex_plain. Qed.
Lemma sanitize_uid_hex u : sanitize (uid_hex u) = uid_hex u.
Proof. apply sanitize_valid, uid_hex_valid. Qed.

(** Every string passes through [sanitize]; commit IDs are plain ASCII and are untouched. *)
Definition san_anode (an : anode) : anode :=
  ANode (an_parent an) (san_map sanitize (an_anno an)) (san_map id (an_data an)).
Definition san_tree (a : atree) : atree :=
  ATree (san_anode <$> a_nodes a) (san_map id (a_branches a)) (san_map id (a_tags a)).

Lemma last_wins_fmap {V W} (f : V → W) (l : list (bytes * V)) :
  last_wins ((λ kv, (kv.1, f kv.2)) <$> l) = f <$> last_wins l.
Proof.
  unfold last_wins. rewrite <-(fmap_empty (M:=gmap bytes) f) at 1.
  generalize (∅ : gmap bytes V). induction l as [|[k v] l IH]; intros m; [done|].
  cbn [fmap list_fmap foldl fst snd]. rewrite <-fmap_insert. apply IH.
Qed.
Lemma san_map_hex (m : gmap bytes uid) : san_map sanitize (uid_hex <$> m) = uid_hex <$> san_map id m.
Proof.
  unfold san_map. rewrite sorted_entries_fmap, <-list_fmap_compose, <-last_wins_fmap, <-list_fmap_compose.
  f_equal. apply list_fmap_ext. intros _ [k u] _. cbn [compose prod_map fst snd].
  unfold compose, prod_map. cbn [fst snd]. by rewrite sanitize_uid_hex.
Qed.

Lemma last_wins_in {V} (l : list (bytes * V)) k v : last_wins l !! k = Some v → (k, v) ∈ l.
Proof.
  unfold last_wins. assert (∀ m : gmap bytes V, foldl (λ m kv, <[kv.1 := kv.2]> m) m l !! k = Some v →
    m !! k = Some v ∨ (k, v) ∈ l) as H.
  { induction l as [|[k' v'] l IH]; intros m; cbn; [by left|]. intros E. apply IH in E as [E|E].
    - apply lookup_insert_Some in E as [[-> ->]|[_ E]]; [right; left|by left].
    - right. by right. }
  intros E. apply H in E as [E|E]; [by rewrite lookup_empty in E|done].
Qed.
Lemma san_map_in {V W} (f : V → W) (m : gmap bytes V) k w : san_map f m !! k = Some w →
  ∃ k0 v, m !! k0 = Some v ∧ k = sanitize k0 ∧ w = f v.
Proof.
  intros E. apply last_wins_in, elem_of_list_fmap in E as ([k0 v] & Eq & Hin). cbn in Eq. injection Eq as -> ->.
  rewrite sorted_entries_perm in Hin. apply elem_of_map_to_list in Hin. eauto.
Qed.
Lemma san_map_is_Some {V W} (f : V → W) (m : gmap bytes V) k : is_Some (m !! k) → is_Some (san_map f m !! (sanitize k)).
Proof.
  intros [v E]. unfold san_map, last_wins.
  assert ((k, v) ∈ sorted_entries m) as Hin by (rewrite sorted_entries_perm; by apply elem_of_map_to_list).
  revert Hin. generalize (sorted_entries m) (∅ : gmap bytes W). intros l.
  assert (∀ l (m0 : gmap bytes W), is_Some (m0 !! sanitize k) →
    is_Some (foldl (λ m kv, <[kv.1 := kv.2]> m) m0 ((λ kv : bytes * V, (sanitize kv.1, f kv.2)) <$> l) !! sanitize k)) as K.
  { clear l. induction l as [|[k' v'] l IH]; intros m0 H; [done|].
    cbn [fmap list_fmap foldl fst snd]. apply IH.
    destruct (decide (sanitize k' = sanitize k)) as [->|N]; [rewrite lookup_insert; eauto|by rewrite lookup_insert_ne]. }
  induction l as [|[k' v'] l IH]; intros m0 Hin; [by apply elem_of_nil in Hin|].
  cbn [fmap list_fmap foldl fst snd].
  apply elem_of_cons in Hin as [Eq|Hin]; [|by apply IH]. injection Eq as -> ->.
  apply K. rewrite lookup_insert. eauto.
Qed.

Lemma san_parent a c p : parent_of (san_tree a) c p ↔ parent_of a c p.
Proof.
  unfold parent_of. cbn [san_tree a_nodes]. split.
  - intros (n & E & P). rewrite lookup_fmap in E. destruct (a_nodes a !! c) as [m|]; [|done]. injection E as <-. eauto.
  - intros (n & E & P). exists (san_anode n). by rewrite lookup_fmap, E.
Qed.
Lemma san_has a c : has (san_tree a) c ↔ has a c.
Proof. unfold has. cbn [san_tree a_nodes]. rewrite lookup_fmap. by rewrite fmap_is_Some. Qed.
Lemma san_root a c : is_root (san_tree a) c ↔ is_root a c.
Proof.
  unfold is_root. cbn [san_tree a_nodes]. split.
  - intros (n & E & P). rewrite lookup_fmap in E. destruct (a_nodes a !! c) as [m|]; [|done]. injection E as <-. eauto.
  - intros (n & E & P). exists (san_anode n). by rewrite lookup_fmap, E.
Qed.
Lemma san_anc a x c : ancestor_or_self a x c → ancestor_or_self (san_tree a) x c.
Proof.
  induction 1; [by constructor|]. econstructor; [|done]. by apply san_parent.
Qed.
Lemma san_rooted a : rooted a → rooted (san_tree a).
Proof.
  intros [U P R HB HT]. constructor.
  - intros r r'. rewrite !san_root. apply U.
  - intros c p. rewrite san_parent, san_has. apply P.
  - intros c. rewrite san_has. intros H. destruct (R c H) as (r & Hr & Ha). exists r. split; [by apply san_root|by apply san_anc].
  - intros n i E. apply san_map_in in E as (k0 & v & E & _ & ->). apply san_has. by eapply HB.
  - intros n i E. apply san_map_in in E as (k0 & v & E & _ & ->). apply san_has. by eapply HT.
Qed.
Lemma san_describes a nd : ∀ i, describes a i nd → describes (san_tree a) i (san_node nd).
Proof.
  induction nd as [s cs anno data F] using nd_ind'. intros i H.
  inversion H as [? an cids ? Ea Hnd Hc HF]; subst. cbn [san_node]. rewrite sanitize_uid_hex.
  apply (describes_intro (san_tree a) i (san_anode an) cids (map san_node cs)).
  - cbn. by rewrite lookup_fmap, Ea.
  - done.
  - intros c. rewrite san_parent. apply Hc.
  - clear -F HF. induction HF as [|c nd cids cs Hd HF IH]; [constructor|]. cbn.
    apply Forall_cons in F as [F1 F2]. constructor; auto.
Qed.

(** Save then Load: the tree comes back with every string passed through [sanitize]. *)
Lemma save_load (t : tstate) a e ordb ordt : repr t a → dumpenv_ok e →
  (∀ l, ordb l ≡ₚ l) → (∀ l, ordt l ≡ₚ l) →
  ∃ raw t', tree_bytes t e = Ok raw ∧ load_bytes ordb ordt raw = Ok t' ∧ repr t' (san_tree a).
Proof.
  intros R He Hb Ht. destruct (dump_spec t a e R He) as (d & E & Db & Dt & Dn).
  unfold tree_bytes. rewrite E. eexists. 
  destruct (load_describes (san_tree a) (san_dump d) ordb ordt) as (t' & EL & R').
  - apply san_rooted, R.
  - done.
  - done.
  - cbn [san_dump d_branches san_tree a_branches]. rewrite <-san_map_hex, <-Db.
    destruct (d_branches d); cbn; [done|by rewrite san_map_empty].
  - cbn [san_dump d_tags san_tree a_tags]. rewrite <-san_map_hex, <-Dt.
    destruct (d_tags d); cbn; [done|by rewrite san_map_empty].
  - cbn [san_dump d_nodes]. destruct (d_nodes d) as [nd|]; cbn.
    + destruct Dn as (r & Hr & Hd). exists r. split; [by apply san_root|by apply san_describes].
    + rewrite Dn. by rewrite fmap_empty.
  - exists t'. split; [reflexivity|]. split; [|done]. unfold load_bytes. by rewrite unmarshal_marshal.
Qed.

(** Strings and maps that survive. *)
Definition valid_keys {V} (m : gmap bytes V) : Prop := ∀ k v, m !! k = Some v → valid_utf8 k = true.
Definition valid_map (m : gmap bytes bytes) : Prop :=
  ∀ k v, m !! k = Some v → valid_utf8 k = true ∧ valid_utf8 v = true.
Definition valid_tree (a : atree) : Prop :=
  valid_keys (a_branches a) ∧ valid_keys (a_tags a) ∧
  ∀ i an, a_nodes a !! i = Some an → valid_map (an_anno an) ∧ valid_keys (an_data an).
Lemma san_map_id m : valid_map m → san_map sanitize m = m.
Proof.
  intros H. rewrite san_map_valid by (intros k v E; by apply (H k v)).
  apply map_eq. intros k. rewrite lookup_fmap. destruct (m !! k) as [v|] eqn:E; [|done]. cbn.
  f_equal. apply sanitize_valid. by apply (H k v).
Qed.
Lemma san_keys_id {V} (m : gmap bytes V) : valid_keys m → san_map id m = m.
Proof. intros H. rewrite san_map_valid by exact H. apply map_fmap_id. Qed.
Lemma san_tree_id a : valid_tree a → san_tree a = a.
Proof.
  intros (HB & HT & HN). destruct a as [ns bs ts]. unfold san_tree. cbn in *.
  rewrite (san_keys_id bs HB), (san_keys_id ts HT). f_equal. apply map_eq. intros i. rewrite lookup_fmap.
  destruct (ns !! i) as [an|] eqn:E; [|done]. cbn. destruct (HN i an E) as [H1 H2]. destruct an as [p m d].
  unfold san_anode. cbn in *. by rewrite san_map_id, san_keys_id.
Qed.

(** A saved file cut short at any point is rejected. *)
Lemma truncated_rejected ordb ordt d p x : marshal_dump d = p ++ x → x ≠ [] → load_bytes ordb ordt p = Err EJson.
Proof. intros E N. unfold load_bytes, unmarshal_dump. by rewrite (parse_prefix _ _ _ E N). Qed.

(** ** Workspace files *)
Definition san_wsinfo (w : wsinfo) : wsinfo :=
  WsInfo (sanitize (wi_id w)) (sanitize (wi_path w)) (sanitize (wi_head w))
         (sanitize (wi_space w)) (sanitize (wi_mount w)) (sanitize (wi_branch w)).
Lemma wsinfo_round w : unmarshal_wsinfo (marshal_wsinfo w) = Some (san_wsinfo w).
Proof.
  unfold unmarshal_wsinfo, marshal_wsinfo. rewrite parse_print. unfold j_wsinfo. cbn [jsan map fst snd].
  repeat match goal with |- context [sanitize (B ?s)] => change (sanitize (B s)) with (B s) end.
  repeat match goal with |- context [field_of ?k ?l] =>
      let v := eval lazy -[sanitize wi_id wi_path wi_head wi_space wi_mount wi_branch] in (field_of k l) in change (field_of k l) with v end.
  reflexivity.
Qed.
Lemma wsinfo_truncated w p x : marshal_wsinfo w = p ++ x → x ≠ [] → unmarshal_wsinfo p = None.
Proof. intros E N. unfold unmarshal_wsinfo. by rewrite (parse_prefix _ _ _ E N). Qed.
