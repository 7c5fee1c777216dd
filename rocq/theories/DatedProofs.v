(** * DatedProofs: every commit that something points at has a date, as long as references are names *)
From Verif Require Import Base Uid SpecUid UidProofs Tree SpecTree TreeRefine TreeObs Dump DumpProofs Json JsonProofs Save SaveProofs Branch BranchProofs Date DateProofs Ws SpecWs WsProofs
  Fs Overlay Os Layers Mounts Space Manager Commands FsProofs OsProofs LayerProofs MountProofs SpaceProofs ManagerProofs SpecWorld SpecOps SavedProofs FaultProofs ReadyProofs OpProofs CalmProofs
  SpecMachine SpecCmds SpecTidy SpecLog MachineProofs OpenProofs CmdProofs DetProofs LogProofs.
From Coq Require Import Lia.
From stdpp Require Import prelude gmap.

(** ** Dates are plain text, and plain text survives saving *)
Notation ascii_text := (Forall (λ c, (b2n c < 128)%N)).
Lemma sanitize_ascii s t : ascii_text t → sanitize s = t → s = t.
Proof.
  revert t. induction s as [|a s n E IH|a s E IH] using runes_ind; intros t Ht Hs; [done| |]; unfold sanitize in Hs.
  - rewrite (runes_cons_good _ _ _ E) in Hs. cbn [map concat san_rune] in Hs. subst t. apply Forall_app in Ht as [_ Ht].
    specialize (IH _ Ht eq_refl). rewrite <-(take_drop n (a :: s)) at 1. f_equal. exact IH.
  - rewrite (runes_cons_bad _ _ E) in Hs. subst t. cbn [map concat san_rune] in Ht. apply Forall_app in Ht as [Ht _].
    apply Forall_cons in Ht as [Ht _]. vm_compute in Ht. discriminate Ht.
Qed.
Lemma san_map_ascii {V W} (f : V → W) (m : gmap bytes V) k v : ascii_text k → m !! k = Some v → san_map f m !! k = Some (f v).
Proof.
  intros Hk E. pose proof (san_map_is_Some f m k ltac:(by eexists)) as [w Hw]. rewrite sanitize_valid in Hw by by apply plain_valid.
  rewrite Hw. apply san_map_in in Hw as (k0 & v0 & E0 & Ek & ->). symmetry in Ek. apply sanitize_ascii in Ek; [|done]. congruence.
Qed.
Lemma dig_ascii c n : dig c = Some n → (b2n c < 128)%N.
Proof. unfold dig. destruct ((48 <=? b2n c)%N && (b2n c <=? 57)%N) eqn:E; [|done]. apply andb_true_iff in E as [_ E%N.leb_le]. lia. Qed.
Lemma num2_ascii s n r : num2 s = Some (n, r) → ascii_text r → ascii_text s.
Proof.
  destruct s as [|a [|b s]]; [done..|]. cbn. destruct (dig a) eqn:Ea; [|done]. destruct (dig b) eqn:Eb; [|done]. intros [= _ ->] H.
  constructor; [by eapply dig_ascii|]. constructor; [by eapply dig_ascii|done].
Qed.
Lemma num4_ascii s n r : num4 s = Some (n, r) → ascii_text r → ascii_text s.
Proof.
  unfold num4. destruct (num2 s) as [[x s1]|] eqn:E1; [|done]. destruct (num2 s1) as [[y s2]|] eqn:E2; [|done]. intros [= _ ->] H.
  by eapply num2_ascii, num2_ascii.
Qed.
Lemma lit_ascii c s r : (b2n c < 128)%N → lit c s = Some r → ascii_text r → ascii_text s.
Proof. intros Hc. destruct s as [|a s]; [done|]. cbn. case_decide as D; [|done]. intros [= ->] H. subst a. by constructor. Qed.
Lemma zone_ascii s z : parse_zone s = Some z → ascii_text s.
Proof.
  destruct s as [|c r]; [done|]. cbn [parse_zone]. case_decide as D1.
  - destruct r; [|done]. intros _. subst c. by repeat constructor.
  - case_decide as D2; [|done]. destruct (num2 r) as [[h r1]|] eqn:E1; [|done]. cbn [mbind option_bind].
    destruct (lit ":"%char r1) as [r2|] eqn:E2; [|done]. cbn [mbind option_bind]. destruct (num2 r2) as [[m r3]|] eqn:E3; [|done]. cbn [mbind option_bind].
    destruct r3; [|done]. intros _. constructor; [by destruct D2 as [->| ->]|]. eapply num2_ascii; [exact E1|]. refine (lit_ascii _ _ _ _ E2 _); [by vm_compute|]. eapply num2_ascii; [exact E3|constructor].
Qed.
Lemma parse_ascii s d : parse_rfc3339 s = Some d → ascii_text s.
Proof.
  unfold parse_rfc3339. intros H.
  repeat match type of H with
  | (_ ← ?m; _) = _ => let E := fresh "E" in destruct m as [?|] eqn:E; cbn [mbind option_bind] in H; [|discriminate H]
  | (let '(_, _) := ?p in _) = _ => destruct p
  end.
  repeat match goal with
  | p : (N * bytes)%type |- _ => destruct p
  end.
  repeat match goal with
  | E : num4 ?s = Some _ |- ascii_text ?s => apply (num4_ascii _ _ _ E)
  | E : num2 ?s = Some _ |- ascii_text ?s => apply (num2_ascii _ _ _ E)
  | E : lit _ ?s = Some _ |- ascii_text ?s => refine (lit_ascii _ _ _ _ E _); [by vm_compute|]
  end.
  by eapply zone_ascii.
Qed.

(** ** Trees *)
Lemma date_key_ascii : ascii_text (B "commit-date").
Proof. repeat constructor. Qed.
Lemma san_dated a c d : dated a c d → dated (san_tree a) c d.
Proof.
  intros (n & s & En & Es & P). exists (san_anode n), s. split; [cbn [san_tree a_nodes]; by rewrite lookup_fmap, En|]. split; [|done].
  cbn [san_anode an_anno]. rewrite (san_map_ascii _ _ _ _ date_key_ascii Es). f_equal. apply sanitize_valid, plain_valid. by eapply parse_ascii.
Qed.
Lemma san_settled a c : settled_commit a c → settled_commit (san_tree a) c.
Proof. intros [R|[d D]]; [left; by apply san_root|right; exists d; by apply san_dated]. Qed.
Lemma san_all_dated a : all_dated a → all_dated (san_tree a).
Proof.
  intros (H1 & H2 & H3). split; [|split].
  - intros c p Hp. apply (proj1 (san_parent a c p)) in Hp. by eapply san_settled, H1.
  - intros k c (k0 & v & E & _ & ->)%san_map_in. by eapply san_settled, H2.
  - intros k c (k0 & v & E & _ & ->)%san_map_in. by eapply san_settled, H3.
Qed.
(** Nodes stay, with their parents and dates, or get new dates. *)
Definition keeps_dates (a a' : atree) : Prop := ∀ c, settled_commit a c → settled_commit a' c.
Lemma keeps_dates_nodes a a' : a_nodes a' = a_nodes a → keeps_dates a a'.
Proof. intros E c [(n & En & Ep)|(d & n & s & En & Es & P)]; [left; exists n; by rewrite E|right; exists d, n, s; by rewrite E]. Qed.
Lemma plus_node_new a id n : a_nodes a !! id = None → keeps_dates a (plus_node a id n).
Proof.
  intros N c. assert (∀ m, a_nodes a !! c = Some m → a_nodes (plus_node a id n) !! c = Some m) as K.
  { intros m E. cbn [plus_node a_nodes]. rewrite lookup_insert_ne by congruence. done. }
  intros [(m & En & Ep)|(d & m & s & En & Es & P)]; [left; exists m; eauto|right; exists d, m, s; eauto].
Qed.
Lemma commit_dates a hid n s d msg : a_nodes a !! hid = Some n → parse_rfc3339 s = Some d →
  keeps_dates a (plus_node a hid (committed n (Some s) msg)) ∧ settled_commit (plus_node a hid (committed n (Some s) msg)) hid.
Proof.
  intros En P. assert (dated (plus_node a hid (committed n (Some s) msg)) hid d) as D.
  { exists (committed n (Some s) msg), s. cbn [plus_node a_nodes]. rewrite lookup_insert. split; [done|]. split; [|done].
    cbn [committed an_anno]. rewrite lookup_insert_ne by done. by rewrite lookup_insert. }
  split; [|right; by exists d]. intros c Hc. destruct (decide (c = hid)) as [->|Nc]; [right; by exists d|].
  assert (∀ m, a_nodes a !! c = Some m → a_nodes (plus_node a hid (committed n (Some s) msg)) !! c = Some m) as K.
  { intros m E. cbn [plus_node a_nodes]. by rewrite lookup_insert_ne by congruence. }
  destruct Hc as [(m & Em & Ep)|(d' & m & s' & Em & Es & P')]; [left; exists m; eauto|right; exists d', m, s'; eauto].
Qed.
Lemma resolve_settled a w hid ref c : all_dated a → by_name ref → found_id (resolve a w hid ref) = Some c → settled_commit a c.
Proof.
  intros (H1 & H2 & H3) Hr. unfold resolve. case_decide as D.
  - destruct (a_nodes a !! hid) as [n|] eqn:En; [|done]. cbn. destruct (an_parent n) as [p|] eqn:Ep; [|done]. cbn. intros [= <-]. apply (H1 hid). by exists n.
  - destruct Hr as [?|Hr]; [done|]. rewrite Hr. unfold search_spec.
    destruct (a_tags a !! ref) as [i|] eqn:Et; [cbn; intros [= <-]; eauto|].
    destruct (a_branches a !! ref) as [i|] eqn:Eb; [cbn; intros [= <-]; eauto|].
    destruct (a_branches a !! (uid_b32 w ++ B "/" ++ ref)) as [i|] eqn:El; [cbn; intros [= <-]; eauto|].
    case_decide; [|done]. destruct (a_branches a !! (B "global/" ++ drop 7 ref)) as [i|] eqn:Eg; [cbn; intros [= <-]; eauto|done].
Qed.
Definition op_by_name (op : wsop) : Prop :=
  match op with
  | OAddBranch _ ref _ | OAddTag _ ref _ | OCheckout ref => by_name ref
  | OCommit date _ => ∃ s d, date = Some s ∧ parse_rfc3339 s = Some d
  | _ => True
  end.
Lemma all_dated_names a a' : a_nodes a' = a_nodes a → all_dated a →
  (∀ k c, a_branches a' !! k = Some c → settled_commit a c) → (∀ k c, a_tags a' !! k = Some c → settled_commit a c) → all_dated a'.
Proof.
  intros E (H1 & H2 & H3) Hb Ht. pose proof (keeps_dates_nodes a a' E) as K. split; [|split; eauto].
  intros c p (n & En & Ep). apply K, (H1 c). exists n. by rewrite <-E.
Qed.
Lemma op_dated x hid op a a' : op_by_name op → all_dated a → op_tree x hid op a a' → all_dated a'.
Proof.
  intros Hn Hd Ho. pose proof Hd as (H1 & H2 & H3). destruct op as [n ref f|n g|n ref f|n|date msg|key|tg]; cbn [op_tree op_by_name] in *.
  - destruct Ho as (id & Hf & _ & ->). apply (all_dated_names a); try done. intros k c. cbn [plus_branch a_branches].
    intros [[_ <-]|[_ E]]%lookup_insert_Some; [by eapply resolve_settled|eauto].
  - destruct Ho as (_ & _ & ->). apply (all_dated_names a); try done. intros k c. cbn [less_branch a_branches]. intros [_ E]%lookup_delete_Some. eauto.
  - destruct Ho as (id & Hf & _ & ->). apply (all_dated_names a); try done. intros k c. cbn [plus_tag a_tags].
    intros [[_ <-]|[_ E]]%lookup_insert_Some; [by eapply resolve_settled|eauto].
  - destruct Ho as (_ & ->). apply (all_dated_names a); try done. intros k c. cbn [less_tag a_tags]. intros [_ E]%lookup_delete_Some. eauto.
  - destruct Hn as (s & d & -> & P). destruct Ho as (n & id & En & Ni & Ho).
    destruct (commit_dates a hid n s d msg En P) as [K1 K2]. set (a0 := plus_node a hid (committed n (Some s) msg)) in *.
    assert (a_nodes a0 !! id = None) as N0 by (unfold a0; cbn [plus_node a_nodes]; rewrite lookup_insert_ne by congruence; done).
    pose proof (plus_node_new a0 id (ANode (Some hid) ∅ ∅) N0) as K3. set (a1 := plus_node a0 id (ANode (Some hid) ∅ ∅)) in *.
    assert (all_dated a1) as D1.
    { split; [|split].
      - intros c p (m & Em & Ep). apply K3. unfold a1 in Em. cbn [plus_node a_nodes] in Em. apply lookup_insert_Some in Em as [[_ <-]|[_ Em]]; [cbn in Ep; injection Ep as <-; done|].
        unfold a0 in Em. cbn [plus_node a_nodes] in Em. apply K1. apply lookup_insert_Some in Em as [[_ <-]|[_ Em]]; [apply (H1 hid); by exists n|apply (H1 c); by exists m].
      - intros k c E. by eapply K3, K1, H2.
      - intros k c E. by eapply K3, K1, H3. }
    destruct Ho as [[_ ->]|(_ & -> & _)]; [done|]. apply (all_dated_names a1); try done; [|apply D1]. intros k c. cbn [plus_branch a_branches].
    intros [[_ <-]|[_ E]]%lookup_insert_Some; [by apply K3|by apply (proj1 (proj2 D1) k)].
  - destruct Ho as (c & id & Hf & Ni & ->). pose proof (plus_node_new a id (ANode (Some c) ∅ ∅) Ni) as K. split; [|split; intros k c' E; eapply K; eauto].
    intros c' p (m & Em & Ep). apply K. cbn [plus_node a_nodes] in Em. apply lookup_insert_Some in Em as [[_ <-]|[_ Em]]; [cbn in Ep; injection Ep as <-; by eapply resolve_settled|apply (H1 c'); by exists m].
  - destruct Ho as (c & id & Hf & Ni & ->). pose proof (plus_node_new a id (ANode (Some c) ∅ ∅) Ni) as K. split; [|split; intros k c' E; eapply K; eauto].
    intros c' p (m & Em & Ep). apply K. cbn [plus_node a_nodes] in Em. apply lookup_insert_Some in Em as [[_ <-]|[_ Em]]; [cbn in Ep; injection Ep as <-; by apply (H1 hid)|apply (H1 c'); by exists m].
Qed.
Lemma op_all_dated x hid l a a' : Forall op_by_name l → all_dated a → op_all x hid l a a' → all_dated a'.
Proof.
  intros F. revert a. induction F as [|op l Hop F IH]; intros a Hd; cbn [op_all]; [by intros ->|]. intros (a1 & Ho & H). eapply IH; [|exact H]. by eapply op_dated.
Qed.
Lemma fresh_dated rid id wid branch : rid ≠ id → all_dated (fresh_tree rid id wid branch).
Proof.
  intros Ne. assert (settled_commit (fresh_tree rid id wid branch) rid) as R.
  { left. exists (ANode None ∅ ∅). cbn [fresh_tree a_nodes]. by rewrite lookup_insert. }
  split; [|split].
  - intros c p (n & En & Ep). cbn [fresh_tree a_nodes] in En. apply lookup_insert_Some in En as [[_ <-]|[_ En]]; [done|].
    apply lookup_singleton_Some in En as [_ <-]. cbn in Ep. injection Ep as <-. done.
  - intros k c. cbn [fresh_tree a_branches]. by intros [_ <-]%lookup_singleton_Some.
  - intros k c. cbn [fresh_tree a_tags]. by intros [_ <-]%lookup_singleton_Some.
Qed.

(** ** Machines *)
Definition trees_dated (dr : path) (fs : files) : Prop := ∀ sid a, holds fs (the_space dr sid) a → all_dated a.
Lemma does_by_name o c l : good_clock o → cmd_by_name c → cmd_does o c l → Forall op_by_name l.
Proof.
  intros Gc Hn. destruct c as [args branch|source target|msg|key|opts args|opts args|args]; cbn [cmd_does cmd_by_name] in *; try done.
  - intros [p ->]. by repeat constructor.
  - intros [n ->]. apply Forall_singleton. cbn. do 2 eexists. split; [done|]. apply parse_fmt, Gc.
  - intros ->. by apply Forall_singleton.
  - destruct (bo_list opts || bo_current opts); [intros ->; constructor|]. destruct (bo_delete opts).
    + intros ->. apply Forall_fmap, Forall_forall. intros n _. exact I.
    + destruct args as [|n [|ref rest]]; intros ->; [constructor|apply Forall_singleton; by left|by apply Forall_singleton].
  - destruct (to_list opts); [intros ->; constructor|]. destruct (to_delete opts).
    + intros ->. apply Forall_fmap, Forall_forall. intros n _. exact I.
    + destruct args as [|n [|ref rest]]; intros ->; [constructor|apply Forall_singleton; by left|by apply Forall_singleton].
  - intros ->. constructor.
Qed.
Lemma torn_holds fs sp a : holds_torn fs sp → ¬ holds fs sp a.
Proof. intros (raw & E & T) (raw' & E' & L). rewrite E in E'. injection E' as <-. by apply (torn_not_loads raw a). Qed.
Lemma cmd_dated dr c o w r w' : plain_path dr → good_path dr → fair o → good_clock o → machine dr (w_fs w) (w_mounts w) → (writes_path c → outside dr (abs_of w (cmd_target c))) →
  cmd_by_name c → run_cmd dr c o w = (r, w') → trees_dated dr (w_fs w) → trees_dated dr (w_fs w').
Proof.
  intros P G F Gc Mc Ho Hn H Td sid a Ha. destruct (cmd_any _ _ _ _ _ _ P G F Mc Ho H) as [_ Ct].
  assert (∀ s, fget (w_fs w') (tree_at dr s) = fget (w_fs w) (tree_at dr s) → s = sid → all_dated a) as Same.
  { intros s E ->. apply (Td sid). unfold holds in *. by rewrite <-E. }
  assert (cmd_trees dr c o w r w' → all_dated a) as Main.
  { intros [[_ E]|(x & s & hid & b & l & k & b' & _ & _ & Hb & Hd & _ & _ & Hop & Hh & E)]; [by apply (Same sid)|].
    destruct (decide (sid = s)) as [->|Ns]; [|apply (Same sid); auto].
    destruct Hh as [Hh|(_ & _ & Hh)]; [|by apply (torn_holds _ _ a) in Hh]. rewrite (holds_det _ _ _ _ Ha Hh). apply san_all_dated.
    eapply op_all_dated; [|by apply (Td s)|exact Hop]. apply Forall_take. by eapply does_by_name. }
  destruct c; try exact (Main Ct). destruct Ct as [[_ E]|(s & rid & id & wid & _ & Ne & Hh & E)]; [by apply (Same sid)|].
  destruct (decide (sid = s)) as [->|Ns]; [|apply (Same sid); auto].
  destruct Hh as [Hh|(_ & _ & Hh)]; [|by apply (torn_holds _ _ a) in Hh]. rewrite (holds_det _ _ _ _ Ha Hh). by apply san_all_dated, fresh_dated.
Qed.
Lemma user_trees dr w w' sid : machine dr (w_fs w) (w_mounts w) → user_change dr w w' → fget (w_fs w') (tree_at dr sid) = fget (w_fs w) (tree_at dr sid).
Proof.
  intros Mc (W & Em & Hq). assert (vital dr (tree_at dr sid)) as V by (left; by eexists).
  destruct (Hq (tree_at dr sid)) as [E|[E|(m & u & Hm & Ha & Eu & Q)]]; [done| |].
  - apply vital_in in V as [k Ek]. rewrite Ek, is_prefix_app in E. done.
  - destruct (mc_mounts _ _ _ Mc m Hm Ha) as [_ O]. destruct (O u Eu) as (id & -> & D). rewrite (vital_not_diff dr id _ V) in Q. done.
Qed.
Lemma named_is_step dr w w' : named_step dr w w' → step dr w w'.
Proof. intros [c o w0 r S F Gc Ho Hn E|U|E1 E2]; [by eapply step_cmd|by apply step_user|by apply step_lost]. Qed.
Lemma named_dated dr w w' : plain_path dr → good_path dr → machine dr (w_fs w) (w_mounts w) → named_step dr w w' → trees_dated dr (w_fs w) → trees_dated dr (w_fs w').
Proof.
  intros P G Mc [c o w0 r [E1 E2] F Gc Ho Hn E|U|E1 E2] Td.
  - rewrite <-E1 in Td. rewrite <-E1, <-E2 in Mc. by eapply cmd_dated.
  - intros sid a Ha. apply (Td sid). unfold holds in *. by rewrite <-(user_trees dr w w' sid Mc U).
  - by rewrite E1.
Qed.
Lemma named_steps_dated dr w w' : plain_path dr → good_path dr → machine dr (w_fs w) (w_mounts w) → rtc (named_step dr) w w' → trees_dated dr (w_fs w) →
  trees_dated dr (w_fs w') ∧ machine dr (w_fs w') (w_mounts w').
Proof.
  intros P G Mc H. induction H as [w|w w1 w2 H1 _ IH]; [done|]. intros Td.
  destruct (step_orderly _ _ _ P G Mc (named_is_step _ _ _ H1)) as [Mc1 _]. apply IH; [done|]. exact (named_dated _ _ _ P G Mc H1 Td).
Qed.
