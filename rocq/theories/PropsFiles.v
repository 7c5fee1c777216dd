(** * PropsFiles: what workspaces show follows the version control system (C81) *)
From Verif Require Import Base Uid SpecUid UidProofs Tree SpecTree TreeRefine TreeObs Dump DumpProofs Json JsonProofs Save SaveProofs Branch BranchProofs Date Ws SpecWs WsProofs
  Fs Overlay Os Layers Mounts Space Manager Commands FsProofs OsProofs LayerProofs MountProofs SpaceProofs ManagerProofs SpecWorld SpecOps SavedProofs FaultProofs ReadyProofs OpProofs CalmProofs
  SpecMachine SpecCmds SpecLog MachineProofs OpenProofs CmdProofs ExpandProofs DetProofs SpecTidy TidyProofs Sample SampleProofs Story StoryProofs SpecUsable UsableProofs UsableCmdProofs UsableInitProofs UsableSeqProofs SpecNames NamesProofs LongerProofs SpecVcs VcsProofs
  PropsCommit PropsCmds PropsShow PropsUsable PropsRound PropsVcs.
From Coq Require Import Lia.
From stdpp Require Import prelude gmap.

(** ** Helpers *)
Lemma below_at ms d q m : mounts_below ms d = [m] → mn_at m = q → is_prefix d q = true → mount_at ms q = Some m.
Proof.
  intros E Em Hp. unfold mount_at. assert (filter (λ m, mn_at m = q) ms = filter (λ m, mn_at m = q) (mounts_below ms d)) as ->.
  { unfold mounts_below. clear E. induction ms as [|m' ms IH]; [done|]. rewrite (filter_cons _ m' ms), (filter_cons (λ m, is_prefix d (mn_at m) = true) m' ms).
    destruct (decide (mn_at m' = q)) as [D|D].
    - rewrite decide_True by (by rewrite D). rewrite filter_cons, decide_True by done. by rewrite IH.
    - case_decide; [rewrite filter_cons, decide_False by done|]; exact IH. }
  rewrite E, filter_cons, decide_True by done. done.
Qed.
Lemma none_at ms d q m : mounts_below ms d = [] → is_prefix d q = true → mount_at ms q ≠ Some m.
Proof.
  intros E Hp Hm. unfold mount_at in Hm. destruct (filter _ ms) as [|m' l] eqn:Ef; [done|]. assert (m' ∈ filter (λ m, mn_at m = q) ms) as Hf by (rewrite Ef; left).
  apply elem_of_list_filter in Hf as [Ha Hi]. assert (m' ∈ mounts_below ms d) as Hb by (apply elem_of_list_filter; by rewrite Ha). rewrite E in Hb. by apply elem_of_nil in Hb.
Qed.
Lemma stack_shows dr w p mid hid lows : fget (w_fs w) p = Some (FLink (path_str (merged_dir dr mid))) → mounts_below (w_mounts w) (mount_dir dr mid) = [stack_of dr mid hid lows] →
  visible w p (content dr (w_fs w) (hid :: lows)).
Proof.
  intros E Hm. exists (stack_of dr mid hid lows). split; [exact E|]. split; [|done]. eapply below_at; [exact Hm|done|]. apply is_prefix_app.
Qed.
Lemma visible_ext w p A B : (∀ k, k ≠ [] → A k = B k) → visible w p A → visible w p B.
Proof. intros H (m & E1 & E2 & E3). exists m. split; [done|]. split; [done|]. intros k Hk. rewrite E3 by done. by apply H. Qed.
Lemma content_new dr w w' id ch k : new_empty dr w w' → fget (w_fs w) (layer_dir (layers_root dr) id) = None → k ≠ [] →
  content dr (w_fs w') (id :: ch) k = content dr (w_fs w') ch k.
Proof.
  intros Ne Ni Hk. unfold content. cbn [fmap list_fmap view].
  assert (∀ k, k ≠ [] → layer_at (w_fs w') (diff_dir (layers_root dr) id) k = None) as H by (intros k' Hk'; by apply (Ne id k')).
  rewrite (H k Hk), covered_empty by done. done.
Qed.
Lemma models_present dr w V p pl a ch i : models dr w V → v_places V !! p = Some pl → v_trees V !! pl_space pl = Some a → chain a i ch →
  rooted a ∧ Forall (λ i, is_dir_at (w_fs w) (diff_dir (layers_root dr) i) = true) ch.
Proof.
  intros [Io (mids & _ & Hpl)] Ep T C. destruct (Hpl _ _ Ep) as (_ & y & a' & Wa & T' & _). assert (a' = a) as -> by congruence.
  destruct (machine_present _ _ _ _ (io_machine _ _ Io) (wa_tree _ _ _ _ _ _ _ Wa)) as [LP Ro]. split; [done|]. apply Forall_forall. intros x Hx. apply LP. by eapply chain_has.
Qed.
Lemma content_untouched dr w w' ch k : untouched dr w w' → Forall (λ i, is_dir_at (w_fs w) (diff_dir (layers_root dr) i) = true) ch → content dr (w_fs w') ch k = content dr (w_fs w) ch k.
Proof. intros U H. apply content_same. eapply List.Forall_impl; [|exact H]. intros i Hi. by apply U. Qed.
Lemma nodes_chain a a' i l : a_nodes a' = a_nodes a → chain a i l → chain a' i l.
Proof. intros E. apply nodes_chain_inv. by rewrite E. Qed.
Lemma op_chain x hid op a a' id base ch : rooted a → (∃ d m, op = OCommit d m) ∨ (∃ k, op = OCheckout k) ∨ (∃ p, op = OClone p) → op_tree x hid op a a' → added a a' id →
  based_on x hid op a base → chain a base ch → chain (san_tree a') id (id :: ch).
Proof.
  intros Ro Ho Ht Ad Hb C. destruct (op_longer _ _ _ _ _ Ro Ho Ht) as (i & c & L & Hb'). pose proof (longer_added _ _ _ _ _ L Ad) as ->.
  pose proof (based_det _ _ _ _ _ _ Hb' Hb) as ->. apply san_chain, chain_step with base; [apply parent_alt, L|]. by eapply longer_keeps.
Qed.
(** Histories of workspaces' spaces are kept. *)
Lemma vstep_chain dr w0 w V d c r V' p pl a i l : models dr w0 V → vstep w V d c r V' → v_places V !! p = Some pl → v_trees V !! pl_space pl = Some a → chain a i l →
  ∃ a', v_trees V' !! pl_space pl = Some a' ∧ chain a' i l.
Proof.
  intros Md H Ep T C. pose proof Md as [_ (mids & _ & Hpl)].
  assert (∀ q pq b, v_places V !! q = Some pq → v_trees V !! pl_space pq = Some b → rooted b) as Ro.
  { intros q pq b Eq Tb. destruct (Hpl q pq Eq) as (_ & y & b' & Wa & T' & _). assert (b' = b) as -> by congruence. by eapply holds_rooted, (wa_tree _ _ _ _ _ _ _ Wa). }
  assert (∀ q pq b b', v_places V !! q = Some pq → v_trees V !! pl_space pq = Some b → (∀ j k, chain b j k → chain b' j k) →
    ∃ a', <[pl_space pq := san_tree b']> (v_trees V) !! pl_space pl = Some a' ∧ chain a' i l) as Hput.
  { intros q pq b b' Eq Tb Hb. destruct (decide (pl_space pq = pl_space pl)) as [Es|Ns].
    - rewrite Es, lookup_insert. eexists. split; [done|]. apply san_chain, Hb. rewrite Es in Tb. by assert (b = a) as -> by congruence.
    - rewrite lookup_insert_ne by done. by exists a. }
  assert (∃ a', v_trees V !! pl_space pl = Some a' ∧ chain a' i l) as Hsame by (by exists a).
  assert (∀ q pq b b' x op, v_places V !! q = Some pq → v_trees V !! pl_space pq = Some b → (∃ d m, op = OCommit d m) ∨ (∃ k, op = OCheckout k) ∨ (∃ p, op = OClone p) → op_tree x (pl_head pq) op b b' →
    ∀ j k, chain b j k → chain b' j k) as Hop.
  { intros q pq b b' x op Eq Tb Ho Ht. destruct (op_longer _ _ _ _ _ (Ro _ _ _ Eq Tb) Ho Ht) as (j & k & L & _). intros j' k'. by eapply longer_keeps. }
  assert (∀ q pq b b' x, v_places V !! q = Some pq → v_trees V !! pl_space pq = Some b → names_result x (pl_head pq) c b b' r → ∀ j k, chain b j k → chain b' j k) as Hnm.
  { intros q pq b b' x Eq Tb Hr j k. apply nodes_chain. by rewrite (names_nodes _ _ _ _ _ _ Hr). }
  destruct c as [args branch|source target|msg|key|opts args|opts args|args]; cbn [vstep] in H.
  - destruct H as [(_ & _ & pl' & rid & -> & _ & _ & Hs)|(_ & _ & ->)]; [|done]. cbn [put_place v_trees]. rewrite lookup_insert_ne; [done|]. apply not_eq_sym. by eapply Hs.
  - destruct (v_places V !! _) as [pq|] eqn:Eq; [|by destruct H as [_ ->]]. destruct H as (x & b & b' & _ & Tb & Ht & [(_ & _ & pl' & -> & Es & _)|(_ & _ & ->)]); cbn [put_place put_tree v_trees]; rewrite ?Es; eapply Hput; eauto 6.
  - destruct (v_places V !! d) as [pq|] eqn:Eq; [|by destruct H as [_ ->]]. destruct H as (x & b & _ & Tb & [(_ & _ & t & b' & id & Ht & _ & ->)|(_ & _ & ->)]); [|done]. cbn [put_place v_trees pl_space]. eapply Hput; eauto 6.
  - destruct (v_places V !! d) as [pq|] eqn:Eq; [|by destruct H as [_ ->]]. destruct H as (x & b & _ & Tb & [(_ & _ & b' & id & Ht & _ & ->)|(_ & _ & ->)]); [|done]. cbn [put_place v_trees pl_space]. eapply Hput; eauto 6.
  - destruct (v_places V !! d) as [pq|] eqn:Eq; [|by destruct H as [_ ->]]. destruct H as (x & b & _ & Tb & b' & Ht & ->). cbn [put_tree v_trees]. eapply Hput; eauto.
  - destruct (v_places V !! d) as [pq|] eqn:Eq; [|by destruct H as [_ ->]]. destruct H as (x & b & _ & Tb & b' & Ht & ->). cbn [put_tree v_trees]. eapply Hput; eauto.
  - destruct (v_places V !! d) as [pq|] eqn:Eq; [|by destruct H as [_ ->]]. destruct H as (x & b & _ & Tb & b' & Ht & ->). cbn [put_tree v_trees]. eapply Hput; eauto.
Qed.
Lemma models_head dr w V p pl a : models dr w V → v_places V !! p = Some pl → v_trees V !! pl_space pl = Some a → has a (pl_head pl).
Proof. intros [_ (mids & _ & Hpl)] Ep T. destruct (Hpl _ _ Ep) as (_ & y & a' & Wa & T' & _). assert (a' = a) as -> by congruence. apply Wa. Qed.
(** The history of the working layer that a command starts *)
Lemma vstep_head dr w0 w V d c V' ch : models dr w0 V → vstep w V d c (Ok tt) V' → next_base V d c ch →
  ∃ pl a, v_places V' !! target_of d c = Some pl ∧ v_trees V' !! pl_space pl = Some a ∧ chain a (pl_head pl) (pl_head pl :: ch) ∧
    Forall (λ i, is_dir_at (w_fs w0) (diff_dir (layers_root dr) i) = true) ch ∧ v_places V !! target_of d c ≠ Some pl.
Proof.
  intros Md H Nb.
  assert (∀ q pq b, v_places V !! q = Some pq → v_trees V !! pl_space pq = Some b → ∀ i l, chain b i l → rooted b ∧ Forall (λ i, is_dir_at (w_fs w0) (diff_dir (layers_root dr) i) = true) l) as Pr.
  { intros q pq b Eq Tb i l C. by eapply models_present. }
  assert (∀ q pl b b', v_trees V !! pl_space pl = Some b → added b b' (pl_head pl) → v_places V !! q ≠ Some pl) as Nw.
  { intros q pl b b' Tb [Q _] Eq. apply Q. by eapply models_head. }
  destruct c as [args branch|source target|msg|key|opts args|opts args|args]; cbn [next_base] in Nb; try done; cbn [vstep] in H; cbn [target_of].
  - destruct Nb as (pl & a & i & Ep & T & Hp & C). rewrite Ep in H. destruct H as (x & b & a' & _ & T' & Ht & [(_ & _ & pl' & -> & Es & _ & Ad)|(_ & Q & _)]); [|by destruct (Q tt)].
    assert (b = a) as -> by congruence. destruct (Pr _ _ _ Ep T _ _ C) as [Ro Fa]. exists pl', (san_tree a'). cbn [put_place v_places v_trees]. rewrite !lookup_insert.
    split; [done|]. split; [done|]. split; [by eapply op_chain; eauto 6|]. split; [done|]. eapply Nw; [by rewrite Es|exact Ad].
  - destruct Nb as (pl & a & Ep & T & C). rewrite Ep in H. destruct H as (x & b & _ & T' & [(_ & _ & t & a' & id & Ht & Ad & ->)|(_ & Q & _)]); [|by destruct (Q tt)].
    assert (b = a) as -> by congruence. destruct (Pr _ _ _ Ep T _ _ C) as [Ro Fa]. eexists _, (san_tree a'). cbn [put_place v_places v_trees pl_space]. rewrite lookup_insert.
    split; [done|]. cbn [pl_head pl_space]. split; [by rewrite lookup_insert|]. split; [eapply op_chain; [exact Ro| |exact Ht|exact Ad|reflexivity|exact C]; eauto|]. split; [done|]. eapply Nw; cbn [pl_space pl_head]; [exact T|exact Ad].
  - destruct Nb as (pl & a & i & x0 & Ep & T & Sx & Hm & C). rewrite Ep in H. destruct H as (x & b & Sx' & T' & [(_ & _ & a' & id & Ht & Ad & ->)|(_ & Q & _)]); [|by destruct (Q tt)].
    assert (b = a) as -> by congruence. destruct (Pr _ _ _ Ep T _ _ C) as [Ro Fa]. eexists _, (san_tree a'). cbn [put_place v_places v_trees pl_space]. rewrite lookup_insert.
    split; [done|]. cbn [pl_head pl_space]. split; [by rewrite lookup_insert|]. split; [|split; [done|eapply Nw; cbn [pl_space pl_head]; [exact T|exact Ad]]].
    eapply op_chain; [exact Ro| |exact Ht|exact Ad| |exact C]; [eauto|]. cbn [based_on].
    destruct Sx as [Ei _], Sx' as [Ei' _]. rewrite Ei', <-Ei. unfold meant in Hm. by destruct (decode_b32 key).
Qed.

(** ** C81 *)
(** A workspace that is mounted shows the layers of its history, the upper ones first. *)
Theorem C81_shows : ∀ dr w V p pl a ch, good_path dr → models dr w V → v_places V !! p = Some pl → awake dr w p → v_trees V !! pl_space pl = Some a → chain a (pl_head pl) ch →
  visible w p (content dr (w_fs w) ch).
Proof.
  intros dr w V p pl a ch G [_ (mids & _ & Hpl)] Ep (i & L & Ha) T C. destruct (Hpl _ _ Ep) as (_ & y & a' & Wa & T' & _ & _ & _ & _ & lows & Hm & C'). assert (a' = a) as -> by congruence.
  rewrite (wa_link _ _ _ _ _ _ _ Wa) in L. apply (inj Some) in L. apply (f_equal (λ f, match f with FLink s => s | _ => [] end)) in L. cbv beta iota in L. apply path_str_merged in L as <-; [|done].
  destruct Hm as [Hm|Hm]; [done|]. rewrite (chain_det _ _ _ _ C C'). eapply stack_shows; [apply Wa|exact Hm].
Qed.
(** After any command, whether it succeeds or not, the workspaces that it did not move show what they showed. The one that it started shows
    what was stored in the commit it is based on: the workspace as it was for commit, the commit named for checkout, and the last commit of the source for clone. *)
Theorem C81_step : ∀ dr V n d c o w w1 r w', plain_path dr → good_path dr → models dr w V → depth V n → 1 ≤ n → fits dr n →
  meanwhile dr w w1 → (∀ p, is_Some (v_places V !! p) → fget (w_fs w1) p = fget (w_fs w) p) → fair o → no_faults o → new_ids dr o (enter d w1) → allowed dr V w1 d c →
  run_cmd dr c o (enter d w1) = (r, w') → ∃ V', vstep w1 V d c r V' ∧ models dr w' V' ∧ files_step dr w1 w' V V' ∧ depth V' (S n) ∧
    (∀ p pl a ch, v_places V !! p = Some pl → v_trees V !! pl_space pl = Some a → chain a (pl_head pl) ch →
       awake dr w1 p → visible w1 p (content dr (w_fs w1) ch) ∧ (v_places V' !! p = Some pl → visible w' p (content dr (w_fs w1) ch))) ∧
    (∀ ch, r = Ok tt → next_base V d c ch → visible w' (target_of d c) (content dr (w_fs w1) ch)).
Proof.
  intros dr V n d c o w w1 r w' P G Md0 Hd Hn Fi U Hl F N Nw Al E. pose proof (models_while _ _ _ _ Md0 U Hl) as Md.
  destruct (models_step dr V n d c o w1 r w' P G Md Hd Hn Fi F N Nw Al E) as (V' & Vs & (Md' & Fs) & D'). pose proof Fs as (Ut & _ & Fh).
  exists V'. split; [done|]. split; [done|]. split; [done|]. split; [done|]. split.
  - intros p pl a ch Ep T C Aw. split; [by eapply C81_shows|]. intros Ep'. destruct (models_present _ _ _ _ _ _ _ _ Md Ep T C) as [_ Fa].
    destruct (vstep_chain _ _ _ _ _ _ _ _ _ _ _ _ _ Md Vs Ep T C) as (a' & T' & C'). assert (awake dr w' p) as Aw' by (by destruct (Fh _ _ Ep') as [[_ Q]|(_ & _ & Q)]; [apply Q|]).
    eapply visible_ext; [|by eapply (C81_shows dr w' V')].
    intros k _. by apply content_untouched.
  - intros ch -> Nb. destruct (vstep_head _ _ _ _ _ _ _ _ Md Vs Nb) as (pl & a & Ep & T & C & Fa & Np). destruct (Fh _ _ Ep) as [[Q _]|(Nl & Ne & Aw)]; [done|].
    eapply visible_ext; [|by eapply (C81_shows dr w' V')]. intros k Hk. rewrite (content_new dr w1) by done. by apply content_untouched.
Qed.
(** A new space starts empty. *)
Theorem C81_init : ∀ dr args branch o w d p, plain_path dr → good_path dr → fair o → no_faults o → new_ids dr o w → in_order dr w →
  runs_in w d → abs_from d (default (B ".") (head args)) = p → outside dr p → can_replace w p → fget (w_fs w) p = None ∨ is_dir_at (w_fs w) p = true → fits dr 1 →
  ∃ w', cmd_init dr args branch o w = (Ok tt, w') ∧ visible w' p (λ _, None) ∧ untouched dr w w'.
Proof.
  intros dr args branch o w d p P G F N Nw Io R Ha Op Cr He Fi.
  destruct (init_fine _ _ branch _ _ _ _ P G F N Nw Io R Ha Op Cr He Fi) as (w' & mid & y & id & rid & E & Pa & E1 & E2 & E3 & Ne & _ & Nr).
  exists w'. split; [done|]. split; [|apply Pa]. destruct (pa_stack _ _ _ _ _ _ _ _ _ Pa) as (ch & Hm & C). pose proof (pa_empty _ _ _ _ _ _ _ _ _ Pa) as He'.
  assert (chain (san_tree (fresh_tree rid id (ws_id y) branch)) id [id; rid]) as C' by (rewrite <-init_fresh by done; by apply san_chain, init_chain).
  pose proof (chain_det _ _ _ _ C C') as Q. injection Q as ->. eapply visible_ext; [|eapply stack_shows; [|exact Hm]; apply (wa_link _ _ _ _ _ _ _ (pa_here _ _ _ _ _ _ _ _ _ Pa))].
  intros k Hk. rewrite (content_new dr w) by (try done; apply (pa_new _ _ _ _ _ _ _ _ _ Pa)). rewrite (content_new dr w) by done. done.
Qed.
(** No two workspaces ever work on the same layer, if none did at first. *)
Theorem C81_apart : ∀ dr w w' V d c r V', models dr w V → apart V → vstep w V d c r V' → files_step dr w w' V V' → apart V'.
Proof.
  intros dr w w' V d c r V' Md Ap Vs (_ & _ & Fh) p q pl pq Ep Eq Eh.
  assert (∀ p pl, v_places V !! p = Some pl → fget (w_fs w) (layer_dir (layers_root dr) (pl_head pl)) ≠ None) as Hold.
  { intros p0 pl0 E0. pose proof Md as [Io (mids & _ & Hpl)]. destruct (Hpl _ _ E0) as (_ & y & a & Wa & _).
    destruct (machine_present _ _ _ _ (io_machine _ _ Io) (wa_tree _ _ _ _ _ _ _ Wa)) as [LP _]. specialize (LP _ (wa_head _ _ _ _ _ _ _ Wa)).
    intros Q. destruct LP as [LP _]. unfold is_dir_at in LP. rewrite Q in LP. done. }
  destruct (decide (p = q)) as [->|Npq]; [done|].
  destruct (Fh _ _ Ep) as [[Ep0 _]|[Lp _]], (Fh _ _ Eq) as [[Eq0 _]|[Lq _]].
  - by eapply Ap.
  - destruct (Hold _ _ Ep0). by rewrite Eh.
  - destruct (Hold _ _ Eq0). by rewrite <-Eh.
  - assert (∀ p pl, v_places V' !! p = Some pl → fget (w_fs w) (layer_dir (layers_root dr) (pl_head pl)) = None → p = target_of d c) as Ht.
    { intros p0 pl0 E0 L0. destruct (decide (p0 = target_of d c)) as [->|Np]; [done|]. rewrite (C80_places _ _ _ _ _ _ Vs p0 (or_introl Np)) in E0. by destruct (Hold _ _ E0). }
    destruct Npq. by rewrite (Ht _ _ Ep Lp), (Ht _ _ Eq Lq).
Qed.
(** A layer that no workspace works on is never worked on again, and a command does not change it. *)
Theorem C81_sealed : ∀ dr w w' V V' i, models dr w V → sealed dr w V i → files_step dr w w' V V' → sealed dr w' V' i ∧ same_layer dr (w_fs w) (w_fs w') i.
Proof.
  intros dr w w' V V' i Md [D S] (Ut & _ & Fh). pose proof (mc_wf _ _ _ (io_machine _ _ (md_order _ _ _ Md))) as W. assert (same_layer dr (w_fs w) (w_fs w') i) as Hs by (by apply Ut). split; [|done]. split.
  - unfold is_dir_at in *. rewrite (Hs _ (is_prefix_refl _)). done.
  - intros p pl Ep Eh. destruct (Fh _ _ Ep) as [[E0 _]|[L0 _]]; [by eapply S|]. rewrite Eh in L0. apply (fget_parent_None _ _ (B "diff")) in L0; [|done]. unfold is_dir_at, diff_dir in D. by rewrite L0 in D.
Qed.
(** commit and checkout leave the layer they worked on. *)
Theorem C81_leaves : ∀ dr w w' V d c V' pl, models dr w V → apart V → vstep w V d c (Ok tt) V' → files_step dr w w' V V' →
  (∃ m, c = CCommit m) ∨ (∃ k, c = CCheckout k) → v_places V !! d = Some pl → sealed dr w' V' (pl_head pl).
Proof.
  intros dr w w' V d c V' pl Md Ap Vs Fs Hc Ed. pose proof Md as [Io (mids & _ & Hpl)]. destruct (Hpl _ _ Ed) as (_ & y & a & Wa & T & _).
  destruct (machine_present _ _ _ _ (io_machine _ _ Io) (wa_tree _ _ _ _ _ _ _ Wa)) as [LP _]. specialize (LP _ (wa_head _ _ _ _ _ _ _ Wa)).
  pose proof Fs as (Ut & _ & Fh). pose proof (mc_wf _ _ _ (io_machine _ _ Io)) as W. split.
  - unfold is_dir_at. rewrite (Ut _ (proj2 LP) _ (is_prefix_refl _)). apply LP.
  - intros p pq Ep Eh. destruct (Fh _ _ Ep) as [[E0 _]|[L0 _]].
    + pose proof (Ap _ _ _ _ E0 Ed Eh) as ->. rewrite Ed in E0. injection E0 as <-.
      assert (∃ id b b', v_places V' !! d = Some id ∧ v_trees V !! pl_space pl = Some b ∧ added b b' (pl_head id)) as (pl' & b & b' & E' & Tb & Ad & _).
      { destruct Hc as [[m ->]|[k ->]]; cbn [vstep] in Vs; rewrite Ed in Vs; destruct Vs as (x & b & _ & Tb & Vs).
        - destruct Vs as [(_ & _ & t & b' & id & _ & Ad & ->)|(_ & Q & _)]; [|by destruct (Q tt)]. eexists _, b, b'. cbn [put_place v_places]. rewrite lookup_insert. split; [done|]. by split.
        - destruct Vs as [(_ & _ & b' & id & _ & Ad & ->)|(_ & Q & _)]; [|by destruct (Q tt)]. eexists _, b, b'. cbn [put_place v_places]. rewrite lookup_insert. split; [done|]. by split. }
      rewrite E' in Ep. injection Ep as ->. assert (b = a) as -> by congruence. apply Ad, Wa.
    + rewrite Eh in L0. apply (fget_parent_None _ _ (B "diff")) in L0; [|done]. destruct LP as [_ D]. unfold is_dir_at, diff_dir in D. by rewrite L0 in D.
Qed.
(** So what was committed stays as it is through any number of processes, and as long as users change nothing else than their workspaces. *)
Theorem C81_session : ∀ dr l V n w, plain_path dr → good_path dr → models dr w V → apart V → depth V n → 1 ≤ n → fits dr (n + length l) →
  works dr l (λ V' w', models dr w' V' ∧ apart V' ∧ ∀ i, sealed dr w V i → sealed dr w' V' i ∧ same_layer dr (w_fs w) (w_fs w') i) V w.
Proof.
  intros dr l. assert (∀ V n w w0 V0, plain_path dr → good_path dr → models dr w V → apart V → depth V n → 1 ≤ n → fits dr (n + length l) →
    (∀ i, sealed dr w0 V0 i → sealed dr w V i ∧ same_layer dr (w_fs w0) (w_fs w) i) →
    works dr l (λ V' w', models dr w' V' ∧ apart V' ∧ ∀ i, sealed dr w0 V0 i → sealed dr w' V' i ∧ same_layer dr (w_fs w0) (w_fs w') i) V w) as H.
  2:{ intros V n w P G Md Ap Hd Hn Fi. by apply (H V n w w V). }
  induction l as [|[d c] l IH]; intros V n w w0 V0 P G Md Ap Hd Hn Fi Hs; cbn [works length]; [done|].
  intros w1 o r w' (U & Hl & Hu) F N Nw Al E. cbn [length] in Fi. rewrite Nat.add_succ_r in *. pose proof (models_while _ _ _ _ Md U Hl) as Md1.
  destruct (models_step dr V n d c o w1 r w' P G Md1 Hd Hn) as (V' & Vs & (Md' & Fs) & D'); try done; [eapply fits_less; [exact Fi|lia]|]. exists V'. split; [done|]. split; [done|].
  apply (IH V' (S n)); try done; [by eapply (C81_apart dr w1 w')|lia|]. intros i Hi. destruct (Hs i Hi) as [Si Li].
  assert (same_layer dr (w_fs w) (w_fs w1) i) as L1 by (apply Hu, Si). assert (sealed dr w1 V i) as S1.
  { destruct Si as [D S]. split; [|done]. unfold is_dir_at in *. by rewrite (L1 _ (is_prefix_refl _)). }
  destruct (C81_sealed _ _ _ _ _ _ Md1 S1 Fs) as [S2 L2]. split; [done|]. intros q Hq. by rewrite (L2 q Hq), (L1 q Hq), (Li q Hq).
Qed.
Print Assumptions C81_shows.
Print Assumptions C81_step.
Print Assumptions C81_init.
Print Assumptions C81_apart.
Print Assumptions C81_sealed.
Print Assumptions C81_leaves.
Print Assumptions C81_session.

(** A user writes a file in a workspace. *)
Lemma put_edits dr w V p pl n data w' : good_path dr → models dr w V → v_places V !! p = Some pl → put_test dr w p n data = true → put w p n data = Some w' → user_edits dr V w w'.
Proof.
  intros G Md Ep Ht Hp. split; [by eapply user_while, put_step|]. pose proof Md as [Io (mids & _ & Hpl)]. destruct (Hpl _ _ Ep) as (_ & y & a & Wa & _ & _ & _ & _ & _ & lows & Hm & _).
  assert (mount_of w p = Some (stack_of dr (mids p) (pl_head pl) lows)) as Em.
  { unfold mount_of. rewrite (wa_link _ _ _ _ _ _ _ Wa). rewrite join_path_str by (by apply good_merged). destruct Hm as [Hm|Hm]; [|eapply below_at; [exact Hm|done|apply is_prefix_app]].
    exfalso. unfold put, mount_of in Hp. rewrite (wa_link _ _ _ _ _ _ _ Wa), join_path_str in Hp by (by apply good_merged). destruct (mount_at _ _) as [m|] eqn:Em; [|done].
    by eapply (none_at _ _ _ _ Hm) in Em; [|apply is_prefix_app]. }
  unfold put in Hp. rewrite Em in Hp. cbn [mbind option_bind stack_of mn_upper] in Hp. injection Hp as <-. cbn [w_fs set_fs].
  assert (is_prefix (diff_dir (layers_root dr) (pl_head pl)) (diff_dir (layers_root dr) (pl_head pl) ++ [n]) = true) as Hin by apply is_prefix_app. split.
  - intros q [pq Eq]. destruct (Hpl _ _ Eq) as (Oq & _). apply fget_fset_ne. pose proof (in_layer_outside _ _ _ _ Hin Oq). congruence.
  - intros i Hi q Hq. apply fget_fset_ne. intros Q. rewrite Q in Hin. by apply (Hi _ _ Ep), (in_layer_same dr (pl_head pl) i q).
Qed.
(** init, a user writes a file, commit, clone, the user overwrites the file, commit: the clone shows the file as it was committed first. *)
Lemma files_test : let f := B "f" in let hi := B "hi" in let bye := B "bye" in
  ids_check sample_dr calm (enter home sample_world) && home_ok sample_world &&
  then_ok (run_cmd sample_dr (CInit [B "w"] (B "main")) calm (enter home sample_world)) (λ _ w1, put_test sample_dr w1 wdir f hi &&
  then_some (put w1 wdir f hi) (λ u1, ids_check sample_dr calm (enter wdir u1) &&
  then_ok (run_cmd sample_dr (CCommit (B "one")) calm (enter wdir u1)) (λ _ w2, ids_check sample_dr calm (enter home w2) && home_ok w2 &&
  then_ok (run_cmd sample_dr (CClone (B "w") (Some (B "c"))) calm (enter home w2)) (λ _ w3, put_test sample_dr w3 wdir f bye &&
  then_some (put w3 wdir f bye) (λ u3, ids_check sample_dr calm (enter wdir u3) &&
  then_ok (run_cmd sample_dr (CCommit (B "two")) calm (enter wdir u3)) (λ _ w4,
    bool_decide (shown w4 wdir f = Some bye) && bool_decide (shown w4 cdir f = Some hi))))))) = true.
Proof. vm_compute. reflexivity. Qed.
Lemma calm_files V n d c w u r w' : models sample_dr w V → apart V → depth V n → 1 ≤ n → fits sample_dr n → user_edits sample_dr V w u → ids_check sample_dr calm (enter d u) = true → allowed sample_dr V u d c →
  run_cmd sample_dr c calm (enter d u) = (r, w') → ∃ V', vstep u V d c r V' ∧ models sample_dr w' V' ∧ apart V' ∧ depth V' (S n) ∧ files_step sample_dr u w' V V'.
Proof.
  intros Md Ap Hd Hn Fi (U & Hl & _) Hi Al E. destruct sample_plain as [P G].
  destruct (C81_step sample_dr V n d c calm w u r w' P G Md Hd Hn Fi U Hl fair_calm calm_no_faults (ids_check_ok _ _ _ Hi) Al E) as (V' & A & B & C & D & _).
  exists V'. split; [exact A|]. split; [exact B|]. split; [|by split]. eapply C81_apart; [exact (models_while _ _ _ _ Md U Hl)|exact Ap|exact A|exact C].
Qed.
Lemma user_none dr w V : in_order dr w → user_edits dr V w w.
Proof. intros Io. split; [by apply user_same|]. split; [done|]. intros i _ q _. done. Qed.
Example C81_sat : ∃ w1 u1 w2 w3 u3 w4 V1 V2 V3 V4 pl, let w0 := sample_world in let V0 := Vcs ∅ ∅ in let f := B "f" in
  models sample_dr w0 V0 ∧ apart V0 ∧ run_cmd sample_dr (CInit [B "w"] (B "main")) calm (enter home w0) = (Ok tt, w1) ∧ models sample_dr w1 V1 ∧ v_places V1 !! wdir = Some pl ∧
  put w1 wdir f (B "hi") = Some u1 ∧ user_edits sample_dr V1 w1 u1 ∧
  run_cmd sample_dr (CCommit (B "one")) calm (enter wdir u1) = (Ok tt, w2) ∧ vstep u1 V1 wdir (CCommit (B "one")) (Ok tt) V2 ∧ models sample_dr w2 V2 ∧ sealed sample_dr w2 V2 (pl_head pl) ∧
  run_cmd sample_dr (CClone (B "w") (Some (B "c"))) calm (enter home w2) = (Ok tt, w3) ∧ vstep w2 V2 home (CClone (B "w") (Some (B "c"))) (Ok tt) V3 ∧ models sample_dr w3 V3 ∧ apart V3 ∧
  put w3 wdir f (B "bye") = Some u3 ∧ user_edits sample_dr V3 w3 u3 ∧
  run_cmd sample_dr (CCommit (B "two")) calm (enter wdir u3) = (Ok tt, w4) ∧ models sample_dr w4 V4 ∧ sealed sample_dr w4 V4 (pl_head pl) ∧
  shown w4 wdir f = Some (B "bye") ∧ shown w4 cdir f = Some (B "hi").
Proof.
  pose proof files_test as H. cbv zeta in H. apply andb_true_iff in H as [I0 H]. apply andb_true_iff in I0 as [I0 O0].
  destruct (then_ok_inv _ _ H) as ([] & w1 & E1 & H1). clear H. cbv beta in H1. apply andb_true_iff in H1 as [T1 H1].
  destruct (then_some_inv _ _ H1) as (u1 & Q1 & H2). clear H1. cbv beta in H2. apply andb_true_iff in H2 as [I1 H2].
  destruct (then_ok_inv _ _ H2) as ([] & w2 & E2 & H3). clear H2. cbv beta in H3. apply andb_true_iff in H3 as [I2 H3]. apply andb_true_iff in I2 as [I2 O2].
  destruct (then_ok_inv _ _ H3) as ([] & w3 & E3 & H4). clear H3. cbv beta in H4. apply andb_true_iff in H4 as [T3 H4].
  destruct (then_some_inv _ _ H4) as (u3 & Q3 & H5). clear H4. cbv beta in H5. apply andb_true_iff in H5 as [I3 H5].
  destruct (then_ok_inv _ _ H5) as ([] & w4 & E4 & H6). clear H5. cbv beta in H6. apply andb_true_iff in H6 as [S1 S2]. apply bool_decide_eq_true in S1. apply bool_decide_eq_true in S2.
  destruct sample_plain as [P G]. assert (∀ k, k ≤ 40 → fits sample_dr k) as Fi by (intros k Hk; by apply sample_fits).
  assert (Fs.abs_from home (default (B ".") (head [B "w"])) = wdir) as Ah by (vm_compute; reflexivity). assert (Fs.abs_from home (B "w") = wdir) as Aw by (vm_compute; reflexivity). assert (Fs.abs_from home (default (B ".") (Some (B "c"))) = cdir) as Ac by (vm_compute; reflexivity).
  assert (outside sample_dr wdir) as Ow by (split; vm_compute; reflexivity). assert (outside sample_dr cdir) as Oc by (split; vm_compute; reflexivity).
  destruct (home_runs _ O0) as [R0 _]. destruct (home_runs _ O2) as [R2 N2].
  destruct (C80_empty sample_dr sample_world sample_order) as [M0 D0].
  assert (apart (Vcs ∅ ∅)) as A0 by (intros p q pl pq Q; cbn [v_places] in Q; rewrite lookup_empty in Q; discriminate Q).
  destruct (calm_files (Vcs ∅ ∅) 1 home (CInit [B "w"] (B "main")) sample_world sample_world (Ok tt) w1 M0 A0 D0 (le_n 1) (Fi 1 ltac:(lia)) (user_none _ _ _ sample_order) I0) as (V1 & X1 & M1 & A1 & D1 & F1).
  { split; [exact R0|]. cbv zeta. rewrite Ah. split; [split; [exact Ow|]|].
    - intros s Q. vm_compute in Q. discriminate Q.
    - intros m Hm. apply elem_of_nil in Hm. destruct Hm. }
  { exact E1. }
  assert (is_Some (v_places V1 !! wdir)) as [pl P1].
  { cbn [vstep] in X1. rewrite Ah in X1. destruct X1 as [(_ & _ & pl & rid & -> & _)|(_ & Q & _)]; [|by destruct (Q tt)]. cbn [put_place v_places]. rewrite lookup_insert. by eexists. }
  pose proof (put_edits _ _ _ _ _ _ _ _ G M1 P1 T1 Q1) as U1. pose proof (models_while _ _ _ _ M1 (proj1 U1) (proj1 (proj2 U1))) as Mu1.
  destruct (calm_files V1 2 wdir (CCommit (B "one")) w1 u1 (Ok tt) w2 M1 A1 D1 ltac:(lia) (Fi 2 ltac:(lia)) U1 I1) as (V2 & X2 & M2 & A2 & D2 & F2).
  { split; [exact (place_runs _ _ _ _ G Mu1 (ex_intro _ _ P1))|]. left. exact (ex_intro _ _ P1). }
  { exact E2. }
  pose proof (C81_leaves _ _ _ _ _ _ _ _ Mu1 A1 X2 F2 (or_introl (ex_intro _ _ eq_refl)) P1) as L2.
  assert (is_Some (v_places V2 !! wdir)) as P2.
  { cbn [vstep] in X2. rewrite P1 in X2. destruct X2 as (x & a & _ & _ & [(_ & _ & t & a' & id & _ & _ & ->)|(_ & Q & _)]); [|by destruct (Q tt)]. cbn [put_place v_places]. rewrite lookup_insert. by eexists. }
  destruct (calm_files V2 3 home (CClone (B "w") (Some (B "c"))) w2 w2 (Ok tt) w3 M2 A2 D2 ltac:(lia) (Fi 3 ltac:(lia)) (user_none _ _ _ (md_order _ _ _ M2)) I2) as (V3 & X3 & M3 & A3 & D3 & F3).
  { split; [exact R2|]. cbv zeta. rewrite Aw, Ac. split; [left; exact P2|]. split; [exact Oc|]. intros [s Q]. rewrite N2 in Q. discriminate Q. }
  { exact E3. }
  destruct (C81_sealed _ _ _ _ _ _ M2 L2 F3) as [L3 _].
  assert (wdir ≠ cdir) as Nd by (vm_compute; discriminate).
  assert (is_Some (v_places V3 !! wdir)) as [pl3 P3].
  { rewrite (C80_places _ _ _ _ _ _ X3 wdir) by (left; cbn [target_of]; rewrite Ac; exact Nd). exact P2. }
  pose proof (put_edits _ _ _ _ _ _ _ _ G M3 P3 T3 Q3) as U3. pose proof (models_while _ _ _ _ M3 (proj1 U3) (proj1 (proj2 U3))) as Mu3.
  destruct (calm_files V3 4 wdir (CCommit (B "two")) w3 u3 (Ok tt) w4 M3 A3 D3 ltac:(lia) (Fi 4 ltac:(lia)) U3 I3) as (V4 & X4 & M4 & A4 & D4 & F4).
  { split; [exact (place_runs _ _ _ _ G Mu3 (ex_intro _ _ P3))|]. left. exact (ex_intro _ _ P3). }
  { exact E4. }
  assert (sealed sample_dr u3 V3 (pl_head pl)) as L3'.
  { destruct L3 as [Dd Ss]. split; [|exact Ss]. unfold is_dir_at in *. rewrite (proj2 (proj2 U3) _ Ss _ (is_prefix_refl _)). exact Dd. }
  destruct (C81_sealed _ _ _ _ _ _ Mu3 L3' F4) as [L4 _].
  exists w1, u1, w2, w3, u3, w4, V1, V2, V3, V4, pl. cbv zeta. split; [exact M0|]. split; [exact A0|]. split; [exact E1|]. split; [exact M1|]. split; [exact P1|]. split; [exact Q1|]. split; [exact U1|].
  split; [exact E2|]. split; [exact X2|]. split; [exact M2|]. split; [exact L2|]. split; [exact E3|]. split; [exact X3|]. split; [exact M3|]. split; [exact A3|]. split; [exact Q3|]. split; [exact U3|].
  split; [exact E4|]. split; [exact M4|]. split; [exact L4|]. split; [exact S1|exact S2].
Qed.
Print Assumptions C81_sat.
