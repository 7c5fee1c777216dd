(** * SnapProofs: snapshots are kept and copied *)
From Verif Require Import Base Uid SpecUid UidProofs Tree SpecTree TreeRefine TreeObs Dump DumpProofs Json JsonProofs Save SaveProofs Branch BranchProofs Date Ws SpecWs WsProofs
  Fs Overlay Os Layers Mounts Space Manager Commands FsProofs OsProofs LayerProofs MountProofs SpaceProofs ManagerProofs SpecWorld SpecOps SavedProofs FaultProofs ReadyProofs OpProofs CalmProofs
  SpecMachine SpecCmds SpecLog MachineProofs OpenProofs CmdProofs ExpandProofs DetProofs SpecTidy TidyProofs Sample SampleProofs Story StoryProofs SpecUsable UsableProofs UsableCmdProofs UsableInitProofs UsableSeqProofs SpecNames NamesProofs LongerProofs SpecVcs VcsProofs
  PropsCommit PropsCmds PropsShow PropsUsable PropsRound PropsVcs PropsFiles Edits SpecEdits EditProofs PropsEdits SpecSnap.
From Coq Require Import Lia.
From stdpp Require Import prelude gmap.

Lemma used_present dr w V sid a : models dr w V → used V sid a → rooted a ∧ ∀ i, has a i → is_dir_at (w_fs w) (layer_dir (layers_root dr) i) = true ∧ is_dir_at (w_fs w) (diff_dir (layers_root dr) i) = true.
Proof.
  intros [Io (mids & _ & Hpl)] [(p & pl & Ep & <-) T]. destruct (Hpl _ _ Ep) as (_ & y & a' & Wa & T' & _). assert (a' = a) as -> by congruence.
  destruct (machine_present _ _ _ _ (io_machine _ _ Io) (wa_tree _ _ _ _ _ _ _ Wa)) as [LP Ro]. done.
Qed.
Lemma used_there dr w V sid a i : models dr w V → used V sid a → has a i → fget (w_fs w) (layer_dir (layers_root dr) i) ≠ None.
Proof. intros Md U Hi Q. destruct (used_present _ _ _ _ _ Md U) as [_ H]. destruct (H i Hi) as [D _]. unfold is_dir_at in D. by rewrite Q in D. Qed.
Lemma used_kept dr w w' V sid a i ch k : models dr w V → used V sid a → chain a i ch → untouched dr w w' → content dr (w_fs w') ch k = content dr (w_fs w) ch k.
Proof. intros Md U C Un. apply content_untouched; [done|]. apply Forall_forall. intros j Hj. destruct (used_present _ _ _ _ _ Md U) as [Ro H]. apply H. by eapply chain_has. Qed.
Lemma used_head dr w V p pl : models dr w V → v_places V !! p = Some pl → ∃ a, used V (pl_space pl) a ∧ has a (pl_head pl) ∧ ∃ c, SpecTree.parent_of a (pl_head pl) c.
Proof.
  intros [_ (mids & _ & Hpl)] Ep. destruct (Hpl _ _ Ep) as (_ & y & a & Wa & T & Hc & _). exists a. split; [split; [by exists p, pl|done]|]. split; [apply Wa|done].
Qed.
Lemma chain_start a i l : chain a i l → has a i.
Proof. intros C. destruct C as [i (n & E & _)|i q l (n & E & _) C]; by exists n. Qed.
(** Nothing changes but the machine. *)
Lemma snap_same dr w w' V Sn : snapped dr w V Sn → models dr w' V → untouched dr w w' → snapped dr w' V Sn.
Proof. intros [A1 A2 A3 A4 A5] Md Un. constructor; try done. intros sid a i ch k U C Hk. rewrite (used_kept _ _ _ _ _ _ _ _ _ A1 U C Un). by eapply A5. Qed.
(** Names change. *)
Lemma snap_names dr w w' V Sn sid a a' : snapped dr w V Sn → v_trees V !! sid = Some a → a_nodes a' = a_nodes a → models dr w' (put_tree V sid (san_tree a')) → untouched dr w w' →
  snapped dr w' (put_tree V sid (san_tree a')) Sn.
Proof.
  intros [A1 A2 A3 A4 A5] T En Md Un.
  assert (∀ s b, used (put_tree V sid (san_tree a')) s b → ∃ b0, used V s b0 ∧ (∀ i, has b i ↔ has b0 i) ∧ (∀ i j, SpecTree.parent_of b i j → SpecTree.parent_of b0 i j) ∧ ∀ i l, chain b i l → chain b0 i l) as H.
  { intros s b [Hu Tb]. cbn [put_tree v_places v_trees] in *. destruct (decide (sid = s)) as [<-|Ns].
    - rewrite lookup_insert in Tb. injection Tb as <-. exists a. split; [done|]. split; [|split].
      + intros i. rewrite san_has. unfold has. by rewrite En.
      + intros i j Hp. apply (proj1 (san_parent _ _ _)) in Hp. unfold SpecTree.parent_of in *. by rewrite <-En.
      + intros i l C. apply san_chain_inv in C. by apply (nodes_chain_inv a a').
    - rewrite lookup_insert_ne in Tb by done. by exists b. }
  constructor; try done.
  - intros p pl s b i Ep U Hp. destruct (H _ _ U) as (b0 & U0 & _ & Hp0 & _). cbn [put_tree v_places] in Ep. by eapply A3; [| |by apply Hp0].
  - intros s1 s2 b1 b2 i U1 U2 H1 H2. destruct (H _ _ U1) as (c1 & V1 & E1 & _), (H _ _ U2) as (c2 & V2 & E2 & _). eapply A4; [exact V1|exact V2|by apply E1|by apply E2].
  - intros s b i ch k U C Hk. destruct (H _ _ U) as (b0 & U0 & _ & _ & Hc). rewrite (used_kept _ _ _ _ _ _ _ _ _ A1 U0 (Hc _ _ C) Un). eapply A5; [done|by apply Hc|done].
Qed.
(** A layer is added. *)
Lemma snap_longer dr w w' V V' Sn sid a a' id base : snapped dr w V Sn → models dr w' V' → apart V' → untouched dr w w' → layers_new dr w w' V V' → used V sid a → longer a a' id base →
  v_trees V' = <[sid := san_tree a']> (v_trees V) → (∃ p pl, v_places V' !! p = Some pl ∧ pl_space pl = sid) → (∀ s b, used V' s b → ∃ p pl, v_places V !! p = Some pl ∧ pl_space pl = s) →
  (∀ p pl, v_places V' !! p = Some pl → pl_head pl ≠ base ∧ (pl_head pl = id ∨ v_places V !! p = Some pl)) →
  snapped dr w' V' (λ i, if decide (i = id) then Sn base else Sn i) ∧ ∀ i, fget (w_fs w) (layer_dir (layers_root dr) i) ≠ None → (if decide (i = id) then Sn base else Sn i) = Sn i.
Proof.
  intros [A1 A2 A3 A4 A5] Md Ap Un Ln U L Et Hu Hback Hpl. destruct (used_present _ _ _ _ _ A1 U) as [Ro Pr].
  assert (has (san_tree a') id) as Hid.
  { apply san_has. pose proof (lo_id _ _ _ _ L) as Q. unfold has. by destruct (a_nodes a' !! id). }
  assert (fget (w_fs w) (layer_dir (layers_root dr) id) = None ∧ new_empty dr w w') as [Nl Ne].
  { destruct (Ln sid (san_tree a') id) as [(b & [_ Tb] & Hb)|Q]; [split; [done|by rewrite Et, lookup_insert]|done| |done].
    destruct U as [_ T]. assert (b = a) as -> by congruence. destruct Hb as [x Hb]. pose proof (lo_new _ _ _ _ L). congruence. }
  assert (∀ s b i, used V s b → has b i → i ≠ id) as Nid by (intros s b i Ub Hb ->; by apply (used_there _ _ _ _ _ _ A1 Ub Hb)).
  assert (∀ s b, used V' s b → s = sid ∧ b = san_tree a' ∨ s ≠ sid ∧ used V s b) as Hc.
  { intros s b Ub. pose proof (Hback _ _ Ub) as Hp. destruct Ub as [_ Tb]. rewrite Et in Tb. destruct (decide (sid = s)) as [<-|Ns]; [rewrite lookup_insert in Tb; injection Tb as <-; by left|].
    rewrite lookup_insert_ne in Tb by done. right. split; [by apply not_eq_sym|]. by split. }
  assert (∀ i, has (san_tree a') i → i = id ∨ has a i) as Hh.
  { intros i Hi. apply (proj1 (san_has _ _)) in Hi. destruct (decide (i = id)) as [->|Ni]; [by left|right]. pose proof (lo_old _ _ _ _ L i Ni) as E. destruct Hi as [x Hx]. rewrite Hx in E. unfold has. by destruct (a_nodes a !! i). }
  split; [|intros i Hi; by rewrite decide_False by (by intros ->)].
  constructor; try done.
  - intros p pl s b i Ep Ub Hp. destruct (Hpl p pl Ep) as [Nb Ho]. destruct (Hc _ _ Ub) as [[-> ->]|[Ns U0]].
    + apply (proj1 (san_parent _ _ _)) in Hp. apply parent_alt in Hp. destruct (decide (i = id)) as [->|Ni]; [rewrite (lo_id _ _ _ _ L) in Hp; congruence|].
      rewrite (lo_old _ _ _ _ L i Ni) in Hp. apply parent_alt in Hp. destruct Ho as [Ho|Ho].
      * apply (Nid _ _ (pl_head pl) U); [by eapply ro_parent|done].
      * by eapply A3.
    + destruct Ho as [Ho|Ho].
      * destruct (used_present _ _ _ _ _ A1 U0) as [Rb _]. apply (Nid _ _ (pl_head pl) U0); [by eapply ro_parent|done].
      * by eapply A3.
  - intros s1 s2 b1 b2 i U1 U2 H1 H2. destruct (Hc _ _ U1) as [[-> ->]|[N1 V1]], (Hc _ _ U2) as [[-> ->]|[N2 V2]]; [done|..].
    + destruct (Hh _ H1) as [->|H1']; [by destruct (Nid _ _ _ V2 H2)|]. eapply A4; [exact U|exact V2|done|done].
    + destruct (Hh _ H2) as [->|H2']; [by destruct (Nid _ _ _ V1 H1)|]. eapply A4; [exact V1|exact U|done|done].
    + eapply A4; [exact V1|exact V2|done|done].
  - intros s b i ch k Ub C Hk. destruct (Hc _ _ Ub) as [[-> ->]|[Ns U0]].
    + apply san_chain_inv in C. destruct (decide (i = id)) as [->|Ni].
      * inversion C as [i' Hr|i' q l' Hp C']; subst; [apply root_alt in Hr; by rewrite (lo_id _ _ _ _ L) in Hr|].
        apply parent_alt in Hp. rewrite (lo_id _ _ _ _ L) in Hp. injection Hp as <-. apply (longer_chain _ _ _ _ _ _ Ro L (lo_base _ _ _ _ L)) in C'.
        rewrite (content_new dr w) by done. rewrite (used_kept _ _ _ _ _ _ _ _ _ A1 U C' Un). by eapply A5.
      * assert (has a i) as Hi by (destruct (Hh i) as [?|?]; [apply san_has; by eapply chain_start|done|done]).
        apply (longer_chain _ _ _ _ _ _ Ro L Hi) in C. rewrite (used_kept _ _ _ _ _ _ _ _ _ A1 U C Un). by eapply A5.
    + rewrite (used_kept _ _ _ _ _ _ _ _ _ A1 U0 C Un). rewrite decide_False; [by eapply A5|]. eapply Nid; [exact U0|by eapply chain_start].
Qed.
Lemma content_none dr w w' ch k : new_empty dr w w' → Forall (λ i, fget (w_fs w) (layer_dir (layers_root dr) i) = None) ch → k ≠ [] → content dr (w_fs w') ch k = None.
Proof. intros Ne F Hk. induction F as [|i ch Hi F IH]; [done|]. by rewrite (content_new dr w). Qed.
Lemma fresh_parent rid id wid b i c : rid ≠ id → SpecTree.parent_of (fresh_tree rid id wid b) i c → c = rid.
Proof.
  intros N (n & E & Ec). cbn [fresh_tree a_nodes] in E. apply lookup_insert_Some in E as [[_ <-]|[_ E]]; [done|]. apply lookup_singleton_Some in E as [_ <-]. cbn [an_parent] in Ec. congruence.
Qed.
(** A space is added. *)
Lemma snap_init dr w w' V Sn p pl rid branch : let V' := put_place V p pl (san_tree (fresh_tree rid (pl_head pl) (pl_id pl) branch)) in let Sn' := λ i, if decide (i = rid ∨ i = pl_head pl) then (λ _, None) else Sn i in
  snapped dr w V Sn → models dr w' V' → apart V' → untouched dr w w' → layers_new dr w w' V V' → rid ≠ pl_head pl → (∀ p2 pl2, v_places V !! p2 = Some pl2 → pl_space pl2 ≠ pl_space pl) →
  snapped dr w' V' Sn' ∧ ∀ i, fget (w_fs w) (layer_dir (layers_root dr) i) ≠ None → Sn' i = Sn i.
Proof.
  intros V' Sn' [A1 A2 A3 A4 A5] Md Ap Un Ln Nr Hs. set (a' := fresh_tree rid (pl_head pl) (pl_id pl) branch) in *.
  assert (used V' (pl_space pl) (san_tree a')) as U' by (split; [exists p, pl; cbn [V' put_place v_places]; by rewrite lookup_insert|cbn [V' put_place v_trees]; by rewrite lookup_insert]).
  assert (∀ a, ¬ used V (pl_space pl) a) as Nu by (intros a [(q & pq & Eq & Es) _]; by apply (Hs _ _ Eq)).
  assert (has (san_tree a') rid) as H1 by (apply san_has; eexists; cbn [a' fresh_tree a_nodes]; by rewrite lookup_insert).
  assert (has (san_tree a') (pl_head pl)) as H2 by (apply san_has; eexists; cbn [a' fresh_tree a_nodes]; by rewrite lookup_insert_ne, lookup_singleton).
  destruct (Ln _ _ _ U' H1) as [(b & Q & _)|[N1 Ne]]; [by apply Nu in Q|]. destruct (Ln _ _ _ U' H2) as [(b & Q & _)|[N2 _]]; [by apply Nu in Q|].
  assert (∀ i, has (san_tree a') i → fget (w_fs w) (layer_dir (layers_root dr) i) = None) as Hn by (intros i Hi; apply (proj1 (san_has _ _)) in Hi; by apply fresh_has in Hi as [->| ->]).
  assert (∀ s b i, used V s b → has b i → ¬ (i = rid ∨ i = pl_head pl)) as Nid by (intros s b i Ub Hb [->| ->]; by apply (used_there _ _ _ _ _ _ A1 Ub Hb)).
  assert (∀ s b, used V' s b → s = pl_space pl ∧ b = san_tree a' ∨ s ≠ pl_space pl ∧ used V s b) as Hc.
  { intros s b [(q & pq & Eq & Es) Tb]. cbn [V' put_place v_places v_trees] in Eq, Tb. destruct (decide (pl_space pl = s)) as [<-|Ns]; [rewrite lookup_insert in Tb; injection Tb as <-; by left|].
    rewrite lookup_insert_ne in Tb by done. right. split; [by apply not_eq_sym|]. split; [|done]. exists q, pq. split; [|done]. rewrite lookup_insert_ne in Eq; [done|]. intros ->. rewrite lookup_insert in Eq. by injection Eq as ->. }
  assert (∀ q pq, v_places V' !! q = Some pq → pq = pl ∨ v_places V !! q = Some pq) as Hpl.
  { intros q pq Eq. cbn [V' put_place v_places] in Eq. destruct (decide (p = q)) as [<-|Nq]; [rewrite lookup_insert in Eq; injection Eq as <-; by left|rewrite lookup_insert_ne in Eq by done; by right]. }
  split; [|intros i Hi; unfold Sn'; by rewrite decide_False by (by intros [->| ->])].
  constructor; try done.
  - intros q pq s b i Eq Ub Hp. destruct (Hc _ _ Ub) as [[-> ->]|[Ns U0]].
    + apply (proj1 (san_parent _ _ _)), fresh_parent in Hp; [|done]. destruct (Hpl _ _ Eq) as [->|E0]; [by destruct Nr|]. destruct (used_head _ _ _ _ _ A1 E0) as (b & Ub0 & Hb & _). apply (Nid _ _ _ Ub0 Hb). by left.
    + destruct (Hpl _ _ Eq) as [->|E0]; [|by eapply A3]. destruct (used_present _ _ _ _ _ A1 U0) as [Rb _]. apply (Nid _ _ (pl_head pl) U0); [by eapply ro_parent|by right].
  - intros s1 s2 b1 b2 i V1 V2 I1 I2. destruct (Hc _ _ V1) as [[-> ->]|[M1 W1]], (Hc _ _ V2) as [[-> ->]|[M2 W2]]; [done|..].
    + apply (proj1 (san_has _ _)), fresh_has in I1. by destruct (Nid _ _ _ W2 I2).
    + apply (proj1 (san_has _ _)), fresh_has in I2. by destruct (Nid _ _ _ W1 I1).
    + eapply A4; [exact W1|exact W2|done|done].
  - intros s b i ch k Ub C Hk. destruct (Hc _ _ Ub) as [[-> ->]|[Ns U0]].
    + rewrite (content_none dr w); [|done| |done].
      * unfold Sn'. rewrite decide_True; [done|]. eapply fresh_has. apply (proj1 (san_has _ _)). by eapply chain_start.
      * apply Forall_forall. intros j Hj. apply Hn. eapply chain_has; [|exact C|exact Hj]. by destruct (used_present _ _ _ _ _ Md Ub).
    + rewrite (used_kept _ _ _ _ _ _ _ _ _ A1 U0 C Un). unfold Sn'. rewrite decide_False; [by eapply A5|]. eapply Nid; [exact U0|by eapply chain_start].
Qed.
(** ** Commands *)
Lemma snap_step dr w w' V Sn d c r V' : snapped dr w V Sn → models dr w' V' → vstep w V d c r V' → files_step dr w w' V V' → proper V d c → ∃ Sn', snapped dr w' V' Sn' ∧ sstep dr w V Sn d c r V' Sn' ∧ (copies c → r = Ok tt → v_places V' !! target_of d c ≠ v_places V !! target_of d c).
Proof.
  intros Hs Md Vs Fs Pr. pose proof Fs as (Un & Ln & _). pose proof Hs as [A1 A2 A3 A4 A5]. pose proof (C81_apart _ _ _ _ _ _ _ _ A1 A2 Vs Fs) as Ap.
  assert (failed r → V' = V → ∃ Sn', snapped dr w' V' Sn' ∧ sstep dr w V Sn d c r V' Sn' ∧ (copies c → r = Ok tt → v_places V' !! target_of d c ≠ v_places V !! target_of d c)) as Hno.
  { intros Fr ->. exists Sn. split; [by eapply snap_same|]. split; [split; [done|]|]; intros _ ->; by destruct (Fr tt). }
  assert (∀ p pl a a' id base pl' F, v_places V !! p = Some pl → v_trees V !! pl_space pl = Some a → longer a a' id base → pl_space pl' = pl_space pl → pl_head pl' = id →
    V' = put_place V (target_of d c) pl' (san_tree a') → (∀ q pq, v_places V !! q = Some pq → q ≠ target_of d c → pl_head pq ≠ base) → copy_of V Sn d c F → F = Sn base →
    ∃ Sn', snapped dr w' V' Sn' ∧ sstep dr w V Sn d c r V' Sn' ∧ (copies c → r = Ok tt → v_places V' !! target_of d c ≠ v_places V !! target_of d c)) as Hput.
  { intros p pl a a' id base pl' F Ep T L Es Eh -> Hb Hc ->. assert (used V (pl_space pl) a) as U by (split; [by exists p, pl|done]).
    destruct (snap_longer dr w w' V (put_place V (target_of d c) pl' (san_tree a')) Sn (pl_space pl) a a' id base Hs Md Ap Un Ln U L) as [H1 H2].
    - cbn [put_place v_trees]. by rewrite Es.
    - exists (target_of d c), pl'. cbn [put_place v_places]. by rewrite lookup_insert.
    - intros s b [(q & pq & Eq & <-) _]. cbn [put_place v_places] in Eq. destruct (decide (target_of d c = q)) as [<-|Nq].
      + rewrite lookup_insert in Eq. injection Eq as <-. by exists p, pl.
      + rewrite lookup_insert_ne in Eq by done. by exists q, pq.
    - intros q pq Eq. cbn [put_place v_places] in Eq. destruct (decide (target_of d c = q)) as [<-|Nq].
      + rewrite lookup_insert in Eq. injection Eq as <-. split; [|by left]. rewrite Eh. intros ->. pose proof (lo_new _ _ _ _ L) as Q. destruct (lo_base _ _ _ _ L) as [x Q2]. congruence.
      + rewrite lookup_insert_ne in Eq by done. split; [|by right]. by eapply Hb.
    - eexists. split; [exact H1|]. cbn [put_place v_places]. split; [split; [exact H2|]|]; intros _ _; cbn [put_place v_places target_of]; rewrite lookup_insert.
      + exists (Sn base), pl'. split; [done|]. split; [done|]. by rewrite Eh, decide_True.
      + intros Q. destruct (used_head _ _ _ _ _ A1 (eq_sym Q)) as (b & [_ Tb] & [n Hb'] & _). rewrite Es, T in Tb. injection Tb as <-. pose proof (lo_new _ _ _ _ L) as Q2. congruence. }
  assert (∀ pl x a a', v_places V !! d = Some pl → v_trees V !! pl_space pl = Some a → names_result x (pl_head pl) c a a' r → ¬ copies c → V' = put_tree V (pl_space pl) (san_tree a') →
    ∃ Sn', snapped dr w' V' Sn' ∧ sstep dr w V Sn d c r V' Sn' ∧ (copies c → r = Ok tt → v_places V' !! target_of d c ≠ v_places V !! target_of d c)) as Hnm.
  { intros pl x a a' Ep T Hr Nc ->. exists Sn. split; [|split; [split; [done|]|]; intros Q; done]. eapply snap_names; [done|done| |done|done]. by eapply names_nodes. }
  assert (∀ sid a, used V sid a → rooted a) as Ro by (intros sid a U; by destruct (used_present _ _ _ _ _ A1 U)).
  destruct c as [args branch|source target|msg|key|opts args|opts args|args]; cbn [vstep] in Vs.
  - destruct Vs as [(_ & -> & pl & rid & -> & _ & Nr & Hn)|(_ & Fr & E)]; [|by apply Hno].
    destruct (snap_init dr w w' V Sn _ pl rid branch Hs Md Ap Un Ln Nr Hn) as [H1 H2]. eexists. split; [exact H1|]. cbn [put_place v_places target_of]. split; [split; [exact H2|]|]; intros _ _; cbn [put_place v_places target_of]; rewrite lookup_insert.
    + eexists _, pl. split; [done|]. split; [done|]. by rewrite decide_True by (by right).
    + intros Q. by destruct (Hn _ _ (eq_sym Q)).
  - destruct (v_places V !! _) as [pl|] eqn:Ep; [|by apply Hno; [apply Vs|apply Vs]]. destruct Vs as (x & a & a' & Sf & T & Ht & Vs). assert (used V (pl_space pl) a) as U by (split; [by eexists _, pl|done]).
    destruct (op_longer _ _ _ _ _ (Ro _ _ U) ltac:(right; right; eauto) Ht) as (id & base & L & Hb). cbn [based_on] in Hb.
    destruct Vs as [(_ & -> & pl' & E & Es & _ & Ad)|(_ & Fr & ->)].
    + eapply (Hput _ pl a a' id base pl'); [exact Ep|done|done|done|by eapply longer_added|done| | |done].
      * intros q pq Eq _ Q. rewrite <-Q in Hb. by eapply (A3 q pq).
      * cbn [copy_of]. exists pl, a, base. done.
    + destruct (snap_longer dr w w' V (put_tree V (pl_space pl) (san_tree a')) Sn (pl_space pl) a a' id base Hs Md Ap Un Ln U L) as [H1 H2].
      * done.
      * cbn [put_tree v_places]. by eexists _, pl.
      * intros s b [Q _]. exact Q.
      * intros q pq Eq. cbn [put_tree v_places] in Eq. split; [|by right]. intros Q. rewrite <-Q in Hb. by eapply (A3 q pq).
      * eexists. split; [exact H1|]. split; [split; [exact H2|]|]; intros _ ->; by destruct (Fr tt).
  - destruct (v_places V !! d) as [pl|] eqn:Ep; [|by apply Hno; [apply Vs|apply Vs]]. destruct Vs as (x & a & Sf & T & [(_ & -> & t & a' & id' & Ht & Ad & E)|(_ & Fr & E)]); [|by apply Hno].
    assert (used V (pl_space pl) a) as U by (split; [by eexists _, pl|done]).
    destruct (op_longer _ _ _ _ _ (Ro _ _ U) ltac:(left; eauto) Ht) as (id & base & L & Hb). cbn [based_on] in Hb. subst base.
    eapply (Hput d pl a a' id (pl_head pl) _); [done|done|done| | |exact E| | |done]; [done|by eapply longer_added| |].
    + intros q pq Eq Nq Q. apply Nq. by eapply A2.
    + cbn [copy_of]. by exists pl.
  - destruct (v_places V !! d) as [pl|] eqn:Ep; [|by apply Hno; [apply Vs|apply Vs]]. destruct Vs as (x & a & Sf & T & [(Hm & -> & a' & id' & Ht & Ad & E)|(_ & Fr & E)]); [|by apply Hno].
    assert (used V (pl_space pl) a) as U by (split; [by eexists _, pl|done]).
    destruct (op_longer _ _ _ _ _ (Ro _ _ U) ltac:(right; left; eauto) Ht) as (id & base & L & Hb). cbn [based_on] in Hb.
    assert (meant x (pl_head pl) a key = Some base) as Hm' by (destruct Hm as [j Hm]; unfold meant in *; by destruct (decode_b32 key)).
    eapply (Hput d pl a a' id base _); [done|done|done| | |exact E| | |done]; [done|by eapply longer_added| |].
    + intros q pq Eq Nq. by eapply Pr.
    + cbn [copy_of]. by exists pl, a, x, base.
  - destruct (v_places V !! d) as [pl|] eqn:Ep; [|by apply Hno; [apply Vs|apply Vs]]. destruct Vs as (x & a & _ & T & a' & Hr & E). eapply Hnm; [done|done|exact Hr|by intros []|done].
  - destruct (v_places V !! d) as [pl|] eqn:Ep; [|by apply Hno; [apply Vs|apply Vs]]. destruct Vs as (x & a & _ & T & a' & Hr & E). eapply Hnm; [done|done|exact Hr|by intros []|done].
  - destruct (v_places V !! d) as [pl|] eqn:Ep; [|by apply Hno; [apply Vs|apply Vs]]. destruct Vs as (x & a & _ & T & a' & Hr & E). eapply Hnm; [done|done|exact Hr|by intros []|done].
Qed.
Lemma vstep_keeps w V d c r V' p : vstep w V d c r V' → is_Some (v_places V !! p) → is_Some (v_places V' !! p).
Proof.
  intros Vs Hp. assert (∀ q pl a, is_Some (v_places (put_place V q pl a) !! p)) as Hput.
  { intros q pl a. cbn [put_place v_places]. destruct (decide (q = p)) as [->|N]; [by rewrite lookup_insert; eexists|by rewrite lookup_insert_ne]. }
  destruct c as [args branch|source target|msg|key|opts args|opts args|args]; cbn [vstep] in Vs.
  - by destruct Vs as [(_ & _ & pl & rid & -> & _)|(_ & _ & ->)].
  - destruct (v_places V !! Fs.abs_from d source) as [pl|]; [|by destruct Vs as [_ ->]]. destruct Vs as (x & a & a' & _ & _ & _ & [(_ & _ & pl' & -> & _)|(_ & _ & ->)]); [done|exact Hp].
  - destruct (v_places V !! d) as [pl|]; [|by destruct Vs as [_ ->]]. by destruct Vs as (x & a & _ & _ & [(_ & _ & t & a' & id' & _ & _ & ->)|(_ & _ & ->)]).
  - destruct (v_places V !! d) as [pl|]; [|by destruct Vs as [_ ->]]. by destruct Vs as (x & a & _ & _ & [(_ & _ & a' & id' & _ & _ & ->)|(_ & _ & ->)]).
  - destruct (v_places V !! d) as [pl|]; [|by destruct Vs as [_ ->]]. by destruct Vs as (x & a & _ & _ & a' & _ & ->).
  - destruct (v_places V !! d) as [pl|]; [|by destruct Vs as [_ ->]]. by destruct Vs as (x & a & _ & _ & a' & _ & ->).
  - destruct (v_places V !! d) as [pl|]; [|by destruct Vs as [_ ->]]. by destruct Vs as (x & a & _ & _ & a' & _ & ->).
Qed.
(** ** Edits *)
Lemma dir_of_ext F G k : (∀ k, k ≠ [] → F k = G k) → dir_of_shown F k → dir_of_shown G k.
Proof. intros H [Hk D]. split; [done|]. destruct D as [D|D]; [by left|]. destruct (parent_dir k) as [|n l]; [by left|]. right. by rewrite <-H. Qed.
Lemma can_edit_ext e F G : (∀ k, k ≠ [] → F k = G k) → can_edit e F → can_edit e G.
Proof.
  intros H. destruct e as [k data|k|k s|k|k l]; cbn [can_edit]; intros [D Q]; pose proof D as [Hk _]; (split; [by eapply dir_of_ext|]); rewrite <-H by done; [done..| |].
  - destruct Q as [Q1 Q2]. split; [done|]. intros n. rewrite <-H; [done|]. by destruct k.
  - destruct Q as (D2 & Q1 & Q2). split; [by eapply dir_of_ext|]. split; [done|]. rewrite <-H; [done|]. apply D2.
Qed.
Lemma edited_ext e F G k : (∀ k, k ≠ [] → F k = G k) → can_edit e F → k ≠ [] → edited e F k = edited e G k.
Proof.
  intros H C Hk. destruct e as [q data|q|q s|q|q l]; cbn [edited]; (case_decide; [try done|]); [by apply H..| |].
  - apply H. by destruct C as [[] _].
  - case_decide; [done|by apply H].
Qed.
Lemma asleep_mount dr w V p pl : good_path dr → models dr w V → v_places V !! p = Some pl → ¬ awake dr w p → mount_of w p = None.
Proof.
  intros G [_ (mids & _ & Hpl)] Ep Na. destruct (Hpl _ _ Ep) as (_ & y & a & Wa & _). unfold mount_of. rewrite (wa_link _ _ _ _ _ _ _ Wa), join_path_str by (by apply good_merged).
  destruct (mount_at _ _) as [m|] eqn:E; [|done]. destruct (mounts_below (w_mounts w) (mount_dir dr (mids p))) as [|m' l] eqn:Em; [by eapply none_at in E; [| |apply is_prefix_app]|].
  destruct Na. exists (mids p). split; [apply Wa|by rewrite Em].
Qed.
Lemma awake_dec dr w V p pl : good_path dr → models dr w V → v_places V !! p = Some pl → awake dr w p ∨ ¬ awake dr w p.
Proof.
  intros G [_ (mids & _ & Hpl)] Ep. destruct (Hpl _ _ Ep) as (_ & y & a & Wa & _). destruct (mounts_below (w_mounts w) (mount_dir dr (mids p))) as [|m l] eqn:Em.
  - right. intros (i & L & Q). rewrite (wa_link _ _ _ _ _ _ _ Wa) in L. apply (inj Some) in L. apply (f_equal (λ f, match f with FLink s => s | _ => [] end)) in L. cbv beta iota in L. apply path_str_merged in L as <-; done.
  - left. exists (mids p). split; [apply Wa|by rewrite Em].
Qed.
Lemma head_only V Sn dr w p pl sid a i ch : snapped dr w V Sn → v_places V !! p = Some pl → used V sid a → chain a i ch → pl_head pl ∈ ch → i = pl_head pl.
Proof.
  intros Hs Ep U C. induction C as [i Hr|i q l Hp C IH]; intros Hi; [by apply elem_of_list_singleton in Hi|]. apply elem_of_cons in Hi as [->|Hi]; [done|].
  destruct (sn_tips _ _ _ _ Hs _ _ _ _ i Ep U). by rewrite <-(IH Hi).
Qed.
