(** * LongerProofs: trees to which a layer was added *)
From Verif Require Import Base Uid SpecUid UidProofs Tree SpecTree TreeRefine TreeObs Dump DumpProofs Json JsonProofs Save SaveProofs Branch BranchProofs Date Ws SpecWs WsProofs
  Fs Overlay Os Layers Mounts Space Manager Commands FsProofs OsProofs LayerProofs MountProofs SpaceProofs ManagerProofs SpecWorld SpecOps SavedProofs FaultProofs ReadyProofs OpProofs CalmProofs
  SpecMachine SpecCmds MachineProofs OpenProofs CmdProofs ExpandProofs DetProofs SpecTidy TidyProofs.
From Coq Require Import Lia.
From stdpp Require Import prelude gmap.

(** [a'] is [a] with one more layer [id], on top of [c], as far as parents go. *)
Record longer (a a' : atree) (id c : uid) : Prop := {
  lo_new : a_nodes a !! id = None;
  lo_base : has a c;
  lo_old : ∀ i, i ≠ id → an_parent <$> a_nodes a' !! i = an_parent <$> a_nodes a !! i;
  lo_id : an_parent <$> a_nodes a' !! id = Some (Some c) }.
Lemma op_longer x hid op a a' : rooted a → (∃ d m, op = OCommit d m) ∨ (∃ k, op = OCheckout k) ∨ (∃ p, op = OClone p) → op_tree x hid op a a' →
  ∃ id c, longer a a' id c ∧ based_on x hid op a c.
Proof.
  intros Ro [(d & m & ->)|[(k & ->)|(p & ->)]]; cbn [op_tree].
  - intros (n & id & E & Ei & H). assert (a_nodes a' = a_nodes (plus_node (plus_node a hid (committed n d m)) id (ANode (Some hid) ∅ ∅))) as En by (by destruct H as [[_ ->]|(_ & -> & _)]).
    exists id, hid. split; [|done]. assert (hid ≠ id) as Ne by congruence. constructor; [done|by exists n|..]; rewrite En; cbn [plus_node a_nodes].
    + intros i Hi. rewrite lookup_insert_ne by done. destruct (decide (hid = i)) as [->|Nh]; [by rewrite lookup_insert, E|by rewrite lookup_insert_ne].
    + by rewrite lookup_insert.
  - intros (c & id & Hc & Ei & ->). exists id, c. split; [|done]. constructor; [done|by eapply resolve_has|..]; cbn [plus_node a_nodes]; [intros i Hi; by rewrite lookup_insert_ne|by rewrite lookup_insert].
  - intros (c & id & Hc & Ei & ->). exists id, c. split; [|done]. constructor; [done|by eapply ro_parent|..]; cbn [plus_node a_nodes]; [intros i Hi; by rewrite lookup_insert_ne|by rewrite lookup_insert].
Qed.
Lemma parent_alt a i c : SpecTree.parent_of a i c ↔ an_parent <$> a_nodes a !! i = Some (Some c).
Proof.
  unfold SpecTree.parent_of. split.
  - intros (n & -> & E). cbn. by rewrite E.
  - destruct (a_nodes a !! i) as [n|]; cbn; [|done]. intros [= E]. by exists n.
Qed.
Lemma root_alt a i : is_root a i ↔ an_parent <$> a_nodes a !! i = Some None.
Proof.
  unfold is_root. split.
  - intros (n & -> & E). cbn. by rewrite E.
  - destruct (a_nodes a !! i) as [n|]; cbn; [|done]. intros [= E]. by exists n.
Qed.
Lemma longer_parent a a' id c i q : longer a a' id c → SpecTree.parent_of a i q → SpecTree.parent_of a' i q.
Proof.
  intros [A1 A2 A3 A4] H. apply parent_alt. destruct (decide (i = id)) as [->|Ni]; [destruct H as (n & E & _); congruence|]. rewrite A3 by done. by apply parent_alt.
Qed.
Lemma longer_chain a a' id c i l : rooted a → longer a a' id c → has a i → chain a' i l → chain a i l.
Proof.
  intros Ro L Hi C. revert Hi. induction C as [i Hr|i q l Hp C IH]; intros Hi; assert (i ≠ id) as Ni by (intros ->; destruct Hi as [n E]; pose proof (lo_new _ _ _ _ L); congruence).
  - apply chain_root, root_alt. rewrite <-(lo_old _ _ _ _ L) by done. by apply root_alt.
  - assert (SpecTree.parent_of a i q) as Hp' by (apply parent_alt; rewrite <-(lo_old _ _ _ _ L) by done; by apply parent_alt). apply chain_step with q; [done|]. apply IH. by eapply ro_parent.
Qed.
Lemma longer_depth a a' id c n : rooted a → longer a a' id c → (∀ i l, chain a i l → length l ≤ n) → ∀ i l, chain a' i l → length l ≤ S n.
Proof.
  intros Ro L Hd i l C. destruct (decide (i = id)) as [->|Ni].
  - inversion C as [i' Hr|i' q l' Hp C']; subst; cbn [length]; [lia|].
    apply parent_alt in Hp. rewrite (lo_id _ _ _ _ L) in Hp. injection Hp as <-. apply (longer_chain _ _ _ _ _ _ Ro L (lo_base _ _ _ _ L)), Hd in C'. lia.
  - assert (has a i) as Hi.
    { pose proof (lo_old _ _ _ _ L i Ni) as Q. unfold has. destruct C as [i Hr|i q l Hp C]; [apply root_alt in Hr; rewrite Hr in Q|apply parent_alt in Hp; rewrite Hp in Q]; (destruct (a_nodes a !! i) as [m|]; [by exists m|done]). }
    apply (longer_chain _ _ _ _ _ _ Ro L Hi), Hd in C. lia.
Qed.
Lemma longer_has a a' id c i : longer a a' id c → has a' i → ¬ has a i → i = id.
Proof.
  intros [A1 A2 A3 A4] [n E] N. destruct (decide (i = id)) as [->|Ni]; [done|]. destruct N. unfold has in *. specialize (A3 i Ni). rewrite E in A3. cbn in A3.
  destruct (a_nodes a !! i); [by eexists|done].
Qed.
Lemma longer_keeps a a' id c i l : longer a a' id c → chain a i l → chain a' i l.
Proof.
  intros L C. induction C as [i Hr|i q l Hp C IH].
  - apply chain_root, root_alt. assert (i ≠ id) as Ni by (intros ->; destruct Hr as (n & E & _); pose proof (lo_new _ _ _ _ L); congruence). rewrite (lo_old _ _ _ _ L) by done. by apply root_alt.
  - apply chain_step with q; [by eapply longer_parent|done].
Qed.
Lemma based_det x hid op a c c' : based_on x hid op a c → based_on x hid op a c' → c = c'.
Proof. destruct op; cbn [based_on]; try done; [congruence|congruence|]. intros (n & H1 & H2) (n' & H1' & H2'). congruence. Qed.
(** The history of the new working layer *)
Lemma begun_chain dr x hid op a y mid id ch a' base : rooted a → (∃ d m, op = OCommit d m) ∨ (∃ k, op = OCheckout k) ∨ (∃ p, op = OClone p) →
  begun dr x hid op a y mid id ch a' base → ¬ has a id → chain (san_tree a') id (id :: ch).
Proof.
  intros Ro Ho Bg N. destruct (op_longer _ _ _ _ _ Ro Ho (bg_op _ _ _ _ _ _ _ _ _ _ _ Bg)) as (i & c & L & Hb). pose proof (longer_has _ _ _ _ _ L (bg_head _ _ _ _ _ _ _ _ _ _ _ Bg) N) as ->.
  pose proof (based_det _ _ _ _ _ _ Hb (bg_base _ _ _ _ _ _ _ _ _ _ _ Bg)) as ->. apply san_chain, chain_step with base; [apply parent_alt, L|]. eapply longer_keeps; [exact L|apply Bg].
Qed.
