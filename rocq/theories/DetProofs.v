(** * DetProofs: a file determines what it means *)
From Verif Require Import Base Uid SpecUid UidProofs Tree SpecTree TreeRefine TreeObs Dump DumpProofs Json JsonProofs Save SaveProofs Branch BranchProofs Date Ws SpecWs WsProofs
  Fs Overlay Os Layers Mounts Space Manager FsProofs OsProofs LayerProofs MountProofs SpaceProofs ManagerProofs SpecWorld SpecOps SavedProofs FaultProofs ReadyProofs OpProofs OpenProofs.
From Coq Require Import Lia.
From stdpp Require Import prelude gmap.

(** A saved tree is one tree. *)
Lemma repr_det t a a' : repr t a → repr t a' → a = a'.
Proof.
  intros R R'.
  assert (∀ id, has a id ↔ is_Some (get t id)) as H1.
  { intros id. split; [intros H; destruct (get_Some _ _ _ R H) as (l & _ & _ & E & _); by rewrite E|]. intros [l E]. by eapply get_has. }
  assert (∀ id, has a' id ↔ is_Some (get t id)) as H2.
  { intros id. split; [intros H; destruct (get_Some _ _ _ R' H) as (l & _ & _ & E & _); by rewrite E|]. intros [l E]. by eapply get_has. }
  assert (∀ (f g : option uid) , (∀ p, f = Some p → has a p) → (∀ p, g = Some p → has a p) → f ≫= get t = g ≫= get t → f = g) as Hg.
  { intros [p|] [q|] Hp Hq E; cbn in E; [..|done].
    - destruct (proj1 (H1 p) (Hp _ eq_refl)) as [l El]. rewrite El in E. f_equal. by eapply get_inj.
    - destruct (proj1 (H1 p) (Hp _ eq_refl)) as [l El]. congruence.
    - destruct (proj1 (H1 q) (Hq _ eq_refl)) as [l El]. congruence. }
  assert (∀ m m' : gmap bytes uid, (∀ k, m !! k ≫= get t = m' !! k ≫= get t) → (∀ k p, m !! k = Some p → has a p) → (∀ k p, m' !! k = Some p → has a p) → m = m') as Hm.
  { intros m m' H Hp Hq. apply map_eq. intros k. apply Hg; [apply Hp|apply Hq|apply H]. }
  assert (∀ p, has a' p → has a p) as Hh by (intros p; by rewrite H1, H2).
  destruct a as [nn bb tg], a' as [nn' bb' tg']. f_equal.
  - apply map_eq. intros id. destruct (nn !! id) as [an|] eqn:E, (nn' !! id) as [an'|] eqn:E'; [| | |done].
    + f_equal. destruct (r_node _ _ R id an E) as (l & n & El & N). destruct (r_node _ _ R' id an' E') as (l' & n' & El' & N').
      rewrite El in El'. injection El' as <-. pose proof (ni_at _ _ _ _ _ _ N) as Q. rewrite (ni_at _ _ _ _ _ _ N') in Q. injection Q as ->.
      destruct N as [_ _ Q1 Q2 Q3 _], N' as [_ _ Q1' Q2' Q3' _]. destruct an as [p m d], an' as [p' m' d']. cbn [an_parent an_anno an_data] in *. f_equal; [|congruence..].
      apply Hg; [| |congruence].
      * intros q ->. apply (ro_parent _ (r_ok _ _ R) id). by eexists.
      * intros q ->. apply Hh, (ro_parent _ (r_ok _ _ R') id). by eexists.
    + assert (has (ATree nn bb tg) id) as Q by (eexists; exact E). apply H1, H2 in Q as [? Q]. cbn in Q. congruence.
    + assert (has (ATree nn' bb' tg') id) as Q by (eexists; exact E'). apply H2, H1 in Q as [? Q]. cbn in Q. congruence.
  - apply Hm.
    + intros k. pose proof (r_br _ _ R k) as Q. rewrite (r_br _ _ R' k) in Q. done.
    + intros k p. apply (ro_branch _ (r_ok _ _ R)).
    + intros k p Hk. apply Hh. by apply (ro_branch _ (r_ok _ _ R')) in Hk.
  - apply Hm.
    + intros k. pose proof (r_tag _ _ R k) as Q. rewrite (r_tag _ _ R' k) in Q. done.
    + intros k p. apply (ro_tag _ (r_ok _ _ R)).
    + intros k p Hk. apply Hh. by apply (ro_tag _ (r_ok _ _ R')) in Hk.
Qed.
Lemma holds_det fs sp a a' : holds fs sp a → holds fs sp a' → a = a'.
Proof.
  intros (raw & E & L & _) (raw' & E' & L' & _). rewrite E in E'. injection E' as <-.
  destruct (L (λ l, l) (λ l, l)) as (t & Et & R); [done..|]. destruct (L' (λ l, l) (λ l, l)) as (t' & Et' & R'); [done..|].
  rewrite Et in Et'. injection Et' as <-. by eapply repr_det.
Qed.

Lemma torn_not_loads raw a : torn raw → ¬ loads_as raw a.
Proof.
  intros T [L _]. destruct (L (λ l, l) (λ l, l)) as (t & E & _); [done..|]. destruct (T (length raw) (λ l, l) (λ l, l)) as [e Q]. rewrite take_ge in Q by done. congruence.
Qed.
Lemma holds_rooted fs sp a : holds fs sp a → rooted a.
Proof. intros (raw & E & L & _). destruct (L (λ l, l) (λ l, l)) as (t & Et & R); [done..|]. apply R. Qed.
(** ** The record of a workspace says which layer is its working layer *)
Lemma info_head y y' h h' : marshal_wsinfo (ws_info y h) = marshal_wsinfo (ws_info y' h') → h = h' ∧ sp_id (ws_space y) = sp_id (ws_space y').
Proof.
  intros J. apply (f_equal unmarshal_wsinfo) in J. rewrite !wsinfo_round in J. unfold san_wsinfo, ws_info in J. cbn [wi_id wi_path wi_head wi_space wi_mount wi_branch] in J.
  rewrite !sanitize_uid_hex, !sanitize_b32 in J. apply (inj Some) in J. pose proof (f_equal wi_head J) as J1. pose proof (f_equal wi_space J) as J2. cbn [wi_head wi_space] in J1, J2.
  split; [by apply uid_hex_inj|by apply uid_b32_inj].
Qed.

Lemma san_chain a c l : chain a c l → chain (san_tree a) c l.
Proof. intros C. induction C as [id H|id p l H C IH]; [by apply chain_root, san_root|]. by apply chain_step with p; [apply san_parent|]. Qed.
Lemma init_chain rid id wid branch : rid ≠ id → chain (init_tree rid id wid branch) id [id; rid].
Proof.
  intros Ne. assert (chain (root_tree rid) rid [rid]) as C.
  { constructor. eexists. split; [apply lookup_insert|done]. }
  apply (chain_new _ id) in C; [|intros [? E]; unfold root_tree in E; cbn in E; by rewrite lookup_insert_ne in E].
  eapply chain_mono; [| |exact C]; done.
Qed.
