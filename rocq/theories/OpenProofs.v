(** * OpenProofs: GetWorkspaceFromPath under every fault *)
From Verif Require Import Base Uid SpecUid UidProofs Tree SpecTree TreeRefine TreeObs Dump DumpProofs Json JsonProofs Save SaveProofs Branch BranchProofs Date Ws SpecWs WsProofs
  Fs Overlay Os Layers Mounts Space Manager Commands FsProofs OsProofs LayerProofs MountProofs SpaceProofs ManagerProofs SpecWorld SpecOps SavedProofs FaultProofs ReadyProofs OpProofs CalmProofs SpecMachine SpecCmds MachineProofs.
From Coq Require Import Lia.
From stdpp Require Import prelude gmap.

Lemma san_valid a : valid_tree (san_tree a).
Proof.
  split; [|split].
  - intros k v (k0 & v0 & _ & -> & _)%san_map_in. apply sanitize_is_valid.
  - intros k v (k0 & v0 & _ & -> & _)%san_map_in. apply sanitize_is_valid.
  - intros i an. cbn [san_tree a_nodes]. rewrite lookup_fmap. destruct (a_nodes a !! i) as [n|]; [|done]. intros [= <-]. cbn [san_anode an_anno an_data]. split.
    + intros k v (k0 & v0 & _ & -> & ->)%san_map_in. split; apply sanitize_is_valid.
    + intros k v (k0 & v0 & _ & -> & _)%san_map_in. apply sanitize_is_valid.
Qed.
Lemma san_idemp a : san_tree (san_tree a) = san_tree a.
Proof. apply san_tree_id, san_valid. Qed.
Lemma san_present fs lroot a : layers_present fs lroot a → layers_present fs lroot (san_tree a).
Proof. intros H i Hi. apply H. by apply san_has. Qed.

(** Reading a file that is not a link *)
Lemma read_any p o w re w1 : (∀ t, fget (w_fs w) p ≠ Some (FLink t)) → os_read_file p o w = (Ok re, w1) →
  re.1 = [] ∧ is_Some (re.2) ∨ ∃ raw n, fget (w_fs w) p = Some (FFile raw) ∧ re.1 = take n raw ∧ (re.2 = None → re.1 = raw).
Proof.
  intros NL E. unfold os_read_file in E. cbv zeta in E. unfold real_path in E. cbn [real] in E.
  destruct (fget (w_fs w) p) as [[b|raw|t|]|] eqn:G; try (rewrite G in E).
  - left. destruct (ch_fault _); try done; injection E as <- _; eauto.
  - right. destruct (ch_fault _) as [|e n|n]; try done; injection E as <- _; cbn [fst snd].
    + exists raw, (length raw). split; [done|]. by rewrite take_ge.
    + exists raw, n. done.
  - by destruct (NL t).
  - left. destruct (ch_fault _); try done; injection E as <- _; eauto.
  - left. destruct (ch_fault _); try done; injection E as <- _; eauto.
Qed.
Lemma quiet_load sp o w r w' : space_load sp o w = (r, w') → ∃ t k, w' = upd w (w_fs w) (w_mounts w) t k ∧ (t = w_tree w ∨ r = Ok tt).
Proof.
  intros H. unfold space_load in H. apply bind_any in H as [(re & w1 & E & H)|(r1 & E & _ & _)].
  2:{ apply quiet_read_file in E as (k & ->). eauto. }
  apply quiet_read_file in E as (k & ->). case_decide; [injection H as _ <-; eauto|].
  rewrite bind_next in H. rewrite bind_next in H. apply bind_any in H as [(t & w1 & E & H)|(r1 & E & _ & _)].
  - injection E as _ <-. injection H as <- <-. eexists _, _. split; [reflexivity|]. by right.
  - injection E as _ <-. eexists _, _. split; [reflexivity|]. by left.
Qed.
Lemma load_any dr sid o w w' : fair o → tree_state dr (w_fs w) sid → space_load (the_space dr sid) o w = (Ok tt, w') →
  ∃ a, holds (w_fs w) (the_space dr sid) (san_tree a) ∧ layers_present (w_fs w) (layers_root dr) a ∧ repr (w_tree w') (san_tree a).
Proof.
  intros F T H. unfold space_load in H. apply bind_ok in H as (re & w1 & E & H). pose proof (quiet_read_file _ _ _ _ _ E) as (k & ->).
  case_decide as N; [done|]. rewrite bind_next in H. rewrite bind_next in H. apply bind_ok in H as (t & w1 & E1 & H).
  apply lift_ok in E1 as [E1 ->]. injection H as <-. cbn [w_tree set_tree w_fs tick upd w_tick] in *.
  assert (∀ t, fget (w_fs w) (tree_file (the_space dr sid)) ≠ Some (FLink t)) as NL.
  { intros t' Q. destruct T as [T|[(raw & T & _)|(a & (raw & T & _) & _)]]; congruence. }
  assert (∀ ordb ordt, ∃ e, load_bytes ordb ordt [] = Err e) as L0 by (intros; eexists; reflexivity).
  apply (read_any _ _ _ _ _ NL) in E as [[E _]|(raw & n & E & E2 & _)].
  { rewrite E in E1. destruct (L0 (ch_names (o k)) (ch_names (o (S k)))) as [e Q]. congruence. }
  rewrite E2 in E1. destruct T as [T|[(raw' & T & To)|(a & (raw' & T & [Lo Cut]) & LP)]]; [congruence|..];
    rewrite E in T; injection T as <-.
  { destruct (To n (ch_names (o k)) (ch_names (o (S k)))) as [e Q]. congruence. }
  destruct (Cut n) as [Q|Q].
  2:{ destruct (Q n (ch_names (o k)) (ch_names (o (S k)))) as [e Q']. rewrite take_take, Nat.min_id in Q'. congruence. }
  rewrite Q in E1. destruct (Lo (ch_names (o k)) (ch_names (o (S k)))) as (t' & E' & R); [apply F..|].
  rewrite E1 in E'. injection E' as <-. exists a. split; [exists raw; done|]. done.
Qed.
Lemma sanitize_b32 i : sanitize (uid_b32 i) = uid_b32 i.
Proof. apply sanitize_valid, b32_valid. Qed.
(** Programs that change no file and no mount *)
Definition reader {A} (m : M A) : Prop :=
  ∀ o w r w', m o w = (r, w') → ∃ t k, w' = upd w (w_fs w) (w_mounts w) t k.
Lemma quiet_reader {A} (m : M A) : quiet m → reader m.
Proof. intros H o w r w' (k & ->)%H. eauto. Qed.
Lemma reader_bind {A C} (m : M A) (f : A → M C) : reader m → (∀ x, reader (f x)) → reader (bind m f).
Proof.
  intros Hm Hf o w r w' [(x & w1 & E & H)|(r1 & E & _)]%bind_any; [|by eapply Hm].
  apply Hm in E as (t & k & ->). apply Hf in H as (t' & k' & ->). eexists _, _. reflexivity.
Qed.
Lemma reader_load sp : reader (space_load sp).
Proof. intros o w r w' (t & k & -> & _)%quiet_load. eauto. Qed.
Lemma reader_get_workspace dr arg : reader (get_workspace dr arg).
Proof.
  unfold get_workspace. apply reader_bind; [apply quiet_reader, quiet_abs|]. intros p.
  apply reader_bind; [apply quiet_reader, quiet_is_symlink|]. intros b.
  apply reader_bind; [apply quiet_reader; quiet; apply quiet_abs|]. intros mp.
  apply reader_bind; [apply quiet_reader, quiet_lift|]. intros mid.
  apply reader_bind; [apply quiet_reader, quiet_load_info|]. intros wi.
  apply reader_bind; [apply quiet_reader, quiet_lift|]. intros wid.
  apply reader_bind; [apply quiet_reader, quiet_lift|]. intros sid. cbv zeta.
  apply reader_bind; [apply reader_load|]. intros _. apply quiet_reader. quiet.
Qed.
Lemma look_ok {A} (f : world → res A) o w x w' : look f o w = (Ok x, w') → f (tick w) = Ok x ∧ w' = tick w.
Proof. unfold look, sys_atomic. destruct (ch_fault _) as [|e n|[|n]]; try done. by intros [= -> <-]. Qed.
Lemma abs_ok s o w p w' : fp_abs s o w = (Ok p, w') → p = abs_of w s.
Proof.
  unfold fp_abs, abs_of. destruct (is_abs s); [by intros [= <- _]|]. intros (d & w1 & E & H)%bind_ok.
  injection H as <- _. unfold os_getwd in E. apply look_ok in E as [E _]. destruct (_ || _); [|done]. injection E as <-. done.
Qed.
Lemma load_info_any dr fs ms mid o w wi w' : machine dr fs ms → w_fs w = fs → load_ws_info dr mid o w = (Ok wi, w') →
  ∃ y hid, fget fs (ws_file dr mid) = Some (FFile (marshal_wsinfo (ws_info y hid))) ∧ mv_id (ws_mount y) = mid ∧ wi = san_wsinfo (ws_info y hid).
Proof.
  intros Mc <- H. unfold load_ws_info in H. apply bind_ok in H as (re & w1 & E & H).
  assert (∀ t, fget (w_fs w) (ws_file dr mid) ≠ Some (FLink t)) as NL.
  { intros t Q. apply (mc_info _ _ _ Mc) in Q as (raw & ? & _). done. }
  apply (read_any _ _ _ _ _ NL) in E as [[_ [e E]]|(raw & n & E & E2 & E3)]; [by rewrite E in H|].
  destruct re as [d [e|]]; [done|]. cbn [fst snd] in *. specialize (E3 eq_refl). clear E2. subst d.
  apply lift_ok in H as [H _]. destruct (mc_info _ _ _ Mc _ _ E) as (raw' & [= <-] & [Q|(y & hid & -> & Q)]); [by rewrite Q in H|].
  rewrite wsinfo_round in H. injection H as <-. eauto.
Qed.
(** Which mount a path belongs to *)
Lemma rel_first_below b k : rel_first b (b ++ k) = match k with [] => B "." | c :: _ => c end.
Proof. induction b as [|c b IH]; [by destruct k|]. cbn [app rel_first]. by rewrite decide_True. Qed.
Lemma rel_first_outside dr n p : outside dr p → rel_first (dr ++ [n]) p = B "..".
Proof.
  intros [H1 H2]. revert p H1 H2. induction dr as [|c dr IH]; intros p H1 H2; [done|]. destruct p as [|c' p]; [done|].
  cbn [app rel_first]. case_decide as D; [|done]. subst c'. cbn [is_prefix] in *. rewrite bool_decide_true in H1, H2 by done. by apply IH.
Qed.
Lemma get_workspace_any dr arg o w x w' : good_path dr → fair o → machine dr (w_fs w) (w_mounts w) → get_workspace dr arg o w = (Ok x, w') →
  ∃ a hid, live dr w' x (san_tree a) hid ∧ found_at dr w arg x hid.
Proof.
  intros Gd F Mc H. pose proof (reader_get_workspace _ _ _ _ _ _ H) as (tt' & kk & Hw').
  unfold get_workspace in H.
  apply bind_ok in H as (p & w1 & E & H). pose proof (abs_ok _ _ _ _ _ E) as Hp. apply quiet_abs in E as (k1 & ->).
  apply bind_ok in H as (b & w1 & E & H). apply quiet_is_symlink in E as (k2 & ->).
  apply bind_ok in H as (mp & w1 & E & H).
  assert (mp = p ∨ ∃ s, fget (w_fs w) p = Some (FLink s) ∧ (is_abs s = true → mp = pjoin [] s)) as Hmp.
  { destruct b; [|injection E as <- _; by left]. apply bind_ok in E as (s & w2 & E1 & E2). right. exists s.
    unfold os_readlink in E1. apply look_ok in E1 as [E1 _]. cbn [w_fs tick upd] in E1. split; [by destruct (fget (w_fs w) p) as [[]|]; simplify_eq|].
    intros Ha. apply abs_ok in E2. unfold abs_of in E2. by rewrite Ha in E2. }
  assert (quiet (if b : bool then s <- os_readlink p;; fp_abs s else ret p)) as Q by (quiet; apply quiet_abs).
  apply Q in E as (k3 & ->). clear Q b. rewrite !upd_upd in H. cbn [w_fs w_mounts w_tree upd] in H.
  apply bind_ok in H as (mid & w1 & E & H). apply lift_ok in E as [Hmid ->].
  apply bind_ok in H as (wi & w1 & E & H). pose proof (λ Q, load_info_any _ _ _ _ _ _ _ _ Mc Q E) as Q. destruct (Q eq_refl) as (y & hid & Ey & Em & ->). clear Q.
  apply quiet_load_info in E as (k4 & ->). rewrite !upd_upd in H. cbn [w_fs w_mounts w_tree upd] in H.
  unfold san_wsinfo, ws_info in H. cbn [wi_id wi_path wi_head wi_space wi_mount wi_branch] in H.
  rewrite !sanitize_b32, sanitize_uid_hex in H.
  apply bind_ok in H as (wid & w1 & E & H). apply lift_ok in E as [E ->]. rewrite decode_b32_b32 in E. injection E as <-.
  apply bind_ok in H as (sid & w1 & E & H). apply lift_ok in E as [E ->]. rewrite decode_b32_b32 in E. injection E as <-. cbv zeta in H.
  rewrite !join_name in H by apply good_uid.
  change (Space (sp_id (ws_space y)) (spaces_root dr ++ [uid_b32 (sp_id (ws_space y))])) with (the_space dr (sp_id (ws_space y))) in H.
  apply bind_ok in H as ([] & w1 & E & H).
  pose proof (λ Q, load_any _ _ _ _ _ F Q E) as Q. destruct (Q (mc_tree _ _ _ Mc _)) as (a & Ho & LP & R). clear Q.
  apply reader_load in E as (t & k & ->). cbn [w_fs w_mounts w_tree upd] in *.
  apply bind_ok in H as (h & w1 & E & H). apply lift_ok in E as [E ->]. rewrite decode_hex_hex in E. injection E as <-.
  rewrite bind_gets in H. cbn [w_tree upd] in H. destruct (get t hid) as [hl|] eqn:G; [|done]. injection H as Ex Ew.
  exists a, hid. subst x. split.
  - rewrite <-Ew. constructor; cbn [w_fs w_tree upd ws_space ws_head]; try done.
    + apply Mc.
    + by apply san_present.
    + by rewrite san_idemp.
  - constructor; cbn [ws_path ws_mount mounted_mount mv_id ws_id ws_space the_space sp_id ws_branch]; try done.
    + by rewrite Em.
    + intros mid' O Hl. destruct Hmp as [->|(s & Hs & Ha)].
      * unfold mounts_root in Hmid. rewrite (rel_first_outside _ _ _ O) in Hmid. vm_compute in Hmid. discriminate Hmid.
      * assert (s = path_str (mount_dir dr mid' ++ [B "merged"])) as -> by congruence. rewrite Ha in Hmid by apply is_abs_path_str.
        rewrite join_path_str in Hmid.
        2:{ unfold mount_dir, mounts_root. rewrite <-(app_assoc dr). apply good_mount_dir; [done|]. unfold good_name. split_and!; try done. intros Q. repeat (apply elem_of_cons in Q as [Q|Q]; [vm_compute in Q; discriminate Q|]). by apply elem_of_nil in Q. }
        unfold mount_dir in Hmid. rewrite <-app_assoc, rel_first_below in Hmid. cbn [app] in Hmid. rewrite decode_b32_b32 in Hmid. congruence.
    + intros mid' k' Hpk Hn. destruct Hmp as [->|(s & Hs & _)]; [|by destruct (Hn s)].
      rewrite Hpk in Hmid. unfold mount_dir in Hmid. rewrite <-app_assoc, rel_first_below in Hmid. cbn [app] in Hmid. rewrite decode_b32_b32 in Hmid. congruence.
    + exists y. done.
Qed.
