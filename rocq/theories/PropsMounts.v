(** * PropsMounts: the option string of the overlay mount, C33 and C34.

    A stack is given by the IDs [ids] of the layers below (nearest first), the ID [up] of the working
    layer and the ID [mid] of the mount; [stack_data] is the string the program passes to mount(2) for it
    in data root [dr]. A path is [plain] when no name in it contains a comma, a colon or a backslash, and
    [good] when its names are non-empty, contain no slash and are not "." or "..". *)
From Verif Require Import Base Uid SpecUid UidProofs Tree Dump Branch Date Ws Fs Overlay Os Layers Mounts Space Manager Commands Sample
  FsProofs OsProofs LayerProofs MountProofs.
From Coq Require Import Lia.
From stdpp Require Import prelude.

Definition stack_lowers (dr : path) (ids : list uid) : list path := (λ id, dr ++ [B "overlay"; uid_b32 id; B "diff"]) <$> ids.
Definition stack_upper (dr : path) (up : uid) : path := dr ++ [B "overlay"; uid_b32 up; B "diff"].
Definition stack_work (dr : path) (mid : uid) : path := dr ++ [B "mounts"; uid_b32 mid; B "work"].
Definition stack_data (dr : path) (ids : list uid) (up mid : uid) : bytes :=
  overlay_data (stack_lowers dr ids) (stack_upper dr up) (stack_work dr mid).

Lemma stack_diff dr id : dr ++ [B "overlay"; uid_b32 id; B "diff"] = diff_dir (dr ++ [B "overlay"]) id.
Proof. unfold diff_dir, layer_dir. by rewrite <-!app_assoc. Qed.
Lemma stack_lowers_eq dr ids : stack_lowers dr ids = diff_dir (dr ++ [B "overlay"]) <$> ids.
Proof. unfold stack_lowers. apply list_fmap_ext. intros _ id _. apply stack_diff. Qed.
Lemma stack_work_eq dr mid : stack_work dr mid = (dr ++ [B "mounts"; uid_b32 mid]) ++ [B "work"].
Proof. unfold stack_work. by rewrite <-app_assoc. Qed.
Lemma stack_plain dr ids up mid : plain_path dr →
  Forall plain_path (stack_lowers dr ids) ∧ plain_path (stack_upper dr up) ∧ plain_path (stack_work dr mid).
Proof.
  intros P. split; [|split].
  - rewrite stack_lowers_eq. apply Forall_fmap, Forall_true. intros id. by apply plain_diff.
  - unfold stack_upper. rewrite stack_diff. by apply plain_diff.
  - rewrite stack_work_eq. by apply plain_work.
Qed.
Lemma stack_good dr ids up mid : good_path dr →
  Forall good_path (stack_lowers dr ids) ∧ good_path (stack_upper dr up) ∧ good_path (stack_work dr mid).
Proof.
  intros P. split; [|split].
  - rewrite stack_lowers_eq. apply Forall_fmap, Forall_true. intros id. by apply good_diff.
  - unfold stack_upper. rewrite stack_diff. by apply good_diff.
  - rewrite stack_work_eq. apply good_mount_dir; [done|apply good_work].
Qed.
Lemma stack_length dr ids up mid : dr ≠ [] → ids ≠ [] →
  length (stack_data dr ids up mid) = (length (path_str dr) + 41) * length ids + 2 * length (path_str dr) + 106.
Proof. intros. unfold stack_data, stack_upper. rewrite stack_lowers_eq, stack_diff, stack_work_eq. by apply overlay_length. Qed.

Lemma nth_lookup_Some_2 {A} (l : list A) m d : m < length l → l !! m = Some (nth m l d).
Proof. revert m. induction l as [|x l IH]; intros m H; [cbn in H; lia|]. destruct m as [|m]; [done|]. cbn in *. apply IH. lia. Qed.
Lemma stack_nth dr ids m : m < length ids → ∃ id, nth m (stack_lowers dr ids) [] = dr ++ [B "overlay"; uid_b32 id; B "diff"].
Proof.
  revert m. induction ids as [|id ids IH]; intros m H; [cbn in H; lia|]. destruct m as [|m]; [by exists id|].
  cbn in H. apply IH. lia.
Qed.

(** ** C33 *)
(** For plain paths whose option string fits into the page: the kernel reads back exactly the lower
    directories in order, the upper and the work directory, whatever the working directory is. *)
Theorem C33_options_denote : ∀ lowers upper work cwd,
  Forall plain_path lowers → plain_path upper → plain_path work →
  Forall good_path lowers → good_path upper → good_path work →
  lowers ≠ [] → length (overlay_data lowers upper work) ≤ 4095 →
  ∃ ls u k, kernel_dirs (overlay_data lowers upper work) = Ok (ODirs ls (Some u) (Some k)) ∧
    abs_from cwd <$> ls = lowers ∧ abs_from cwd u = upper ∧ abs_from cwd k = work.
Proof.
  intros lowers upper work cwd PL PU PW GL GU GW N Hl. do 3 eexists.
  split; [by apply kernel_exact|]. rewrite !abs_path_str by done. split; [|done].
  rewrite <-list_fmap_compose. rewrite <-(list_fmap_id lowers) at 2. apply list_fmap_ext. intros i p Hp.
  cbn. apply abs_path_str. rewrite Forall_forall in GL. apply GL. by eapply elem_of_list_lookup_2.
Qed.
(** In a plain data root, when the directories exist and the string fits, the mount is the intended one. *)
Theorem C33_mount_exact : ∀ dr ids up mid target o w,
  plain_path dr → good_path dr → ids ≠ [] → length ids ≤ 500 → length (stack_data dr ids up mid) ≤ 4095 →
  Forall (λ p, is_dir_at (w_fs w) p = true) (stack_lowers dr ids) →
  is_dir_at (w_fs w) (stack_upper dr up) = true → is_dir_at (w_fs w) (stack_work dr mid) = true →
  is_dir_at (w_fs w) target = true → ch_fault (o (w_tick w)) = FNone →
  let r := sys_mount target (stack_data dr ids up mid) o w in
  r.1 = Ok tt ∧ w_mounts r.2 = Mnt target (stack_lowers dr ids) (Some (stack_upper dr up)) (Some (stack_work dr mid)) :: w_mounts w ∧
  w_fs r.2 = w_fs w.
Proof.
  intros dr ids up mid target o w P G N H500 Hl DL DU DW DT F r. subst r.
  destruct (stack_plain dr ids up mid P) as (PL & PU & PW). destruct (stack_good dr ids up mid G) as (GL & GU & GW).
  unfold sys_mount, sys_atomic. rewrite F. cbn [w_fs tick]. rewrite (real_dir _ _ DT), DT.
  unfold stack_data. rewrite kernel_exact by (try done; by destruct ids).
  unfold overlay_of. cbn [od_upper od_work od_lowers].
  rewrite (kern_dir_dir (tick w) _ GU DU), (kern_dir_dir (tick w) _ GW DW).
  assert (is_prefix (stack_upper dr up) (stack_work dr mid) || is_prefix (stack_work dr mid) (stack_upper dr up) = false) as ->.
  { apply orb_false_iff. split; apply not_true_is_false; intros (k & E)%is_prefix_spec; unfold stack_upper, stack_work in E;
      rewrite <-app_assoc in E; apply app_inv_head in E; cbn [app] in E; injection E as E _; discriminate E. }
  rewrite (kern_dirs_dirs (tick w) _ GL DL).
  rewrite (overlapping_same_length _ (length dr + 3)).
  2:{ constructor; [unfold stack_upper; by rewrite app_length|]. apply Forall_fmap, Forall_true. intros id. cbn. by rewrite app_length. }
  assert (500 <? length (stack_lowers dr ids) = false) as ->.
  { apply Nat.ltb_ge. unfold stack_lowers. by rewrite fmap_length. }
  cbn [orb fst snd w_mounts w_fs set_mounts tick]. done.
Qed.
(** However long the string is: in a plain data root nothing but the intended directory ever becomes the
    upper one, the one that is written to. *)
Theorem C33_upper_only_intended : ∀ dr ids up mid target o w w' u,
  plain_path dr → good_path dr → ids ≠ [] → is_dir_at (w_fs w) (stack_upper dr up) = true →
  sys_mount target (stack_data dr ids up mid) o w = (Ok u, w') →
  ∃ m, w_mounts w' = m :: w_mounts w ∧ (mn_upper m = None ∨ mn_upper m = Some (stack_upper dr up)).
Proof.
  intros dr ids up mid target o w w' u P G N DU (q & d & m & R & D & K & Om & ->)%sys_mount_ok.
  destruct (stack_plain dr ids up mid P) as (PL & PU & PW). destruct (stack_good dr ids up mid G) as (_ & GU & _).
  exists m. split; [done|]. eapply (mount_upper _ _ _ (tick w)); eauto. by destruct ids.
Qed.
(** In other data roots the string means something else: with a comma the mount is refused; with a colon
    one lower directory is read as two; with a backslash other directories are read. *)
Theorem C33_every_root_refuted :
  (∃ dr id, good_path dr ∧ kernel_dirs (stack_data dr [id] id id) = Err EINVAL) ∧
  (∃ dr id d, good_path dr ∧ kernel_dirs (stack_data dr [id] id id) = Ok d ∧ length (od_lowers d) = 2) ∧
  (∃ dr id d, good_path dr ∧ kernel_dirs (stack_data dr [id] id id) = Ok d ∧
     abs_from [] <$> od_lowers d = stack_lowers [B "ab"] [id] ∧ abs_from [] <$> od_upper d = Some (stack_upper [B "ab"] id) ∧
     stack_lowers dr [id] ≠ stack_lowers [B "ab"] [id]).
Proof.
  split; [|split].
  - exists [B "a,b"], (sample_id 1). split; [constructor; [|constructor]|vm_compute; reflexivity].
    repeat split; try done. apply (bool_decide_eq_true_1 (_ ∉ _)). vm_compute. reflexivity.
  - exists [B "a:b"], (sample_id 1). eexists. split; [constructor; [|constructor]|split; [vm_compute; reflexivity|reflexivity]].
    repeat split; try done. apply (bool_decide_eq_true_1 (_ ∉ _)). vm_compute. reflexivity.
  - exists [B "a\b"], (sample_id 1). eexists. split; [constructor; [|constructor]|split; [vm_compute; reflexivity|]].
    + repeat split; try done. apply (bool_decide_eq_true_1 (_ ∉ _)). vm_compute. reflexivity.
    + split; [vm_compute; reflexivity|]. split; [vm_compute; reflexivity|]. intros E. discriminate E.
Qed.
Example C33_sat : kernel_dirs (stack_data sample_dr [sample_id 2; sample_id 1] (sample_id 3) (sample_id 4))
  = Ok (ODirs (path_str <$> stack_lowers sample_dr [sample_id 2; sample_id 1]) (Some (path_str (stack_upper sample_dr (sample_id 3))))
              (Some (path_str (stack_work sample_dr (sample_id 4))))) ∧
  plain_path sample_dr ∧ good_path sample_dr.
Proof.
  split; [vm_compute; reflexivity|]. split; [repeat constructor; done|]. constructor; [|constructor].
  repeat split; try done. apply (bool_decide_eq_true_1 (_ ∉ _)). vm_compute. reflexivity.
Qed.

(** ** C34 *)
(** The length of the string: linear in the number of layers. *)
Theorem C34_length : ∀ dr ids up mid, dr ≠ [] → ids ≠ [] →
  length (stack_data dr ids up mid) = (length (path_str dr) + 41) * length ids + 2 * length (path_str dr) + 106.
Proof. exact stack_length. Qed.
(** The default data root (cmd/stackcrisp options: /var/lib/stackcrisp) holds 65 lower layers. *)
Definition default_dr : path := [B "var"; B "lib"; B "stackcrisp"].
Theorem C34_default_limit : ∀ ids up mid, ids ≠ [] →
  (length (stack_data default_dr ids up mid) ≤ 4095 ↔ length ids ≤ 65).
Proof.
  intros ids up mid N. rewrite stack_length by done. change (length (path_str default_dr)) with 19. lia.
Qed.
(** A string that does not fit never gives the intended directories: every plain data root has a depth
    from which on no mount is the intended one. *)
Theorem C34_every_depth_refuted : ∀ dr ids up mid, dr ≠ [] → plain_path dr → ids ≠ [] →
  4095 < (length (path_str dr) + 41) * length ids + 2 * length (path_str dr) + 106 →
  ∀ d, kernel_dirs (stack_data dr ids up mid) = Ok d → od_work d ≠ Some (path_str (stack_work dr mid)).
Proof.
  intros dr ids up mid ND P N Hl d K. destruct (stack_plain dr ids up mid P) as (PL & PU & PW).
  destruct (kernel_too_long _ _ _ _ PL PU PW ltac:(fold (stack_data dr ids up mid); rewrite stack_length by done; lia) K) as [->|(j & Hj & ->)]; [done|].
  intros E. injection E as E. apply (f_equal length) in E. rewrite take_length in E. lia.
Qed.
(** With the default data root every mount of 66 or more lower layers fails, unless directories exist
    that the program never makes: /var/l, or a directory in "mounts" named by the first 22 characters of
    the mount's ID. *)
Lemma default_plain : plain_path default_dr.
Proof. repeat constructor; done. Qed.
Lemma str_take_app (a b : bytes) n : take (length a + n) (a ++ b) = a ++ take n b.
Proof. apply firstn_app_2. Qed.
Theorem C34_default_refuted : ∀ ids up mid target o w, 66 ≤ length ids →
  (∀ q, kern_dir w (B "/var/l") ≠ Ok q) →
  (∀ q, kern_dir w (B "/var/lib/stackcrisp/mounts/" ++ take 22 (uid_b32 mid)) ≠ Ok q) →
  ∀ u, (sys_mount target (stack_data default_dr ids up mid) o w).1 ≠ Ok u.
Proof.
  intros ids up mid target o w H66 K1 K2 u. destruct (sys_mount target _ o w) as [r w'] eqn:E. cbn. intros ->.
  apply sys_mount_ok in E as (q & d & m & _ & _ & K & Om & _).
  destruct (stack_plain default_dr ids up mid default_plain) as (PL & PU & PW).
  assert (ids ≠ []) as NI by (destruct ids; [cbn in H66; lia|done]).
  assert (Forall (λ p, length (path_str p) = 59) (stack_lowers default_dr ids)) as F.
  { rewrite stack_lowers_eq. apply Forall_fmap, Forall_true. intros id. change (length (path_str (diff_dir (default_dr ++ [B "overlay"]) id)) = 59). rewrite layer_path_length by done. reflexivity. }
  destruct (decide (69 ≤ length ids)) as [D|D].
  - unfold stack_data in K. rewrite (kernel_cut_lowers _ _ _ 59 68 6) in K; try done; try lia; [|unfold stack_lowers; rewrite fmap_length; lia].
    injection K as <-. unfold overlay_of in Om. cbn [od_upper od_work od_lowers] in Om.
    assert (take 6 (path_str (nth 68 (stack_lowers default_dr ids) [])) = B "/var/l") as E6.
    { destruct (stack_nth default_dr ids 68 ltac:(lia)) as [id ->]. reflexivity. }
    rewrite E6 in Om.
    assert (∀ l q, kern_dirs (tick w) (l ++ [B "/var/l"]) ≠ Ok q) as KD.
    { clear -K1. induction l as [|s l IH]; intros q H.
      - cbn [app kern_dirs] in H. destruct (kern_dir (tick w) (B "/var/l")) as [q'| | | |] eqn:Ek; try done. by apply (K1 q').
      - cbn [app kern_dirs] in H. destruct (kern_dir (tick w) s); try done. destruct (kern_dirs (tick w) _) eqn:Ek; try done. by apply (IH a0). }
    destruct (kern_dirs (tick w) _) eqn:Ek; try done. by apply (KD _ _ Ek).
  - unfold kernel_dirs, page_cut, stack_data in K. rewrite overlay_data_text in K.
    set (L := join_colon (path_str <$> stack_lowers default_dr ids)) in *.
    assert (length L = 60 * length ids - 1) as HL.
    { pose proof (join_colon_length (path_str <$> stack_lowers default_dr ids) 59 ltac:(apply Forall_fmap; exact F) ltac:(by destruct ids)) as J.
      fold L in J. unfold stack_lowers in J. rewrite !fmap_length in J. lia. }
    assert (length (path_str (stack_upper default_dr up)) = 59) as HU.
    { unfold stack_upper. rewrite stack_diff, layer_path_length by done. reflexivity. }
    destruct (parse_opts _) as [m0| | | |] eqn:Ep; try done.
    apply parse_cut in Ep; [|by apply no_comma_join, plain_strs|by apply plain_no_comma, plain_path_str|by apply plain_no_comma, plain_path_str|lia].
    assert (ids = [] ∨ length ids = 66 ∨ length ids = 67 ∨ length ids = 68) as [?|Hc] by lia; [done|].
    destruct m0 as [[l|] uo ko]; [|done]. cbn [mo_upper mo_work mo_lower] in Ep. injection K as <-.
    unfold overlay_of in Om. cbn [od_upper od_work od_lowers] in Om.
    destruct Ep as [(-> & -> & j & _ & Hj)|[(-> & [uo' ->] & _)|(_ & -> & ->)]].
    + lia.
    + done.
    + cbn [fmap option_fmap option_map] in Om. destruct (kern_dir (tick w) (unescape _)) in Om; try done.
      rewrite unescape_plain in Om by (by apply plain_take, plain_path_str). rewrite HL, HU in Om.
      destruct Hc as [Hc|Hc].
      * rewrite Hc in Om. change (4095 - (60 * 66 - 1) - 59 - 28) with (27 + 22) in Om.
        assert (take (27 + 22) (path_str (stack_work default_dr mid)) = B "/var/lib/stackcrisp/mounts/" ++ take 22 (uid_b32 mid)) as Et.
        { assert (path_str (stack_work default_dr mid) = B "/var/lib/stackcrisp/mounts/" ++ uid_b32 mid ++ B "/work") as ->.
          { unfold stack_work, default_dr. cbn [app path_str path_str']. rewrite <-(app_nil_r (B "work")). reflexivity. }
          change 27 with (length (B "/var/lib/stackcrisp/mounts/")). rewrite str_take_app. f_equal.
          apply take_app_le. rewrite uid_b32_length. lia. }
        rewrite Et in Om. destruct (kern_dir (tick w) (_ ++ _)) as [q'| | | |] eqn:Eq; try done. by apply (K2 q').
      * replace (4095 - (60 * length ids - 1) - 59 - 28) with 0 in Om by lia. done.
Qed.
(** Worse than a refusal: data roots of 20 bytes with more than 67 lower layers, and of 26 bytes with more
    than 61. The string is cut between two lower directories, and the mount succeeds: read-only, without
    the working layer, and without the oldest layers. *)
Lemma cut_at_boundary dr ids up mid c m : dr ≠ [] → plain_path dr → length (path_str dr) + 40 = c → S c * S m = 4087 → S m < length ids →
  kernel_dirs (stack_data dr ids up mid) = Ok (ODirs (path_str <$> stack_lowers dr (take (S m) ids)) None None).
Proof.
  intros N P Hc Hm Hl. destruct (stack_plain dr ids up mid P) as (PL & PU & PW).
  assert (∀ id, length (path_str (dr ++ [B "overlay"; uid_b32 id; B "diff"])) = c) as Hlen.
  { intros id. rewrite stack_diff, layer_path_length by done. done. }
  unfold stack_data. rewrite (kernel_cut_lowers _ _ _ c m c); try done; try lia.
  - do 2 f_equal. assert (m < length (stack_lowers dr ids)) as Hm' by (unfold stack_lowers; rewrite fmap_length; lia).
    rewrite (take_ge (path_str (nth m (stack_lowers dr ids) []))).
    2:{ destruct (stack_nth dr ids m ltac:(lia)) as [id ->]. by rewrite Hlen. }
    rewrite <-fmap_take. change [path_str (nth m (stack_lowers dr ids) [])] with (path_str <$> [nth m (stack_lowers dr ids) []]). rewrite <-fmap_app. f_equal. assert (stack_lowers dr (take (S m) ids) = take (S m) (stack_lowers dr ids)) as -> by (unfold stack_lowers; by rewrite fmap_take). symmetry. apply take_S_r. by apply nth_lookup_Some_2.
  - apply Forall_fmap, Forall_true. exact Hlen.
  - unfold stack_lowers. rewrite fmap_length. lia.
Qed.
Theorem C34_silent_loss : ∀ dr ids up mid target o w n,
  plain_path dr → good_path dr → dr ≠ [] →
  (length (path_str dr) = 20 ∧ n = 67 ∨ length (path_str dr) = 26 ∧ n = 61) → n < length ids →
  Forall (λ p, is_dir_at (w_fs w) p = true) (stack_lowers dr ids) →
  is_dir_at (w_fs w) target = true → ch_fault (o (w_tick w)) = FNone →
  let r := sys_mount target (stack_data dr ids up mid) o w in
  r.1 = Ok tt ∧ w_mounts r.2 = Mnt target (stack_lowers dr (take n ids)) None None :: w_mounts w.
Proof.
  intros dr ids up mid target o w n P G N Hc Hn DL DT F r. subst r.
  assert (∃ m, n = S m ∧ S (length (path_str dr) + 40) * S m = 4087) as (m & -> & Hm).
  { destruct Hc as [[-> ->]|[-> ->]]; [exists 66|exists 60]; done. }
  unfold sys_mount, sys_atomic. rewrite F. cbn [w_fs tick]. rewrite (real_dir _ _ DT), DT.
  rewrite (cut_at_boundary dr ids up mid (length (path_str dr) + 40) m) by done.
  unfold overlay_of. cbn [od_upper od_work od_lowers].
  destruct (stack_good dr (take (S m) ids) up mid G) as (GL & _).
  rewrite kern_dirs_dirs; [|done|].
  2:{ cbn [w_fs tick]. unfold stack_lowers. rewrite fmap_take. by apply Forall_take. }
  rewrite (overlapping_same_length _ (length dr + 3)).
  2:{ apply Forall_fmap, Forall_true. intros id. cbn. by rewrite app_length. }
  assert (length (stack_lowers dr (take (S m) ids)) = S m) as ->.
  { unfold stack_lowers. rewrite fmap_length, take_length. lia. }
  assert ((S m <? 2) = false ∧ (500 <? S m) = false) as [-> ->].
  { destruct Hc as [[_ Hc]|[_ Hc]]; injection Hc as ->; done. }
  cbn [orb fst snd w_mounts w_fs set_mounts tick]. done.
Qed.
(** 66 and more layers do occur, and roots of these lengths exist. *)
Example C34_sat : length (path_str [B "var"; B "lib"; B "stackcrisp2"]) = 20 ∧ length (path_str [B "home"; B "user"; B "stackcrisp-data"]) = 26 ∧
  plain_path [B "var"; B "lib"; B "stackcrisp2"] ∧ kern_dir sample_world (B "/var/l") = Err ENOENT ∧
  length (stack_data default_dr [sample_id 1] (sample_id 2) (sample_id 3)) = 204.
Proof. split; [reflexivity|]. split; [reflexivity|]. split; [repeat constructor; done|]. split; reflexivity. Qed.

Print Assumptions C33_options_denote.
Print Assumptions C33_mount_exact.
Print Assumptions C33_upper_only_intended.
Print Assumptions C33_every_root_refuted.
Print Assumptions C34_length.
Print Assumptions C34_default_limit.
Print Assumptions C34_every_depth_refuted.
Print Assumptions C34_default_refuted.
Print Assumptions C34_silent_loss.
