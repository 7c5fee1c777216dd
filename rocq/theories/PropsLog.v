(** * PropsLog: log (C52, C61) and the commands branch and tag (C58, C59) *)
From Verif Require Import Base Uid SpecUid UidProofs Tree SpecTree TreeRefine TreeObs Dump DumpProofs Json JsonProofs Save SaveProofs Branch BranchProofs Date DateProofs Ws SpecWs WsProofs
  Fs Overlay Os Layers Mounts Space Manager Commands Sample FsProofs OsProofs LayerProofs MountProofs SpaceProofs ManagerProofs SpecWorld SpecOps SavedProofs FaultProofs ReadyProofs OpProofs CalmProofs
  SpecMachine SpecCmds SpecTidy SpecLog MachineProofs OpenProofs CmdProofs DetProofs LogProofs DatedProofs Story StoryProofs SampleProofs PropsCmds PropsBranch PropsCommitted.
From Coq Require Import Lia.
From stdpp Require Import prelude gmap sorting.

(** A command opened workspace [x], whose working layer is [hid] and whose space holds [a]. *)
Definition opens (dr : path) (c : command) (o : oracle) (w : world) (x : ws) (hid : uid) (a : atree) : Prop :=
  found_at dr w (cmd_source c) x hid ∧ holds (w_fs w) (ws_space x) a ∧ ws_space x = the_space dr (sp_id (ws_space x)) ∧ has a hid ∧
  ∃ w1, get_workspace dr (cmd_source c) o w = (Ok x, w1).
(** Files, mounts and the working directory are as before, and [lines] were printed. *)
Definition prints (w w' : world) (lines : list bytes) : Prop :=
  w_fs w' = w_fs w ∧ w_mounts w' = w_mounts w ∧ w_cwd w' = w_cwd w ∧ w_pwd w' = w_pwd w ∧ screen w' = screen w ++ lines.
Lemma prints_upd w t k : prints w (upd w (w_fs w) (w_mounts w) t k) [].
Proof. repeat (split; [done|]). by rewrite app_nil_r. Qed.
Lemma prints_only w t k w' lines : only_printed (upd w (w_fs w) (w_mounts w) t k) w' lines → prints w w' lines.
Proof. intros (A1 & A2 & A3 & A4 & A5 & A6). done. Qed.
Lemma opened_body dr c (body : ws → M unit) o w r w' : good_path dr → fair o → machine dr (w_fs w) (w_mounts w) →
  (x <- get_workspace dr (cmd_source c) ;; body x) o w = (r, w') →
  failed r ∧ prints w w' [] ∧ (∃ r1, get_workspace dr (cmd_source c) o w = (r1, w') ∧ failed r1) ∨
  ∃ x hid a t k, opens dr c o w x hid a ∧ live dr (upd w (w_fs w) (w_mounts w) t k) x a hid ∧ body x o (upd w (w_fs w) (w_mounts w) t k) = (r, w').
Proof.
  intros G F Mc H. apply bind_any in H as [(x & w1 & E & H)|(r1 & E & Fr1 & Fr)].
  - right. destruct (get_workspace_any _ _ _ _ _ _ G F Mc E) as (a & hid & Lv & Fa). pose proof (reader_get_workspace _ _ _ _ _ _ E) as (t & k & ->).
    exists x, hid, (san_tree a), t, k. split; [|done]. pose proof (rd_disk _ _ _ _ _ Lv) as Hd. rewrite san_idemp in Hd.
    split; [done|]. split; [done|]. split; [apply the_space_ok, Lv|]. split; [by eapply ready_has|]. by eexists.
  - left. split; [done|]. split; [|by eexists]. apply reader_get_workspace in E as (t & k & ->). apply prints_upd.
Qed.

(** ** C61 *)
(** log writes to no file and makes no mount. If the workspace opens and the revision resolves, the output is
    one entry for each commit from the named one down to but not including the root, as [log_entry] describes
    it. It ends early, in a panic after the first line of the entry, at the first commit without a date. *)
Theorem C61_output : ∀ dr args o w r w', good_path dr → fair o → machine dr (w_fs w) (w_mounts w) →
  log_ref args = B "HEAD" ∨ decode_b32 (log_ref args) ≠ Panic → run_cmd dr (CLog args) o w = (r, w') →
  failed r ∧ prints w w' [] ∧ (∃ r1, get_workspace dr (B ".") o w = (r1, w') ∧ failed r1) ∨
  ∃ x hid a lines, opens dr (CLog args) o w x hid a ∧ prints w w' lines ∧
  match found_id (resolve a (ws_id x) hid (log_ref args)) with
  | None => r = Err ERefNotFound ∧ lines = []
  | Some id => ∃ ch, chain a id ch ∧
      ((∀ c, c ∈ removelast ch → ∃ d, dated a c d) ∧ r = Ok tt ∧ log_entries a (ws_id x) (local_branch (ws_id x) (ws_branch x)) (removelast ch) lines ∨
       (∃ c l1 l2 entries names line, removelast ch = l1 ++ c :: l2 ∧ (∀ d, ¬ dated a c d) ∧ r = Panic ∧
          log_entries a (ws_id x) (local_branch (ws_id x) (ws_branch x)) l1 entries ∧ title c names line ∧ lines = entries ++ [line]))
  end.
Proof.
  intros dr args o w r w' G F Mc Hr H. cbn [run_cmd] in H. rewrite cmd_log_body in H.
  apply (opened_body dr (CLog args)) in H as [H|(x & hid & a & t & k & Op & Lv & H)]; [by left| |done..]. right.
  destruct (log_body_spec _ _ _ _ _ _ _ F Lv Hr) as (r2 & w2 & lines & E & P & D). rewrite E in H. injection H as <- <-.
  exists x, hid, a, lines. split; [done|]. split; [by eapply prints_only|]. exact D.
Qed.
Print Assumptions C61_output.

(** ** C52 *)
(** log panics exactly at commits without a date. *)
Theorem C52_panics_iff : ∀ dr args o w x hid a id ch, good_path dr → fair o → machine dr (w_fs w) (w_mounts w) →
  log_ref args = B "HEAD" ∨ decode_b32 (log_ref args) ≠ Panic → opens dr (CLog args) o w x hid a →
  found_id (resolve a (ws_id x) hid (log_ref args)) = Some id → chain a id ch →
  ((run_cmd dr (CLog args) o w).1 = Panic ↔ ∃ c, c ∈ removelast ch ∧ ∀ d, ¬ dated a c d) ∧
  ((run_cmd dr (CLog args) o w).1 = Ok tt ↔ ∀ c, c ∈ removelast ch → ∃ d, dated a c d).
Proof.
  intros dr args o w x hid a id ch G F Mc Hr Op Hf C. destruct (run_cmd dr (CLog args) o w) as [r w'] eqn:H. cbn [fst].
  destruct (C61_output _ _ _ _ _ _ G F Mc Hr H) as [(_ & _ & r1 & E & Fr)|(x' & hid' & a' & lines & Op' & _ & D)].
  { destruct Op as (_ & _ & _ & _ & w1 & E'). cbn [cmd_source] in E'. rewrite E in E'. injection E' as -> _. by destruct (Fr x). }
  assert (x' = x) as ->. { destruct Op as (_ & _ & _ & _ & w1 & E1), Op' as (_ & _ & _ & _ & w2 & E2). congruence. }
  assert (a' = a) as ->. { destruct Op as (_ & H1 & _), Op' as (_ & H2 & _). by eapply holds_det. }
  assert (hid' = hid) as ->.
  { destruct Op as ([_ _ _ _ (y & I1 & M1 & _)] & _), Op' as ([_ _ _ _ (y' & I2 & M2 & _)] & _). rewrite I1 in I2.
    assert (marshal_wsinfo (ws_info y hid) = marshal_wsinfo (ws_info y' hid')) as Q by congruence. by apply info_head in Q as [<- _]. }
  rewrite Hf in D. destruct D as (ch' & C' & D). rewrite (chain_det _ _ _ _ C' C) in D.
  destruct D as [(Hd & -> & _)|(c & l1 & l2 & _ & _ & _ & Ec & Nd & -> & _)].
  - split; [|done]. split; [done|]. intros (c & Hc & N). destruct (Hd c Hc) as [d D]. by destruct (N d).
  - assert (c ∈ removelast ch) as Hc by (rewrite Ec; apply elem_of_app; right; left). split; [split; [by exists c|done]|].
    split; [done|]. intros Hd. destruct (Hd c Hc) as [d D]. by destruct (Nd d).
Qed.
(** On a machine where so far every reference was HEAD or a name, log of HEAD or a name never panics:
    whatever failed and wherever processes ended. *)
Theorem C52_no_panic_partial : ∀ dr w0 w args o r w' x w1, plain_path dr → good_path dr → fresh_machine dr w0 → rtc (named_step dr) w0 w →
  fair o → log_ref args = B "HEAD" ∨ decode_b32 (log_ref args) ≠ Panic → by_name (log_ref args) →
  get_workspace dr (B ".") o w = (Ok x, w1) → run_cmd dr (CLog args) o w = (r, w') → r = Ok tt ∨ r = Err ERefNotFound.
Proof.
  intros dr w0 w args o r w' x w1 P G Fr St F Hr Hn Eg H.
  destruct (fresh_tidy _ _ Fr) as [Mc0 _].
  assert (trees_dated dr (w_fs w0)) as Td0.
  { intros sid a (raw & E & _). destruct Fr as [W _ N _]. exfalso. revert E. unfold tree_file, the_space, sp_dir, space_dir. rewrite fget_parent_None; [done..|]. apply N. }
  destruct (named_steps_dated _ _ _ P G Mc0 St Td0) as [Td Mc].
  destruct (C61_output _ _ _ _ _ _ G F Mc Hr H) as [(_ & _ & r1 & E & Fr1)|(x' & hid' & a' & lines & Op' & _ & D)].
  { rewrite Eg in E. injection E as <- _. by destruct (Fr1 x). }
  destruct Op' as (_ & Hd & Es & _). rewrite Es in Hd. specialize (Td _ _ Hd).
  destruct (found_id (resolve a' (ws_id x') hid' (log_ref args))) as [id|] eqn:Ei; [|right; apply D].
  destruct D as (ch & C & D). left. destruct D as [(_ & -> & _)|(c & l1 & l2 & _ & _ & _ & Ec & Nd & _)]; [done|]. exfalso.
  assert (settled_commit a' c ∧ ¬ is_root a' c) as [[R|[d D]] Nr]; [|done|by apply (Nd d)].
  clear Nd. assert (settled_commit a' id) as Si by (by eapply resolve_settled). clear Ei. revert l1 l2 Ec.
  induction C as [i Ri|i p l Hp C IH]; intros l1 l2 Ec; [by destruct l1|].
  assert (removelast (i :: l) = i :: removelast l) as Er by (by destruct C). rewrite Er in Ec. destruct l1 as [|i' l1].
  - injection Ec as <- _. split; [done|]. intros (n & En & Pn). destruct Hp as (n' & En' & Pn'). congruence.
  - injection Ec as <- Ec. eapply IH; [|exact Ec]. by apply (proj1 Td i).
Qed.
(** The working layer of a workspace has no date: log of its ID panics, and so does a plain log after checking
    it out. The steps before it succeed. *)
Definition layer_ref : bytes := B "BQGAYDAMBQGAYDAMBQGAYDAMBQ".
Definition panics {A} (r : res A * world) : bool := match r with (Panic, _) => true | _ => false end.
Theorem C52_no_panic_refuted :
  told sample_dr [Do calm home (CInit [B "w"] (B "main"))] sample_world [true] (λ w, panics (run_cmd sample_dr (CLog [layer_ref]) calm (enter wdir w))) = true ∧
  told sample_dr [Do calm home (CInit [B "w"] (B "main")); Do calm wdir (CCheckout layer_ref)] sample_world [true; true] (λ w, panics (run_cmd sample_dr (CLog []) calm (enter wdir w))) = true.
Proof. split; vm_compute; reflexivity. Qed.
Print Assumptions C52_panics_iff.
Print Assumptions C52_no_panic_partial.
Print Assumptions C52_no_panic_refuted.
(** A machine with commits, tags and branches reached by such steps, on which log succeeds, and what it prints *)
Definition named_event (e : event) : Prop := match e with Do o _ c => fair o ∧ good_clock o ∧ cmd_by_name c | Put _ _ _ => True end.
Lemma story_named dr l : Forall named_event l → ∀ w bs w', story_test dr l w = true → story dr l w = (bs, w') → rtc (named_step dr) w w'.
Proof.
  intros F. induction F as [|[o d c|p n data] l Fe F IH]; intros w bs w' H E; cbn [story_test story] in *; [injection E as <- <-; constructor| |]; apply andb_true_iff in H as [H1 H2].
  - apply outside_test_ok in H1. cbv zeta in E. destruct (run_cmd dr c o (enter d w)) as [r w1] eqn:E1. cbn [fst snd] in *.
    destruct (story dr l w1) as [bs' w2] eqn:E2. cbn [fst snd] in E. injection E as <- <-.
    apply rtc_l with w1; [|by eapply IH]. assert (same_disk w (enter d w)) as Sd by done. destruct Fe as (F1 & F2 & F3).
    eapply ns_cmd; [exact Sd|exact F1|exact F2|by intros _|exact F3|exact E1].
  - destruct (put w p n data) as [w1|] eqn:E1; cbv zeta in *; cbn [fst snd default] in *.
    + destruct (story dr l w1) as [bs' w2] eqn:E2. cbn [fst snd] in E. injection E as <- <-.
      apply rtc_l with w1; [|by eapply IH]. apply ns_user. by eapply put_step.
    + destruct (story dr l w) as [bs' w2] eqn:E2. cbn [fst snd] in E. injection E as <- <-. by eapply IH.
Qed.
Definition plain_branch (n : bytes) : command := CBranch (BranchOpts false false false false false false) [n].
Definition some_names : list event :=
  [Do calm home (CInit [B "w"] (B "main")); Do calm wdir (CCommit (B "one")); Do calm wdir (CTag (TagOpts false false false) [B "v1"]); Do calm wdir (plain_branch (B "dev"));
   Do calm wdir (CCheckout (B "dev")); Do calm wdir (CCommit (B "two" ++ n2b 10 :: B "more" ++ [n2b 10]))].
Definition text (s : bytes) : bytes := filter (λ c, c ≠ n2b 27) s.
Lemma some_names_test : story_test sample_dr some_names sample_world = true.
Proof. vm_compute. reflexivity. Qed.
Example C61_runs : told sample_dr some_names sample_world [true; true; true; true; true; true] (λ w,
  then_ok (get_workspace sample_dr (B ".") calm (enter wdir w)) (λ _ _, true) &&
  then_ok (run_cmd sample_dr (CLog []) calm (enter wdir w)) (λ _ w', bool_decide ((text <$> screen w') =
    [B "[33mcommit 65656565656565656565656565656565[0m ([34mHEAD -> [32mdev[0m)"; B "Date:  Thu Feb 29 23:59:58 2024 +0000"; []; B "    two" ++ n2b 10 :: B "    more"; [];
     B "[33mcommit 0c0c0c0c0c0c0c0c0c0c0c0c0c0c0c0c[0m ([33mtag: v1[0m[33m, [0m[32mmain[0m)"; B "Date:  Thu Feb 29 23:59:58 2024 +0000"; []; B "    one"; []]))) = true.
Proof. vm_compute. reflexivity. Qed.
Lemma sample_clock : good_clock calm.
Proof. intros n. split; [done|]. split; [vm_compute; reflexivity|]. split; [vm_compute; reflexivity|]. vm_compute. split; reflexivity. Qed.
Lemma some_names_named : Forall named_event some_names.
Proof.
  unfold some_names.
  assert (∀ d c l, cmd_by_name c → Forall named_event l → Forall named_event (Do calm d c :: l)) as H.
  { intros d c l Hc Hl. constructor; [|done]. split; [exact fair_calm|]. split; [exact sample_clock|done]. }
  do 4 (apply H; [exact I|]). apply H; [right; vm_compute; reflexivity|]. apply H; [exact I|]. constructor.
Qed.
Example C52_C61_sat : ∃ w x w1 w', rtc (named_step sample_dr) sample_world w ∧ plain_path sample_dr ∧ good_path sample_dr ∧ fresh_machine sample_dr sample_world ∧
  fair calm ∧ machine sample_dr (w_fs w) (w_mounts w) ∧ by_name (log_ref []) ∧
  get_workspace sample_dr (B ".") calm w = (Ok x, w1) ∧ run_cmd sample_dr (CLog []) calm w = (Ok tt, w') ∧ length (screen w') = 10.
Proof.
  destruct sample_plain as [P G]. destruct (told_inv _ _ _ _ _ C61_runs) as (w & E & H).
  pose proof (story_named sample_dr some_names some_names_named sample_world _ w some_names_test E) as R. clear E.
  apply andb_true_iff in H as [H1 H2]. destruct (then_ok_inv _ _ H1) as (x & w1 & E1 & _). destruct (then_ok_inv _ _ H2) as ([] & w' & E2 & H3). apply bool_decide_eq_true in H3.
  assert (rtc (named_step sample_dr) sample_world (enter wdir w)) as R'.
  { apply (rtc_r _ _ _ R). apply ns_lost; [done|]. by intros m. }
  assert (machine sample_dr (w_fs (enter wdir w)) (w_mounts (enter wdir w))) as Mc.
  { apply (steps_orderly sample_dr sample_world); [done|done|exact sample_machine|]. eapply rtc_subrel; [|exact R']. apply named_is_step. }
  exists (enter wdir w), x, w1, w'. do 6 (split; [first [exact R'|exact P|exact G|exact sample_fresh|exact fair_calm|exact Mc]|]).
  split; [by left|]. split; [exact E1|]. split; [exact E2|]. apply (f_equal length) in H3. rewrite fmap_length in H3. exact H3.
Qed.

(** ** C58 *)
(** branch --show-current prints one line, the name of the branch of the workspace, and changes nothing. *)
Theorem C58_prints : ∀ dr opts args o w r w', good_path dr → fair o → machine dr (w_fs w) (w_mounts w) → bo_list opts = false → bo_current opts = true →
  run_cmd dr (CBranch opts args) o w = (r, w') →
  failed r ∧ prints w w' [] ∧ (∃ r1, get_workspace dr (B ".") o w = (r1, w') ∧ failed r1) ∨
  ∃ x hid a, opens dr (CBranch opts args) o w x hid a ∧ r = Ok tt ∧ prints w w' [ws_branch x].
Proof.
  intros dr opts args o w r w' G F Mc El Ec H. cbn [run_cmd] in H. unfold cmd_branch in H. rewrite El, Ec in H.
  apply (opened_body dr (CBranch opts args)) in H as [H|(x & hid & a & t & k & Op & Lv & H)]; [by left| |done..]. right.
  exists x, hid, a. split; [done|]. rewrite println_eq in H. injection H as <- <-. split; [done|]. repeat (split; [done|]). by rewrite screen_add.
Qed.
(** A detached workspace: it should print nothing, and prints an empty line. *)
Definition show_current : command := CBranch (BranchOpts false true false false false false) [].
Theorem C58_detached_refuted : told sample_dr [Do calm home (CInit [B "w"] (B "main")); Do calm wdir (CCommit (B "one")); Do calm wdir (CCheckout (B "ROOT"))] sample_world [true; true; true] (λ w,
  then_ok (run_cmd sample_dr show_current calm (enter wdir w)) (λ _ w', bool_decide (screen w' = screen w ++ [[]]))) = true.
Proof. vm_compute. reflexivity. Qed.
Example C58_sat : told sample_dr [Do calm home (CInit [B "w"] (B "main"))] sample_world [true] (λ w,
  then_ok (run_cmd sample_dr show_current calm (enter wdir w)) (λ _ w', bool_decide (screen w' = screen w ++ [B "main"]))) = true.
Proof. vm_compute. reflexivity. Qed.
Print Assumptions C58_prints.
Print Assumptions C58_detached_refuted.

(** ** C59: listings *)
Lemma print_all_only l : ∀ o w, ∃ w', print_all l o w = (Ok tt, w') ∧ only_printed w w' l.
Proof.
  induction l as [|s l IH]; intros o w; cbn [print_all]; [exists w; split; [done|apply only_printed_nil]|].
  destruct (IH o (add_out w s)) as (w' & E & P). exists w'. split; [unfold bind; by rewrite println_eq|].
  change (s :: l) with ([s] ++ l). eapply only_printed_trans; [|exact P]. repeat (split; [done|]). by rewrite screen_add.
Qed.
Lemma canonical_repr t a : repr t a → canonical_names a → canonical t.
Proof.
  intros R C k l b G Hr. unfold get_by_branch in G. rewrite (r_br _ _ R) in G. destruct (a_branches a !! k) as [id|] eqn:E; [|done]. by eapply C.
Qed.
Lemma some_head t a k b : repr t a → (∃ l, get_by_branch t k = Some l ∧ reads_as k b) ↔ ∃ id, a_branches a !! k = Some id ∧ reads_as k b.
Proof.
  intros R. pose proof (get_by_branch_repr t a k R) as H. split.
  - intros (l & G & Hr). rewrite G in H. destruct (a_branches a !! k) as [id|]; [by exists id|done].
  - intros (id & E & Hr). rewrite E in H. destruct H as (l & G & _). by exists l.
Qed.
Lemma name_order_local brs : (∀ b b', b ∈ brs → b' ∈ brs → br_ws b = br_ws b') → StronglySorted (λ b b', bytes_leb (br_name b) (br_name b') = true) brs → StronglySorted branch_order brs.
Proof.
  intros Hw S. induction S as [|b brs S IH F]; [constructor|]. constructor.
  - apply IH. intros b1 b2 H1 H2. apply Hw; by right.
  - apply Forall_forall. intros b' Hb. rewrite Forall_forall in F. unfold branch_order. rewrite <-(Hw b b'); [|left|by right]. specialize (F _ Hb). by destruct (br_ws b).
Qed.
Lemma listed_elem (f : list hbranch) t a b (Q : branch → Prop) : repr t a →
  (∀ b l, HB b l ∈ f ↔ Q b ∧ ∃ k, get_by_branch t k = Some l ∧ reads_as k b) →
  b ∈ hb_branch <$> f ↔ Q b ∧ ∃ k id, a_branches a !! k = Some id ∧ reads_as k b.
Proof.
  intros R H. rewrite elem_of_list_fmap. split.
  - intros ([b' l] & -> & Hin). apply H in Hin as (Hq & k & G & Hr). split; [done|]. exists k. apply (some_head t a k b' R). by exists l.
  - intros (Hq & k & Hk). apply (some_head t a k b R) in Hk as (l & G & Hr). exists (HB b l). split; [done|]. apply H. split; [done|]. by exists k.
Qed.
Lemma list_branches_spec dr x opts o w a hid : fair o → live dr w x a hid →
  ∃ w' lines, list_branches x opts o w = (Ok tt, w') ∧ only_printed w w' lines ∧ branch_listing a opts (ws_id x) lines.
Proof.
  intros F Lv. pose proof (ready_repr _ _ _ _ _ Lv) as R. unfold list_branches. rewrite bind_next, bind_gets. cbn [tick w_tree].
  set (ord := ch_locs (o (w_tick w))). assert (is_order ord) as O by apply F.
  set (f := if bo_remotes opts then _ else _). destruct (print_all_only ((λ b, local_name (hb_branch b)) <$> f) o (tick w)) as (w' & E & P).
  eexists w', _. split; [exact E|]. split; [exact P|]. exists (hb_branch <$> f). split; [by rewrite <-list_fmap_compose|].
  unfold f, asked. destruct (bo_remotes opts); [|destruct (bo_all opts)].
  - assert (∀ b, b ∈ hb_branch <$> remote_branches (w_tree w) ord ↔ br_ws b = None ∧ ∃ k id, a_branches a !! k = Some id ∧ reads_as k b) as He.
    { intros b. apply (listed_elem _ (w_tree w) a b (λ b, br_ws b = None) R). intros b' l. by apply remote_elem. }
    split; [|split; [intros C; apply remote_nodup; [done|by eapply canonical_repr]|exact He]].
    apply name_order_local; [|apply remote_sorted]. intros b b' [-> _]%He [-> _]%He. done.
  - assert (∀ b, b ∈ hb_branch <$> all_branches (w_tree w) ord (ws_id x) ↔ (br_ws b = None ∨ br_ws b = Some (ws_id x)) ∧ ∃ k id, a_branches a !! k = Some id ∧ reads_as k b) as He.
    { intros b. apply (listed_elem _ (w_tree w) a b (λ b, br_ws b = None ∨ br_ws b = Some (ws_id x)) R). intros b' l. by apply all_elem. }
    split; [apply all_sorted|split; [intros C; apply all_nodup; [done|by eapply canonical_repr]|exact He]].
  - assert (∀ b, b ∈ hb_branch <$> local_branches (w_tree w) ord (ws_id x) ↔ br_ws b = Some (ws_id x) ∧ ∃ k id, a_branches a !! k = Some id ∧ reads_as k b) as He.
    { intros b. apply (listed_elem _ (w_tree w) a b (λ b, br_ws b = Some (ws_id x)) R). intros b' l. by apply local_elem. }
    split; [|split; [intros C; apply local_nodup; [done|by eapply canonical_repr]|exact He]].
    apply name_order_local; [|apply local_sorted]. intros b b' [-> _]%He [-> _]%He. done.
Qed.
Lemma sorted_mono {A} (R R' : A → A → Prop) l : (∀ x y, R x y → R' x y) → StronglySorted R l → StronglySorted R' l.
Proof. intros H. induction 1 as [|x l S IH F]; [constructor|]. constructor; [done|]. eapply Forall_impl; [exact F|]. auto. Qed.
Lemma list_tags_spec dr x o w a hid : fair o → live dr w x a hid →
  ∃ w' lines, list_tags x o w = (Ok tt, w') ∧ only_printed w w' lines ∧ tag_listing a lines.
Proof.
  intros F Lv. pose proof (ready_repr _ _ _ _ _ Lv) as R. unfold list_tags. rewrite bind_next, bind_gets. cbn [tick w_tree].
  set (ord := ch_locs (o (w_tick w))). assert (is_order ord) as O by apply F.
  destruct (print_all_only (tag_list (w_tree w) ord) o (tick w)) as (w' & E & P). eexists w', _. split; [exact E|]. split; [exact P|].
  split; [|split; [by apply tag_nodup|]].
  - eapply sorted_mono; [|apply tag_sorted]. intros n m. apply bytes_leb_lex.
  - intros n. rewrite tag_elem by done. unfold get_by_tag. rewrite (r_tag _ _ R). destruct (a_tags a !! n) as [id|] eqn:Et; cbn; [|split; intros [_ Q]; by apply is_Some_None in Q].
    destruct (get_Some _ _ _ R (ro_tag _ (r_ok _ _ R) _ _ Et)) as (l & ? & ? & G & _). unfold get in G. split; intros [? _]; (split; [done|]); by eexists.
Qed.
(** The listing: with --list, or without arguments and other options *)
Theorem C59_branch_list : ∀ dr opts args o w r w', good_path dr → fair o → machine dr (w_fs w) (w_mounts w) →
  bo_list opts = true ∨ bo_current opts = false ∧ bo_delete opts = false ∧ args = [] → run_cmd dr (CBranch opts args) o w = (r, w') →
  failed r ∧ prints w w' [] ∧ (∃ r1, get_workspace dr (B ".") o w = (r1, w') ∧ failed r1) ∨
  ∃ x hid a lines, opens dr (CBranch opts args) o w x hid a ∧ r = Ok tt ∧ prints w w' lines ∧ branch_listing a opts (ws_id x) lines.
Proof.
  intros dr opts args o w r w' G F Mc Hl H. cbn [run_cmd] in H. unfold cmd_branch in H.
  apply (opened_body dr (CBranch opts args)) in H as [H|(x & hid & a & t & k & Op & Lv & H)]; [by left| |done..]. right.
  destruct (list_branches_spec _ _ opts _ _ _ _ F Lv) as (w2 & lines & E & P & D).
  assert ((r, w') = (Ok tt, w2)) as [= -> ->].
  { rewrite <-E, <-H. destruct Hl as [->|(-> & -> & ->)]; [done|]. by destruct (bo_list opts). }
  exists x, hid, a, lines. split; [done|]. split; [done|]. split; [by eapply prints_only|done].
Qed.
Theorem C59_tag_list : ∀ dr opts args o w r w', good_path dr → fair o → machine dr (w_fs w) (w_mounts w) →
  to_list opts = true ∨ to_delete opts = false ∧ args = [] → run_cmd dr (CTag opts args) o w = (r, w') →
  failed r ∧ prints w w' [] ∧ (∃ r1, get_workspace dr (B ".") o w = (r1, w') ∧ failed r1) ∨
  ∃ x hid a lines, opens dr (CTag opts args) o w x hid a ∧ r = Ok tt ∧ prints w w' lines ∧ tag_listing a lines.
Proof.
  intros dr opts args o w r w' G F Mc Hl H. cbn [run_cmd] in H. unfold cmd_tag in H.
  apply (opened_body dr (CTag opts args)) in H as [H|(x & hid & a & t & k & Op & Lv & H)]; [by left| |done..]. right.
  destruct (list_tags_spec _ _ _ _ _ _ F Lv) as (w2 & lines & E & P & D).
  assert ((r, w') = (Ok tt, w2)) as [= -> ->].
  { rewrite <-E, <-H. destruct Hl as [->|(-> & ->)]; [done|]. by destruct (to_list opts). }
  exists x, hid, a, lines. split; [done|]. split; [done|]. split; [by eapply prints_only|done].
Qed.
Print Assumptions C59_branch_list.
Print Assumptions C59_tag_list.

(** ** C59: deletions *)
(** Only the tree of the space differs; nothing was printed. *)
Definition only_tree (x : ws) (w w' : world) : Prop :=
  same_but [tree_file (ws_space x)] (w_fs w) (w_fs w') ∧ w_mounts w' = w_mounts w ∧ w_cwd w' = w_cwd w ∧ w_pwd w' = w_pwd w ∧ screen w' = screen w.
Lemma only_tree_refl x w : only_tree x w w.
Proof. done. Qed.
Lemma only_tree_trans x w w1 w2 : only_tree x w w1 → only_tree x w1 w2 → only_tree x w w2.
Proof.
  intros (A1 & A2 & A3 & A4 & A5) (B1 & B2 & B3 & B4 & B5). split; [|by rewrite B2, B3, B4, B5]. intros p Hp. by rewrite (B1 p Hp), (A1 p Hp).
Qed.
Lemma save_only_tree cut x a (r : res unit) w t' w' : save_step cut (ws_space x) a r (set_tree w t') w' → only_tree x w w'.
Proof.
  intros S. pose proof (save_step_same _ _ _ _ _ _ S) as (Sb & Sm & _ & Sp). destruct Sp as (P1 & P2 & P3). unfold only_tree, screen. by rewrite P1, P2, P3.
Qed.
Lemma live_write dr w x a hid : live dr w x a hid → can_write (w_fs w) (tree_file (ws_space x)).
Proof. intros Lv. destruct (rd_disk _ _ _ _ _ Lv) as (raw & E & _). left. by eexists. Qed.
Lemma calm_save sp o w a r w' : no_faults o → fair o → repr (w_tree w) a → can_write (w_fs w) (tree_file sp) → space_save sp o w = (r, w') → r = Ok tt.
Proof.
  intros N F R C E. destruct (space_save_calm sp o w a F R (N _) C) as (w2 & E2). rewrite E2 in E. by injection E as <- _.
Qed.
Definition del_done (dr : path) (x : ws) (hid : uid) (op : wsop) (a : atree) (w : world) (r : res unit) (w' : world) : Prop :=
  (∃ e, r = Err e ∧ refused x op a e ∧ w' = w) ∨ (∃ a', r = Ok tt ∧ op_tree x hid op a a' ∧ live dr w' x a' hid ∧ only_tree x w w').
Lemma del_branch_step dr x hid a n g o w r w' : no_faults o → fair o → live dr w x a hid → ws_delete_branch x n g o w = (r, w') →
  del_done dr x hid (ODelBranch n g) a w r w'.
Proof.
  intros N F Lv H. pose proof (ready_repr _ _ _ _ _ Lv) as R.
  destruct (ws_delete_branch_any _ _ _ _ _ _ _ a F R H) as [(-> & -> & Eg & En)|(Hx & [(-> & -> & Hk)|(Hs & t' & R' & Sn & S1)])].
  - left. exists ECheckedOut. split; [done|]. split; [left; done|done].
  - left. exists EBranchNotFound. split; [done|]. split; [right; done|done].
  - right. assert (r = Ok tt) as ->.
    { destruct (C28_other_succeeds x n g o w a hid F) as (w2 & E2); [split; [done|apply Lv]|apply N|by eapply live_write|done|done|]. rewrite H in E2. by injection E2 as -> _. }
    eexists. split; [done|]. split; [split; [exact Hx|split; [exact Hs|reflexivity]]|].
    split; [|by eapply save_only_tree]. eapply live_saved_step; [exact Lv|done|exact R'|exact Sn|exact S1].
Qed.
Lemma del_tag_step dr x hid a n o w r w' : no_faults o → fair o → live dr w x a hid → ws_delete_tag x n o w = (r, w') →
  del_done dr x hid (ODelTag n) a w r w'.
Proof.
  intros N F Lv H. pose proof (ready_repr _ _ _ _ _ Lv) as R.
  destruct (ws_delete_tag_any _ _ _ _ _ _ a F R H) as [(-> & -> & Hk)|(Hs & t' & R' & Sn & S1)].
  - left. exists ETagNotFound. done.
  - right. assert (r = Ok tt) as ->.
    { unfold ws_delete_tag in H. rewrite bind_gets in H. destruct (delete_tag_repr (w_tree w) a n R) as (R2 & Hb & _). destruct (delete_tag (w_tree w) n) as [t2 b] eqn:E. cbn [fst snd] in *.
      rewrite (proj2 Hb Hs), bind_modify, E in H. cbn [fst] in H. refine (calm_save _ _ (set_tree w t2) _ _ _ N F R2 _ H). exact (live_write _ _ _ _ _ Lv). }
    eexists. split; [done|]. split; [split; [exact Hs|reflexivity]|].
    split; [|by eapply save_only_tree]. eapply live_saved_step; [exact Lv|done|exact R'|exact Sn|exact S1].
Qed.
Lemma del_all dr x hid o (f : bytes → wsop) (d : bytes → M unit) : (∀ n a w r w', live dr w x a hid → d n o w = (r, w') → del_done dr x hid (f n) a w r w') →
  ∀ args a w r w', live dr w x a hid → for_each args d o w = (r, w') →
  ∃ a', deletions x hid (f <$> args) a a' r ∧ live dr w' x a' hid ∧ only_tree x w w'.
Proof.
  intros Hd. induction args as [|n args IH]; intros a w r w' Lv H; cbn [for_each fmap list_fmap] in *.
  { injection H as <- <-. exists a. split; [constructor|]. split; [done|apply only_tree_refl]. }
  unfold bind in H. destruct (d n o w) as [r1 w1] eqn:E. destruct (Hd _ _ _ _ _ Lv E) as [(e & -> & Hr & ->)|(a1 & -> & Ha & Lv1 & O1)].
  - injection H as <- <-. exists a. split; [by apply dl_stop|]. split; [done|apply only_tree_refl].
  - destruct (IH _ _ _ _ Lv1 H) as (a' & D & Lv' & O'). exists a'. split; [by eapply dl_next|]. split; [done|by eapply only_tree_trans].
Qed.
Lemma deletions_finish dr c x hid a a' o w ops r w' t k : opens dr c o w x hid a →
  deletions x hid ops a a' r → live dr w' x a' hid → only_tree x (upd w (w_fs w) (w_mounts w) t k) w' →
  ∃ x hid a a', opens dr c o w x hid a ∧ deletions x hid ops a a' r ∧ holds (w_fs w') (ws_space x) (san_tree a') ∧ only_tree x w w'.
Proof. intros Op D Lv O. exists x, hid, a, a'. split; [done|]. split; [done|]. split; [apply Lv|exact O]. Qed.
(** Names are removed one after the other up to the first that is refused, whose error is the result; the
    saved tree is the one reached there, and no other file, mount or setting of the process changes. *)
Theorem C59_delete_branches : ∀ dr opts args o w r w', good_path dr → fair o → no_faults o → machine dr (w_fs w) (w_mounts w) →
  bo_list opts = false → bo_current opts = false → bo_delete opts = true → run_cmd dr (CBranch opts args) o w = (r, w') →
  failed r ∧ prints w w' [] ∧ (∃ r1, get_workspace dr (B ".") o w = (r1, w') ∧ failed r1) ∨
  ∃ x hid a a', opens dr (CBranch opts args) o w x hid a ∧ deletions x hid ((λ n, ODelBranch n (bo_remotes opts)) <$> args) a a' r ∧
    holds (w_fs w') (ws_space x) (san_tree a') ∧ only_tree x w w'.
Proof.
  intros dr opts args o w r w' G F N Mc El Ec Ed H. cbn [run_cmd] in H. unfold cmd_branch in H. rewrite El, Ec, Ed in H.
  apply (opened_body dr (CBranch opts args)) in H as [H|(x & hid & a & t & k & Op & Lv & H)]; [by left| |done..]. right.
  destruct (del_all dr x hid o (λ n, ODelBranch n (bo_remotes opts)) _ (λ n a w r w', del_branch_step dr x hid a n _ o w r w' N F) _ _ _ _ _ Lv H) as (a' & D & Lv' & O).
  by eapply deletions_finish.
Qed.
Theorem C59_delete_tags : ∀ dr opts args o w r w', good_path dr → fair o → no_faults o → machine dr (w_fs w) (w_mounts w) →
  to_list opts = false → to_delete opts = true → run_cmd dr (CTag opts args) o w = (r, w') →
  failed r ∧ prints w w' [] ∧ (∃ r1, get_workspace dr (B ".") o w = (r1, w') ∧ failed r1) ∨
  ∃ x hid a a', opens dr (CTag opts args) o w x hid a ∧ deletions x hid (ODelTag <$> args) a a' r ∧
    holds (w_fs w') (ws_space x) (san_tree a') ∧ only_tree x w w'.
Proof.
  intros dr opts args o w r w' G F N Mc El Ed H. cbn [run_cmd] in H. unfold cmd_tag in H. rewrite El, Ed in H.
  apply (opened_body dr (CTag opts args)) in H as [H|(x & hid & a & t & k & Op & Lv & H)]; [by left| |done..]. right.
  destruct (del_all dr x hid o ODelTag _ (λ n a w r w', del_tag_step dr x hid a n o w r w' N F) _ _ _ _ _ Lv H) as (a' & D & Lv' & O).
  by eapply deletions_finish.
Qed.
(** With a name and no listing or deletion: one name is added; the reference defaults to HEAD. A third argument is ignored. *)
Lemma add_finish dr c o w r w' x hid a t k op : plain_path dr → fair o → opens dr c o w x hid a → 
  live dr (upd w (w_fs w) (w_mounts w) t k) x a hid → (∃ n ref f, op = OAddBranch n ref f ∨ op = OAddTag n ref f) →
  (run_op dr x op ;;; ret tt) o (upd w (w_fs w) (w_mounts w) t k) = (r, w') →
  (failed r ∧ only_tree x w w' ∨ ∃ a', r = Ok tt ∧ op_tree x hid op a a' ∧ holds (w_fs w') (ws_space x) (san_tree a') ∧ only_tree x w w').
Proof.
  intros P F Op Lv Hop H. pose proof Lv as [W [R G] LP S D]. apply then_ret in H as (r1 & H & Fr & Hy).
  destruct Hop as (n & ref & f & [->| ->]); cbn [run_op] in H; apply then_ret in H as (r2 & H & Fr2 & Hy2).
  - apply (ws_add_branch_any _ _ _ _ _ _ _ _ a hid) in H as [[-> Fl]|(id & t' & Hf & Hi & Hx & R' & Sn & S1)]; [left; split; [by apply Fr, Fr2|done]| |done..].
    assert (only_tree x w w') as O by (by apply save_only_tree in S1).
    destruct r as [[]| | | |]; [right|left; split; [done|exact O]..]. destruct (Hy tt eq_refl) as [_ [y ->]]. destruct (Hy2 y eq_refl) as [_ [[] ->]].
    eexists. split; [done|]. split; [exists id; split; [exact Hf|split; [exact Hx|reflexivity]]|]. split; [|exact O]. by apply save_step_ok in S1 as [Hh _].
  - apply (ws_add_tag_any _ _ _ _ _ _ _ _ a hid) in H as [[-> Fl]|(id & t' & Hf & Hi & Hx & R' & Sn & S1)]; [left; split; [by apply Fr, Fr2|done]| |done..].
    assert (only_tree x w w') as O by (by apply save_only_tree in S1).
    destruct r as [[]| | | |]; [right|left; split; [done|exact O]..]. destruct (Hy tt eq_refl) as [_ [y ->]]. destruct (Hy2 y eq_refl) as [_ [[] ->]].
    eexists. split; [done|]. split; [exists id; split; [exact Hf|split; [exact Hx|reflexivity]]|]. split; [|exact O]. by apply save_step_ok in S1 as [Hh _].
Qed.
Theorem C59_add_branch : ∀ dr opts n rest o w r w', plain_path dr → good_path dr → fair o → machine dr (w_fs w) (w_mounts w) →
  bo_list opts = false → bo_current opts = false → bo_delete opts = false → run_cmd dr (CBranch opts (n :: rest)) o w = (r, w') →
  failed r ∧ prints w w' [] ∨
  ∃ x hid a, opens dr (CBranch opts (n :: rest)) o w x hid a ∧
   (failed r ∧ only_tree x w w' ∨
    ∃ a', r = Ok tt ∧ op_tree x hid (OAddBranch n (match rest with ref :: _ => ref | [] => B "HEAD" end) (bo_force opts)) a a' ∧ holds (w_fs w') (ws_space x) (san_tree a') ∧ only_tree x w w').
Proof.
  intros dr opts n rest o w r w' P G F Mc El Ec Ed H. cbn [run_cmd] in H. unfold cmd_branch in H. rewrite El, Ec, Ed in H.
  apply (opened_body dr (CBranch opts (n :: rest))) in H as [(H1 & H2 & _)|(x & hid & a & t & k & Op & Lv & H)]; [by left| |done..]. right.
  exists x, hid, a. split; [done|]. eapply (add_finish dr _ o w r w' x hid a t k); [done|done|exact Op|exact Lv|by eexists _, _, _; left|].
  rewrite <-H. cbn [run_op]. unfold bind. destruct rest; destruct (ws_add_branch _ _ _ _ _ _) as [[[]| | | |] w2]; done.
Qed.
Theorem C59_add_tag : ∀ dr opts n rest o w r w', plain_path dr → good_path dr → fair o → machine dr (w_fs w) (w_mounts w) →
  to_list opts = false → to_delete opts = false → run_cmd dr (CTag opts (n :: rest)) o w = (r, w') →
  failed r ∧ prints w w' [] ∨
  ∃ x hid a, opens dr (CTag opts (n :: rest)) o w x hid a ∧
   (failed r ∧ only_tree x w w' ∨
    ∃ a', r = Ok tt ∧ op_tree x hid (OAddTag n (match rest with ref :: _ => ref | [] => B "HEAD" end) (to_force opts)) a a' ∧ holds (w_fs w') (ws_space x) (san_tree a') ∧ only_tree x w w').
Proof.
  intros dr opts n rest o w r w' P G F Mc El Ed H. cbn [run_cmd] in H. unfold cmd_tag in H. rewrite El, Ed in H.
  apply (opened_body dr (CTag opts (n :: rest))) in H as [(H1 & H2 & _)|(x & hid & a & t & k & Op & Lv & H)]; [by left| |done..]. right.
  exists x, hid, a. split; [done|]. eapply (add_finish dr _ o w r w' x hid a t k); [done|done|exact Op|exact Lv|by eexists _, _, _; right|].
  rewrite <-H. cbn [run_op]. unfold bind. destruct rest; destruct (ws_add_tag _ _ _ _ _ _) as [[[]| | | |] w2]; done.
Qed.
Print Assumptions C59_delete_branches.
Print Assumptions C59_delete_tags.
Print Assumptions C59_add_branch.
Print Assumptions C59_add_tag.
(** On a concrete machine: the listings, and a deletion of four names that stops at the third *)
Definition some_more : list event := some_names ++ [Do calm wdir (plain_branch (B "b2")); Do calm wdir (plain_branch (B "b10"))].
Definition del_branches (l : list bytes) : command := CBranch (BranchOpts false false true false false false) l.
Definition list_all : command := CBranch (BranchOpts false false false false true false) [].
Lemma some_more_test : story_test sample_dr some_more sample_world = true.
Proof. vm_compute. reflexivity. Qed.
Lemma some_more_lists : told sample_dr some_more sample_world [true; true; true; true; true; true; true; true] (λ w,
  then_ok (get_workspace sample_dr (B ".") calm (enter wdir w)) (λ _ _, true) &&
  then_ok (run_cmd sample_dr list_all calm (enter wdir w)) (λ _ w', bool_decide (screen w' = [B "b10"; B "b2"; B "dev"; B "main"])) &&
  then_ok (run_cmd sample_dr (CTag (TagOpts false false false) []) calm (enter wdir w)) (λ _ w', bool_decide (screen w' = [B "v1"])) &&
  match run_cmd sample_dr (del_branches [B "b10"; B "main"; B "dev"; B "b2"]) calm (enter wdir w) with
  | (Err ECheckedOut, w1) => then_ok (run_cmd sample_dr list_all calm (enter wdir w1)) (λ _ w', bool_decide (screen w' = [B "b2"; B "dev"]))
  | _ => false
  end) = true.
Proof. vm_compute. reflexivity. Qed.
Example C58_C59_sat : ∃ w x w1, good_path sample_dr ∧ plain_path sample_dr ∧ fair calm ∧ no_faults calm ∧ machine sample_dr (w_fs w) (w_mounts w) ∧
  get_workspace sample_dr (B ".") calm w = (Ok x, w1) ∧ (∃ w', run_cmd sample_dr list_all calm w = (Ok tt, w') ∧ screen w' = [B "b10"; B "b2"; B "dev"; B "main"]) ∧
  ∃ w', run_cmd sample_dr (del_branches [B "b10"; B "main"; B "dev"; B "b2"]) calm w = (Err ECheckedOut, w').
Proof.
  destruct sample_plain as [P G]. destruct (told_inv _ _ _ _ _ some_more_lists) as (w & E & H).
  assert (Forall named_event some_more) as Hn.
  { apply Forall_app. split; [exact some_names_named|]. repeat (constructor; [split; [exact fair_calm|split; [exact sample_clock|exact I]]|]). constructor. }
  pose proof (story_named sample_dr some_more Hn sample_world _ w some_more_test E) as R. clear E.
  apply andb_true_iff in H as [H H4]. apply andb_true_iff in H as [H H3]. apply andb_true_iff in H as [H1 H2].
  destruct (then_ok_inv _ _ H1) as (x & w1 & E1 & _). destruct (then_ok_inv _ _ H2) as ([] & w2 & E2 & H5). apply bool_decide_eq_true in H5.
  destruct (run_cmd sample_dr (del_branches _) calm (enter wdir w)) as [r w3] eqn:E3.
  assert (r = Err ECheckedOut) as ->. { destruct r as [?|e| | |]; try discriminate H4. destruct e; try discriminate H4. reflexivity. }
  assert (rtc (named_step sample_dr) sample_world (enter wdir w)) as R'.
  { apply (rtc_r _ _ _ R). apply ns_lost; [done|]. by intros m. }
  assert (machine sample_dr (w_fs (enter wdir w)) (w_mounts (enter wdir w))) as Mc.
  { apply (steps_orderly sample_dr sample_world); [done|done|exact sample_machine|]. eapply rtc_subrel; [|exact R']. apply named_is_step. }
  exists (enter wdir w), x, w1. split; [exact G|]. split; [exact P|]. split; [exact fair_calm|]. split; [exact calm_no_faults|]. split; [exact Mc|].
  split; [exact E1|]. split; [exists w2; split; [exact E2|exact H5]|]. exists w3. exact E3.
Qed.
