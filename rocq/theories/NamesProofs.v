(** * NamesProofs: branch, tag and log on a machine in working order *)
From Verif Require Import Base Uid SpecUid UidProofs Tree SpecTree TreeRefine TreeObs Dump DumpProofs Json JsonProofs Save SaveProofs Branch BranchProofs Date DateProofs Ws SpecWs WsProofs
  Fs Overlay Os Layers Mounts Space Manager Commands FsProofs OsProofs LayerProofs MountProofs SpaceProofs ManagerProofs SpecWorld SpecOps SavedProofs FaultProofs ReadyProofs OpProofs CalmProofs
  SpecMachine SpecCmds SpecLog MachineProofs OpenProofs CmdProofs ExpandProofs DetProofs SpecTidy TidyProofs LogProofs Story StoryProofs SpecUsable UsableProofs UsableCmdProofs UsableSeqProofs PropsBranch PropsLog SpecNames.
From Coq Require Import Lia.
From stdpp Require Import prelude gmap sorting.

(** ** What the specification says of the nodes *)
Lemma op_names_nodes x hid op a a' : (∃ n g, op = ODelBranch n g) ∨ (∃ n, op = ODelTag n) → op_tree x hid op a a' → a_nodes a' = a_nodes a.
Proof. intros [(n & g & ->)|(n & ->)]; cbn [op_tree]; [intros (_ & _ & ->)|intros (_ & ->)]; done. Qed.
Lemma deletions_nodes x hid ops a a' r : (∀ op, op ∈ ops → (∃ n g, op = ODelBranch n g) ∨ (∃ n, op = ODelTag n)) → deletions x hid ops a a' r → a_nodes a' = a_nodes a.
Proof.
  intros H D. induction D as [a|op l a a1 a' r Ht D IH|op l a e Hr]; [done| |done].
  rewrite IH by (intros op' Hop; apply H; by right). eapply op_names_nodes; [|exact Ht]. apply H. left.
Qed.
Lemma names_nodes x hid c a a' r : names_result x hid c a a' r → a_nodes a' = a_nodes a.
Proof.
  destruct c as [| | | |opts args|opts args|args]; cbn [names_result]; try done.
  - destruct (bo_list opts || bo_current opts); [by intros [_ ->]|]. destruct (bo_delete opts).
    + apply deletions_nodes. intros op H. apply elem_of_list_fmap in H as (n & -> & _). left. by eexists _, _.
    + destruct args as [|n rest]; [by intros [_ ->]|]. unfold branch_added. destruct (meant _ _ _ _); [|by intros [_ ->]]. by case_decide; intros [_ ->].
  - destruct (to_list opts); [by intros [_ ->]|]. destruct (to_delete opts).
    + apply deletions_nodes. intros op H. apply elem_of_list_fmap in H as (n & -> & _). right. by eexists.
    + destruct args as [|n rest]; [by intros [_ ->]|]. unfold tag_added. destruct (meant _ _ _ _); [|by intros [_ ->]]. by case_decide; intros [_ ->].
  - by intros [-> _].
Qed.
Lemma op_names_same x x' hid op a a' : ws_id x = ws_id x' → ws_branch x = ws_branch x' → op_tree x hid op a a' → op_tree x' hid op a a'.
Proof. intros E1 E2. unfold op_tree. by rewrite E1, E2. Qed.
Lemma deletions_same x x' hid ops a a' r : ws_id x = ws_id x' → ws_branch x = ws_branch x' → deletions x hid ops a a' r → deletions x' hid ops a a' r.
Proof.
  intros E1 E2 D. induction D as [a|op l a a1 a' r Ht D IH|op l a e Hr].
  - constructor.
  - eapply dl_next; [|exact IH]. by eapply op_names_same.
  - apply dl_stop. unfold refused in *. by rewrite <-E1, <-E2.
Qed.
Lemma names_same x x' hid c a a' r : ws_id x = ws_id x' → ws_branch x = ws_branch x' → names_result x hid c a a' r → names_result x' hid c a a' r.
Proof.
  intros E1 E2. destruct c as [| | | |opts args|opts args|args]; cbn [names_result]; try done.
  - destruct (bo_list opts || bo_current opts); [done|]. destruct (bo_delete opts); [by apply deletions_same|]. destruct args; [done|]. unfold branch_added, meant. by rewrite E1.
  - destruct (to_list opts); [done|]. destruct (to_delete opts); [by apply deletions_same|]. destruct args; [done|]. unfold tag_added, meant. by rewrite E1.
  - unfold can_log, meant. by rewrite E1.
Qed.

(** ** The machine afterwards *)
Lemma relabel_finish dr w w' p mid y hid a a' : in_order dr w → workspace_at dr w p mid y hid a → machine dr (w_fs w') (w_mounts w') →
  same_but [tree_at dr (sp_id (ws_space y))] (w_fs w) (w_fs w') → w_mounts w' = w_mounts w → w_cwd w' = w_cwd w → w_pwd w' = w_pwd w →
  holds (w_fs w') (the_space dr (sp_id (ws_space y))) (san_tree a') → a_nodes a' = a_nodes a → relabelled dr w w' (sp_id (ws_space y)) a'.
Proof.
  intros [Mc A2 A3 A4 A5] Wa Mc' Sb Em Ec Ep Hh En. set (sid := sp_id (ws_space y)) in *.
  assert (∀ q, is_dir_at (w_fs w) q = true → is_dir_at (w_fs w') q = true) as Hd.
  { intros q D. unfold is_dir_at. rewrite (Sb q); [done|]. intros Q%elem_of_list_singleton. subst q.
    destruct (wa_tree _ _ _ _ _ _ _ Wa) as (raw & E & _). fold sid in E. change (tree_file (the_space dr sid)) with (tree_at dr sid) in E. unfold is_dir_at in D. by rewrite E in D. }
  constructor; try done.
  - constructor; try (by apply Hd); [done|]. intros m Hm Hp. rewrite Em in Hm. by apply Hd, A2.
  - intros p2 mid2 y2 hid2 a2 [B1 B2 B3 B4 B5 B6]. assert (fget (w_fs w) (tree_at dr sid) ≠ fget (w_fs w) p2 ∧ tree_at dr sid ≠ ws_file dr mid2) as [N1 N2].
    { destruct (wa_tree _ _ _ _ _ _ _ Wa) as (raw & E & _). fold sid in E. change (tree_file (the_space dr sid)) with (tree_at dr sid) in E. split; [rewrite E, B1; congruence|].
      destruct (tree_file_ne dr (the_space dr sid) eq_refl) as (_ & T & _). apply T. }
    constructor; try done.
    + rewrite (Sb p2); [done|]. intros Q%elem_of_list_singleton. by rewrite Q in N1.
    + destruct B2 as [D B2]. split; [by apply Hd|by rewrite Em].
    + rewrite (Sb (ws_file dr mid2)); [done|]. intros Q%elem_of_list_singleton. by apply N2.
    + case_decide as D; [by rewrite D|]. unfold holds. rewrite (Sb _); [done|]. intros Q%elem_of_list_singleton. by apply tree_at_inj in Q.
    + case_decide as D; [|done]. apply san_has. unfold has. rewrite En. assert (a2 = a) as -> by (eapply holds_det; [exact B5|]; rewrite D; apply Wa). done.
Qed.

(** ** The commands *)
Lemma head_decodes : decode_b32 (B "HEAD") ≠ Panic.
Proof. vm_compute. discriminate. Qed.
Lemma meant_found x hid a ref : decode_b32 ref ≠ Panic → meant x hid a ref = found_id (resolve a (ws_id x) hid ref).
Proof. intros N. unfold meant. by destruct (decode_b32 ref). Qed.
(** Looking up a reference: it means the commit that is found, and nothing if none is found *)
Lemma search_meant t a x hid ref r : repr t a → get t hid = Some (ws_head x) → ws_search t (ws_id x) (ws_head x) ref = r →
  (∃ l ty id, r = Ok (Some (Some l, ty)) ∧ meant x hid a ref = Some id ∧ node_id t l = Some id ∧ has a id) ∨
  meant x hid a ref = None ∧ ((∃ ty, r = Ok (Some (None, ty))) ∨ r = Ok None ∨ failed r).
Proof.
  intros R G E. destruct r as [f| | | |]; try (right; split; [|by right; right]; unfold meant; destruct (decode_b32 ref) eqn:Ed; try done;
    (destruct (ws_search_correct t a (ws_id x) hid (ws_head x) ref R G) as (f & E' & _); [right; by rewrite Ed|congruence])).
  assert (decode_b32 ref ≠ Panic) as Nd by (destruct (ws_search_no_panic _ _ _ _ _ E) as [->|?]; [exact head_decodes|done]).
  rewrite (meant_found _ _ _ _ Nd). destruct (ws_search_correct t a (ws_id x) hid (ws_head x) ref R G (or_intror Nd)) as (f' & E' & Fo). rewrite E in E'. injection E' as <-.
  destruct f as [[[l|] ty]|].
  - left. destruct (ws_search_resolve _ _ _ _ _ _ _ _ R G E) as (i & Gi & Ni & Hi & Rs). exists l, ty, i. split; [done|]. rewrite Rs. by destruct ty.
  - right. cbn in Fo. injection Fo as Fo. rewrite <-Fo. split; [done|]. left. by eexists.
  - right. cbn in Fo. injection Fo as Fo. rewrite <-Fo. split; [done|]. by right; left.
Qed.
Lemma branch_there t a k : repr t a → is_Some (get_by_branch t k) ↔ is_Some (a_branches a !! k).
Proof.
  intros R. unfold get_by_branch. rewrite (r_br _ _ R). destruct (a_branches a !! k) as [i|] eqn:E; cbn; [|split; by intros [? ?]].
  destruct (get_Some _ _ _ R (ro_branch _ (r_ok _ _ R) _ _ E)) as (? & ? & ? & -> & _). split; by eexists.
Qed.
Lemma tag_there t a k : repr t a → is_Some (get_by_tag t k) ↔ is_Some (a_tags a !! k).
Proof.
  intros R. unfold get_by_tag. rewrite (r_tag _ _ R). destruct (a_tags a !! k) as [i|] eqn:E; cbn; [|split; by intros [? ?]].
  destruct (get_Some _ _ _ R (ro_tag _ (r_ok _ _ R) _ _ E)) as (? & ? & ? & -> & _). split; by eexists.
Qed.
Lemma add_branch_step dr x hid a n ref f o w r w' : no_faults o → fair o → live dr w x a hid → ws_add_branch x n ref f o w = (r, w') →
  ∃ a', branch_added x hid n ref f a a' r ∧ live dr w' x a' hid ∧ only_tree x w w'.
Proof.
  intros N F Lv H. pose proof Lv as [_ [R G] _ _ _]. unfold ws_add_branch in H. unfold bind at 1 in H.
  destruct (search_ws x ref o w) as [r1 w1] eqn:E. apply search_ws_any in E as [-> ->]. unfold branch_added.
  destruct (search_meant _ a x hid ref _ R G eq_refl) as [(l & ty & id & Es & Em & Ni & Hi)|(Em & Hr)]; rewrite Em.
  - rewrite Es, bind_gets in H. change (full_name (local_branch (ws_id x) n)) with (local_key (ws_id x) n) in H. pose proof (branch_there _ _ (local_key (ws_id x) n) R) as Hb.
    destruct (decide (is_Some (get_by_branch (w_tree w) (local_key (ws_id x) n)) ∧ f = false)) as [[D ->]|D].
    + injection H as <- <-. exists a. rewrite decide_True by (by rewrite <-Hb). by split; [|split; [|apply only_tree_refl]].
    + exists (plus_branch a (local_key (ws_id x) n) id). rewrite decide_False by (by rewrite <-Hb). unfold bind at 1, id_of in H. rewrite bind_gets in H. cbn [mbind option_bind] in H. rewrite Ni in H. cbn [ret] in H.
      destruct (add_branch_effect (w_tree w) a (local_key (ws_id x) n) id R) as [[N1 _]|(_ & t' & Ea & _)]; [done|].
      unfold bind, tree_do in H. rewrite Ea in H. pose proof (add_branch_repr _ _ _ _ _ R Ea) as (_ & R' & Sn).
      pose proof (calm_save _ _ (set_tree w t') _ _ _ N F R' (live_write _ _ _ _ _ Lv) H) as ->.
      apply (space_save_any _ _ (set_tree w t') _ _ _ F R') in H. split; [done|].
      split; [|by eapply save_only_tree]. eapply live_saved_step; [exact Lv|done|exact R'|exact Sn|exact H].
  - exists a. assert (failed r ∧ w' = w) as [Fr ->]; [|by split; [|split; [|apply only_tree_refl]]].
    destruct Hr as [[ty Es]|[Es|Hr]]; [rewrite Es in H..|].
    + rewrite bind_gets in H. case_decide; [by injection H as <- <-|]. by injection H as <- <-.
    + by injection H as <- <-.
    + destruct (ws_search _ _ _ _) as [f0| | | |]; try by injection H as <- <-. by destruct (Hr f0).
Qed.
Lemma add_tag_step dr x hid a n ref f o w r w' : no_faults o → fair o → live dr w x a hid → ws_add_tag x n ref f o w = (r, w') →
  ∃ a', tag_added x hid n ref f a a' r ∧ live dr w' x a' hid ∧ only_tree x w w'.
Proof.
  intros N F Lv H. pose proof Lv as [_ [R G] _ _ _]. unfold ws_add_tag in H. unfold bind at 1 in H.
  destruct (search_ws x ref o w) as [r1 w1] eqn:E. apply search_ws_any in E as [-> ->]. unfold tag_added.
  destruct (search_meant _ a x hid ref _ R G eq_refl) as [(l & ty & id & Es & Em & Ni & Hi)|(Em & Hr)]; rewrite Em.
  - rewrite Es, bind_gets in H. pose proof (tag_there _ _ n R) as Hb.
    destruct (decide (is_Some (get_by_tag (w_tree w) n) ∧ f = false)) as [[D ->]|D].
    + injection H as <- <-. exists a. rewrite decide_True by (by rewrite <-Hb). by split; [|split; [|apply only_tree_refl]].
    + exists (plus_tag a n id). rewrite decide_False by (by rewrite <-Hb). unfold bind at 1, id_of in H. rewrite bind_gets in H. cbn [mbind option_bind] in H. rewrite Ni in H. cbn [ret] in H.
      destruct (add_tag_effect (w_tree w) a n id R) as [[N1 _]|(_ & t' & Ea & _)]; [done|].
      unfold bind, tree_do in H. rewrite Ea in H. pose proof (add_tag_repr _ _ _ _ _ R Ea) as (_ & R' & Sn).
      pose proof (calm_save _ _ (set_tree w t') _ _ _ N F R' (live_write _ _ _ _ _ Lv) H) as ->.
      apply (space_save_any _ _ (set_tree w t') _ _ _ F R') in H. split; [done|].
      split; [|by eapply save_only_tree]. eapply live_saved_step; [exact Lv|done|exact R'|exact Sn|exact H].
  - exists a. assert (failed r ∧ w' = w) as [Fr ->]; [|by split; [|split; [|apply only_tree_refl]]].
    destruct Hr as [[ty Es]|[Es|Hr]]; [rewrite Es in H..|].
    + rewrite bind_gets in H. case_decide; [by injection H as <- <-|]. by injection H as <- <-.
    + by injection H as <- <-.
    + destruct (ws_search _ _ _ _) as [f0| | | |]; try by injection H as <- <-. by destruct (Hr f0).
Qed.
Lemma log_step dr x hid a ref o w r w' : fair o → live dr w x a hid → log_body x ref o w = (r, w') →
  (r = Ok tt ↔ can_log x hid a ref) ∧ ∃ lines, only_printed w w' lines.
Proof.
  intros F Lv H. pose proof Lv as [_ [R G] _ _ _]. unfold can_log. destruct (decode_b32 ref) eqn:Ed.
  1,2,4,5: assert (decode_b32 ref ≠ Panic) as Nd by congruence; rewrite (meant_found _ _ _ _ Nd); destruct (log_body_spec _ _ _ _ _ _ _ F Lv (or_intror Nd)) as (r2 & w2 & lines & E & P & D);
    rewrite E in H; injection H as <- <-; split; [|by exists lines];
    (destruct (found_id (resolve a (ws_id x) hid ref)) as [id|]; [|destruct D as [-> _]; split; [done|by intros (? & ? & ? & _)]];
     destruct D as (ch & C & [(Hd & -> & _)|(c & l1 & l2 & _ & _ & _ & Ec & Nn & -> & _)]);
     [split; [|done]; intros _; by exists id, ch|split; [done|]; intros (id' & ch' & [= <-] & C' & Hd); rewrite (chain_det _ _ _ _ C' C) in Hd; destruct (Hd c) as [d D]; [rewrite Ec; apply elem_of_app; right; left|by destruct (Nn d)]]).
  unfold meant. rewrite Ed. unfold log_body in H. rewrite !bind_next, bind_gets in H. cbn [tick w_tree] in H.
  assert (failed (get_history (w_tree w) (ch_locs (o (w_tick w))) (ch_locs (o (w_tick (tick w)))) (ws_id x) (ws_head x) ref)) as Eh.
  { unfold get_history. destruct (ws_search (w_tree w) (ws_id x) (ws_head x) ref) as [f| | | |] eqn:Es; try done.
    destruct (ws_search_no_panic _ _ _ _ _ Es) as [->|?]; [by destruct head_decodes|done]. }
  unfold bind at 1, lift in H. destruct (get_history _ _ _ _ _ _) as [cs| | | |]; [by destruct (Eh cs)|..]; injection H as <- <-;
    (split; [split; [done|by intros (? & ? & ? & _)]|]; exists []; repeat (split; [done|]); by rewrite app_nil_r).
Qed.
Lemma names_open dr c o w x w1 r w' a hid : no_faults o → fair o → names_cmd c → get_workspace dr (B ".") o w = (Ok x, w1) → live dr w1 x a hid → run_cmd dr c o w = (r, w') →
  ∃ a', names_result x hid c a a' r ∧ holds (w_fs w') (ws_space x) (san_tree a') ∧
    same_but [tree_file (ws_space x)] (w_fs w1) (w_fs w') ∧ w_mounts w' = w_mounts w1 ∧ w_cwd w' = w_cwd w1 ∧ w_pwd w' = w_pwd w1.
Proof.
  intros N F Hc E Lv H.
  assert (∀ lines, only_printed w1 w' lines → holds (w_fs w') (ws_space x) (san_tree a) ∧
    same_but [tree_file (ws_space x)] (w_fs w1) (w_fs w') ∧ w_mounts w' = w_mounts w1 ∧ w_cwd w' = w_cwd w1 ∧ w_pwd w' = w_pwd w1) as Hp.
  { intros lines (A1 & A2 & _ & A3 & A4 & _). rewrite A1, A2, A3, A4. split; [apply Lv|]. split; [by intros ? _|]. done. }
  assert (∀ a', live dr w' x a' hid → only_tree x w1 w' → holds (w_fs w') (ws_space x) (san_tree a') ∧
    same_but [tree_file (ws_space x)] (w_fs w1) (w_fs w') ∧ w_mounts w' = w_mounts w1 ∧ w_cwd w' = w_cwd w1 ∧ w_pwd w' = w_pwd w1) as Ht.
  { intros a' Lv' (A1 & A2 & A3 & A4 & _). split; [apply Lv'|done]. }
  destruct c as [| | | |opts args|opts args|args]; try done; cbn [run_cmd] in H.
  - unfold cmd_branch in H. unfold bind at 1 in H. rewrite E in H. cbn [names_result].
    destruct (list_branches_spec _ x opts o w1 a hid F Lv) as (w2 & lines & El & P & _).
    destruct (bo_list opts); cbn [orb]; [|destruct (bo_current opts); [|destruct (bo_delete opts); [|destruct args as [|n rest]]]].
    + rewrite El in H. injection H as <- <-. exists a. split; [done|]. by eapply Hp.
    + rewrite println_eq in H. injection H as <- <-. exists a. split; [done|]. eapply Hp. repeat (split; [done|]). apply screen_add.
    + destruct (del_all dr x hid o (λ n, ODelBranch n (bo_remotes opts)) _ (λ n a w r w', del_branch_step dr x hid a n _ o w r w' N F) _ _ _ _ _ Lv H) as (a' & D & Lv' & O).
      exists a'. split; [done|]. by apply Ht.
    + rewrite El in H. injection H as <- <-. exists a. split; [done|]. by eapply Hp.
    + apply (add_branch_step dr x hid a) in H as (a' & D & Lv' & O); [|done..]. exists a'. split; [by destruct rest|]. by apply Ht.
  - unfold cmd_tag in H. unfold bind at 1 in H. rewrite E in H. cbn [names_result].
    destruct (list_tags_spec _ x o w1 a hid F Lv) as (w2 & lines & El & P & _).
    destruct (to_list opts); [|destruct (to_delete opts); [|destruct args as [|n rest]]].
    + rewrite El in H. injection H as <- <-. exists a. split; [done|]. by eapply Hp.
    + destruct (del_all dr x hid o ODelTag _ (λ n a w r w', del_tag_step dr x hid a n o w r w' N F) _ _ _ _ _ Lv H) as (a' & D & Lv' & O).
      exists a'. split; [done|]. by apply Ht.
    + rewrite El in H. injection H as <- <-. exists a. split; [done|]. by eapply Hp.
    + apply (add_tag_step dr x hid a) in H as (a' & D & Lv' & O); [|done..]. exists a'. split; [by destruct rest|]. by apply Ht.
  - rewrite cmd_log_body in H. unfold bind at 1 in H. rewrite E in H. apply (log_step dr x hid a) in H as [Hr [lines P]]; [|done..].
    exists a. split; [split; [done|]|by eapply Hp]. by destruct args.
Qed.
Lemma names_fine dr c o w p mid y hid a r w' : plain_path dr → good_path dr → fair o → no_faults o → in_order dr w → workspace_at dr w p mid y hid a → runs_in w p →
  names_cmd c → run_cmd dr c o w = (r, w') → ∃ a', names_result (read_back y) hid c a a' r ∧ relabelled dr w w' (sp_id (ws_space y)) a'.
Proof.
  intros P G F N Io Wa R Hc H. destruct (open_fine dr w p mid y hid a (B ".") p o G F N Io Wa R) as (h & t & k & E & _ & Lv); [apply join_dot|].
  destruct (names_open dr c o w _ _ r w' a hid N F Hc E Lv H) as (a' & Hr & Hh & Sb & A1 & A2 & A3). exists a'.
  split; [eapply names_same; [| |exact Hr]; done|].
  pose proof (names_nodes _ _ _ _ _ _ Hr) as Hn.
  destruct (cmd_any dr c o w r w' P G F (io_machine _ _ Io)) as [[Mc' _] _]; [by destruct c|done|].
  eapply relabel_finish; try done.
Qed.
(** ** Who can still commit *)
Lemma deletions_keep x hid ops a a' r k : (∀ op, op ∈ ops → (∃ n g, op = ODelBranch n g ∧ (g = true ∨ n ≠ ws_branch x → (if g : bool then global_key n else local_key (ws_id x) n) ≠ k)) ∨ (∃ n, op = ODelTag n)) →
  deletions x hid ops a a' r → a_branches a' !! k = a_branches a !! k.
Proof.
  intros H D. induction D as [a|op l a a1 a' r Ht D IH|op l a e Hr]; [done| |done].
  rewrite IH by (intros op' Hop; apply H; by right). destruct (H op) as [(n & g & -> & Hk)|(n & ->)]; [left|..]; cbn [op_tree] in Ht.
  - destruct Ht as (Hg & _ & ->). cbn [less_branch a_branches]. by rewrite lookup_delete_ne by (by apply Hk).
  - by destruct Ht as (_ & ->).
Qed.
Lemma global_not_local n wid m : global_key n ≠ local_key wid m.
Proof.
  intros E. change (full_name (Br None n) = full_name (Br (Some wid) m)) in E. by apply full_name_inj in E.
Qed.
Lemma sanitize_plain s r : Forall (λ c, (b2n c < 128)%N) s → sanitize (s ++ r) = s ++ sanitize r.
Proof.
  induction 1 as [|c s Hc F IH]; [done|]. apply N.ltb_lt in Hc. assert (utf8_head (c :: s ++ r) = Some 1) as E by (cbn; by rewrite Hc).
  rewrite <-!app_comm_cons. unfold sanitize at 1. rewrite (runes_cons_good _ _ _ E). cbn [map concat san_rune take drop app]. rewrite drop_0, take_0. cbn [app]. f_equal. exact IH.
Qed.
Lemma sanitize_local wid n : sanitize (local_key wid n) = local_key wid (sanitize n).
Proof. unfold local_key. rewrite sanitize_plain by apply b32_plain. rewrite sanitize_plain by (by repeat constructor). done. Qed.
Lemma san_map_unique {V W} (f : V → W) (m : gmap bytes V) k v : valid_utf8 k = true → m !! k = Some v → (∀ k0, is_Some (m !! k0) → sanitize k0 = k → k0 = k) → san_map f m !! k = Some (f v).
Proof.
  intros Vk E Hu. pose proof (san_map_is_Some f m k ltac:(by eexists)) as [w Hw]. rewrite sanitize_valid in Hw by done.
  rewrite Hw. apply san_map_in in Hw as (k0 & v0 & E0 & Ek & ->). rewrite (Hu k0) in E0; [congruence|by eexists|done].
Qed.
Lemma local_key_inj wid wid' n n' : local_key wid n = local_key wid' n' → wid = wid' ∧ n = n'.
Proof. intros E. change (full_name (Br (Some wid) n) = full_name (Br (Some wid') n')) in E. apply full_name_inj in E. by injection E. Qed.
(** The branch of a workspace stays *)
Lemma names_keep x hid c a a' r wid b h : san_tree a = a → names_result x hid c a a' r → valid_utf8 b = true → a_branches a !! local_key wid b = Some h →
  ws_id x ≠ wid ∨ ws_branch x = b ∧ spares b c → a_branches (san_tree a') !! local_key wid b = Some h.
Proof.
  intros Es Hr Vb Hb Hs. pose proof (valid_of_san _ Es) as (Va & _ & _).
  assert (valid_utf8 (local_key wid b) = true) as Vk by (by rewrite local_key_valid).
  assert (∀ a2, a_branches a2 = a_branches a → a_branches (san_tree a2) !! local_key wid b = Some h) as Hsame.
  { intros a2 E2. cbn [san_tree a_branches]. rewrite E2. by rewrite san_keys_id. }
  assert (∀ (p : list wsop), (∀ op, op ∈ p → (∃ n g, op = ODelBranch n g) ∨ ∃ n, op = ODelTag n) → deletions x hid p a a' r → a_branches (san_tree a') !! local_key wid b = Some h) as Hdel.
  { intros p Hp D. assert (∀ k, is_Some (a_branches a' !! k) → is_Some (a_branches a !! k)) as Hsub.
    { clear -D Hp. intros k. induction D as [a|op l a a1 a' r Ht D IH|op l a e _]; [done| |done]. intros Hk. specialize (IH ltac:(intros; apply Hp; by right) Hk).
      destruct (Hp op) as [(n & g & ->)|(n & ->)]; [left|..]; cbn [op_tree] in Ht; [destruct Ht as (_ & _ & ->)|destruct Ht as (_ & ->)]; [|done].
      cbn [less_branch a_branches] in IH. destruct IH as [v Hv]. apply lookup_delete_Some in Hv as [_ Hv]. by exists v. }
    assert (a_branches a' !! local_key wid b = Some h) as Ha.
    { rewrite <-Hb. eapply deletions_keep; [|exact D]. intros op Hop. destruct (Hp op Hop) as [(n & g & ->)|(n & ->)]; [left|right; by eexists]. exists n, g. split; [done|].
      intros Hg. destruct g; [apply global_not_local|]. intros Q. apply local_key_inj in Q as [Q1 Q2]. destruct Hs as [?|[Hx _]]; [done|]. destruct Hg as [?|Hg]; [done|]. by rewrite Hx in Hg. }
    cbn [san_tree a_branches]. rewrite san_keys_id; [done|]. intros k v Hk. destruct (Hsub k) as [v' Hv']; [by eexists|]. by eapply Va. }
  destruct c as [| | | |opts args|opts args|args]; cbn [names_result] in Hr; try done.
  - destruct (bo_list opts || bo_current opts); [destruct Hr as [_ ->]; by apply Hsame|]. destruct (bo_delete opts).
    + eapply Hdel; [|exact Hr]. intros op H. apply elem_of_list_fmap in H as (n & -> & _). left. by eexists _, _.
    + destruct args as [|n rest]; [destruct Hr as [_ ->]; by apply Hsame|]. unfold branch_added in Hr. destruct (meant _ _ _ _) as [id|]; [|destruct Hr as [_ ->]; by apply Hsame].
      case_decide as D; destruct Hr as [_ ->]; [by apply Hsame|].
      assert (∀ k, k = sanitize (local_key (ws_id x) n) → k ≠ local_key wid b) as Hn.
      { intros k -> Q. rewrite sanitize_local in Q. apply local_key_inj in Q as [Q1 Q2]. destruct Hs as [?|[Hx Hs]]; [done|]. cbn [spares] in Hs. destruct (Hs n eq_refl Q2) as [-> Hf].
        apply D. split; [|done]. rewrite Q1. by eexists. }
      cbn [san_tree plus_branch a_branches]. apply (san_map_unique Datatypes.id _ _ h).
      * done.
      * rewrite lookup_insert_ne; [done|]. intros Q. apply (Hn (sanitize (local_key (ws_id x) n)) eq_refl). rewrite Q. by apply sanitize_valid.
      * intros k0 [v0 E0] Hk. apply lookup_insert_Some in E0 as [[<- _]|[_ E0]]; [by destruct (Hn _ eq_refl)|]. rewrite <-Hk. symmetry. apply sanitize_valid. by eapply Va.
  - destruct (to_list opts); [destruct Hr as [_ ->]; by apply Hsame|]. destruct (to_delete opts).
    + eapply Hdel; [|exact Hr]. intros op H. apply elem_of_list_fmap in H as (n & -> & _). right. by eexists.
    + destruct args as [|n rest]; [destruct Hr as [_ ->]; by apply Hsame|]. unfold tag_added in Hr. destruct (meant _ _ _ _) as [id|]; [|destruct Hr as [_ ->]; by apply Hsame].
      case_decide as D; destruct Hr as [_ ->]; by apply Hsame.
  - destruct Hr as [-> _]. by apply Hsame.
Qed.
Lemma nodes_chain a a' i ch : a_nodes a' = a_nodes a → chain a i ch → chain (san_tree a') i ch.
Proof. intros E C. apply san_chain. eapply chain_mono; [..|exact C]; [intros z q (n & H1 & H2)|intros z (n & H1 & H2)]; exists n; by rewrite E. Qed.
Lemma path_str_merged dr i j : good_path dr → path_str (merged_dir dr i) = path_str (merged_dir dr j) → i = j.
Proof.
  intros G E. apply (f_equal (pjoin [])) in E. rewrite !join_path_str in E by (by apply good_merged). unfold mount_dir in E. rewrite <-!app_assoc in E.
  apply app_inv_head in E. injection E as E. by apply uid_b32_inj.
Qed.
Lemma workspace_det dr w p mid y hid a mid2 y2 hid2 a2 : good_path dr → workspace_at dr w p mid y hid a → workspace_at dr w p mid2 y2 hid2 a2 →
  mid = mid2 ∧ hid = hid2 ∧ ws_id y = ws_id y2 ∧ sanitize (ws_branch y) = sanitize (ws_branch y2) ∧ sp_id (ws_space y) = sp_id (ws_space y2) ∧ a = a2.
Proof.
  intros G [A1 _ A3 _ A5 _] [B1 _ B3 _ B5 _]. rewrite A1 in B1. injection B1 as B1. apply path_str_merged in B1 as <-; [|done].
  rewrite A3 in B3. apply (inj Some) in B3. apply (f_equal (λ f, match f with FFile d => d | _ => [] end)) in B3. pose proof (info_head _ _ _ _ B3) as [E1 E2]. pose proof (info_id _ _ _ _ B3) as E3.
  assert (sanitize (ws_branch y) = sanitize (ws_branch y2)) as E4.
  { apply (f_equal unmarshal_wsinfo) in B3. rewrite !wsinfo_round in B3. apply (inj Some) in B3. exact (f_equal wi_branch B3). }
  split_and!; try done. eapply holds_det; [exact A5|]. by rewrite E2.
Qed.
Lemma names_can_commit dr w w' c r p mid y hid a a' q n wid b : good_path dr → in_order dr w → workspace_at dr w p mid y hid a → names_result (read_back y) hid c a a' r → relabelled dr w w' (sp_id (ws_space y)) a' →
  wid ≠ ws_id y ∨ q = p ∧ spares (sanitize (ws_branch y)) c → commits_on dr w n q wid b → commits_on dr w' n q wid b.
Proof.
  intros G Io Wa Hr Rl Hq (mid2 & y2 & hid2 & a2 & ch2 & W2 & Ei & Eb & Hm & C & L). exists mid2, y2, hid2. eexists. exists ch2. split; [exact (rl_places _ _ _ _ _ Rl _ _ _ _ _ W2)|]. do 2 (split; [done|]).
  case_decide as D; [|done]. assert (a2 = a) as -> by (eapply holds_det; [apply W2|]; rewrite D; apply Wa).
  pose proof (names_nodes _ _ _ _ _ _ Hr) as En. split; [|split; [by eapply nodes_chain|done]].
  destruct Hm as [Hd|(h & Hh & An)]; [by left|right]. cbn [read_back ws_branch ws_id] in *. exists h. split.
  - eapply names_keep; [by eapply workspace_san|exact Hr|apply sanitize_is_valid|exact Hh|]. cbn [read_back ws_branch ws_id]. rewrite Ei.
    destruct Hq as [?|[-> Hs]]; [by left; apply not_eq_sym|].
    destruct (workspace_det _ _ _ _ _ _ _ _ _ _ _ G Wa W2) as (_ & _ & _ & Ebr & _). right. by rewrite <-Ebr.
  - apply san_anc. clear -An En. unfold ancestor_or_self in *. induction An as [|z q1 h1 (n & Hz1 & Hz2) An IHA]; [constructor|]. econstructor; [|done]. exists n. by rewrite En.
Qed.
(** A commit elsewhere, or here *)
Lemma commit_can_commit dr m o w p mid y hid a ch : plain_path dr → good_path dr → fair o → no_faults o → new_ids dr o (enter p w) → in_order dr w → workspace_at dr w p mid y hid a →
  outside dr p → may_commit (read_back y) a hid → chain a hid ch → fits dr (length ch) →
  ∃ w', cmd_commit dr m o (enter p w) = (Ok tt, w') ∧ in_order dr w' ∧ commits_on dr w' (S (length ch)) p (ws_id y) (sanitize (ws_branch y)) ∧
    ∀ q j b n, q ≠ p → j ≠ ws_id y → outside dr q → commits_on dr w n q j b → commits_on dr w' n q j b.
Proof.
  intros P G F N Nw Io1 Wa1 Op Hm C Fi.
  destruct (commit_fine dr m o (enter p w) p mid y hid a ch P G F N Nw) as (w' & mid' & y' & id & a' & k & E & Ht & Pa & Ep & E1 & E2 & E3 & Ne & Ni); try done.
  { by apply enter_order. } { by apply enter_workspace. } { by eapply enter_runs. }
  exists w'. split; [done|]. apply enter_put in Pa. pose proof (workspace_san _ _ _ _ _ _ _ Io1 Wa1) as Es.
  pose proof (pa_here _ _ _ _ _ _ _ _ _ Pa) as Wa'. split; [apply Pa|].
  destruct (commit_next y y' a a' hid id ch _ m Es C (wa_head _ _ _ _ _ _ _ Wa1) Ht Ni) as (C' & Hm' & _ & _ & _ & Hb & Hpar & Hroot); [by apply san_has; apply Wa'|done|done|].
  split. { exists mid', y', id, (san_tree a'), (id :: ch). split_and!; try done. by rewrite E2, sanitize_idemp. }
  intros q j b n Nq Nij Oq (mid2 & y2 & hid2 & a2 & ch2 & Wa2 & Ej & Eb & Hm2 & C2 & Lc2).
  assert (mid ≠ mid2) as Nm.
  { intros ->. pose proof (wa_info _ _ _ _ _ _ _ Wa1) as I1. pose proof (wa_info _ _ _ _ _ _ _ Wa2) as I2. rewrite I1 in I2. apply (inj Some) in I2. apply (f_equal (λ f, match f with FFile d => d | _ => [] end)) in I2. apply info_id in I2. congruence. }
  pose proof (pa_others _ _ _ _ _ _ _ _ _ Pa q mid2 y2 hid2 a2 Wa2 Nq Oq ltac:(congruence)) as Wa2'.
  exists mid2, y2, hid2. eexists. exists ch2. split; [exact Wa2'|]. do 2 (split; [done|]). case_decide as D; [|done].
  assert (a2 = a) as -> by (eapply holds_det; [apply Wa2|]; rewrite D, E3; apply Wa1).
  split_and!; [| |done].
  - destruct Hm2 as [?|(h & Eh & An)]; [by left|right]. exists h. split.
    + rewrite Hb; [done|]. cbn [read_back ws_id]. intros Q. apply local_key_wid in Q. congruence.
    + clear -An Hpar. unfold ancestor_or_self in *. induction An as [|z q1 h1 Hz An IHA]; [constructor|]. econstructor; [by apply Hpar|done].
  - by eapply chain_mono.
Qed.
Lemma user_can_commit dr w w1 n p wid b : in_order dr w → meanwhile dr w w1 → fget (w_fs w1) p = fget (w_fs w) p → commits_on dr w n p wid b → commits_on dr w1 n p wid b.
Proof. intros Io U El (mid & y & hid & a & ch & A1 & A2). exists mid, y, hid, a, ch. split; [|done]. by eapply while_workspace. Qed.
Lemma can_commit_more dr w n n' p wid b : n ≤ n' → commits_on dr w n p wid b → commits_on dr w n' p wid b.
Proof. intros L (mid & y & hid & a & ch & A1 & A2 & A3 & A4 & A5 & A6). exists mid, y, hid, a, ch. split_and!; try done. lia. Qed.
Lemma session_weaken dr ps l (Q Q' : world → Prop) : (∀ w, Q w → Q' w) → ∀ w, session dr ps l Q w → session dr ps l Q' w.
Proof.
  intros H. induction l as [|[p [m|c]] l IH]; intros w; cbn [session]; [apply H|..]; intros Hc w1 o U El F N.
  - intros Nw. destruct (Hc w1 o U El F N Nw) as (w' & E & Hc'). exists w'. split; [done|]. by apply IH.
  - intros r w' E. apply IH. by eapply Hc.
Qed.
Lemma session_fine dr ps (ids : path → uid) (br : path → bytes) l : plain_path dr → good_path dr → (∀ p q, p ∈ ps → q ∈ ps → ids p = ids q → p = q) → (∀ p, p ∈ ps → outside dr p) →
  (∀ p t, (p, t) ∈ l → p ∈ ps ∧ match t with ACommit _ => True | ANames c => names_cmd c ∧ spares (br p) c end) →
  ∀ w n, in_order dr w → (∀ p, p ∈ ps → commits_on dr w n p (ids p) (br p)) → fits dr (n + commits_in l) →
  session dr ps l (λ w', in_order dr w' ∧ ∀ p, p ∈ ps → commits_on dr w' (n + commits_in l) p (ids p) (br p)) w.
Proof.
  intros P G Hd Ho. induction l as [|[p t] l IH]; intros Hl w n Io Hc Fi; cbn [session].
  { split; [done|]. intros q Hq. eapply can_commit_more; [|by apply Hc]. cbn. lia. }
  intros w1 o U El F N. pose proof (while_order _ _ _ Io U) as Io1.
  assert (∀ p, p ∈ ps → commits_on dr w1 n p (ids p) (br p)) as Hc1 by (intros q Hq; eapply user_can_commit; [exact Io|exact U|by apply El|by apply Hc]).
  destruct (Hl p t) as [Hp Ht]; [left|]. destruct (Hc1 p Hp) as (mid & y & hid & a & ch & Wa1 & Ei & Eb & Hm & C & Lc).
  assert (∀ p t, (p, t) ∈ l → p ∈ ps ∧ match t with ACommit _ => True | ANames c => names_cmd c ∧ spares (br p) c end) as Hl' by (intros; apply Hl; by right).
  destruct t as [m|c].
  - intros Nw. cbn [commits_in] in *.
    destruct (commit_can_commit dr m o w1 p mid y hid a ch P G F N Nw Io1 Wa1 (Ho _ Hp) Hm C) as (w' & E & Io' & Hh & Hot); [eapply fits_less; [exact Fi|lia]|].
    exists w'. split; [done|]. replace (n + S (commits_in l)) with (S n + commits_in l) in * by lia. apply (IH Hl' w' (S n) Io'); [|done].
    intros q Hq. destruct (decide (q = p)) as [->|Nq].
    + rewrite <-Ei, <-Eb. eapply can_commit_more; [|exact Hh]. lia.
    + eapply can_commit_more; [|apply Hot; [done| |by apply Ho|by apply Hc1]]; [lia|]. rewrite Ei. intros Q. by apply Nq, Hd.
  - intros r w' E. destruct Ht as [Hn Hs]. cbn [commits_in] in *.
    destruct (names_fine dr c o (enter p w1) p mid y hid a r w' P G F N) as (a' & Hr & Rl); try done.
    { by apply enter_order. } { by apply enter_workspace. } { by eapply enter_runs. }
    apply (IH Hl' w' n); [apply Rl| |done]. intros q Hq.
    eapply (names_can_commit dr (enter p w1) w' c r p mid y hid a a'); [done|by apply enter_order|by apply enter_workspace|done|done| |].
    + destruct (decide (q = p)) as [->|Nq]; [right; by rewrite Eb|left]. rewrite Ei. intros Q. by apply Nq, Hd.
    + destruct (Hc1 q Hq) as (mid2 & y2 & hid2 & a2 & ch2 & B1 & B2). exists mid2, y2, hid2, a2, ch2. split; [|done]. by apply enter_workspace.
Qed.
