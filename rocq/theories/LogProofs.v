(** * LogProofs: what log prints and when it panics *)
From Verif Require Import Base Uid SpecUid UidProofs Tree SpecTree TreeRefine TreeObs Dump DumpProofs Json JsonProofs Save SaveProofs Branch BranchProofs Date DateProofs Ws SpecWs WsProofs
  Fs Overlay Os Layers Mounts Space Manager Commands FsProofs OsProofs LayerProofs MountProofs SpaceProofs ManagerProofs SpecWorld SpecOps SavedProofs FaultProofs ReadyProofs OpProofs CalmProofs
  SpecMachine SpecCmds SpecLog MachineProofs OpenProofs CmdProofs.
From Coq Require Import Lia.
From stdpp Require Import prelude gmap.

(** ** The text *)
Lemma join_joined sep l : l ≠ [] → joined sep l (join_with sep l).
Proof.
  induction l as [|s l IH]; [done|]. intros _. destruct l as [|s' l]; [constructor|].
  change (join_with sep (s :: s' :: l)) with (s ++ sep ++ join_with sep (s' :: l)). constructor. by apply IH.
Qed.
Lemma indent_indented s : indented s (indent s).
Proof.
  induction s as [|c s IH]; [constructor|]. unfold indent in *. cbn [flat_map]. case_decide as D.
  - subst c. by constructor.
  - by constructor.
Qed.
Lemma trimmed_blank c : trimmed c = true ↔ blank c.
Proof. unfold trimmed, blank. by rewrite bool_decide_eq_true. Qed.
Lemma trim_stripped s : stripped s (trim_right s).
Proof.
  induction s as [|c s (e & E & B & L)]; [by exists []|]. cbn [trim_right]. destruct (trim_right s) as [|c' t].
  - destruct (trimmed c) eqn:T.
    + exists (c :: s). split; [done|]. split; [|done]. constructor; [by apply trimmed_blank|by rewrite E].
    + exists s. split; [done|]. split; [by rewrite E|]. intros c0 [= <-] Q. apply trimmed_blank in Q. congruence.
  - exists e. split; [by rewrite E|]. split; [done|]. intros c0 Q. by apply L.
Qed.
Lemma pointers_split cur c : pointers cur c =
  (current_text <$> filter (λ b, b = cur) (c_branches c)) ++ (tag_text <$> c_tags c) ++ (other_text <$> filter (λ b, b ≠ cur) (c_branches c)).
Proof.
  unfold pointers. assert (∀ brs mid post n, foldl (add_pointer cur) (replicate n (current_text cur) ++ mid ++ post) brs =
    replicate (n + length (filter (λ b, b = cur) brs)) (current_text cur) ++ mid ++ post ++ (other_text <$> filter (λ b, b ≠ cur) brs)) as G.
  { induction brs as [|b brs IH]; intros mid post n; cbn [foldl].
    - rewrite !filter_nil. cbn [length fmap list_fmap]. by rewrite Nat.add_0_r, app_nil_r.
    - unfold add_pointer at 2. destruct (decide (b = cur)) as [->|N].
      + rewrite decide_True by done. rewrite filter_cons_True by done. rewrite (filter_cons_False (λ b, b ≠ cur)) by (by intros []).
        cbn [length]. change (head_pointer cur) with (current_text cur).
        change (current_text cur :: replicate n (current_text cur) ++ mid ++ post) with (replicate (S n) (current_text cur) ++ mid ++ post). rewrite IH. by rewrite Nat.add_succ_r.
      + rewrite decide_False by (intros Q; apply full_name_inj in Q; congruence). rewrite filter_cons_False by done. rewrite (filter_cons_True (λ b, b ≠ cur)) by done.
        rewrite <-!app_assoc. rewrite IH. cbn [fmap list_fmap]. rewrite <-!app_assoc. cbn [app].
        replace (pointer_of b) with (other_text b) by (unfold pointer_of, other_text, is_local; by destruct (br_ws b)). done. }
  specialize (G (c_branches c) (tag_text <$> c_tags c) [] 0). cbn [replicate app plus] in G. rewrite app_nil_r in G.
  change (λ t, ESC (B "33") ++ B "tag: " ++ t ++ ESC (B "0")) with tag_text. rewrite G. f_equal.
  clear G. induction (c_branches c) as [|b brs IH]; [done|]. destruct (decide (b = cur)) as [->|N].
  - rewrite !filter_cons_True by done. cbn [length replicate fmap list_fmap]. by f_equal.
  - by rewrite !filter_cons_False by done.
Qed.
Lemma line_title cur c : title (c_id c)
  ((current_text <$> filter (λ b, b = cur) (c_branches c)) ++ (tag_text <$> c_tags c) ++ (other_text <$> filter (λ b, b ≠ cur) (c_branches c))) (commit_line cur c).
Proof.
  unfold title, commit_line. cbv zeta. rewrite <-pointers_split. destruct (pointers cur c) as [|p ps]; [by left|]. right.
  exists (join_with (ESC (B "33") ++ B ", " ++ ESC (B "0")) (p :: ps)). split; [done|]. split; [by apply join_joined|].
  unfold coloured, plain_again, ESC. by rewrite <-!app_assoc.
Qed.

(** ** One commit and all of them *)
Lemma println_eq s o w : println s o w = (Ok tt, add_out w s).
Proof. done. Qed.
Definition lines_of (cur : branch) (c : commit) (d : time) : list bytes :=
  commit_line cur c :: (B "Date:  " ++ fmt_log d) ::
  match c_message c with [] => [] | m => [[]; B "    " ++ indent (trim_right m); []] end.
(** The process as it was, but for the lines printed and the choices made *)
Definition only_printed (w w' : world) (lines : list bytes) : Prop :=
  w_fs w' = w_fs w ∧ w_mounts w' = w_mounts w ∧ w_tree w' = w_tree w ∧ w_cwd w' = w_cwd w ∧ w_pwd w' = w_pwd w ∧ screen w' = screen w ++ lines.
Lemma only_printed_nil w : only_printed w w [].
Proof. repeat (split; [done|]). by rewrite app_nil_r. Qed.
Lemma only_printed_trans w w1 w2 l l' : only_printed w w1 l → only_printed w1 w2 l' → only_printed w w2 (l ++ l').
Proof. intros (A1 & A2 & A3 & A4 & A5 & A6) (B1 & B2 & B3 & B4 & B5 & B6). repeat (split; [congruence|]). by rewrite B6, A6, app_assoc. Qed.
Lemma screen_add w s : screen (add_out w s) = screen w ++ [s].
Proof. unfold screen. cbn [add_out w_out]. by rewrite reverse_cons. Qed.
Lemma log_one_some cur c d o w : c_date c = Some d → ∃ w', log_one cur c o w = (Ok tt, w') ∧ only_printed w w' (lines_of cur c d).
Proof.
  intros E. unfold log_one, lines_of, bind. rewrite !println_eq, E. cbv beta iota. rewrite println_eq. destruct (c_message c) as [|m ms].
  - eexists. split; [reflexivity|]. repeat (split; [done|]). by rewrite !screen_add, <-!app_assoc.
  - rewrite !println_eq. eexists. split; [reflexivity|]. repeat (split; [done|]). by rewrite !screen_add, <-!app_assoc.
Qed.
Lemma log_one_none cur c o w : c_date c = None → ∃ w', log_one cur c o w = (Panic, w') ∧ only_printed w w' [commit_line cur c].
Proof.
  intros E. unfold log_one, bind. rewrite println_eq, E. eexists. split; [reflexivity|]. repeat (split; [done|]). by rewrite screen_add.
Qed.
Lemma log_all cur cs : ∀ o w, ∃ r w' lines, for_each cs (log_one cur) o w = (r, w') ∧ only_printed w w' lines ∧
  ((∃ ds, Forall2 (λ c d, c_date c = Some d) cs ds ∧ r = Ok tt ∧ lines = concat (zip_with (lines_of cur) cs ds)) ∨
   (∃ ds c cs1 cs2, cs = cs1 ++ c :: cs2 ∧ Forall2 (λ c d, c_date c = Some d) cs1 ds ∧ c_date c = None ∧ r = Panic ∧
      lines = concat (zip_with (lines_of cur) cs1 ds) ++ [commit_line cur c])).
Proof.
  induction cs as [|c cs IH]; intros o w; cbn [for_each].
  { exists (Ok tt), w, []. split; [done|]. split; [apply only_printed_nil|]. left. by exists []. }
  destruct (c_date c) as [d|] eqn:E.
  - destruct (log_one_some cur c d o w E) as (w1 & E1 & P1). destruct (IH o w1) as (r & w' & lines & E2 & P2 & D).
    exists r, w', (lines_of cur c d ++ lines). split; [unfold bind; by rewrite E1|]. split; [by eapply only_printed_trans|].
    destruct D as [(ds & F & -> & ->)|(ds & c' & cs1 & cs2 & -> & F & N & -> & ->)].
    + left. exists (d :: ds). split; [by constructor|done].
    + right. exists (d :: ds), c', (c :: cs1), cs2. split; [done|]. split; [by constructor|]. do 2 (split; [done|]). cbn [zip_with concat]. by rewrite app_assoc.
  - destruct (log_one_none cur c o w E) as (w1 & E1 & P1). exists Panic, w1, [commit_line cur c]. split; [unfold bind; by rewrite E1|]. split; [done|].
    right. by exists [], c, [], cs.
Qed.
Lemma parse_nil : parse_rfc3339 [] = None.
Proof. done. Qed.
Lemma shows_dated a wid id c d : commit_shows a wid id c → c_date c = Some d ↔ dated a id d.
Proof.
  intros [_ (an & Ea & _ & Ed) _ _ _ _]. rewrite Ed. unfold dated. change (B "commit-date") with anno_date. split.
  - intros H. destruct (an_anno an !! anno_date) as [[|d0 ds]|] eqn:E; [done| |done]. by exists an, (d0 :: ds).
  - intros (n & s & En & Es & P). assert (n = an) as -> by congruence. rewrite Es. destruct s; [by rewrite parse_nil in P|done].
Qed.
Lemma shows_entry a wid cur id c d : commit_shows a wid id c → c_date c = Some d → log_entry a wid cur id (lines_of cur c d).
Proof.
  intros Sh Ed. pose proof (proj1 (shows_dated _ _ _ _ _ Sh) Ed) as Dt. destruct Sh as [Ei (an & Ea & Em & _) Hb Hs Ht Hn].
  exists an, (c_tags c), (c_branches c), d, (commit_line cur c). do 2 (split; [done|]). do 4 (split; [done|]). rewrite <-Ei. split; [apply line_title|].
  change (B "commit-message") with anno_message. rewrite <-Em. unfold lines_of. destruct (c_message c) as [|m ms] eqn:E; [done|].
  exists (trim_right (m :: ms)), (indent (trim_right (m :: ms))). split; [apply trim_stripped|]. split; [apply indent_indented|done].
Qed.
Lemma shows_entries a wid cur ids cs ds : Forall2 (commit_shows a wid) ids cs → Forall2 (λ c d, c_date c = Some d) cs ds →
  log_entries a wid cur ids (concat (zip_with (lines_of cur) cs ds)).
Proof.
  intros H. revert ds. unfold log_entries. induction H as [|id c ids cs Sh _ IH]; intros ds Hd; inversion Hd as [|? d ? ds' E Hd']; subst; cbn [zip_with concat].
  { exists []. split; [constructor|done]. }
  destruct (IH _ Hd') as (ls & F & E'). exists (lines_of cur c d :: ls). split; [|cbn [concat]; by rewrite E']. constructor; [by apply shows_entry|done].
Qed.

(** ** The command *)
Lemma only_printed_tick w : only_printed w (tick w) [].
Proof. repeat (split; [done|]). by rewrite app_nil_r. Qed.
Definition log_body (x : ws) (ref : bytes) : M unit :=
  ordb <- next_choice ch_locs ;; ordt <- next_choice ch_locs ;; t <- gets w_tree ;;
  cs <- lift (get_history t ordb ordt (ws_id x) (ws_head x) ref) ;; for_each cs (log_one (ws_current x)).
Lemma log_body_spec dr x ref o w a hid : fair o → live dr w x a hid → ref = B "HEAD" ∨ decode_b32 ref ≠ Panic →
  ∃ r w' lines, log_body x ref o w = (r, w') ∧ only_printed w w' lines ∧
  match found_id (resolve a (ws_id x) hid ref) with
  | None => r = Err ERefNotFound ∧ lines = []
  | Some id => ∃ ch, chain a id ch ∧
      ((∀ c, c ∈ removelast ch → ∃ d, dated a c d) ∧ r = Ok tt ∧ log_entries a (ws_id x) (ws_current x) (removelast ch) lines ∨
       (∃ c l1 l2 entries names line, removelast ch = l1 ++ c :: l2 ∧ (∀ d, ¬ dated a c d) ∧ r = Panic ∧
          log_entries a (ws_id x) (ws_current x) l1 entries ∧ title c names line ∧ lines = entries ++ [line]))
  end.
Proof.
  intros F Lv Hr. unfold log_body. rewrite !bind_next, bind_gets. cbn [tick w_tree].
  pose proof (get_history_spec (w_tree w) a (ch_locs (o (w_tick w))) (ch_locs (o (w_tick (tick w)))) (ws_id x) hid (ws_head x) ref
    (ready_repr _ _ _ _ _ Lv) (proj2 (proj2 (F _))) (proj2 (proj2 (F _))) (ready_get _ _ _ _ _ Lv) Hr) as Hh.
  destruct (found_id (resolve a (ws_id x) hid ref)) as [id|].
  - destruct Hh as (ch & cs & C & E & Sh). rewrite E.
    destruct (log_all (ws_current x) cs o (tick (tick w))) as (r & w' & lines & E2 & P2 & D).
    exists r, w', lines. split; [exact E2|]. split; [exact P2|]. exists ch. split; [done|]. destruct D as [(ds & Fd & -> & ->)|(ds & c & cs1 & cs2 & -> & Fd & N & -> & ->)].
    + left. split; [|split; [done|by apply shows_entries]]. intros c Hc. apply elem_of_list_lookup in Hc as (i & Hc).
      destruct (Forall2_lookup_l _ _ _ _ _ Sh Hc) as (k & Hk & S). destruct (Forall2_lookup_l _ _ _ _ _ Fd Hk) as (d & _ & Hd). exists d. by apply (shows_dated _ _ _ _ _ S).
    + right. apply Forall2_app_inv_r in Sh as (l1 & l2 & S1 & S2 & ->). apply Forall2_cons_inv_r in S2 as (id' & l2' & S2 & S3 & ->).
      exists id', l1, l2', (concat (zip_with (lines_of (ws_current x)) cs1 ds)), (pointers (ws_current x) c), (commit_line (ws_current x) c). split; [done|].
      split; [intros d Q; apply (shows_dated _ _ _ _ _ S2) in Q; congruence|]. split; [done|]. split; [by apply shows_entries|]. split; [|done].
      rewrite <-(cs_id _ _ _ _ S2), pointers_split. apply line_title.
  - rewrite Hh. exists (Err ERefNotFound), (tick (tick w)), []. split; [done|]. split; [|done]. repeat (split; [done|]). by rewrite app_nil_r.
Qed.
Lemma cmd_log_body dr args : cmd_log dr args = (x <- get_workspace dr (B ".") ;; log_body x (log_ref args)).
Proof. unfold cmd_log, log_body, log_ref. by destruct args. Qed.
