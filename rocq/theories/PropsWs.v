(** * PropsWs: branch names, listings, references, history, dates: C21, C24-C26, C29, C60.

    Model: [Branch.v] (pkg/workspaces/branch.go), [Ws.v] (the reading parts of workspace.go, commit.go),
    [Date.v]. [reads_as] (BranchProofs.v), [resolve] (SpecWs.v) and [commit_shows] (WsProofs.v) are the
    specifications. A map iteration order is any function [ord] with [is_order ord]. *)
From Verif Require Import Base Uid SpecUid UidProofs Tree SpecTree TreeRefine TreeObs PropsTree Branch BranchProofs Date DateProofs SpecWs Ws WsProofs.
From stdpp Require Import prelude gmap sorting.

(** ** C21 *)
Theorem C21_full_name_parses_back : ∀ b, LF ∉ br_name b → parse_full (full_name b) = Ok b.
Proof. intros b H. rewrite parse_full_name. by destruct (decide _). Qed.
Theorem C21_line_feed_rejected : ∀ b, LF ∈ br_name b → parse_full (full_name b) = Err EBadName.
Proof. intros b H. rewrite parse_full_name. by destruct (decide _). Qed.
(** What parses, exactly: "global/NAME" or "ID/NAME", no line feed in NAME; parsing never panics. *)
Theorem C21_parse_exact : ∀ s b, parse_full s = Ok b ↔
  (∃ n, s = B "global/" ++ n ∧ LF ∉ n ∧ b = Br None n) ∨
  (∃ p u n, s = p ++ B "/" ++ n ∧ decode_b32 p = Ok u ∧ LF ∉ n ∧ b = Br (Some u) n).
Proof.
  intros s b. rewrite parse_full_ok. split; [apply reads_inv|].
  intros [(n & -> & H & ->)|(p & u & n & -> & D & H & ->)]; by constructor.
Qed.
Theorem C21_parse_total : ∀ s, (∃ b, parse_full s = Ok b) ∨ (∃ e, parse_full s = Err e).
Proof. exact parse_full_total. Qed.
Theorem C21_full_names_differ : ∀ b b', full_name b = full_name b' → b = b'.
Proof. exact full_name_inj. Qed.
Print Assumptions C21_full_name_parses_back.
Print Assumptions C21_line_feed_rejected.
Print Assumptions C21_parse_exact.
Print Assumptions C21_parse_total.
Print Assumptions C21_full_names_differ.
Example C21_sat : parse_full (full_name (Br (Some idA) (B "a/b c"))) = Ok (Br (Some idA) (B "a/b c"))
  ∧ full_name (Br None (B "x")) = B "global/x"
  ∧ parse_full (full_name (Br (Some idA) (B "a" ++ [LF]))) = Err EBadName.
Proof. vm_compute. auto. Qed.

(** ** C24 *)
(** In a tree whose branch names were all written by this program ([canonical]): the listings contain
    each matching branch once, with its head, sorted, whatever the iteration order. *)
Theorem C24_local_listing : ∀ t ord w, is_order ord → canonical t →
  (∀ x, x ∈ local_branches t ord w ↔ ∃ n l, x = HB (Br (Some w) n) l ∧ LF ∉ n ∧ get_by_branch t (uid_b32 w ++ B "/" ++ n) = Some l) ∧
  NoDup (hb_branch <$> local_branches t ord w) ∧
  StronglySorted (λ b b', bytes_leb (br_name b) (br_name b') = true) (hb_branch <$> local_branches t ord w) ∧
  (∀ ord', is_order ord' → local_branches t ord' w = local_branches t ord w).
Proof.
  intros t ord w O C. split; [|split; [by apply local_nodup|split; [apply local_sorted|]]].
  - intros [b l]. rewrite local_elem by done. rewrite canonical_entry by done. split.
    + intros (W & G & N). destruct b as [ws n]. cbn in W. subst ws. exists n, l. done.
    + intros (n & l' & [= -> ->] & N & G). done.
  - intros ord' O'. by apply local_det.
Qed.
Theorem C24_remote_listing : ∀ t ord, is_order ord → canonical t →
  (∀ x, x ∈ remote_branches t ord ↔ ∃ n l, x = HB (Br None n) l ∧ LF ∉ n ∧ get_by_branch t (B "global/" ++ n) = Some l) ∧
  NoDup (hb_branch <$> remote_branches t ord) ∧
  StronglySorted (λ b b', bytes_leb (br_name b) (br_name b') = true) (hb_branch <$> remote_branches t ord) ∧
  (∀ ord', is_order ord' → remote_branches t ord' = remote_branches t ord).
Proof.
  intros t ord O C. split; [|split; [by apply remote_nodup|split; [apply remote_sorted|]]].
  - intros [b l]. rewrite remote_elem by done. rewrite canonical_entry by done. split.
    + intros (W & G & N). destruct b as [ws n]. cbn in W. subst ws. exists n, l. done.
    + intros (n & l' & [= -> ->] & N & G). done.
  - intros ord' O'. by apply remote_det.
Qed.
(** [branch_order]: local before global, else by name. *)
Theorem C24_all_listing : ∀ t ord w, is_order ord → canonical t →
  (∀ x, x ∈ all_branches t ord w ↔ ∃ b l, x = HB b l ∧ (br_ws b = None ∨ br_ws b = Some w) ∧
     LF ∉ br_name b ∧ get_by_branch t (full_name b) = Some l) ∧
  NoDup (hb_branch <$> all_branches t ord w) ∧
  StronglySorted branch_order (hb_branch <$> all_branches t ord w) ∧
  (∀ ord', is_order ord' → all_branches t ord' w = all_branches t ord w).
Proof.
  intros t ord w O C. split; [|split; [by apply all_nodup|split; [apply all_sorted|]]].
  - intros [b l]. rewrite all_elem by done. rewrite canonical_entry by done. split.
    + intros (W & G & N). exists b, l. done.
    + intros (n & l' & [= -> ->] & W & N & G). done.
  - intros ord' O'. by apply all_det.
Qed.
(** Of any tree, also one with other spellings of IDs in branch names: exactly the names that read as a
    branch of the workspace (or a global one) are listed. *)
Theorem C24_any_tree : ∀ t ord w b l, is_order ord →
  (HB b l ∈ local_branches t ord w ↔ br_ws b = Some w ∧ ∃ k, get_by_branch t k = Some l ∧ reads_as k b) ∧
  (HB b l ∈ remote_branches t ord ↔ br_ws b = None ∧ ∃ k, get_by_branch t k = Some l ∧ reads_as k b) ∧
  (HB b l ∈ all_branches t ord w ↔ (br_ws b = None ∨ br_ws b = Some w) ∧ ∃ k, get_by_branch t k = Some l ∧ reads_as k b).
Proof. intros t ord w b l O. split; [|split]; [by apply local_elem|by apply remote_elem|by apply all_elem]. Qed.
Print Assumptions C24_local_listing.
Print Assumptions C24_remote_listing.
Print Assumptions C24_all_listing.
Print Assumptions C24_any_tree.
(** Two local branches of A, one of B, one global, two tags *)
Definition ws_calls : list tcall :=
  [TAddNode None idA; TAddNode (Some idA) idB; TAddNode (Some idB) idC; TAddTag (B "ROOT") idA;
   TAddBranch (full_name (Br (Some idA) (B "main"))) idB; TAddBranch (full_name (Br (Some idA) (B "dev"))) idA;
   TAddBranch (full_name (Br (Some idB) (B "x"))) idB; TAddBranch (full_name (Br None (B "aa"))) idB;
   TAddTag (B "v1") idB; TAddTag (B "T") idB;
   TAddAnnotation idB anno_message (B "first"); TAddAnnotation idB anno_date (B "2024-01-02T03:04:05+08:00")].
Definition ordid (l : list (bytes * loc)) : list (bytes * loc) := l.
Example C24_sat_order : is_order ordid ∧ is_order (@reverse (bytes * loc)).
Proof. split; intros l; [done|]. apply reverse_Permutation. Qed.
Example C24_sat_canonical : check_run ws_calls (λ t _,
  forallb (λ kl, match parse_full kl.1 with Ok b => bool_decide (kl.1 = full_name b) | _ => false end) (map_to_list (t_branches t))) = true.
Proof. vm_compute. reflexivity. Qed.
Example C24_sat : check_run ws_calls (λ t _,
  bool_decide (hb_branch <$> all_branches t (@reverse _) idA = [Br (Some idA) (B "dev"); Br (Some idA) (B "main"); Br None (B "aa")])) = true.
Proof. vm_compute. reflexivity. Qed.

(** ** C29 *)
Theorem C29_tag_list : ∀ t ord, is_order ord →
  (∀ n, n ∈ tag_list t ord ↔ n ≠ B "ROOT" ∧ is_Some (get_by_tag t n)) ∧
  NoDup (tag_list t ord) ∧ StronglySorted (λ n m, bytes_leb n m = true) (tag_list t ord) ∧
  (∀ ord', is_order ord' → tag_list t ord' = tag_list t ord).
Proof.
  intros t ord O. split; [intros n; by apply tag_elem|]. split; [by apply tag_nodup|]. split; [apply tag_sorted|].
  intros ord' O'. by apply tag_det.
Qed.
Print Assumptions C29_tag_list.
Example C29_sat : check_run ws_calls (λ t _, bool_decide (tag_list t ordid = [B "T"; B "v1"])) = true.
Proof. vm_compute. reflexivity. Qed.

(** ** C25 *)
Theorem C25_resolution : ∀ t a w hid head ref, repr t a → get t hid = Some head →
  ref = B "HEAD" ∨ decode_b32 ref ≠ Panic →
  ∃ o, ws_search t w head ref = Ok o ∧ ws_found t o = Some (resolve a w hid ref).
Proof. exact ws_search_correct. Qed.
(** A node that was found is a node of the tree. *)
Theorem C25_found_in_tree : ∀ t a w hid head ref l ty, repr t a → get t hid = Some head →
  ws_search t w head ref = Ok (Some (Some l, ty)) → ∃ id, get t id = Some l.
Proof. exact ws_search_indexed. Qed.
(** The order of [resolve] in words: each case holds when the ones before it do not. *)
Theorem C25_resolve_cases : ∀ a w hid ref,
  (ref = B "HEAD" → ∀ p, parent_of a hid p → resolve a w hid ref = FCommit p) ∧
  (ref ≠ B "HEAD" → ∀ id, key_id ref = Some id → has a id → resolve a w hid ref = FCommit id) ∧
  (ref ≠ B "HEAD" → (∀ id, key_id ref = Some id → ¬ has a id) →
     (∀ id, a_tags a !! ref = Some id → resolve a w hid ref = FTag id) ∧
     (a_tags a !! ref = None →
        (∀ id, a_branches a !! ref = Some id → resolve a w hid ref = FBranch id) ∧
        (a_branches a !! ref = None →
           (∀ id, a_branches a !! full_name (Br (Some w) ref) = Some id → resolve a w hid ref = FBranch id) ∧
           (a_branches a !! full_name (Br (Some w) ref) = None →
              (∀ n id, ref = B "origin/" ++ n → a_branches a !! full_name (Br None n) = Some id → resolve a w hid ref = FBranch id) ∧
              ((∀ n id, ref = B "origin/" ++ n → a_branches a !! full_name (Br None n) ≠ Some id) → resolve a w hid ref = FNone))))).
Proof.
  intros a w hid ref. unfold resolve. split; [|split].
  - intros -> p (an & E & P). rewrite decide_True by done. rewrite E. cbn. by rewrite P.
  - intros N id K H. rewrite decide_False by done. unfold search_spec. rewrite K. by rewrite decide_True.
  - intros N K. rewrite decide_False by done.
    assert (search_spec a (key_id ref) ref = search_spec a None ref) as ->.
    { unfold search_spec. destruct (key_id ref) as [id|]; [|done]. rewrite decide_False; [done|]. by apply K. }
    unfold search_spec. split; [by intros id ->|]. intros ->. split; [by intros id ->|]. intros ->.
    unfold full_name. cbn [br_ws br_name]. split; [by intros id ->|]. intros ->. split.
    + intros n id -> E. rewrite take_app_alt, drop_app_alt by done. by rewrite decide_True, E.
    + intros H. case_decide as D; [|done]. destruct (a_branches a !! (B "global/" ++ drop 7 ref)) as [id|] eqn:E; [|done].
      exfalso. apply (H (drop 7 ref) id); [|done]. by rewrite <-D, take_drop.
Qed.
Print Assumptions C25_resolution.
Print Assumptions C25_found_in_tree.
Print Assumptions C25_resolve_cases.
Global Instance found_eq_dec : EqDecision found.
Proof. solve_decision. Defined.
(** Working layer C on top of B, workspace A *)
Definition ws_refs (t : tstate) : list (option found) :=
  match get t idC with
  | None => []
  | Some head => (λ r, match ws_search t idA head r with Ok o => ws_found t o | _ => None end) <$>
      [B "HEAD"; uid_hex idA; B "v1"; B "main"; B "dev"; B "x"; full_name (Br (Some idB) (B "x")); B "origin/aa"; B "aa"; B "global/aa"; B "zzz"]
  end.
Example C25_sat : check_run ws_calls (λ t _, bool_decide (ws_refs t =
   [Some (FCommit idB); Some (FCommit idA); Some (FTag idB); Some (FBranch idB); Some (FBranch idA); Some FNone;
    Some (FBranch idB); Some (FBranch idB); Some FNone; Some (FBranch idB); Some FNone])) = true.
Proof. vm_compute. reflexivity. Qed.

(** ** C26 *)
(** The commits from the one [ref] names down to but not including the root: [chain a id ch] lists the
    commit and its ancestors, the root last. *)
Theorem C26_history : ∀ t a ordb ordt w hid head ref, repr t a → is_order ordb → is_order ordt →
  get t hid = Some head → ref = B "HEAD" ∨ decode_b32 ref ≠ Panic →
  match found_id (resolve a w hid ref) with
  | None => get_history t ordb ordt w head ref = Err ERefNotFound
  | Some id => ∃ ch cs, chain a id ch ∧ get_history t ordb ordt w head ref = Ok cs ∧
                        Forall2 (commit_shows a w) (removelast ch) cs
  end.
Proof. exact get_history_spec. Qed.
(** The chain is unique, repeats nothing, starts with the commit and contains exactly its ancestors. *)
Theorem C26_chain : ∀ a c l, chain a c l →
  (∀ l', chain a c l' → l' = l) ∧ NoDup l ∧ head l = Some c ∧ (∀ x, x ∈ l ↔ ancestor_or_self a x c) ∧
  (∃ r, last l = Some r ∧ is_root a r).
Proof.
  intros a c l H. split; [intros l' H'; by eapply chain_det|]. split; [by eapply chain_nodup|].
  split; [by destruct H|]. split; [intros x; by apply chain_anc|].
  induction H as [c Hr|c p l Hp Hc IH]; [by exists c|]. destruct IH as (r & E & Hr). exists r. split; [|done].
  rewrite last_cons, E. done.
Qed.
Print Assumptions C26_history.
Print Assumptions C26_chain.
Example C26_sat : check_run ws_calls (λ t _, match get t idC with None => false | Some head =>
  match get_history t ordid ordid idA head (B "HEAD") with
  | Ok [c] => bool_decide (c_id c = idB ∧ c_message c = B "first" ∧ c_date c = Some (Time 2024 1 2 3 4 5 28800) ∧
     c_branches c = [Br (Some idA) (B "main"); Br None (B "aa")])
  | _ => false end end) = true.
Proof. vm_compute. reflexivity. Qed.

(** ** Sorting order of C18, C24 and C29 *)
Theorem C24_order_is_bytewise : ∀ x y, bytes_leb x y = true ↔ lex_le x y.
Proof. exact bytes_leb_lex. Qed.
Print Assumptions C24_order_is_bytewise.
Example C24_order_sat : lex_le (B "a") (B "ab") ∧ lex_le (B "aZ") (B "aa") ∧ ¬ lex_le (B "b") (B "ab").
Proof. rewrite <-!bytes_leb_lex. vm_compute. split; [done|]. split; done. Qed.

(** ** C60 *)
(** The date written by Commit (SetToNode) is the date shown by log, for every valid time with an
    offset of whole minutes. *)
Theorem C60_date_survives : ∀ t a ordb ordt w id l tm msg, repr t a → is_order ordb → is_order ordt → get t id = Some l →
  good_time tm → ∃ c, commit_of (set_to_node t l (Some (fmt_rfc3339 tm)) msg) ordb ordt w l = Ok c ∧
    c_id c = id ∧ c_date c = Some tm ∧ c_message c = msg.
Proof.
  intros t a ordb ordt w id l tm msg R Ob Ot G Ht.
  pose proof (parse_fmt tm Ht) as P. revert P. generalize (fmt_rfc3339 tm). intros d P.
  destruct (get_Some' _ _ _ _ R G) as (an & n & E & N).
  pose proof (set_to_node_repr t a id an l (Some d) msg R G E) as R'.
  destruct (commit_of_shows _ _ ordb ordt w id l R' Ob Ot) as (c & Ec & [S1 (an' & E' & Sm & Sd) _ _ _ _]); [by rewrite set_to_node_eq|].
  exists c. split; [done|]. split; [done|]. cbn in E'. rewrite lookup_insert in E'. injection E' as <-.
  unfold dated in Sm, Sd. cbn [an_anno] in Sm, Sd. rewrite lookup_insert_ne, lookup_insert in Sd by done. rewrite lookup_insert in Sm.
  split; [|done]. rewrite Sd. destruct d as [|x s]; [discriminate P|exact P].
Qed.
Theorem C60_text_roundtrip : ∀ tm, good_time tm → parse_rfc3339 (fmt_rfc3339 tm) = Some tm.
Proof. exact parse_fmt. Qed.
(** An offset with seconds comes back cut to whole minutes: a different instant. *)
Theorem C60_second_offsets_refuted : ∃ tm tm', time_ok tm = true ∧ (tm_year tm < 10000)%N ∧ (-86400 < tm_off tm < 86400)%Z ∧
  parse_rfc3339 (fmt_rfc3339 tm) = Some tm' ∧ tm' ≠ tm.
Proof. exists (Time 2024 1 2 3 4 5 90), (Time 2024 1 2 3 4 5 60). vm_compute. repeat split; congruence. Qed.
Print Assumptions C60_date_survives.
Print Assumptions C60_text_roundtrip.
Print Assumptions C60_second_offsets_refuted.
(** The valid times are those of the Gregorian calendar. *)
Theorem C60_good_times : ∀ y mo d h mi sec off, good_time (Time y mo d h mi sec off) ↔
  (y < 10000 ∧ (∃ len, nth_error (month_lengths y) (N.to_nat mo - 1) = Some len ∧ 1 <= d <= len) ∧ 1 <= mo ∧ h < 24 ∧ mi < 60 ∧ sec < 60)%N ∧
  (∃ k, off = 60 * k)%Z ∧ (-86400 < off < 86400)%Z.
Proof. exact good_time_gregorian. Qed.
Print Assumptions C60_good_times.
Example C60_leap_years : month_lengths 2000 = month_lengths 2024 ∧ month_lengths 1900 = month_lengths 2023 ∧ nth_error (month_lengths 2000) 1 = Some 29%N.
Proof. vm_compute. done. Qed.
Example C60_sat : good_time (Time 2024 2 29 23 59 59 (-12600)) ∧ fmt_rfc3339 (Time 2024 2 29 23 59 59 (-12600)) = B "2024-02-29T23:59:59-03:30".
Proof. vm_compute. repeat split; reflexivity. Qed.
Example C60_sat_bad : parse_rfc3339 (B "2023-02-29T23:59:59Z") = None ∧ parse_rfc3339 (B "2023-02-28T24:00:00Z") = None.
Proof. vm_compute. done. Qed.
(** The calendar of the display layout on known dates. *)
Example C60_display : fmt_log (Time 2024 1 2 3 4 5 28800) = B "Tue Jan  2 03:04:05 2024 +0800"
  ∧ fmt_log (Time 1970 1 1 0 0 0 0) = B "Thu Jan  1 00:00:00 1970 +0000"
  ∧ fmt_log (Time 2000 2 29 12 0 0 (-18000)) = B "Tue Feb 29 12:00:00 2000 -0500".
Proof. vm_compute. done. Qed.
