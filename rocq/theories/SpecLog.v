(** * SpecLog: what log should print, and commits with dates *)
From Verif Require Import Base Uid SpecTree TreeObs Branch BranchProofs Date DateProofs Ws SpecWs WsProofs Fs Overlay Os Layers Mounts Space Manager Commands SpecWorld SpecOps SpecMachine SpecCmds.
From stdpp Require Import prelude gmap sorting.

(** Commit [c] of tree [a] says that it was made at [d]. *)
Definition dated (a : atree) (c : uid) (d : time) : Prop :=
  ∃ n s, a_nodes a !! c = Some n ∧ an_anno n !! B "commit-date" = Some s ∧ parse_rfc3339 s = Some d.
(** Commit [c] is the root, or has a date. *)
Definition settled_commit (a : atree) (c : uid) : Prop := is_root a c ∨ ∃ d, dated a c d.
(** All that names or other commits point at is committed. *)
Definition all_dated (a : atree) : Prop :=
  (∀ c p, SpecTree.parent_of a c p → settled_commit a p) ∧
  (∀ k c, a_branches a !! k = Some c → settled_commit a c) ∧
  (∀ k c, a_tags a !! k = Some c → settled_commit a c).

(** Text between the escape sequences for colour [code] *)
Definition coloured (code s : bytes) : bytes := n2b 27 :: B "[" ++ code ++ B "m" ++ s.
Definition plain_again : bytes := n2b 27 :: B "[0m".
(** The name of a branch as it is shown *)
Definition name_text (b : branch) : bytes := match br_ws b with Some _ => br_name b | None => B "origin/" ++ br_name b end.
(** The texts for the current branch, a tag and another branch *)
Definition current_text (b : branch) : bytes := coloured (B "34") (B "HEAD -> ") ++ coloured (B "32") (name_text b) ++ plain_again.
Definition tag_text (n : bytes) : bytes := coloured (B "33") (B "tag: ") ++ n ++ plain_again.
Definition other_text (b : branch) : bytes := coloured (match br_ws b with Some _ => B "32" | None => B "31" end) (name_text b) ++ plain_again.
(** [l] is all of [texts] with [sep] between them. *)
Inductive joined (sep : bytes) : list bytes → bytes → Prop :=
  | joined_one s : joined sep [s] s
  | joined_more s l t : joined sep l t → joined sep (s :: l) (s ++ sep ++ t).
(** The first line about commit [id], beside which [names] are shown *)
Definition title (id : uid) (names : list bytes) (line : bytes) : Prop :=
  let start := coloured (B "33") (B "commit ") ++ uid_hex id ++ plain_again in
  names = [] ∧ line = start ∨
  ∃ l, names ≠ [] ∧ joined (coloured (B "33") (B ", ") ++ plain_again) names l ∧ line = start ++ B " (" ++ l ++ B ")".
(** [s] without the line ends and spaces at its end *)
Definition blank (c : ascii) : Prop := c = n2b 13 ∨ c = n2b 10 ∨ c = " "%char.
Definition stripped (s t : bytes) : Prop := ∃ e, s = t ++ e ∧ Forall blank e ∧ ∀ c, last t = Some c → ¬ blank c.
(** [t] is [s] with four spaces after every line feed. *)
Inductive indented : bytes → bytes → Prop :=
  | indented_nil : indented [] []
  | indented_lf s t : indented s t → indented (n2b 10 :: s) (n2b 10 :: B "    " ++ t)
  | indented_char c s t : c ≠ n2b 10 → indented s t → indented (c :: s) (c :: t).
(** The lines about commit [id] of tree [a] in a workspace with ID [wid] and current branch [cur] *)
Definition log_entry (a : atree) (wid : uid) (cur : branch) (id : uid) (lines : list bytes) : Prop :=
  ∃ n tags brs d line,
    a_nodes a !! id = Some n ∧ dated a id d ∧
    (∀ t, t ∈ tags ↔ a_tags a !! t = Some id) ∧ NoDup tags ∧
    (∀ b, b ∈ brs ↔ (br_ws b = None ∨ br_ws b = Some wid) ∧ ∃ k, a_branches a !! k = Some id ∧ reads_as k b) ∧ StronglySorted branch_order brs ∧
    title id ((current_text <$> filter (λ b, b = cur) brs) ++ (tag_text <$> tags) ++ (other_text <$> filter (λ b, b ≠ cur) brs)) line ∧
    match default [] (an_anno n !! B "commit-message") with
    | [] => lines = [line; B "Date:  " ++ fmt_log d]
    | msg => ∃ t t', stripped msg t ∧ indented t t' ∧ lines = [line; B "Date:  " ++ fmt_log d; []; B "    " ++ t'; []]
    end.
(** What log prints about commits [ids] *)
Definition log_entries (a : atree) (wid : uid) (cur : branch) (ids : list uid) (lines : list bytes) : Prop :=
  ∃ ls, Forall2 (log_entry a wid cur) ids ls ∧ lines = concat ls.
Definition log_ref (args : list bytes) : bytes := match args with [] => B "HEAD" | ref :: _ => ref end.
(** The lines on the terminal, oldest first *)
Definition screen (w : world) : list bytes := reverse (w_out w).

(** ** Steps that keep every commit dated *)
(** The reference is HEAD, or cannot be taken for the ID of a commit. *)
Definition by_name (ref : bytes) : Prop := ref = B "HEAD" ∨ key_id ref = None.
Definition cmd_by_name (c : command) : Prop :=
  match c with
  | CCheckout key => by_name key
  | CBranch _ (_ :: ref :: _) | CTag _ (_ :: ref :: _) => by_name ref
  | _ => True
  end.
(** The clock shows times that the format can express. *)
Definition good_clock (o : oracle) : Prop := ∀ n, good_time (ch_time (o n)).
Inductive named_step (dr : path) (w w' : world) : Prop :=
  | ns_cmd c o w0 r : same_disk w w0 → fair o → good_clock o → (writes_path c → outside dr (abs_of w0 (cmd_target c))) → cmd_by_name c →
      run_cmd dr c o w0 = (r, w') → named_step dr w w'
  | ns_user : user_change dr w w' → named_step dr w w'
  | ns_lost : w_fs w' = w_fs w → (∀ m, m ∈ w_mounts w' → m ∈ w_mounts w) → named_step dr w w'.

(** ** What branch and tag print *)
(** Every branch name that reads as a branch is the full name of that branch. *)
Definition canonical_names (a : atree) : Prop := ∀ k id b, a_branches a !! k = Some id → reads_as k b → k = full_name b.
(** The branches that the options ask for *)
Definition asked (opts : branch_opts) (wid : uid) (b : branch) : Prop :=
  if bo_remotes opts then br_ws b = None
  else if bo_all opts then br_ws b = None ∨ br_ws b = Some wid
  else br_ws b = Some wid.
Definition branch_listing (a : atree) (opts : branch_opts) (wid : uid) (lines : list bytes) : Prop :=
  ∃ brs, lines = name_text <$> brs ∧ StronglySorted branch_order brs ∧ (canonical_names a → NoDup brs) ∧
    ∀ b, b ∈ brs ↔ asked opts wid b ∧ ∃ k id, a_branches a !! k = Some id ∧ reads_as k b.
Definition tag_listing (a : atree) (lines : list bytes) : Prop :=
  StronglySorted lex_le lines ∧ NoDup lines ∧ ∀ n, n ∈ lines ↔ n ≠ B "ROOT" ∧ is_Some (a_tags a !! n).
(** Why a name is not deleted *)
Definition refused (x : ws) (op : wsop) (a : atree) (e : err) : Prop :=
  match op with
  | ODelBranch n global =>
      global = false ∧ n = ws_branch x ∧ e = ECheckedOut ∨
      (global = true ∨ n ≠ ws_branch x) ∧ a_branches a !! (if global : bool then global_key n else local_key (ws_id x) n) = None ∧ e = EBranchNotFound
  | ODelTag n => a_tags a !! n = None ∧ e = ETagNotFound
  | _ => False
  end.
(** Deletions one after the other, up to the first that is refused *)
Inductive deletions (x : ws) (hid : uid) : list wsop → atree → atree → res unit → Prop :=
  | dl_done a : deletions x hid [] a a (Ok tt)
  | dl_next op l a a1 a' r : op_tree x hid op a a1 → deletions x hid l a1 a' r → deletions x hid (op :: l) a a' r
  | dl_stop op l a e : refused x op a e → deletions x hid (op :: l) a a (Err e).
