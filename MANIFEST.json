{
 "claims": [
  {
   "property": "C01",
   "status": "proved",
   "theorems": [
    "C01_hex_roundtrip",
    "C01_decode_hex_ok",
    "C01_decode_hex_total"
   ],
   "note": ""
  },
  {
   "property": "C02",
   "status": "proved",
   "theorems": [
    "C02_base32_roundtrip"
   ],
   "note": ""
  },
  {
   "property": "C03",
   "status": "proved",
   "theorems": [
    "C03_names_injective"
   ],
   "note": ""
  },
  {
   "property": "C04",
   "status": "partial",
   "theorems": [
    "C04_base32_no_panic_refuted",
    "C04_base32_no_panic_refuted_ff",
    "C04_base32_no_panic_partial",
    "C04_base32_panics_exactly"
   ],
   "note": "REFUTED: a 26-byte string with CR/LF or 0xFF panics. Proved: no panic for strings without these bytes, and exactly when it panics without 0xFF."
  },
  {
   "property": "C05",
   "status": "proved",
   "theorems": [
    "C05_unique_spelling_refuted",
    "C05_four_spellings",
    "C05_which_spellings"
   ],
   "note": "One spelling per ID is REFUTED; the alternative in the statement is proved: exactly four spellings, characterised."
  },
  {
   "property": "C06",
   "status": "proved",
   "theorems": [
    "C06_new_uid_bijective"
   ],
   "note": ""
  },
  {
   "property": "C07",
   "status": "partial",
   "theorems": [
    "C07_short_hash_zero_padded_refuted",
    "C07_hash_prefix_partial"
   ],
   "note": "REFUTED for short digests (panic); proved: first 16 bytes for digests of at least 16 bytes."
  },
  {
   "property": "C08",
   "status": "proved",
   "theorems": [
    "C08_tree_is_a_map",
    "C08_tree_is_a_map_from",
    "C08_repr_observes",
    "C08_spec_deterministic",
    "C08_distinct_ids_are_fresh",
    "C08_family",
    "C08_delete_child"
   ],
   "note": ""
  },
  {
   "property": "C09",
   "status": "proved",
   "theorems": [
    "C09_single_rooted_tree",
    "C09_repr_shape",
    "C09_repr_rooted",
    "C09_delete_child_breaks"
   ],
   "note": "DeleteChild of a node, which nobody calls, would break it; it is not one of the calls of the claim."
  },
  {
   "property": "C10",
   "status": "proved",
   "theorems": [
    "C10_add_node_exact",
    "C10_add_node_failures"
   ],
   "note": ""
  },
  {
   "property": "C11",
   "status": "partial",
   "theorems": [
    "C11_id_added_once_refuted",
    "C11_duplicate_accepted",
    "C11_duplicate_root_rejected_partial",
    "C11_moved"
   ],
   "note": "REFUTED: AddNode ignores AddChild's result, a duplicate ID under an existing parent is always accepted and breaks the parent/child symmetry."
  },
  {
   "property": "C12",
   "status": "proved",
   "theorems": [
    "C12_update_branch_exact"
   ],
   "note": ""
  },
  {
   "property": "C13",
   "status": "proved",
   "theorems": [
    "C13_add_branch_exact",
    "C13_add_tag_exact",
    "C13_delete_branch_exact",
    "C13_delete_tag_exact"
   ],
   "note": ""
  },
  {
   "property": "C14",
   "status": "proved",
   "theorems": [
    "C14_no_dangling"
   ],
   "note": ""
  },
  {
   "property": "C15",
   "status": "partial",
   "theorems": [
    "C15_search_order",
    "C15_search_order_refuted"
   ],
   "note": "Proved for every key on which the base32 decoder does not panic (C04); REFUTED for those keys: Search panics even if a tag has that name."
  },
  {
   "property": "C16",
   "status": "proved",
   "theorems": [
    "C16_dump_load",
    "C16_dump_load_built",
    "C16_dump_content"
   ],
   "note": ""
  },
  {
   "property": "C17",
   "status": "partial",
   "theorems": [
    "C17_load_no_dangling",
    "C17_load_total",
    "C17_bad_ids_rejected_partial",
    "C17_loaded_ids",
    "C17_bad_ids_rejected_refuted"
   ],
   "note": "Proved for every dump with a node tree. REFUTED for a dump whose nodes field is null: Load returns an empty tree and drops branches and tags without an error."
  },
  {
   "property": "C18",
   "status": "proved",
   "theorems": [
    "C18_save_load",
    "C18_save_load_built",
    "C18_names_sorted"
   ],
   "note": "JSON text of the dump, all trees with valid UTF-8 strings, all map orders"
  },
  {
   "property": "C19",
   "status": "partial",
   "theorems": [
    "C19_names_exact_partial",
    "C19_names_survive_refuted"
   ],
   "note": "REFUTED as stated: names that are not valid UTF-8 come back with U+FFFD and different names can become equal. Proved: a name comes back as sanitize(name), equal to the name iff it is valid UTF-8"
  },
  {
   "property": "C20",
   "status": "proved",
   "theorems": [
    "C20_torn_tree_detected",
    "C20_trailing_text_rejected",
    "C20_torn_workspace_detected",
    "C20_workspace_read_back"
   ],
   "note": "every strict prefix of the file is rejected, and so is any non-blank text after it"
  },
  {
   "property": "C21",
   "status": "proved",
   "theorems": [
    "C21_full_name_parses_back",
    "C21_line_feed_rejected",
    "C21_parse_exact",
    "C21_parse_total",
    "C21_full_names_differ"
   ],
   "note": ""
  },
  {
   "property": "C24",
   "status": "proved",
   "theorems": [
    "C24_local_listing",
    "C24_remote_listing",
    "C24_all_listing",
    "C24_any_tree",
    "C24_order_is_bytewise"
   ],
   "note": "the once-each and order claims are for trees whose branch names are full names as this program writes them (canonical)"
  },
  {
   "property": "C25",
   "status": "proved",
   "theorems": [
    "C25_resolution",
    "C25_found_in_tree",
    "C25_resolve_cases"
   ],
   "note": "for every reference on which the base32 decoder does not panic (C04)"
  },
  {
   "property": "C26",
   "status": "proved",
   "theorems": [
    "C26_history",
    "C26_chain"
   ],
   "note": "for every reference on which the base32 decoder does not panic (C04)"
  },
  {
   "property": "C29",
   "status": "proved",
   "theorems": [
    "C29_tag_list"
   ],
   "note": ""
  },
  {
   "property": "C60",
   "status": "partial",
   "theorems": [
    "C60_date_survives",
    "C60_text_roundtrip",
    "C60_good_times",
    "C60_second_offsets_refuted",
    "C60_fields",
    "C60_weekday"
   ],
   "note": "REFUTED for zone offsets with seconds, which RFC 3339 text cannot carry; proved for all offsets in whole minutes"
  },
  {
   "property": "C31",
   "status": "partial",
   "theorems": [
    "C31_create_only_adds",
    "C31_create_success",
    "C31_create_collision",
    "C31_get",
    "C31_list",
    "C31_delete",
    "C31_delete_mounted",
    "C31_list_foreign_refuted",
    "C31_list_panic_refuted"
   ],
   "note": "Create, Get and Delete proved as stated, for all generator outputs and faults; List proved for stores that hold only directories named by the base32 text of an ID. REFUTED: List reports directories whose name is another base32 spelling of an ID, and panics on names the decoder panics on (C04)"
  },
  {
   "property": "C33",
   "status": "partial",
   "theorems": [
    "C33_options_denote",
    "C33_mount_exact",
    "C33_upper_only_intended",
    "C33_every_root_refuted"
   ],
   "note": "proved for data roots without comma, colon and backslash and strings within the page limit (C34); REFUTED for the other roots"
  },
  {
   "property": "C34",
   "status": "partial",
   "theorems": [
    "C34_length",
    "C34_default_limit",
    "C34_every_depth_refuted",
    "C34_default_refuted",
    "C34_silent_loss"
   ],
   "note": "REFUTED: the exact length is proved; with the default data root 66 lower layers no longer mount; with roots of 20 or 26 bytes a longer stack mounts read-only with the oldest layers missing and no error"
  },
  {
   "property": "C22",
   "status": "partial",
   "theorems": [
    "C22_listed_partial",
    "C22_listed_refuted"
   ],
   "note": "proved for names without a line feed; REFUTED for names with one: the branch is created and no listing ever shows it"
  },
  {
   "property": "C23",
   "status": "proved",
   "theorems": [
    "C23_others_kept",
    "C23_others_not_listed"
   ],
   "note": "for every operation, result and fault; the claim about the saved tree is up to the UTF-8 sanitizing of names (C19)"
  },
  {
   "property": "C27",
   "status": "proved",
   "theorems": [
    "C27_branch_kept",
    "C27_tag_kept",
    "C27_branch_moves",
    "C27_tag_moves",
    "C27_branch_succeeds"
   ],
   "note": ""
  },
  {
   "property": "C28",
   "status": "proved",
   "theorems": [
    "C28_current_kept",
    "C28_missing",
    "C28_other_removed",
    "C28_other_succeeds",
    "C28_tag_removed"
   ],
   "note": ""
  },
  {
   "property": "C30",
   "status": "partial",
   "theorems": [
    "C30_root_resolves_partial",
    "C30_root_created_partial",
    "C30_root_kept_partial",
    "C30_root_always_refuted"
   ],
   "note": "REFUTED: the tag ROOT can be deleted, and moved with force. Proved: every other operation keeps it"
  },
  {
   "property": "C32",
   "status": "proved",
   "theorems": [
    "C32_mount_stack"
   ],
   "note": "Lower directories are the diff directories of the chain of the commit (C26_chain), upper is a new layer that becomes its child; the layers below are untouched. How the kernel reads the option string is C33/C34."
  },
  {
   "property": "C35",
   "status": "proved",
   "theorems": [
    "C35_init_tree",
    "C35_init_files",
    "C35_no_history",
    "C35_failure_harmless"
   ],
   "note": "Exact tree in memory and on disk, exact set of new paths, empty history; under any fault nothing that existed changes (a stray .workspace file of the new mount ID apart)."
  },
  {
   "property": "C37",
   "status": "proved",
   "theorems": [
    "C37_commit_exact",
    "C37_history"
   ],
   "note": "Exact tree after one commit; history after any number of commits. Repeated commits are calls in one process here; the command run C37_runs goes through separate processes."
  },
  {
   "property": "C38",
   "status": "proved",
   "theorems": [
    "C38_commit_iff",
    "C38_refused"
   ],
   "note": "Iff, with no fault and unused random IDs; a commit that may not be made fails under every fault schedule and leaves the saved tree alone."
  },
  {
   "property": "C39",
   "status": "partial",
   "theorems": [
    "C39_clone_can_commit_refuted",
    "C39_clone_commit_fails",
    "C39_detached_clone_commits_partial"
   ],
   "note": "REFUTED: a clone of a workspace on a branch keeps the branch name without creating the branch, so every commit in it fails; proved for detached sources."
  },
  {
   "property": "C40",
   "status": "partial",
   "theorems": [
    "C40_checkout_then_commit_refuted",
    "C40_other_names_fail",
    "C40_local_name_partial"
   ],
   "note": "REFUTED for full names and origin/NAME: the reference text is stored as a local branch name that does not exist, so every following commit fails; proved for local branch names."
  },
  {
   "property": "C45",
   "status": "proved",
   "theorems": [
    "C45_saved_tree",
    "C45_any_history"
   ],
   "note": "For every command, fault and crash schedule on every orderly data root; the tree is the old or the new one up to the UTF-8 sanitizing of names (C19), or a file no Load accepts. Data roots without comma, colon and backslash; init and clone targets outside the data root."
  },
  {
   "property": "C36",
   "status": "partial",
   "theorems": [
    "C36_reopen",
    "C36_reopen_new",
    "C36_after_command",
    "C36_branch_refuted"
   ],
   "note": "Proved: a workspace made by init, clone, commit or checkout is found again from its path with the same ID, space, mount, working layer and the branch as sanitized by the JSON encoder. REFUTED for branch names that are not valid UTF-8, which come back changed."
  },
  {
   "property": "C41",
   "status": "proved",
   "theorems": [
    "C41_shows_base",
    "C41_commit_keeps"
   ],
   "note": "For successful commands whose old merged directory exists and whose option string fits (C33, C34 cover the others)."
  },
  {
   "property": "C42",
   "status": "partial",
   "theorems": [
    "C42_committed_partial",
    "C42_commit_closes",
    "C42_any_commands_refuted",
    "C42_failed_mount_refuted"
   ],
   "note": "Proved: if no init, clone, commit or checkout stopped half way before, every commit (layer with a child, and its ancestors) keeps its content under every later sequence of commands, faults, kills, failed unmounts, users' writes and lost mounts. REFUTED without that premise: a commit that fails after saving the tree (mount error, or no fault at all when the workspace was entered by the physical path) leaves the old mount writing to the committed layer."
  },
  {
   "property": "C43",
   "status": "partial",
   "theorems": [
    "C43_references_refuted",
    "C43_tags_refuted",
    "C42_committed_partial"
   ],
   "note": "REFUTED: checkout, tag and branch accept the ID of the uncommitted working layer of another workspace, whose content goes on changing. For references to committed layers see C42_committed_partial."
  },
  {
   "property": "C44",
   "status": "partial",
   "theorems": [
    "C44_failed_unmount_refuted",
    "C44_older_commits",
    "C44_checkout_partial"
   ],
   "note": "REFUTED for commit: after a failed unmount the recursive removal of the old mount directory empties the layer that was just committed. Proved: all older commits survive any command under any fault, and checkout harms no commit."
  },
  {
   "property": "C46",
   "status": "partial",
   "theorems": [
    "C46_history_partial",
    "C46_loadable",
    "C46_crash_refuted",
    "C46_full_disk_refuted"
   ],
   "note": "REFUTED: the tree is overwritten in place, so a crash or a full disk during the write leaves a file that no command can load, and all history of the space is lost. Proved: if no single write happens only in part, then after any command with any faults the saved tree loads and holds the whole earlier history."
  },
  {
   "property": "C47",
   "status": "partial",
   "theorems": [
    "C47_usable_partial",
    "C47_gap_refuted",
    "C47_failed_link_refuted"
   ],
   "note": "REFUTED: a crash or an error between the removal of the old link and the creation of the new one leaves nothing at the path. Proved: at every other point, with any faults, the path is a link to a mounted directory, and the path is missing only after a command that did not succeed."
  },
  {
   "property": "C48",
   "status": "partial",
   "theorems": [
    "C48_both_survive_refuted",
    "C48_stale_tree",
    "C48_serial_partial"
   ],
   "note": "REFUTED: there is no lock on the space; a process that loaded the tree before another one saved it overwrites it, in every machine and for every operation (C48_stale_tree), and the workspace of the other one cannot be opened any more. Proved: commits one after the other both survive."
  },
  {
   "property": "C49",
   "status": "proved",
   "theorems": [
    "C49_nothing_else",
    "C49_removed",
    "C49_other_mounts"
   ],
   "note": "For every fault and result: if nothing stays mounted below the mount directory, nothing but that directory and its .workspace file changes; on success both are gone; other mounts stay in every case."
  },
  {
   "property": "C50",
   "status": "partial",
   "theorems": [
    "C50_first_prepare",
    "C50_retry_refuted"
   ],
   "note": "Proved for the first call with any faults. REFUTED for a second call after a failed first one: sync.Once makes it return nil with nothing prepared."
  },
  {
   "property": "C51",
   "status": "partial",
   "theorems": [
    "C51_other_files",
    "C51_directory",
    "C51_init",
    "C51_clone_refuted",
    "C51_init_refuted"
   ],
   "note": "Proved: with any faults no command changes a file of the user other than at its target path; a non-empty directory at the target of init or clone stays with its content and the command fails; without faults init on a file changes nothing. REFUTED: clone onto a file deletes it; init does so when stat fails."
  },
  {
   "property": "C52",
   "status": "partial",
   "theorems": [
    "C52_panics_iff",
    "C52_no_panic_partial",
    "C52_no_panic_refuted"
   ],
   "note": "REFUTED: log of a commit without a date panics, for example of the ID of a working layer, or after checking it out. Proved: it panics exactly then, and never on a machine where every reference so far was HEAD or a name."
  },
  {
   "property": "C53",
   "status": "partial",
   "theorems": [
    "C53_later_signals_refuted",
    "C53_second_exits_refuted",
    "C53_first_cancels",
    "C53_exit_partial",
    "C53_may_exit",
    "C53_first_exits"
   ],
   "note": "REFUTED: the first signal cancels the context, so the second select finds ctx.Done() ready and the goroutine returns; once it has, no later signal ever exits the process (all schedules, all numbers of signals). Proved: the first signal cancels; any exit has code 128+n of the second signal, or of the first if somebody else cancelled."
  },
  {
   "property": "C54",
   "status": "proved",
   "theorems": [
    "C54_outermost",
    "C54_otherwise",
    "C54_cases",
    "C54_wrapping",
    "C54_nil_panics",
    "C54_text"
   ],
   "note": "For every error value, joined errors and own As methods included; the outermost and then leftmost Status is returned. The nil error, which is no chain, makes it panic."
  },
  {
   "property": "C55",
   "status": "partial",
   "theorems": [
    "C55_no_deadlock_partial",
    "C55_schedules_end_partial",
    "C55_calls_return_partial",
    "C55_never_stuck_refuted"
   ],
   "note": "Proved for any number of goroutines that choose their calls by the answers, lock by lock with announced writers: nobody is ever blocked for good by the locks (all calls, node methods included), no schedule is endless unless a call loops by itself, and with new nodes of distinct IDs none does. REFUTED for AddNode of a node that is an ancestor of the parent: it loops with the lock held and all others wait for ever. Goroutines that make infinitely many calls (starvation) are not covered."
  },
  {
   "property": "C56",
   "status": "partial",
   "theorems": [
    "C56_one_at_a_time_partial",
    "C56_no_race",
    "C56_search_refuted"
   ],
   "note": "Proved: without Search, every history of any number of goroutines is a history of the atomic functions of Tree.v (linearizability, by simulation), and no part of the tree is written while another goroutine uses it. REFUTED for Search, which locks three times: it misses a name that exists all the time."
  },
  {
   "property": "C58",
   "status": "partial",
   "theorems": [
    "C58_prints",
    "C58_detached_refuted"
   ],
   "note": "REFUTED for a detached workspace: an empty line is printed. Proved: exactly the branch name and a line feed are printed, and nothing changes."
  },
  {
   "property": "C59",
   "status": "proved",
   "theorems": [
    "C59_branch_list",
    "C59_tag_list",
    "C59_delete_branches",
    "C59_delete_tags",
    "C59_add_branch",
    "C59_add_tag"
   ],
   "note": "Listings and additions with any faults; deletions without faults (with faults C45_saved_tree: some prefix of the deletions is saved)."
  },
  {
   "property": "C61",
   "status": "proved",
   "theorems": [
    "C61_output"
   ],
   "note": "For revisions that base32 decoding accepts or rejects without panic (C04 shows which panic). The order of several tag names in one entry is the map order and left open."
  },
  {
   "property": "C57",
   "status": "partial",
   "theorems": [
    "C57_identity_partial",
    "C57_no_dash",
    "C57_dash",
    "C57_every_vector_refuted",
    "C57_owner_lost_refuted"
   ],
   "note": "Proved for every argument vector in which the options do not end with --, in particular all without the argument --: the second process runs the same command with the same arguments and options and with the caller's user and group. False for every vector that ends its options with --: C57_dash says what happens instead."
  },
  {
   "property": "C62",
   "status": "partial",
   "theorems": [
    "C62_last_message",
    "C62_paragraphs_refuted"
   ],
   "note": "False for several messages: the last one wins and the others are lost. Proved: the last message is recorded byte for byte, through sudo too."
  },
  {
   "property": "C63",
   "status": "proved",
   "theorems": [
    "C63_arguments",
    "C63_wrong_number"
   ],
   "note": ""
  },
  {
   "property": "C64",
   "status": "partial",
   "theorems": [
    "C64_dashed_name_refuted"
   ],
   "note": "False: init -b -x makes a branch that no argument vector of an ordinary user checks out by name, because a name that begins with - needs --, and -- breaks the re-execution."
  },
  {
   "property": "C65",
   "status": "proved",
   "theorems": [
    "C65_forms",
    "C65_grouped"
   ],
   "note": ""
  },
  {
   "property": "C66",
   "status": "proved",
   "theorems": [
    "C66_verbosity",
    "C66_root",
    "C66_unknown_option"
   ],
   "note": "The unknown option stands after plain arguments only, since after an option that takes a value it would be that value."
  },
  {
   "property": "C67",
   "status": "proved",
   "theorems": [
    "C67_init",
    "C67_commit",
    "C67_checkout",
    "C67_clone"
   ],
   "note": "Working order: SpecUsable.in_order and workspace_at. Checkout: the name must not be one on which decoding panics (C04), and every history of the space must fit."
  },
  {
   "property": "C68",
   "status": "proved",
   "theorems": [
    "C68_crowd"
   ],
   "note": ""
  },
  {
   "property": "C69",
   "status": "proved",
   "theorems": [
    "C69_history",
    "C69_from_init"
   ],
   "note": "Messages are compared after passing through JSON, which replaces invalid UTF-8."
  },
  {
   "property": "C70",
   "status": "proved",
   "theorems": [
    "C70_options"
   ],
   "note": "Words begin with no -, apart from - itself; the option verbose is C66."
  },
  {
   "property": "C71",
   "status": "proved",
   "theorems": [
    "C71_comes_back"
   ],
   "note": "Conditions: the workspace of the commit is mounted as its record says (PropsShow.mounted_from), the layers fit in the mount options, and the workspace of the checkout is in working order then."
  },
  {
   "property": "C72",
   "status": "proved",
   "theorems": [
    "C72_rounds"
   ],
   "note": ""
  },
  {
   "property": "C73",
   "status": "partial",
   "theorems": [
    "C73_recoverable_partial",
    "C73_discards_refuted"
   ],
   "note": "False as stated: checkout of HEAD drops a file written and not committed, without a word. What holds: the layer with the changes stays, and checkout of its ID, which no command prints, shows them again."
  },
  {
   "property": "C74",
   "status": "proved",
   "theorems": [
    "C74_owner",
    "C74_nothing_else",
    "C74_caller"
   ],
   "note": "C74_owner for a workspace that stands where its link leads; the owners are those recorded by chown and lchown"
  },
  {
   "property": "C75",
   "status": "proved",
   "theorems": [
    "C75_names",
    "C75_branch_succeeds",
    "C75_tag_succeeds",
    "C75_log_succeeds"
   ],
   "note": ""
  },
  {
   "property": "C76",
   "status": "partial",
   "theorems": [
    "C76_session",
    "C76_force_refuted"
   ],
   "note": "False as stated: branch --force can move the current branch to a commit that HEAD does not descend from, and then commit fails (C76_force_refuted). Proved for sessions whose branch commands do not move the branch of the workspace they run in."
  },
  {
   "property": "C77",
   "status": "proved",
   "theorems": [
    "C77_top_level",
    "C77_in_order",
    "C77_founded",
    "C77_nothing",
    "C77_prepare",
    "C77_prepare_succeeds",
    "C77_process",
    "C77_init"
   ],
   "note": ""
  },
  {
   "property": "C78",
   "status": "partial",
   "theorems": [
    "C78_checkout",
    "C78_names",
    "C78_commit_partial",
    "C78_clone_partial",
    "C78_init_partial",
    "C78_clone_refuted",
    "C78_init_refuted",
    "C78_commit_refuted"
   ],
   "note": "False as stated. C78_checkout and C78_names prove it for these commands (except deletions of several names, C59). For commit, clone and init the theorems say exactly what is left, and the refutations show it."
  },
  {
   "property": "C79",
   "status": "partial",
   "theorems": [
    "C79_clone",
    "C79_init",
    "C79_clone_refuted",
    "C79_init_refuted"
   ],
   "note": "False as stated. C79_clone: clone always takes the place of the workspace. C79_init: init is refused if the workspace shows a file; C79_init_refuted if it shows none."
  },
  {
   "property": "C80",
   "status": "proved",
   "theorems": [
    "C80_step",
    "C80_session",
    "C80_empty",
    "C80_places",
    "C80_layers"
   ],
   "note": "Refinement of the abstract system in SpecVcs.v by the whole program, on machines in working order, without faults and with new IDs; stacks have to fit into the options of mount. Directories that are links but no workspaces are left out. What workspaces show is in C81."
  },
  {
   "property": "C81",
   "status": "proved",
   "theorems": [
    "C81_shows",
    "C81_step",
    "C81_init",
    "C81_apart",
    "C81_sealed",
    "C81_leaves",
    "C81_session"
   ],
   "note": "Continues C80 with the stored files, under the same assumptions. For C81_session users write only through workspaces, not through mounts that no workspace leads to any more."
  },
  {
   "property": "C82",
   "status": "proved",
   "theorems": [
    "C82_process",
    "C82_session",
    "C82_nothing",
    "C82_status",
    "C82_no_directory",
    "C82_invalid"
   ],
   "note": "Under the assumptions of C80 and C81. sudo is taken to run the command it is given as root in the same directory and to pass its exit status on."
  },
  {
   "property": "C83",
   "status": "proved",
   "theorems": [
    "C83_step",
    "C83_silent",
    "C83_own",
    "C83_branches",
    "C83_determined",
    "C83_session",
    "C82_process",
    "C82_session"
   ],
   "note": "Under the assumptions of C80. The order of tags in a line of log is that of a Go map and is not determined. Log lines of the program and error messages are not modelled."
  },
  {
   "property": "C84",
   "status": "proved",
   "theorems": [
    "C84_step",
    "C84_session",
    "C84_places",
    "C84_all_places",
    "C84_trees",
    "C84_layers"
   ],
   "note": "Under the assumptions of C80, without those on faults and new random IDs. Commands are those of C80 with the data root prepared; whole processes are in C85."
  },
  {
   "property": "C85",
   "status": "proved",
   "theorems": [
    "C85_process",
    "C85_session",
    "C82_nothing"
   ],
   "note": "Under the assumptions of C82, without those on faults and new random IDs. sudo itself is taken not to fail."
  },
  {
   "property": "C86",
   "status": "proved",
   "theorems": [
    "C86_restart",
    "C86_step",
    "C86_recover"
   ],
   "note": "C80 to C85 also allow restarts between any two commands; here they are stated by themselves. C86_recover shows the stored content of the whole history, under the assumption that the workspace may commit (C39, C76)."
  },
  {
   "property": "C87",
   "status": "partial",
   "theorems": [
    "C87_sleeps_refuted",
    "C87_under_refuted",
    "C86_recover",
    "C81_step"
   ],
   "note": "False as stated. After a restart log, branch and tag succeed and leave the workspace unmounted (C87_sleeps_refuted); what is written under the link then is deleted by the next commit (C87_under_refuted). What holds: commit and checkout mount the workspace (C86_recover), and mounted workspaces stay mounted (C81_step)."
  },
  {
   "property": "C88",
   "status": "proved",
   "theorems": [
    "C88_edit",
    "C88_workspace"
   ],
   "note": "Edits.v models what overlayfs does for an edit: copying up directories, whiteouts, opaque directories. Renames of directories are left out. C88_edit is about any overlay mount with an upper layer, C88_workspace about the workspaces of a machine in working order."
  },
  {
   "property": "C89",
   "status": "proved",
   "theorems": [
    "C89_shows",
    "C89_aside",
    "C89_command",
    "C89_edit",
    "C89_session",
    "C89_empty",
    "C89_proper",
    "C89_head"
   ],
   "note": "C89_session is about lists of commands and edits. Faults, random IDs that repeat, and edits that are not in Edits.v (renames of directories) are left out here; checkout of the working layer of another workspace is excluded (proper), which C43 shows to be necessary."
  },
  {
   "property": "C90",
   "status": "proved",
   "theorems": [
    "C90_serial",
    "C90_acts",
    "C90_elsewhere",
    "C90_session"
   ],
   "note": "The process waits at one point: after GetWorkspaceFromPath has loaded the tree. Other interleavings, and init and clone as the waiting process, are left out; so are faults and random IDs that repeat."
  },
  {
   "property": "C91",
   "status": "partial",
   "theorems": [
    "C91_agree",
    "C91_moves",
    "C91_below_link",
    "C91_physical",
    "C91_commit_inside_refuted"
   ],
   "note": "That every command works in a subdirectory as at the link is false (C91_below_link, C91_commit_inside_refuted). Proved: where commands work, where they refuse, and that refusing changes nothing. At the link the two path models agree for every command that works in a workspace: C91_agree is about branch, tag and log, C91_moves about commit and checkout."
  },
  {
   "property": "C92",
   "status": "proved",
   "theorems": [
    "C92_read",
    "C92_only",
    "C92_signed",
    "C92_only_signed",
    "C92_exact",
    "C92_exact_signed",
    "C92_options",
    "C92_verbose",
    "C92_not_given"
   ],
   "note": ""
  },
  {
   "property": "C93",
   "status": "proved",
   "theorems": [
    "C93_interleaved",
    "C93_overlap"
   ],
   "note": "Processes wait at one point: after GetWorkspaceFromPath has loaded the tree. init and clone run from start to end; so do all commands between that point and their end. Faults and random IDs that repeat are left out."
  },
  {
   "property": "C94",
   "status": "proved",
   "theorems": [
    "C94_resolves",
    "C94_real",
    "C94_topmost",
    "C94_getwd",
    "C94_option",
    "C94_text",
    "C94_text_refuted"
   ],
   "note": "C94_text needs a text without \"..\"; C94_text_refuted shows that with \"..\" after a link the option leads elsewhere than the kernel would. Links of /proc and permissions to search are left out."
  },
  {
   "property": "C95",
   "status": "proved",
   "theorems": [
    "C95_init",
    "C95_clone"
   ],
   "note": "For targets in a directory with no links or mounts above it. If the working directory is a link that leads to the target, it must be the target itself."
  },
  {
   "property": "C96",
   "status": "proved",
   "theorems": [
    "C96_clean",
    "C96_split",
    "C96_getwd",
    "C96_abs",
    "C96_deep_abs"
   ],
   "note": "Rooted paths on Linux. The rules are stated on the names between the slashes."
  },
  {
   "property": "C97",
   "status": "proved",
   "theorems": [
    "C97_init",
    "C97_clone",
    "C97_busy"
   ],
   "note": "The path goes through one link, to a directory with no links or mounts above it. The source of clone is a directory or a link to one."
  },
  {
   "property": "C98",
   "status": "proved",
   "theorems": [
    "C98_same",
    "C98_clear",
    "C98_session"
   ],
   "note": "C98_same holds with any faults; sessions are those of C89, without faults. commit and checkout run in workspaces."
  },
  {
   "property": "C99",
   "status": "proved",
   "theorems": [
    "C99_same",
    "C99_line",
    "C99_process",
    "C99_harm",
    "C99_session"
   ],
   "note": "With any faults. Prepare makes the directories of the data root by the rules of Os.v. commit and checkout run in workspaces."
  },
  {
   "property": "C100",
   "status": "proved",
   "theorems": [
    "C100_names",
    "C100_empty",
    "C100_never",
    "C100_init"
   ],
   "note": "C100_empty and C100_init without faults, as an error of stat counts as no; C100_never with any. C100_names leaves out names at which something is mounted."
  },
  {
   "property": "C101",
   "status": "proved",
   "theorems": [
    "C101_open",
    "C101_refused"
   ],
   "note": "With any faults. By the kernel's rules of Deep.v."
  }
 ]
}
