#!/usr/bin/env python3
"""Writes MANIFEST.json from the table below."""
import json, os
C = []
def c(p, status, theorems, note=""):
    C.append({"property": p, "status": status, "theorems": theorems.split(), "note": note})

# ---- IDs
c("C01", "proved", "C01_hex_roundtrip C01_decode_hex_ok C01_decode_hex_total")
c("C02", "proved", "C02_base32_roundtrip")
c("C03", "proved", "C03_names_injective")
c("C04", "partial", "C04_base32_no_panic_refuted C04_base32_no_panic_refuted_ff C04_base32_no_panic_partial C04_base32_panics_exactly",
  "REFUTED: a 26-byte string with CR/LF or 0xFF panics. Proved: no panic for strings without these bytes, and exactly when it panics without 0xFF.")
c("C05", "proved", "C05_unique_spelling_refuted C05_four_spellings C05_which_spellings",
  "One spelling per ID is REFUTED; the alternative in the statement is proved: exactly four spellings, characterised.")
c("C06", "proved", "C06_new_uid_bijective")
c("C07", "partial", "C07_short_hash_zero_padded_refuted C07_hash_prefix_partial",
  "REFUTED for short digests (panic); proved: first 16 bytes for digests of at least 16 bytes.")

# ---- commit tree
c("C08", "proved", "C08_tree_is_a_map C08_tree_is_a_map_from C08_repr_observes C08_spec_deterministic C08_distinct_ids_are_fresh C08_family C08_delete_child")
c("C09", "proved", "C09_single_rooted_tree C09_repr_shape C09_repr_rooted C09_delete_child_breaks", "DeleteChild of a node, which nobody calls, would break it; it is not one of the calls of the claim.")
c("C10", "proved", "C10_add_node_exact C10_add_node_failures")
c("C11", "partial", "C11_id_added_once_refuted C11_duplicate_accepted C11_duplicate_root_rejected_partial C11_moved",
  "REFUTED: AddNode ignores AddChild's result, a duplicate ID under an existing parent is always accepted and breaks the parent/child symmetry.")
c("C12", "proved", "C12_update_branch_exact")
c("C13", "proved", "C13_add_branch_exact C13_add_tag_exact C13_delete_branch_exact C13_delete_tag_exact")
c("C14", "proved", "C14_no_dangling")
c("C15", "partial", "C15_search_order C15_search_order_refuted",
  "Proved for every key on which the base32 decoder does not panic (C04); REFUTED for those keys: Search panics even if a tag has that name.")

# ---- dump and load
c("C16", "proved", "C16_dump_load C16_dump_load_built C16_dump_content")
c("C17", "partial", "C17_load_no_dangling C17_load_total C17_bad_ids_rejected_partial C17_loaded_ids C17_bad_ids_rejected_refuted",
  "Proved for every dump with a node tree. REFUTED for a dump whose nodes field is null: Load returns an empty tree and drops branches and tags without an error.")

c("C18","proved","C18_save_load C18_save_load_built C18_names_sorted","JSON text of the dump, all trees with valid UTF-8 strings, all map orders")
c("C19","partial","C19_names_exact_partial C19_names_survive_refuted","REFUTED as stated: names that are not valid UTF-8 come back with U+FFFD and different names can become equal. Proved: a name comes back as sanitize(name), equal to the name iff it is valid UTF-8")
c("C20","proved","C20_torn_tree_detected C20_trailing_text_rejected C20_torn_workspace_detected C20_workspace_read_back","every strict prefix of the file is rejected, and so is any non-blank text after it")

# ---- workspaces, reading
c("C21","proved","C21_full_name_parses_back C21_line_feed_rejected C21_parse_exact C21_parse_total C21_full_names_differ")
c("C24","proved","C24_local_listing C24_remote_listing C24_all_listing C24_any_tree C24_order_is_bytewise","the once-each and order claims are for trees whose branch names are full names as this program writes them (canonical)")
c("C25","proved","C25_resolution C25_found_in_tree C25_resolve_cases","for every reference on which the base32 decoder does not panic (C04)")
c("C26","proved","C26_history C26_chain","for every reference on which the base32 decoder does not panic (C04)")
c("C29","proved","C29_tag_list")
c("C60","partial","C60_date_survives C60_text_roundtrip C60_good_times C60_second_offsets_refuted C60_fields C60_weekday","REFUTED for zone offsets with seconds, which RFC 3339 text cannot carry; proved for all offsets in whole minutes")

# ---- layers and mounts
c("C31","partial","C31_create_only_adds C31_create_success C31_create_collision C31_get C31_list C31_delete C31_delete_mounted C31_list_foreign_refuted C31_list_panic_refuted","Create, Get and Delete proved as stated, for all generator outputs and faults; List proved for stores that hold only directories named by the base32 text of an ID. REFUTED: List reports directories whose name is another base32 spelling of an ID, and panics on names the decoder panics on (C04)")
c("C33","partial","C33_options_denote C33_mount_exact C33_upper_only_intended C33_every_root_refuted","proved for data roots without comma, colon and backslash and strings within the page limit (C34); REFUTED for the other roots")
c("C34","partial","C34_length C34_default_limit C34_every_depth_refuted C34_default_refuted C34_silent_loss","REFUTED: the exact length is proved; with the default data root 66 lower layers no longer mount; with roots of 20 or 26 bytes a longer stack mounts read-only with the oldest layers missing and no error")

# ---- branches and tags
c("C22","partial","C22_listed_partial C22_listed_refuted","proved for names without a line feed; REFUTED for names with one: the branch is created and no listing ever shows it")
c("C23","proved","C23_others_kept C23_others_not_listed","for every operation, result and fault; the claim about the saved tree is up to the UTF-8 sanitizing of names (C19)")
c("C27","proved","C27_branch_kept C27_tag_kept C27_branch_moves C27_tag_moves C27_branch_succeeds")
c("C28","proved","C28_current_kept C28_missing C28_other_removed C28_other_succeeds C28_tag_removed")
c("C30","partial","C30_root_resolves_partial C30_root_created_partial C30_root_kept_partial C30_root_always_refuted","REFUTED: the tag ROOT can be deleted, and moved with force. Proved: every other operation keeps it")
c("C32","proved","C32_mount_stack","Lower directories are the diff directories of the chain of the commit (C26_chain), upper is a new layer that becomes its child; the layers below are untouched. How the kernel reads the option string is C33/C34.")
c("C35","proved","C35_init_tree C35_init_files C35_no_history C35_failure_harmless","Exact tree in memory and on disk, exact set of new paths, empty history; under any fault nothing that existed changes (a stray .workspace file of the new mount ID apart).")
c("C37","proved","C37_commit_exact C37_history","Exact tree after one commit; history after any number of commits. Repeated commits are calls in one process here; the command run C37_runs goes through separate processes.")
c("C38","proved","C38_commit_iff C38_refused","Iff, with no fault and unused random IDs; a commit that may not be made fails under every fault schedule and leaves the saved tree alone.")
c("C39","partial","C39_clone_can_commit_refuted C39_clone_commit_fails C39_detached_clone_commits_partial","REFUTED: a clone of a workspace on a branch keeps the branch name without creating the branch, so every commit in it fails; proved for detached sources.")
c("C40","partial","C40_checkout_then_commit_refuted C40_other_names_fail C40_local_name_partial","REFUTED for full names and origin/NAME: the reference text is stored as a local branch name that does not exist, so every following commit fails; proved for local branch names.")

# ---- whole commands
c("C45","proved","C45_saved_tree C45_any_history","For every command, fault and crash schedule on every orderly data root; the tree is the old or the new one up to the UTF-8 sanitizing of names (C19), or a file no Load accepts. Data roots without comma, colon and backslash; init and clone targets outside the data root.")
c("C36","partial","C36_reopen C36_reopen_new C36_after_command C36_branch_refuted","Proved: a workspace made by init, clone, commit or checkout is found again from its path with the same ID, space, mount, working layer and the branch as sanitized by the JSON encoder. REFUTED for branch names that are not valid UTF-8, which come back changed.")
c("C41","proved","C41_shows_base C41_commit_keeps","For successful commands whose old merged directory exists and whose option string fits (C33, C34 cover the others).")
c("C42","partial","C42_committed_partial C42_commit_closes C42_any_commands_refuted C42_failed_mount_refuted","Proved: if no init, clone, commit or checkout stopped half way before, every commit (layer with a child, and its ancestors) keeps its content under every later sequence of commands, faults, kills, failed unmounts, users' writes and lost mounts. REFUTED without that premise: a commit that fails after saving the tree (mount error, or no fault at all when the workspace was entered by the physical path) leaves the old mount writing to the committed layer.")
c("C43","partial","C43_references_refuted C43_tags_refuted C42_committed_partial","REFUTED: checkout, tag and branch accept the ID of the uncommitted working layer of another workspace, whose content goes on changing. For references to committed layers see C42_committed_partial.")
c("C44","partial","C44_failed_unmount_refuted C44_older_commits C44_checkout_partial","REFUTED for commit: after a failed unmount the recursive removal of the old mount directory empties the layer that was just committed. Proved: all older commits survive any command under any fault, and checkout harms no commit.")

c("C46","partial","C46_history_partial C46_loadable C46_crash_refuted C46_full_disk_refuted","REFUTED: the tree is overwritten in place, so a crash or a full disk during the write leaves a file that no command can load, and all history of the space is lost. Proved: if no single write happens only in part, then after any command with any faults the saved tree loads and holds the whole earlier history.")
c("C47","partial","C47_usable_partial C47_gap_refuted C47_failed_link_refuted","REFUTED: a crash or an error between the removal of the old link and the creation of the new one leaves nothing at the path. Proved: at every other point, with any faults, the path is a link to a mounted directory, and the path is missing only after a command that did not succeed.")
c("C48","partial","C48_both_survive_refuted C48_stale_tree C48_serial_partial","REFUTED: there is no lock on the space; a process that loaded the tree before another one saved it overwrites it, in every machine and for every operation (C48_stale_tree), and the workspace of the other one cannot be opened any more. Proved: commits one after the other both survive.")
c("C49","proved","C49_nothing_else C49_removed C49_other_mounts","For every fault and result: if nothing stays mounted below the mount directory, nothing but that directory and its .workspace file changes; on success both are gone; other mounts stay in every case.")
c("C50","partial","C50_first_prepare C50_retry_refuted","Proved for the first call with any faults. REFUTED for a second call after a failed first one: sync.Once makes it return nil with nothing prepared.")
c("C51","partial","C51_other_files C51_directory C51_init C51_clone_refuted C51_init_refuted","Proved: with any faults no command changes a file of the user other than at its target path; a non-empty directory at the target of init or clone stays with its content and the command fails; without faults init on a file changes nothing. REFUTED: clone onto a file deletes it; init does so when stat fails.")

c("C52","partial","C52_panics_iff C52_no_panic_partial C52_no_panic_refuted","REFUTED: log of a commit without a date panics, for example of the ID of a working layer, or after checking it out. Proved: it panics exactly then, and never on a machine where every reference so far was HEAD or a name.")
c("C53","partial","C53_later_signals_refuted C53_second_exits_refuted C53_first_cancels C53_exit_partial C53_may_exit C53_first_exits","REFUTED: the first signal cancels the context, so the second select finds ctx.Done() ready and the goroutine returns; once it has, no later signal ever exits the process (all schedules, all numbers of signals). Proved: the first signal cancels; any exit has code 128+n of the second signal, or of the first if somebody else cancelled.")
c("C54","proved","C54_outermost C54_otherwise C54_cases C54_wrapping C54_nil_panics C54_text","For every error value, joined errors and own As methods included; the outermost and then leftmost Status is returned. The nil error, which is no chain, makes it panic.")
c("C55","partial","C55_no_deadlock_partial C55_schedules_end_partial C55_calls_return_partial C55_never_stuck_refuted","Proved for any number of goroutines that choose their calls by the answers, lock by lock with announced writers: nobody is ever blocked for good by the locks (all calls, node methods included), no schedule is endless unless a call loops by itself, and with new nodes of distinct IDs none does. REFUTED for AddNode of a node that is an ancestor of the parent: it loops with the lock held and all others wait for ever. Goroutines that make infinitely many calls (starvation) are not covered.")
c("C56","partial","C56_one_at_a_time_partial C56_no_race C56_search_refuted","Proved: without Search, every history of any number of goroutines is a history of the atomic functions of Tree.v (linearizability, by simulation), and no part of the tree is written while another goroutine uses it. REFUTED for Search, which locks three times: it misses a name that exists all the time.")
c("C58","partial","C58_prints C58_detached_refuted","REFUTED for a detached workspace: an empty line is printed. Proved: exactly the branch name and a line feed are printed, and nothing changes.")
c("C59","proved","C59_branch_list C59_tag_list C59_delete_branches C59_delete_tags C59_add_branch C59_add_tag","Listings and additions with any faults; deletions without faults (with faults C45_saved_tree: some prefix of the deletions is saved).")
c("C61","proved","C61_output","For revisions that base32 decoding accepts or rejects without panic (C04 shows which panic). The order of several tag names in one entry is the map order and left open.")

c("C57","partial","C57_identity_partial C57_no_dash C57_dash C57_every_vector_refuted C57_owner_lost_refuted","Proved for every argument vector in which the options do not end with --, in particular all without the argument --: the second process runs the same command with the same arguments and options and with the caller's user and group. False for every vector that ends its options with --: C57_dash says what happens instead.")
c("C62","partial","C62_last_message C62_paragraphs_refuted","False for several messages: the last one wins and the others are lost. Proved: the last message is recorded byte for byte, through sudo too.")
c("C63","proved","C63_arguments C63_wrong_number","")
c("C64","partial","C64_dashed_name_refuted","False: init -b -x makes a branch that no argument vector of an ordinary user checks out by name, because a name that begins with - needs --, and -- breaks the re-execution.")
c("C65","proved","C65_forms C65_grouped","")
c("C66","proved","C66_verbosity C66_root C66_unknown_option","The unknown option stands after plain arguments only, since after an option that takes a value it would be that value.")
c("C67","proved","C67_init C67_commit C67_checkout C67_clone","Working order: SpecUsable.in_order and workspace_at. Checkout: the name must not be one on which decoding panics (C04), and every history of the space must fit.")
c("C68","proved","C68_crowd","")
c("C69","proved","C69_history C69_from_init","Messages are compared after passing through JSON, which replaces invalid UTF-8.")
c("C70","proved","C70_options","Words begin with no -, apart from - itself; the option verbose is C66.")
c("C71","proved","C71_comes_back","Conditions: the workspace of the commit is mounted as its record says (PropsShow.mounted_from), the layers fit in the mount options, and the workspace of the checkout is in working order then.")
c("C72","proved","C72_rounds","")
c("C73","partial","C73_recoverable_partial C73_discards_refuted","False as stated: checkout of HEAD drops a file written and not committed, without a word. What holds: the layer with the changes stays, and checkout of its ID, which no command prints, shows them again.")
c("C74", "proved", "C74_owner C74_nothing_else C74_caller", "C74_owner for a workspace that stands where its link leads; the owners are those recorded by chown and lchown")
c("C75", "proved", "C75_names C75_branch_succeeds C75_tag_succeeds C75_log_succeeds", "")
c("C76", "partial", "C76_session C76_force_refuted", "False as stated: branch --force can move the current branch to a commit that HEAD does not descend from, and then commit fails (C76_force_refuted). Proved for sessions whose branch commands do not move the branch of the workspace they run in.")
c("C77", "proved", "C77_top_level C77_in_order C77_founded C77_nothing C77_prepare C77_prepare_succeeds C77_process C77_init", "")
c("C78", "partial", "C78_checkout C78_names C78_commit_partial C78_clone_partial C78_init_partial C78_clone_refuted C78_init_refuted C78_commit_refuted", "False as stated. C78_checkout and C78_names prove it for these commands (except deletions of several names, C59). For commit, clone and init the theorems say exactly what is left, and the refutations show it.")
c("C79", "partial", "C79_clone C79_init C79_clone_refuted C79_init_refuted", "False as stated. C79_clone: clone always takes the place of the workspace. C79_init: init is refused if the workspace shows a file; C79_init_refuted if it shows none.")
c("C80", "proved", "C80_step C80_session C80_empty C80_places C80_layers", "Refinement of the abstract system in SpecVcs.v by the whole program, on machines in working order, without faults and with new IDs; stacks have to fit into the options of mount. Directories that are links but no workspaces are left out. What workspaces show is in C81.")
c("C81", "proved", "C81_shows C81_step C81_init C81_apart C81_sealed C81_leaves C81_session", "Continues C80 with the stored files, under the same assumptions. For C81_session users write only through workspaces, not through mounts that no workspace leads to any more.")
c("C82", "proved", "C82_process C82_session C82_nothing C82_status C82_no_directory C82_invalid", "Under the assumptions of C80 and C81. sudo is taken to run the command it is given as root in the same directory and to pass its exit status on.")
c("C83", "proved", "C83_step C83_silent C83_own C83_branches C83_determined C83_session C82_process C82_session", "Under the assumptions of C80. The order of tags in a line of log is that of a Go map and is not determined. Log lines of the program and error messages are not modelled.")
c("C84", "proved", "C84_step C84_session C84_places C84_all_places C84_trees C84_layers", "Under the assumptions of C80, without those on faults and new random IDs. Commands are those of C80 with the data root prepared; whole processes are in C85.")
c("C85", "proved", "C85_process C85_session C82_nothing", "Under the assumptions of C82, without those on faults and new random IDs. sudo itself is taken not to fail.")
c("C86", "proved", "C86_restart C86_step C86_recover", "C80 to C85 also allow restarts between any two commands; here they are stated by themselves. C86_recover shows the stored content of the whole history, under the assumption that the workspace may commit (C39, C76).")
c("C87", "partial", "C87_sleeps_refuted C87_under_refuted C86_recover C81_step", "False as stated. After a restart log, branch and tag succeed and leave the workspace unmounted (C87_sleeps_refuted); what is written under the link then is deleted by the next commit (C87_under_refuted). What holds: commit and checkout mount the workspace (C86_recover), and mounted workspaces stay mounted (C81_step).")
c("C88", "proved", "C88_edit C88_workspace", "Edits.v models what overlayfs does for an edit: copying up directories, whiteouts, opaque directories. Renames of directories are left out. C88_edit is about any overlay mount with an upper layer, C88_workspace about the workspaces of a machine in working order.")
c("C89", "proved", "C89_shows C89_aside C89_command C89_edit C89_session C89_empty C89_proper C89_head", "C89_session is about lists of commands and edits. Faults, random IDs that repeat, and edits that are not in Edits.v (renames of directories) are left out here; checkout of the working layer of another workspace is excluded (proper), which C43 shows to be necessary.")
c("C90", "proved", "C90_serial C90_acts C90_elsewhere C90_session", "The process waits at one point: after GetWorkspaceFromPath has loaded the tree. Other interleavings, and init and clone as the waiting process, are left out; so are faults and random IDs that repeat.")
c("C91", "partial", "C91_agree C91_moves C91_below_link C91_physical C91_commit_inside_refuted", "That every command works in a subdirectory as at the link is false (C91_below_link, C91_commit_inside_refuted). Proved: where commands work, where they refuse, and that refusing changes nothing. At the link the two path models agree for every command that works in a workspace: C91_agree is about branch, tag and log, C91_moves about commit and checkout.")
c("C92", "proved", "C92_read C92_only C92_signed C92_only_signed C92_exact C92_exact_signed C92_options C92_verbose C92_not_given")
c("C93", "proved", "C93_interleaved C93_overlap", "Processes wait at one point: after GetWorkspaceFromPath has loaded the tree. init and clone run from start to end; so do all commands between that point and their end. Faults and random IDs that repeat are left out.")
c("C94", "proved", "C94_resolves C94_real C94_topmost C94_getwd C94_option C94_text C94_text_refuted", "C94_text needs a text without \"..\"; C94_text_refuted shows that with \"..\" after a link the option leads elsewhere than the kernel would. Links of /proc and permissions to search are left out.")
c("C95", "proved", "C95_init C95_clone", "For targets in a directory with no links or mounts above it. If the working directory is a link that leads to the target, it must be the target itself.")
c("C96", "proved", "C96_clean C96_split C96_getwd C96_abs C96_deep_abs", "Rooted paths on Linux. The rules are stated on the names between the slashes.")
c("C97", "proved", "C97_init C97_clone C97_busy", "The path goes through one link, to a directory with no links or mounts above it. The source of clone is a directory or a link to one.")
c("C98", "proved", "C98_same C98_clear C98_session", "C98_same holds with any faults; sessions are those of C89, without faults. commit and checkout run in workspaces.")
c("C99", "proved", "C99_same C99_line C99_process C99_harm C99_session", "With any faults. Prepare makes the directories of the data root by the rules of Os.v. commit and checkout run in workspaces.")
c("C100", "proved", "C100_names C100_empty C100_never C100_init", "C100_empty and C100_init without faults, as an error of stat counts as no; C100_never with any. C100_names leaves out names at which something is mounted.")
c("C101", "proved", "C101_open C101_refused", "With any faults. By the kernel's rules of Deep.v.")

if __name__ == "__main__":
    p = os.path.join(os.path.dirname(os.path.abspath(__file__)), "..", "MANIFEST.json")
    json.dump({"claims": C}, open(p, "w"), indent=1)
    open(p, "a").write("\n")
