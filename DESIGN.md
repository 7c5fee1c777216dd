# Formal model of yhlooo/stackcrisp in Rocq (Coq 8.16.1, std++)

The property list is `properties.jsonl`. `MANIFEST.json` (written by `tools/manifest.py`) says for each property which
theorems prove it and how far. A theorem that ends in `_refuted` is a proved counterexample: the property, as a reader of
the code would expect it, is false, and the note says what is true instead.

## 1. Approach

* Each Go function is a total, computable Gallina function. Files without `Proofs`, `Props`, `Spec` in
  their names are the model and contain no proofs. Every definition cites the Go file and lines; `tools/cites.py`
  checks the citations against the sources.
* Strings and byte slices are `bytes = list ascii` (all 256 values). An ID is a list of exactly 16 bytes by its type.
* The outcome of a call is `Ok v | Err e | Panic | Hang | Crash`. Loops that might not end run on fuel and
  give `Hang` when it runs out; the theorems that claim success or "no panic" exclude `Hang` as well.
* Tree nodes are pointers in a heap (`gmap loc node`), so aliasing is real and not assumed away.
* Map iteration: each `range` over a Go map uses an order that the environment supplies. Theorems hold for all orders.
* A machine (`world` in Fs.v): files, directories and links, overlay mounts, the working directory and PWD of the
  process, its tree in memory and its output.
* An oracle answers every request of the process to the outside: random bytes, the clock, map orders, and for each system
  call what happens: success, any error with any partial effect, or a kill before, during or after it.
  Theorems quantify over oracles, with `fair`, `no_faults` and similar as explicit premises where needed.
* Goroutines (Locks.v, Signal.v): programs of small steps, interleaved by arbitrary schedules.
* Statements use their own vocabulary (`Spec*.v`): the commit tree is a finite map from IDs to parents and names to IDs, what a
  mount shows is a function from paths to contents, a command is a relation between a machine before and after.
* Beside each theorem there is an `Example Cxx_sat…` that shows a non-trivial case meeting the hypotheses,
  often a run of several commands computed by the kernel.

## 2. Files

| model | of |
|---|---|
| Base.v | byte strings, outcomes |
| Uid.v | pkg/utils/uid; encoding/hex and encoding/base32 as it uses them |
| Tree.v, Dump.v | pkg/spaces/trees: nodes, tree, dump and load |
| Json.v, Save.v | encoding/json, utf8 and base64 as used; the bytes of tree.json and of the .workspace files |
| Date.v | RFC 3339 formatting and parsing, the date layout of log |
| Branch.v, Ws.v | pkg/workspaces: branch names; searches, listings and histories |
| Fs.v, Overlay.v, Os.v | machines, programs and oracles; what overlayfs shows; system calls, pkg/utils/fs, filepath.Abs |
| Layers.v, Mounts.v, Space.v, Manager.v | the packages layers, mounts (with the kernel's reading of the mount options), spaces, manager and the changing part of workspaces |
| Edits.v | what overlayfs does when users change files in a workspace |
| Deep.v | paths through links and into mounts, and the commands with such paths |
| DeepStart.v | init and clone with such paths |
| DeepProcess.v | --chdir, --data-root and the command with such paths |
| Commands.v | pkg/commands: what each command does |
| Cli.v | argument parsing (cobra, pflag, strconv as used), the options of all commands, running again under sudo, whole processes and their exit status |
| Errors.v | pkg/utils/errors and errors.As |
| Signal.v | pkg/utils/context/signal.go with os/signal and select |
| Locks.v | the locks of pkg/spaces/trees, sync.RWMutex with waiting writers |
| Sample.v, Story.v | small machines for the examples |

Specifications: SpecUid, SpecTree, SpecWs, SpecWorld, SpecOps, SpecMachine, SpecCmds, SpecTidy, SpecLog, SpecLocks,
SpecUsable, SpecOrder, SpecNames, SpecVcs, SpecProcess, SpecHarm, SpecWhole, SpecEdits,
SpecSnap, SpecSerial, SpecDeep, SpecDate, SpecNumber, SpecInterleave, SpecResolve, SpecStart, SpecClean, SpecKernel, SpecJobs.
Lemmas: `*Proofs.v`, TreeRefine.v, TreeObs.v. Property theorems: `Props*.v`.

## 3. Trusted base

* Coq's kernel (8.16.1). `vm_compute` is used for concrete runs; the independent checker coqchk rechecks
  everything without the virtual machine.
* `Print Assumptions` stands below every property theorem and prints "Closed under the global context" for all of them:
  no theorem uses any axiom. coqchk lists seven axioms of Coq's own `ssr.ssrunder` (part of the
  standard distribution, loaded by std++ and used by no theorem). There are no axioms, parameters,
  `Admitted`, functors or module types here, and no kernel check is switched off.
* That the model matches the Go code, which was read and never run. The library functions and the kernel
  are modelled from their documentation and sources as known:
  * Go 1.21 library: hex, base32, base64, json, utf8, time formatting, strconv, filepath, sort, errors.As, sync.RWMutex,
    sync.Once, os/signal;
  * cobra v1.8.0 and pflag v1.0.5: finding the command, flags in all forms, `--`, numbers of arguments;
  * Linux: mount(2) copies one page of options; overlayfs splits options at commas, lower directories at colons, and handles
    backslashes; lookups with whiteouts and opaque directories; edits that copy directories up, leave whiteouts and make opaque directories; umount; rename-free writes that may be cut short;
  * sudo runs the program with the given arguments as root in the same directory and environment.

## 4. What is modelled and what is not

Modelled: all of pkg/layers, pkg/mounts (Linux), pkg/spaces, pkg/manager, pkg/workspaces, pkg/commands with
options, pkg/utils/{uid,fs,errors,context,cmd,sudo}.

Not modelled:

* cmd/stackcrisp/main.go beyond the version flag and the exit status; pkg/utils/log and all log lines; the files for other systems
  (`*_notlinux.go`, which only return errors); interfaces without code.
* The texts of error messages (kinds of errors are kept), help texts, shell completion.
* Permissions and times of files. Owners only as far as the program sets them: the world has a record of what chown and lchown
  gave to whom (path, what was there, user and group; newest first). That files are made by root and belong to root before
  that is not part of it, and nothing depends on the owner of a file: calls fail as the oracle says.
* Layer.Save and other functions nobody calls are modelled where they are part of an exported interface.

Simplifications, each also stated at its definition:

* A symbolic link is followed only as the last component of a path; links inside the data root make a call fail. Deep.v (C91) follows the paths of users
  everywhere, also into mounts; there links of /proc and permissions to search are left out.
* Users' reads and writes inside a workspace act on what the overlay mount shows; redirects, metacopy,
  hard links and renames of directories of overlayfs are left out. A new directory is always opaque (overlayfs omits that where nothing could shine through).
* A nil map and an empty map are the same in Tree.v (Dump.v tells them apart).
* JSON numbers and booleans are rejected by the reader. Dates are years 0 to 9999 and the strict RFC 3339 form.
* Each command is a process of its own with a fresh tree in memory. Two processes at once: PropsRace.v, where the
  whole of one command happens at any point of another; PropsInterleave.v, where any number of processes wait after they have loaded.
* In Locks.v a waiting reader is not preferred when a writer leaves, so all schedules of Go and some more are covered.

## 5. Properties

How each group is modelled and proved. "false:" marks what is refuted by a witness.

* **C01-C07 IDs** (PropsUid). Bit-level case analysis of one byte or one group of five bytes, induction over strings.
  C04 false: base32 text with CR, LF or 0xFF makes the decoder return a short slice and the array conversion panic;
  characterised exactly. C05: four spellings per ID. C07 false for short digests.
* **C08-C15 commit tree** (PropsTree). The heap tree refines a finite map, by induction over calls. C11 false: duplicate
  IDs are accepted. C15 false on keys on which C04 panics.
* **C16-C20 storage** (PropsDump, PropsSave). Dump and load on rose trees for every map order; JSON printer and parser;
  every strict prefix of a file is rejected. C17 false for `"nodes": null`. C19 false for names that are not valid UTF-8.
* **C21-C30 names, references, listings** (PropsWs, PropsBranch). C22 false for names with a line feed. C30 false: ROOT can be deleted.
* **C31-C34 layers and mount options** (PropsLayers, PropsMounts; C32 in PropsCommit). C31 false for foreign directories. C33 false
  for data roots with comma, colon or backslash. C34 false: with the default root 66 lower layers no longer mount, and for
  some lengths the oldest layers are lost without an error.
* **C35-C40 operations** (PropsCommit; C36 in PropsShow). Exact tree and files after init and commit; success iff. C36 false for branch names
  that are not UTF-8. C39 false: a clone on a branch cannot commit. C40 false for full and origin/ names.
* **C41-C44 content** (PropsShow, PropsCommitted). What a mount shows before and after; invariant over every sequence
  of commands, faults, kills, users' writes and lost mounts. C42 false after a commit that stopped
  after saving the tree. C43 false: the working layer of another workspace can be tagged. C44 false for commit:
  a failed unmount empties the layer just committed.
* **C45-C47, C49-C51 faults** (PropsFaults; C45 in PropsCmds). Hoare logic over programs with faults. C46 false: the tree file is overwritten in
  place. C47 false between removing the old link and making the new one. C50 false for a second Prepare.
  C51 false: clone deletes a file at its target.
* **C48 two processes** (PropsRace). False: there is no lock between processes; the later save wins.
* **C52, C58-C61 output** (PropsLog; C60 in PropsWs). C52 false: log of a commit without date panics. C58 false: an empty line.
  C60 false for zone offsets with seconds; PropsDate has the fields of the shown text and the weekday, against the Gregorian calendar of SpecDate.
* **C53 signals** (PropsSignal). All schedules. False: the second signal is not handled, and its default action is off.
* **C54 status errors** (PropsErrors). Induction on error trees.
* **C55, C56 goroutines** (PropsLocks). Lock order gives freedom from deadlock, a measure gives termination, a simulation
  gives linearizability. False for AddNode of an ancestor (loops with the lock held) and for Search (three locks).
* **C57, C62-C66, C70 command line** (PropsCli, PropsOptions). Parsing commutes with the arguments appended for sudo as long as the options do not end
  with `--`. C57 false with `--`. C62 false: the last message wins. C64 false: names that begin with `-`.
* **C67-C69 success** (PropsUsable). SpecUsable says when a machine and a workspace are in working order. Each step of each command
  is shown to succeed from there (UsableProofs, UsableCmdProofs, UsableInitProofs) and to lead there again, so sequences follow
  by induction (UsableSeqProofs), with arbitrary changes by users in between.
* **C71-C73 rounds** (PropsRound). The saved chain of layers of a commit never changes, its layers are frozen (C42), and checkout
  succeeds (C67) and shows the layers of the chain, so the commit comes back. C73 false: checkout drops uncommitted files.
* **C74 owner** (SpecOwner, PropsOwner). Every part of the commands but the two calls keeps the record of owners (OwnerProofs: `mute`);
  Expand adds the mount and then the link, each as it is at that moment. That both still are what they were when given follows
  from the settled workspace (C36) and, after commit and checkout, from removing the old mount alone. From the command line the
  ids of the process are the caller's (C57, C70).
* **C75 names** (SpecNames, NamesProofs, PropsNames). `names_result` says for every option what the result and the tree become; each
  command is followed through opening, lookup, change and save. Saving keeps all other files, so all workspaces stay usable (`relabelled`).
* **C76 sessions** (PropsNames). By induction over the session: a commit keeps every workspace able to commit (C68), and so do branch, tag
  and log (C75), unless --force moves the branch of the workspace itself. That case is refuted by a concrete run.
* **C77 working order** (SpecOrder, OrderProofs, PropsOrder). `happens` is one run of Prepare in a new process, or one step of C44. The
  invariants of Expand and RemoveWorkspaceMount (`exp_inv`, `rm_inv`) carry that mount points are directories; `orderly` carries that the
  top level of the data root is untouched. `prepares` says all that Prepare can do under any fault. `C77_process` ties this to whole
  processes (`with_manager`), `C77_init` combines it with C67.
* **C78 refused commands** (SpecRefused, RefusedProofs, PropsRefused). The other side of C67: on machines in working order, without faults,
  what a command that is refused leaves behind. `same_machine` is nothing, `left_dirs` two empty directories (commit), `left_mounted` a mounted
  stack and a record without a link (clone and init where `blocked` says that no link can be put). The proofs follow those of C67 to the
  call that fails.
* **C79 workspaces out of reach** (PropsRefused). `C79_clone` combines C67_clone with what the files were before; `C79_init` says when init
  looks and refuses. Concrete runs for the rest.
* **C80 a version control system** (SpecVcs, VcsProofs, PropsVcs). SpecVcs.v describes one on a page: workspaces by path, with their working
  layer and branch, and the tree of each space. `vstep` says for each command when it succeeds and what it changes, also outside workspaces
  and when it is refused. `models` relates a machine to it. `C80_step` puts C67, C75 and C78 together with a lemma for directories that are not
  workspaces; `C80_session` is the induction over commands. The trees of workspaces grow by one layer per command at most, which bounds the
  stacks. Refused clones leave a layer in the tree (C78), and the description says so. `C80_places` and `C80_layers` are read off the description.
* **C81 what workspaces show** (SpecVcs, LongerProofs, VcsProofs, PropsFiles). `models` also says that the mount of a workspace is the stack of
  its history (`stacked`), and each command is shown to touch no layer that was there and to start on a new, empty one (`files_step`, from
  `pa_layers`, `pa_new`, `pa_empty`, `pa_stack` and `lm_layers` of the records of C67 and C78). An empty layer drops out of the view, so what a
  workspace shows after a command is the stored content of the history `next_base`. `C81_apart` is an invariant: existing layers have a directory
  and new ones have none. `sealed` layers are those that exist and are nobody's working layer; they stay so.
* **C82 command lines** (Cli, SpecProcess, ProcessProofs, PropsProcess). `Cli.process` is a process from its arguments to its exit: parsing,
  sudo, --chdir, Prepare, the command. C70 gives what the line means, `manager_step` that Prepare completes a data root that is missing or
  half made without changing what is modelled, C80 the rest. The data root may be relative; it is then relative to --chdir. `stands` is `models` or a machine without workspaces on which the data root
  may still be missing, so `C82_session` starts with nothing (`C82_nothing`).
* **C83 what is printed** (SpecVcs `vlines`, PrintProofs, PropsPrint). `mute` programs print nothing; every call and function but println is
  shown to be mute, whatever fails. For branch, tag and log the lemmas of C58, C59 and C61 are carried over to V. `C83_own` is an invariant
  of V alone: no command makes a branch that belongs to no workspace, so `branch --remotes` prints nothing, and what branch and tag list is
  determined by V. C82_process and C82_session include the lines.
* **C84 harm** (SpecHarm, HarmProofs, PropsHarm). `partly` says what may be left of V when a command ends in any way. The proof follows each command
  and tracks which mounts are kept (`kept_mounts`, `mild`, `late`): before the operation is saved nothing is lost, after it at most the mount at
  the target path. `survives` is C80's session with faults; each step has two branches, since whether an oracle has no faults is not decidable.
* **C85 whole processes** (SpecWhole, PropsWhole). The set-up with faults: change_dir leaves the disk alone, `prepare_any` (C77) bounds what Prepare does
  however it ends, and if it succeeds `harm_any` of C84 applies. `endures` combines `serves` (C82) and `survives` (C84).
* **C86, C87 restarts** (SpecUsable `meanwhile`, `mounted_once`, SpecVcs `awake`, PropsRestart). Between any two commands mounts may get lost. Workspaces may then be
  asleep: link, record and layers are there, the mount is not. The proofs of C67 and C75 to C85 hold for these too, since no command reads
  through the mount and RemoveWorkspaceMount ignores that nothing is mounted. `files_step` says which workspaces are awake after a command.
  C87 is refuted by concrete runs.
* **C88 edits** (Edits, SpecEdits, EditProofs, PropsEdits). `edited` says what a tree of files is after an edit. The layers below are arbitrary; the proof compares the view
  over the changed upper layer with the old view path by path, with lemmas on which paths a layer covers.
* **C89 snapshots** (SpecSnap, SnapProofs, PropsSnap). `snapped` gives each layer of the trees in use a tree of files. It holds of a new machine and is kept by `lives`: any list of
  commands and edits, each with the effect it should have on workspaces, trees and snapshots. This joins C80 (commands act as on a small version control system), C81
  (layers are kept) and C88 (edits) into one statement in which no layer, mount or whiteout occurs.
* **C90 a process that waits** (SpecSerial, SerialProofs, PropsSerial). The positive side of C48. `forward`: a program depends only on the choices from now on, and time goes on; proved of every
  command. So a process that has loaded its workspace and waits (`resumed`) equals, to the last field of the world, one that starts later (`C90_serial`), if its link and the file of its tree are as
  they were. Commands in other spaces leave these (`C90_elsewhere`). `after_load` repeats the bodies of the commands without their first line; `after_load_parts` proves that it does.
* **C91 subdirectories of workspaces** (Deep, SpecDeep, DeepProofs, DeepMoveProofs, PropsDeep). Deep.v resolves the paths of users as path_resolution(7) says: links anywhere, `..`, and what mounts show. `usual`
  paths are those for which the simpler calls of Os.v agree with it; the link of a workspace is one (`C91_agree`; `C91_moves` follows commit and checkout through the moments at which the link is gone or new, with any call failing). Through the link, `os.Getwd` gives the path in PWD, which is no link and not
  in the mounts directory, so the name that is decoded is `..` (`C91_below_link`). By the physical path the program does not notice that it is deeper (`C91_physical`: `steady` programs do not look at
  the working directory), until `Expand` replaces what is at that path (`C91_commit_inside_refuted`).
* **C92 numbers in options** (SpecNumber, PropsNumber). SpecNumber says what texts of whole numbers are, as an inductive relation between texts and numbers; the parsers of Cli.v (strconv.ParseUint
  and ParseInt with base 0) compute exactly it, with limits (`C92_exact`, `C92_exact_signed`: with the underscores that Go allows).
* **C93 processes that overlap** (SpecInterleave, PropsInterleave). Any number of processes wait at the same time, each after it has loaded its workspace. `interleaved` goes through a list of happenings:
  a process starts, the i-th that waits goes on, or a process runs from start to end. With `C90_serial` a process that goes on is one that runs from start to end, so `C90_elsewhere` says that it leaves the others
  that wait as they are.
* **C94 where paths lead** (SpecResolve, PropsResolve). `resolves` states the rules of path_resolution(7) as an inductive relation; `leads` of Deep.v computes it (`C94_resolves`). The option -C cleans its text before it follows it
  (`filepath.Abs`), so `-C w/..` does not leave the directory that the link w is in (`C94_text_refuted`), as in a shell and not as in the kernel.
* **C95 init and clone at plain places** (DeepStart, SpecStart, DeepStartProofs, PropsStart). DeepStart.v has init and clone with the paths of Deep.v. At a `plain_place` they equal `cmd_init` and
  `cmd_clone`, as programs: for every oracle, so with any faults. With C91 this covers all commands.
* **C96 cleaning of paths** (SpecClean, PropsClean). `cleans` is the rules in the documentation of filepath.Clean, as rewriting steps; `pjoin` of Fs.v computes their only normal form.
* **C97 init and clone through a link, and at a mount point** (SpecStart, ThroughProofs, PropsThrough). `through w p q`: `p` goes through a link and leads to `q`. There the commands equal
  `init_at` and `clone_at`, which do at `q` what `cmd_init` and `cmd_clone` do, but record `p`; `put_at` says where the link, the mount and the record are afterwards. At a mount point
  (`busy`) they fail: `deep_remove` by EBUSY, or, if the look before it failed, `deep_symlink` by EEXIST. See finding 22.
* **C98 sessions by the kernel's rules** (SpecKernel, PropsKernel). C91 and C95 say that each command of Deep.v and DeepStart.v equals that of the simpler model where no mount is in the way
  (`reaches`). `C98_same` puts them together, and `C98_session` is C89_session for `deep_run`: the refinement to snapshots does not rest on the simplification of paths.
* **C99 command lines by the kernel's rules** (DeepProcess, SpecJobs, PropsJobs). `deep_process` is the set-up and the command with the paths of Deep.v: --chdir, a relative data root, then `deep_run`.
  `C99_same` and `C99_line` say that it equals the process of Cli.v whatever fails, `C99_session` is C82_session and C85_session for it. Prepare still makes the directories of the data root by the rules of Os.v.
* **C100 taken targets** (PropsTaken). C95 and C97 say what init does at plain places. `C100_names`, `C100_empty` and `C100_never` say what `names_in` and `deep_is_empty_dir` of DeepStart.v find anywhere, also below
  the top of a mount, and `C100_init` that init is refused, and nothing changes, where its path leads to something other than an empty directory.
* **C101 no workspace** (PropsNone). By the kernel's rules, where the path a command opens, and the text of a link there, are outside the data root, each command but init fails and changes nothing, whatever fails
  (`C101_open`, `C101_refused`). The sample is a directory inside a workspace: the path of the workspace is found by the link at its top only.

## 6. Findings in the code

Behaviour that a maintainer would probably want to change, each with a theorem:

1. Uid decoding panics on some base32 text, and references are decoded before tags are looked up (C04, C15).
2. The tree file is overwritten in place: a crash or full disk during the write loses the history (C46).
3. No lock between processes: concurrent commands lose commits (C48).
4. A failed unmount during commit deletes what was committed (C44); a commit that fails after saving the tree leaves the
   old mount writing into the commit (C42). A commit from the physical path always does (EBUSY).
5. A clone of a workspace on a branch cannot commit (C39); nor can one after checkout of `origin/x` (C40).
6. Mount options longer than a page are cut: at some lengths old layers vanish silently (C34).
7. `--` before arguments breaks running under sudo (C57), so branches named `-x` cannot be checked out (C64).
8. Several `-m` options: all but the last are lost although the help says they are joined (C62).
9. `c.Date != nil` in log.go compares a method value, so log panics on commits without date (C52).
10. After the first interrupt later ones do nothing (C53).
11. clone deletes a file at its target; init does when stat fails, since a stat error counts as "does not exist" (C51).
12. sync.Once makes a repeated Prepare return nil after a failure (C50).
13. Load ignores read errors other than "does not exist" (torn data is still detected, C20).
14. AddNode accepts duplicate IDs (C11) and loops for ever on an ancestor with the lock held (C55).
15. Annotations, Data and Parent read fields of a node without its lock; FromError(nil) panics (C54).
16. checkout drops uncommitted files without a warning (C73).
17. branch --force can move the current branch to a commit that HEAD does not descend from; then commit fails (C76).
18. clone and init create and mount everything before they find out that no link can be put at the target (a directory with something in it,
    a parent that does not exist, a dangling link). They fail and leave the mount, the layer, the record and the saved tree, each time anew;
    a refused commit leaves an empty layer and mount directory (C78).
19. clone over the path of another workspace, and init over one that shows no file, succeed. The other workspace stays mounted, but
    its path leads to the new one (C79).
20. After a restart of the computer the link of a workspace leads to the empty directory under its mount. log, branch and tag work there
    without a word; only commit and checkout mount it again. What root writes there in between is deleted by them without a warning (C87).
21. Commands fail in the subdirectories of a workspace. By the physical path of an empty subdirectory commit replaces it by a link, in the layer it has just
    committed, and the link of the workspace dangles afterwards (C91).
22. init in an empty directory where a disk is mounted passes the check for an empty directory, creates and mounts everything, and then fails since the directory cannot be
    removed. As in finding 18 the mount, the layer, the record and the saved tree stay (C97).

## 7. Testing the theorems

`tools/mutate.py` applies a wrong edit to the model in a scratch copy, rebuilds with failed proofs admitted, and
lists the property theorems that depend on a failed proof. The edits are in `seeded/edits/`, results in `seeded/LOG.jsonl`.
