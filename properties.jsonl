{"id": "C01", "title": "Hex form of an ID round-trips and decoding accepts exactly 32 hex digits", "statement": "For every ID, Hex() is 32 lowercase hex digits and DecodeUID128FromHex(Hex()) is the same ID; for every string, DecodeUID128FromHex succeeds iff it is 32 characters of 0-9a-fA-F, otherwise it returns an error, and it never panics; re-encoding a decoded string is its lower-cased form.", "quantifier": "all 2^128 IDs and all byte strings", "why_tests_cant": "2^128 IDs and unboundedly many strings; tests use one literal.", "anchors": ["pkg/utils/uid/uid_128.go:Hex", "pkg/utils/uid/uid_128.go:DecodeUID128FromHex"]}
{"id": "C02", "title": "Base32 form of an ID round-trips", "statement": "For every ID, Base32() is 26 characters of A-Z2-7 and DecodeUID128FromBase32(Base32()) is the same ID.", "quantifier": "all 2^128 IDs", "why_tests_cant": "domain far too large to enumerate", "anchors": ["pkg/utils/uid/uid_128.go:Base32", "pkg/utils/uid/uid_128.go:DecodeUID128FromBase32"]}
{"id": "C03", "title": "Different IDs never share a name", "statement": "Hex(), Base32() and String() are injective: two different IDs never get the same directory name, index key or printed form.", "quantifier": "all pairs of IDs", "why_tests_cant": "pairs of 128-bit values", "anchors": ["pkg/utils/uid/uid_128.go:Hex", "pkg/utils/uid/uid_128.go:Base32", "pkg/utils/uid/uid_128.go:String"]}
{"id": "C04", "title": "Decoding a base32 string never crashes the program", "statement": "For every input string DecodeUID128FromBase32 returns an ID or an error, it never panics (so Search, checkout, tag, branch and log on any user supplied reference cannot crash there).", "quantifier": "all byte strings", "why_tests_cant": "the crashing strings are specific 26-byte strings containing CR, LF or 0xFF; needs reasoning about every string", "anchors": ["pkg/utils/uid/uid_128.go:DecodeUID128FromBase32", "pkg/spaces/trees/tree.go:Search"]}
{"id": "C05", "title": "Which base32 spellings name the same ID", "statement": "Each ID has exactly one accepted 26-character spelling over the base32 alphabet (if not: exactly which strings decode to the same ID).", "quantifier": "all strings over the base32 alphabet, all IDs", "why_tests_cant": "32^26 strings", "anchors": ["pkg/utils/uid/uid_128.go:DecodeUID128FromBase32"]}
{"id": "C06", "title": "New IDs use all 128 bits drawn from the generator", "statement": "NewUID128 maps the two 64-bit words drawn from the generator to the ID bijectively: different draws give different IDs and every ID can be produced.", "quantifier": "all pairs of 64-bit words", "why_tests_cant": "2^128 pairs", "anchors": ["pkg/utils/uid/uid_128.go:NewUID128"]}
{"id": "C07", "title": "Hash-derived IDs take the leading 128 bits and zero-pad short hashes", "statement": "NewUID128FromHash returns the first 16 bytes of the digest, and for a digest shorter than 16 bytes the digest followed by zero bytes.", "quantifier": "all digests of all lengths", "why_tests_cant": "every digest length; tests only use 16- and 32-byte hashes", "anchors": ["pkg/utils/uid/uid_128.go:NewUID128FromHash"]}
{"id": "C08", "title": "The commit tree behaves like a plain map of commits, branches and tags", "statement": "After any sequence of Tree API calls that adds nodes with new IDs, Get, Root, GetByBranch, GetByTag, Branches, Tags, Parent, Children, HasChild, IsLeaf and IsRoot answer exactly as an abstract map (ID to parent and annotations, branch name to ID, tag name to ID) updated by the same calls, and each call returns the error/bool the abstract map predicts.", "quantifier": "all finite sequences of API calls with all arguments", "why_tests_cant": "unbounded histories", "anchors": ["pkg/spaces/trees/tree.go:defaultTree", "pkg/spaces/trees/node.go:defaultNode"]}
{"id": "C09", "title": "The commit tree is always a single rooted tree", "statement": "After any such sequence there is at most one root, every node other than the root has a parent in the tree that lists it as child, every listed child has that node as parent, and following parents from any node reaches the root in finitely many steps.", "quantifier": "all finite sequences of API calls", "why_tests_cant": "unbounded histories and depths", "anchors": ["pkg/spaces/trees/tree.go:AddNode", "pkg/spaces/trees/tree.go:updateIndexes", "pkg/spaces/trees/node.go:SetParent", "pkg/spaces/trees/node.go:AddChild"]}
{"id": "C10", "title": "AddNode error and success effects are exact", "statement": "AddNode(nil, n) fails iff a root exists; AddNode(p, n) fails iff p is not in the tree; a failing call changes nothing; a successful call with a new ID adds exactly that node under exactly that parent and leaves every other node, branch and tag as it was.", "quantifier": "all trees, all arguments", "why_tests_cant": "all trees", "anchors": ["pkg/spaces/trees/tree.go:AddNode"]}
{"id": "C11", "title": "An ID can be added to a tree only once", "statement": "AddNode of a node whose ID is already in the tree is rejected and leaves the tree unchanged.", "quantifier": "all trees, all IDs", "why_tests_cant": "must hold in every tree state", "anchors": ["pkg/spaces/trees/tree.go:AddNode", "pkg/spaces/trees/node.go:AddChild"]}
{"id": "C12", "title": "Non-forced branch update only fast-forwards", "statement": "UpdateBranch(name, id, false) succeeds iff branch and node exist and the new node is the current head or one of its descendants; with force it succeeds iff branch and node exist; on success the branch points at the node and nothing else changes, on error nothing changes; the call terminates.", "quantifier": "all trees of any depth, all names and IDs", "why_tests_cant": "unbounded depth and shapes", "anchors": ["pkg/spaces/trees/tree.go:UpdateBranch"]}
{"id": "C13", "title": "Branch and tag edits touch only the named entry", "statement": "AddBranch/AddTag/DeleteBranch/DeleteTag change exactly the entry with the given name (adding may overwrite) and leave all other branches, tags and nodes unchanged; AddBranch/AddTag fail iff the node is not in the tree; Delete returns true iff the entry existed.", "quantifier": "all trees, names, IDs", "why_tests_cant": "all names and all tree states", "anchors": ["pkg/spaces/trees/tree.go:AddBranch", "pkg/spaces/trees/tree.go:AddTag", "pkg/spaces/trees/tree.go:DeleteBranch", "pkg/spaces/trees/tree.go:DeleteTag"]}
{"id": "C14", "title": "Branches and tags never dangle", "statement": "After any sequence of Tree API calls every branch and every tag points at a node that Get finds under that node's ID.", "quantifier": "all finite sequences of API calls", "why_tests_cant": "unbounded histories", "anchors": ["pkg/spaces/trees/tree.go:AddBranch", "pkg/spaces/trees/tree.go:AddTag", "pkg/spaces/trees/tree.go:UpdateBranch"]}
{"id": "C15", "title": "Tree.Search resolves commit ID before tag before branch", "statement": "Search(key) returns the node whose hex or base32 ID is key if there is one, else the node of tag key, else the node of branch key, else not found; the reported key type matches.", "quantifier": "all trees, all keys on which the ID decoder does not panic", "why_tests_cant": "all strings and tree states", "anchors": ["pkg/spaces/trees/tree.go:Search"]}
{"id": "C16", "title": "Dump then Load rebuilds the same tree, whatever the map iteration order", "statement": "For every well-formed tree and every order in which Go happens to iterate its maps, Load(Dump(t)) succeeds and yields a tree with the same nodes, parents, annotations, data, branches and tags.", "quantifier": "all trees, all map iteration orders", "why_tests_cant": "iteration order is random, trees unbounded", "anchors": ["pkg/spaces/trees/dump.go:Dump", "pkg/spaces/trees/dump.go:Load"]}
{"id": "C17", "title": "Load never builds a tree with dangling references", "statement": "For every dump, if Load returns no error then every branch and tag of the result points at a node of the result; a branch or tag whose ID is malformed or absent makes Load return an error; a malformed node ID makes Load return an error.", "quantifier": "all dumps (including hand-edited ones with distinct IDs)", "why_tests_cant": "all inputs", "anchors": ["pkg/spaces/trees/dump.go:Load"]}
{"id": "C18", "title": "Saving and loading a space preserves the tree", "statement": "If all names and annotations are valid UTF-8, the bytes written by Space.Save are read back by Space.Load as the same tree (nodes, parents, annotations, data, branches, tags).", "quantifier": "all trees with UTF-8 names", "why_tests_cant": "unbounded trees, all strings incl. quotes, control characters, HTML characters", "anchors": ["pkg/spaces/default.go:Save", "pkg/spaces/default.go:Load", "pkg/spaces/trees/dump.go:TreeDump"]}
{"id": "C19", "title": "Branch and tag names survive saving byte for byte", "statement": "For every branch or tag name (any byte string a user can pass), the name after Save and Load is the same name, and two different names stay different.", "quantifier": "all byte strings", "why_tests_cant": "invalid UTF-8 names", "anchors": ["pkg/spaces/default.go:Save", "pkg/spaces/default.go:Load"]}
{"id": "C20", "title": "A torn tree file is always detected", "statement": "Every strict prefix of the bytes Save writes is rejected by Load with an error; a partially written file is never silently loaded as a smaller tree.", "quantifier": "all trees, all truncation points", "why_tests_cant": "every prefix of every possible file", "anchors": ["pkg/spaces/default.go:Save", "pkg/spaces/default.go:Load"]}
{"id": "C21", "title": "Branch full names parse back to the branch", "statement": "ParseBranchFullName(b.FullName()) gives the same kind (local/global), workspace ID and name for every branch whose name contains no line feed; names with a line feed are rejected; no string parses as two different branches, and a local and a global branch never share a full name.", "quantifier": "all workspace IDs and names", "why_tests_cant": "all strings", "anchors": ["pkg/workspaces/branch.go:ParseBranchFullName", "pkg/workspaces/branch.go:FullName"]}
{"id": "C22", "title": "A created branch shows up in the listing", "statement": "After AddBranch(name) succeeds, LocalBranches and AllBranches contain a branch with that name and head.", "quantifier": "all names, trees and iteration orders", "why_tests_cant": "names with line feeds", "anchors": ["pkg/workspaces/workspace.go:AddBranch", "pkg/workspaces/workspace.go:LocalBranches", "pkg/workspaces/workspace.go:AllBranches"]}
{"id": "C23", "title": "Workspaces cannot change each other's local branches", "statement": "Adding, deleting or advancing branches through one workspace never changes, creates or removes a local branch of a different workspace of the same space, and another workspace's local branches are not listed.", "quantifier": "all pairs of distinct workspace IDs, all names, all trees", "why_tests_cant": "all names including ones that contain slashes or look like full names", "anchors": ["pkg/workspaces/workspace.go:AddBranch", "pkg/workspaces/workspace.go:DeleteBranch", "pkg/workspaces/workspace.go:AllBranches", "pkg/workspaces/branch.go:FullName"]}
{"id": "C24", "title": "Branch and tag listings are complete, sorted and deterministic", "statement": "LocalBranches/RemoteBranches/AllBranches/Tags return exactly the matching entries once each, in byte-wise name order (local before global), independent of map iteration order.", "quantifier": "all trees and all iteration orders", "why_tests_cant": "random map order", "anchors": ["pkg/workspaces/workspace.go:AllBranches", "pkg/workspaces/workspace.go:LocalBranches", "pkg/workspaces/workspace.go:RemoteBranches", "pkg/workspaces/workspace.go:Tags"]}
{"id": "C25", "title": "Reference resolution in a workspace", "statement": "Workspace.Search resolves HEAD to the parent of the working layer, then commit IDs, tags and full branch names, then the workspace's own local branch, then origin/<name> as global branch <name>; in that order and nothing else.", "quantifier": "all trees, workspaces, references", "why_tests_cant": "all strings and states", "anchors": ["pkg/workspaces/workspace.go:Search", "pkg/workspaces/branch.go:ParseBranchLocalName"]}
{"id": "C26", "title": "History is exactly the chain of ancestors", "statement": "GetHistory(ref) terminates and returns the referenced commit and all its ancestors except the root, newest first, each exactly once, with its stored message; it errors iff the reference does not resolve.", "quantifier": "all trees of any depth, all references", "why_tests_cant": "unbounded depth", "anchors": ["pkg/workspaces/workspace.go:GetHistory", "pkg/workspaces/commit.go:GetCommitFromNode"]}
{"id": "C27", "title": "Without force, branch and tag creation never overwrites", "statement": "AddBranch/AddTag with force=false on an existing name fail and change neither the in-memory tree nor the saved file; with force they move exactly that name.", "quantifier": "all trees, names, refs, fault schedules", "why_tests_cant": "all states", "anchors": ["pkg/workspaces/workspace.go:AddBranch", "pkg/workspaces/workspace.go:AddTag"]}
{"id": "C28", "title": "The checked-out branch cannot be deleted", "statement": "DeleteBranch(name, false) with name equal to the workspace's current branch always fails and changes nothing; any other existing branch is removed and only it.", "quantifier": "all trees, names", "why_tests_cant": "all states", "anchors": ["pkg/workspaces/workspace.go:DeleteBranch"]}
{"id": "C29", "title": "The tag list hides only ROOT", "statement": "Tags() returns every tag name except ROOT, sorted, each once.", "quantifier": "all trees, iteration orders", "why_tests_cant": "random order, all names", "anchors": ["pkg/workspaces/workspace.go:Tags"]}
{"id": "C30", "title": "ROOT always names the initial commit", "statement": "After any sequence of workspace operations the reference ROOT resolves to the root commit of the space.", "quantifier": "all operation histories", "why_tests_cant": "unbounded histories", "anchors": ["pkg/spaces/default.go:Init", "pkg/workspaces/workspace.go:DeleteTag", "pkg/workspaces/workspace.go:AddTag"]}
{"id": "C31", "title": "Creating a layer never reuses an existing layer", "statement": "LayerManager.Create, for any generator output and any file-system failures, either fails or returns a layer whose directory did not exist before; it never alters another layer; Get succeeds iff the layer directory exists; List returns exactly the layers whose directories exist; Delete removes the directory of the layer with everything in it and nothing else, and never a layer in which something is mounted.", "quantifier": "all generator outputs, disk states and fault schedules", "why_tests_cant": "generator collisions and failures cannot be forced in tests", "anchors": ["pkg/layers/manager.go:Create", "pkg/layers/manager.go:Get", "pkg/layers/manager.go:List", "pkg/layers/manager.go:Delete"]}
{"id": "C32", "title": "A mount stacks exactly the commit's ancestors", "statement": "CreateMount(commit) gives an overlay whose lower directories are the diff directories of the commit and all its ancestors, nearest first, root last, and whose upper directory is a newly created layer that becomes a child of the commit.", "quantifier": "all trees of any depth, all commits", "why_tests_cant": "unbounded depth", "anchors": ["pkg/spaces/default.go:CreateMount", "pkg/mounts/mount.go:New"]}
{"id": "C33", "title": "Overlay mount options denote the intended directories", "statement": "The option string passed to mount(2) is parsed by the kernel back to exactly the intended lower, upper and work directories, for every data root.", "quantifier": "all data roots, all layer stacks", "why_tests_cant": "data roots with commas, colons or backslashes", "anchors": ["pkg/mounts/overlay_linux.go:CreateOverlayMount"]}
{"id": "C34", "title": "Any number of commits can be mounted", "statement": "For every history length the overlay of the newest commit can be mounted: the option string fits the one-page limit of mount(2).", "quantifier": "all history depths", "why_tests_cant": "fails only at a depth tests do not reach", "anchors": ["pkg/mounts/overlay_linux.go:CreateOverlayMount", "pkg/spaces/default.go:CreateMount"]}
{"id": "C35", "title": "init creates an empty space with one branch at the root", "statement": "After a successful CreateWorkspace(path, branch): the saved tree has a root tagged ROOT, one child that is the working layer, exactly one branch (the workspace's local branch `branch`) pointing at the root; history of HEAD is empty; nothing else in the data root changed.", "quantifier": "all data roots, branch names, generator outputs", "why_tests_cant": "all inputs", "anchors": ["pkg/manager/manager_default.go:CreateWorkspace", "pkg/spaces/default.go:Init"]}
{"id": "C36", "title": "A workspace can be reopened from its path", "statement": "After a successful CreateWorkspace/Clone/Commit/Checkout followed by Expand, GetWorkspaceFromPath(path) returns a workspace with the same ID, space, mount, working layer and branch.", "quantifier": "all data roots, paths, trees, IDs", "why_tests_cant": "all inputs, IDs random", "anchors": ["pkg/manager/manager_default.go:GetWorkspaceFromPath", "pkg/manager/manager_default.go:saveWorkspaceInfo", "pkg/manager/manager_default.go:loadWorkspaceInfo"]}
{"id": "C37", "title": "commit records exactly one new commit on the current branch", "statement": "A successful Commit(msg): the old working layer becomes a commit carrying msg and date, a new working layer is its only new child, the current branch (if any) points at the commit, every other node, branch and tag is unchanged; repeating it n times gives a history of exactly those n messages newest first.", "quantifier": "all trees, messages, any number of commits", "why_tests_cant": "unbounded histories", "anchors": ["pkg/manager/manager_default.go:Commit", "pkg/workspaces/commit.go:SetToNode"]}
{"id": "C38", "title": "When commit succeeds", "statement": "In absence of file-system failures Commit succeeds iff the workspace is detached or its current branch exists and its head is an ancestor of (or equal to) the working layer.", "quantifier": "all trees and workspaces", "why_tests_cant": "all states", "anchors": ["pkg/manager/manager_default.go:Commit", "pkg/spaces/trees/tree.go:UpdateBranch"]}
{"id": "C39", "title": "A freshly cloned workspace can commit", "statement": "After clone of a workspace that is on a branch, commit in the clone succeeds.", "quantifier": "all source workspaces", "why_tests_cant": "must hold for every clone", "anchors": ["pkg/manager/manager_default.go:Clone", "pkg/manager/manager_default.go:Commit"]}
{"id": "C40", "title": "After checking out a branch, commits advance that branch", "statement": "If Checkout(ref) resolved ref as a branch, then a following Commit succeeds and moves exactly that branch to the new commit.", "quantifier": "all references that resolve to branches (local name, full name, origin/ name)", "why_tests_cant": "all reference spellings", "anchors": ["pkg/manager/manager_default.go:Checkout", "pkg/manager/manager_default.go:Commit", "pkg/workspaces/workspace.go:Search"]}
{"id": "C41", "title": "commit and clone preserve visible file content", "statement": "The files visible in the workspace right after a successful commit are exactly those visible right before; the files visible in a fresh clone/checkout are exactly those of the commit it is based on.", "quantifier": "all layer contents, all trees, all files", "why_tests_cant": "all contents and depths", "anchors": ["pkg/manager/manager_default.go:Commit", "pkg/manager/manager_default.go:Checkout", "pkg/manager/manager_default.go:Clone", "pkg/spaces/default.go:CreateMount", "pkg/mounts/mount.go:New"]}
{"id": "C42", "title": "Committed content never changes", "statement": "The file content of a commit is the same after any further sequence of user writes in mounted workspaces and stackcrisp operations (as long as unmounts succeed and references name committed layers).", "quantifier": "all histories of writes and commands", "why_tests_cant": "unbounded interleavings", "anchors": ["pkg/manager/manager_default.go:Commit", "pkg/manager/manager_default.go:RemoveWorkspaceMount"]}
{"id": "C43", "title": "Every reference names immutable content", "statement": "Any commit reference accepted by checkout/tag/branch denotes content that later writes do not change.", "quantifier": "all references, all later writes", "why_tests_cant": "needs the interplay of two workspaces", "anchors": ["pkg/spaces/trees/tree.go:Search", "pkg/manager/manager_default.go:Checkout"]}
{"id": "C44", "title": "A failed unmount does not destroy data", "statement": "If unmounting the old mount fails during commit/checkout, the content of every commit is still intact.", "quantifier": "all failures of umount", "why_tests_cant": "failure injection in the kernel", "anchors": ["pkg/manager/manager_default.go:RemoveWorkspaceMount"]}
{"id": "C45", "title": "Every command is atomic on the saved tree, up to a detectably torn file", "statement": "For every fault or crash schedule, after any command the saved tree of any space loads as exactly the old tree or exactly the new tree, or loading reports an error; it never loads as something else, and other spaces are untouched.", "quantifier": "all fault and crash schedules, all commands", "why_tests_cant": "all crash points", "anchors": ["pkg/spaces/default.go:Save", "pkg/manager/manager_default.go:Commit", "pkg/manager/manager_default.go:Checkout", "pkg/manager/manager_default.go:Clone", "pkg/workspaces/workspace.go:AddBranch"]}
{"id": "C46", "title": "A crash or full disk never loses the history", "statement": "For every crash point or write failure, the space can still be loaded afterwards.", "quantifier": "all fault schedules", "why_tests_cant": "crash inside a write", "anchors": ["pkg/spaces/default.go:Save"]}
{"id": "C47", "title": "The workspace path is usable at every crash point", "statement": "If commit/checkout is interrupted at any point, the workspace path still leads to a mounted workspace (old or new).", "quantifier": "all crash points", "why_tests_cant": "crash between two system calls", "anchors": ["pkg/workspaces/workspace.go:Expand"]}
{"id": "C48", "title": "Commits made concurrently from two workspaces of a space both survive", "statement": "If two processes commit in two workspaces of the same space, whatever the interleaving, both commits are in the saved tree afterwards.", "quantifier": "all interleavings of two processes", "why_tests_cant": "schedules", "anchors": ["pkg/manager/manager_default.go:GetWorkspaceFromPath", "pkg/manager/manager_default.go:Commit", "pkg/spaces/default.go:Save"]}
{"id": "C49", "title": "Removing an old mount removes nothing else", "statement": "RemoveWorkspaceMount with a successful unmount removes exactly the mount's directory and its .workspace file; layers, spaces, other mounts and user files stay.", "quantifier": "all disk states", "why_tests_cant": "all states", "anchors": ["pkg/manager/manager_default.go:RemoveWorkspaceMount"]}
{"id": "C50", "title": "Prepare reports success only when the manager is usable", "statement": "If Prepare returns nil then the four data directories exist and the layer manager is set.", "quantifier": "all sequences of Prepare calls and faults", "why_tests_cant": "failure then retry", "anchors": ["pkg/manager/manager_default.go:Prepare"]}
{"id": "C51", "title": "init and clone never delete existing user files", "statement": "init and clone on a target path that holds a file or a non-empty directory fail without removing it.", "quantifier": "all target path states", "why_tests_cant": "all states", "anchors": ["pkg/commands/init.go", "pkg/commands/clone.go", "pkg/workspaces/workspace.go:Expand"]}
{"id": "C52", "title": "log never crashes", "statement": "stackcrisp log on any resolvable revision prints and returns without panic.", "quantifier": "all trees and revisions", "why_tests_cant": "only nodes without commit date trigger it", "anchors": ["pkg/commands/log.go", "pkg/workspaces/commit.go:GetCommitFromNode"]}
{"id": "C53", "title": "A second interrupt terminates the process", "statement": "After a first SIGINT/SIGTERM cancelled the context, the next one exits the process with status 128+n.", "quantifier": "all schedules of signals and goroutine steps", "why_tests_cant": "scheduling dependent", "anchors": ["pkg/utils/context/signal.go:Notify"]}
{"id": "C54", "title": "Status errors survive wrapping", "statement": "FromError returns the outermost Status found in an error chain however deeply wrapped, and otherwise an InternalError status carrying the error text.", "quantifier": "all error chains", "why_tests_cant": "unbounded chains", "anchors": ["pkg/utils/errors/error.go:FromError"]}
{"id": "C55", "title": "Tree methods never deadlock", "statement": "Any number of goroutines calling any Tree methods on one tree never reach a state where an unfinished call can make no step forever.", "quantifier": "all numbers of goroutines, all schedules", "why_tests_cant": "schedules", "anchors": ["pkg/spaces/trees/tree.go:nodesLock", "pkg/spaces/trees/tree.go:branchesLock", "pkg/spaces/trees/tree.go:tagsLock"]}
{"id": "C56", "title": "Concurrent tree calls behave as if executed one at a time", "statement": "Every concurrent execution of Tree calls gives results explainable by a sequential order of the calls.", "quantifier": "all goroutines and schedules", "why_tests_cant": "schedules", "anchors": ["pkg/spaces/trees/tree.go"]}
{"id": "C57", "title": "Re-execution under sudo passes the caller's identity", "statement": "The re-executed command parses the appended --uid/--gid as options, so that files are owned by the calling user, for every argument vector that parsed in the first process.", "quantifier": "all argument vectors", "why_tests_cant": "argument vectors containing --", "anchors": ["pkg/utils/sudo/sudo.go:RunAsRoot", "pkg/utils/cmd/cmd_util.go:sudoExtraArgs"]}
{"id": "C58", "title": "branch --show-current prints nothing when detached", "statement": "In detached state branch --show-current prints nothing; on a branch it prints exactly the branch name.", "quantifier": "all workspaces", "why_tests_cant": "all states", "anchors": ["pkg/commands/branch.go", "pkg/commands/options/branch.go"]}
{"id": "C59", "title": "branch and tag commands act on HEAD by default and stop at the first failing deletion", "statement": "branch/tag dispatch: list, show-current, delete, create with default reference HEAD; deleting several names deletes exactly the prefix before the first failing one.", "quantifier": "all option and argument combinations", "why_tests_cant": "all argument lists", "anchors": ["pkg/commands/branch.go", "pkg/commands/tag.go"]}
{"id": "C60", "title": "Commit dates survive storage", "statement": "The date shown for a commit is the commit time to the second with its zone offset: every field of the text has the right number at its place, and the weekday is right.", "quantifier": "all times in years 0-9999", "why_tests_cant": "all times", "anchors": ["pkg/workspaces/commit.go:SetToNode", "pkg/workspaces/commit.go:GetCommitFromNode", "pkg/commands/log.go"]}
{"id": "C61", "title": "log prints exactly the commits below the named one", "statement": "If the workspace opens and the revision resolves, log prints for each commit from the named one down to but excluding the root exactly one entry: its ID, the names of all and only the branches and tags that point to it, its date, and its message indented and without surrounding space. It writes no file and makes no mount.", "quantifier": "all machines, workspaces, revisions and map orders", "why_tests_cant": "all histories, all sets of branch and tag names", "anchors": ["pkg/commands/log.go", "pkg/workspaces/commit.go:GetCommitFromNode", "pkg/workspaces/workspace.go"]}
{"id": "C62", "title": "Several -m options make one message of several paragraphs", "statement": "commit with several -m options records all given messages, joined as separate paragraphs (as the option's help says); with one -m the message is recorded byte for byte, whatever it contains, also through the re-execution under sudo.", "quantifier": "all lists of messages, all byte strings, all callers", "why_tests_cant": "all byte strings, including ones that look like options", "anchors": ["pkg/commands/options/commit.go:AddPFlags", "pkg/commands/commit.go", "pkg/utils/sudo/sudo.go:RunAsRoot"]}
{"id": "C63", "title": "The command that runs is the one on the command line", "statement": "For every command name and arguments not beginning with '-', exactly the command asked for runs with these arguments byte for byte, for root at once and for an ordinary user through sudo (log at once), with the caller's identity; a wrong number of arguments is an error and nothing runs.", "quantifier": "all commands, all argument lists, all callers", "why_tests_cant": "all argument lists, arguments equal to command names", "anchors": ["pkg/commands/stackcrisp.go", "pkg/commands/init.go", "pkg/commands/clone.go", "pkg/commands/checkout.go", "pkg/commands/log.go", "pkg/utils/cmd/cmd_util.go:SwitchToRootIfNecessary"]}
{"id": "C64", "title": "A branch that can be created can be checked out by name", "statement": "For every branch name that init accepts there is an argument vector with which the same user checks out the branch by its name.", "quantifier": "all branch names, all argument vectors", "why_tests_cant": "the absence of a suitable argument vector is a statement about all of them", "anchors": ["pkg/commands/checkout.go", "pkg/commands/options/init.go", "pkg/utils/cmd/cmd_util.go:sudoExtraArgs"]}
{"id": "C65", "title": "All forms of an option mean the same", "statement": "For the options with a text value, '--name v', '--name=v', '-c v', '-c=v' and '-cv' give the same command with the same options and arguments, for every value (the one-argument short forms need a value that is not empty, the last also one that does not begin with '='), whatever follows; options without values may be written in one group.", "quantifier": "all such options of all commands, all values, all remaining arguments", "why_tests_cant": "all values, including ones that look like options or contain '='", "anchors": ["pkg/commands/options/commit.go:AddPFlags", "pkg/commands/options/init.go:AddPFlags", "pkg/commands/options/global.go:AddPFlags", "pkg/commands/options/branch.go", "pkg/commands/options/tag.go"]}
{"id": "C66", "title": "Nothing runs with invalid options or without the needed rights", "statement": "A command only runs with verbosity 0, 1 or 2; every command but log and the bare program runs as root or not at all; an option the command does not have is an error in every form, and neither the command nor sudo runs.", "quantifier": "all argument vectors, all callers", "why_tests_cant": "all argument vectors", "anchors": ["pkg/commands/options/global.go:Validate", "pkg/commands/stackcrisp.go", "pkg/utils/cmd/cmd_util.go:SwitchToRootIfNecessary"]}
{"id": "C67", "title": "On a machine in working order the commands succeed exactly when they should", "statement": "If the data root is prepared, no system call fails, the random IDs are new, the layers fit in the mount options and the process runs in the workspace: init succeeds in an empty directory or where nothing is; commit succeeds iff the workspace is detached or its branch is an ancestor of its working layer; checkout succeeds iff the name resolves; clone succeeds from every workspace to an empty directory, to where nothing is, or over a link. Afterwards the machine is again in working order, the workspace is at its path with its record, mount and saved tree, its old mount is gone, and all other workspaces are where they were.", "quantifier": "all worlds in working order, all oracles without faults, all paths, names and messages", "why_tests_cant": "every machine state and every outcome of the random and time oracles", "anchors": ["pkg/manager/manager_default.go:CreateWorkspace", "pkg/manager/manager_default.go:Commit", "pkg/manager/manager_default.go:Checkout", "pkg/manager/manager_default.go:Clone", "pkg/commands"]}
{"id": "C68", "title": "Workspaces never block each other's commits", "statement": "Any number of workspaces with different IDs, of one space or several, commit in any order, one after the other, with any changes by users in between; every commit succeeds while the layers fit in the mount options, and all workspaces can commit again.", "quantifier": "all sets of workspaces, all sequences of commits, all users' changes between them", "why_tests_cant": "all interleavings of any length", "anchors": ["pkg/manager/manager_default.go:Commit", "pkg/spaces/space.go:Save"]}
{"id": "C69", "title": "A sequence of commits is the history", "statement": "After init and commits with messages m1 ... mn, each in a process of its own, the history of the workspace is the commits with messages mn ... m1 and then the root, older commits are unchanged, and the branch is at the newest commit.", "quantifier": "all messages, all n that fit, all users' changes in between, all oracles without faults", "why_tests_cant": "induction over any number of processes", "anchors": ["pkg/manager/manager_default.go:Commit", "pkg/manager/manager_default.go:CreateWorkspace", "pkg/commands/commit.go"]}
{"id": "C70", "title": "Options mean what they say", "statement": "For every command, with text options (--chdir, --data-root, --initial-branch, --message), switches (of branch and tag) and arguments in any order, exactly the command meant runs: the last value of each text option, each switch on iff given, the remaining words as arguments, the data root and directory given; directly as root, else through sudo with the user's identity. Together with C65 this covers all forms of writing them.", "quantifier": "all commands, all lists of options and arguments, all values, all users", "why_tests_cant": "all orders and repetitions of options with arbitrary values", "anchors": ["pkg/commands/options/global.go", "pkg/commands/options/branch.go", "pkg/commands/options/tag.go", "pkg/commands/options/init.go", "pkg/commands/options/commit.go", "pkg/commands/branch.go", "pkg/commands/tag.go"]}
{"id": "C71", "title": "What was committed comes back", "statement": "After a successful commit in a mounted workspace of a machine reached by its commands, whatever commands and users do then, also with faults and torn files: in every workspace of the space in working order, checkout of the commit's hash, or of any name that resolves to it, succeeds and shows exactly the files seen at the commit.", "quantifier": "all histories before and after the commit, all files, all workspaces of the space, all names", "why_tests_cant": "all later histories and all file trees", "anchors": ["pkg/manager/manager_default.go:Commit", "pkg/manager/manager_default.go:Checkout", "pkg/spaces/space.go:Save", "pkg/layers/manager.go", "pkg/mounts/overlay.go"]}
{"id": "C72", "title": "Any number of rounds of work and commit", "statement": "From init on a machine in working order, any number of rounds of arbitrary changes to the files and a commit succeed while the layers fit in the mount options; the history is the commits with their messages, and each of them can be had back, with exactly the files seen when it was made.", "quantifier": "all numbers of rounds that fit, all changes, all messages, all oracles without faults", "why_tests_cant": "induction over any number of rounds", "anchors": ["pkg/manager/manager_default.go:CreateWorkspace", "pkg/manager/manager_default.go:Commit", "pkg/manager/manager_default.go:Checkout", "pkg/commands/commit.go"]}
{"id": "C73", "title": "checkout keeps uncommitted changes", "statement": "A checkout that succeeds keeps the files changed since the last commit, or they can be had back.", "quantifier": "all workspaces, all changes, all names", "why_tests_cant": "all file trees and later histories", "anchors": ["pkg/manager/manager_default.go:Checkout", "pkg/workspaces/workspace.go:Expand"]}
{"id": "C74", "title": "Workspaces belong to the caller", "statement": "After a successful init, clone, commit or checkout the link to the workspace and the root of the mounted overlay belong to the user and group that called the program (for root their owner is left as it is). Nothing else changes hands: whatever the command and however it ends, it gives away only the link it has made itself, as a link, and the root of its new mount, only to that user and group.", "quantifier": "all commands, all command lines, all users and groups, all machines, all faults", "why_tests_cant": "needs root and several users; every fault and every machine state", "anchors": ["pkg/mounts/mount_linux.go:Mount", "pkg/mounts/mount.go:CreateSymlink", "pkg/manager/manager_default.go:createMount", "pkg/commands/options/global.go", "pkg/utils/cmd/cmd_util.go"]}
{"id": "C75", "title": "branch, tag and log succeed exactly when they should", "statement": "In a workspace on a machine in working order, where no call fails: branch NAME REF succeeds exactly if REF means a commit and the workspace has no branch NAME or --force is given; then the tree gains that branch and nothing else. tag likewise. log succeeds exactly if the name means a commit and every commit it shows has a date. Listing changes nothing. Deletion removes the names up to the first that cannot be deleted. In every case only the tree file of the space changes, and every workspace of the machine is still in working order.", "quantifier": "all options, names and references, all machines in working order, all trees, all workspaces", "why_tests_cant": "all trees, names and machine states; both directions of the condition", "anchors": ["pkg/commands/branch.go", "pkg/commands/tag.go", "pkg/commands/log.go", "pkg/manager/manager_default.go:GetWorkspaceFromPath", "pkg/workspaces/branch.go", "pkg/spaces/default.go:Save"]}
{"id": "C76", "title": "Names never get in the way of commits", "statement": "People commit and use branch, tag and log in any number of workspaces, in any order and however those commands end, and change their files in between; every commit succeeds.", "quantifier": "all numbers of workspaces, all sequences of commands, all changes by users", "why_tests_cant": "unbounded sequences of commands over unbounded many workspaces", "anchors": ["pkg/manager/manager_default.go:Commit", "pkg/workspaces/commit.go", "pkg/commands/branch.go", "pkg/commands/tag.go", "pkg/spaces/trees"]}
{"id": "C77", "title": "A data root stays in working order, whatever fails", "statement": "Processes may be killed or fail at any call, also while they make the data root, users may change files and mounts may be lost: the data root never gets into a state in which Prepare or init could not succeed. No command changes what lies directly in the data root, whatever is mounted in it is mounted on a directory, and a process in which nothing fails that runs init in a free place succeeds.", "quantifier": "all histories of processes, faults, kills, changes by users and lost mounts, from a disk without a data root or with one in working order", "why_tests_cant": "every interleaving of faults over unbounded histories", "anchors": ["pkg/manager/manager_default.go:Prepare", "pkg/manager/manager_default.go:CreateWorkspace", "pkg/workspaces/workspace.go:Expand", "pkg/utils/cmd/cmd_util.go:InjectManagerIfNecessary", "pkg/commands/stackcrisp.go"]}
{"id": "C78", "title": "A refused command leaves nothing behind", "statement": "A command that is refused, because of its arguments or the state of the workspace and not because a system call failed, changes neither files nor mounts. (False: checkout of a name that means nothing changes nothing, and branch, tag and log leave all workspaces with their trees; but a refused commit leaves an empty layer and an empty mount directory, and clone or init to a place where no link can be put leave a mounted stack, a record of a workspace that is nowhere, and a longer tree or a new space.)", "quantifier": "all data roots in working order, workspaces, trees, names and target paths, with no fault", "why_tests_cant": "every tree, every reason to refuse, and all of the file system must be compared", "anchors": ["pkg/manager/manager_default.go:Clone", "pkg/manager/manager_default.go:CreateWorkspace", "pkg/workspaces/workspace.go:Expand", "pkg/manager/manager_default.go:Commit", "pkg/commands/clone.go", "pkg/commands/init.go"]}
{"id": "C79", "title": "init and clone never take the place of a workspace", "statement": "init and clone are refused at a path where there is a workspace. (False for clone, always: it removes the link to the other workspace, whose mount and record stay but can no longer be reached by that path. For init it holds if the workspace shows some file; where it shows none init takes the place, and the history is out of reach.)", "quantifier": "all data roots in working order with a workspace at the target", "why_tests_cant": "all contents of the workspace at the target and all trees", "anchors": ["pkg/commands/init.go", "pkg/commands/clone.go", "pkg/workspaces/workspace.go:Expand", "pkg/utils/fs/stat.go:IsEmptyDir"]}
{"id": "C80", "title": "The program is a version control system", "statement": "There is a version control system of a page, workspaces by path and a tree of layers per space, and each of the seven commands does to it what its description says: its result, success or refusal, in workspaces and elsewhere, is that of the description, and so is what becomes of every workspace and every tree. This goes on for any number of commands in any number of processes, from any data root in working order, whatever users change in between except the links that are workspaces, and however often the computer is restarted. No command moves another workspace than the one at its target, and no layer is lost.", "quantifier": "all sequences of commands and users' changes, all data roots in working order, without faults and with new random IDs", "why_tests_cant": "unboundedly many sequences of commands in unboundedly many workspaces", "anchors": ["pkg/commands/init.go", "pkg/commands/clone.go", "pkg/commands/commit.go", "pkg/commands/checkout.go", "pkg/commands/branch.go", "pkg/commands/tag.go", "pkg/commands/log.go", "pkg/manager/manager_default.go:CreateWorkspace", "pkg/manager/manager_default.go:GetWorkspaceFromPath", "pkg/manager/manager_default.go:Clone", "pkg/manager/manager_default.go:Commit", "pkg/manager/manager_default.go:Checkout", "pkg/workspaces/workspace.go:Expand"]}
{"id": "C81", "title": "What workspaces show follows the version control system", "statement": "Each workspace that is mounted shows the layers of the history of its working layer, upper ones first; workspaces are mounted until the computer is restarted, and again by commit and checkout. After any command, whether it succeeds or is refused, every workspace that it did not move is still mounted if it was and shows exactly the files it showed. After commit the workspace shows what it showed before, after checkout it shows what was stored in the commit named, a clone shows what was stored in the last commit of its source, and a new space is empty. No two workspaces ever work on the same layer, commit and checkout leave the layer they worked on, and a layer that no workspace works on is never worked on again and never changes.", "quantifier": "all sequences of commands and users' changes in workspaces and outside the data root, all data roots in working order, without faults and with new random IDs", "why_tests_cant": "all contents of all layers after unboundedly many commands in unboundedly many workspaces", "anchors": ["pkg/commands/init.go", "pkg/commands/clone.go", "pkg/commands/commit.go", "pkg/commands/checkout.go", "pkg/manager/manager_default.go:createMount", "pkg/manager/manager_default.go:CreateWorkspace", "pkg/manager/manager_default.go:Clone", "pkg/manager/manager_default.go:Commit", "pkg/manager/manager_default.go:Checkout", "pkg/workspaces/workspace.go:Expand"]}
{"id": "C82", "title": "Command lines do what the version control system says", "statement": "A process started by any user in any directory with any valid command line, options and arguments in any order, run through sudo if the user is not root, does exactly the step of the version control system that its command means, in the directory that --chdir names or else its own, and the workspaces then show what C81 says. This holds from a machine on which the program has never run, on which the data root does not exist yet, and for any number of processes one after another, with users' changes and restarts of the computer in between. The exit status is 0 exactly if the command succeeded. A line that names a directory that is not there, and an invalid line, fail and change nothing.", "quantifier": "all users, all command lines, all sequences of processes and users' changes, all data roots and machines without faults and with new random IDs", "why_tests_cant": "unboundedly many command lines and sequences of them, on all machines", "anchors": ["cmd/stackcrisp/main.go:main", "pkg/commands/stackcrisp.go", "pkg/utils/cmd/cmd_util.go", "pkg/utils/sudo/sudo.go", "pkg/commands/options/global.go", "pkg/manager/manager_default.go:Prepare"]}
{"id": "C83", "title": "What commands print follows the version control system", "statement": "What a command prints is determined by the version control system that C80 describes. branch prints the names of the branches of the workspace without line feeds, each once and in order; since all branches belong to workspaces, with --remotes it prints nothing and with --all no more. --show-current prints the branch of the workspace. tag prints all tags but ROOT in order. log prints one entry for each commit from the named one down to the root, and stops in a panic at the first without a date. All other commands print nothing, whatever fails, and so do these when they are refused.", "quantifier": "all sequences of processes and users' changes from a machine without a data root on; for the commands that print nothing all machines and all faults", "why_tests_cant": "all trees with all names and histories, after unboundedly many commands", "anchors": ["pkg/commands/branch.go", "pkg/commands/tag.go", "pkg/commands/log.go", "pkg/workspaces/workspace.go:LocalBranches", "pkg/workspaces/workspace.go:RemoteBranches", "pkg/workspaces/workspace.go:AllBranches", "pkg/workspaces/workspace.go:Tags"]}
{"id": "C84", "title": "A command that fails or is killed harms at most its own workspace", "statement": "Whatever fails and wherever a process is killed, the machine still models a version control system afterwards: the old one, or the one in which the first so many of the command's operations were performed. At most one workspace is lost, that at the path where clone, commit or checkout show their result, and only if the operation was performed; the workspaces of a space are lost together if its file was written only in part. Other spaces and all other workspaces are as before and mounted if they were, no layer is lost or moves in its tree, and no layer's files change but those of the working layer a commit or checkout is about. In a session in which any commands fail or are killed, every command that meets no fault still does exactly its step.", "quantifier": "all sequences of commands and users' changes, all faults and kills at any call, all workspaces and spaces", "why_tests_cant": "faults and kills at every call of every command, in sessions of any length, and everything that must not change", "anchors": ["pkg/manager/manager_default.go:Commit", "pkg/manager/manager_default.go:Checkout", "pkg/manager/manager_default.go:Clone", "pkg/workspaces/workspace.go:Expand", "pkg/manager/manager_default.go:RemoveWorkspaceMount", "pkg/spaces/default.go:Save"]}
{"id": "C85", "title": "Command lines that fail or are killed at any time", "statement": "C84 holds for whole processes, from a machine on which the program has never run: whatever fails and wherever a process with a valid command line is killed, also while it changes directory or prepares its data root, the machine holds the old version control system or what C84 allows, and an incomplete data root is completed by the next process. In a session of processes of any users, with restarts of the computer in between, any of which may fail or be killed, each one that meets no fault does its step, prints its lines and leaves the files as C82 and C83 say.", "quantifier": "all users, all valid command lines, all sequences of processes and users' changes, all faults and kills at any call", "why_tests_cant": "kills and faults at every call of every process in sessions of any length", "anchors": ["cmd/stackcrisp/main.go:main", "pkg/commands/stackcrisp.go", "pkg/utils/cmd/cmd_util.go", "pkg/manager/manager_default.go:Prepare", "pkg/manager/manager_default.go:doPrepare"]}
{"id": "C86", "title": "A restart of the computer loses nothing", "statement": "When the computer is restarted all mounts are gone, but the machine still holds the same workspaces, histories and layers. Every command run afterwards, in a workspace or elsewhere, has the result and the effect it should have according to the version control system, and changes no layer. commit, checkout and clone mount the workspace they start, and it shows what was stored before the restart. A workspace that may commit can be brought back by a commit with everything that was in it, also what was never committed.", "quantifier": "all machines, workspaces, commands and restarts, without faults and with new random IDs", "why_tests_cant": "a restart at any point of unboundedly many sessions, and all contents of all layers", "anchors": ["pkg/manager/manager_default.go:GetWorkspaceFromPath", "pkg/manager/manager_default.go:Commit", "pkg/manager/manager_default.go:Checkout", "pkg/manager/manager_default.go:RemoveWorkspaceMount", "pkg/mounts/mount_linux.go:Umount", "pkg/workspaces/workspace.go:Expand"]}
{"id": "C87", "title": "Workspaces are there whenever commands work in them", "statement": "If a command succeeds in a workspace, the workspace is mounted afterwards and shows its files, and what is written to a workspace at any time is kept by commit.", "quantifier": "all commands, workspaces and machines, also after a restart", "why_tests_cant": "needs a restart of the machine between commands", "anchors": ["pkg/manager/manager_default.go:GetWorkspaceFromPath", "pkg/manager/manager_default.go:Commit", "pkg/manager/manager_default.go:Checkout", "pkg/manager/manager_default.go:RemoveWorkspaceMount", "pkg/mounts/mount_linux.go:Umount", "pkg/workspaces/workspace.go:Expand"]}
{"id": "C88", "title": "Edits in a workspace act on what it shows", "statement": "A user who writes a file, makes a directory or a symbolic link, removes something, or renames a file or link in a mounted workspace succeeds exactly if this is possible in the tree of files that the workspace shows, and afterwards the workspace shows that tree with this one change and no other. Only the working layer of the workspace changes, so no commit and no other workspace does. This holds whatever the layers below contain.", "quantifier": "all machines, workspaces, layers and edits", "why_tests_cant": "all contents of all layers of stacks of any height, with whiteouts and opaque directories", "anchors": ["pkg/mounts/overlay_linux.go:CreateOverlayMount", "pkg/mounts/mount_linux.go:Mount", "pkg/workspaces/workspace.go:Expand"]}
{"id": "C89", "title": "The program is version control of whole trees of files", "statement": "Give every layer a snapshot: the tree of files that a workspace on it shows. Then commands and edits, in any order and in new processes, act like a version control system on snapshots: init starts a workspace on an empty snapshot; commit, checkout and clone start one on a copy of the snapshot of the old working layer, of the commit named, and of the last commit of the source; no command changes the snapshot of any layer that was on the disk; an edit succeeds exactly if the workspace is mounted and it is possible in the snapshot it works on, and changes that snapshot only. Snapshots of layers that no workspace works on never change again. Checkout must not name the working layer of another workspace (C43); names of commits that something is based on, like HEAD, never do.", "quantifier": "all sequences of commands and edits, also ones that fail, with restarts of the computer in between", "why_tests_cant": "all histories, all trees of files, all edits in between", "anchors": ["pkg/commands/init.go", "pkg/commands/clone.go", "pkg/commands/commit.go", "pkg/commands/checkout.go", "pkg/manager/manager_default.go:CreateWorkspace", "pkg/manager/manager_default.go:Clone", "pkg/manager/manager_default.go:Commit", "pkg/manager/manager_default.go:Checkout", "pkg/spaces/default.go:CreateLayer", "pkg/spaces/default.go:CreateMount", "pkg/workspaces/workspace.go:Expand"]}
{"id": "C90", "title": "A process that waits while others work in other spaces runs as if it had started after them", "statement": "A process (commit, checkout, branch, tag or log) loads its workspace and then waits while any number of other processes run commands in other spaces and users change files. When it goes on, what it does is exactly what a process does that starts when the others are done: the same result, the same output, the same files and mounts. So the commands of all of them act as version control one after the other, and nothing is lost. In the same space this is false (C48).", "quantifier": "all machines, all workspaces, all commands of the waiting process, all sequences of commands in other spaces and of users' changes meanwhile", "why_tests_cant": "a test meets one interleaving of two processes; the claim is about all machines and all that others may do", "anchors": ["pkg/manager/manager_default.go:GetWorkspaceFromPath", "pkg/spaces/default.go:Load", "pkg/spaces/default.go:Save", "pkg/commands/commit.go", "pkg/commands/checkout.go", "pkg/commands/branch.go", "pkg/commands/tag.go", "pkg/commands/log.go"]}
{"id": "C91", "title": "Commands work in a workspace only at its link, not in its subdirectories", "statement": "Started at the link of a workspace, commit, checkout, branch, tag and log do what they should when paths are resolved as the kernel does it, through links and into mounts. Started in a subdirectory that is reached through the link, every command fails and changes nothing. Started in a subdirectory by its physical path in the mounts directory, branch, tag and log do exactly what they do at the mount point. Commit there is harmful: in an empty subdirectory it replaces the subdirectory by a link in the layer just committed, fails, and leaves the link of the workspace dangling.", "quantifier": "all machines in working order, all workspaces, all directories they show, all commands, all faults", "why_tests_cant": "a test meets one directory in one workspace; the claims are about all of them, with any call failing", "anchors": ["pkg/manager/manager_default.go:GetWorkspaceFromPath", "pkg/manager/manager_default.go:RemoveWorkspaceMount", "pkg/workspaces/workspace.go:Expand", "pkg/commands/branch.go", "pkg/commands/tag.go", "pkg/commands/log.go", "pkg/commands/commit.go"]}
{"id": "C92", "title": "Numbers in options are read exactly", "statement": "A value of --uid, --gid or --verbose that is the text of a whole number as Go writes it (decimal, or with the prefix 0, 0b, 0o or 0x, with a sign for --uid and --gid) is read as that number if it fits, and refused if it does not fit in 64 bits (32 bits without sign for --verbose). Nothing else is read as a number, but that single underscores may be put between digits, and between a prefix and a digit. An option that is not given leaves the owner unchanged. In particular --uid=-1 is -1, which leaves the owner of the link unchanged.", "quantifier": "all texts, all numbers", "why_tests_cant": "infinitely many texts; tests would try a few near the limits", "anchors": ["pkg/commands/options/global.go:AddPFlags"]}
{"id": "C93", "title": "Processes that overlap and work in different spaces act one after the other", "statement": "Any number of processes overlap: each loads its workspace, and goes on at some later time, in any order, while other processes start, go on and end, init and clone run, users change files and the computer is restarted. If no two processes that overlap work in the same space, every process that starts in a workspace loads it, every command acts as version control does on what is there when it goes on, and the machine stays in working order. So the outcome is that of the commands one after the other, in the order in which they went on.", "quantifier": "all machines, all numbers of processes, all schedules of loading and going on, all commands, all changes of users in between", "why_tests_cant": "the schedules of several processes are many and a test meets one; the claim is about all machines", "anchors": ["pkg/manager/manager_default.go:GetWorkspaceFromPath", "pkg/spaces/default.go:Load", "pkg/spaces/default.go:Save", "pkg/commands/commit.go", "pkg/commands/checkout.go", "pkg/commands/branch.go", "pkg/commands/tag.go", "pkg/commands/log.go"]}
{"id": "C94", "title": "Paths lead where the kernel says, and so does the option -C", "statement": "The paths that users give are followed as path_resolution(7) says, through links and into mounts: a path leads to a place exactly if the rules say so with at most 40 links; that place has no links in its path and leads to itself; of several mounts the one that is innermost and newest counts. os.Getwd gives a path that leads to the working directory. With -C the program goes on exactly as a process that is started in a shell which has changed to that path, and stops without changes if the path leads to no directory. If the text after -C has no \"..\", it leads where the kernel says that the text leads from the working directory; with \"..\" after a link it may lead elsewhere.", "quantifier": "all machines with any links and mounts, all paths, all working directories", "why_tests_cant": "arrangements of links and mounts are unlimited; tests try a few", "anchors": ["pkg/utils/cmd/cmd_util.go:ChangeWorkingDirectory", "pkg/manager/manager_default.go:GetWorkspaceFromPath"]}
{"id": "C95", "title": "Init and clone work at plain places when paths are followed as the kernel does", "statement": "If the target of init or clone is a place in an ordinary directory (in no mount, with no links above it) at which there is nothing, a file, a directory, or a link to an ordinary directory, then init and clone, with every path of the user followed through links and mounts by the rules of the kernel, do exactly what the simpler model says in which only the last component of a path is followed: the same result, error, output and machine, whatever call fails. They may be started in any ordinary directory, at the link of any workspace, or in the target itself. So all that is proved of them in the simpler model holds.", "quantifier": "all machines in order with any number of spaces, workspaces and mounts, all plain targets, all working directories, all faults", "why_tests_cant": "arrangements of links, mounts and working directories are unlimited, and faults can strike at any call", "anchors": ["pkg/commands/init.go:NewInitCommandWithOptions", "pkg/commands/clone.go:NewCloneCommandWithOptions", "pkg/utils/fs/stat.go:IsEmptyDir", "pkg/workspaces/workspace.go:Expand"]}
{"id": "C96", "title": "Paths given by the user are cleaned as filepath.Clean is documented", "statement": "A path text in a directory means exactly the path to which the documented rules of filepath.Clean lead (several slashes count as one, \".\" is dropped, \"..\" is dropped along with the name before it, \"..\" at the root is dropped), in whatever order they are applied; a text is split at its slashes and nowhere else. Texts that begin with a slash count from the root, others from the working directory. The working directory is $PWD if that leads there, and else its physical path. None of this changes anything.", "quantifier": "all texts, all directories, all machines", "why_tests_cant": "texts are unlimited, and the rules may be applied in many orders", "anchors": ["pkg/commands/init.go:NewInitCommandWithOptions", "pkg/manager/manager_default.go:GetWorkspaceFromPath", "pkg/utils/cmd/cmd_util.go:ChangeWorkingDirectory"]}
{"id": "C97", "title": "init and clone work at the place where a path through a link leads, and refuse a mount point", "statement": "If the path given to init or clone goes through a link, the command works at the place where the path leads: it looks there, puts the link of the new workspace there and gives that link to the user, whatever call fails. Nothing is done at the path as written. On success that place and the given path both lead to the new mount, and the record of the workspace names the path as given. If something else is mounted at the target, even an empty directory, init and clone never succeed; the directory and everything mounted stay.", "quantifier": "all machines in order, all working directories that are directories or links to them, all paths with a link on the way, all mount points outside the data root, all failing calls and crashes", "why_tests_cant": "links, targets and failures can be combined in any way, and making links and mounts needs root", "anchors": ["pkg/commands/init.go:NewInitCommandWithOptions", "pkg/commands/clone.go:NewCloneCommandWithOptions", "pkg/workspaces/workspace.go:Expand"]}
{"id": "C98", "title": "By the kernel's rules for paths, too, the program is a version control system of whole trees of files", "statement": "When paths are followed through links and into mounts as the kernel does, every command has the result and the effect on disk, mounts and output that the simpler rules give, whatever fails, provided that nothing is mounted above the paths it uses; mounts of the program itself never are. So in any session of commands, edits of users, changes outside the data root and restarts, each command does to workspaces, commit trees and snapshots of files what a version control system should, and layers no workspace works on keep their snapshots.", "quantifier": "all sessions of any length, all data roots in working order, all workspaces and directories without mounts above them", "why_tests_cant": "sessions are unlimited, and how a path is resolved depends on every link and mount that earlier commands made", "anchors": ["pkg/manager/manager_default.go:GetWorkspaceFromPath", "pkg/workspaces/workspace.go:Expand", "pkg/manager/manager_default.go:RemoveWorkspaceMount", "pkg/commands/commit.go:NewCommitCommandWithOptions"]}
{"id": "C99", "title": "Command lines do what a version control system does by the kernel's rules for paths", "statement": "When the option --chdir and the paths that the command uses are followed through links and into mounts as the kernel does, a process with any valid command line, of any user, on a machine that may not yet have a data root, has the result, the effect on disk and mounts and the output that the simpler rules give, whatever fails in it and wherever it is killed. So if nothing fails, each of any number of processes changes workspaces and commit trees as a version control system should, leaves the files of other layers alone and prints what it should; in every case no more is lost than C85 says. Nothing may be mounted above the paths it uses.", "quantifier": "all valid command lines, all users and groups, all sessions of any length, from any machine without a data root or with one in working order", "why_tests_cant": "command lines and sessions are unlimited, and how a path is resolved depends on every link and mount that earlier processes made", "anchors": ["pkg/commands/stackcrisp.go:NewStackCrispCommandWithOptions", "pkg/utils/cmd/cmd_util.go:ChangeWorkingDirectory", "pkg/manager/manager_default.go:Prepare"]}
{"id": "C100", "title": "init sees what is in its target, through links and inside mounts", "statement": "Listing a directory gives exactly the names at which something is there, in a mount those that it shows. So if no call fails, init counts a target as an empty directory exactly if its path leads to a directory in which nothing is, and whatever fails it counts nothing else as one. If its path leads to a file, or to a directory in which something is, init is refused and changes nothing, wherever the path leads: through links, and into workspaces too.", "quantifier": "all worlds, paths, mounts and directories of the process", "why_tests_cant": "what a directory shows depends on all layers of the mount it is in, and on every link on the way", "anchors": ["pkg/utils/fs/stat.go:IsEmptyDir", "pkg/commands/init.go:NewInitCommandWithOptions"]}
{"id": "C101", "title": "a path that leads to no workspace is refused, and nothing changes", "statement": "Let the path at which a command looks for its workspace (the source for clone, the working directory for the others but init) be neither in the data root nor above it, and let the same hold of the text of a link there, if there is one. Then the command fails, and disk, mounts, output and owners stay as they are, whatever calls fail and wherever the links on the way lead. A directory inside a workspace, named through the link of the workspace, is such a path, so there the commands work only at the top.", "quantifier": "all worlds, paths, commands, flags, directories of the process and patterns of failing calls", "why_tests_cant": "it is about every place of every disk that is not a workspace, and about each call failing on the way", "anchors": ["pkg/manager/manager_default.go:GetWorkspaceFromPath", "pkg/commands/clone.go:NewCloneCommandWithOptions"]}
