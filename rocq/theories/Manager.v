(** * Manager: model of pkg/manager/manager_default.go and of the parts of pkg/workspaces/workspace.go
    that change something. [dr] is the manager's data root, an absolute path. *)
From Verif Require Import Base Uid Tree Dump Save Branch Date Ws Fs Overlay Os Layers Mounts Space.

(** manager_default.go:24-28 *)
Definition layers_root (dr : path) : path := dr ++ [B "overlay"].
Definition spaces_root (dr : path) : path := dr ++ [B "spaces"].
Definition mounts_root (dr : path) : path := dr ++ [B "mounts"].
(** manager_default.go:426-429 and 444: the file of a mount *)
Definition ws_file (dr : path) (mid : uid) : path := mounts_root dr ++ [uid_b32 mid ++ B ".workspace"].
Definition mount_dir (dr : path) (mid : uid) : path := mounts_root dr ++ [uid_b32 mid].
Definition space_dir (dr : path) (sid : uid) : path := spaces_root dr ++ [uid_b32 sid].

(** workspace.go:38-45 [defaultWorkspace] *)
Record ws := WS {
  ws_id : uid; ws_path : path; ws_space : space; ws_mount : mountv; ws_head : loc; ws_branch : bytes }.
(** workspace.go:75-77 [Branch] *)
Definition ws_current (x : ws) : branch := local_branch (ws_id x) (ws_branch x).

(** ** Prepare *)
(** The fields of the manager that Prepare changes: the sync.Once and the layer manager *)
Record mstate := MState { ms_once : bool; ms_layers : option path }.
Definition ensure_dir_mk (p : path) : M unit :=
  d <- fs_is_dir p ;; if d : bool then ret tt else os_mkdir p.
(** manager_default.go:69-113 [doPrepare]; the state is returned whether it fails or not. *)
Definition do_prepare (dr : path) (s : mstate) : M (mstate * option err) :=
  r1 <- attempt (d <- fs_is_dir dr ;; if d : bool then ret tt else os_mkdir_all dr) ;;
  match r1 with
  | inr e => ret (s, Some e)
  | inl _ =>
      r2 <- attempt (ensure_dir_mk (layers_root dr)) ;;
      match r2 with
      | inr e => ret (s, Some e)
      | inl _ =>
          let s1 := MState (ms_once s) (match ms_layers s with None => Some (layers_root dr) | x => x end) in
          r3 <- attempt (ensure_dir_mk (spaces_root dr)) ;;
          match r3 with
          | inr e => ret (s1, Some e)
          | inl _ =>
              r4 <- attempt (ensure_dir_mk (mounts_root dr)) ;;
              match r4 with
              | inr e => ret (s1, Some e)
              | inl _ => ret (s1, None)
              end
          end
      end
  end.
(** manager_default.go:60-66 [Prepare]: sync.Once runs doPrepare at most once; later calls return nil. *)
Definition prepare (dr : path) (s : mstate) : M (mstate * option err) :=
  if ms_once s then ret (s, None)
  else se <- do_prepare dr s ;; ret (MState true (ms_layers se.1), se.2).

(** ** Helpers *)
(** manager_default.go:463-479 [createSpace] *)
Definition create_space (dr : path) : M space :=
  id <- new_random_uid ;;
  os_mkdir (space_dir dr id) ;;;
  space_init (layers_root dr) ;;;
  ret (Space id (space_dir dr id)).
(** manager_default.go:482-506 [createMount] *)
Definition create_mount (dr : path) (commit : uid) : M (mountv * loc) :=
  id <- new_random_uid ;;
  os_mkdir (mount_dir dr id) ;;;
  space_create_mount (layers_root dr) commit id (mount_dir dr id).
(** manager_default.go:415-422: what is recorded about a workspace *)
Definition ws_info (x : ws) (head : uid) : wsinfo :=
  WsInfo (uid_b32 (ws_id x)) (path_str (ws_path x)) (uid_hex head) (uid_b32 (sp_id (ws_space x)))
         (uid_b32 (mv_id (ws_mount x))) (ws_branch x).
(** A method called on a node: it panics on nil *)
Definition id_of (l : option loc) : M uid :=
  t <- gets w_tree ;;
  match l ≫= node_id t with Some id => ret id | None => panic end.
(** manager_default.go:411-438 [saveWorkspaceInfo] *)
Definition save_ws_info (dr : path) (x : ws) : M unit :=
  h <- id_of (Some (ws_head x)) ;;
  os_write_file (ws_file dr (mv_id (ws_mount x))) (marshal_wsinfo (ws_info x h)).
(** manager_default.go:440-460 [loadWorkspaceInfo] *)
Definition load_ws_info (dr : path) (mid : uid) : M wsinfo :=
  re <- os_read_file (ws_file dr mid) ;;
  match re.2 with
  | Some e => fail e
  | None => lift (opt_to_res EJson (unmarshal_wsinfo re.1))
  end.
Definition parent_of (l : loc) : M (option loc) := t <- gets w_tree ;; ret (node_parent t l).

(** ** Operations *)
(** manager_default.go:126-163 [CreateWorkspace] and workspace.go:219-228 [SetBranch]. The caller passes
    an absolute path. *)
Definition create_workspace (dr : path) (p : path) (branch : bytes) : M ws :=
  sp <- create_space dr ;;
  t <- gets w_tree ;;
  rid <- id_of (root t) ;;
  ml <- create_mount dr rid ;;
  wid <- new_random_uid ;;
  pl <- parent_of ml.2 ;;
  pid <- id_of pl ;;
  tree_do (λ t, add_branch t (full_name (local_branch wid branch)) pid) ;;;
  let x := WS wid p sp ml.1 ml.2 branch in
  space_save sp ;;;
  save_ws_info dr x ;;;
  ret x.

(** manager_default.go:166-245 [GetWorkspaceFromPath] *)
Definition get_workspace (dr : path) (arg : bytes) : M ws :=
  p <- fp_abs arg ;;
  link <- fs_is_symlink p ;;
  mp <- (if link : bool then s <- os_readlink p ;; fp_abs s else ret p) ;;
  mid <- lift (decode_b32 (rel_first (mounts_root dr) mp)) ;;
  wi <- load_ws_info dr mid ;;
  wid <- lift (decode_b32 (wi_id wi)) ;;
  sid <- lift (decode_b32 (wi_space wi)) ;;
  let sp := Space sid (pjoin (spaces_root dr) (wi_space wi)) in
  space_load sp ;;;
  let m := mounted_mount mid (pjoin (mounts_root dr) (wi_mount wi)) in
  hid <- lift (decode_hex (wi_head wi)) ;;
  t <- gets w_tree ;;
  match get t hid with
  | None => fail EHeadNotFound
  | Some h => ret (WS wid p sp m h (wi_branch wi))
  end.

(** manager_default.go:248-285 [RemoveWorkspaceMount] *)
Definition remove_mount (dr : path) (x : ws) : M unit :=
  pwd <- os_getwd ;;
  os_chdir [] ;;;
  attempt (mount_umount (ws_mount x)) ;;;
  os_remove_all (mount_dir dr (mv_id (ws_mount x))) ;;;
  r <- attempt (os_remove (ws_file dr (mv_id (ws_mount x)))) ;;
  match r with
  | inr e => if decide (e = ENOENT) then os_chdir pwd else fail e
  | inl _ => os_chdir pwd
  end.

(** manager_default.go:288-329 [Commit]. [date]: the annotation text of the commit time, [None] when the
    commit information carries no date. *)
Definition commit_ws (dr : path) (x : ws) (date : option bytes) (msg : bytes) : M ws :=
  modify (λ w, set_tree w (set_to_node (w_tree w) (ws_head x) date msg)) ;;;
  hid <- id_of (Some (ws_head x)) ;;
  ml <- create_mount dr hid ;;
  (if decide (br_name (ws_current x) = []) then ret tt
   else pl <- parent_of ml.2 ;;
        pid <- id_of pl ;;
        tree_do (λ t, update_branch t (full_name (ws_current x)) pid false)) ;;;
  let y := WS (ws_id x) (ws_path x) (ws_space x) ml.1 ml.2 (local_name (ws_current x)) in
  space_save (ws_space x) ;;;
  save_ws_info dr y ;;;
  ret y.

(** workspace.go:345-363 [Search] *)
Definition search_ws (x : ws) (ref : bytes) : M (option (option loc * key_type)) :=
  t <- gets w_tree ;;
  lift (ws_search t (ws_id x) (ws_head x) ref).

(** manager_default.go:332-372 [Checkout] *)
Definition checkout_ws (dr : path) (x : ws) (key : bytes) : M ws :=
  f <- search_ws x key ;;
  match f with
  | None => fail EKeyNotFound
  | Some (l, ty) =>
      let branch := match ty with KBranch => key | _ => [] end in
      nid <- id_of l ;;
      ml <- create_mount dr nid ;;
      let y := WS (ws_id x) (ws_path x) (ws_space x) ml.1 ml.2 branch in
      space_save (ws_space x) ;;;
      save_ws_info dr y ;;;
      ret y
  end.

(** manager_default.go:375-408 [Clone] *)
Definition clone_ws (dr : path) (x : ws) (target : path) : M ws :=
  pl <- parent_of (ws_head x) ;;
  pid <- id_of pl ;;
  ml <- create_mount dr pid ;;
  wid <- new_random_uid ;;
  let y := WS wid target (ws_space x) ml.1 ml.2 (local_name (ws_current x)) in
  space_save (ws_space x) ;;;
  save_ws_info dr y ;;;
  ret y.

(** workspace.go:80-118 [Expand] *)
Definition expand (x : ws) : M unit :=
  mount_mount (ws_mount x) ;;;
  pwd <- os_getwd ;;
  os_chdir [] ;;;
  e <- fs_is_exists (ws_path x) ;;
  (if e : bool then os_remove (ws_path x) else ret tt) ;;;
  create_symlink (ws_mount x) (ws_path x) ;;;
  os_chdir pwd.

(** workspace.go:231-255 [AddBranch]. A nil node (HEAD of a workspace whose working layer is the root)
    panics at node.ID(), after the check for an existing branch. *)
Definition ws_add_branch (x : ws) (name ref : bytes) (force : bool) : M unit :=
  f <- search_ws x ref ;;
  match f with
  | None => fail ERefNotFound
  | Some (l, _) =>
      t <- gets w_tree ;;
      let fn := full_name (local_branch (ws_id x) name) in
      if decide (is_Some (get_by_branch t fn) ∧ force = false) then fail EBranchExists
      else
        id <- id_of l ;;
        tree_do (λ t, add_branch t fn id) ;;;
        space_save (ws_space x)
  end.
(** workspace.go:258-282 [DeleteBranch] *)
Definition ws_delete_branch (x : ws) (name : bytes) (global : bool) : M unit :=
  if decide (global = false ∧ name = ws_branch x) then fail ECheckedOut
  else
    let fn := full_name (if global then global_branch name else local_branch (ws_id x) name) in
    t <- gets w_tree ;;
    if (delete_branch t fn).2 then
      modify (λ w, set_tree w (delete_branch (w_tree w) fn).1) ;;;
      space_save (ws_space x)
    else fail EBranchNotFound.
(** workspace.go:304-315 [DeleteTag] *)
Definition ws_delete_tag (x : ws) (name : bytes) : M unit :=
  t <- gets w_tree ;;
  if (delete_tag t name).2 then
    modify (λ w, set_tree w (delete_tag (w_tree w) name).1) ;;;
    space_save (ws_space x)
  else fail ETagNotFound.
(** workspace.go:318-340 [AddTag] *)
Definition ws_add_tag (x : ws) (name ref : bytes) (force : bool) : M unit :=
  f <- search_ws x ref ;;
  match f with
  | None => fail ERefNotFound
  | Some (l, _) =>
      t <- gets w_tree ;;
      if decide (is_Some (get_by_tag t name) ∧ force = false) then fail ETagExists
      else
        id <- id_of l ;;
        tree_do (λ t, add_tag t name id) ;;;
        space_save (ws_space x)
  end.
