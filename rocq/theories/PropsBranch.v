(** * PropsBranch: creating, moving and deleting branches and tags (C22, C23, C27, C28, C30) *)
From Verif Require Import Base Uid SpecUid UidProofs Tree SpecTree TreeRefine TreeObs Dump DumpProofs Save SaveProofs Branch BranchProofs Date Ws SpecWs WsProofs
  Fs Overlay Os Layers Mounts Space Manager Commands Sample FsProofs OsProofs LayerProofs MountProofs SpaceProofs ManagerProofs SpecWorld SpecOps SavedProofs FaultProofs ReadyProofs OpProofs SampleProofs.
From Coq Require Import Lia.
From stdpp Require Import prelude gmap.

(** ** C27 *)
(** Without force, an existing name: an error, and the machine and the process are exactly as before. *)
Theorem C27_branch_kept : ∀ x name ref o w a hid, fair o → opened w x a hid →
  is_Some (a_branches a !! (uid_b32 (ws_id x) ++ B "/" ++ name)) →
  ∃ r, ws_add_branch x name ref false o w = (r, w) ∧ failed r.
Proof.
  intros x name ref o w a hid F [R G] [h Hh]. destruct (ws_add_branch x name ref false o w) as [r w'] eqn:E.
  exists r. apply (ws_add_branch_any _ _ _ _ _ _ _ _ a hid) in E as [[-> Fr]|(id & t' & _ & _ & [?|N] & _)]; try done.
  unfold local_full in N. congruence.
Qed.
Theorem C27_tag_kept : ∀ x name ref o w a hid, fair o → opened w x a hid → is_Some (a_tags a !! name) →
  ∃ r, ws_add_tag x name ref false o w = (r, w) ∧ failed r.
Proof.
  intros x name ref o w a hid F [R G] [h Hh]. destruct (ws_add_tag x name ref false o w) as [r w'] eqn:E.
  exists r. apply (ws_add_tag_any _ _ _ _ _ _ _ _ a hid) in E as [[-> Fr]|(id & t' & _ & _ & [?|N] & _)]; try done. congruence.
Qed.
(** After success exactly that name is new or moved, in memory and in the saved tree; it points where the
    reference pointed; of the files only the tree of the space differs. *)
Theorem C27_branch_moves : ∀ x name ref force o w w' u a hid, fair o → opened w x a hid →
  ws_add_branch x name ref force o w = (Ok u, w') →
  let fn := uid_b32 (ws_id x) ++ B "/" ++ name in
  ∃ id, found_id (resolve a (ws_id x) hid ref) = Some id ∧ has a id ∧ (force = true ∨ a_branches a !! fn = None) ∧
    let a' := ATree (a_nodes a) (<[fn := id]> (a_branches a)) (a_tags a) in
    opened w' x a' hid ∧ holds (w_fs w') (ws_space x) (san_tree a') ∧
    same_but [tree_file (ws_space x)] (w_fs w) (w_fs w') ∧ w_mounts w' = w_mounts w ∧ same_proc w w'.
Proof.
  intros x name ref force o w w' u a hid F [R G] E fn.
  apply (ws_add_branch_any _ _ _ _ _ _ _ _ a hid) in E as [[_ Fr]|(id & t' & Hf & Hi & Hx & R' & (_ & Sg & _) & S)]; try done; [by destruct (Fr u)|].
  exists id. split; [done|]. split; [done|]. split; [done|].
  pose proof (save_step_same _ _ _ _ _ _ S) as (Sb & Sm & St & Sp). destruct u. apply save_step_ok in S as [Hh _].
  cbv zeta. split; [|done]. split; [by rewrite St|]. rewrite St. cbn [w_tree set_tree]. by rewrite Sg.
Qed.
Theorem C27_tag_moves : ∀ x name ref force o w w' u a hid, fair o → opened w x a hid →
  ws_add_tag x name ref force o w = (Ok u, w') →
  ∃ id, found_id (resolve a (ws_id x) hid ref) = Some id ∧ has a id ∧ (force = true ∨ a_tags a !! name = None) ∧
    let a' := ATree (a_nodes a) (a_branches a) (<[name := id]> (a_tags a)) in
    opened w' x a' hid ∧ holds (w_fs w') (ws_space x) (san_tree a') ∧
    same_but [tree_file (ws_space x)] (w_fs w) (w_fs w') ∧ w_mounts w' = w_mounts w ∧ same_proc w w'.
Proof.
  intros x name ref force o w w' u a hid F [R G] E.
  apply (ws_add_tag_any _ _ _ _ _ _ _ _ a hid) in E as [[_ Fr]|(id & t' & Hf & Hi & Hx & R' & (_ & Sg & _) & S)]; try done; [by destruct (Fr u)|].
  exists id. split; [done|]. split; [done|]. split; [done|].
  pose proof (save_step_same _ _ _ _ _ _ S) as (Sb & Sm & St & Sp). destruct u. apply save_step_ok in S as [Hh _].
  cbv zeta. split; [|done]. split; [by rewrite St|]. rewrite St. cbn [w_tree set_tree]. by rewrite Sg.
Qed.
(** When nothing fails, creation succeeds iff the reference names a commit and the name is free or forced. *)
Lemma space_save_calm sp o w a : fair o → repr (w_tree w) a → ch_fault (o (S (w_tick w))) = Fs.FNone → can_write (w_fs w) (tree_file sp) →
  ∃ w', space_save sp o w = (Ok tt, w').
Proof.
  intros F R Ff C. unfold space_save. rewrite bind_next, bind_gets. cbn [w_tree tick].
  destruct (save_load (w_tree w) a (ch_dump (o (w_tick w))) id id R (proj1 (F (w_tick w))) ltac:(done) ltac:(done)) as (raw & t' & E & _).
  rewrite E. unfold bind, lift, os_write_file, sys. cbn [w_tick tick]. rewrite Ff. cbn [w_fs tick]. unfold write_in.
  destruct C as [[y ->]|[-> ->]]; eauto.
Qed.
Theorem C27_branch_succeeds : ∀ x name ref force o w a hid, fair o → opened w x a hid → decode_b32 ref ≠ Panic →
  ch_fault (o (S (w_tick w))) = Fs.FNone → can_write (w_fs w) (tree_file (ws_space x)) →
  (∃ w', ws_add_branch x name ref force o w = (Ok tt, w')) ↔
  is_Some (found_id (resolve a (ws_id x) hid ref)) ∧ (force = true ∨ a_branches a !! (uid_b32 (ws_id x) ++ B "/" ++ name) = None).
Proof.
  intros x name ref force o w a hid F [R G] NP Ff C. split.
  - intros [w' E]. apply (C27_branch_moves _ _ _ _ _ _ _ _ a hid F (conj R G)) in E as (id & -> & _ & H & _). eauto.
  - intros [[id Hid] Hf]. unfold ws_add_branch. unfold bind at 1, search_ws at 1. rewrite bind_gets. unfold lift.
    destruct (ws_search_correct (w_tree w) a (ws_id x) hid (ws_head x) ref R G (or_intror NP)) as (f & E & Fo). rewrite E.
    destruct f as [[[l|] ty]|]; cbn in Fo; try (injection Fo as Fo; rewrite <-Fo in Hid; done).
    rewrite bind_gets. rewrite decide_False.
    2:{ intros [[h Hh] ->]. destruct Hf as [|Hf]; [done|]. unfold get_by_branch in Hh. rewrite (r_br _ _ R) in Hh.
        change (full_name _) with (uid_b32 (ws_id x) ++ B "/" ++ name) in Hh. by rewrite Hf in Hh. }
    destruct (ws_search_resolve _ _ _ _ _ _ _ _ R G E) as (i & Gi & Ni & Hi & Rs).
    unfold bind at 1, id_of. rewrite bind_gets. cbn [mbind option_bind]. rewrite Ni. cbn [ret].
    destruct (add_branch_effect (w_tree w) a (full_name (local_branch (ws_id x) name)) i R) as [[N _]|(_ & t' & Ea & _)]; [done|].
    unfold bind, tree_do. rewrite Ea. pose proof (add_branch_repr _ _ _ _ _ R Ea) as (_ & R' & _).
    by apply (space_save_calm _ _ (set_tree w t') _ F R').
Qed.
Print Assumptions C27_branch_kept.
Print Assumptions C27_tag_kept.
Print Assumptions C27_branch_moves.
Print Assumptions C27_tag_moves.
Print Assumptions C27_branch_succeeds.

(** ** C28 *)
Theorem C28_current_kept : ∀ x o w, ws_delete_branch x (ws_branch x) false o w = (Err ECheckedOut, w).
Proof. intros x o w. unfold ws_delete_branch. by rewrite decide_True. Qed.
(** Any other name: an error that changes nothing when it does not exist; otherwise only it is removed. *)
Theorem C28_missing : ∀ x name global o w a, repr (w_tree w) a → global = true ∨ name ≠ ws_branch x →
  a_branches a !! (if global : bool then B "global/" ++ name else uid_b32 (ws_id x) ++ B "/" ++ name) = None →
  ws_delete_branch x name global o w = (Err EBranchNotFound, w).
Proof.
  intros x name global o w a R H N. unfold ws_delete_branch. rewrite decide_False by (intros [-> ->]; by destruct H).
  assert (full_name (if global then global_branch name else local_branch (ws_id x) name) =
    (if global then B "global/" ++ name else uid_b32 (ws_id x) ++ B "/" ++ name)) as -> by (by destruct global).
  set (fn := if global then _ else _) in *. rewrite bind_gets. destruct (delete_branch_repr (w_tree w) a fn R) as (_ & Hb & _).
  destruct (delete_branch (w_tree w) fn).2 eqn:E; [|done]. destruct Hb as [Hb _]. destruct (Hb eq_refl). congruence.
Qed.
Theorem C28_other_removed : ∀ x name global o w w' u a hid, fair o → opened w x a hid →
  ws_delete_branch x name global o w = (Ok u, w') →
  let fn := if global : bool then B "global/" ++ name else uid_b32 (ws_id x) ++ B "/" ++ name in
  (global = true ∨ name ≠ ws_branch x) ∧ is_Some (a_branches a !! fn) ∧
  let a' := ATree (a_nodes a) (delete fn (a_branches a)) (a_tags a) in
  opened w' x a' hid ∧ holds (w_fs w') (ws_space x) (san_tree a') ∧
  same_but [tree_file (ws_space x)] (w_fs w) (w_fs w') ∧ w_mounts w' = w_mounts w ∧ same_proc w w'.
Proof.
  intros x name global o w w' u a hid F [R G] E fn.
  apply (ws_delete_branch_any _ _ _ _ _ _ _ a) in E as [(_ & ? & _)|(H & [(_ & ? & _)|(Hs & t' & R' & (_ & Sg & _) & S)])]; try done.
  change (branch_full x name global) with fn in *. split; [done|]. split; [done|].
  pose proof (save_step_same _ _ _ _ _ _ S) as (Sb & Sm & St & Sp). destruct u. apply save_step_ok in S as [Hh _].
  cbv zeta. split; [|done]. split; [by rewrite St|]. rewrite St. cbn [w_tree set_tree]. by rewrite Sg.
Qed.
Theorem C28_other_succeeds : ∀ x name global o w a hid, fair o → opened w x a hid →
  ch_fault (o (S (w_tick w))) = Fs.FNone → can_write (w_fs w) (tree_file (ws_space x)) → global = true ∨ name ≠ ws_branch x →
  is_Some (a_branches a !! (if global : bool then B "global/" ++ name else uid_b32 (ws_id x) ++ B "/" ++ name)) →
  ∃ w', ws_delete_branch x name global o w = (Ok tt, w').
Proof.
  intros x name global o w a hid F [R G] Ff C H Hs. unfold ws_delete_branch. rewrite decide_False by (intros [-> ->]; by destruct H).
  assert (full_name (if global then global_branch name else local_branch (ws_id x) name) =
    (if global then B "global/" ++ name else uid_b32 (ws_id x) ++ B "/" ++ name)) as -> by (by destruct global).
  set (fn := if global then _ else _) in *. rewrite bind_gets. destruct (delete_branch_repr (w_tree w) a fn R) as (R' & Hb & _).
  destruct (delete_branch (w_tree w) fn) as [t' b] eqn:E. cbn [snd fst] in *. destruct Hb as [_ Hb]. rewrite (Hb Hs).
  rewrite bind_modify, E. by apply (space_save_calm _ _ (set_tree w t') _ F R').
Qed.
Print Assumptions C28_current_kept.
Print Assumptions C28_missing.
Print Assumptions C28_other_removed.
Print Assumptions C28_other_succeeds.

(** Deleting a tag: the same, for every tag. *)
Theorem C28_tag_removed : ∀ x name o w w' u a hid, fair o → opened w x a hid →
  ws_delete_tag x name o w = (Ok u, w') →
  is_Some (a_tags a !! name) ∧
  let a' := ATree (a_nodes a) (a_branches a) (delete name (a_tags a)) in
  opened w' x a' hid ∧ holds (w_fs w') (ws_space x) (san_tree a') ∧
  same_but [tree_file (ws_space x)] (w_fs w) (w_fs w') ∧ w_mounts w' = w_mounts w ∧ same_proc w w'.
Proof.
  intros x name o w w' u a hid F [R G] E.
  apply (ws_delete_tag_any _ _ _ _ _ _ a) in E as [(_ & ? & _)|(Hs & t' & R' & (_ & Sg & _) & S)]; try done.
  split; [done|].
  pose proof (save_step_same _ _ _ _ _ _ S) as (Sb & Sm & St & Sp). destruct u. apply save_step_ok in S as [Hh _].
  cbv zeta. split; [|done]. split; [by rewrite St|]. rewrite St. cbn [w_tree set_tree]. by rewrite Sg.
Qed.
Print Assumptions C28_tag_removed.

(** A concrete machine: workspace just created on branch main, with tag ROOT. Creating main again without
    force fails, creating dev succeeds, deleting main fails, deleting tag ROOT succeeds. *)
Example C27_C28_sat : ∃ x w a hid, fair calm ∧ ready sample_dr w x a hid ∧ opened w x a hid ∧
  can_write (w_fs w) (tree_file (ws_space x)) ∧ ch_fault (calm (S (w_tick w))) = Fs.FNone ∧
  is_Some (a_branches a !! (uid_b32 (ws_id x) ++ B "/" ++ B "main")) ∧ is_Some (a_tags a !! B "ROOT") ∧
  a_branches a !! (uid_b32 (ws_id x) ++ B "/" ++ B "dev") = None ∧
  is_Some (found_id (resolve a (ws_id x) hid (B "HEAD"))) ∧ ws_branch x = B "main".
Proof.
  destruct sample_ready as (x & w & rid & id & _ & N & Rd & Hb & _). exists x, w, (init_tree rid id (ws_id x) (B "main")), id.
  split; [apply fair_calm|]. split; [done|]. split; [apply Rd|]. split; [exact (ready_write _ _ _ _ _ Rd)|]. split; [done|].
  assert (∀ k, a_branches (init_tree rid id (ws_id x) (B "main")) !! k = if decide (k = uid_b32 (ws_id x) ++ B "/" ++ B "main") then Some rid else None) as Eb.
  { intros k. unfold init_tree. cbn [a_branches move_branch put_branches new_child put_node root_tree put_tags empty_atree].
    case_decide as E; [by rewrite E, lookup_insert|]. rewrite lookup_insert_ne by congruence. apply lookup_empty. }
  split; [rewrite Eb, decide_True by done; eauto|].
  split; [by exists rid|]. split.
  - rewrite Eb, decide_False; [done|]. intros E. apply app_inv_head in E. discriminate.
  - split; [|done]. unfold resolve. rewrite decide_True by done.
    unfold init_tree. cbn [a_nodes move_branch put_branches new_child put_node]. rewrite lookup_insert. cbn. eauto.
Qed.
Example C27_C28_runs :
  let outcome (f : ws → M unit) := match sample_create calm sample_world with (Ok x, w) => (f x calm w).1 | _ => Crash end in
  outcome (λ x, ws_add_branch x (B "main") (B "HEAD") false) = Err EBranchExists ∧
  outcome (λ x, ws_add_branch x (B "main") (B "HEAD") true) = Ok tt ∧
  outcome (λ x, ws_add_branch x (B "dev") (B "HEAD") false) = Ok tt ∧
  outcome (λ x, ws_add_tag x (B "ROOT") (B "HEAD") false) = Err ETagExists ∧
  outcome (λ x, ws_delete_branch x (B "main") false) = Err ECheckedOut ∧
  outcome (λ x, ws_delete_branch x (B "main") true) = Err EBranchNotFound ∧
  outcome (λ x, ws_add_branch x (B "dev") (B "HEAD") false ;;; ws_delete_branch x (B "dev") false) = Ok tt.
Proof. vm_compute. repeat split; reflexivity. Qed.

(** ** C22 *)
(** A new branch whose name has no line feed is listed, with its head, whatever the iteration order. *)
Theorem C22_listed_partial : ∀ x name ref force o w w' u a hid, fair o → opened w x a hid → LF ∉ name →
  ws_add_branch x name ref force o w = (Ok u, w') →
  ∃ id l, found_id (resolve a (ws_id x) hid ref) = Some id ∧ get (w_tree w') id = Some l ∧
    ∀ ord, is_order ord →
      HB (Br (Some (ws_id x)) name) l ∈ local_branches (w_tree w') ord (ws_id x) ∧
      HB (Br (Some (ws_id x)) name) l ∈ all_branches (w_tree w') ord (ws_id x).
Proof.
  intros x name ref force o w w' u a hid F Op L E.
  apply (C27_branch_moves _ _ _ _ _ _ _ _ a hid F Op) in E as (id & Hid & Hi & _ & [R' G'] & _).
  destruct (get_Some _ _ id R') as (l & an & n & Gl & _); [exact Hi|]. exists id, l. split; [done|]. split; [done|]. intros ord O.
  assert (get_by_branch (w_tree w') (full_name (Br (Some (ws_id x)) name)) = Some l) as Eb.
  { unfold get_by_branch. rewrite (r_br _ _ R'). change (full_name _) with (uid_b32 (ws_id x) ++ B "/" ++ name).
    cbn [a_branches]. rewrite lookup_insert. done. }
  split; [apply local_elem|apply all_elem]; try done; (split; [auto|]); eexists; (split; [exact Eb|by apply reads_full]).
Qed.
(** With a line feed in the name the branch is created and never listed. *)
Theorem C22_listed_refuted : ∀ x name ref force o w w' u a hid, fair o → opened w x a hid → LF ∈ name →
  ws_add_branch x name ref force o w = (Ok u, w') →
  is_Some (get_by_branch (w_tree w') (uid_b32 (ws_id x) ++ B "/" ++ name)) ∧
  ∀ ord l, is_order ord →
    HB (Br (Some (ws_id x)) name) l ∉ local_branches (w_tree w') ord (ws_id x) ∧
    HB (Br (Some (ws_id x)) name) l ∉ all_branches (w_tree w') ord (ws_id x).
Proof.
  intros x name ref force o w w' u a hid F Op L E.
  apply (C27_branch_moves _ _ _ _ _ _ _ _ a hid F Op) in E as (id & Hid & Hi & _ & [R' G'] & _). split.
  - destruct (get_Some _ _ id R') as (l & an & n & Gl & _); [exact Hi|]. exists l. unfold get_by_branch. rewrite (r_br _ _ R').
    cbn [a_branches]. by rewrite lookup_insert.
  - intros ord l O. assert (∀ k, ¬ reads_as k (Br (Some (ws_id x)) name)) as N.
    { intros k Hk. apply reads_inv in Hk as [(n' & _ & N' & [= ])|(p & v & n' & _ & _ & N' & [= _ ->])]. done. }
    split; [rewrite local_elem by done|rewrite all_elem by done]; intros (_ & k & _ & Hk); by apply (N k).
Qed.
Print Assumptions C22_listed_partial.
Print Assumptions C22_listed_refuted.
Example C22_runs :
  let listing (name : bytes) := match sample_create calm sample_world with
    | (Ok x, w) => match ws_add_branch x name (B "HEAD") false calm w with
                   | (Ok _, w') => Some (br_name ∘ hb_branch <$> local_branches (w_tree w') id (ws_id x)) | _ => None end
    | _ => None end in
  listing (B "dev") = Some [B "dev"; B "main"] ∧ listing (B "a" ++ [LF]) = Some [B "main"].
Proof. vm_compute. split; reflexivity. Qed.

(** ** C23 *)
(** Whatever an operation of workspace [x] leaves on disk, the local branches of every other workspace
    are as before: the saved tree is the old file, the sanitized form of a tree with exactly the same
    branches of the others, or unreadable. *)
Theorem C23_others_kept : ∀ dr x op o w r w' a hid, fair o → live dr w x a hid → run_op dr x op o w = (r, w') →
  fget (w_fs w') (tree_file (ws_space x)) = fget (w_fs w) (tree_file (ws_space x)) ∨
  holds_torn (w_fs w') (ws_space x) ∨
  ∃ a', repr (w_tree w') a' ∧ holds (w_fs w') (ws_space x) (san_tree a') ∧
    ∀ other n, other ≠ ws_id x → a_branches a' !! (uid_b32 other ++ B "/" ++ n) = a_branches a !! (uid_b32 other ++ B "/" ++ n).
Proof.
  intros dr x op o w r w' a hid F Rd E. apply (run_op_any _ _ _ _ _ _ _ a hid F Rd) in E as [_ [[D _]|(a' & Ho & R' & _ & [D|[D _]])]]; [by left| |by auto].
  right. right. exists a'. split; [done|]. split; [done|]. intros other n Ne. clear -Ho Ne.
  assert (∀ m, local_key (ws_id x) m ≠ uid_b32 other ++ B "/" ++ n) as N1.
  { intros m E. change (full_name (Br (Some (ws_id x)) m) = full_name (Br (Some other) n)) in E. apply full_name_inj in E. congruence. }
  assert (∀ m, global_key m ≠ uid_b32 other ++ B "/" ++ n) as N2.
  { intros m E. change (full_name (Br None m) = full_name (Br (Some other) n)) in E. apply full_name_inj in E. congruence. }
  destruct op; cbn [op_tree] in Ho.
  - destruct Ho as (id & _ & _ & ->). cbn. by rewrite lookup_insert_ne.
  - destruct Ho as (_ & _ & ->). destruct global; cbn [a_branches less_branch]; by rewrite lookup_delete_ne by auto.
  - by destruct Ho as (id & _ & _ & ->).
  - by destruct Ho as (_ & ->).
  - destruct Ho as (an & id & _ & _ & [[_ ->]|(_ & -> & _)]); [done|]. cbn. by rewrite lookup_insert_ne.
  - by destruct Ho as (c & id & _ & _ & ->).
  - by destruct Ho as (c & id & _ & _ & ->).
Qed.
(** The listings of a workspace show only its own and the global branches. *)
Theorem C23_others_not_listed : ∀ t ord w b l, is_order ord →
  HB b l ∈ local_branches t ord w ∨ HB b l ∈ remote_branches t ord ∨ HB b l ∈ all_branches t ord w →
  br_ws b = None ∨ br_ws b = Some w.
Proof.
  intros t ord w b l O [H|[H|H]]; [apply local_elem in H|apply remote_elem in H|apply all_elem in H]; try done; tauto.
Qed.
Print Assumptions C23_others_kept.
Print Assumptions C23_others_not_listed.
(** Two workspaces of one space: a clone creates a branch of the same name as the original's, and deletes
    it again; the original's is as before. *)
Example C23_runs :
  let saved (w : world) (sp : space) := match fget (w_fs w) (tree_file sp) with
    | Some (FFile raw) => match load_bytes id id raw with Ok t => Some t | _ => None end | _ => None end in
  let head (w : world) (sp : space) (i : uid) := saved w sp ≫= λ t, get_by_branch t (full_name (Br (Some i) (B "main"))) ≫= node_id t in
  match sample_create calm sample_world with
  | (Ok x, w) =>
      match (y <- clone_ws sample_dr x home ;; ws_add_branch y (B "main") (uid_hex (sample_id 0)) false ;;; ret y) calm w with
      | (Ok y, w1) => False
      | (Err ERefNotFound, w1) => True
      | _ => False
      end ∧
      match (y <- clone_ws sample_dr x home ;; ws_add_branch y (B "main") (B "ROOT") false ;;; ret y) calm w with
      | (Ok y, w1) => bool_decide (ws_id y = ws_id x) = false ∧ is_Some (head w1 (ws_space x) (ws_id y)) ∧
          head w1 (ws_space x) (ws_id x) = head w (ws_space x) (ws_id x) ∧ is_Some (head w (ws_space x) (ws_id x))
      | _ => False
      end
  | _ => False
  end.
Proof. vm_compute. repeat split; eauto. Qed.

(** ** C30 *)
(** While the tag is there, ROOT names it ... *)
Theorem C30_root_resolves_partial : ∀ a w hid r, a_tags a !! B "ROOT" = Some r → resolve a w hid (B "ROOT") = FTag r.
Proof.
  intros a w hid r E. unfold resolve. rewrite decide_False by done. unfold search_spec.
  assert (key_id (B "ROOT") = None) as -> by (vm_compute; reflexivity). by rewrite E.
Qed.
(** ... a new space has it at its root ... *)
Theorem C30_root_created_partial : ∀ dr p branch o w x w', fair o → fs_wf (w_fs w) → create_workspace dr p branch o w = (Ok x, w') →
  ∃ a r hid, ready dr w' x a hid ∧ is_root a r ∧ a_tags a !! B "ROOT" = Some r.
Proof.
  intros dr p branch o w x w' F W E. apply (create_ready _ _ _ _ _ _ _ F W) in E as (rid & id & N & Rd & _).
  eexists _, rid, id. split; [exact Rd|]. split; [|done].
  exists (ANode None ∅ ∅). split; [|done]. unfold init_tree. cbn [a_nodes move_branch put_branches new_child put_node root_tree put_tags].
  rewrite lookup_insert_ne by done. by rewrite lookup_insert.
Qed.
(** ... and every operation keeps it, and the root, except deleting or moving that tag. *)
Theorem C30_root_kept_partial : ∀ x hid op a a' r, op_tree x hid op a a' →
  op ≠ ODelTag (B "ROOT") → (∀ ref, op ≠ OAddTag (B "ROOT") ref true) →
  a_tags a !! B "ROOT" = Some r → is_root a r → a_tags a' !! B "ROOT" = Some r ∧ is_root a' r.
Proof.
  intros x hid op a a' r H N1 N2 T (n & En & Pn). destruct op as [m ref f|m g|m ref f|m|d m|key|p]; cbn [op_tree] in H.
  - destruct H as (id & _ & _ & ->). split; [done|]. by exists n.
  - destruct H as (_ & _ & ->). split; [done|]. by exists n.
  - destruct H as (id & _ & Hf & ->). split; [|by exists n]. cbn. destruct (decide (m = B "ROOT")) as [->|Nm].
    + destruct Hf as [->|Hf]; [by destruct (N2 ref)|congruence].
    + by rewrite lookup_insert_ne.
  - destruct H as (_ & ->). split; [|by exists n]. cbn. rewrite lookup_delete_ne; [done|]. intros ->. by apply N1.
  - destruct H as (an & id & Ea & Ni & H).
    assert (is_root (plus_node (plus_node a hid (committed an d m)) id (ANode (Some hid) ∅ ∅)) r) as Hr.
    { unfold is_root. cbn. destruct (decide (id = r)) as [->|Nr]; [congruence|]. rewrite lookup_insert_ne by done.
      destruct (decide (hid = r)) as [->|Nh]; [|rewrite lookup_insert_ne by done; by exists n]. rewrite lookup_insert.
      eexists. split; [done|]. cbn. congruence. }
    destruct H as [[_ ->]|(_ & -> & _)]; split; try done.
  - destruct H as (c & id & _ & Ni & ->). split; [done|]. exists n. cbn. rewrite lookup_insert_ne by congruence. done.
  - destruct H as (c & id & _ & Ni & ->). split; [done|]. exists n. cbn. rewrite lookup_insert_ne by congruence. done.
Qed.
(** Those two operations do succeed, on the sample machine: afterwards ROOT names nothing, or another commit. *)
Definition root_names (ops : list wsop) : option (option bool) :=
  match sample_create calm sample_world with
  | (Ok x, w) =>
      match foldl (λ s op, match s with (Ok y, v) => run_op sample_dr y op calm v | s => s end) (Ok x, w) ops with
      | (Ok y, v) =>
          match ws_search (w_tree v) (ws_id y) (ws_head y) (B "ROOT") with
          | Ok (Some (Some l, _)) => Some (Some (bool_decide (root (w_tree v) = Some l)))
          | Ok _ => Some None
          | _ => None
          end
      | _ => None
      end
  | _ => None
  end.
Theorem C30_root_always_refuted :
  root_names [ODelTag (B "ROOT")] = Some None ∧
  root_names [OCommit (Some (fmt_rfc3339 sample_time)) (B "m"); OAddTag (B "ROOT") (B "HEAD") true] = Some (Some false).
Proof. vm_compute. split; reflexivity. Qed.
Example C30_sat : root_names [OCommit (Some (fmt_rfc3339 sample_time)) (B "m"); OAddBranch (B "ROOT") (B "HEAD") false; OAddTag (B "v1") (B "HEAD") false;
    OCheckout (B "v1"); ODelBranch (B "ROOT") false; OClone home; ODelTag (B "v1")] = Some (Some true).
Proof. vm_compute. reflexivity. Qed.
Print Assumptions C30_root_resolves_partial.
Print Assumptions C30_root_created_partial.
Print Assumptions C30_root_kept_partial.
Print Assumptions C30_root_always_refuted.
