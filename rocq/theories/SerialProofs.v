(** * SerialProofs: what a process does depends only on what it has read and on the choices still to come *)
From Verif Require Import Base Uid SpecUid UidProofs Tree SpecTree TreeRefine TreeObs Dump DumpProofs Json JsonProofs Save SaveProofs Branch BranchProofs Date DateProofs Ws SpecWs WsProofs
  Fs Overlay Os Layers Mounts Space Manager Commands Sample FsProofs OsProofs LayerProofs MountProofs SpaceProofs ManagerProofs SpecWorld SpecOps SavedProofs FaultProofs ReadyProofs OpProofs CalmProofs
  SpecMachine SpecCmds SpecTidy SpecLog MachineProofs OpenProofs CmdProofs DetProofs DatedProofs Story StoryProofs SpecUsable SpecNames UsableProofs UsableCmdProofs UsableSeqProofs SpecVcs VcsProofs HarmProofs UserProofs PropsRound SpecSerial.
From Coq Require Import Lia.
From stdpp Require Import prelude gmap.

(** ** Programs look only forward *)
Definition forward {A} (m : M A) : Prop := ∀ o w,
  w_tick w ≤ w_tick (m o w).2 ∧ ∀ o', (∀ n, w_tick w ≤ n → o' n = o n) → m o' w = m o w.
Lemma f_ret {A} (a : A) : forward (ret a). Proof. by intros o w. Qed.
Lemma f_fail {A} e : forward (fail (A := A) e). Proof. by intros o w. Qed.
Lemma f_panic {A} : forward (panic (A := A)). Proof. by intros o w. Qed.
Lemma f_lift {A} (r : res A) : forward (lift r). Proof. by intros o w. Qed.
Lemma f_gets {A} (f : world → A) : forward (gets f). Proof. by intros o w. Qed.
Lemma f_bind {A C} (m : M A) (f : A → M C) : forward m → (∀ a, forward (f a)) → forward (bind m f).
Proof.
  intros Hm Hf o w. destruct (Hm o w) as [T E]. unfold bind. split.
  - destruct (m o w) as [[a| | | |] w1] eqn:Q; cbn [snd] in *; try done. pose proof (proj1 (Hf a o w1)). lia.
  - intros o' Ho. rewrite (E o' Ho). destruct (m o w) as [[a| | | |] w1] eqn:Q; cbn [snd] in *; try done. apply (Hf a o w1). intros n Hn. apply Ho. lia.
Qed.
Lemma f_attempt {A} (m : M A) : forward m → forward (attempt m).
Proof. intros Hm o w. destruct (Hm o w) as [T E]. unfold attempt. split; [by destruct (m o w) as [[a| | | |] w1]|]. intros o' Ho. by rewrite (E o' Ho). Qed.
Lemma f_modify f : (∀ w, w_tick (f w) = w_tick w) → forward (modify f).
Proof. intros H o w. split; [cbn; by rewrite H|done]. Qed.
Lemma f_sys {A} (full : Fs.choice → world → res A * world) part :
  (∀ c w, w_tick (full c w).2 = w_tick w) → (∀ c n w, w_tick (part c n w) = w_tick w) → forward (sys full part).
Proof.
  intros H1 H2 o w. unfold sys. split; [|intros o' Ho; by rewrite Ho].
  destruct (ch_fault _) as [|e [|n]|[|n]]; cbn [snd]; rewrite ?H1, ?H2; cbn [tick w_tick]; lia.
Qed.
Lemma f_atomic {A} (full : Fs.choice → world → res A * world) : (∀ c w, w_tick (full c w).2 = w_tick w) → forward (sys_atomic full).
Proof.
  intros H1 o w. unfold sys_atomic. split; [|intros o' Ho; by rewrite Ho].
  destruct (ch_fault _) as [|e n|[|n]]; cbn [snd]; rewrite ?H1; cbn [tick w_tick]; lia.
Qed.
Lemma f_look {A} (f : world → res A) : forward (look f). Proof. by apply f_atomic. Qed.
Lemma f_next {A} (f : Fs.choice → A) : forward (next_choice f).
Proof. intros o w. unfold next_choice. split; [cbn; lia|]. intros o' Ho. by rewrite Ho. Qed.
Ltac ticks := intros; cbv beta; repeat (case_match; try reflexivity); reflexivity.
Lemma f_mkdir p : forward (os_mkdir p). Proof. apply f_atomic. ticks. Qed.
Lemma f_mkdir_all p : forward (os_mkdir_all p). Proof. apply f_sys; ticks. Qed.
Lemma f_read_file p : forward (os_read_file p).
Proof. intros o w. unfold os_read_file. split; [|intros o' Ho; by rewrite Ho]. cbv zeta. repeat case_match; cbn [snd tick w_tick]; lia. Qed.
Lemma f_write_file p d : forward (os_write_file p d). Proof. apply f_sys; ticks. Qed.
Lemma f_remove p : forward (os_remove p). Proof. apply f_atomic. ticks. Qed.
Lemma f_remove_all p : forward (os_remove_all p). Proof. by apply f_sys. Qed.
Lemma f_symlink s p : forward (os_symlink s p). Proof. apply f_atomic. ticks. Qed.
Lemma f_chown p : forward (os_chown p). Proof. apply f_atomic. ticks. Qed.
Lemma f_lchown p : forward (os_lchown p). Proof. apply f_atomic. ticks. Qed.
Lemma f_chdir p : forward (os_chdir p). Proof. apply f_atomic. ticks. Qed.
Lemma f_mount p d : forward (sys_mount p d). Proof. apply f_atomic. ticks. Qed.
Lemma f_umount p : forward (sys_umount p). Proof. apply f_atomic. ticks. Qed.
Lemma f_tree_do f : forward (tree_do f).
Proof. intros o w. unfold tree_do. split; [by destruct (f (w_tree w))|done]. Qed.
Lemma f_make_node id : forward (make_node id).
Proof. intros o w. unfold make_node. by destruct (alloc_node _ _). Qed.
Create HintDb fwd.
#[global] Hint Resolve f_ret f_fail f_panic f_lift f_gets f_look f_next f_mkdir f_mkdir_all f_read_file f_write_file f_remove f_remove_all f_symlink f_chown f_lchown f_chdir f_mount f_umount
  f_tree_do f_make_node : fwd.
Ltac fw := repeat first
  [ progress (eauto with fwd nocore)
  | apply f_bind; [|intros ?]
  | apply f_attempt
  | apply f_modify; reflexivity
  | case_match ].
Ltac fwd d := unfold d; cbv beta zeta; fw.
Lemma f_for_each {A} (l : list A) f : (∀ a, forward (f a)) → forward (for_each l f).
Proof. intros H. induction l as [|a l IH]; cbn [for_each]; [apply f_ret|]. apply f_bind; [apply H|by intros _]. Qed.
Lemma f_exists p : forward (fs_is_exists p). Proof. fwd fs_is_exists. Qed.
Lemma f_is_dir p : forward (fs_is_dir p). Proof. fwd fs_is_dir. Qed.
#[global] Hint Resolve f_for_each f_exists f_is_dir : fwd.
Lemma f_print l : forward (print_all l).
Proof. induction l as [|s l IH]; cbn [print_all]; unfold println; fw. Qed.
Lemma f_collect f : ∀ r c, forward (collect_layers f r c).
Proof. induction f as [|f IH]; intros r [c|]; cbn [collect_layers]; unfold layer_get; fw. Qed.
#[global] Hint Resolve f_print f_collect : fwd.
Lemma f_id_of l : forward (id_of l). Proof. fwd id_of. Qed.
Lemma f_save sp : forward (space_save sp). Proof. fwd space_save. Qed.
#[global] Hint Resolve f_id_of f_save : fwd.
Lemma f_save_info dr x : forward (save_ws_info dr x). Proof. fwd save_ws_info. Qed.
Lemma f_create_layer r b : forward (create_layer r b). Proof. unfold create_layer, layer_create, layer_save, new_random_uid. fw. Qed.
#[global] Hint Resolve f_save_info f_create_layer : fwd.
Lemma f_create_mount dr b : forward (create_mount dr b). Proof. unfold create_mount, space_create_mount, new_random_uid. fw. Qed.
Lemma f_ensure p : forward (ensure_dir p). Proof. fwd ensure_dir. Qed.
#[global] Hint Resolve f_create_mount f_ensure : fwd.
Lemma f_expand x : forward (expand x). Proof. unfold expand, mount_mount, create_symlink, os_getwd. fw. Qed.
Lemma f_remove_mount dr x : forward (remove_mount dr x). Proof. unfold remove_mount, mount_umount, os_getwd. fw. Qed.
Lemma f_commit dr x d m : forward (commit_ws dr x d m). Proof. unfold commit_ws, Manager.parent_of. cbv zeta. fw. Qed.
Lemma f_checkout dr x k : forward (checkout_ws dr x k). Proof. unfold checkout_ws, search_ws. cbv zeta. fw. Qed.
#[global] Hint Resolve f_expand f_remove_mount f_commit f_checkout : fwd.
Lemma f_log_one b c : forward (log_one b c). Proof. unfold log_one, println. fw. Qed.
Lemma f_add_branch x n r f : forward (ws_add_branch x n r f). Proof. unfold ws_add_branch, search_ws. cbv zeta. fw. Qed.
Lemma f_add_tag x n r f : forward (ws_add_tag x n r f). Proof. unfold ws_add_tag, search_ws. cbv zeta. fw. Qed.
Lemma f_delete_branch x n g : forward (ws_delete_branch x n g). Proof. unfold ws_delete_branch. cbv zeta. fw. Qed.
Lemma f_delete_tag x n : forward (ws_delete_tag x n). Proof. unfold ws_delete_tag. fw. Qed.
#[global] Hint Resolve f_log_one f_add_branch f_add_tag f_delete_branch f_delete_tag : fwd.
Lemma f_abs s : forward (fp_abs s). Proof. unfold fp_abs, os_getwd. fw. Qed.
#[global] Hint Resolve f_abs : fwd.
Lemma f_load dr s : forward (get_workspace dr s). Proof. unfold get_workspace, fs_is_symlink, os_lstat, os_readlink, load_ws_info, space_load. cbv zeta. fw. Qed.
#[global] Hint Resolve f_load : fwd.
Lemma f_after_load dr c x m : after_load dr c x = Some m → forward m.
Proof.
  destruct c as [args branch|source target|msg|key|opts args|opts args|args]; cbn [after_load]; intros E; try done; injection E as <-; unfold list_branches, list_tags, println; fw.
Qed.
Lemma f_cmd dr c : forward (run_cmd dr c).
Proof.
  destruct c as [args branch|source target|msg|key|opts args|opts args|args]; cbn [run_cmd].
  - unfold cmd_init, fs_is_empty_dir, create_workspace, create_space, space_init, layer_create, layer_save, new_random_uid, os_readdir, Manager.parent_of. cbv zeta. fw.
  - unfold cmd_clone, clone_ws, new_random_uid, Manager.parent_of. cbv zeta. fw.
  - unfold cmd_commit. fw.
  - unfold cmd_checkout. fw.
  - unfold cmd_branch, list_branches, println. fw.
  - unfold cmd_tag, list_tags. fw.
  - unfold cmd_log. fw.
Qed.
Lemma after_load_parts dr c x0 m : after_load dr c x0 = Some m → ∃ f, (∀ x, after_load dr c x = Some (f x)) ∧ run_cmd dr c = (x <- get_workspace dr (B ".") ;; f x).
Proof.
  destruct c as [args branch|source target|msg|key|opts args|opts args|args]; cbn [after_load]; intros E; try done; (eexists; split; [intros x; reflexivity|reflexivity]).
Qed.

(** ** Opening a workspace, to the tick *)
Lemma open_exact dr w p mid y hid a o raw t h : good_path dr → no_faults o → workspace_at dr w p mid y hid a → runs_in w p →
  fget (w_fs w) (tree_at dr (sp_id (ws_space y))) = Some (FFile raw) → load_bytes (ch_names (o (5 + w_tick w))) (ch_names (o (6 + w_tick w))) raw = Ok t → get t hid = Some h →
  get_workspace dr (B ".") o w =
    (Ok (WS (ws_id y) p (the_space dr (sp_id (ws_space y))) (mounted_mount mid (mount_dir dr mid)) h (sanitize (ws_branch y))), upd w (w_fs w) (w_mounts w) t (7 + w_tick w)).
Proof.
  intros G N [A1 A2 A3 A4 A5 A6] R Er Et Eh. unfold get_workspace.
  assert (fp_abs (B ".") o w = (Ok p, tick w)) as E.
  { unfold fp_abs. change (is_abs (B ".")) with false. cbv iota. unfold bind. by rewrite (getwd_fine _ _ _ N R). }
  unfold bind at 1. rewrite E. clear E.
  assert (fs_is_symlink p o (tick w) = (Ok true, tick (tick w))) as E.
  { unfold fs_is_symlink, bind, attempt, os_lstat. rewrite look_fine by done. cbn [w_fs tick]. by rewrite A1. }
  unfold bind at 1. rewrite E. clear E.
  assert ((s <- os_readlink p;; fp_abs s) o (tick (tick w)) = (Ok (merged_dir dr mid), tick (tick (tick w)))) as E.
  { unfold bind, os_readlink. rewrite look_fine by done. cbn [w_fs tick]. rewrite A1. unfold fp_abs. rewrite is_abs_path_str. rewrite join_path_str by (by apply good_merged). done. }
  unfold bind at 1. rewrite E. clear E.
  unfold bind at 1, lift at 1. unfold mount_dir at 1. rewrite <-app_assoc, rel_first_below. cbn [app]. rewrite decode_b32_b32.
  assert (load_ws_info dr mid o (tick (tick (tick w))) = (Ok (san_wsinfo (ws_info y hid)), tick (tick (tick (tick w))))) as E.
  { unfold load_ws_info, bind, os_read_file, real_path. cbv zeta. cbn [real w_fs tick]. rewrite A3, A3, N. cbn [fst snd]. unfold lift. by rewrite wsinfo_round. }
  unfold bind at 1. rewrite E. clear E. unfold san_wsinfo, ws_info. cbn [wi_id wi_path wi_head wi_space wi_mount wi_branch].
  rewrite !sanitize_b32, sanitize_uid_hex. unfold bind at 1, lift at 1. rewrite decode_b32_b32. unfold bind at 1, lift at 1. rewrite decode_b32_b32. cbv zeta.
  rewrite !join_name by apply good_uid.
  change (Space (sp_id (ws_space y)) (spaces_root dr ++ [uid_b32 (sp_id (ws_space y))])) with (the_space dr (sp_id (ws_space y))).
  assert (space_load (the_space dr (sp_id (ws_space y))) o (tick (tick (tick (tick w)))) = (Ok tt, upd w (w_fs w) (w_mounts w) t (7 + w_tick w))) as E.
  { unfold space_load, bind, os_read_file, real_path. cbv zeta. cbn [real w_fs tick]. rewrite Er, Er, N. cbn [fst snd]. rewrite decide_False by done.
    unfold next_choice. cbn [w_tick tick]. change (5 + w_tick w) with (S (S (S (S (S (w_tick w)))))) in Et. change (6 + w_tick w) with (S (S (S (S (S (S (w_tick w))))))) in Et. by rewrite Et. }
  unfold bind at 1. rewrite E. clear E. unfold bind at 1, lift at 1. rewrite decode_hex_hex. rewrite bind_gets. cbn [w_tree upd]. by rewrite Eh, A4.
Qed.
(** The choices for the same process started later: the map orders of the load, IDs that are not used otherwise, and then the choices of the process that waited *)
Definition later (o o' : oracle) (from upto : nat) : oracle := λ n,
  if decide (n < upto) then Choice FNone (ch_uid (o' (41 + n))) (ch_time (o' n)) (ch_keep (o' n)) (ch_dump (o' n)) (ch_names (o (n + from - upto))) (ch_locs (o' n)) else o' n.
Lemma later_fair o o' a b : fair o → fair o' → fair (later o o' a b).
Proof. intros F F' n. unfold later. destruct (decide _); [|apply F']. cbn. split; [apply F'|]. split; [apply F|apply F']. Qed.
Lemma later_no_faults o o' a b : no_faults o' → no_faults (later o o' a b).
Proof. intros N n. unfold later. by destruct (decide _). Qed.
Lemma later_ids dr o o' a w k : 7 + k = w_tick w → new_ids dr o' w → ∀ v, w_fs v = w_fs w → w_tick v = k → new_ids dr (later o o' a (w_tick w)) v.
Proof.
  intros Ek Nw v Ef Et. unfold new_ids. rewrite Ef, Et.
  assert (∀ n, k ≤ n ≤ 40 + k → ∃ j, ch_uid (later o o' a (w_tick w) n) = ch_uid (o' j) ∧ w_tick w ≤ j ≤ 40 + w_tick w ∧ (n < w_tick w ∧ j = 41 + n ∨ w_tick w ≤ n ∧ j = n)) as H.
  { intros n Hn. unfold later. destruct (decide (n < w_tick w)).
    - exists (41 + n). split; [done|]. split; [lia|]. left. lia.
    - exists n. split; [done|]. split; [lia|]. right. lia. }
  intros n Hn. destruct (H n Hn) as (j & Ej & Hj & Cj). rewrite Ej. destruct (Nw j Hj) as (N1 & N2 & N3 & N4 & N5). do 4 (split; [done|]).
  intros m Hm. destruct (H m ltac:(lia)) as (i & Ei & Hi & Ci). rewrite Ei. destruct (decide (i < j)) as [L|L].
  - apply N5. lia.
  - destruct (Nw i Hi) as (_ & _ & _ & _ & N6). intros Q. symmetry in Q. revert Q. apply N6. lia.
Qed.
