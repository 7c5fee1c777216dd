(** * PrintProofs: what programs print *)
From Verif Require Import Base Uid SpecUid UidProofs Tree SpecTree TreeRefine TreeObs Dump DumpProofs Json JsonProofs Save SaveProofs Branch BranchProofs Date Ws SpecWs WsProofs
  Fs Overlay Os Layers Mounts Space Manager Commands FsProofs OsProofs LayerProofs MountProofs SpaceProofs ManagerProofs SpecWorld SpecOps SavedProofs FaultProofs ReadyProofs OpProofs CalmProofs
  SpecMachine SpecCmds SpecLog MachineProofs OpenProofs CmdProofs ExpandProofs DetProofs LogProofs SpecTidy TidyProofs Story SpecUsable UsableProofs UsableCmdProofs
  SpecNames NamesProofs SpecVcs VcsProofs PropsLog.
From Coq Require Import Lia.
From stdpp Require Import prelude gmap.

(** ** Programs that print nothing, whatever fails *)
Definition mute {A} (m : M A) : Prop := ∀ o w, w_out (m o w).2 = w_out w.
Lemma mute_ret {A} (a : A) : mute (ret a).
Proof. done. Qed.
Lemma mute_fail {A} e : mute (@fail A e).
Proof. done. Qed.
Lemma mute_panic {A} : mute (@panic A).
Proof. done. Qed.
Lemma mute_lift {A} (r : res A) : mute (lift r).
Proof. done. Qed.
Lemma mute_gets {A} (f : world → A) : mute (gets f).
Proof. done. Qed.
Lemma mute_next {A} (f : Fs.choice → A) : mute (next_choice f).
Proof. done. Qed.
Lemma mute_bind {A C} (m : M A) (f : A → M C) : mute m → (∀ a, mute (f a)) → mute (bind m f).
Proof. intros Hm Hf o w. unfold bind. specialize (Hm o w). destruct (m o w) as [[a|e| | |] w1]; cbn [snd] in *; rewrite <-?Hm; [apply Hf|done..]. Qed.
Lemma mute_attempt {A} (m : M A) : mute m → mute (attempt m).
Proof. intros Hm o w. unfold attempt. specialize (Hm o w). by destruct (m o w) as [[a|e| | |] w1]. Qed.
Lemma mute_modify f : (∀ w, w_out (f w) = w_out w) → mute (modify f).
Proof. intros H o w. apply H. Qed.
Lemma mute_sys {A} (full : Fs.choice → world → res A * world) part : (∀ c w, w_out (full c w).2 = w_out w) → (∀ c n w, w_out (part c n w) = w_out w) → mute (sys full part).
Proof. intros H1 H2 o w. unfold sys. destruct (ch_fault (o (w_tick w))) as [|e [|n]|[|n]]; cbn [snd]; rewrite ?H1, ?H2; done. Qed.
Lemma mute_atomic {A} (full : Fs.choice → world → res A * world) : (∀ c w, w_out (full c w).2 = w_out w) → mute (sys_atomic full).
Proof. intros H1 o w. unfold sys_atomic. destruct (ch_fault (o (w_tick w))) as [|e n|[|n]]; cbn [snd]; rewrite ?H1; done. Qed.
Lemma mute_look {A} (f : world → res A) : mute (look f).
Proof. by apply mute_atomic. Qed.
Create HintDb mute.
#[export] Hint Resolve mute_ret mute_fail mute_panic mute_lift mute_gets mute_next mute_look : mute.
(** Splits a program into its calls. *)
Ltac mute1 := match goal with
  | |- mute (bind _ _) => apply mute_bind; [|intros ?]
  | |- mute (attempt _) => apply mute_attempt
  | |- mute (modify _) => by apply mute_modify
  | |- mute (match ?x with _ => _ end) => destruct x
  | |- mute _ => by auto with mute
  end.
Ltac mute := repeat mute1.
Ltac mute_call := intros; repeat match goal with |- context [match ?x with _ => _ end] => destruct x end; done.
Lemma mute_mkdir p : mute (os_mkdir p).
Proof. apply mute_atomic. mute_call. Qed.
Lemma mute_mkdir_all p : mute (os_mkdir_all p).
Proof. apply mute_sys; mute_call. Qed.
Lemma mute_read_file p : mute (os_read_file p).
Proof. intros o w. unfold os_read_file. mute_call. Qed.
Lemma mute_write_file p d : mute (os_write_file p d).
Proof. apply mute_sys; mute_call. Qed.
Lemma mute_remove p : mute (os_remove p).
Proof. apply mute_atomic. mute_call. Qed.
Lemma mute_remove_all p : mute (os_remove_all p).
Proof. by apply mute_sys. Qed.
Lemma mute_symlink t p : mute (os_symlink t p).
Proof. apply mute_atomic. mute_call. Qed.
Lemma mute_chown p : mute (os_chown p).
Proof. apply mute_atomic. mute_call. Qed.
Lemma mute_lchown p : mute (os_lchown p).
Proof. apply mute_atomic. mute_call. Qed.
Lemma mute_chdir p : mute (os_chdir p).
Proof. apply mute_atomic. mute_call. Qed.
Lemma mute_mount t d : mute (sys_mount t d).
Proof. apply mute_atomic. mute_call. Qed.
Lemma mute_umount t : mute (sys_umount t).
Proof. apply mute_atomic. mute_call. Qed.
Lemma mute_tree_do f : mute (tree_do f).
Proof. intros o w. unfold tree_do. mute_call. Qed.
Lemma mute_make_node id : mute (make_node id).
Proof. done. Qed.
#[export] Hint Resolve mute_mkdir mute_mkdir_all mute_read_file mute_write_file mute_remove mute_remove_all mute_symlink mute_chown mute_lchown mute_chdir
  mute_mount mute_umount mute_tree_do mute_make_node : mute.
Lemma mute_stat p : mute (os_stat p).
Proof. apply mute_look. Qed.
Lemma mute_getwd : mute os_getwd.
Proof. apply mute_look. Qed.
Lemma mute_readlink p : mute (os_readlink p).
Proof. apply mute_look. Qed.
Lemma mute_readdir p : mute (os_readdir p).
Proof. apply mute_look. Qed.
#[export] Hint Resolve mute_stat mute_getwd mute_readlink mute_readdir : mute.
Lemma mute_is_exists p : mute (fs_is_exists p).
Proof. unfold fs_is_exists. mute. Qed.
Lemma mute_is_dir p : mute (fs_is_dir p).
Proof. unfold fs_is_dir. mute. Qed.
Lemma mute_is_symlink p : mute (fs_is_symlink p).
Proof. unfold fs_is_symlink, os_lstat. mute. Qed.
#[export] Hint Resolve mute_is_exists mute_is_dir mute_is_symlink : mute.
Lemma mute_is_empty p : mute (fs_is_empty_dir p).
Proof. unfold fs_is_empty_dir. mute. Qed.
Lemma mute_abs s : mute (fp_abs s).
Proof. unfold fp_abs. mute. Qed.
Lemma mute_uid : mute new_random_uid.
Proof. apply mute_next. Qed.
#[export] Hint Resolve mute_is_empty mute_abs mute_uid : mute.
Lemma mute_layer_create root : mute (layer_create root).
Proof. unfold layer_create, layer_save. mute. Qed.
Lemma mute_layer_get root id : mute (layer_get root id).
Proof. unfold layer_get. mute. Qed.
#[export] Hint Resolve mute_layer_create mute_layer_get : mute.
Lemma mute_ensure p : mute (ensure_dir p).
Proof. unfold ensure_dir. mute. Qed.
#[export] Hint Resolve mute_ensure : mute.
Lemma mute_mount_mount m : mute (mount_mount m).
Proof. unfold mount_mount. mute. Qed.
Lemma mute_create_symlink m p : mute (create_symlink m p).
Proof. unfold create_symlink. mute. Qed.
Lemma mute_collect f root l : mute (collect_layers f root l).
Proof. revert l. induction f; intros [l|]; cbn [collect_layers]; mute. Qed.
Lemma mute_space_load sp : mute (space_load sp).
Proof. unfold space_load. mute. Qed.
Lemma mute_space_save sp : mute (space_save sp).
Proof. unfold space_save. mute. Qed.
Lemma mute_create_layer root id : mute (create_layer root id).
Proof. unfold create_layer. mute. Qed.
#[export] Hint Resolve mute_mount_mount mute_create_symlink mute_collect mute_space_load mute_space_save mute_create_layer : mute.
Lemma mute_create_mount dr id : mute (create_mount dr id).
Proof. unfold create_mount, space_create_mount. mute. Qed.
Lemma mute_create_space dr : mute (create_space dr).
Proof. unfold create_space, space_init. mute. Qed.
Lemma mute_id_of l : mute (id_of l).
Proof. unfold id_of. mute. Qed.
Lemma mute_parent_of l : mute (parent_of l).
Proof. unfold parent_of. mute. Qed.
Lemma mute_search x ref : mute (search_ws x ref).
Proof. unfold search_ws. mute. Qed.
#[export] Hint Resolve mute_create_mount mute_create_space mute_id_of mute_parent_of mute_search : mute.
Lemma mute_save_ws dr x : mute (save_ws_info dr x).
Proof. unfold save_ws_info. mute. Qed.
Lemma mute_load_ws dr mid : mute (load_ws_info dr mid).
Proof. unfold load_ws_info. mute. Qed.
#[export] Hint Resolve mute_save_ws mute_load_ws : mute.
Lemma mute_get_workspace dr arg : mute (get_workspace dr arg).
Proof. unfold get_workspace. mute. Qed.
Lemma mute_create_workspace dr p b : mute (create_workspace dr p b).
Proof. unfold create_workspace. mute. Qed.
Lemma mute_remove_mount dr x : mute (remove_mount dr x).
Proof. unfold remove_mount, mount_umount. mute. Qed.
Lemma mute_expand x : mute (expand x).
Proof. unfold expand. mute. Qed.
Lemma mute_commit_ws dr x d m : mute (commit_ws dr x d m).
Proof. unfold commit_ws. mute. Qed.
Lemma mute_checkout_ws dr x k : mute (checkout_ws dr x k).
Proof. unfold checkout_ws. mute. Qed.
Lemma mute_clone_ws dr x p : mute (clone_ws dr x p).
Proof. unfold clone_ws. mute. Qed.
#[export] Hint Resolve mute_get_workspace mute_create_workspace mute_remove_mount mute_expand mute_commit_ws mute_checkout_ws mute_clone_ws : mute.
Lemma mute_add_branch x n ref f : mute (ws_add_branch x n ref f).
Proof. unfold ws_add_branch. mute. Qed.
Lemma mute_add_tag x n ref f : mute (ws_add_tag x n ref f).
Proof. unfold ws_add_tag. mute. Qed.
Lemma mute_del_branch x n g : mute (ws_delete_branch x n g).
Proof. unfold ws_delete_branch. mute. Qed.
Lemma mute_del_tag x n : mute (ws_delete_tag x n).
Proof. unfold ws_delete_tag. mute. Qed.
Lemma mute_for_each {A} (l : list A) f : (∀ a, mute (f a)) → mute (for_each l f).
Proof. intros H. induction l; cbn [for_each]; mute. Qed.
(** Commands that change workspaces print nothing. *)
Lemma mute_cmd dr c : ¬ names_cmd c → mute (run_cmd dr c).
Proof.
  destruct c as [args branch|source target|msg|key|opts args|opts args|args]; intros Hn; try (by destruct Hn); cbn [run_cmd].
  - unfold cmd_init. mute.
  - unfold cmd_clone. mute.
  - unfold cmd_commit. mute.
  - unfold cmd_checkout. mute.
Qed.
Lemma mute_change_dir arg : mute (change_dir arg).
Proof. unfold change_dir. mute. Qed.
Lemma mute_inject arg : mute (inject_manager arg).
Proof. unfold inject_manager, prepare, do_prepare, ensure_dir_mk. mute. Qed.
Lemma mute_run {A} (m : M A) o w r w' : mute m → m o w = (r, w') → screen w' = screen w.
Proof. intros H E. specialize (H o w). rewrite E in H. unfold screen. cbn [snd] in H. by rewrite H. Qed.
Lemma mute_nothing {A} (m : M A) o w r w' : mute m → m o w = (r, w') → screen w' = screen w ++ [].
Proof. intros H E. rewrite app_nil_r. by eapply mute_run. Qed.
(** ** The other commands, after the workspace was opened *)
Lemma log_lines dr x hid a ref o w r w' : fair o → live dr w x a hid → log_body x ref o w = (r, w') →
  ∃ lines, screen w' = screen w ++ lines ∧
  match meant x hid a ref with
  | None => lines = []
  | Some id => ∃ ch, chain a id ch ∧
      ((∀ c, c ∈ removelast ch → ∃ d, dated a c d) ∧ r = Ok tt ∧ log_entries a (ws_id x) (ws_current x) (removelast ch) lines ∨
       (∃ c l1 l2 entries names line, removelast ch = l1 ++ c :: l2 ∧ (∀ d, ¬ dated a c d) ∧ r = Panic ∧
          log_entries a (ws_id x) (ws_current x) l1 entries ∧ title c names line ∧ lines = entries ++ [line]))
  end.
Proof.
  intros F Lv H. destruct (decode_b32 ref) eqn:Ed.
  1,2,4,5: assert (decode_b32 ref ≠ Panic) as Nd by congruence; rewrite (meant_found _ _ _ _ Nd); destruct (log_body_spec _ _ _ _ _ _ _ F Lv (or_intror Nd)) as (r2 & w2 & lines & E & P & D);
    rewrite E in H; injection H as <- <-; exists lines; split; [apply P|];
    (destruct (found_id (resolve a (ws_id x) hid ref)) as [id|]; [exact D|apply D]).
  unfold meant. rewrite Ed. exists []. split; [|done]. unfold log_body in H. rewrite !bind_next, bind_gets in H. cbn [tick w_tree] in H.
  assert (failed (get_history (w_tree w) (ch_locs (o (w_tick w))) (ch_locs (o (w_tick (tick w)))) (ws_id x) (ws_head x) ref)) as Eh.
  { unfold get_history. destruct (ws_search (w_tree w) (ws_id x) (ws_head x) ref) as [f| | | |] eqn:Es; try done.
    destruct (ws_search_no_panic _ _ _ _ _ Es) as [->|?]; [by destruct head_decodes|done]. }
  unfold bind at 1, lift in H. destruct (get_history _ _ _ _ _ _) as [cs| | | |]; [by destruct (Eh cs)|..]; injection H as <- <-; by rewrite app_nil_r.
Qed.
Lemma step_lines dr V mids c d o w r w' : good_path dr → fair o → no_faults o → in_order dr w → places_at dr w V mids → runs_in w d → allowed dr V w d c →
  run_cmd dr c o w = (r, w') → ∃ lines, screen w' = screen w ++ lines ∧ vlines V d c r lines.
Proof.
  intros G F N Io [Hi Hp] R [_ Al] E.
  assert (¬ names_cmd c → ∃ lines, screen w' = screen w ++ lines ∧ vlines V d c r lines) as Hm.
  { intros Nc. exists []. split; [by eapply mute_nothing; [apply mute_cmd|]|]. destruct c; try done; by destruct Nc. }
  assert (plain_spot dr w d → ∀ body : ws → M unit, (x <- get_workspace dr (B ".") ;; body x) o w = (r, w') → screen w' = screen w ++ [] ∧ v_places V !! d = None) as Hno.
  { intros Ps body Eb. split; [|eapply place_not_plain; [split; [exact Hi|exact Hp]|exact Ps]]. destruct (open_plain dr (B ".") d d o w N R (join_dot d) Ps) as (r1 & w1 & Eg & Fr & _).
    unfold bind at 1 in Eb. rewrite Eg in Eb. pose proof (mute_nothing _ _ _ _ _ (mute_get_workspace dr (B ".")) Eg) as Hs. destruct r1 as [x|e| | |]; [by destruct (Fr x)|..]; by injection Eb as <- <-. }
  assert (∀ pl, v_places V !! d = Some pl → ∃ x a w1, get_workspace dr (B ".") o w = (Ok x, w1) ∧ live dr w1 x a (pl_head pl) ∧ v_trees V !! pl_space pl = Some a ∧
    screen w1 = screen w ∧ ws_id x = pl_id pl ∧ ws_branch x = pl_branch pl) as Hop.
  { intros pl Ep. destruct (Hp _ _ Ep) as (Op & y & a & Wa & T & _ & C1 & C2 & C3 & _). destruct (open_fine dr w d _ y _ a (B ".") d o G F N Io Wa R (join_dot d)) as (h & t & k & Eg & _ & Lv).
    eexists _, a, _. split; [exact Eg|]. split; [exact Lv|]. do 2 (split; [done|]). done. }
  destruct c as [args branch|source target|msg|key|opts args|opts args|args]; [apply Hm; by intros []..| | |]; cbn [run_cmd vlines] in *.
  - unfold cmd_branch in E. destruct Al as [[pl Ep]|Ps].
    2: { destruct (Hno Ps _ E) as [Hs ->]. by exists []. }
    rewrite Ep. destruct (Hop _ Ep) as (x & a & w1 & Eg & Lv & T & Hs & C1 & C2). unfold bind at 1 in E. rewrite Eg in E. rewrite <-Hs, <-C1, <-C2.
    destruct (list_branches_spec _ x opts o w1 a _ F Lv) as (w2 & lines & El & P & D).
    assert (list_branches x opts o w1 = (r, w') → screen w' = screen w1 ++ lines) as Hl by (intros Q; rewrite El in Q; injection Q as <- <-; apply P).
    destruct (bo_list opts); [exists lines; split; [by apply Hl|]; by exists a|]. destruct (bo_current opts).
    { rewrite println_eq in E. injection E as <- <-. exists [ws_branch x]. split; [apply screen_add|]. by exists a. }
    destruct (bo_delete opts).
    { exists []. split; [|by exists a]. eapply mute_nothing; [|exact E]. apply mute_for_each. intros. apply mute_del_branch. }
    destruct args as [|n rest]; [exists lines; split; [by apply Hl|]; by exists a|]. exists []. split; [|by exists a]. eapply mute_nothing; [|exact E]. apply mute_add_branch.
  - unfold cmd_tag in E. destruct Al as [[pl Ep]|Ps].
    2: { destruct (Hno Ps _ E) as [Hs ->]. by exists []. }
    rewrite Ep. destruct (Hop _ Ep) as (x & a & w1 & Eg & Lv & T & Hs & C1 & C2). unfold bind at 1 in E. rewrite Eg in E. rewrite <-Hs.
    destruct (list_tags_spec _ x o w1 a _ F Lv) as (w2 & lines & El & P & D).
    assert (list_tags x o w1 = (r, w') → screen w' = screen w1 ++ lines) as Hl by (intros Q; rewrite El in Q; injection Q as <- <-; apply P).
    destruct (to_list opts); [exists lines; split; [by apply Hl|]; by exists a|].
    destruct (to_delete opts).
    { exists []. split; [|by exists a]. eapply mute_nothing; [|exact E]. apply mute_for_each. intros. apply mute_del_tag. }
    destruct args as [|n rest]; [exists lines; split; [by apply Hl|]; by exists a|]. exists []. split; [|by exists a]. eapply mute_nothing; [|exact E]. apply mute_add_tag.
  - rewrite cmd_log_body in E. destruct Al as [[pl Ep]|Ps].
    2: { destruct (Hno Ps _ E) as [Hs ->]. by exists []. }
    rewrite Ep. destruct (Hop _ Ep) as (x & a & w1 & Eg & Lv & T & Hs & C1 & C2). unfold bind at 1 in E. rewrite Eg in E. rewrite <-Hs.
    destruct (log_lines _ _ _ _ _ _ _ _ _ F Lv E) as (lines & Hl & D). exists lines. split; [done|]. exists x, a. split; [done|]. split; [done|].
    replace (ref_arg args) with (log_ref args) by (by destruct args). unfold ws_current in D. by rewrite <-C1, <-C2.
Qed.
