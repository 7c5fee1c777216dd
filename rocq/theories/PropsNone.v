(** * PropsNone: paths that lead to no workspace are refused (C101) *)
From Verif Require Import Base Uid Tree Dump Save Branch Date Ws Fs Overlay Edits Os Layers Mounts Space Manager Commands FsProofs OsProofs LayerProofs SpecWorld SpecOps FaultProofs SpecMachine SpecCmds Sample SampleProofs Story SpecUsable
  StoryProofs OpenProofs PropsVcs Deep SpecDeep DeepProofs SpecResolve PropsResolve SpecEdits PropsEdits SpecSnap PropsDeep DeepStart.
From Coq Require Import Lia.
From stdpp Require Import prelude gmap.

(** Neither [p] nor the text of a link there, from the working directory [d], is in the data root or above it. *)
Definition no_workspace (dr : path) (w : world) (d p : path) : Prop :=
  outside dr p ∧ ∀ s t, spot w p = Some s → obj_at w s = Some (FLink t) → outside dr (Fs.abs_from d t).
(** The text of the path at which a command looks for its workspace; init looks for none *)
Definition opens (c : command) : option bytes :=
  match c with CInit _ _ => None | CClone source _ => Some source | _ => Some (B ".") end.

Lemma only_refl w : only_looked w w.
Proof. done. Qed.
Lemma deep_abs_any s o w r w' : deep_abs s o w = (r, w') → only_looked w w' ∧ ∀ p, r = Ok p → p = Fs.abs_from (deep_getwd_of w) s.
Proof.
  unfold deep_abs, Fs.abs_from. destruct (is_abs s); [intros [= <- <-]; split; [done|]; by intros p [= <-]|]. intros E. unfold bind at 1 in E. destruct (deep_getwd o w) as [r1 w1] eqn:E1. apply deep_getwd_any in E1 as (O1 & H1 & _).
  destruct r1 as [d| | | |]; injection E as <- <-; (split; [done|]); intros p Q; try discriminate Q. injection Q as <-. by rewrite (H1 d eq_refl).
Qed.
Lemma looked_getwd w w' : only_looked w w' → deep_getwd_of w' = deep_getwd_of w.
Proof. intros ((A1 & A2 & A3 & A4) & _). by apply getwd_ext. Qed.
Lemma looked_none dr w w' d p : only_looked w w' → no_workspace dr w d p → no_workspace dr w' d p.
Proof.
  intros ((A1 & A2 & _) & _) [O H]. split; [done|]. intros s t. rewrite (spot_ext w), (obj_ext w) by done. apply H.
Qed.
Lemma load_none dr p q o w r w' : outside dr q → load_from dr p q o w = (r, w') → failed r ∧ w' = w.
Proof.
  intros O E. unfold load_from, bind at 1 in E. unfold mounts_root in E. rewrite (rel_first_outside _ _ _ O) in E. change (decode_b32 (B "..")) with (@Err uid EWrongLen) in E. injection E as <- <-. split; [by intros x|done].
Qed.
(** A path that leads to no workspace is not opened, whatever fails, and nothing changes. *)
Theorem C101_open : ∀ dr arg o w r w', no_workspace dr w (deep_getwd_of w) (Fs.abs_from (deep_getwd_of w) arg) → deep_get_workspace dr arg o w = (r, w') → failed r ∧ only_looked w w'.
Proof.
  intros dr arg o w r w' Nw E. unfold deep_get_workspace in E.
  apply bind_any in E as [(p & w1 & E1 & E)|(r1 & E1 & _ & Fr)]; [|by apply deep_abs_any in E1 as [O1 _]]. apply deep_abs_any in E1 as [O1 Hp]. rewrite (Hp p eq_refl) in *. clear Hp. set (q := Fs.abs_from (deep_getwd_of w) arg) in *.
  apply (looked_none _ _ _ _ _ O1) in Nw. rewrite <-(looked_getwd _ _ O1) in Nw.
  apply bind_any in E as [(b & w2 & E2 & E)|(r1 & E2 & _ & Fr)].
  2: { split; [done|]. eapply only_trans; [exact O1|]. unfold deep_is_symlink, bind, attempt in E2. destruct (look _ o w1) as [[x|e| | |] w2] eqn:El; apply look_only in El; injection E2 as _ <-; done. }
  assert (only_looked w1 w2) as O2.
  { unfold deep_is_symlink, bind, attempt in E2. destruct (look _ o w1) as [[x|e| | |] v] eqn:El; apply look_only in El; try discriminate E2; injection E2 as _ <-; done. }
  pose proof (only_trans _ _ _ O1 O2) as O3. apply (looked_none _ _ _ _ _ O2) in Nw. rewrite <-(looked_getwd _ _ O2) in Nw. destruct Nw as [No Nl].
  apply bind_any in E as [(mp & w3 & E3 & E)|(r1 & E3 & F1 & Fr)].
  2: { split; [done|]. destruct b; [|injection E3 as <- <-; by destruct (F1 q)]. apply bind_any in E3 as [(s & w4 & E4 & E5)|(r2 & E4 & _)].
       - apply look_only in E4. apply deep_abs_any in E5 as [O5 _]. eapply only_trans; [exact O3|]. by eapply only_trans.
       - apply look_only in E4. by eapply only_trans. }
  destruct b.
  - apply bind_any in E3 as [(s & w4 & E4 & E5)|(r2 & _ & _ & Fr)]; [|by destruct (Fr mp)]. pose proof (look_only _ _ _ _ _ E4) as O4. apply deep_abs_any in E5 as [O5 Hm]. rewrite (looked_getwd _ _ O4) in Hm.
    assert (outside dr mp) as Om.
    { rewrite (Hm mp eq_refl). unfold deep_readlink, look, sys_atomic in E4. cbv zeta in E4. rewrite (spot_ext w2) in E4 by done. destruct (spot w2 q) as [z|] eqn:Ez; [|destruct (ch_fault _) as [|e n|[|n]]; discriminate E4].
      rewrite (obj_ext w2) in E4 by done. destruct (obj_at w2 z) as [[bb|dd|tt|]|] eqn:Eo; destruct (ch_fault _) as [|e n|[|n]]; try discriminate E4. injection E4 as -> _. by eapply Nl. }
    apply load_none in E as [Hf ->]; [|done]. split; [done|]. eapply only_trans; [exact O3|]. by eapply only_trans.
  - injection E3 as <- <-. by apply load_none in E as [Hf ->].
Qed.
Print Assumptions C101_open.
(** So each command but init fails there, and leaves disk, mounts, output and owners as they are. *)
Theorem C101_refused : ∀ dr c arg o w r w', opens c = Some arg → no_workspace dr w (deep_getwd_of w) (Fs.abs_from (deep_getwd_of w) arg) → deep_run dr c o w = (r, w') → failed r ∧ only_looked w w'.
Proof.
  intros dr c arg o w r w' Ha Nw E. assert (∀ c', deep_cmd dr c' o w = (r, w') → arg = B "." → failed r ∧ only_looked w w') as Hc.
  { intros c' E' ->. unfold deep_cmd in E'. apply bind_any in E' as [(x & w1 & E1 & _)|(r1 & E1 & _ & Fr)]; apply C101_open in E1 as [F1 O1]; [by destruct (F1 x)|done|done|done]. }
  destruct c as [args branch|source target|msg|key|opts args|opts args|args]; [discriminate Ha| |injection Ha as <-; by eapply Hc..].
  injection Ha as ->. cbn [deep_run] in E. unfold deep_clone in E. apply bind_any in E as [(p & w1 & E1 & E)|(r1 & E1 & _ & Fr)]; [|by apply deep_abs_any in E1 as [O1 _]]. apply deep_abs_any in E1 as [O1 _].
  apply (looked_none _ _ _ _ _ O1) in Nw. rewrite <-(looked_getwd _ _ O1) in Nw.
  apply bind_any in E as [(x & w2 & E2 & _)|(r1 & E2 & _ & Fr)]; apply C101_open in E2 as [F2 O2]; [by destruct (F2 x)|done| |done]. split; [done|]. by eapply only_trans.
Qed.
Print Assumptions C101_refused.

(** A directory in a workspace: log is refused there, and clone of it. *)
Lemma none_test :
  then_ok (run_cmd sample_dr (CInit [B "w"] (B "main")) calm (enter home sample_world)) (λ _ w1,
  then_some (edit_at w1 wdir (EMkdir a_dir)) (λ u1, let v := deep_enter (wdir ++ a_dir) u1 in
    bool_decide (deep_getwd_of v = wdir ++ a_dir) && bool_decide (spot v (wdir ++ a_dir) = Some (mount_point u1 ++ a_dir)) && dir_here v (mount_point u1 ++ a_dir))) = true.
Proof. vm_compute. reflexivity. Qed.
Example C101_sat : ∃ w c arg s, opens c = Some arg ∧ no_workspace sample_dr w (deep_getwd_of w) (Fs.abs_from (deep_getwd_of w) arg) ∧ spot w (Fs.abs_from (deep_getwd_of w) arg) = Some s ∧ dir_here w s = true.
Proof.
  pose proof none_test as H. destruct (then_ok_inv _ _ H) as ([] & w1 & _ & H1). clear H. cbv beta in H1. destruct (then_some_inv _ _ H1) as (u1 & _ & H2). clear H1. cbv beta zeta in H2.
  apply andb_true_iff in H2 as [H2 A3]. apply andb_true_iff in H2 as [A1 A2]. apply bool_decide_eq_true in A1. apply bool_decide_eq_true in A2.
  assert (Fs.abs_from (wdir ++ a_dir) (B ".") = wdir ++ a_dir) as Ed by (vm_compute; reflexivity).
  exists (deep_enter (wdir ++ a_dir) u1), (CLog []), (B "."), (mount_point u1 ++ a_dir). split; [reflexivity|]. rewrite A1, Ed. split; [split|].
  - split; vm_compute; reflexivity.
  - intros s t Es Eo. rewrite A2 in Es. injection Es as <-. unfold dir_here in A3. rewrite Eo in A3. discriminate A3.
  - split; [exact A2|exact A3].
Qed.
Print Assumptions C101_sat.
