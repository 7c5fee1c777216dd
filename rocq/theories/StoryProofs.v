(** * StoryProofs: a tested story is a sequence of steps *)
From Verif Require Import Base Uid SpecUid UidProofs Tree SpecTree TreeRefine TreeObs Dump DumpProofs Json JsonProofs Save SaveProofs Branch BranchProofs Date Ws SpecWs WsProofs
  Fs Overlay Os Layers Mounts Space Manager Commands Sample FsProofs OsProofs LayerProofs MountProofs SpaceProofs ManagerProofs SpecWorld SpecOps SavedProofs FaultProofs ReadyProofs OpProofs CalmProofs
  SpecMachine SpecCmds MachineProofs OpenProofs CmdProofs SampleProofs Story.
From Coq Require Import Lia.
From stdpp Require Import prelude gmap.

Lemma wf_test_ok fs : wf_test fs = true → fs_wf fs.
Proof. exact (wf_check_ok fs). Qed.
Lemma outside_test_ok dr p : outside_test dr p = true → outside dr p.
Proof. unfold outside_test, outside. rewrite andb_true_iff, !negb_true_iff. done. Qed.
Lemma mount_at_elem ms p m : mount_at ms p = Some m → m ∈ ms ∧ mn_at m = p.
Proof. unfold mount_at. intros H. apply head_Some_elem_of in H. apply elem_of_list_filter in H as [? ?]. done. Qed.
Lemma put_step dr w p n data w' : put_test dr w p n data = true → put w p n data = Some w' → user_change dr w w'.
Proof.
  unfold put_test, put. destruct (mount_of w p) as [m|] eqn:Em; [|done]. cbn [mbind option_bind]. destruct (mn_upper m) as [u|] eqn:Eu; [|done]. cbn [mbind option_bind].
  intros [H1 H2]%andb_true_iff [= <-]. split; [by apply wf_test_ok|]. split; [done|]. intros q. cbn [w_fs set_fs].
  destruct (decide (q = u ++ [n])) as [->|Nq]; [|left; by rewrite fget_fset_ne].
  right. right. exists m, u. unfold mount_of in Em. destruct (fget (w_fs w) p) as [[ | | | ]|]; try done. apply mount_at_elem in Em as [Em _].
  do 3 (split; [done|]). unfold under. rewrite is_prefix_app. apply andb_true_iff. split; [done|]. apply negb_true_iff, bool_decide_eq_false. intros E%(f_equal length). rewrite app_length in E. cbn in E. lia.
Qed.
Definition fair_event (e : event) : Prop := match e with Do o _ _ => fair o | Put _ _ _ => True end.
Lemma story_steps dr l : Forall fair_event l → ∀ w, story_test dr l w = true → rtc (step dr) w (story dr l w).2.
Proof.
  intros F. induction F as [|[o d c|p n data] l Fe F IH]; intros w H; [constructor| |]; cbn [story_test] in H; apply andb_true_iff in H as [H1 H2]; cbn [story].
  - apply outside_test_ok in H1. cbv zeta. cbn [snd]. destruct (run_cmd dr c o (enter d w)) as [r w1] eqn:E. cbn [snd] in *.
    apply rtc_l with w1; [|by apply IH]. assert (same_disk w (enter d w)) as Sd by done. exact (step_cmd _ _ _ c o (enter d w) r Sd Fe (λ _, H1) E).
  - destruct (put w p n data) as [w1|] eqn:E; cbv zeta; cbn [snd default] in *; [|by apply IH].
    apply rtc_l with w1; [|by apply IH]. apply step_user. by eapply put_step.
Qed.
Lemma then_ok_inv {A} (r : res A * world) g : then_ok r g = true → ∃ x w, r = (Ok x, w) ∧ g x w = true.
Proof. unfold then_ok. destruct r as [[x| | | |] w]; try done. eauto. Qed.
Lemma then_some_inv {A} (r : option A) g : then_some r g = true → ∃ x, r = Some x ∧ g x = true.
Proof. unfold then_some. destruct r as [x|]; try done. eauto. Qed.
Lemma told_inv dr l w bs g : told dr l w bs g = true → ∃ w', story dr l w = (bs, w') ∧ g w' = true.
Proof. unfold told. destruct (story dr l w) as [r w']. intros [E H]%andb_true_iff. apply bool_decide_eq_true in E as ->. eauto. Qed.
