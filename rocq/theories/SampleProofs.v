(** * SampleProofs: facts about the sample machine, for the concrete cases beside the theorems *)
From Verif Require Import Base Uid SpecUid UidProofs Tree SpecTree TreeRefine TreeObs Dump DumpProofs Save SaveProofs Branch BranchProofs Date Ws SpecWs WsProofs
  Fs Overlay Os Layers Mounts Space Manager Commands Sample FsProofs OsProofs LayerProofs MountProofs SpaceProofs ManagerProofs SpecWorld SavedProofs FaultProofs ReadyProofs.
From Coq Require Import Lia.
From stdpp Require Import prelude gmap.

Lemma fair_calm : fair calm.
Proof. intros n. split; [|split]; unfold dumpenv_ok, is_order; done. Qed.
Lemma fair_with_fault o k f : fair o → fair (with_fault o k f).
Proof. intros F n. exact (F n). Qed.

(** A test of [fs_wf] that computes *)
Definition wf_check (fs : files) : bool := forallb (λ e, bool_decide (e.1 = []) || is_dir_at fs (parent_dir e.1)) fs.
Lemma wf_check_ok fs : wf_check fs = true → fs_wf fs.
Proof.
  intros H p n x E. apply fget_elem in E. unfold wf_check in H. rewrite forallb_forall in H.
  apply elem_of_list_In, H in E. cbn [fst] in E. rewrite parent_dir_app in E.
  apply orb_true_iff in E as [E|E]; [|done]. apply bool_decide_eq_true in E. by destruct p.
Qed.
Lemma sample_wf : fs_wf sample_fs.
Proof. apply wf_check_ok. vm_compute. reflexivity. Qed.

Lemma calm_no_faults : no_faults calm.
Proof. done. Qed.
Definition fresh_check (dr : path) (o : oracle) (w : world) : bool :=
  forallb (λ n, bool_decide (fget (w_fs w) (mount_dir dr (ch_uid (o n))) = None ∧ fget (w_fs w) (ws_file dr (ch_uid (o n))) = None ∧
                             fget (w_fs w) (layer_dir (layers_root dr) (ch_uid (o n))) = None))
    [w_tick w; S (w_tick w); S (S (w_tick w))].
Lemma fresh_check_ok dr o w : fresh_check dr o w = true → fresh_ids dr o w.
Proof.
  unfold fresh_check. cbn [forallb]. rewrite !andb_true_iff, !bool_decide_eq_true. intros (H0 & H1 & H2 & _) n Hn.
  assert (n = w_tick w ∨ n = S (w_tick w) ∨ n = S (S (w_tick w))) as [->|[->| ->]] by lia; done.
Qed.

(** A run that ends well *)
Lemma is_ok_ex {A} (r : res A * world) : is_ok r.1 = true → ∃ x w, r = (Ok x, w).
Proof. destruct r as [[x| | | |] w]; try done. eauto. Qed.

(** The sample workspace, just created: branch main at the root, which has tag ROOT. *)
Notation sample_create := (create_workspace sample_dr wdir (B "main")).
Lemma sample_ready : ∃ x w rid id, sample_create calm sample_world = (Ok x, w) ∧ rid ≠ id ∧
  ready sample_dr w x (init_tree rid id (ws_id x) (B "main")) id ∧ ws_branch x = B "main" ∧ fresh_ids sample_dr calm w.
Proof.
  assert (is_ok (sample_create calm sample_world).1 && fresh_check sample_dr calm (sample_create calm sample_world).2 = true) as Ho by (vm_compute; reflexivity).
  apply andb_true_iff in Ho as [Ho Hf]. destruct (is_ok_ex _ Ho) as (x & w & E). rewrite E in Hf. cbn [snd] in Hf. apply fresh_check_ok in Hf. exists x, w.
  destruct (create_ready sample_dr wdir (B "main") calm sample_world x w fair_calm sample_wf E) as (rid & id & N & R & Hb & _).
  exists rid, id. exact (conj E (conj N (conj R (conj Hb Hf)))).
Qed.
