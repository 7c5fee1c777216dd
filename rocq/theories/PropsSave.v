(** * PropsSave: C18, C19, C20 *)
From Verif Require Import Base Uid UidProofs Tree SpecTree TreeRefine TreeObs Dump DumpProofs PropsTree PropsDump Json JsonProofs Save SaveProofs.
From stdpp Require Import prelude gmap.

(** ** C18 *)
(** [valid_tree a]: branch and tag names, annotation keys and values, and data keys are valid UTF-8
    (data values are arbitrary bytes, or the nil slice). [tree_bytes t e] is what Save writes,
    [load_bytes] what Load makes of the bytes. *)
Theorem C18_save_load : ∀ t a e ordb ordt, repr t a → valid_tree a → dumpenv_ok e →
  (∀ l, ordb l ≡ₚ l) → (∀ l, ordt l ≡ₚ l) →
  ∃ raw t', tree_bytes t e = Ok raw ∧ load_bytes ordb ordt raw = Ok t' ∧
    observes t a ∧ observes t' a ∧ repr t' a.
Proof.
  intros t a e ordb ordt R V He Hb Ht. destruct (save_load t a e ordb ordt R He Hb Ht) as (raw & t' & E & EL & R').
  rewrite (san_tree_id _ V) in R'. exists raw, t'. eauto 10 using repr_observes.
Qed.
Print Assumptions C18_save_load.
(** For trees built by API calls. *)
Theorem C18_save_load_built : ∀ cs t rs, all_fresh empty_atree cs → run_calls new_tree cs = Ok (t, rs) →
  ∃ a, tspecs empty_atree cs a rs ∧ observes t a ∧
  (valid_tree a → ∀ e ordb ordt, dumpenv_ok e → (∀ l, ordb l ≡ₚ l) → (∀ l, ordt l ≡ₚ l) →
   ∃ raw t', tree_bytes t e = Ok raw ∧ load_bytes ordb ordt raw = Ok t' ∧ observes t' a).
Proof.
  intros cs t rs F E. destruct (run_calls_refines cs new_tree empty_atree repr_new F) as (t1 & a & rs1 & E1 & S & R).
  rewrite E in E1. injection E1 as <- <-. exists a. split; [done|]. split; [by apply repr_observes|].
  intros V e ordb ordt He Hb Ht. destruct (C18_save_load t a e ordb ordt R V He Hb Ht) as (raw & t' & ? & ? & ? & ? & ?). eauto.
Qed.
Print Assumptions C18_save_load_built.
(** The text does not depend on the iteration order of Go's maps, except for the order in which
    the children of a commit are listed and for null against {}: names are written sorted. *)
Theorem C18_names_sorted : ∀ V (m : gmap bytes V) i j x y, i < j →
  sorted_entries m !! i = Some x → sorted_entries m !! j = Some y → bytes_leb x.1 y.1 = true ∧ x.1 ≠ y.1.
Proof.
  intros V m i j x y L Ei Ej. split.
  - pose proof (sorted_entries_sorted m) as S. revert i j L Ei Ej.
    induction S as [|z l S IH F]; intros i j L Ei Ej; [by rewrite lookup_nil in Ei|].
    destruct j as [|j]; [lia|]. destruct i as [|i].
    + injection Ei as ->. rewrite Forall_forall in F. apply F. by eapply elem_of_list_lookup_2.
    + apply (IH i j); [lia|done|done].
  - intros Eq. assert (NoDup (sorted_entries m).*1) as N.
    { rewrite sorted_entries_perm. apply NoDup_fst_map_to_list. }
    assert (i = j); [|lia]. eapply NoDup_lookup; [exact N| |]; rewrite list_lookup_fmap.
    + rewrite Ei. reflexivity.
    + rewrite Ej. cbn. by rewrite Eq.
Qed.
Print Assumptions C18_names_sorted.

Definition save_calls : list tcall := two_calls ++ [TAddTag (B "a""\") idB; TAddData idB (B "d") (Some (B "xyz"))].
Example C18_sat :
  match run_calls new_tree save_calls with
  | Ok (t, _) =>
      match tree_bytes t rev_env with
      | Ok raw => match load_bytes (@rev _) id raw with
          | Ok t' => (node_id t' <$> get_by_branch t' (B "main")) = Some (Some idC) ∧
                     (node_id t' <$> get_by_tag t' (B "a""\")) = Some (Some idB) ∧
                     (node_id t' <$> root t') = Some (Some idA) ∧ size (t_nodes t') = 3
          | _ => False end
      | _ => False end
  | _ => False end.
Proof. vm_compute. auto. Qed.
(** The text itself, for a small tree. *)
Example C18_text :
  marshal_dump (TDump (Some (ND (B "00") [] {[ B "k" := B "v" ]} ∅)) (Some {[ B "b" := B "00" ]}) None)
  = B "{""nodes"":{""id"":""00"",""annotations"":{""k"":""v""}},""branches"":{""b"":""00""},""tags"":null}".
Proof. vm_compute. reflexivity. Qed.

(** ** C19 *)
(** What happens to a name, exactly: every byte that is not part of a valid UTF-8 sequence becomes
    U+FFFD, so a name survives iff it is valid UTF-8. *)
Theorem C19_names_exact_partial : ∀ t a e ordb ordt, repr t a → dumpenv_ok e →
  (∀ l, ordb l ≡ₚ l) → (∀ l, ordt l ≡ₚ l) →
  ∃ raw t' a', tree_bytes t e = Ok raw ∧ load_bytes ordb ordt raw = Ok t' ∧ observes t' a' ∧
    (** commits and their parents are kept *)
    (∀ c, has a' c ↔ has a c) ∧ (∀ c p, parent_of a' c p ↔ parent_of a c p) ∧
    (** every name is there in its sanitized form *)
    (∀ n, is_Some (a_branches a !! n) → is_Some (a_branches a' !! sanitize n)) ∧
    (∀ n, is_Some (a_tags a !! n) → is_Some (a_tags a' !! sanitize n)) ∧
    (** and no other names; each points where one of its originals did *)
    (∀ n c, a_branches a' !! n = Some c → ∃ n0, a_branches a !! n0 = Some c ∧ n = sanitize n0) ∧
    (∀ n c, a_tags a' !! n = Some c → ∃ n0, a_tags a !! n0 = Some c ∧ n = sanitize n0) ∧
    (∀ n, sanitize n = n ↔ valid_utf8 n = true).
Proof.
  intros t a e ordb ordt R He Hb Ht. destruct (save_load t a e ordb ordt R He Hb Ht) as (raw & t' & E & EL & R').
  exists raw, t', (san_tree a). split; [done|]. split; [done|]. split; [by apply repr_observes|].
  split; [apply san_has|]. split; [apply san_parent|].
  split; [intros n; apply (san_map_is_Some id)|]. split; [intros n; apply (san_map_is_Some id)|].
  split; [|split; [|apply sanitize_id_iff]].
  - intros n c Ec. apply san_map_in in Ec as (k0 & v & ? & -> & ->). eauto.
  - intros n c Ec. apply san_map_in in Ec as (k0 & v & ? & -> & ->). eauto.
Qed.
Print Assumptions C19_names_exact_partial.
(** The property as stated is false: the names FF and FE (one byte each, not UTF-8) both become U+FFFD,
    so of two branches one is lost and the other renamed. *)
Definition bad1 : bytes := [n2b 255].
Definition bad2 : bytes := [n2b 254].
Definition bad_names : list tcall :=
  [TAddNode None idA; TAddNode (Some idA) idB; TAddBranch bad1 idA; TAddBranch bad2 idB].
Definition std_env : dumpenv := DumpEnv (λ _ l, l) false false.
Definition lost_names (r : res (tstate * list tans)) : Prop :=
  match r with
  | Ok (t, _) =>
      match tree_bytes t std_env with
      | Ok raw =>
          match load_bytes id id raw with
          | Ok t' => (node_id t <$> get_by_branch t bad1) = Some (Some idA) ∧
                     (node_id t <$> get_by_branch t bad2) = Some (Some idB) ∧
                     get_by_branch t' bad1 = None ∧ get_by_branch t' bad2 = None ∧ size (t_branches t') = 1
          | _ => False end
      | _ => False end
  | _ => False end.
Lemma lost_names_ex r : lost_names r → ∃ t raw t',
  (node_id t <$> get_by_branch t bad1) = Some (Some idA) ∧ (node_id t <$> get_by_branch t bad2) = Some (Some idB) ∧
  tree_bytes t std_env = Ok raw ∧ load_bytes id id raw = Ok t' ∧
  get_by_branch t' bad1 = None ∧ get_by_branch t' bad2 = None ∧ size (t_branches t') = 1.
Proof.
  destruct r as [[t rs]| | | |]; cbn [lost_names]; try tauto.
  destruct (tree_bytes t std_env) as [raw| | | |] eqn:Er; try tauto.
  destruct (load_bytes id id raw) as [t'| | | |] eqn:El; try tauto.
  intros (X1 & X2 & X3 & X4 & X5). exists t, raw, t'. auto 10.
Qed.
Theorem C19_names_survive_refuted : ∃ n1 n2 c1 c2 t raw t',
  n1 ≠ n2 ∧ c1 ≠ c2 ∧
  (node_id t <$> get_by_branch t n1) = Some (Some c1) ∧ (node_id t <$> get_by_branch t n2) = Some (Some c2) ∧
  tree_bytes t std_env = Ok raw ∧ load_bytes id id raw = Ok t' ∧
  get_by_branch t' n1 = None ∧ get_by_branch t' n2 = None ∧ size (t_branches t') = 1.
Proof.
  exists bad1, bad2, idA, idB. destruct (lost_names_ex (run_calls new_tree bad_names)) as (t & raw & t' & H).
  { vm_compute. repeat split; reflexivity. }
  exists t, raw, t'.
  split; [apply (bool_decide_eq_true_1 _); vm_compute; reflexivity|].
  split; [apply (bool_decide_eq_true_1 _); vm_compute; reflexivity|]. exact H.
Qed.
Print Assumptions C19_names_survive_refuted.
Example C19_sat : sanitize bad1 = sanitize bad2 ∧ valid_utf8 (B "main") = true ∧ valid_utf8 bad1 = false.
Proof. vm_compute. auto. Qed.

(** ** C20 *)
(** Whatever tree is saved, cutting the file anywhere before its end makes Load return an error. *)
Theorem C20_torn_tree_detected : ∀ t e raw p x ordb ordt, tree_bytes t e = Ok raw → raw = p ++ x → x ≠ [] →
  load_bytes ordb ordt p = Err EJson.
Proof.
  intros t e raw p x ordb ordt E -> N. unfold tree_bytes in E.
  destruct (dump t e) as [d| | | |]; try done. injection E as E. by eapply truncated_rejected.
Qed.
Print Assumptions C20_torn_tree_detected.
(** Text after the end is rejected too, as when a shorter file overwrites a longer one without truncation. *)
Lemma skip_ws_blank x : skip_ws x = [] → Forall (λ c, b2n c ∈ [32; 9; 10; 13]%N) x.
Proof.
  induction x as [|c x IH]; [constructor|]. cbn [skip_ws]. destruct (is_ws c) eqn:E; [|done]. intros H. constructor; [|auto].
  unfold is_ws in E. apply orb_true_iff in E as [E|E]; [apply orb_true_iff in E as [E|E]; [apply orb_true_iff in E as [E|E]|]|];
    apply N.eqb_eq in E || apply Ascii.eqb_eq in E; subst; rewrite ?E; set_solver.
Qed.
Theorem C20_trailing_text_rejected : ∀ t e raw x ordb ordt, tree_bytes t e = Ok raw →
  Exists (λ c, b2n c ∉ [32; 9; 10; 13]%N) x → load_bytes ordb ordt (raw ++ x) = Err EJson.
Proof.
  intros t e raw x ordb ordt E N. unfold tree_bytes in E.
  destruct (dump t e) as [d| | | |]; try done. injection E as <-. unfold load_bytes, unmarshal_dump, marshal_dump, parse_json.
  destruct (json_reads (j_dump d) x) as [f Ef]. rewrite (parse_value_length _ _ _ _ Ef).
  destruct (skip_ws x) eqn:S; [|done]. apply skip_ws_blank in S. exfalso. apply Exists_exists in N as (c & Hc & N). rewrite Forall_forall in S. by apply N, S.
Qed.
Print Assumptions C20_trailing_text_rejected.
(** The same for the .workspace files. *)
Theorem C20_torn_workspace_detected : ∀ w p x, marshal_wsinfo w = p ++ x → x ≠ [] → unmarshal_wsinfo p = None.
Proof. exact wsinfo_truncated. Qed.
Print Assumptions C20_torn_workspace_detected.
(** A complete workspace file is read back, each string in its sanitized form. *)
Theorem C20_workspace_read_back : ∀ w, unmarshal_wsinfo (marshal_wsinfo w) = Some (san_wsinfo w) ∧
  (valid_utf8 (wi_id w) = true → valid_utf8 (wi_path w) = true → valid_utf8 (wi_head w) = true →
   valid_utf8 (wi_space w) = true → valid_utf8 (wi_mount w) = true → valid_utf8 (wi_branch w) = true →
   unmarshal_wsinfo (marshal_wsinfo w) = Some w).
Proof.
  intros w. split; [apply wsinfo_round|]. intros. rewrite wsinfo_round. unfold san_wsinfo.
  rewrite !sanitize_valid by done. by destruct w.
Qed.
Print Assumptions C20_workspace_read_back.
Example C20_sat :
  match run_calls new_tree save_calls with
  | Ok (t, _) =>
      match tree_bytes t rev_env with
      | Ok raw => (200 <? length raw) = true ∧ load_bytes id id (take 100 raw) = Err EJson ∧ load_bytes id id [] = Err EJson
      | _ => False end
  | _ => False end.
Proof. vm_compute. auto. Qed.
Example C20_ws_text : marshal_wsinfo (WsInfo (B "A") (B "/w") (B "00") (B "S") (B "M") (B "main"))
  = B "{""id"":""A"",""path"":""/w"",""head"":""00"",""sapceID"":""S"",""mountID"":""M"",""branch"":""main""}".
Proof. vm_compute. reflexivity. Qed.
