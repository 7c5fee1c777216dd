(** * MountProofs: how the kernel reads the option string *)
From Verif Require Import Base Uid SpecUid UidProofs Tree Dump Branch BranchProofs Date Fs Overlay Os Layers Mounts FsProofs OsProofs LayerProofs.
From Coq Require Import Lia.
From stdpp Require Import prelude.

(** ** Path strings *)
Lemma split_slash_ne s : split_slash s ≠ [].
Proof. destruct s as [|c s]; [done|]. cbn. destruct (split_slash s); [done|]. by destruct (decide _). Qed.
Lemma split_slash_plain c s : SLASH ∉ c → split_slash (c ++ SLASH :: s) = c :: split_slash s.
Proof.
  intros N. pose proof (split_slash_ne s) as NE. induction c as [|a c IH]; cbn [app split_slash].
  - destruct (split_slash s) as [|h r]; [done|]. by rewrite decide_True.
  - rewrite IH by set_solver. rewrite decide_False; [done|]. intros ->. set_solver.
Qed.
Lemma split_slash_last c : SLASH ∉ c → split_slash c = [c].
Proof.
  intros N. induction c as [|a c IH]; [done|]. cbn [split_slash]. rewrite IH by set_solver.
  rewrite decide_False; [done|]. intros ->. set_solver.
Qed.
Lemma split_path_str p : good_path p → p ≠ [] → split_slash (path_str p) = [] :: p.
Proof.
  intros G N. assert (∀ c q, good_path (c :: q) → split_slash (c ++ path_str' q) = c :: q) as H.
  { intros c q. revert c. induction q as [|d q IH]; intros c G'; cbn [path_str'].
    - rewrite app_nil_r. apply split_slash_last. by inversion_clear G' as [|? ? (_ & _ & _ & ?) _].
    - inversion_clear G' as [|? ? (_ & _ & _ & ?) G2]. rewrite split_slash_plain by done. by rewrite IH. }
  destruct p as [|c q]; [done|]. cbn [path_str path_str']. change (SLASH :: c ++ path_str' q) with ([] ++ SLASH :: c ++ path_str' q).
  rewrite split_slash_plain by set_solver. by rewrite H.
Qed.
Lemma walk_good p q : good_path q → walk p q = p ++ q.
Proof.
  unfold walk. revert p. induction q as [|c q IH]; intros p G; [by rewrite app_nil_r|].
  inversion_clear G as [|? ? (N1 & N2 & N3 & _) G2]. cbn [foldl]. unfold clean_step at 2.
  rewrite decide_False by tauto. rewrite decide_False by done. rewrite IH by done. by rewrite <-app_assoc.
Qed.
Lemma join_path_str p : good_path p → pjoin [] (path_str p) = p.
Proof.
  intros G. unfold pjoin. destruct p as [|c q]; [done|]. rewrite split_path_str by done.
  change (walk [] (c :: q) = c :: q). by apply walk_good.
Qed.
Lemma is_abs_path_str p : is_abs (path_str p) = true.
Proof. by destruct p. Qed.
Lemma abs_path_str d p : good_path p → abs_from d (path_str p) = p.
Proof. intros G. unfold abs_from. rewrite is_abs_path_str. by apply join_path_str. Qed.
Lemma path_str_ne p : path_str p ≠ [].
Proof. by destruct p. Qed.
(** Joining a plain name *)
Lemma join_name p n : good_name n → pjoin p n = p ++ [n].
Proof. intros G. unfold pjoin. rewrite split_slash_last by apply G. apply walk_good. by constructor. Qed.
Lemma join_dot p : pjoin p (B ".") = p.
Proof. reflexivity. Qed.
Lemma path_str'_length p : length (path_str' p) = foldr (λ c n, S (length c) + n) 0 p.
Proof. induction p as [|c p IH]; [done|]. cbn [path_str' length foldr]. rewrite app_length, IH. reflexivity. Qed.
Lemma path_str'_app p q : path_str' (p ++ q) = path_str' p ++ path_str' q.
Proof. induction p as [|c p IH]; [done|]. cbn [app path_str']. rewrite IH. cbn [app]. by rewrite <-app_assoc. Qed.
Lemma path_str_app p q : p ≠ [] → path_str (p ++ q) = path_str p ++ path_str' q.
Proof. destruct p as [|c p]; [done|]. intros _. cbn [app path_str]. apply (path_str'_app (c :: p)). Qed.

(** ** Names of layers *)
Lemma b32_char_props c : c ∈ b32_alphabet → c ≠ SLASH ∧ c ≠ "."%char ∧ c ≠ ","%char ∧ c ≠ ":"%char ∧ c ≠ "\"%char.
Proof. intros H. repeat split; intros ->; revert H; apply (bool_decide_eq_true_1 (_ ∉ _)); vm_compute; reflexivity. Qed.
Lemma good_uid id : good_name (uid_b32 id).
Proof.
  pose proof (uid_b32_length id) as L. pose proof (uid_b32_alpha id) as A. rewrite Forall_forall in A.
  split; [intros E; by rewrite E in L|]. split; [intros E; by rewrite E in L|]. split; [intros E; by rewrite E in L|].
  intros H. by apply A, b32_char_props in H as [? _].
Qed.

(** ** Plain text *)
Definition plain_char (c : ascii) : Prop := c ≠ ","%char ∧ c ≠ ":"%char ∧ c ≠ "\"%char.
Definition plain_text (s : bytes) : Prop := Forall plain_char s.
Definition plain_path (p : path) : Prop := Forall plain_text p.
Lemma plain_uid id : plain_text (uid_b32 id).
Proof. pose proof (uid_b32_alpha id) as A. eapply Forall_impl; [exact A|]. intros c H. apply b32_char_props in H. unfold plain_char. tauto. Qed.
Lemma plain_slash : plain_char SLASH.
Proof. done. Qed.
Lemma plain_path_str' p : plain_path p → plain_text (path_str' p).
Proof.
  induction 1 as [|c p Hc Hp IH]; [constructor|]. cbn. constructor; [apply plain_slash|]. apply Forall_app. done.
Qed.
Lemma plain_path_str p : plain_path p → plain_text (path_str p).
Proof. intros H. destruct p; [repeat constructor; done|]. by apply plain_path_str'. Qed.
Lemma plain_take n s : plain_text s → plain_text (take n s).
Proof. apply Forall_take. Qed.

(** ** The parsers on plain text *)
Definition no_comma (s : bytes) : Prop := Forall (λ c, c ≠ ","%char ∧ c ≠ "\"%char) s.
Lemma plain_no_comma s : plain_text s → no_comma s.
Proof. intros H. eapply Forall_impl; [exact H|]. unfold plain_char. tauto. Qed.
Lemma split_opts_last s : no_comma s → split_opts false s = [s].
Proof.
  induction 1 as [|c s [H1 H2] Hs IH]; [done|]. cbn [split_opts]. rewrite decide_False by done.
  rewrite bool_decide_eq_false_2 by done. by rewrite IH.
Qed.
Lemma split_opts_comma s r : no_comma s → split_opts false (s ++ ","%char :: r) = s :: split_opts false r.
Proof.
  induction 1 as [|c s [H1 H2] Hs IH]; cbn [split_opts app]; [by rewrite decide_True|]. rewrite decide_False by done.
  rewrite bool_decide_eq_false_2 by done. by rewrite IH.
Qed.
Lemma unescape_plain s : plain_text s → unescape s = s.
Proof. induction 1 as [|c s (H1 & H2 & H3) Hs IH]; [done|]. cbn [unescape]. rewrite decide_False by done. by rewrite IH. Qed.
Lemma split_lower_last s : plain_text s → split_lower false s = [s].
Proof.
  induction 1 as [|c s (H1 & H2 & H3) Hs IH]; [done|]. cbn [split_lower]. rewrite !decide_False by done. by rewrite IH.
Qed.
Lemma split_lower_colon s r : plain_text s → split_lower false (s ++ ":"%char :: r) = s :: split_lower false r.
Proof.
  induction 1 as [|c s (H1 & H2 & H3) Hs IH]; cbn [split_lower app]; [by rewrite decide_False, decide_True|]. rewrite !decide_False by done. by rewrite IH.
Qed.
Lemma join_colon_cons2 s t l : join_colon (s :: t :: l) = s ++ ":"%char :: join_colon (t :: l).
Proof. reflexivity. Qed.
Lemma split_join l : Forall plain_text l → l ≠ [] → split_lower false (join_colon l) = l.
Proof.
  intros F N. induction F as [|s l Hs Hl IH]; [done|]. destruct l as [|t l]; [by apply split_lower_last|].
  rewrite join_colon_cons2, split_lower_colon by done. by rewrite IH.
Qed.
Lemma no_comma_join l : Forall plain_text l → no_comma (join_colon l).
Proof.
  induction 1 as [|s l Hs Hl IH]; [constructor|]. destruct l as [|t l]; [by apply plain_no_comma|].
  rewrite join_colon_cons2. apply Forall_app. split; [by apply plain_no_comma|]. constructor; [done|done].
Qed.
Lemma no_comma_lit s : forallb (λ c, negb (Ascii.eqb c ","%char) && negb (Ascii.eqb c "\"%char)) s = true → no_comma s.
Proof.
  intros H. apply Forall_forall. intros c Hc. apply elem_of_list_In in Hc. rewrite forallb_forall in H.
  specialize (H c Hc). apply andb_true_iff in H as [H1 H2]. rewrite negb_true_iff in H1, H2.
  apply Ascii.eqb_neq in H1, H2. done.
Qed.

(** ** The whole option string *)
Section data.
  Context (L U W : bytes) (HL : no_comma L) (HU : no_comma U) (HW : no_comma W).
  Definition opt_text : bytes := B "lowerdir=" ++ L ++ B ",upperdir=" ++ U ++ B ",workdir=" ++ W.
  Let oA := B "lowerdir=" ++ L.
  Let oB := B "upperdir=" ++ U.
  Let oC := B "workdir=" ++ W.
  Lemma opt_text_eq : opt_text = oA ++ ","%char :: oB ++ ","%char :: oC.
  Proof. unfold opt_text, oA, oB, oC. change (B ",upperdir=") with (","%char :: B "upperdir="). change (B ",workdir=") with (","%char :: B "workdir="). by rewrite <-!app_assoc. Qed.
  Lemma nc_A : no_comma oA.
  Proof. apply Forall_app. split; [by apply no_comma_lit|done]. Qed.
  Lemma nc_B : no_comma oB.
  Proof. apply Forall_app. split; [by apply no_comma_lit|done]. Qed.
  Lemma nc_C : no_comma oC.
  Proof. apply Forall_app. split; [by apply no_comma_lit|done]. Qed.
  Lemma nc_take n s : no_comma s → no_comma (take n s).
  Proof. apply Forall_take. Qed.
  Lemma split_cut n : split_opts false (take n opt_text) =
    if decide (n ≤ length oA) then [take n oA]
    else let m := n - length oA - 1 in
         if decide (m ≤ length oB) then [oA; take m oB] else [oA; oB; take (m - length oB - 1) oC].
  Proof.
    rewrite opt_text_eq. case_decide as D1.
    { rewrite take_app_le by done. apply split_opts_last, nc_take, nc_A. }
    assert (∃ m, n = length oA + S m) as [m ->] by (exists (n - length oA - 1); lia).
    rewrite firstn_app_2. cbn [take]. rewrite split_opts_comma by apply nc_A.
    cbv zeta. replace (length oA + S m - length oA - 1) with m by lia. case_decide as D2.
    { f_equal. rewrite take_app_le by done. apply split_opts_last, nc_take, nc_B. }
    assert (∃ j, m = length oB + S j) as [j ->] by (exists (m - length oB - 1); lia).
    rewrite firstn_app_2. cbn [take]. rewrite split_opts_comma by apply nc_B.
    replace (length oB + S j - length oB - 1) with j by lia. do 2 f_equal. apply split_opts_last, nc_take, nc_C.
  Qed.
  Lemma split_all : split_opts false opt_text = [oA; oB; oC].
  Proof. rewrite opt_text_eq, split_opts_comma, split_opts_comma, split_opts_last by auto using nc_A, nc_B, nc_C. done. Qed.

  Lemma parse_lower m s : parse_opt (Ok m) (B "lowerdir=" ++ s) = Ok (MOpts (Some s) (mo_upper m) (mo_work m)).
  Proof. reflexivity. Qed.
  Lemma parse_upper m s : parse_opt (Ok m) (B "upperdir=" ++ s) = Ok (MOpts (mo_lower m) (Some s) (mo_work m)).
  Proof. reflexivity. Qed.
  Lemma parse_work m s : parse_opt (Ok m) (B "workdir=" ++ s) = Ok (MOpts (mo_lower m) (mo_upper m) (Some s)).
  Proof. reflexivity. Qed.
  Lemma parse_all : parse_opts opt_text = Ok (MOpts (Some L) (Some U) (Some W)).
  Proof. unfold parse_opts. rewrite split_all. reflexivity. Qed.
  (** A cut "upperdir=..." *)
  Lemma parse_cut_upper k m m' : parse_opt (Ok m) (take k oB) = Ok m' →
    k = 0 ∧ m' = m ∨ m' = MOpts (mo_lower m) (Some (take (k - 9) U)) (mo_work m).
  Proof.
    unfold oB. intros H. do 9 (destruct k as [|k]; [first [by left; split; [done|]; injection H as <-|discriminate H]|]).
    right. revert H. cbn [take app]. intros H. replace (S (S (S (S (S (S (S (S (S k)))))))) - 9) with k by lia.
    change (parse_opt (Ok m) (B "upperdir=" ++ take k U) = Ok m') in H. rewrite parse_upper in H. by injection H as <-.
  Qed.
  (** A cut "workdir=..." *)
  Lemma parse_cut_work k m m' : parse_opt (Ok m) (take k oC) = Ok m' →
    m' = m ∨ m' = MOpts (mo_lower m) (mo_upper m) (Some (take (k - 8) W)).
  Proof.
    unfold oC. intros H. do 8 (destruct k as [|k]; [first [by left; injection H as <-|discriminate H]|]).
    right. revert H. cbn [take app]. intros H. replace (S (S (S (S (S (S (S (S k))))))) - 8) with k by lia.
    change (parse_opt (Ok m) (B "workdir=" ++ take k W) = Ok m') in H. rewrite parse_work in H. by injection H as <-.
  Qed.
  (** Whatever is cut off at the end: no upper directory, or no work directory, or the intended upper
      directory and the beginning of the work directory. *)
  Lemma parse_cut n m : 9 ≤ n → parse_opts (take n opt_text) = Ok m →
    (mo_upper m = None ∧ mo_work m = None ∧ ∃ j, mo_lower m = Some (take j L) ∧ (j = n - 9 ∧ j ≤ length L ∨ j = length L ∧ n = length L + 10)) ∨
    (mo_work m = None ∧ is_Some (mo_upper m) ∧ mo_lower m = Some L) ∨
    (mo_lower m = Some L ∧ mo_upper m = Some U ∧ mo_work m = Some (take (n - length L - length U - 28) W)).
  Proof.
    intros Hn. unfold parse_opts. rewrite split_cut. case_decide as D1; [|cbv zeta; case_decide as D2]; cbn [foldl].
    - unfold oA. rewrite take_app_ge by (cbn; lia). rewrite parse_lower. intros [= <-]. left. cbn [mo_upper mo_work mo_lower].
      split; [done|]. split; [done|]. exists (n - 9). split; [done|]. left. split; [done|].
      unfold oA in D1. rewrite app_length in D1. change (length (B "lowerdir=")) with 9 in D1. lia.
    - unfold oA at 1. rewrite parse_lower. cbn [mo_upper mo_work mo_lower]. intros H.
      apply parse_cut_upper in H as [[E ->]| ->]; cbn [mo_upper mo_work mo_lower].
      + left. split; [done|]. split; [done|]. exists (length L). rewrite firstn_all. split; [done|]. right. split; [done|].
        unfold oA in D1, E. rewrite app_length in D1, E. change (length (B "lowerdir=")) with 9 in D1, E. lia.
      + right. left. split; [done|]. split; [eauto|done].
    - unfold oA at 1, oB at 1. rewrite parse_lower, parse_upper. cbn [mo_upper mo_work mo_lower]. intros H.
      apply parse_cut_work in H as [->| ->]; cbn [mo_upper mo_work mo_lower].
      + right. left. split; [done|]. split; [eauto|done].
      + right. right. split; [done|]. split; [done|]. do 2 f_equal. unfold oA, oB. rewrite !app_length.
        change (length (B "lowerdir=")) with 9. change (length (B "upperdir=")) with 9. lia.
  Qed.
End data.

Lemma overlay_data_text lowers upper work :
  overlay_data lowers upper work = opt_text (join_colon (path_str <$> lowers)) (path_str upper) (path_str work).
Proof. reflexivity. Qed.
Lemma plain_strs l : Forall plain_path l → Forall plain_text (path_str <$> l).
Proof. intros H. apply Forall_fmap. eapply Forall_impl; [exact H|]. intros p. apply plain_path_str. Qed.
Lemma kernel_exact lowers upper work : Forall plain_path lowers → plain_path upper → plain_path work → lowers ≠ [] →
  length (overlay_data lowers upper work) ≤ 4095 →
  kernel_dirs (overlay_data lowers upper work) = Ok (ODirs (path_str <$> lowers) (Some (path_str upper)) (Some (path_str work))).
Proof.
  intros PL PU PW N Hl. unfold kernel_dirs, page_cut. rewrite take_ge by done. rewrite overlay_data_text, parse_all.
  - rewrite split_join; [|by apply plain_strs|by destruct lowers]. cbn. by rewrite !unescape_plain by (by apply plain_path_str).
  - by apply no_comma_join, plain_strs.
  - by apply plain_no_comma, plain_path_str.
  - by apply plain_no_comma, plain_path_str.
Qed.
(** However long the string: the upper directory is the intended one, or there is none, or the mount is
    refused for want of a work directory. *)
Lemma kernel_cut lowers upper work d : Forall plain_path lowers → plain_path upper → plain_path work → lowers ≠ [] →
  kernel_dirs (overlay_data lowers upper work) = Ok d →
  od_upper d = None ∨ od_work d = None ∨ (od_upper d = Some (path_str upper) ∧ od_lowers d = path_str <$> lowers).
Proof.
  intros PL PU PW N. unfold kernel_dirs, page_cut. rewrite overlay_data_text.
  destruct (parse_opts _) as [m| | | |] eqn:E; try done.
  apply parse_cut in E; [|by apply no_comma_join, plain_strs|by apply plain_no_comma, plain_path_str|by apply plain_no_comma, plain_path_str|lia].
  destruct m as [[l|] u k]; [|done]. cbn [mo_upper mo_work mo_lower] in E. intros [= <-]. cbn [od_upper od_work od_lowers].
  destruct E as [(-> & _)|[(-> & _)|(E1 & -> & _)]]; [by left|by right; left|].
  right. right. injection E1 as ->. cbn. rewrite unescape_plain by (by apply plain_path_str).
  by rewrite split_join; [|by apply plain_strs|by destruct lowers].
Qed.

(** ** Directories whose strings all have the same length *)
Lemma join_colon_length l c : Forall (λ s, length s = c) l → l ≠ [] → S (length (join_colon l)) = S c * length l.
Proof.
  induction 1 as [|s l Hs Hl IH]; [done|]. intros _. destruct l as [|t l]; [cbn [join_colon length]; lia|].
  rewrite join_colon_cons2, app_length. cbn [length] in *. rewrite Hs. specialize (IH ltac:(done)). lia.
Qed.
Lemma take_join l c m e : Forall (λ s, length s = c) l → e ≤ c → m < length l →
  take (S c * m + e) (join_colon l) = join_colon (take m l ++ [take e (nth m l [])]).
Proof.
  intros F He. revert m. induction F as [|s l Hs Hl IH]; intros m Hm; [cbn in Hm; lia|].
  destruct m as [|m].
  - rewrite Nat.mul_0_r. cbn [Nat.add take nth app]. destruct l as [|t l]; [reflexivity|].
    rewrite join_colon_cons2. cbn [join_colon]. apply take_app_le. lia.
  - cbn [length] in Hm. destruct l as [|t l]; [cbn in Hm; lia|]. rewrite join_colon_cons2.
    change (nth (S m) (s :: t :: l) []) with (nth m (t :: l) []). cbn [take]. replace (S c * S m + e) with (length s + S (S c * m + e)) by lia.
    rewrite firstn_app_2. cbn [take]. rewrite IH by (cbn in *; lia).
    change ((s :: take m (t :: l)) ++ [take e (nth m (t :: l) [])]) with (s :: (take m (t :: l) ++ [take e (nth m (t :: l) [])])).
    destruct (take m (t :: l) ++ [take e (nth m (t :: l) [])]) as [|x y] eqn:Ex; [by destruct (take m (t :: l))|].
    done.
Qed.
Lemma split_take_join l c m e : Forall (λ s, length s = c) l → Forall plain_text l → e ≤ c → m < length l →
  split_lower false (take (S c * m + e) (join_colon l)) = take m l ++ [take e (nth m l [])].
Proof.
  intros F P He Hm. rewrite (take_join l c m e F He Hm). apply split_join.
  - apply Forall_app. split; [by apply Forall_take|]. constructor; [|constructor]. apply plain_take.
    rewrite Forall_forall in P. apply P. apply elem_of_list_In, nth_In. done.
  - by destruct (take m l).
Qed.

(** ** The directories of the program *)
Lemma layer_path_length dr id : dr ≠ [] → length (path_str (diff_dir (dr ++ [B "overlay"]) id)) = length (path_str dr) + 40.
Proof.
  intros N. unfold diff_dir, layer_dir. rewrite <-!app_assoc, path_str_app, app_length by done. f_equal.
  rewrite path_str'_length. cbn [app foldr]. rewrite uid_b32_length. reflexivity.
Qed.
Lemma work_path_length dr id : dr ≠ [] → length (path_str ((dr ++ [B "mounts"; uid_b32 id]) ++ [B "work"])) = length (path_str dr) + 39.
Proof.
  intros N. rewrite <-!app_assoc, path_str_app, app_length by done. f_equal.
  rewrite path_str'_length. cbn [app foldr]. rewrite uid_b32_length. reflexivity.
Qed.
Lemma overlay_length dr lowers upper mid : dr ≠ [] → lowers ≠ [] →
  length (overlay_data (diff_dir (dr ++ [B "overlay"]) <$> lowers) (diff_dir (dr ++ [B "overlay"]) upper) ((dr ++ [B "mounts"; uid_b32 mid]) ++ [B "work"]))
  = (length (path_str dr) + 41) * length lowers + 2 * length (path_str dr) + 106.
Proof.
  intros N NL. unfold overlay_data. rewrite !app_length, layer_path_length, work_path_length by done.
  assert (Forall (λ s, length s = length (path_str dr) + 40) (path_str <$> (diff_dir (dr ++ [B "overlay"]) <$> lowers))) as F.
  { apply Forall_fmap, Forall_fmap, Forall_true. intros id. by apply layer_path_length. }
  pose proof (join_colon_length _ _ F ltac:(by destruct lowers)) as J. rewrite !fmap_length in J.
  change (length (B "lowerdir=")) with 9. change (length (B ",upperdir=")) with 10. change (length (B ",workdir=")) with 9. lia.
Qed.
Lemma plain_diff dr id : plain_path dr → plain_path (diff_dir (dr ++ [B "overlay"]) id).
Proof.
  intros P. unfold diff_dir, layer_dir. rewrite <-!app_assoc. apply Forall_app. split; [done|].
  constructor; [repeat constructor; done|]. constructor; [apply plain_uid|]. constructor; [repeat constructor; done|constructor].
Qed.
Lemma plain_work dr id : plain_path dr → plain_path ((dr ++ [B "mounts"; uid_b32 id]) ++ [B "work"]).
Proof.
  intros P. rewrite <-!app_assoc. apply Forall_app. split; [done|].
  constructor; [repeat constructor; done|]. constructor; [apply plain_uid|]. constructor; [repeat constructor; done|constructor].
Qed.
Lemma good_lit s : good_name (B s) ↔ (B s ≠ [] ∧ B s ≠ B "." ∧ B s ≠ B ".." ∧ SLASH ∉ B s).
Proof. done. Qed.
Lemma good_diff_name : good_name (B "diff").
Proof. repeat split; try done. apply (bool_decide_eq_true_1 (_ ∉ _)). vm_compute. reflexivity. Qed.
Lemma good_overlay : good_name (B "overlay").
Proof. repeat split; try done. apply (bool_decide_eq_true_1 (_ ∉ _)). vm_compute. reflexivity. Qed.
Lemma good_mounts : good_name (B "mounts").
Proof. repeat split; try done. apply (bool_decide_eq_true_1 (_ ∉ _)). vm_compute. reflexivity. Qed.
Lemma good_spaces : good_name (B "spaces").
Proof. repeat split; try done. apply (bool_decide_eq_true_1 (_ ∉ _)). vm_compute. reflexivity. Qed.
Lemma good_work : good_name (B "work").
Proof. repeat split; try done. apply (bool_decide_eq_true_1 (_ ∉ _)). vm_compute. reflexivity. Qed.
Lemma good_merged : good_name (B "merged").
Proof. repeat split; try done. apply (bool_decide_eq_true_1 (_ ∉ _)). vm_compute. reflexivity. Qed.
Lemma good_diff dr id : good_path dr → good_path (diff_dir (dr ++ [B "overlay"]) id).
Proof.
  intros G. unfold diff_dir, layer_dir. rewrite <-!app_assoc. apply Forall_app. split; [done|].
  constructor; [apply good_overlay|]. constructor; [apply good_uid|]. constructor; [apply good_diff_name|constructor].
Qed.
Lemma good_mount_dir dr id n : good_path dr → good_name n → good_path ((dr ++ [B "mounts"; uid_b32 id]) ++ [n]).
Proof.
  intros G Gn. rewrite <-!app_assoc. apply Forall_app. split; [done|].
  constructor; [apply good_mounts|]. constructor; [apply good_uid|]. constructor; [done|constructor].
Qed.

(** ** mount and umount *)
Lemma kern_dir_ok w p q : good_path p → kern_dir w (path_str p) = Ok q → is_dir_at (w_fs w) p = true → q = p.
Proof.
  intros G E D. unfold kern_dir in E. destruct (path_str p) eqn:Ep; [by destruct (path_str_ne p)|]. rewrite <-Ep, abs_path_str in E by done.
  rewrite (real_dir _ _ D), D in E. by injection E as ->.
Qed.
Lemma kern_dir_dir w p : good_path p → is_dir_at (w_fs w) p = true → kern_dir w (path_str p) = Ok p.
Proof.
  intros G D. unfold kern_dir. destruct (path_str p) eqn:Ep; [by destruct (path_str_ne p)|]. rewrite <-Ep, abs_path_str by done.
  by rewrite (real_dir _ _ D), D.
Qed.
Lemma kern_dirs_dirs w ps : Forall good_path ps → Forall (λ p, is_dir_at (w_fs w) p = true) ps → kern_dirs w (path_str <$> ps) = Ok ps.
Proof.
  induction 1 as [|p ps Hp Hps IH]; [done|]. intros D. inversion_clear D. rewrite fmap_cons. cbn [kern_dirs].
  rewrite kern_dir_dir by done. by rewrite IH.
Qed.
Lemma kern_dirs_ok w ps qs : Forall good_path ps → Forall (λ p, is_dir_at (w_fs w) p = true) ps → kern_dirs w (path_str <$> ps) = Ok qs → qs = ps.
Proof. intros G D E. rewrite kern_dirs_dirs in E by done. by injection E as ->. Qed.
Lemma sys_mount_ok target data o w u w' : sys_mount target data o w = (Ok u, w') →
  ∃ q d m, real_path (w_fs w) target = Some q ∧ is_dir_at (w_fs w) q = true ∧ kernel_dirs data = Ok d ∧
    overlay_of (tick w) q d = Ok m ∧ w' = set_mounts (tick w) (m :: w_mounts w).
Proof.
  unfold sys_mount, sys_atomic. destruct (ch_fault _) as [|? ?|[|?]]; try done. cbn [w_fs tick].
  destruct (real_path (w_fs w) target) as [q|]; [|done]. destruct (is_dir_at (w_fs w) q) eqn:D; [|done].
  destruct (kernel_dirs data) as [d| | | |] eqn:K; try done.
  destruct (overlay_of (tick w) q d) as [m| | | |] eqn:Om; try done.
  intros [= _ <-]. exists q, d, m. done.
Qed.
Lemma h_mount target data (P : world → Prop) (Q : unit → world → Prop) (E : world → Prop) :
  (∀ w, P w → E (tick w)) →
  (∀ w q d m, P w → real_path (w_fs w) target = Some q → is_dir_at (w_fs w) q = true → kernel_dirs data = Ok d →
     overlay_of (tick w) q d = Ok m → let w' := set_mounts (tick w) (m :: w_mounts w) in Q tt w' ∧ E w') →
  hoare P (sys_mount target data) Q E.
Proof.
  intros H1 H2. apply h_atomic; [done|]. intros _ w Hw. cbn [w_fs tick].
  destruct (real_path (w_fs w) target) as [q|] eqn:R; [|auto]. destruct (is_dir_at (w_fs w) q) eqn:D; [|auto].
  destruct (kernel_dirs data) as [d| | | |] eqn:K; auto. destruct (overlay_of (tick w) q d) as [m| | | |] eqn:Om; auto.
  exact (H2 w q d m Hw R D eq_refl Om).
Qed.
Lemma overlay_of_at w q d m : overlay_of w q d = Ok m → mn_at m = q.
Proof.
  unfold overlay_of. destruct (od_upper d) as [u|]; [destruct (od_work d) as [k|]; [|done]|].
  - destruct (kern_dir w u); try done. destruct (kern_dir w k); try done. destruct (is_prefix _ _ || _); [done|].
    destruct (kern_dirs w (od_lowers d)); try done. destruct (_ || _); [done|]. by intros [= <-].
  - destruct (kern_dirs w (od_lowers d)); try done. destruct (_ || _); [done|]. by intros [= <-].
Qed.
Lemma overlay_of_upper w q d m : overlay_of w q d = Ok m →
  mn_upper m = None ∨ ∃ u u', od_upper d = Some u ∧ is_Some (od_work d) ∧ kern_dir w u = Ok u' ∧ mn_upper m = Some u'.
Proof.
  unfold overlay_of. destruct (od_upper d) as [u|]; [destruct (od_work d) as [k|]; [|done]|].
  - destruct (kern_dir w u) eqn:Ku; try done. destruct (kern_dir w k); try done. destruct (is_prefix _ _ || _); [done|].
    destruct (kern_dirs w (od_lowers d)); try done. destruct (_ || _); [done|]. intros [= <-]. right. eauto 10.
  - destruct (kern_dirs w (od_lowers d)); try done. destruct (_ || _); [done|]. intros [= <-]. by left.
Qed.
(** The upper directory of a mount made by the program, for plain paths of any number and length *)
Lemma mount_upper lowers upper work w q d m : Forall plain_path lowers → plain_path upper → plain_path work → lowers ≠ [] →
  good_path upper → is_dir_at (w_fs w) upper = true → kernel_dirs (overlay_data lowers upper work) = Ok d →
  overlay_of w q d = Ok m → mn_upper m = None ∨ mn_upper m = Some upper.
Proof.
  intros PL PU PW N G D K Om. apply overlay_of_upper in Om as [->|(u & u' & E1 & [k E2] & E3 & ->)]; [by left|].
  destruct (kernel_cut _ _ _ _ PL PU PW N K) as [E|[E|[E _]]]; [congruence|congruence|].
  rewrite E in E1. injection E1 as <-. right. f_equal. by eapply kern_dir_ok.
Qed.
Lemma umount_ok target o w u w' : sys_umount target o w = (Ok u, w') →
  ∃ q, real_path (w_fs w) target = Some q ∧ mounted_at (w_mounts w) q = true ∧ w' = set_mounts (tick w) (drop_mount (w_mounts w) q).
Proof.
  unfold sys_umount, sys_atomic. destruct (ch_fault _) as [|? ?|[|?]]; try done. cbn [w_fs tick w_mounts].
  destruct (real_path (w_fs w) target) as [q|]; [|done]. destruct (mounted_at _ _) eqn:E; [|done]. intros [= _ <-]. eauto.
Qed.
Lemma h_umount target (P : world → Prop) (Q : unit → world → Prop) (E : world → Prop) :
  (∀ w, P w → E (tick w)) →
  (∀ w q, P w → real_path (w_fs w) target = Some q → mounted_at (w_mounts w) q = true →
     let w' := set_mounts (tick w) (drop_mount (w_mounts w) q) in Q tt w' ∧ E w') →
  hoare P (sys_umount target) Q E.
Proof.
  intros H1 H2. apply h_atomic; [done|]. intros _ w Hw. cbn [w_fs tick w_mounts].
  destruct (real_path (w_fs w) target) as [q|] eqn:R; [|auto]. destruct (mounted_at _ _) eqn:Mt; [|auto].
  exact (H2 w q Hw R Mt).
Qed.
Lemma drop_mount_elem ms p m : m ∈ drop_mount ms p → m ∈ ms.
Proof. induction ms as [|x ms IH]; [done|]. cbn [drop_mount]. case_decide; rewrite ?elem_of_cons; tauto. Qed.
Lemma drop_mount_other ms p m : m ∈ ms → mn_at m ≠ p → m ∈ drop_mount ms p.
Proof.
  induction ms as [|x ms IH]; [done|]. cbn [drop_mount]. intros [->|H]%elem_of_cons N.
  - rewrite decide_False by done. left.
  - case_decide; [done|]. right. auto.
Qed.

(** A string longer than a page never gives the intended work directory. *)
Lemma kernel_too_long lowers upper work d : Forall plain_path lowers → plain_path upper → plain_path work →
  4095 < length (overlay_data lowers upper work) →
  kernel_dirs (overlay_data lowers upper work) = Ok d →
  od_work d = None ∨ ∃ j, j < length (path_str work) ∧ od_work d = Some (take j (path_str work)).
Proof.
  intros PL PU PW Hl. unfold kernel_dirs, page_cut. rewrite overlay_data_text in *.
  destruct (parse_opts _) as [m| | | |] eqn:E; try done.
  apply parse_cut in E; [|by apply no_comma_join, plain_strs|by apply plain_no_comma, plain_path_str|by apply plain_no_comma, plain_path_str|lia].
  destruct m as [[l|] u k]; [|done]. cbn [mo_upper mo_work mo_lower] in E. intros [= <-]. cbn [od_upper od_work od_lowers].
  destruct E as [(_ & -> & _)|[(-> & _)|(_ & _ & ->)]]; [by left|by left|]. right.
  cbn. rewrite unescape_plain by (by apply plain_take, plain_path_str). eexists. split; [|reflexivity].
  unfold opt_text in Hl. rewrite !app_length in Hl.
  change (length (B "lowerdir=")) with 9 in Hl. change (length (B ",upperdir=")) with 10 in Hl. change (length (B ",workdir=")) with 9 in Hl.
  assert (0 < length (path_str work)) by (destruct (path_str work) eqn:Ep; [by destruct (path_str_ne work)|cbn; lia]). lia.
Qed.
(** The lower directories take up more than a page: the list is cut, there is no upper directory. *)
Lemma kernel_cut_lowers lowers upper work c m e : Forall plain_path lowers →
  Forall (λ p, length (path_str p) = c) lowers → e ≤ c → m < length lowers → S c * m + e = 4086 →
  kernel_dirs (overlay_data lowers upper work) = Ok (ODirs (take m (path_str <$> lowers) ++ [take e (path_str (nth m lowers []))]) None None).
Proof.
  intros PL F He Hm Hs. unfold kernel_dirs, page_cut. unfold overlay_data.
  assert (Forall (λ s, length s = c) (path_str <$> lowers)) as F' by (apply Forall_fmap; exact F).
  assert (4086 ≤ length (join_colon (path_str <$> lowers))) as Hj.
  { pose proof (join_colon_length _ _ F' ltac:(by destruct lowers; [cbn in Hm; lia|])) as J. rewrite fmap_length in J. nia. }
  change 4095 with (length (B "lowerdir=") + 4086). rewrite firstn_app_2, take_app_le by done.
  unfold parse_opts. rewrite split_opts_last.
  2:{ apply Forall_app. split; [by apply no_comma_lit|]. apply Forall_take. by apply no_comma_join, plain_strs. }
  cbn [foldl]. rewrite parse_lower. cbn [mo_upper mo_work fmap option_fmap option_map]. do 2 f_equal.
  rewrite <-Hs. rewrite (split_take_join _ c) by (rewrite ?fmap_length; auto using plain_strs). do 3 f_equal.
  change (@nil ascii) with (path_str' []) at 1.
  rewrite (nth_indep (path_str <$> lowers) (path_str' []) (path_str [])) by (by rewrite fmap_length). apply (map_nth path_str).
Qed.
Lemma overlapping_same_length ls c : Forall (λ p, length p = c) ls → overlapping ls = false.
Proof.
  intros F. rewrite Forall_forall in F. unfold overlapping.
  apply not_true_is_false. intros H. apply existsb_exists in H as (p & Hp & H). apply existsb_exists in H as (q & Hq & H).
  apply elem_of_list_In, F in Hp. apply elem_of_list_In, F in Hq. unfold under in H. apply andb_true_iff in H as [H1 H2].
  apply is_prefix_spec in H1 as [k ->]. rewrite app_length in Hq. assert (k = []) as -> by (destruct k; [done|cbn in Hq; lia]).
  rewrite app_nil_r, bool_decide_eq_true_2 in H2 by done. done.
Qed.
