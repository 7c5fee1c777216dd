(** * The command line: C57, C62 to C66 *)
From Coq Require Import Lia.
From stdpp Require Import prelude gmap.
From Verif Require Import Base Fs Errors Ws Os Commands.
From Verif Require SpecCmds.
From Verif Require Import Sample Cli CliProofs.

(** ** C57 Running again under sudo passes the identity *)
Lemma parse_cli_inv args i :
  parse_cli args = Ok (Some i) →
  ∃ rest p, find_cmd args = Ok (i_cmd i, rest) ∧ parse_args (flags_of (i_cmd i)) rest = Ok p ∧
    i = Inv (i_cmd i) (p_sets p) (p_args p) (p_dash p) ∧
    opt_bool i (B "help") = false ∧ opt_bool i (B "version") = false ∧ args_ok (i_cmd i) (length (i_args i)) = true ∧
    i_cmd i ≠ COther.
Proof.
  unfold parse_cli. destruct (find_cmd args) as [[c rest]| | | |] eqn:Ef; try done. cbn [mbind res_bind rbind fst snd].
  assert ((p ← parse_args (flags_of c) rest;
      let i := Inv c (p_sets p) (p_args p) (p_dash p) in
      if opt_bool i (B "help") then Ok None
      else if opt_bool i (B "version") then Ok None
      else if args_ok c (length (p_args p)) then Ok (Some i)
      else Err EOptions) = Ok (Some i) → c ≠ COther →
    ∃ rest' p, Ok (c, rest) = Ok (i_cmd i, rest') ∧ parse_args (flags_of (i_cmd i)) rest' = Ok p ∧
    i = Inv (i_cmd i) (p_sets p) (p_args p) (p_dash p) ∧
    opt_bool i (B "help") = false ∧ opt_bool i (B "version") = false ∧ args_ok (i_cmd i) (length (i_args i)) = true ∧
    i_cmd i ≠ COther) as H.
  { destruct (parse_args (flags_of c) rest) as [p| | | |] eqn:Ep; try done. cbn [mbind res_bind rbind].
    cbn zeta. destruct (opt_bool _ (B "help")) eqn:E1; [done|]. destruct (opt_bool _ (B "version")) eqn:E2; [done|].
    destruct (args_ok c _) eqn:E3; [|done]. intros [= <-] Hc. exists rest, p. cbn [i_cmd i_args]. done. }
  destruct c; try done; intros H'; by apply H.
Qed.
Lemma parse_cli_intro args c rest p :
  find_cmd args = Ok (c, rest) → c ≠ COther → parse_args (flags_of c) rest = Ok p →
  parse_cli args =
    let i := Inv c (p_sets p) (p_args p) (p_dash p) in
    if opt_bool i (B "help") then Ok None
    else if opt_bool i (B "version") then Ok None
    else if args_ok c (length (p_args p)) then Ok (Some i)
    else Err EOptions.
Proof.
  intros Ef Hc Ep. unfold parse_cli. rewrite Ef. cbn [mbind res_bind rbind fst snd].
  destruct c; try done; rewrite Ep; done.
Qed.
Lemma parse_cli_sudo args i uid gid :
  (uid < 2 ^ 63)%N → (gid < 2 ^ 63)%N → parse_cli args = Ok (Some i) → i_cmd i ≠ CRoot → i_dash i = false →
  parse_cli (sudo_args args uid gid) =
  Ok (Some (Inv (i_cmd i) (i_sets i ++ [(B "uid", fmt_d uid); (B "gid", fmt_d gid)]) (i_args i) false)).
Proof.
  intros Hu Hg (rest & p & Ef & Ep & Ei & H1 & H2 & H3 & H4)%parse_cli_inv Hc Hd.
  unfold sudo_args.
  assert (Ed : p_dash p = false) by (rewrite Ei in Hd; exact Hd).
  rewrite (parse_cli_intro _ _ _ _ (find_cmd_app _ _ _ _ Ef Hc) H4 (parse_app _ _ _ _ _ Ep Ed (extra_parse _ _ _ Hu Hg))).
  cbn zeta. cbn [p_sets p_args p_dash]. rewrite app_nil_r.
  destruct i as [c sets as_ d]. cbn [i_cmd i_args i_sets i_dash] in *. injection Ei as -> -> ->.
  unfold opt_bool in *. cbn [i_sets] in *. rewrite !last_set_app.
  change (last_set [(B "uid", fmt_d uid); (B "gid", fmt_d gid)] (B "help")) with (@None bytes).
  change (last_set [(B "uid", fmt_d uid); (B "gid", fmt_d gid)] (B "version")) with (@None bytes). cbn iota.
  by rewrite H1, H2, H3.
Qed.
Lemma last_set_extra u g name :
  name ≠ B "uid" → name ≠ B "gid" → last_set [(B "uid", u); (B "gid", g)] name = None.
Proof. intros H1 H2. cbn [last_set]. rewrite !decide_False by done. done. Qed.

(** For every argument vector with which the first process asks for sudo and in which the options do not end
    with "--": the second process runs the same command with the same arguments and the same options, and with
    the user and group of the first. *)
Theorem C57_identity_partial args uid gid args' :
  (uid < 2 ^ 63)%N → (gid < 2 ^ 63)%N → start uid gid args = ASudo args' →
  (∀ i, parse_cli args = Ok (Some i) → i_dash i = false) →
  ∃ i i', parse_cli args = Ok (Some i) ∧ start 0 0 args' = ARun i' ∧
    opt_int i' (B "uid") = Z.of_N uid ∧ opt_int i' (B "gid") = Z.of_N gid ∧
    i_cmd i' = i_cmd i ∧ i_args i' = i_args i ∧
    (∀ name, name ≠ B "uid" → name ≠ B "gid" → last_set (i_sets i') name = last_set (i_sets i) name) ∧
    run_command i' = as_user (Z.of_N uid, Z.of_N gid) (perform i).
Proof.
  intros Hu Hg Hs Hd. unfold start in Hs.
  destruct (parse_cli args) as [[i|]| | | |] eqn:Ep; try done. specialize (Hd i eq_refl).
  destruct (2 <? verbosity i)%N eqn:Ev; [done|].
  destruct (needs_root (i_cmd i) && negb (uid =? 0)%N) eqn:En; [|done]. injection Hs as <-.
  apply andb_true_iff in En as [En _].
  assert (Hc : i_cmd i ≠ CRoot) by (intros E; by rewrite E in En).
  pose proof (parse_cli_sudo _ _ _ _ Hu Hg Ep Hc Hd) as Ep'.
  set (i' := Inv _ _ _ _) in Ep'.
  assert (Hl : ∀ name, name ≠ B "uid" → name ≠ B "gid" → last_set (i_sets i') name = last_set (i_sets i) name).
  { intros name H1 H2. unfold i'. cbn [i_sets]. rewrite last_set_app. by rewrite last_set_extra. }
  exists i, i'. split; [done|].
  split.
  { unfold start. rewrite Ep'. unfold verbosity in *. rewrite Hl by done. rewrite Ev. unfold i' at 1. cbn [i_cmd].
    rewrite En. done. }
  assert (opt_int i' (B "uid") = Z.of_N uid) as Eu.
  { unfold opt_int, i'. cbn [i_sets]. rewrite last_set_app.
    change (last_set [(B "uid", fmt_d uid); (B "gid", fmt_d gid)] (B "uid")) with (Some (fmt_d uid)). cbn [mbind option_bind].
    by rewrite (parse_int_fmt _ Hu). }
  assert (opt_int i' (B "gid") = Z.of_N gid) as Eg.
  { unfold opt_int, i'. cbn [i_sets]. rewrite last_set_app.
    change (last_set [(B "uid", fmt_d uid); (B "gid", fmt_d gid)] (B "gid")) with (Some (fmt_d gid)). cbn [mbind option_bind].
    by rewrite (parse_int_fmt _ Hg). }
  split; [done|]. split; [done|].
  - split; [done|]. split; [done|]. split; [exact Hl|].
    unfold run_command. rewrite Eu, Eg. f_equal. unfold perform. unfold i' at 1. cbn [i_cmd]. unfold opt_bytes. rewrite !Hl by done.
    assert (Hb : body i' = body i); [|by rewrite Hb].
    unfold body. unfold opt_bytes, opt_bool. rewrite !Hl by done. reflexivity.
Qed.
(** Whom the workspaces belong to: the caller, and for root, who gives no user, nobody else *)
Definition identity (uid gid : N) : Z * Z := if (uid =? 0)%N then (-1, -1)%Z else (Z.of_N uid, Z.of_N gid).
(** In particular for every vector without an argument "--" *)
Theorem C57_no_dash args i : parse_cli args = Ok (Some i) → B "--" ∉ args → i_dash i = false.
Proof.
  intros (rest & p & Ef & Ep & Ei & _)%parse_cli_inv Hn.
  destruct (i_dash i) eqn:Ed; [|done]. destruct Hn.
  assert (p_dash p = true) by (rewrite Ei in Ed; exact Ed).
  assert (B "--" ∈ rest) as Hin by (by eapply dash_in).
  unfold find_cmd in Ef. destruct (strip_flags global_flags args); [by injection Ef as _ <-|].
  destruct (find_next _); [|done]. injection Ef as _ <-. by eapply minus_sub.
Qed.
(** What happens to all the others: the added arguments are arguments of the command, and not options. Where the number
    of arguments is limited, the second process fails. *)
Theorem C57_dash args i uid gid :
  parse_cli args = Ok (Some i) → needs_root (i_cmd i) = true → i_dash i = true →
  match i_cmd i with
  | CBranch | CTag => parse_cli (sudo_args args uid gid) =
      Ok (Some (Inv (i_cmd i) (i_sets i) (i_args i ++ [B "--uid"; fmt_d uid; B "--gid"; fmt_d gid]) true))
  | _ => start 0 0 (sudo_args args uid gid) = AFail
  end.
Proof.
  intros (rest & p & Ef & Ep & Ei & H1 & H2 & H3 & H4)%parse_cli_inv Hc Hd.
  assert (Hr : i_cmd i ≠ CRoot) by (intros E; by rewrite E in Hc).
  assert (Ed : p_dash p = true) by (rewrite Ei in Hd; exact Hd).
  pose proof (parse_cli_intro _ _ _ _ (find_cmd_app _ [B "--uid"; fmt_d uid; B "--gid"; fmt_d gid] _ _ Ef Hr) H4
    (parse_app_dash _ _ _ [B "--uid"; fmt_d uid; B "--gid"; fmt_d gid] Ep Ed)) as E.
  cbn zeta in E. cbn [p_sets p_args p_dash] in E. fold (sudo_args args uid gid) in E.
  destruct i as [c sets as_ d]. cbn [i_cmd i_args i_sets i_dash] in *. injection Ei as -> -> ->.
  unfold opt_bool in *. cbn [i_sets] in *. rewrite H1, H2 in E. rewrite app_length in E. cbn [length] in E.
  generalize dependent (p_args p). intros l. clear -Hc. intros H3 E.
  destruct c; try done; unfold start; rewrite E; cbn [args_ok];
    by repeat match goal with |- context [?a <=? ?b] => destruct (Nat.leb_spec a b); try lia
              | |- context [?a =? ?b] => destruct (Nat.eqb_spec a b); try lia end.
Qed.
(** So the claim is false for every vector that ends its options with "--". *)
Theorem C57_every_vector_refuted :
  ¬ (∀ args uid gid args', (uid < 2 ^ 63)%N → (gid < 2 ^ 63)%N → start uid gid args = ASudo args' →
       ∃ i, start 0 0 args' = ARun i ∧ opt_int i (B "uid") = Z.of_N uid ∧ opt_int i (B "gid") = Z.of_N gid).
Proof.
  intros H. destruct (H [B "checkout"; B "--"; B "main"] 1000%N 1000%N _ eq_refl eq_refl eq_refl) as (i & E & _).
  vm_compute in E. discriminate E.
Qed.
(** A branch is made with the right name, but the owner is lost. *)
Theorem C57_owner_lost_refuted :
  ∃ args args' i, start 1000 1000 args = ASudo args' ∧ start 0 0 args' = ARun i ∧
    i_cmd i = CTag ∧ take 2 (i_args i) = [B "v1"; B "main"] ∧ opt_int i (B "uid") = (-1)%Z.
Proof. exists [B "tag"; B "--"; B "v1"; B "main"]. eexists _, _. split; [vm_compute; reflexivity|]. split; [vm_compute; reflexivity|]. done. Qed.
(** The caller cannot choose another identity: an option --uid given by hand is overridden. *)
Example C57_sat :
  ∃ args' i, start 1000 100 [B "-C"; B "dir"; B "tag"; B "-fd"; B "--uid=0"; B "--"; B "v"] = ASudo args' ∧
  start 1000 100 [B "-C"; B "dir"; B "tag"; B "-fd"; B "--uid=0"; B "v"] =
    ASudo [B "-C"; B "dir"; B "tag"; B "-fd"; B "--uid=0"; B "v"; B "--uid"; B "1000"; B "--gid"; B "100"] ∧
  start 0 0 [B "-C"; B "dir"; B "tag"; B "-fd"; B "--uid=0"; B "v"; B "--uid"; B "1000"; B "--gid"; B "100"] = ARun i ∧
  opt_int i (B "uid") = 1000%Z ∧ opt_int i (B "gid") = 100%Z ∧ opt_bytes i (B "chdir") [] = B "dir" ∧
  opt_bool i (B "delete") = true ∧ opt_bool i (B "force") = true ∧ opt_bool i (B "list") = false ∧ i_args i = [B "v"].
Proof.
  eexists _, (Inv CTag [(B "chdir", B "dir"); (B "force", B "true"); (B "delete", B "true"); (B "uid", B "0"); (B "uid", B "1000"); (B "gid", B "100")]
                [B "v"] false).
  do 9 (split; [vm_compute; reflexivity|]). vm_compute. reflexivity.
Qed.
Print Assumptions C57_identity_partial.
Print Assumptions C57_no_dash.
Print Assumptions C57_dash.
Print Assumptions C57_every_vector_refuted.
Print Assumptions C57_owner_lost_refuted.

(** ** C62 Several messages *)
(** commit with one option -m for each message *)
Definition commit_line_of (ms : list bytes) : list bytes := B "commit" :: concat ((λ m, [B "-m"; m]) <$> ms).
Lemma parse_messages ms :
  parse_args (flags_of CCommit) (concat ((λ m, [B "-m"; m]) <$> ms)) =
  Ok (Parsed ((λ m, (B "message", m)) <$> ms) [] false).
Proof.
  induction ms as [|m ms IH]; [done|]. cbn [fmap list_fmap concat app].
  change (token_of (B "-m")) with (TShort (B "m")). cbn [parse_args].
  change (token_of (B "-m")) with (TShort (B "m")). cbn iota.
  change (short_arg (flags_of CCommit) (B "m")) with (Ok (@nil setting, Some (Flag (B "message") (Some "m"%char) KString))).
  cbn [mbind res_bind rbind fst snd]. change (set_flag (Flag (B "message") (Some "m"%char) KString) m) with (Ok (B "message", m)).
  cbn [rbind]. change (list_fmap (list ascii) (list bytes)) with (@fmap list list_fmap bytes (list bytes)) in *.
  rewrite IH. reflexivity.
Qed.
Lemma find_commit rest : find_cmd (B "commit" :: rest) = Ok (CCommit, rest).
Proof. reflexivity. Qed.
Lemma last_message ms m : last_set ((λ m, (B "message", m)) <$> ms ++ [m]) (B "message") = Some m.
Proof. rewrite fmap_app, last_set_app. reflexivity. Qed.
Lemma no_message ms name : name ≠ B "message" → last_set ((λ m, (B "message", m)) <$> ms) name = None.
Proof. intros Hn. induction ms as [|m ms IH]; [done|]. rewrite fmap_cons. cbn [last_set]. rewrite IH. by rewrite decide_False. Qed.
Lemma parse_cli_commit ms :
  parse_cli (commit_line_of ms) = Ok (Some (Inv CCommit ((λ m, (B "message", m)) <$> ms) [] false)).
Proof.
  unfold commit_line_of. rewrite (parse_cli_intro _ _ _ _ (find_commit _) ltac:(done) (parse_messages ms)).
  cbn zeta. cbn [p_sets p_args p_dash]. unfold opt_bool. cbn [i_sets]. rewrite !no_message by done. reflexivity.
Qed.
(** The documentation says that the messages are joined as paragraphs. *)
Theorem C62_paragraphs_refuted :
  ¬ (∀ ms i, start 0 0 (commit_line_of ms) = ARun i → opt_bytes i (B "message") [] = join_with [n2b 10; n2b 10] ms).
Proof.
  intros H. specialize (H [B "a"; B "b"] _ eq_refl). vm_compute in H. discriminate H.
Qed.
(** The last one is the message, byte for byte, whatever it contains ("--" and "--uid" included), and the others are
    lost. For the ordinary user and for root *)
Theorem C62_last_message ms m uid gid :
  (uid < 2 ^ 63)%N → (gid < 2 ^ 63)%N →
  ∃ i, (if (uid =? 0)%N then start uid gid (commit_line_of (ms ++ [m])) = ARun i
        else ∃ args', start uid gid (commit_line_of (ms ++ [m])) = ASudo args' ∧ start 0 0 args' = ARun i) ∧
    run_command i = as_user (identity uid gid) (with_manager [] (B "/var/lib/stackcrisp") (λ dr, cmd_commit dr m)).
Proof.
  intros Hu Hg. set (l := ms ++ [m]). pose proof (parse_cli_commit l) as E.
  set (i0 := Inv CCommit _ _ _) in E.
  assert (Ei : perform i0 = with_manager [] (B "/var/lib/stackcrisp") (λ dr, cmd_commit dr m)).
  { unfold perform, i0. cbn [i_cmd]. unfold opt_bytes. cbn [i_sets]. rewrite !no_message by done. cbn [default].
    unfold body. cbn [i_cmd]. unfold opt_bytes. cbn [i_sets]. unfold l. rewrite last_message. reflexivity. }
  assert (Ev : verbosity i0 = 0%N).
  { unfold verbosity, i0. cbn [i_sets]. by rewrite no_message. }
  assert (Es : start uid gid (commit_line_of l) =
    if (uid =? 0)%N then ARun i0 else ASudo (sudo_args (commit_line_of l) uid gid)).
  { unfold start. rewrite E, Ev. cbn [needs_root i_cmd i0]. by destruct (uid =? 0)%N. }
  destruct (uid =? 0)%N eqn:E0.
  - exists i0. split; [done|]. unfold run_command, identity. rewrite Ei, E0. f_equal. unfold opt_int, i0. cbn [i_sets]. by rewrite !no_message.
  - destruct (C57_identity_partial _ _ _ _ Hu Hg Es) as (i & i' & Hi & Hs & _ & _ & _ & _ & _ & Hr).
    { intros i Hi. rewrite E in Hi. by injection Hi as <-. }
    rewrite E in Hi. injection Hi as <-. exists i'. split; [eauto|]. unfold identity. by rewrite Hr, Ei, E0.
Qed.
Example C62_sat : commit_line_of ([B "first"] ++ [B "--uid"]) = [B "commit"; B "-m"; B "first"; B "-m"; B "--uid"].
Proof. reflexivity. Qed.
Print Assumptions C62_paragraphs_refuted.
Print Assumptions C62_last_message.

(** ** C63 Arguments reach the command unchanged *)
(** An argument that is no option *)
Definition plain (a : bytes) : Prop := ∀ s, a = "-"%char :: s → s = [].
Lemma plain_token a : plain a → token_of a = TArg.
Proof.
  intros H. destruct a as [|c a]; [done|]. destruct (decide (c = "-"%char)) as [->|Hc].
  - by rewrite (H a eq_refl).
  - cbn [token_of]. destruct c as [[] [] [] [] [] [] [] []]; done.
Qed.
Lemma token_plain a : token_of a = TArg → plain a.
Proof.
  intros H s ->. destruct s as [|c s]; [done|]. exfalso. cbn [token_of] in H.
  destruct c as [[] [] [] [] [] [] [] []]; try done; by destruct s.
Qed.
Lemma parse_plain fs l : Forall plain l → parse_args fs l = Ok (Parsed [] l false).
Proof.
  induction 1 as [|a l Ha _ IH]; [done|]. cbn [parse_args]. rewrite (plain_token _ Ha), IH. reflexivity.
Qed.
(** Without "--" no argument of the command begins with "-", except for "-". *)
Lemma parse_args_plain fs args p : parse_args fs args = Ok p → p_dash p = false → Forall plain (p_args p).
Proof.
  revert args p. apply (two_step (λ args, ∀ p, parse_args fs args = Ok p → p_dash p = false → Forall plain (p_args p))).
  { intros p [= <-] _. constructor. }
  intros s r IH1 IH2 p. cbn [parse_args].
  assert (Hgen : ∀ e : res effect,
    (e ← e; match e.2 with
       | None => p ← parse_args fs r; Ok (Parsed (e.1 ++ p_sets p) (p_args p) (p_dash p))
       | Some f => match r with
           | [] => Err EOptions
           | v :: rest' => s ← set_flag f v; p ← parse_args fs rest'; Ok (Parsed (e.1 ++ s :: p_sets p) (p_args p) (p_dash p))
           end
       end) = Ok p → p_dash p = false → Forall plain (p_args p)).
  { intros [[sets [f|]]|? | | |]; try done; cbn [mbind res_bind rbind fst snd].
    - destruct r as [|v r']; [done|]. destruct (set_flag f v) as [st| | | |]; try done. cbn [rbind].
      destruct (parse_args fs r') as [p'| | | |] eqn:E; try done. cbn [rbind].
      intros [= <-] Hd. by apply (IH2 v r' eq_refl p' E Hd).
    - destruct (parse_args fs r) as [p'| | | |] eqn:E; try done. cbn [rbind].
      intros [= <-] Hd. by apply (IH1 p' eq_refl Hd). }
  destruct (token_of s) eqn:Et; [|by intros [= <-]|apply Hgen|apply Hgen].
  destruct (parse_args fs r) as [p'| | | |] eqn:E; try done. cbn [mbind res_bind rbind].
  intros [= <-] Hd. constructor; [by apply token_plain|]. by apply (IH1 p' eq_refl Hd).
Qed.
(** What the user asks for with a command's name and arguments, without options *)
Definition asked (name : bytes) (l : list bytes) : option SpecCmds.command :=
  if decide (name = B "init") then match l with [] | [_] => Some (SpecCmds.CInit l (B "main")) | _ => None end
  else if decide (name = B "clone") then
    match l with [s] => Some (SpecCmds.CClone s None) | [s; t] => Some (SpecCmds.CClone s (Some t)) | _ => None end
  else if decide (name = B "commit") then match l with [] => Some (SpecCmds.CCommit []) | _ => None end
  else if decide (name = B "checkout") then match l with [x] => Some (SpecCmds.CCheckout x) | _ => None end
  else if decide (name = B "branch") then Some (SpecCmds.CBranch (BranchOpts false false false false false false) l)
  else if decide (name = B "tag") then Some (SpecCmds.CTag (TagOpts false false false) l)
  else if decide (name = B "log") then match l with [] | [_] => Some (SpecCmds.CLog l) | _ => None end
  else None.
Lemma asked_parse name l q :
  asked name l = Some q → Forall plain l →
  ∃ c, parse_cli (name :: l) = Ok (Some (Inv c [] l false)) ∧ needs_root c = bool_decide (name ≠ B "log") ∧
    perform (Inv c [] l false) = with_manager [] (B "/var/lib/stackcrisp") (λ dr, SpecCmds.run_cmd dr q).
Proof.
  intros Hq Hl. unfold asked in Hq.
  assert (∀ c, find_cmd (name :: l) = Ok (c, l) → c ≠ COther → args_ok c (length l) = true →
    parse_cli (name :: l) = Ok (Some (Inv c [] l false))) as Hp.
  { intros c Ef Hc Ha. rewrite (parse_cli_intro _ _ _ _ Ef Hc (parse_plain _ _ Hl)). cbn zeta. cbn [p_sets p_args p_dash].
    change (opt_bool (Inv c [] l false) (B "help")) with false. change (opt_bool (Inv c [] l false) (B "version")) with false.
    cbn iota. by rewrite Ha. }
  repeat match type of Hq with (if decide ?P then _ else _) = _ => destruct (decide P) as [->|_] end; [..|done].
  - exists CInit. destruct l as [|a [|b l]]; [| |done]; injection Hq as <-; (split; [by apply Hp|split; reflexivity]).
  - exists CClone. destruct l as [|a [|b [|b' l]]]; [done| | |done]; injection Hq as <-; (split; [by apply Hp|split; reflexivity]).
  - exists CCommit. destruct l as [|a l]; [|done]; injection Hq as <-; (split; [by apply Hp|split; reflexivity]).
  - exists CCheckout. destruct l as [|a [|b l]]; [done| |done]; injection Hq as <-; (split; [by apply Hp|split; reflexivity]).
  - exists CBranch. injection Hq as <-; (split; [by apply Hp|split; reflexivity]).
  - exists CTag. injection Hq as <-; (split; [by apply Hp|split; reflexivity]).
  - exists CLog. destruct l as [|a [|b l]]; [| |done]; injection Hq as <-; (split; [by apply Hp|split; reflexivity]).
Qed.
(** Every command with arguments that do not begin with "-": exactly the command that was asked for runs, with these
    arguments byte for byte. An ordinary user gets there through sudo, except for log, which runs at once. *)
Theorem C63_arguments name l q uid gid :
  asked name l = Some q → Forall plain l → (uid < 2 ^ 63)%N → (gid < 2 ^ 63)%N →
  ∃ i, (if decide (uid ≠ 0%N ∧ name ≠ B "log")
        then ∃ args', start uid gid (name :: l) = ASudo args' ∧ start 0 0 args' = ARun i ∧
               opt_int i (B "uid") = Z.of_N uid ∧ opt_int i (B "gid") = Z.of_N gid
        else start uid gid (name :: l) = ARun i) ∧
    run_command i = as_user (if decide (name = B "log") then (-1, -1)%Z else identity uid gid) (with_manager [] (B "/var/lib/stackcrisp") (λ dr, SpecCmds.run_cmd dr q)).
Proof.
  intros Hq Hl Hu Hg. destruct (asked_parse _ _ _ Hq Hl) as (c & E & En & Er).
  assert (Es : start uid gid (name :: l) =
    if bool_decide (name ≠ B "log") && negb (uid =? 0)%N then ASudo (sudo_args (name :: l) uid gid) else ARun (Inv c [] l false)).
  { unfold start. rewrite E. change (verbosity (Inv c [] l false)) with 0%N. cbn [i_cmd]. rewrite En. reflexivity. }
  destruct (decide _) as [[H1 H2]|Hn].
  - rewrite bool_decide_true in Es by done. replace (uid =? 0)%N with false in Es by (symmetry; by apply N.eqb_neq).
    cbn in Es.
    destruct (C57_identity_partial _ _ _ _ Hu Hg Es) as (i & i' & Hi & Hs & Eu & Eg & _ & _ & _ & Hr).
    { intros i Hi. rewrite E in Hi. by injection Hi as <-. }
    rewrite E in Hi. injection Hi as <-. exists i'. split; [by eauto|]. rewrite Hr, Er, decide_False by done. unfold identity. by destruct (N.eqb_spec uid 0).
  - exists (Inv c [] l false). split.
    + rewrite Es. destruct (bool_decide (name ≠ B "log")) eqn:Eb; [|done]. apply bool_decide_eq_true in Eb.
      destruct (N.eqb_spec uid 0); [done|]. by destruct Hn.
    + unfold run_command. rewrite Er. f_equal. case_decide; [done|]. unfold identity. destruct (N.eqb_spec uid 0); [done|]. by destruct Hn.
Qed.
(** Other numbers of arguments are errors, and nothing runs. *)
Theorem C63_wrong_number name l uid gid :
  name ∈ [B "init"; B "clone"; B "commit"; B "checkout"; B "branch"; B "tag"; B "log"] →
  asked name l = None → Forall plain l → start uid gid (name :: l) = AFail.
Proof.
  intros Hn Hq Hl.
  assert (∀ c, find_cmd (name :: l) = Ok (c, l) → c ≠ COther → args_ok c (length l) = false →
    start uid gid (name :: l) = AFail) as Hp.
  { intros c Ef Hc Ha. unfold start. rewrite (parse_cli_intro _ _ _ _ Ef Hc (parse_plain _ _ Hl)). cbn zeta. cbn [p_sets p_args p_dash].
    change (opt_bool (Inv c [] l false) (B "help")) with false. change (opt_bool (Inv c [] l false) (B "version")) with false.
    cbn iota. by rewrite Ha. }
  repeat (apply elem_of_cons in Hn as [->|Hn]; [|]); [..|by apply elem_of_nil in Hn].
  - apply (Hp CInit); [done..|]. destruct l as [|a [|b l]]; done.
  - apply (Hp CClone); [done..|]. destruct l as [|a [|b [|d l]]]; done.
  - apply (Hp CCommit); [done..|]. destruct l as [|a l]; done.
  - apply (Hp CCheckout); [done..|]. destruct l as [|a [|b l]]; done.
  - done.
  - done.
  - apply (Hp CLog); [done..|]. destruct l as [|a [|b l]]; done.
Qed.
Example C63_sat :
  asked (B "checkout") [B "checkout"] = Some (SpecCmds.CCheckout (B "checkout")) ∧ plain (B "checkout") ∧ plain (B "-") ∧
  asked (B "checkout") [] = None ∧ ¬ plain (B "-x").
Proof.
  split; [reflexivity|]. split; [by intros s [=]|]. split; [by intros s [= <-]|]. split; [reflexivity|].
  intros H. by specialize (H _ eq_refl).
Qed.
Print Assumptions C63_arguments.
Print Assumptions C63_wrong_number.

(** ** C64 Branches whose name begins with "-" *)
(** init makes them, and no arguments of an ordinary user check one out. *)
Theorem C64_dashed_name_refuted uid gid :
  (uid < 2 ^ 63)%N → (gid < 2 ^ 63)%N → (uid ≠ 0)%N →
  (∃ i args', start uid gid [B "init"; B "-b"; B "-x"; B "w"] = ASudo args' ∧ start 0 0 args' = ARun i ∧
     run_command i = as_user (Z.of_N uid, Z.of_N gid) (with_manager [] (B "/var/lib/stackcrisp") (λ dr, cmd_init dr [B "w"] (B "-x")))) ∧
  (∀ args args' i, start uid gid args = ASudo args' → start 0 0 args' = ARun i → i_cmd i = CCheckout →
     i_args i ≠ [B "-x"]).
Proof.
  intros Hu Hg H0. split.
  - assert (Es : start uid gid [B "init"; B "-b"; B "-x"; B "w"] = ASudo (sudo_args [B "init"; B "-b"; B "-x"; B "w"] uid gid)).
    { unfold start. change (parse_cli [B "init"; B "-b"; B "-x"; B "w"]) with
        (Ok (Some (Inv CInit [(B "initial-branch", B "-x")] [B "w"] false))).
      cbn iota. replace (uid =? 0)%N with false by (symmetry; by apply N.eqb_neq). reflexivity. }
    destruct (C57_identity_partial _ _ _ _ Hu Hg Es) as (i & i' & Hi & Hs & _ & _ & _ & _ & _ & Hr).
    { intros i Hi. by injection Hi as <-. }
    injection Hi as <-. exists i', (sudo_args [B "init"; B "-b"; B "-x"; B "w"] uid gid).
    split; [done|]. split; [done|]. by rewrite Hr.
  - intros args args' i Es Er Hc Ha.
    assert (Es' := Es). unfold start in Es. destruct (parse_cli args) as [[i0|]| | | |] eqn:E; try done.
    destruct (2 <? verbosity i0)%N; [done|].
    destruct (needs_root (i_cmd i0) && negb (uid =? 0)%N) eqn:En; [|done]. apply andb_true_iff in En as [En _].
    destruct (i_dash i0) eqn:Ed.
    + pose proof (C57_dash _ _ uid gid E En Ed) as H. injection Es as <-.
      assert (i_cmd i = i_cmd i0 ∧ (i_cmd i0 = CBranch ∨ i_cmd i0 = CTag)) as [Ec [E1|E1]]; [|congruence..].
      unfold start in Er, H.
      destruct (i_cmd i0) eqn:Ec0; try done;
        try (destruct (parse_cli (sudo_args args uid gid)) as [[?|]| | | |]; try done;
             destruct (2 <? _)%N; try done; destruct (_ && _); done);
        (rewrite H in Er; destruct (2 <? _)%N; [done|]; injection Er as <-; cbn [i_cmd]; tauto).
    + destruct (C57_identity_partial _ _ _ _ Hu Hg Es') as (j & j' & Hj & Hs & _ & _ & Hcj & Haj & _).
      { intros j Hj. rewrite E in Hj. by injection Hj as <-. }
      rewrite E in Hj. injection Hj as <-. rewrite Er in Hs. injection Hs as <-.
      apply parse_cli_inv in E as (rest & p & _ & Ep & Ei & _).
      assert (p_dash p = false) as Hd by (rewrite Ei in Ed; exact Ed).
      pose proof (parse_args_plain _ _ _ Ep Hd) as Hpl.
      assert (i_args i0 = p_args p) as Eq by (by rewrite Ei).
      rewrite Haj, Eq in Ha. rewrite Ha in Hpl. apply Forall_inv in Hpl. by specialize (Hpl _ eq_refl).
Qed.
Print Assumptions C64_dashed_name_refuted.
(** The branch is there after init, and branch shows it. *)
Example C64_sat :
  (let r := run_all calm
     [(home, cmd_init sample_dr [B "w"] (B "-x"));
      (wdir, cmd_branch sample_dr (BranchOpts true false false false false false) [])] sample_world
   in (is_ok r.1, w_out r.2)) = (true, [B "-x"]).
Proof. vm_compute. reflexivity. Qed.

(** ** C65 The forms of an option mean the same *)
(** The options with a text as value, with their two names, for a command *)
Definition text_options : list (bytes * bytes * ascii) :=
  [(B "commit", B "message", "m"%char); (B "commit", B "chdir", "C"%char); (B "init", B "initial-branch", "b"%char);
   (B "init", B "chdir", "C"%char); (B "clone", B "chdir", "C"%char); (B "checkout", B "chdir", "C"%char);
   (B "branch", B "chdir", "C"%char); (B "tag", B "chdir", "C"%char); (B "log", B "chdir", "C"%char)].
Lemma cli_cong name l l' c :
  (∀ rest, find_cmd (name :: rest) = Ok (c, rest)) → c ≠ COther →
  parse_args (flags_of c) l = parse_args (flags_of c) l' → parse_cli (name :: l) = parse_cli (name :: l').
Proof.
  intros Hf Hc E. unfold parse_cli. rewrite !Hf. cbn [mbind res_bind rbind fst snd].
  destruct c; try done; by rewrite E.
Qed.
Lemma no_equals {A} (l : bytes) (x : bytes → A) (y : A) :
  head l ≠ Some "="%char → match l with "="%char :: ((_ :: _) as v) => x v | _ => y end = y.
Proof.
  intros H. destruct l as [|a l]; [done|]. assert (Ha : a ≠ "="%char) by (intros ->; by apply H). clear H.
  destruct a as [[] [] [] [] [] [] [] []]; try reflexivity; by destruct Ha.
Qed.
Lemma short_string fs f c a w :
  lookup_short fs c = Some f → f_kind f = KString → c ≠ "t"%char → a ≠ "="%char →
  short_arg fs (c :: a :: w) = Ok ([(f_name f, a :: w)], None).
Proof.
  intros Hf Hk Hc Ha. cbn [short_arg]. rewrite decide_False by (intros E; by injection E as ->). rewrite Hf.
  assert (Ho : optional f = false) by (unfold optional; by rewrite Hk).
  assert (Hs : set_flag f (a :: w) = Ok (f_name f, a :: w)) by (unfold set_flag; by rewrite Hk).
  rewrite Ho, Hs. destruct a as [[] [] [] [] [] [] [] []]; try reflexivity; by destruct Ha.
Qed.
(** The value set is [v] in all forms. An empty value has no short form in one argument, and after the letter alone
    a value must not begin with "=". *)
Theorem C65_forms cmd name c v rest :
  (cmd, name, c) ∈ text_options →
  let std := parse_cli (cmd :: [B "--" ++ name; v] ++ rest) in
  std = parse_cli (cmd :: [B "--" ++ name ++ B "=" ++ v] ++ rest) ∧
  std = parse_cli (cmd :: [["-"%char; c]; v] ++ rest) ∧
  (v ≠ [] → std = parse_cli (cmd :: [["-"%char; c] ++ B "=" ++ v] ++ rest)) ∧
  (v ≠ [] → (∀ s, v ≠ "="%char :: s) → std = parse_cli (cmd :: [["-"%char; c] ++ v] ++ rest)).
Proof.
  intros Hin.
  assert (∃ d, (∀ r, find_cmd (cmd :: r) = Ok (d, r)) ∧ d ≠ COther ∧
    ∃ f, f_kind f = KString ∧ f_name f = name ∧
    (∀ t, token_of (B "--" ++ name ++ t) = TLong (name ++ t)) ∧
    (∀ t, token_of (["-"%char; c] ++ t) = TShort (c :: t)) ∧
    long_arg (flags_of d) (name ++ []) = Ok ([], Some f) ∧
    (∀ w, long_arg (flags_of d) (name ++ B "=" ++ w) = Ok ([(name, w)], None)) ∧
    short_arg (flags_of d) [c] = Ok ([], Some f) ∧
    (∀ a w, short_arg (flags_of d) (c :: "="%char :: a :: w) = Ok ([(name, a :: w)], None)) ∧
    (∀ a w, a ≠ "="%char → short_arg (flags_of d) (c :: a :: w) = Ok ([(name, a :: w)], None)))
    as (d & Hf & Hc & f & Hk & Hn & T1 & T2 & L1 & L2 & S1 & S2 & S3).
  { unfold text_options in Hin.
    repeat (apply elem_of_cons in Hin as [E|Hin]; [injection E as -> -> ->|]); [..|by apply elem_of_nil in Hin].
    1-2: exists CCommit. 3-4: exists CInit. 5: exists CClone. 6: exists CCheckout. 7: exists CBranch. 8: exists CTag. 9: exists CLog.
    all: split; [reflexivity|]; split; [done|].
    1: exists (Flag (B "message") (Some "m"%char) KString).
    3: exists (Flag (B "initial-branch") (Some "b"%char) KString).
    2,4-9: exists (Flag (B "chdir") (Some "C"%char) KString).
    all: do 2 (split; [reflexivity|]).
    all: split; [intros t; reflexivity|]; split; [intros t; reflexivity|]; split; [reflexivity|].
    all: split; [intros w; vm_compute; reflexivity|]; split; [reflexivity|].
    all: split; [intros a w; vm_compute; reflexivity|].
    all: intros a w Ha; eapply eq_trans; [eapply short_string; [reflexivity|reflexivity|discriminate|exact Ha]|reflexivity]. }
  assert (Hset : ∀ w, set_flag f w = Ok (name, w)).
  { intros w. unfold set_flag. by rewrite Hk, Hn. }
  set (target := p ← parse_args (flags_of d) rest; Ok (Parsed ((name, v) :: p_sets p) (p_args p) (p_dash p))).
  assert (H0 : parse_args (flags_of d) ([B "--" ++ name; v] ++ rest) = target).
  { change ([B "--" ++ name; v] ++ rest) with ((B "--" ++ name) :: v :: rest). cbn [parse_args].
    specialize (T1 []). rewrite app_nil_r in T1, L1. rewrite T1. cbn iota. rewrite L1. cbn [mbind res_bind rbind fst snd].
    rewrite Hset. reflexivity. }
  cbn zeta.
  assert (Hgo : ∀ l, parse_args (flags_of d) l = target → parse_cli (cmd :: [B "--" ++ name; v] ++ rest) = parse_cli (cmd :: l)).
  { intros l El. apply (cli_cong _ _ _ d Hf Hc). by rewrite H0, El. }
  split; [|split; [|split]].
  - apply Hgo. change ([B "--" ++ name ++ B "=" ++ v] ++ rest) with ((B "--" ++ name ++ B "=" ++ v) :: rest). cbn [parse_args].
    rewrite T1. cbn iota. rewrite L2. reflexivity.
  - apply Hgo. change ([["-"%char; c]; v] ++ rest) with ((["-"%char; c] ++ []) :: v :: rest). cbn [parse_args].
    rewrite T2. cbn iota. rewrite S1. cbn [mbind res_bind rbind fst snd]. rewrite Hset. reflexivity.
  - intros Hv. apply Hgo. destruct v as [|a w]; [done|].
    change ([["-"%char; c] ++ B "=" ++ a :: w] ++ rest) with ((["-"%char; c] ++ B "=" ++ a :: w) :: rest). cbn [parse_args].
    rewrite T2. cbn iota. change (B "=" ++ a :: w) with ("="%char :: a :: w). rewrite S2. reflexivity.
  - intros Hv Heq. apply Hgo. destruct v as [|a w]; [done|].
    change ([["-"%char; c] ++ a :: w] ++ rest) with ((["-"%char; c] ++ a :: w) :: rest). cbn [parse_args].
    rewrite T2. cbn iota. rewrite S3; [reflexivity|]. intros ->. by apply (Heq w).
Qed.
(** Letters without values may be written together. *)
Theorem C65_grouped cmd letters rest :
  (cmd = B "branch" ∧ Forall (λ c, c ∈ B "ldraf") letters) ∨ (cmd = B "tag" ∧ Forall (λ c, c ∈ B "ldf") letters) → letters ≠ [] →
  parse_cli (cmd :: ("-"%char :: letters) :: rest) = parse_cli (cmd :: ((λ c, ["-"%char; c]) <$> letters) ++ rest).
Proof.
  intros Hl Hne.
  assert (∃ d, (∀ r, find_cmd (cmd :: r) = Ok (d, r)) ∧ d ≠ COther ∧
    Forall (λ c, c ≠ "-"%char ∧ c ≠ "="%char ∧ c ≠ "t"%char ∧ ∃ f, lookup_short (flags_of d) c = Some f ∧ f_kind f = KBool) letters)
    as (d & Hf & Hc & HF).
  { destruct Hl as [[-> Hl]|[-> Hl]]; [exists CBranch|exists CTag]; split; [reflexivity| |reflexivity|]; split; try done;
      (eapply List.Forall_impl; [|exact Hl]); cbn beta; intros c H;
      repeat (apply elem_of_cons in H as [->|H]; [repeat (split; [discriminate|]); eexists; split; reflexivity|]);
      by apply elem_of_nil in H. }
  apply (cli_cong _ _ _ d Hf Hc). clear Hl Hf Hc.
  assert (Hs : ∃ sets, short_arg (flags_of d) letters = Ok (sets, None) ∧
    parse_args (flags_of d) (((λ c, ["-"%char; c]) <$> letters) ++ rest) =
    (p ← parse_args (flags_of d) rest; Ok (Parsed (sets ++ p_sets p) (p_args p) (p_dash p)))).
  { clear Hne. induction HF as [|c l (H1 & H2 & H3 & f & Ef & Hk) Hl IH].
    - exists []. split; [done|]. cbn [fmap list_fmap app]. by destruct (parse_args (flags_of d) rest) as [[]| | | |].
    - destruct IH as (sets & E1 & E2). exists ((f_name f, B "true") :: sets).
      assert (Ht : ∀ l' : bytes, take 5 (c :: l') ≠ B "test.") by (intros l' E; by injection E as ->).
      assert (Eset : set_flag f (B "true") = Ok (f_name f, B "true")) by (unfold set_flag; rewrite Hk; reflexivity).
      assert (Eopt : optional f = true) by (unfold optional; by rewrite Hk).
      split.
      + cbn [short_arg]. rewrite decide_False by apply Ht. rewrite Ef.
        assert (Hh : head l ≠ Some "="%char).
        { destruct l as [|a l']; [done|]. apply Forall_inv in Hl as (_ & Ha & _). intros E. by injection E as ->. }
        rewrite (no_equals l _ _ Hh), Eopt, Eset, E1. reflexivity.
      + cbn [fmap list_fmap app parse_args].
        assert (Et : token_of ["-"%char; c] = TShort [c]).
        { cbn [token_of]. destruct c as [[] [] [] [] [] [] [] []]; try done; by destruct H1. }
        rewrite Et. cbn iota.
        assert (Es : short_arg (flags_of d) [c] = Ok ([(f_name f, B "true")], None)).
        { cbn [short_arg]. rewrite decide_False by apply Ht. rewrite Ef, Eopt, Eset. reflexivity. }
        rewrite Es. cbn [mbind res_bind rbind fst snd].
        change (list_fmap ascii (list ascii)) with (@fmap list list_fmap ascii (list ascii)).
        rewrite E2. by destruct (parse_args (flags_of d) rest) as [[]| | | |]. }
  destruct Hs as (sets & E1 & ->). cbn [parse_args].
  assert (Et : token_of ("-"%char :: letters) = TShort letters).
  { destruct letters as [|a l]; [done|]. apply Forall_inv in HF as (Ha & _). cbn [token_of].
    destruct a as [[] [] [] [] [] [] [] []]; try done; by destruct Ha. }
  rewrite Et. cbn iota. rewrite E1. reflexivity.
Qed.
Example C65_sat :
  (∃ i, parse_cli [B "commit"; B "-m=a=b"] = Ok (Some i) ∧ opt_bytes i (B "message") [] = B "a=b") ∧
  (∃ i, parse_cli [B "branch"; B "-dr"; B "x"] = Ok (Some i) ∧ opt_bool i (B "delete") = true ∧ opt_bool i (B "remotes") = true ∧
     i_args i = [B "x"]).
Proof.
  split; eexists; split; [vm_compute; reflexivity| |vm_compute; reflexivity|]; [vm_compute; reflexivity|].
  split; [vm_compute; reflexivity|]. split; vm_compute; reflexivity.
Qed.
Print Assumptions C65_forms.
Print Assumptions C65_grouped.

(** ** C66 Nothing runs with options that are not valid *)
(** Verbosity is 0, 1 or 2. *)
Theorem C66_verbosity uid gid args i : start uid gid args = ARun i → (verbosity i <= 2)%N.
Proof.
  unfold start. destruct (parse_cli args) as [[j|]| | | |]; try done. destruct (N.ltb_spec 2 (verbosity j)); [done|].
  destruct (_ && _); [done|]. by intros [= <-].
Qed.
(** A command that changes something runs as root, and so does each of the commands named. *)
Theorem C66_root uid gid args i :
  start uid gid args = ARun i → uid = 0%N ∨ i_cmd i = CLog ∨ i_cmd i = CRoot.
Proof.
  unfold start. destruct (parse_cli args) as [[j|]| | | |] eqn:E; try done. destruct (_ <? _)%N; [done|].
  destruct (needs_root (i_cmd j) && negb (uid =? 0)%N) eqn:En; [done|]. intros [= <-].
  apply parse_cli_inv in E as (_ & _ & _ & _ & _ & _ & _ & _ & Ho).
  destruct (N.eqb_spec uid 0) as [->|H]; [by left|]. right.
  destruct (i_cmd j); try done; tauto.
Qed.
(** An option that the command does not have is an error, in every form and wherever it stands among plain arguments. *)
Theorem C66_unknown_option uid gid name l l' opt c :
  (name, c) ∈ [(B "init", CInit); (B "clone", CClone); (B "commit", CCommit); (B "checkout", CCheckout);
               (B "branch", CBranch); (B "tag", CTag); (B "log", CLog)] →
  Forall plain l →
  (∃ s v, opt = B "--" ++ s ++ v ∧ (v = [] ∨ ∃ x, v = "="%char :: x) ∧ "="%char ∉ s ∧ s ≠ [] ∧
     s ∉ f_name <$> flags_of c) ∨
  (∃ a s, opt = "-"%char :: a :: s ∧ a ≠ "-"%char ∧ a ≠ "t"%char ∧ Some a ∉ f_short <$> flags_of c) →
  start uid gid (name :: l ++ opt :: l') = AFail.
Proof.
  intros Hn Hl Ho.
  assert (Hf : ∀ r, find_cmd (name :: r) = Ok (c, r) ∧ c ≠ COther).
  { intros r. repeat (apply elem_of_cons in Hn as [E|Hn]; [injection E as -> ->; split; [reflexivity|done]|]).
    by apply elem_of_nil in Hn. }
  assert (Hp : ∀ e, parse_args (flags_of c) (opt :: l') = Err e → start uid gid (name :: l ++ opt :: l') = AFail).
  { intros e E. unfold start, parse_cli. destruct (Hf (l ++ opt :: l')) as [-> Hc]. cbn [mbind res_bind rbind fst snd].
    assert (∃ e', parse_args (flags_of c) (l ++ opt :: l') = Err e') as [e' E'].
    { clear -Hl E. induction Hl as [|a l Ha _ [e' IH]]; [by exists e|]. exists e'. cbn [app parse_args].
      rewrite (plain_token _ Ha), IH. reflexivity. }
    destruct c; try done; rewrite E'; reflexivity. }
  apply (Hp EOptions). cbn [parse_args]. destruct Ho as [(s & v & -> & Hv & Hs & Hne & Hnot)|(a & s & -> & Ha & Ht & Hnot)].
  - assert (Et : token_of (B "--" ++ s ++ v) = TLong (s ++ v)).
    { destruct s as [|b s]; [done|]. reflexivity. }
    rewrite Et. cbn iota.
    assert (El : long_arg (flags_of c) (s ++ v) = Err EOptions); [|by rewrite El].
    assert (Esp : (split_eq (s ++ v)).1 = s).
    { clear -Hv Hs. induction s as [|b s IH].
      - destruct Hv as [->|[x ->]]; reflexivity.
      - cbn [app split_eq]. rewrite decide_False by (intros ->; apply Hs; left). cbn [fst]. f_equal. apply IH.
        intros H. apply Hs. by right. }
    assert (Elk : lookup_long (flags_of c) s = None).
    { unfold lookup_long. destruct (list_find _ _) as [[k f]|] eqn:E; [|done]. exfalso. apply Hnot.
      apply list_find_Some in E as (E1 & E2 & _). apply elem_of_list_fmap. exists f. split; [done|]. by eapply elem_of_list_lookup_2. }
    unfold long_arg. rewrite Esp, Elk. destruct s as [|b s]; [done|]. cbn [app].
    destruct b as [[] [] [] [] [] [] [] []]; reflexivity.
  - assert (Et : token_of ("-"%char :: a :: s) = TShort (a :: s)).
    { cbn [token_of]. destruct a as [[] [] [] [] [] [] [] []]; try done; by destruct Ha. }
    rewrite Et. cbn iota.
    assert (Es : short_arg (flags_of c) (a :: s) = Err EOptions); [|by rewrite Es].
    cbn [short_arg]. rewrite decide_False by (intros E; by injection E as ->).
    assert (lookup_short (flags_of c) a = None) as ->; [|done].
    unfold lookup_short. destruct (list_find _ _) as [[k f]|] eqn:E; [|done]. exfalso. apply Hnot.
    apply list_find_Some in E as (E1 & E2 & _). apply elem_of_list_fmap. exists f. split; [done|]. by eapply elem_of_list_lookup_2.
Qed.
Example C66_sat :
  start 0 0 [B "commit"; B "-v"; B "3"] = AFail ∧ start 0 0 [B "log"; B "-v"; B "0x2"] ≠ AFail ∧
  start 0 0 [B "checkout"; B "main"; B "--force"] = AFail ∧ start 0 0 [B "commit"; B "-a"] = AFail.
Proof. repeat split; vm_compute; congruence. Qed.
Print Assumptions C66_verbosity.
Print Assumptions C66_root.
Print Assumptions C66_unknown_option.
