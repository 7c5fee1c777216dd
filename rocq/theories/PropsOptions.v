(** * PropsOptions: what the options mean (C70) *)
From Coq Require Import Lia.
From Verif Require Import Base Fs Errors Ws Os Commands.
From Verif Require SpecCmds.
From Verif Require Import Sample Cli CliProofs PropsCli.
From stdpp Require Import prelude gmap.

(** ** Command lines *)
(** What stands after the name of the command, in any order: options with a text, options without, arguments. The other ways to
    write them mean the same: C65. *)
Inductive item := Text (option value : bytes) | Switch (option : bytes) | Word (a : bytes).
Global Instance item_eq_dec : EqDecision item.
Proof. solve_decision. Defined.
Definition written (i : item) : list bytes :=
  match i with Text o v => [B "--" ++ o; v] | Switch o => [B "--" ++ o] | Word a => [a] end.
(** The options of the commands, as the help shows them *)
Definition texts (name : bytes) : list bytes :=
  [B "chdir"; B "data-root"] ++ (if decide (name = B "init") then [B "initial-branch"] else if decide (name = B "commit") then [B "message"] else []).
Definition switches (name : bytes) : list bytes :=
  if decide (name = B "branch") then [B "list"; B "show-current"; B "delete"; B "remotes"; B "all"; B "force"]
  else if decide (name = B "tag") then [B "list"; B "delete"; B "force"] else [].
Definition item_ok (name : bytes) (i : item) : Prop :=
  match i with Text o _ => o ∈ texts name | Switch o => o ∈ switches name | Word a => plain a end.
(** The value of an option is the last one given. *)
Definition value (l : list item) (o def : bytes) : bytes :=
  default def (last (omap (λ i, match i with Text o' v => if decide (o' = o) then Some v else None | _ => None end) l)).
Definition given (l : list item) (o : bytes) : bool := bool_decide (Switch o ∈ l).
Definition words (l : list item) : list bytes := omap (λ i, match i with Word a => Some a | _ => None end) l.
Definition meant (name : bytes) (l : list item) : option SpecCmds.command :=
  if decide (name = B "init") then match words l with [] | [_] => Some (SpecCmds.CInit (words l) (value l (B "initial-branch") (B "main"))) | _ => None end
  else if decide (name = B "clone") then
    match words l with [s] => Some (SpecCmds.CClone s None) | [s; t] => Some (SpecCmds.CClone s (Some t)) | _ => None end
  else if decide (name = B "commit") then match words l with [] => Some (SpecCmds.CCommit (value l (B "message") [])) | _ => None end
  else if decide (name = B "checkout") then match words l with [x] => Some (SpecCmds.CCheckout x) | _ => None end
  else if decide (name = B "branch") then
    Some (SpecCmds.CBranch {| bo_list := given l (B "list"); bo_current := given l (B "show-current"); bo_delete := given l (B "delete");
                              bo_remotes := given l (B "remotes"); bo_all := given l (B "all"); bo_force := given l (B "force") |} (words l))
  else if decide (name = B "tag") then
    Some (SpecCmds.CTag {| to_list := given l (B "list"); to_delete := given l (B "delete"); to_force := given l (B "force") |} (words l))
  else if decide (name = B "log") then match words l with [] | [_] => Some (SpecCmds.CLog (words l)) | _ => None end
  else None.

(** ** Parsing *)
Definition setting_of (i : item) : option (bytes * bytes) :=
  match i with Text o v => Some (o, v) | Switch o => Some (o, B "true") | Word _ => None end.
(** A command with its flags *)
Record takes (name : bytes) (c : command) : Prop := {
  tk_find : ∀ r, find_cmd (name :: r) = Ok (c, r);
  tk_other : c ≠ COther;
  tk_root : needs_root c = bool_decide (name ≠ B "log");
  tk_text : ∀ o, o ∈ texts name → token_of (B "--" ++ o) = TLong o ∧ ∃ s, long_arg (flags_of c) o = Ok ([], Some (Flag o s KString));
  tk_switch : ∀ o, o ∈ switches name → token_of (B "--" ++ o) = TLong o ∧ long_arg (flags_of c) o = Ok ([(o, B "true")], None) }.
Lemma takes_all name c : (name, c) ∈ [(B "init", CInit); (B "clone", CClone); (B "commit", CCommit); (B "checkout", CCheckout);
  (B "branch", CBranch); (B "tag", CTag); (B "log", CLog)] → takes name c.
Proof.
  intros H. repeat (apply elem_of_cons in H as [E|H]; [injection E as -> ->|]); [..|by apply elem_of_nil in H].
  all: constructor; [reflexivity|done|reflexivity| |]; intros o Ho; vm_compute in Ho;
    repeat (apply elem_of_cons in Ho as [->|Ho]; [split; [reflexivity|]; try (eexists; reflexivity); reflexivity|]); by apply elem_of_nil in Ho.
Qed.
Lemma items_parse name c l : takes name c → Forall (item_ok name) l →
  parse_args (flags_of c) (concat (written <$> l)) = Ok (Parsed (omap setting_of l) (words l) false).
Proof.
  intros T. induction 1 as [|i l Hi _ IH]; [done|]. rewrite fmap_cons. cbn [concat]. destruct i as [o v|o|a]; cbn [item_ok] in Hi; cbn [written].
  - destruct (tk_text _ _ T o Hi) as (Et & s & El). change ([B "--" ++ o; v] ++ concat (written <$> l)) with ((B "--" ++ o) :: v :: concat (written <$> l)).
    cbn [parse_args]. rewrite Et. cbn iota. rewrite El. cbn [mbind res_bind rbind fst snd]. unfold set_flag. cbn [f_kind f_name value_ok mbind res_bind rbind]. rewrite IH. reflexivity.
  - destruct (tk_switch _ _ T o Hi) as (Et & El). change ([B "--" ++ o] ++ concat (written <$> l)) with ((B "--" ++ o) :: concat (written <$> l)).
    cbn [parse_args]. rewrite Et. cbn iota. rewrite El. cbn [mbind res_bind rbind fst snd]. rewrite IH. reflexivity.
  - change ([a] ++ concat (written <$> l)) with (a :: concat (written <$> l)). cbn [parse_args]. rewrite (plain_token _ Hi), IH. reflexivity.
Qed.
Lemma omap_cons {X Y} (f : X → option Y) x (l : list X) : omap f (x :: l) = match f x with Some y => y :: omap f l | None => omap f l end.
Proof. reflexivity. Qed.
Lemma last_set_last (sets : list (bytes * bytes)) n : last_set sets n = last (omap (λ s : bytes * bytes, if decide (s.1 = n) then Some s.2 else None) sets).
Proof.
  induction sets as [|[m v] sets IH]; [done|]. rewrite omap_cons. cbn [last_set fst snd]. rewrite IH. set (r := omap _ sets). destruct (decide (m = n)) as [->|Ne].
  - rewrite last_cons. by destruct (last r).
  - by destruct (last r).
Qed.
Lemma set_only name l o : Forall (item_ok name) l → o ∉ texts name → o ∉ switches name → last_set (omap setting_of l) o = None.
Proof.
  intros Hl O1 O2. induction Hl as [|i l Hi _ IH]; [done|]. rewrite omap_cons. destruct i as [o' v|o'|a]; cbn [setting_of last_set]; cbn [item_ok] in Hi; rewrite ?IH; [..|done].
  all: by rewrite decide_False by (by intros ->).
Qed.
Lemma text_value name l o def : Forall (item_ok name) l → o ∉ switches name → default def (last_set (omap setting_of l) o) = value l o def.
Proof.
  intros Hl Ho. unfold value. rewrite last_set_last. do 2 f_equal. induction Hl as [|i l Hi _ IH]; [done|]. rewrite !omap_cons.
  destruct i as [o' v|o'|a]; cbn [setting_of]; cbn [item_ok] in Hi; [|rewrite omap_cons; cbn [fst]; rewrite decide_False by (by intros ->)|]; [|exact IH..].
  rewrite omap_cons. cbn [fst snd]. destruct (decide (o' = o)) as [->|Ne]; [by rewrite IH|exact IH].
Qed.
Lemma switch_given name l o : Forall (item_ok name) l → o ∉ texts name → default false (last_set (omap setting_of l) o ≫= parse_bool) = given l o.
Proof.
  intros Hl Ho. assert (∀ v, last_set (omap setting_of l) o = Some v → v = B "true" ∧ Switch o ∈ l) as H1.
  { intros v. induction Hl as [|i l Hi _ IH]; [done|]. rewrite omap_cons. destruct i as [o' v'|o'|a]; cbn [setting_of last_set]; cbn [item_ok] in Hi.
    - destruct (last_set (omap setting_of l) o) as [v2|]; [intros [= ->]; destruct (IH eq_refl); split; [done|by right]|]. rewrite decide_False by (by intros ->). done.
    - destruct (last_set (omap setting_of l) o) as [v2|]; [intros [= ->]; destruct (IH eq_refl); split; [done|by right]|]. destruct (decide (o' = o)) as [->|Ne]; [|done].
      intros [= <-]. split; [done|left].
    - intros E. destruct (IH E). split; [done|by right]. }
  assert (Switch o ∈ l → is_Some (last_set (omap setting_of l) o)) as H2.
  { clear H1 Hl. induction l as [|i l IH]; intros H; [by apply elem_of_nil in H|]. rewrite omap_cons. apply elem_of_cons in H as [<-|H].
    - cbn [setting_of last_set]. destruct (last_set _ o); [by eexists|]. rewrite decide_True by done. by eexists.
    - destruct (IH H) as [v Ev]. destruct i as [o' v'|o'|a]; cbn [setting_of last_set]; rewrite Ev; by eexists. }
  unfold given. destruct (last_set (omap setting_of l) o) as [v|] eqn:E.
  - destruct (H1 v eq_refl) as [-> Hi]. rewrite bool_decide_true by done. reflexivity.
  - rewrite bool_decide_false; [done|]. intros Hi. destruct (H2 Hi). done.
Qed.
Ltac dec := apply (bool_decide_eq_true_1 _); vm_compute; reflexivity.
(** ** C70 *)
(** The command that runs is the one meant, in the directory and with the data root given. *)
Lemma meant_parse name l q : meant name l = Some q → Forall (item_ok name) l →
  ∃ c sets, parse_cli (name :: concat (written <$> l)) = Ok (Some (Inv c sets (words l) false)) ∧ needs_root c = bool_decide (name ≠ B "log") ∧ verbosity (Inv c sets (words l) false) = 0%N ∧
    (opt_int (Inv c sets (words l) false) (B "uid"), opt_int (Inv c sets (words l) false) (B "gid")) = (-1, -1)%Z ∧
    perform (Inv c sets (words l) false) = with_manager (value l (B "chdir") []) (value l (B "data-root") (B "/var/lib/stackcrisp")) (λ dr, SpecCmds.run_cmd dr q).
Proof.
  intros Hq Hl. set (sets := omap setting_of l).
  assert (∀ c, takes name c → args_ok c (length (words l)) = true → Forall (λ o, o ∉ texts name ∧ o ∉ switches name) [B "help"; B "version"; B "verbose"; B "uid"; B "gid"] →
    parse_cli (name :: concat (written <$> l)) = Ok (Some (Inv c sets (words l) false)) ∧ needs_root c = bool_decide (name ≠ B "log") ∧ verbosity (Inv c sets (words l) false) = 0%N ∧
    (opt_int (Inv c sets (words l) false) (B "uid"), opt_int (Inv c sets (words l) false) (B "gid")) = (-1, -1)%Z) as Hp.
  { intros c T Ha Hn. assert (∀ o, o ∈ [B "help"; B "version"; B "verbose"; B "uid"; B "gid"] → last_set sets o = None) as Hs by (intros o Ho; rewrite Forall_forall in Hn; destruct (Hn o Ho); by apply (set_only name)).
    rewrite (parse_cli_intro _ _ _ _ (tk_find _ _ T _) (tk_other _ _ T) (items_parse _ _ _ T Hl)). cbn zeta. cbn [p_sets p_args p_dash]. unfold opt_bool, opt_int, verbosity. cbn [i_sets].
    fold sets. rewrite !Hs by dec. cbn [default mbind option_bind]. rewrite Ha. split; [reflexivity|]. split; [apply T|done]. }
  assert (∀ c o def, o ∉ switches name → opt_bytes (Inv c sets (words l) false) o def = value l o def) as Ht by (intros c o def Ho; by apply (text_value name)).
  assert (∀ c o, o ∉ texts name → opt_bool (Inv c sets (words l) false) o = given l o) as Hg by (intros c o Ho; by apply (switch_given name)).
  unfold meant in Hq.
  repeat match type of Hq with (if decide ?P then _ else _) = _ => destruct (decide P) as [->|_] end; [..|done].
  - exists CInit, sets. assert (args_ok CInit (length (words l)) = true ∧ q = SpecCmds.CInit (words l) (value l (B "initial-branch") (B "main"))) as [Ha ->] by (destruct (words l) as [|a [|b r]]; [by injection Hq as <-..|done]).
    destruct (Hp CInit (takes_all (B "init") CInit ltac:(dec)) Ha ltac:(dec)) as (A1 & A2 & A3 & A4). split; [exact A1|]. split; [exact A2|]. split; [exact A3|]. split; [exact A4|].
    unfold perform, body. cbn [i_cmd i_args]. rewrite !Ht by dec. reflexivity.
  - exists CClone, sets. assert (args_ok CClone (length (words l)) = true ∧ q = SpecCmds.CClone (default [] (head (words l))) (words l !! 1)) as [Ha ->] by (destruct (words l) as [|a [|b [|b2 r]]]; [done|by injection Hq as <-..|done]).
    destruct (Hp CClone (takes_all (B "clone") CClone ltac:(dec)) Ha ltac:(dec)) as (A1 & A2 & A3 & A4). split; [exact A1|]. split; [exact A2|]. split; [exact A3|]. split; [exact A4|].
    unfold perform, body. cbn [i_cmd i_args]. rewrite !Ht by dec. reflexivity.
  - exists CCommit, sets. assert (args_ok CCommit (length (words l)) = true ∧ q = SpecCmds.CCommit (value l (B "message") [])) as [Ha ->] by (destruct (words l) as [|a r]; [by injection Hq as <-|done]).
    destruct (Hp CCommit (takes_all (B "commit") CCommit ltac:(dec)) Ha ltac:(dec)) as (A1 & A2 & A3 & A4). split; [exact A1|]. split; [exact A2|]. split; [exact A3|]. split; [exact A4|].
    unfold perform, body. cbn [i_cmd i_args]. rewrite !Ht by dec. reflexivity.
  - exists CCheckout, sets. assert (args_ok CCheckout (length (words l)) = true ∧ q = SpecCmds.CCheckout (default [] (head (words l)))) as [Ha ->] by (destruct (words l) as [|a [|b r]]; [done|by injection Hq as <-|done]).
    destruct (Hp CCheckout (takes_all (B "checkout") CCheckout ltac:(dec)) Ha ltac:(dec)) as (A1 & A2 & A3 & A4). split; [exact A1|]. split; [exact A2|]. split; [exact A3|]. split; [exact A4|].
    unfold perform, body. cbn [i_cmd i_args]. rewrite !Ht by dec. reflexivity.
  - exists CBranch, sets. injection Hq as <-. assert (args_ok CBranch (length (words l)) = true) as Ha by done.
    destruct (Hp CBranch (takes_all (B "branch") CBranch ltac:(dec)) Ha ltac:(dec)) as (A1 & A2 & A3 & A4). split; [exact A1|]. split; [exact A2|]. split; [exact A3|]. split; [exact A4|].
    unfold perform, body. cbn [i_cmd i_args]. rewrite !Ht by dec. rewrite !Hg by dec. reflexivity.
  - exists CTag, sets. injection Hq as <-. assert (args_ok CTag (length (words l)) = true) as Ha by done.
    destruct (Hp CTag (takes_all (B "tag") CTag ltac:(dec)) Ha ltac:(dec)) as (A1 & A2 & A3 & A4). split; [exact A1|]. split; [exact A2|]. split; [exact A3|]. split; [exact A4|].
    unfold perform, body. cbn [i_cmd i_args]. rewrite !Ht by dec. rewrite !Hg by dec. reflexivity.
  - exists CLog, sets. assert (args_ok CLog (length (words l)) = true ∧ q = SpecCmds.CLog (words l)) as [Ha ->] by (destruct (words l) as [|a [|b r]]; [by injection Hq as <-..|done]).
    destruct (Hp CLog (takes_all (B "log") CLog ltac:(dec)) Ha ltac:(dec)) as (A1 & A2 & A3 & A4). split; [exact A1|]. split; [exact A2|]. split; [exact A3|]. split; [exact A4|].
    unfold perform, body. cbn [i_cmd i_args]. rewrite !Ht by dec. reflexivity.
Qed.
Theorem C70_options name l q uid gid :
  meant name l = Some q → Forall (item_ok name) l → (uid < 2 ^ 63)%N → (gid < 2 ^ 63)%N →
  let line := name :: concat (written <$> l) in
  ∃ i, (if decide (uid ≠ 0%N ∧ name ≠ B "log")
        then ∃ args', start uid gid line = ASudo args' ∧ start 0 0 args' = ARun i ∧
               opt_int i (B "uid") = Z.of_N uid ∧ opt_int i (B "gid") = Z.of_N gid
        else start uid gid line = ARun i) ∧
    run_command i = as_user (if decide (name = B "log") then (-1, -1)%Z else identity uid gid)
      (with_manager (value l (B "chdir") []) (value l (B "data-root") (B "/var/lib/stackcrisp")) (λ dr, SpecCmds.run_cmd dr q)).
Proof.
  intros Hq Hl Hu Hg line. destruct (meant_parse _ _ _ Hq Hl) as (c & sets & E & En & Ev & Ei & Er). fold line in E.
  assert (Es : start uid gid line =
    if bool_decide (name ≠ B "log") && negb (uid =? 0)%N then ASudo (sudo_args line uid gid) else ARun (Inv c sets (words l) false)).
  { unfold start. rewrite E, Ev. cbn [i_cmd]. rewrite En. reflexivity. }
  destruct (decide _) as [[H1 H2]|Hn].
  - rewrite bool_decide_true in Es by done. replace (uid =? 0)%N with false in Es by (symmetry; by apply N.eqb_neq).
    cbn in Es.
    destruct (C57_identity_partial _ _ _ _ Hu Hg Es) as (i & i' & Hi & Hs & Eu & Eg & _ & _ & _ & Hr).
    { intros i Hi. rewrite E in Hi. by injection Hi as <-. }
    rewrite E in Hi. injection Hi as <-. exists i'. split; [by eauto|]. rewrite Hr, Er, decide_False by done. unfold identity. by destruct (N.eqb_spec uid 0).
  - exists (Inv c sets (words l) false). split.
    + rewrite Es. destruct (bool_decide (name ≠ B "log")) eqn:Eb; [|done]. apply bool_decide_eq_true in Eb.
      destruct (N.eqb_spec uid 0); [done|]. by destruct Hn.
    + unfold run_command. rewrite Er, Ei. f_equal. case_decide; [done|]. unfold identity. destruct (N.eqb_spec uid 0); [done|]. by destruct Hn.
Qed.
Print Assumptions C70_options.
Example C70_sat :
  let l := [Text (B "chdir") (B "/h"); Switch (B "delete"); Word (B "x"); Text (B "data-root") (B "/d"); Switch (B "remotes"); Text (B "chdir") (B "/h/w")] in
  concat (written <$> l) = [B "--chdir"; B "/h"; B "--delete"; B "x"; B "--data-root"; B "/d"; B "--remotes"; B "--chdir"; B "/h/w"] ∧
  Forall (item_ok (B "branch")) l ∧ meant (B "branch") l = Some (SpecCmds.CBranch (BranchOpts false false true true false false) [B "x"]) ∧
  value l (B "chdir") [] = B "/h/w" ∧ value l (B "data-root") [] = B "/d".
Proof.
  cbv zeta. split; [reflexivity|]. split; [|split; [reflexivity|split; reflexivity]].
  repeat constructor; cbn [item_ok]; try dec. intros s E. discriminate E.
Qed.
