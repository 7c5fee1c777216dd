(** * Cli: from the arguments of the process to the command that runs: pkg/commands/*.go and
    pkg/commands/options/*.go (the flags and the numbers of arguments), pkg/utils/cmd/cmd_util.go:43-75
    and pkg/utils/sudo/sudo.go (running again under sudo), and what they use of cobra v1.8.0, pflag v1.0.5
    and strconv.

    Simplifications: sudo is taken to run the given program with the given arguments, as root, in the same
    directory and environment. Texts of help and of errors are left out. The commands that cobra adds by itself
    (help, completion, __complete) are not modelled beyond being recognised. *)
From Verif Require Import Base Fs Errors Ws Os Commands.

(** ** strconv *)
(** strconv.ParseBool *)
Definition parse_bool (s : bytes) : option bool :=
  if decide (s ∈ [B "1"; B "t"; B "T"; B "TRUE"; B "true"; B "True"]) then Some true
  else if decide (s ∈ [B "0"; B "f"; B "F"; B "FALSE"; B "false"; B "False"]) then Some false
  else None.
(** The unexported function lower of strconv *)
Definition lower (c : ascii) : N := N.lor (b2n c) 32.
Definition digit_of (c : ascii) : option N :=
  if ((48 <=? b2n c) && (b2n c <=? 57))%N then Some (b2n c - 48)%N
  else if ((97 <=? lower c) && (lower c <=? 122))%N then Some (lower c - 87)%N
  else None.
(** The loop of strconv.ParseUint. The test against the cutoff is left out: where it fails, the value exceeds
    [max] too. *)
Fixpoint parse_digits (base max n : N) (s : bytes) : option N :=
  match s with
  | [] => Some n
  | c :: s' =>
      if decide (c = "_"%char) then parse_digits base max n s'
      else match digit_of c with
           | None => None
           | Some d =>
               if (base <=? d)%N then None
               else if (max <? n * base + d)%N then None
               else parse_digits base max (n * base + d)%N s'
           end
  end.
Definition base_of (s : bytes) : N * bytes :=
  match s with
  | "0"%char :: c :: ((_ :: _) as r) =>
      if (lower c =? b2n "b")%N then (2%N, r)
      else if (lower c =? b2n "o")%N then (8%N, r)
      else if (lower c =? b2n "x")%N then (16%N, r)
      else (8%N, c :: r)
  | "0"%char :: s' => (8%N, s')
  | _ => (10%N, s)
  end.
(** strconv.underscoreOK on text without sign *)
Inductive saw := SawStart | SawDigit | SawLine | SawOther.
Fixpoint lines_ok (hex : bool) (last : saw) (s : bytes) : bool :=
  match s with
  | [] => match last with SawLine => false | _ => true end
  | c :: s' =>
      if (((48 <=? b2n c) && (b2n c <=? 57)) || (hex && (97 <=? lower c) && (lower c <=? 102)))%N
      then lines_ok hex SawDigit s'
      else if decide (c = "_"%char) then
        match last with SawDigit => lines_ok hex SawLine s' | _ => false end
      else match last with SawLine => false | _ => lines_ok hex SawOther s' end
  end.
Definition underscore_ok (s : bytes) : bool :=
  match s with
  | "0"%char :: c :: r =>
      if ((lower c =? b2n "b") || (lower c =? b2n "o") || (lower c =? b2n "x"))%N
      then lines_ok (lower c =? b2n "x")%N SawDigit r
      else lines_ok false SawStart s
  | _ => lines_ok false SawStart s
  end.
(** strconv.ParseUint with base 0 *)
Definition parse_uint (max : N) (s : bytes) : option N :=
  match s with
  | [] => None
  | _ =>
      match parse_digits (base_of s).1 max 0 (base_of s).2 with
      | None => None
      | Some n => if decide ("_"%char ∈ s) then (if underscore_ok s then Some n else None) else Some n
      end
  end.
Definition max_uint32 : N := (2 ^ 32 - 1)%N.
Definition max_uint64 : N := (2 ^ 64 - 1)%N.
(** strconv.ParseInt with base 0 and 64 bits *)
Definition parse_int (s : bytes) : option Z :=
  match s with
  | "-"%char :: s' =>
      match parse_uint max_uint64 s' with
      | Some n => if (n <=? 2 ^ 63)%N then Some (- Z.of_N n)%Z else None
      | None => None
      end
  | "+"%char :: s' =>
      match parse_uint max_uint64 s' with
      | Some n => if (n <? 2 ^ 63)%N then Some (Z.of_N n) else None
      | None => None
      end
  | _ =>
      match parse_uint max_uint64 s with
      | Some n => if (n <? 2 ^ 63)%N then Some (Z.of_N n) else None
      | None => None
      end
  end.

(** ** Flags *)
Inductive fkind := KBool | KString | KUint32 | KInt.
Record flag := Flag { f_name : bytes; f_short : option ascii; f_kind : fkind }.
(** The commands. [COther]: those of cobra *)
Inductive command := CRoot | CInit | CClone | CCommit | CCheckout | CBranch | CTag | CLog | COther.
Global Instance command_eq_dec : EqDecision command.
Proof. solve_decision. Defined.
(** options/global.go:43-50 [AddPFlags] *)
Definition global_flags : list flag :=
  [Flag (B "verbose") (Some "v"%char) KUint32; Flag (B "chdir") (Some "C"%char) KString;
   Flag (B "data-root") None KString; Flag (B "uid") None KInt; Flag (B "gid") None KInt].
(** options/init.go:19-25, options/commit.go:19-25, options/branch.go:33-46, options/tag.go:25-32 [AddPFlags];
    cobra adds the flag version to the root command, whose version cmd/stackcrisp/main.go sets. *)
Definition own_flags (c : command) : list flag :=
  match c with
  | CInit => [Flag (B "initial-branch") (Some "b"%char) KString]
  | CCommit => [Flag (B "message") (Some "m"%char) KString]
  | CBranch =>
      [Flag (B "list") (Some "l"%char) KBool; Flag (B "show-current") None KBool; Flag (B "delete") (Some "d"%char) KBool;
       Flag (B "remotes") (Some "r"%char) KBool; Flag (B "all") (Some "a"%char) KBool; Flag (B "force") (Some "f"%char) KBool]
  | CTag => [Flag (B "list") (Some "l"%char) KBool; Flag (B "delete") (Some "d"%char) KBool; Flag (B "force") (Some "f"%char) KBool]
  | CRoot => [Flag (B "version") None KBool]
  | _ => []
  end.
(** With the flag help that cobra adds to each command before it parses *)
Definition flags_of (c : command) : list flag := global_flags ++ own_flags c ++ [Flag (B "help") (Some "h"%char) KBool].
Definition lookup_long (fs : list flag) (name : bytes) : option flag := snd <$> list_find (λ f, f_name f = name) fs.
Definition lookup_short (fs : list flag) (c : ascii) : option flag := snd <$> list_find (λ f, f_short f = Some c) fs.
(** NoOptDefVal is not empty *)
Definition optional (f : flag) : bool := match f_kind f with KBool => true | _ => false end.
(** The Set method of a flag's value succeeds. *)
Definition value_ok (k : fkind) (v : bytes) : bool :=
  match k with
  | KString => true
  | KBool => match parse_bool v with Some _ => true | None => false end
  | KUint32 => match parse_uint max_uint32 v with Some _ => true | None => false end
  | KInt => match parse_int v with Some _ => true | None => false end
  end.

(** ** pflag *)
(** A call of Set: the flag's name and the text of the value *)
Notation setting := (bytes * bytes)%type.
Definition set_flag (f : flag) (v : bytes) : res setting :=
  if value_ok (f_kind f) v then Ok (f_name f, v) else Err EOptions.
(** What an argument is for FlagSet.parseArgs *)
Inductive token := TArg | TDash | TLong (name : bytes) | TShort (letters : bytes).
Definition token_of (s : bytes) : token :=
  match s with
  | "-"%char :: "-"%char :: [] => TDash
  | "-"%char :: "-"%char :: name => TLong name
  | "-"%char :: c :: s' => TShort (c :: s')
  | _ => TArg
  end.
(** strings.SplitN(s, "=", 2) *)
Fixpoint split_eq (s : bytes) : bytes * option bytes :=
  match s with
  | [] => ([], None)
  | c :: s' => if decide (c = "="%char) then ([], Some s') else (c :: (split_eq s').1, (split_eq s').2)
  end.
(** What an argument that is a flag does: the settings it makes by itself, then the flag, if any, that takes the next
    argument as its value *)
Notation effect := (list setting * option flag)%type.
(** FlagSet.parseLongArg *)
Definition long_arg (fs : list flag) (name : bytes) : res effect :=
  match name with
  | "-"%char :: _ | "="%char :: _ | [] => Err EOptions
  | _ =>
      match lookup_long fs (split_eq name).1 with
      | None => Err EOptions
      | Some f =>
          match (split_eq name).2 with
          | Some v => s ← set_flag f v; Ok ([s], None)
          | None => if optional f then s ← set_flag f (B "true"); Ok ([s], None) else Ok ([], Some f)
          end
      end
  end.
(** FlagSet.parseShortArg and parseSingleShortArg *)
Fixpoint short_arg (fs : list flag) (letters : bytes) : res effect :=
  match letters with
  | [] => Ok ([], None)
  | c :: more =>
      if decide (take 5 letters = B "test.") then Ok ([], None)
      else match lookup_short fs c with
           | None => Err EOptions
           | Some f =>
               match more with
               | "="%char :: ((_ :: _) as v) => s ← set_flag f v; Ok ([s], None)
               | _ =>
                   if optional f then s ← set_flag f (B "true"); e ← short_arg fs more; Ok (s :: e.1, e.2)
                   else match more with
                        | [] => Ok ([], Some f)
                        | v => s ← set_flag f v; Ok ([s], None)
                        end
               end
           end
  end.
(** What FlagSet.Parse leaves: the settings in order, the other arguments, and whether it met "--" *)
Record parsed := Parsed { p_sets : list setting; p_args : list bytes; p_dash : bool }.
(** FlagSet.parseArgs, with flags and other arguments in any order *)
Fixpoint parse_args (fs : list flag) (args : list bytes) : res parsed :=
  match args with
  | [] => Ok (Parsed [] [] false)
  | s :: rest =>
      match token_of s with
      | TArg => p ← parse_args fs rest; Ok (Parsed (p_sets p) (s :: p_args p) (p_dash p))
      | TDash => Ok (Parsed [] rest true)
      | TLong _ | TShort _ =>
          e ← (match token_of s with TLong name => long_arg fs name | TShort l => short_arg fs l | _ => Err EOptions end);
          match e.2 with
          | None => p ← parse_args fs rest; Ok (Parsed (e.1 ++ p_sets p) (p_args p) (p_dash p))
          | Some f =>
              match rest with
              | [] => Err EOptions
              | v :: rest' =>
                  s ← set_flag f v;
                  p ← parse_args fs rest';
                  Ok (Parsed (e.1 ++ s :: p_sets p) (p_args p) (p_dash p))
              end
          end
      end
  end.

(** ** cobra *)
Definition dashed (s : bytes) : bool := match s with "-"%char :: _ => true | _ => false end.
(** The conditions of the second and third cases of stripFlags and argsMinusFirstX: the next argument is taken for the
    value of this one. *)
Definition takes_next (fs : list flag) (s : bytes) : bool :=
  if decide ("="%char ∈ s) then false
  else match s with
       | "-"%char :: "-"%char :: name => negb (match lookup_long fs name with Some f => optional f | None => false end)
       | ["-"%char; c] => negb (match lookup_short fs c with Some f => optional f | None => false end)
       | _ => false
       end.
(** stripFlags *)
Fixpoint strip_flags (fs : list flag) (args : list bytes) : list bytes :=
  match args with
  | [] => []
  | s :: rest =>
      if decide (s = B "--") then []
      else if takes_next fs s then
        match rest with
        | [] | [_] => []
        | _ :: rest' => strip_flags fs rest'
        end
      else if decide (s ≠ [] ∧ dashed s = false) then s :: strip_flags fs rest
      else strip_flags fs rest
  end.
(** argsMinusFirstX *)
Fixpoint args_minus_first (fs : list flag) (args : list bytes) (x : bytes) : list bytes :=
  match args with
  | [] => []
  | s :: rest =>
      if decide (s = B "--") then args
      else if takes_next fs s then
        match rest with
        | v :: rest' => s :: v :: args_minus_first fs rest' x
        | [] => args
        end
      else if decide (dashed s = false ∧ s = x) then rest
      else s :: args_minus_first fs rest x
  end.
(** findNext at the root command: stackcrisp.go:65-73, and the commands that cobra adds *)
Definition find_next (x : bytes) : option command :=
  (λ e, e.2.2) <$> list_find (λ e : bytes * command, e.1 = x)
    [(B "init", CInit); (B "clone", CClone); (B "commit", CCommit); (B "checkout", CCheckout); (B "branch", CBranch);
     (B "tag", CTag); (B "log", CLog); (B "help", COther); (B "completion", COther);
     (B "__complete", COther); (B "__completeNoDesc", COther)].
(** Command.Find, with legacyArgs for the root command: an unknown command is an error. The commands of the root
    have no commands of their own, except for those of cobra. *)
Definition find_cmd (args : list bytes) : res (command * list bytes) :=
  match strip_flags global_flags args with
  | [] => Ok (CRoot, args)
  | x :: _ =>
      match find_next x with
      | Some c => Ok (c, args_minus_first global_flags args x)
      | None => Err EOptions
      end
  end.
(** The field Args: init.go:25, clone.go:24, commit.go:24, checkout.go:23, log.go:23; branch and tag have none. *)
Definition args_ok (c : command) (n : nat) : bool :=
  match c with
  | CInit | CLog => n <=? 1
  | CClone => (1 <=? n) && (n <=? 2)
  | CCommit => n =? 0
  | CCheckout => n =? 1
  | _ => true
  end.

(** ** The options *)
Record invocation := Inv { i_cmd : command; i_sets : list setting; i_args : list bytes; i_dash : bool }.
(** The value of a flag: the last one that was set *)
Fixpoint last_set (sets : list setting) (name : bytes) : option bytes :=
  match sets with
  | [] => None
  | (n, v) :: sets' =>
      match last_set sets' name with
      | Some v' => Some v'
      | None => if decide (n = name) then Some v else None
      end
  end.
Definition opt_bytes (i : invocation) (name def : bytes) : bytes := default def (last_set (i_sets i) name).
Definition opt_bool (i : invocation) (name : bytes) : bool :=
  default false (last_set (i_sets i) name ≫= parse_bool).
Definition opt_int (i : invocation) (name : bytes) : Z := default (-1)%Z (last_set (i_sets i) name ≫= parse_int).
Definition verbosity (i : invocation) : N := default 0%N (last_set (i_sets i) (B "verbose") ≫= parse_uint max_uint32).

(** Command.execute up to the function PersistentPreRunE. [Ok None]: help or the version is printed, or a command of
    cobra runs. *)
Definition parse_cli (args : list bytes) : res (option invocation) :=
  cr ← find_cmd args;
  match cr.1 with
  | COther => Ok None
  | c =>
      p ← parse_args (flags_of c) cr.2;
      let i := Inv c (p_sets p) (p_args p) (p_dash p) in
      if opt_bool i (B "help") then Ok None
      else if opt_bool i (B "version") then Ok None
      else if args_ok c (length (p_args p)) then Ok (Some i)
      else Err EOptions
  end.

(** ** Running again under sudo *)
(** The annotation AnnotationRunAsRoot of the commands *)
Definition needs_root (c : command) : bool :=
  match c with CInit | CClone | CCommit | CCheckout | CBranch | CTag => true | _ => false end.
(** sudo.go:17-24 [RunAsRoot] with cmd_util.go:68-75 [sudoExtraArgs]: the arguments of the new process *)
Definition sudo_args (args : list bytes) (uid gid : N) : list bytes :=
  args ++ [B "--uid"; fmt_d uid; B "--gid"; fmt_d gid].
(** What a process of user [uid] and group [gid] does: stackcrisp.go:26-48, cmd_util.go:44-65 *)
Inductive action := AFail | AInfo | ASudo (args : list bytes) | ARun (i : invocation).
Definition start (uid gid : N) (args : list bytes) : action :=
  match parse_cli args with
  | Ok (Some i) =>
      if (2 <? verbosity i)%N then AFail
      else if needs_root (i_cmd i) && negb (uid =? 0)%N then ASudo (sudo_args args uid gid)
      else ARun i
  | Ok None => AInfo
  | _ => AFail
  end.

(** ** The command *)
(** The RunE functions with the options that the flags set *)
Definition body (i : invocation) (dr : path) : M unit :=
  match i_cmd i with
  | CInit => cmd_init dr (i_args i) (opt_bytes i (B "initial-branch") (B "main"))
  | CClone => cmd_clone dr (default [] (head (i_args i))) (i_args i !! 1)
  | CCommit => cmd_commit dr (opt_bytes i (B "message") [])
  | CCheckout => cmd_checkout dr (default [] (head (i_args i)))
  | CBranch =>
      cmd_branch dr
        (BranchOpts (opt_bool i (B "list")) (opt_bool i (B "show-current")) (opt_bool i (B "delete"))
           (opt_bool i (B "remotes")) (opt_bool i (B "all")) (opt_bool i (B "force")))
        (i_args i)
  | CTag => cmd_tag dr (TagOpts (opt_bool i (B "list")) (opt_bool i (B "delete")) (opt_bool i (B "force"))) (i_args i)
  | CLog => cmd_log dr (i_args i)
  | CRoot | COther => ret tt
  end.
(** The root command prints help: stackcrisp.go:49-51. *)
Definition perform (i : invocation) : M unit :=
  match i_cmd i with
  | CRoot | COther => change_dir (opt_bytes i (B "chdir") [])
  | _ => with_manager (opt_bytes i (B "chdir") []) (opt_bytes i (B "data-root") (B "/var/lib/stackcrisp")) (body i)
  end.
(** options/global.go:74-81, cmd_util.go:114-118, manager_default.go:33-45, 226-231, 499-503: the manager, and with it each
    mount, has the user and group of the options. Here they are part of the process. *)
Definition as_user (ids : Z * Z) (m : M unit) : M unit :=
  modify (λ w, set_ids w ids) ;;; m.
Definition run_command (i : invocation) : M unit :=
  as_user (opt_int i (B "uid"), opt_int i (B "gid")) (perform i).
(** A whole process of user [uid] and group [gid], with the one that sudo starts for it: main.go:16-29, sudo.go:17-24. The result of the
    second is that of the first: cmd.Run returns an error unless the exit status is 0. Signals: see [Signal.v]. *)
Definition process (uid gid : N) (args : list bytes) : M unit :=
  match start uid gid args with
  | AFail => fail EOptions
  | AInfo => ret tt
  | ARun i => run_command i
  | ASudo args' =>
      match start 0 0 args' with
      | ARun i => run_command i
      | AInfo => ret tt
      | _ => fail EOptions
      end
  end.
(** log.Fatal (main.go:26-28) exits with 1, a panic with 2. A process that is killed or does not end has no status. *)
Definition exit_status (r : res unit) : option nat :=
  match r with Ok _ => Some 0 | Err _ => Some 1 | Panic => Some 2 | _ => None end.
