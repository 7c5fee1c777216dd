(** * Base: byte strings and outcomes of Go calls *)
From Coq Require Export Ascii String.
From stdpp Require Export base list gmap strings sorting fin_maps option.
Open Scope list_scope.
Open Scope nat_scope.

(** Go [string] and [[]byte] values: lists of 8-bit characters.
    (Go strings are arbitrary byte sequences, not necessarily UTF-8.) *)
Notation bytes := (list ascii).
Notation B s := (list_ascii_of_string s%string).

(** Go [byte] as a number, and back ([uint8] conversion wraps modulo 256). *)
Notation b2n := N_of_ascii.
Notation n2b := ascii_of_N.

(** Kinds of error values. Go errors are formatted messages; the model keeps the kind
    and drops the text (the text is observable only on the terminal). *)
Inductive err :=
  | EWrongLen | EHexByte | EHexLen | EBase32            (* pkg/utils/uid *)
  | ERootExists | EParentNotFound | ENodeNotFound       (* pkg/spaces/trees *)
  | EBranchNotFound | EUnreachable
  | EBadName                                            (* pkg/workspaces/branch.go *)
  | ERefNotFound | EBranchExists | ETagExists | ETagNotFound | ECheckedOut
  | ELayerNotFound | ETooFewLayers | EAlreadyMounted
  | EJson                                               (* encoding/json errors *)
  | EHeadNotFound | EKeyNotFound | EMountPath
  | ENotEmptyDir
  | EPlatform
  | EOptions
  | EIO | EEXIST | ENOENT | ENOTDIR | ENOTEMPTY | EBUSY | EINVAL.   (* operating system *)

Global Instance err_eq_dec : EqDecision err.
Proof. solve_decision. Defined.

(** Outcome of a Go call: normal return, returned error, run-time panic,
    non-termination, or the process being killed / the machine crashing. *)
Inductive res (A : Type) :=
  | Ok (a : A) | Err (e : err) | Panic | Hang | Crash.
Arguments Ok {A} a. Arguments Err {A} e. Arguments Panic {A}. Arguments Hang {A}.
Arguments Crash {A}.

Definition rbind {A C} (f : A → res C) (r : res A) : res C :=
  match r with Ok a => f a | Err e => Err e | Panic => Panic | Hang => Hang | Crash => Crash end.
Global Instance res_ret : MRet res := @Ok.
Global Instance res_bind : MBind res := @rbind.

Definition is_ok {A} (r : res A) : bool := match r with Ok _ => true | _ => false end.

Global Instance res_eq_dec {A} `{EqDecision A} : EqDecision (res A).
Proof. solve_decision. Defined.

(** The first [Some] in a list. *)
Definition opt_to_res {A} (e : err) (o : option A) : res A :=
  match o with Some a => Ok a | None => Err e end.

(** How the library's finite maps number a byte string that is a key: eight binary digits for each byte.
    The library's own numbering is some seven times longer, and slow in the checker. Nothing depends
    on the choice. *)
Definition digit (b : bool) (p : positive) : positive := if b then xI p else xO p.
Fixpoint bytes_key (s : bytes) : positive :=
  match s with
  | [] => xH
  | Ascii a b c d e f g h :: s' =>
      digit a (digit b (digit c (digit d (digit e (digit f (digit g (digit h (bytes_key s'))))))))
  end.
Definition key_push (acc : list bool) (b : bool) : list bool * list ascii :=
  match acc ++ [b] with
  | [a; b; c; d; e; f; g; h] => ([], [Ascii a b c d e f g h])
  | l => (l, [])
  end.
Fixpoint key_bytes (acc : list bool) (p : positive) : option bytes :=
  match p with
  | xH => Some []
  | xI q => let x := key_push acc true in (app x.2) <$> key_bytes x.1 q
  | xO q => let x := key_push acc false in (app x.2) <$> key_bytes x.1 q
  end.
Lemma key_bytes_digit acc b p :
  key_bytes acc (digit b p) = (app (key_push acc b).2) <$> key_bytes (key_push acc b).1 p.
Proof. by destruct b. Qed.
Lemma key_bytes_key s : key_bytes [] (bytes_key s) = Some s.
Proof.
  induction s as [|[a b c d e f g h] s IH]; [done|]. cbn [bytes_key].
  rewrite !key_bytes_digit. cbn. rewrite IH. done.
Qed.
Global Instance bytes_countable : Countable bytes := {| encode := bytes_key; decode := key_bytes []; decode_encode := key_bytes_key |}.

(** Byte-wise string order, as Go's [<] on strings. *)
Fixpoint bytes_leb (x y : bytes) : bool :=
  match x, y with
  | [], _ => true
  | _ :: _, [] => false
  | a :: x', c :: y' =>
      if (b2n a <? b2n c)%N then true
      else if (b2n c <? b2n a)%N then false else bytes_leb x' y'
  end.
