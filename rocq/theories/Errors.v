(** * Errors: pkg/utils/errors/error.go, and what it uses of the package errors of Go
    Left out: targets other than Status; typed nil pointers inside interfaces; methods that panic. *)
From Verif Require Import Base.

(** error.go:25-29 [defaultStatus]. Codes are of type uint32; [N] here, all theorems hold for all of them. *)
Record status := Status { st_code : N; st_reason : bytes; st_message : bytes }.
(** Decimal digits, for the verb %d *)
Fixpoint digits (fuel : nat) (n : N) (acc : bytes) : bytes :=
  match fuel with
  | 0 => acc
  | S fuel' =>
      let acc' := n2b (48 + n mod 10) :: acc in
      if (n <? 10)%N then acc' else digits fuel' (n / 10)%N acc'
  end.
Definition fmt_d (n : N) : bytes := digits (S (N.size_nat n)) n [].
(** error.go:34-39 [Error] *)
Definition status_text (s : status) : bytes :=
  if (st_code s =? 0)%N then st_reason s ++ B ": " ++ st_message s
  else st_reason s ++ B "(" ++ fmt_d (st_code s) ++ B "): " ++ st_message s.

(** An error value: its text; the Status that it is itself, if its type implements the interface; the Status that its
    method As stores for a target of that type, if it has one and it returns true; the errors that its
    method Unwrap returns, none, one or a list. Entries of such a list that are nil are left out, as
    errors.As skips them. *)
Inductive goerr := GErr (text : bytes) (own : option status) (given : option status) (wrapped : list goerr).
Definition err_text (e : goerr) : bytes := match e with GErr t _ _ _ => t end.
Definition err_own (e : goerr) : option status := match e with GErr _ o _ _ => o end.
Definition err_given (e : goerr) : option status := match e with GErr _ _ g _ => g end.
Definition err_wrapped (e : goerr) : list goerr := match e with GErr _ _ _ l => l end.
(** A Status as error, error.go:67-81 [New] [NewWithCode] *)
Definition status_err (s : status) : goerr := GErr (status_text s) (Some s) None [].
Definition new_status (reason message : bytes) : status := Status 0 reason message.
(** fmt.Errorf with text [t] after formatting: the operands of its verbs %w *)
Definition errorf (t : bytes) (ws : list goerr) : goerr := GErr t None None ws.

(** errors.As of Go 1.21 with a target of type Status *)
Fixpoint as_status (e : goerr) : option status :=
  match e with
  | GErr _ (Some s) _ _ => Some s
  | GErr _ None (Some s) _ => Some s
  | GErr _ None None l =>
      (fix first (l : list goerr) : option status :=
         match l with
         | [] => None
         | e' :: l' => match as_status e' with Some s => Some s | None => first l' end
         end) l
  end.
(** error.go:58-64 [FromError]. The argument [None] is the nil error: errors.As returns false, and the
    call of Error on nil panics. *)
Definition from_error (e : option goerr) : res status :=
  match e with
  | None => Panic
  | Some e => Ok (match as_status e with Some s => s | None => new_status (B "InternalError") (err_text e) end)
  end.
