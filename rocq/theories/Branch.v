(** * Branch: model of pkg/workspaces/branch.go *)
From Verif Require Import Base Uid.

(** branch.go:72-77 [defaultBranch] without the head: [br_ws = None] is a global branch. *)
Record branch := Br { br_ws : option uid; br_name : bytes }.
Global Instance branch_eq_dec : EqDecision branch.
Proof. solve_decision. Defined.

(** branch.go:57-62, 65-69 *)
Definition local_branch (ws : uid) (name : bytes) : branch := Br (Some ws) name.
Definition global_branch (name : bytes) : branch := Br None name.
(** branch.go:104-111 *)
Definition is_local (b : branch) : bool := match br_ws b with Some _ => true | None => false end.
Definition is_global (b : branch) : bool := negb (is_local b).
(** branch.go:88-93 *)
Definition full_name (b : branch) : bytes :=
  match br_ws b with
  | Some ws => uid_b32 ws ++ B "/" ++ br_name b
  | None => B "global/" ++ br_name b
  end.
(** branch.go:96-101 *)
Definition local_name (b : branch) : bytes :=
  match br_ws b with Some _ => br_name b | None => B "origin/" ++ br_name b end.

Fixpoint trim_prefix (p s : bytes) : option bytes :=
  match p, s with
  | [], _ => Some s
  | a :: p', b :: s' => if decide (a = b) then trim_prefix p' s' else None
  | _, [] => None
  end.
(** [A-Z0-9] *)
Definition id_char (c : ascii) : bool :=
  let n := b2n c in ((65 <=? n) && (n <=? 90) || (48 <=? n) && (n <=? 57))%N.
Definition no_lf (s : bytes) : bool := forallb (λ c, negb (bool_decide (c = LF))) s.
(** branch.go:18, 22-40: the regular expression "global" or 26 characters A-Z 0-9, a slash, then anything without line feeds up to the end; followed
    by the decoding of the workspace ID. The dot matches everything but a line feed, and the
    dollar only the end of the text. *)
Definition parse_full (s : bytes) : res branch :=
  match trim_prefix (B "global/") s with
  | Some n => if no_lf n then Ok (global_branch n) else Err EBadName
  | None =>
      let p := take 26 s in
      if (length p =? 26) && forallb id_char p then
        match drop 26 s with
        | c :: n =>
            if decide (c = "/"%char) then
              if no_lf n then
                match decode_b32 p with
                | Ok ws => Ok (local_branch ws n)
                | Err e => Err e | Panic => Panic | Hang => Hang | Crash => Crash
                end
              else Err EBadName
            else Err EBadName
        | [] => Err EBadName
        end
      else Err EBadName
  end.
(** branch.go:45-54 *)
Definition parse_local (ws : uid) (s : bytes) : list branch :=
  local_branch ws s :: match trim_prefix (B "origin/") s with Some n => [global_branch n] | None => [] end.
