(** * Signal: pkg/utils/context/signal.go, the goroutine that turns signals into cancellation and exit
    One process, whose parts act in any order: signals arrive, anyone who holds the cancel function or the parent calls it,
    the goroutine takes one step. A step of the goroutine names the case that its select takes, so that
    every choice Go can make among the ready cases is one of the schedules.
    Left out: the end of the process for other reasons (main returning, log.Fatal, a signal that
    was not asked for), after which no signal matters any more. *)
From Verif Require Import Base.

(** What the receive of line 30 can give. Package os/signal never closes the channel and sends, on Linux, values of
    type syscall.Signal only; the first two and the last are kept because the code has cases for them. *)
Inductive received := RClosed | RNil | RSignal (n : N) | ROther.
(** signal.go:31-37 *)
Definition exit_code (r : received) : N :=
  match r with RClosed => 1 | RNil => 1 | RSignal n => 128 + n | ROther => 1 end%N.

(** Where the goroutine is: at the select of line 22, before the call of line 25, at the select of line 28,
    returned or never started; or the process has exited. *)
Inductive phase := PFirst | PCancel | PSecond | PGone | PExited (code : N).
(** [s_queue] is the content of the channel, oldest first. *)
Record sstate := SState { s_cancelled : bool; s_queue : list N; s_phase : phase }.
(** signal.go:15, the buffer *)
Definition queue_cap : nat := 5.
(** signal.go:12-19, [Notify] with a parent that is cancelled already or not *)
Definition notify (parent_cancelled : bool) : sstate :=
  SState parent_cancelled [] (if parent_cancelled then PGone else PFirst).

(** [ASignal n]: one of the signals asked for arrives; [ACancel]: the parent or the returned cancel function;
    [ADone], [AReceive]: the select that the goroutine is at takes that case; [AProceed]: the call of line 25. *)
Inductive action := ASignal (n : N) | ACancel | ADone | AReceive | AProceed.
Definition own_step (a : action) : bool := match a with ADone | AReceive | AProceed => true | _ => false end.
(** [None]: the action is not possible in this state. *)
Definition sstep (a : action) (s : sstate) : option sstate :=
  match s_phase s with
  | PExited _ => None
  | ph =>
      match a with
      (* os/signal: the send does not block; a signal that finds the buffer full is lost *)
      | ASignal n => Some (if (length (s_queue s) <? queue_cap)%nat then SState (s_cancelled s) (s_queue s ++ [n]) ph else s)
      | ACancel => Some (SState true (s_queue s) ph)
      | ADone =>
          if s_cancelled s then
            match ph with
            | PFirst => Some (SState true (s_queue s) PSecond)
            | PSecond => Some (SState true (s_queue s) PGone)
            | _ => None
            end
          else None
      | AReceive =>
          match s_queue s with
          | [] => None
          | n :: q =>
              match ph with
              | PFirst => Some (SState (s_cancelled s) q PCancel)
              | PSecond => Some (SState (s_cancelled s) q (PExited (exit_code (RSignal n))))
              | _ => None
              end
          end
      | AProceed => match ph with PCancel => Some (SState true (s_queue s) PSecond) | _ => None end
      end
  end.
(** A schedule *)
Fixpoint ssteps (l : list action) (s : sstate) : option sstate :=
  match l with [] => Some s | a :: l' => match sstep a s with Some s' => ssteps l' s' | None => None end end.
