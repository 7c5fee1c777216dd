(** * Sample: a small machine and helpers for the concrete cases shown beside the theorems *)
From Verif Require Import Base Uid Tree Dump Save Branch Date Ws Fs Overlay Os Layers Mounts Space Manager Commands.

(** The n-th random ID *)
Definition sample_id (n : nat) : uid :=
  let c := n2b (N.of_nat n) in Uid c c c c c c c c c c c c c c c c.
Definition sample_time : time := Time 2024 2 29 23 59 58 0.
Definition no_fault (n : nat) : choice :=
  Choice FNone (sample_id n) sample_time (λ _, false) (DumpEnv (λ _ l, l) false false) (λ l, l) (λ l, l).
(** Nothing fails *)
Definition calm : oracle := no_fault.
Definition with_fault (o : oracle) (k : nat) (f : fault) : oracle := λ n,
  let c := o n in
  Choice (if decide (n = k) then f else ch_fault c) (ch_uid c) (ch_time c) (ch_keep c) (ch_dump c) (ch_names c) (ch_locs c).

(** Data root /d, prepared; the user's home is /h with an empty directory /h/w. *)
Definition sample_dr : path := [B "d"].
Definition sample_fs : files :=
  [([], FDir false); ([B "d"], FDir false); ([B "d"; B "overlay"], FDir false); ([B "d"; B "spaces"], FDir false);
   ([B "d"; B "mounts"], FDir false); ([B "h"], FDir false); ([B "h"; B "w"], FDir false)].
Definition sample_world : world := World sample_fs [] new_tree [B "h"] (Some [B "h"]) [] 0 (-1, -1)%Z [].

(** Commands one after the other, each a new process started in directory [d]; the first failure ends. *)
Fixpoint run_all (o : oracle) (l : list (path * M unit)) (w : world) : res unit * world :=
  match l with
  | [] => (Ok tt, w)
  | (d, c) :: l' =>
      match c o (set_pwd (set_cwd (set_tree w new_tree) (default d (real_path (w_fs w) d))) (Some d)) with
      | (Ok _, w1) => run_all o l' w1
      | r => r
      end
  end.
Definition home : path := [B "h"].
Definition wdir : path := [B "h"; B "w"].
