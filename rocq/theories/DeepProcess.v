(** * DeepProcess: set-up of a process and its command, with paths that are resolved as the kernel does *)
From Verif Require Import Base Uid Tree Fs Overlay Os Layers Mounts Space Manager Commands SpecCmds Deep DeepStart.
From Verif Require Cli.
From stdpp Require Import prelude gmap.

(** manager_default.go:33-45 [New], cmd_util.go:105-130 [InjectManagerIfNecessary]. Simplified: the directories of the data root are made by the rules of Os.v. *)
Definition deep_inject (data_root : bytes) : M path :=
  dr <- deep_abs data_root ;;
  se <- prepare dr (MState false None) ;;
  match se.2 with
  | Some e => fail e
  | None => ret dr
  end.
(** stackcrisp.go:26-48 with cmd_util.go:78-102 [ChangeWorkingDirectory], for the options --chdir and --data-root and the user and group [ids]. What a command line
    means is in Cli.v. *)
Definition deep_process (ids : Z * Z) (chdir data_root : bytes) (c : command) : M unit :=
  Cli.as_user ids (deep_change_dir chdir ;;; dr <- deep_inject data_root ;; deep_run dr c).
