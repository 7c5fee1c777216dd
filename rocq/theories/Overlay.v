(** * Overlay: what an overlay mount shows.

    The semantics of overlayfs (Linux, Documentation/filesystems/overlayfs.rst) as far as the program
    relies on it. Not modelled: redirects, metacopy, hard links, owners and times. *)
From Verif Require Import Base Fs.

(** The content of a directory used as a layer: a path inside it to the object there *)
Notation layer := (path → option fobj).
Definition layer_at (fs : files) (d : path) : layer := λ k, fget fs (d ++ k).
(** The object at a strict ancestor of [k] hides everything below it in lower layers unless it is a
    plain directory. *)
Definition hides (x : option fobj) : bool :=
  match x with
  | None | Some (FDir false) => false
  | Some (FDir true) | Some (FFile _) | Some (FLink _) | Some FWhite => true
  end.
Definition covered (L : layer) (k : path) : bool :=
  existsb (λ n, hides (L (take n k))) (seq 1 (pred (length k))).
Definition shown (x : fobj) : option fobj :=
  match x with FWhite => None | FDir _ => Some (FDir false) | y => Some y end.
(** What is visible at path [k] (not the empty one) of a stack of layers, topmost first *)
Fixpoint view (Ls : list layer) (k : path) : option fobj :=
  match Ls with
  | [] => None
  | L :: Ls' =>
      match L k with
      | Some x => shown x
      | None => if covered L k then None else view Ls' k
      end
  end.
(** What a mount shows *)
Definition mount_view (fs : files) (m : mount) : path → option fobj :=
  view (layer_at fs <$> (option_list (mn_upper m) ++ mn_lowers m)).

(** The names in a directory *)
Definition name_leq (x y : bytes) : Prop := bytes_leb x y = true.
Global Instance name_leq_dec : RelDecision name_leq.
Proof. intros x y. unfold name_leq. apply _. Defined.
Definition child_of (p q : path) : option bytes :=
  if is_prefix p q then match drop (length p) q with [n] => Some n | _ => None end else None.
Definition children (fs : files) (p : path) : list bytes :=
  merge_sort name_leq (remove_dups (omap (λ kv, child_of p kv.1) fs)).
(** The names at the top of a stack of layer directories *)
Definition top_names (fs : files) (ds : list path) : list bytes :=
  filter (λ n, is_Some (view (layer_at fs <$> ds) [n]))
    (merge_sort name_leq (remove_dups (concat (children fs <$> ds)))).
