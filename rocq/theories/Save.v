(** * Save: the bytes of tree.json and of the .workspace files.
    json.Marshal / json.Unmarshal of pkg/spaces/trees/dump.go:10-29 (TreeDump, NodeDump) and
    pkg/manager/manager_default.go:116-123 (WorkspaceInfo), on top of [Json.v]. *)
From Verif Require Import Base Uid Tree Dump Json.

(** encoding/json writes map entries sorted by key. *)
Definition key_le {V} (x y : bytes * V) : Prop := bytes_leb x.1 y.1 = true.
Global Instance key_le_dec {V} : RelDecision (@key_le V).
Proof. intros x y. unfold key_le. apply _. Defined.
Definition sorted_entries {V} (m : gmap bytes V) : list (bytes * V) := merge_sort key_le (map_to_list m).

Definition j_str_map (m : gmap bytes bytes) : json :=
  JObj ((λ kv, (kv.1, JStr kv.2)) <$> sorted_entries m).
Definition j_opt_map (o : option (gmap bytes bytes)) : json :=
  match o with None => JNull | Some m => j_str_map m end.
Definition j_data (v : option bytes) : json :=
  match v with None => JNull | Some b => JStr (b64_encode b) end.
(** A field with the omitempty option *)
Definition omit_empty {A} (l : list A) (field : bytes * json) : list (bytes * json) :=
  match l with [] => [] | _ => [field] end.

(** dump.go:20-29 *)
Fixpoint j_node (d : ndump) : json :=
  match d with
  | ND id cs anno data =>
      JObj ((B "id", JStr id)
            :: omit_empty cs (B "children", JArr (map j_node cs))
            ++ omit_empty (map_to_list anno) (B "annotations", j_str_map anno)
            ++ omit_empty (map_to_list data)
                 (B "data", JObj ((λ kv, (kv.1, j_data kv.2)) <$> sorted_entries data)))
  end.
(** dump.go:10-17 *)
Definition j_dump (d : tdump) : json :=
  JObj [(B "nodes", match d_nodes d with None => JNull | Some n => j_node n end);
        (B "branches", j_opt_map (d_branches d));
        (B "tags", j_opt_map (d_tags d))].
(** default.go:111-116: the bytes Save writes *)
Definition marshal_dump (d : tdump) : bytes := p_json (j_dump d).

(** ** Unmarshal
    Simplifications: field names match exactly (Go also accepts other letter case), and of
    several fields with the same name the last one counts (Go merges maps). Neither occurs in a
    text this program wrote. *)
Fixpoint field_of (k : bytes) (l : list (bytes * json)) : option json :=
  match l with
  | [] => None
  | (k', v) :: l' => match field_of k l' with
                     | Some v' => Some v'
                     | None => if decide (k = k') then Some v else None
                     end
  end.
(** A string field: absent and null leave the empty string. *)
Definition u_str (o : option json) : option bytes :=
  match o with
  | None | Some JNull => Some []
  | Some (JStr s) => Some s
  | _ => None
  end.
Fixpoint u_entries {V} (f : json → option V) (l : list (bytes * json)) : option (list (bytes * V)) :=
  match l with
  | [] => Some []
  | (k, v) :: l' => match f v, u_entries f l' with
                    | Some x, Some r => Some ((k, x) :: r)
                    | _, _ => None
                    end
  end.
(** Later entries with the same key replace earlier ones. *)
Definition last_wins {V} (l : list (bytes * V)) : gmap bytes V :=
  foldl (λ m kv, <[kv.1 := kv.2]> m) ∅ l.
Definition u_map {V} (f : json → option V) (o : option json) : option (option (gmap bytes V)) :=
  match o with
  | None | Some JNull => Some None
  | Some (JObj l) => match u_entries f l with Some r => Some (Some (last_wins r)) | None => None end
  | _ => None
  end.
Definition u_sval (j : json) : option bytes := u_str (Some j).
Definition u_data (j : json) : option (option bytes) :=
  match j with
  | JNull => Some None
  | JStr s => match b64_decode s with Some b => Some (Some b) | None => None end
  | _ => None
  end.
Fixpoint opt_mapM {A B} (f : A → option B) (l : list A) : option (list B) :=
  match l with
  | [] => Some []
  | x :: l' => match f x, opt_mapM f l' with Some y, Some r => Some (y :: r) | _, _ => None end
  end.
(** A NodeDump; null leaves the zero value. [fuel] bounds the nesting depth. *)
Fixpoint u_node (fuel : nat) (j : json) : option ndump :=
  match fuel with
  | O => None
  | S f =>
      match j with
      | JNull => Some (ND [] [] ∅ ∅)
      | JObj l =>
          match u_str (field_of (B "id") l),
                match field_of (B "children") l with
                | None | Some JNull => Some []
                | Some (JArr cs) => opt_mapM (u_node f) cs
                | _ => None
                end,
                u_map u_sval (field_of (B "annotations") l),
                u_map u_data (field_of (B "data") l) with
          | Some id, Some cs, Some anno, Some data => Some (ND id cs (default ∅ anno) (default ∅ data))
          | _, _, _, _ => None
          end
      | _ => None
      end
  end.
Fixpoint jdepth (j : json) : nat :=
  match j with
  | JNull | JStr _ => 1
  | JArr l => S (foldr (λ j m, jdepth j `max` m) 0 l)
  | JObj l => S (foldr (λ kv m, jdepth kv.2 `max` m) 0 l)
  end.
Definition u_dump (j : json) : option tdump :=
  match j with
  | JNull => Some (TDump None None None)
  | JObj l =>
      match match field_of (B "nodes") l with
            | None | Some JNull => Some None
            | Some n => match u_node (jdepth n) n with Some d => Some (Some d) | None => None end
            end,
            u_map u_sval (field_of (B "branches") l),
            u_map u_sval (field_of (B "tags") l) with
      | Some n, Some b, Some t => Some (TDump n b t)
      | _, _, _ => None
      end
  | _ => None
  end.
Definition unmarshal_dump (raw : bytes) : option tdump :=
  match parse_json raw with Some j => u_dump j | None => None end.

(** default.go:106-116 [Save], the bytes; 92-100 [Load], from the bytes read *)
Definition tree_bytes (t : tstate) (e : dumpenv) : res bytes :=
  match dump t e with
  | Ok d => Ok (marshal_dump d)
  | Err x => Err x | Panic => Panic | Hang => Hang | Crash => Crash
  end.
Definition load_bytes (ordb ordt : list (bytes * bytes) → list (bytes * bytes)) (raw : bytes) : res tstate :=
  match unmarshal_dump raw with
  | None => Err EJson
  | Some d => load ordb ordt d
  end.

(** manager_default.go:116-123 *)
Record wsinfo := WsInfo {
  wi_id : bytes; wi_path : bytes; wi_head : bytes;
  wi_space : bytes; wi_mount : bytes; wi_branch : bytes }.
(** manager_default.go:415-422 *)
Definition j_wsinfo (w : wsinfo) : json :=
  JObj [(B "id", JStr (wi_id w)); (B "path", JStr (wi_path w)); (B "head", JStr (wi_head w));
        (B "sapceID", JStr (wi_space w)); (B "mountID", JStr (wi_mount w)); (B "branch", JStr (wi_branch w))].
Definition marshal_wsinfo (w : wsinfo) : bytes := p_json (j_wsinfo w).
(** manager_default.go:454-457 *)
Definition unmarshal_wsinfo (raw : bytes) : option wsinfo :=
  match parse_json raw with
  | Some JNull => Some (WsInfo [] [] [] [] [] [])
  | Some (JObj l) =>
      match u_str (field_of (B "id") l), u_str (field_of (B "path") l), u_str (field_of (B "head") l),
            u_str (field_of (B "sapceID") l), u_str (field_of (B "mountID") l), u_str (field_of (B "branch") l) with
      | Some a, Some b, Some c, Some d, Some e, Some f => Some (WsInfo a b c d e f)
      | _, _, _, _, _, _ => None
      end
  | _ => None
  end.
