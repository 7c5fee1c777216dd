(** * Json: model of the parts of Go's encoding/json, unicode/utf8 and encoding/base64 that
    pkg/spaces/default.go:106-124 (json.Marshal of a TreeDump), 82-103 (json.Unmarshal) and
    pkg/workspaces/workspace.go (json of the workspace info) rely on (Go 1.21 library semantics;
    these packages are not in /repo, the model follows their documented behaviour).

    Simplification: JSON numbers, true and false are not part of the value type; the programs
    modelled never write them, and a text that contains one is rejected here (Go would reject
    it too where a string, object or array is expected, and skip it under an unknown field). *)
From Verif Require Import Base.

(** ** UTF-8 *)
Definition in_range (lo hi x : N) : bool := (lo <=? x)%N && (x <=? hi)%N.
Definition is_cont (b : ascii) : bool := in_range 128 191 (b2n b).

(** utf8.DecodeRune: length of the valid UTF-8 sequence at the head; [None] when the first byte
    does not start one (Go: RuneError, size 1). *)
Definition utf8_head (s : bytes) : option nat :=
  match s with
  | [] => None
  | a :: s1 =>
      let x := b2n a in
      if (x <? 128)%N then Some 1
      else if in_range 194 223 x then
        match s1 with
        | b :: _ => if is_cont b then Some 2 else None
        | _ => None
        end
      else if in_range 224 239 x then
        match s1 with
        | b :: c :: _ =>
            if in_range (if (x =? 224)%N then 160 else 128) (if (x =? 237)%N then 159 else 191) (b2n b) && is_cont c
            then Some 3 else None
        | _ => None
        end
      else if in_range 240 244 x then
        match s1 with
        | b :: c :: d :: _ =>
            if in_range (if (x =? 240)%N then 144 else 128) (if (x =? 244)%N then 143 else 191) (b2n b)
               && is_cont c && is_cont d
            then Some 4 else None
        | _ => None
        end
      else None
  end.

(** A string cut into valid sequences and single invalid bytes. *)
Inductive rune := RGood (l : bytes) | RBad.
Fixpoint runes_fuel (fuel : nat) (s : bytes) : list rune :=
  match fuel with
  | O => []
  | S f =>
      match s with
      | [] => []
      | a :: s1 =>
          match utf8_head s with
          | Some n => RGood (take n s) :: runes_fuel f (drop n s)
          | None => RBad :: runes_fuel f s1
          end
      end
  end.
Definition runes (s : bytes) : list rune := runes_fuel (length s) s.
Definition valid_utf8 (s : bytes) : bool := forallb (λ r, match r with RGood _ => true | RBad => false end) (runes s).

(** U+FFFD in UTF-8 *)
Definition fffd : bytes := [n2b 239; n2b 191; n2b 189].
(** What is left of a string after json.Marshal and json.Unmarshal. *)
Definition san_rune (r : rune) : bytes := match r with RGood l => l | RBad => fffd end.
Definition sanitize (s : bytes) : bytes := concat (map san_rune (runes s)).

(** utf8.EncodeRune, for code points up to 0x10FFFF *)
Definition utf8_enc (r : N) : bytes :=
  if (r <? 128)%N then [n2b r]
  else if (r <? 2048)%N then [n2b (192 + r / 64); n2b (128 + r mod 64)]
  else if (r <? 65536)%N then [n2b (224 + r / 4096); n2b (128 + r / 64 mod 64); n2b (128 + r mod 64)]
  else [n2b (240 + r / 262144); n2b (128 + r / 4096 mod 64); n2b (128 + r / 64 mod 64); n2b (128 + r mod 64)].

(** ** String literals *)
Definition QUOTE : ascii := """"%char.
Definition BSL : ascii := "\"%char.
Definition hexd (x : N) : ascii := if (x <? 10)%N then n2b (48 + x) else n2b (87 + x).

(** encoding/json appendString with escapeHTML: one valid ASCII byte *)
Definition esc_ascii (a : ascii) : bytes :=
  let x := b2n a in
  if Ascii.eqb a QUOTE || Ascii.eqb a BSL then [BSL; a]
  else if (x =? 10)%N then [BSL; "n"%char]
  else if (x =? 13)%N then [BSL; "r"%char]
  else if (x =? 9)%N then [BSL; "t"%char]
  else if (x <? 32)%N || Ascii.eqb a "<" || Ascii.eqb a ">" || Ascii.eqb a "&"
       then B "\u00" ++ [hexd (x / 16); hexd (x mod 16)]
  else [a].
Definition LSEP : bytes := [n2b 226; n2b 128; n2b 168].
Definition PSEP : bytes := [n2b 226; n2b 128; n2b 169].
Definition enc_rune (r : rune) : bytes :=
  match r with
  | RBad => BSL :: B "ufffd"
  | RGood [a] => esc_ascii a
  | RGood l => if decide (l = LSEP) then BSL :: B "u2028" else if decide (l = PSEP) then BSL :: B "u2029" else l
  end.
Definition enc_str (s : bytes) : bytes := concat (map enc_rune (runes s)).

(** encoding/json unquote: hex digits of a \u escape *)
Definition hexv (a : ascii) : option N :=
  let x := b2n a in
  if in_range 48 57 x then Some (x - 48)%N
  else if in_range 97 102 x then Some (x - 87)%N
  else if in_range 65 70 x then Some (x - 55)%N
  else None.
Definition hex4 (a b c d : ascii) : option N :=
  match hexv a, hexv b, hexv c, hexv d with
  | Some w, Some x, Some y, Some z => Some (((w * 16 + x) * 16 + y) * 16 + z)%N
  | _, _, _, _ => None
  end.
Definition short_esc (e : ascii) : option ascii :=
  if Ascii.eqb e QUOTE || Ascii.eqb e BSL || Ascii.eqb e "/" then Some e
  else if Ascii.eqb e "n" then Some (n2b 10)
  else if Ascii.eqb e "r" then Some (n2b 13)
  else if Ascii.eqb e "t" then Some (n2b 9)
  else if Ascii.eqb e "b" then Some (n2b 8)
  else if Ascii.eqb e "f" then Some (n2b 12)
  else None.
Definition prepend (l : bytes) (o : option (bytes * bytes)) : option (bytes * bytes) :=
  match o with Some (s, r) => Some (l ++ s, r) | None => None end.

(** One step of reading the body of a string literal. *)
Inductive sstep := SEnd (rest : bytes) | SFail | SOut (out rest : bytes).
Definition dec_step (s : bytes) : sstep :=
  match s with
  | [] => SFail
  | c :: s1 =>
      if Ascii.eqb c QUOTE then SEnd s1
      else if Ascii.eqb c BSL then
        match s1 with
        | [] => SFail
        | e :: s2 =>
            if Ascii.eqb e "u" then
              match s2 with
              | h1 :: h2 :: h3 :: h4 :: s3 =>
                  match hex4 h1 h2 h3 h4 with
                  | None => SFail
                  | Some r =>
                      if in_range 55296 57343 r then
                        match s3 with
                        | b :: u :: g1 :: g2 :: g3 :: g4 :: s4 =>
                            match (if Ascii.eqb b BSL && Ascii.eqb u "u" then hex4 g1 g2 g3 g4 else None) with
                            | Some r2 =>
                                if (r <? 56320)%N && in_range 56320 57343 r2
                                then SOut (utf8_enc ((r - 55296) * 1024 + (r2 - 56320) + 65536)) s4
                                else SOut fffd s3
                            | None => SOut fffd s3
                            end
                        | _ => SOut fffd s3
                        end
                      else SOut (utf8_enc r) s3
                  end
              | _ => SFail
              end
            else match short_esc e with Some b => SOut [b] s2 | None => SFail end
        end
      else if (b2n c <? 32)%N then SFail
      else match utf8_head s with
           | Some n => SOut (take n s) (drop n s)
           | None => SOut fffd s1
           end
  end.
(** The body of a string literal after the opening quote: the string and the text after the
    closing quote. *)
Fixpoint dec_str_fuel (fuel : nat) (s : bytes) : option (bytes * bytes) :=
  match fuel with
  | O => None
  | S f =>
      match dec_step s with
      | SEnd r => Some ([], r)
      | SFail => None
      | SOut o r => prepend o (dec_str_fuel f r)
      end
  end.
Definition dec_str (s : bytes) : option (bytes * bytes) := dec_str_fuel (length s) s.

(** ** Values *)
Inductive json := JNull | JStr (s : bytes) | JArr (l : list json) | JObj (l : list (bytes * json)).

Fixpoint sep_by (l : list bytes) : bytes :=
  match l with
  | [] => []
  | [x] => x
  | x :: l' => x ++ ","%char :: sep_by l'
  end.
Definition quoted (s : bytes) : bytes := QUOTE :: enc_str s ++ [QUOTE].

(** json.Marshal: no white space *)
Fixpoint p_json (j : json) : bytes :=
  match j with
  | JNull => B "null"
  | JStr s => quoted s
  | JArr l => "["%char :: sep_by (map p_json l) ++ ["]"%char]
  | JObj l => "{"%char :: sep_by (map (λ kv, quoted kv.1 ++ ":"%char :: p_json kv.2) l) ++ ["}"%char]
  end.

Definition is_ws (c : ascii) : bool :=
  let x := b2n c in (x =? 32)%N || (x =? 9)%N || (x =? 10)%N || (x =? 13)%N.
Fixpoint skip_ws (s : bytes) : bytes :=
  match s with
  | c :: s' => if is_ws c then skip_ws s' else s
  | [] => []
  end.
(** [expect c s]: the text after white space and the character [c] *)
Definition expect (c : ascii) (s : bytes) : option bytes :=
  match skip_ws s with
  | x :: r => if Ascii.eqb x c then Some r else None
  | [] => None
  end.

(** Recursive-descent reading of a value; [fuel] bounds the number of nested calls. *)
Fixpoint parse_value (fuel : nat) (s : bytes) : option (json * bytes) :=
  match fuel with
  | O => None
  | S f =>
      match skip_ws s with
      | [] => None
      | c :: s1 =>
          if Ascii.eqb c QUOTE then
            match dec_str s1 with Some (str, r) => Some (JStr str, r) | None => None end
          else if Ascii.eqb c "{" then
            match expect "}" s1 with
            | Some r => Some (JObj [], r)
            | None => match parse_members f s1 with Some (ms, r) => Some (JObj ms, r) | None => None end
            end
          else if Ascii.eqb c "[" then
            match expect "]" s1 with
            | Some r => Some (JArr [], r)
            | None => match parse_items f s1 with Some (l, r) => Some (JArr l, r) | None => None end
            end
          else if Ascii.eqb c "n" then
            match s1 with
            | a :: b :: d :: r =>
                if Ascii.eqb a "u" && Ascii.eqb b "l" && Ascii.eqb d "l" then Some (JNull, r) else None
            | _ => None
            end
          else None
      end
  end
with parse_members (fuel : nat) (s : bytes) : option (list (bytes * json) * bytes) :=
  match fuel with
  | O => None
  | S f =>
      match expect QUOTE s with
      | None => None
      | Some s1 =>
          match dec_str s1 with
          | None => None
          | Some (k, r) =>
              match expect ":" r with
              | None => None
              | Some r1 =>
                  match parse_value f r1 with
                  | None => None
                  | Some (v, r2) =>
                      match expect "," r2 with
                      | Some r3 =>
                          match parse_members f r3 with
                          | Some (ms, r4) => Some ((k, v) :: ms, r4)
                          | None => None
                          end
                      | None =>
                          match expect "}" r2 with Some r3 => Some ([(k, v)], r3) | None => None end
                      end
                  end
              end
          end
      end
  end
with parse_items (fuel : nat) (s : bytes) : option (list json * bytes) :=
  match fuel with
  | O => None
  | S f =>
      match parse_value f s with
      | None => None
      | Some (v, r2) =>
          match expect "," r2 with
          | Some r3 =>
              match parse_items f r3 with
              | Some (l, r4) => Some (v :: l, r4)
              | None => None
              end
          | None => match expect "]" r2 with Some r3 => Some ([v], r3) | None => None end
          end
      end
  end.

(** json.Unmarshal, first half: the text is one value with white space around it. *)
Definition parse_json (s : bytes) : option json :=
  match parse_value (length s) s with
  | Some (j, r) => match skip_ws r with [] => Some j | _ => None end
  | None => None
  end.

(** ** base64.StdEncoding, used by encoding/json for byte slices *)
Definition b64_char (x : N) : ascii :=
  if (x <? 26)%N then n2b (65 + x)
  else if (x <? 52)%N then n2b (71 + x)
  else if (x <? 62)%N then n2b (x - 4)
  else if (x =? 62)%N then "+"%char else "/"%char.
Definition b64_val (c : ascii) : option N :=
  let x := b2n c in
  if in_range 65 90 x then Some (x - 65)%N
  else if in_range 97 122 x then Some (x - 71)%N
  else if in_range 48 57 x then Some (x + 4)%N
  else if (x =? 43)%N then Some 62%N
  else if (x =? 47)%N then Some 63%N
  else None.
Fixpoint b64_encode (s : bytes) : bytes :=
  match s with
  | [] => []
  | [a] => let x := b2n a in
      [b64_char (x / 4); b64_char (x mod 4 * 16); "="%char; "="%char]
  | [a; b] => let x := b2n a in let y := b2n b in
      [b64_char (x / 4); b64_char (x mod 4 * 16 + y / 16); b64_char (y mod 16 * 4); "="%char]
  | a :: b :: c :: s' => let x := b2n a in let y := b2n b in let z := b2n c in
      b64_char (x / 4) :: b64_char (x mod 4 * 16 + y / 16)
        :: b64_char (y mod 16 * 4 + z / 64) :: b64_char (z mod 64) :: b64_encode s'
  end.
(** Simplification: the Go decoder also skips CR and LF inside the text. *)
Fixpoint b64_decode (s : bytes) : option bytes :=
  match s with
  | [] => Some []
  | c1 :: c2 :: c3 :: c4 :: s' =>
      match b64_val c1, b64_val c2 with
      | Some p, Some q =>
          let o1 := n2b (p * 4 + q / 16) in
          match b64_val c3, b64_val c4 with
          | Some r, Some t =>
              match b64_decode s' with
              | Some l => Some (o1 :: n2b (q mod 16 * 16 + r / 4) :: n2b (r mod 4 * 64 + t) :: l)
              | None => None
              end
          | Some r, None =>
              if Ascii.eqb c4 "=" then match s' with [] => Some [o1; n2b (q mod 16 * 16 + r / 4)] | _ => None end else None
          | None, _ =>
              if Ascii.eqb c3 "=" && Ascii.eqb c4 "=" then match s' with [] => Some [o1] | _ => None end else None
          end
      | _, _ => None
      end
  | _ => None
  end.
