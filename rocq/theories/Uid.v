(** * Uid: model of pkg/utils/uid and of the parts of encoding/hex and
    encoding/base32 it calls. *)
From Verif Require Import Base.

(** uid_128.go:13  [type uid128 [16]byte]. A record of 16 bytes, so that the length is
    enforced by the type, as in Go. *)
Record uid := Uid {
  u0 : ascii; u1 : ascii; u2 : ascii; u3 : ascii; u4 : ascii; u5 : ascii; u6 : ascii; u7 : ascii;
  u8 : ascii; u9 : ascii; u10 : ascii; u11 : ascii; u12 : ascii; u13 : ascii; u14 : ascii; u15 : ascii }.

(** [uid[:]]: the array as a slice (uid_128.go:20, 26). *)
Definition ubytes (u : uid) : bytes :=
  [u0 u; u1 u; u2 u; u3 u; u4 u; u5 u; u6 u; u7 u;
   u8 u; u9 u; u10 u; u11 u; u12 u; u13 u; u14 u; u15 u].

(** The conversion [uid128(ret)] from a slice to [16]byte (uid_128.go:68, 81, 89):
    takes the first 16 elements, panics if the slice is shorter (Go 1.20+). *)
Definition to_array16 (l : bytes) : res uid :=
  match l with
  | a0::a1::a2::a3::a4::a5::a6::a7::a8::a9::a10::a11::a12::a13::a14::a15::_ =>
      Ok (Uid a0 a1 a2 a3 a4 a5 a6 a7 a8 a9 a10 a11 a12 a13 a14 a15)
  | _ => Panic
  end.

Global Instance uid_eq_dec : EqDecision uid.
Proof. solve_decision. Defined.

Definition uid_of_bytes (l : bytes) : option uid :=
  match to_array16 l with Ok u => Some u | _ => None end.
Lemma uid_of_ubytes u : uid_of_bytes (ubytes u) = Some u.
Proof. destruct u; reflexivity. Qed.
Global Instance uid_countable : Countable uid := inj_countable ubytes uid_of_bytes uid_of_ubytes.

(** ** encoding/hex *)

(** hextable = "0123456789abcdef" *)
Definition hex_char (n : N) : ascii := if (n <? 10)%N then n2b (48 + n) else n2b (87 + n).

(** hex.EncodeToString *)
Definition hex_encode (l : bytes) : bytes :=
  flat_map (λ a, [hex_char (b2n a / 16); hex_char (b2n a mod 16)]) l.

(** reverseHexTable *)
Definition hex_val (a : ascii) : option N :=
  let n := b2n a in
  if (48 <=? n)%N && (n <=? 57)%N then Some (n - 48)%N
  else if (97 <=? n)%N && (n <=? 102)%N then Some (n - 87)%N
  else if (65 <=? n)%N && (n <=? 70)%N then Some (n - 55)%N
  else None.

(** hex.DecodeString: pairs of digits; InvalidByteError at the first bad byte,
    ErrLength for odd length. *)
Fixpoint hex_decode (l : bytes) : res bytes :=
  match l with
  | [] => Ok []
  | [p] => match hex_val p with Some _ => Err EHexLen | None => Err EHexByte end
  | p :: q :: r =>
      match hex_val p, hex_val q with
      | Some x, Some y =>
          match hex_decode r with
          | Ok t => Ok (n2b (x * 16 + y) :: t)
          | e => e
          end
      | _, _ => Err EHexByte
      end
  end.

(** uid_128.go:19-21 *)
Definition uid_hex (u : uid) : bytes := hex_encode (ubytes u).

(** uid_128.go:60-69 *)
Definition decode_hex (s : bytes) : res uid :=
  if decide (length s = 32) then
    match hex_decode s with
    | Ok ret => to_array16 ret
    | Err e => Err e | Panic => Panic | Hang => Hang | Crash => Crash
    end
  else Err EWrongLen.

(** ** encoding/base32, StdEncoding.WithPadding(NoPadding) (uid_128.go:39) *)

(** A 5-bit symbol, most significant bit first. *)
Definition sym := (bool * bool * bool * bool * bool)%type.

Definition sym_val (s : sym) : N :=
  match s with (a, b, c, d, e) =>
    (16 * N.b2n a + 8 * N.b2n b + 4 * N.b2n c + 2 * N.b2n d + N.b2n e)%N end.

Definition val_sym (n : N) : sym :=
  (N.testbit n 4, N.testbit n 3, N.testbit n 2, N.testbit n 1, N.testbit n 0).

(** encodeStd = "ABCDEFGHIJKLMNOPQRSTUVWXYZ234567" *)
Definition b32_char (s : sym) : ascii :=
  let v := sym_val s in if (v <? 26)%N then n2b (65 + v) else n2b (24 + v).

(** decodeMap: the inverse table, 0xFF (here [None]) for other bytes *)
Definition b32_sym (a : ascii) : option sym :=
  let n := b2n a in
  if (65 <=? n)%N && (n <=? 90)%N then Some (val_sym (n - 65))
  else if (50 <=? n)%N && (n <=? 55)%N then Some (val_sym (n - 24))
  else None.

(** One quantum of Encoding.Encode: 5 bytes to 8 symbols *)
Definition syms5 (a b c d e : ascii) : list sym :=
  match a, b, c, d, e with
  | Ascii a0 a1 a2 a3 a4 a5 a6 a7, Ascii b0 b1 b2 b3 b4 b5 b6 b7,
    Ascii c0 c1 c2 c3 c4 c5 c6 c7, Ascii d0 d1 d2 d3 d4 d5 d6 d7,
    Ascii e0 e1 e2 e3 e4 e5 e6 e7 =>
    [(a7,a6,a5,a4,a3); (a2,a1,a0,b7,b6); (b5,b4,b3,b2,b1); (b0,c7,c6,c5,c4);
     (c3,c2,c1,c0,d7); (d6,d5,d4,d3,d2); (d1,d0,e7,e6,e5); (e4,e3,e2,e1,e0)]
  end.

(** Encoding.Encode; a final group of 1, 2, 3, 4 bytes gives 2, 4, 5, 7 symbols
    (no padding), the missing source bytes count as zero. *)
Fixpoint b32_syms (l : bytes) : list sym :=
  match l with
  | [] => []
  | [a] => take 2 (syms5 a zero zero zero zero)
  | [a; b] => take 4 (syms5 a b zero zero zero)
  | [a; b; c] => take 5 (syms5 a b c zero zero)
  | [a; b; c; d] => take 7 (syms5 a b c d zero)
  | a :: b :: c :: d :: e :: r => syms5 a b c d e ++ b32_syms r
  end.
Definition b32_encode (l : bytes) : bytes := b32_char <$> b32_syms l.

(** "Pack 8x 5-bit source blocks into 5 byte destination quantum": the [switch dlen] of
    Encoding.decode. dlen 1, 3, 6 (and 0) match no case and give no bytes. *)
Definition b32_pack (q : list sym) : bytes :=
  match q with
  | [(a7,a6,a5,a4,a3); (a2,a1,a0,_,_)] => [Ascii a0 a1 a2 a3 a4 a5 a6 a7]
  | [(a7,a6,a5,a4,a3); (a2,a1,a0,b7,b6); (b5,b4,b3,b2,b1); (b0,_,_,_,_)] =>
      [Ascii a0 a1 a2 a3 a4 a5 a6 a7; Ascii b0 b1 b2 b3 b4 b5 b6 b7]
  | [(a7,a6,a5,a4,a3); (a2,a1,a0,b7,b6); (b5,b4,b3,b2,b1); (b0,c7,c6,c5,c4);
     (c3,c2,c1,c0,_)] =>
      [Ascii a0 a1 a2 a3 a4 a5 a6 a7; Ascii b0 b1 b2 b3 b4 b5 b6 b7;
       Ascii c0 c1 c2 c3 c4 c5 c6 c7]
  | [(a7,a6,a5,a4,a3); (a2,a1,a0,b7,b6); (b5,b4,b3,b2,b1); (b0,c7,c6,c5,c4);
     (c3,c2,c1,c0,d7); (d6,d5,d4,d3,d2); (d1,d0,_,_,_)] =>
      [Ascii a0 a1 a2 a3 a4 a5 a6 a7; Ascii b0 b1 b2 b3 b4 b5 b6 b7;
       Ascii c0 c1 c2 c3 c4 c5 c6 c7; Ascii d0 d1 d2 d3 d4 d5 d6 d7]
  | [(a7,a6,a5,a4,a3); (a2,a1,a0,b7,b6); (b5,b4,b3,b2,b1); (b0,c7,c6,c5,c4);
     (c3,c2,c1,c0,d7); (d6,d5,d4,d3,d2); (d1,d0,e7,e6,e5); (e4,e3,e2,e1,e0)] =>
      [Ascii a0 a1 a2 a3 a4 a5 a6 a7; Ascii b0 b1 b2 b3 b4 b5 b6 b7;
       Ascii c0 c1 c2 c3 c4 c5 c6 c7; Ascii d0 d1 d2 d3 d4 d5 d6 d7;
       Ascii e0 e1 e2 e3 e4 e5 e6 e7]
  | _ => []
  end.

(** [byte(enc.padChar)] with padChar = NoPadding = -1 is the byte 0xFF: the decoder
    therefore takes a 0xFF byte for a padding character. *)
Definition pad_byte : ascii := n2b 255.

(** The inner loop of Encoding.decode ([for j := 0; j < 8;]); [slots] = 8 - j, [acc] =
    dbuf[0..j). Result: symbols read (dlen of them), the [end] flag, remaining input;
    [None] is CorruptInputError. *)
Fixpoint b32_quantum (slots : nat) (acc : list sym) (src : bytes)
    : option (list sym * bool * bytes) :=
  match slots with
  | O => Some (acc, false, src)
  | S slots' =>
      match src with
      | [] => Some (acc, true, [])
      | c :: src' =>
          let j := length acc in
          if bool_decide (c = pad_byte) && (2 <=? j) && (length src' <? 8) then
            if length src' + j <? 7 then None
            else if forallb (λ x, bool_decide (x = pad_byte)) (take (7 - j) src') then
              if (j =? 1) || (j =? 3) || (j =? 6) then None else Some (acc, true, src')
            else None
          else match b32_sym c with
               | None => None
               | Some q => b32_quantum slots' (acc ++ [q]) src'
               end
      end
  end.

(** The outer loop of Encoding.decode ([for len(src) > 0 && !end]). Each round consumes at
    least one byte, so [length src] rounds always suffice; running out is [None] but unreachable. *)
Fixpoint b32_loop (fuel : nat) (src : bytes) : option bytes :=
  match src with
  | [] => Some []
  | _ =>
    match fuel with
    | O => None
    | S fuel' =>
        match b32_quantum 8 [] src with
        | None => None
        | Some (q, fin, rest) =>
            if fin then Some (b32_pack q)
            else match b32_loop fuel' rest with
                 | Some t => Some (b32_pack q ++ t)
                 | None => None
                 end
        end
    end
  end.

Definition LF : ascii := n2b 10.
Definition CR : ascii := n2b 13.

(** stripNewlines *)
Definition strip_newlines (s : bytes) : bytes :=
  filter (λ c, c ≠ CR ∧ c ≠ LF) s.

(** Encoding.DecodeString *)
Definition b32_decode (s : bytes) : option bytes :=
  let t := strip_newlines s in b32_loop (length t) t.

(** uid_128.go:25-27 *)
Definition uid_b32 (u : uid) : bytes := b32_encode (ubytes u).

(** uid_128.go:73-82 *)
Definition decode_b32 (s : bytes) : res uid :=
  if decide (length s = 26) then
    match b32_decode s with
    | Some ret => to_array16 ret
    | None => Err EBase32
    end
  else Err EWrongLen.

(** uid_128.go:31-33, "%s(%s)" *)
Definition uid_string (u : uid) : bytes := uid_hex u ++ B "(" ++ uid_b32 u ++ B ")".

(** uid_128.go:46-56: two 64-bit words from the generator, each split into 8 bytes, least
    significant first: ret[i*8+j] = uint8(v & 255); v >>= 8. [byte_at v j] is byte j of v. *)
Definition byte_at (v : N) (j : N) : ascii := n2b (N.shiftr v (8 * j) mod 256).
Definition new_uid (v w : N) : uid :=
  Uid (byte_at v 0) (byte_at v 1) (byte_at v 2) (byte_at v 3)
      (byte_at v 4) (byte_at v 5) (byte_at v 6) (byte_at v 7)
      (byte_at w 0) (byte_at w 1) (byte_at w 2) (byte_at w 3)
      (byte_at w 4) (byte_at w 5) (byte_at w 6) (byte_at w 7).

(** uid_128.go:86-90: [algorithm] is the digest function (hash.Hash Write then Sum). *)
Definition new_uid_from_hash (algorithm : bytes → bytes) (data : bytes) : res uid :=
  to_array16 (algorithm data).

Global Arguments uid_hex : simpl never.
Global Arguments uid_b32 : simpl never.
Global Arguments decode_hex : simpl never.
Global Arguments decode_b32 : simpl never.
