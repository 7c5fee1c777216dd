(** * SpecUid: independent vocabulary for the ID properties (C01-C07).
    Nothing here refers to the encoder/decoder definitions of [Uid.v]. *)
From Verif Require Import Base.

(** Characters given by literal tables. *)
Definition hex_digits_lower : bytes := B "0123456789abcdef".
Definition hex_digits : bytes := B "0123456789abcdefABCDEF".
Definition b32_alphabet : bytes := B "ABCDEFGHIJKLMNOPQRSTUVWXYZ234567".

(** ASCII lower-casing *)
Definition lower (a : ascii) : ascii :=
  if (65 <=? b2n a)%N && (b2n a <=? 90)%N then n2b (b2n a + 32) else a.

(** Position of a character in a table. *)
Fixpoint index_of (a : ascii) (l : bytes) : option nat :=
  match l with
  | [] => None
  | c :: l' => if decide (a = c) then Some 0 else S <$> index_of a l'
  end.

(** Line feed, carriage return and the byte 0xFF. *)
Definition odd_bytes : bytes := [n2b 10; n2b 13; n2b 255].

(** Little-endian value of a list of bytes. *)
Fixpoint le_value (l : bytes) : N :=
  match l with [] => 0%N | a :: l' => (b2n a + 256 * le_value l')%N end.
