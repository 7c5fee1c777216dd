(** * PropsUid: the ID properties C01-C07.
    Model: [Uid.v] (pkg/utils/uid/uid_128.go). Vocabulary: [SpecUid.v]. *)
From Verif Require Import Base Uid SpecUid UidProofs.
From Coq Require Import Lia.

(** The ID used in the repository's own unit tests (uid_128_test.go), and its two names. *)
Definition sample : uid :=
  Uid (n2b 123) (n2b 45) (n2b 67) (n2b 8) (n2b 90) (n2b 98) (n2b 76) (n2b 54)
      (n2b 32) (n2b 1) (n2b 233) (n2b 66) (n2b 99) (n2b 6) (n2b 71) (n2b 34).
Example sample_hex : uid_hex sample = B "7b2d43085a624c362001e94263064722".
Proof. vm_compute. reflexivity. Qed.
Example sample_b32 : uid_b32 sample = B "PMWUGCC2MJGDMIAB5FBGGBSHEI".
Proof. vm_compute. reflexivity. Qed.

(** ** C01 *)
(** Hex() is 32 lower-case hex digits and decodes to the same ID. *)
Theorem C01_hex_roundtrip : ∀ u,
  length (uid_hex u) = 32 ∧ Forall (λ c, c ∈ hex_digits_lower) (uid_hex u) ∧ decode_hex (uid_hex u) = Ok u.
Proof. exact (λ u, conj (uid_hex_length u) (conj (hex_encode_lower _) (decode_hex_hex u))). Qed.
(** Decoding succeeds exactly on 32 hex digits; the result is the ID whose Hex() is the
    lower-cased input. *)
Theorem C01_decode_hex_ok : ∀ s u, decode_hex s = Ok u ↔
  length s = 32 ∧ Forall (λ c, c ∈ hex_digits) s ∧ uid_hex u = lower <$> s.
Proof. exact decode_hex_ok. Qed.
(** Every other string gives an error (never a panic). *)
Theorem C01_decode_hex_total : ∀ s,
  (length s = 32 ∧ Forall (λ c, c ∈ hex_digits) s) ∧ (∃ u, decode_hex s = Ok u)
  ∨ ¬ (length s = 32 ∧ Forall (λ c, c ∈ hex_digits) s) ∧ (∃ e, decode_hex s = Err e).
Proof. exact decode_hex_err. Qed.
Print Assumptions C01_hex_roundtrip.
Print Assumptions C01_decode_hex_ok.
Print Assumptions C01_decode_hex_total.
Example C01_sat : decode_hex (B "7B2d43085a624c362001e94263064722") = Ok sample ∧
  decode_hex (B "7x2d43085a624c362001e94263064722") = Err EHexByte ∧ decode_hex (B "7b") = Err EWrongLen.
Proof. vm_compute. auto. Qed.

(** ** C02 *)
Theorem C02_base32_roundtrip : ∀ u,
  length (uid_b32 u) = 26 ∧ Forall (λ c, c ∈ b32_alphabet) (uid_b32 u) ∧ decode_b32 (uid_b32 u) = Ok u.
Proof. exact (λ u, conj (uid_b32_length u) (conj (uid_b32_alpha u) (decode_b32_b32 u))). Qed.
Print Assumptions C02_base32_roundtrip.
Example C02_sat : decode_b32 (B "PMWUGCC2MJGDMIAB5FBGGBSHEI") = Ok sample.
Proof. vm_compute. reflexivity. Qed.

(** ** C03 *)
Theorem C03_names_injective : ∀ u v,
  uid_hex u = uid_hex v ∨ uid_b32 u = uid_b32 v ∨ uid_string u = uid_string v → u = v.
Proof. exact (λ u v H, match H with or_introl h => uid_hex_inj u v h
  | or_intror (or_introl h) => uid_b32_inj u v h | or_intror (or_intror h) => uid_string_inj u v h end). Qed.
Print Assumptions C03_names_injective.
Example C03_sat : uid_b32 (new_uid 1 0) ≠ uid_b32 (new_uid 0 1).
Proof. vm_compute. discriminate. Qed.

(** ** C04: false of the code. A 26-byte string with a line feed in it panics. *)
Theorem C04_base32_no_panic_refuted : ∃ s, decode_b32 s = Panic.
Proof. exists (LF :: B "PMWUGCC2MJGDMIAB5FBGGBSHE"). vm_compute. reflexivity. Qed.
(** The byte 0xFF (argv is bytes) panics too: it is taken for the padding character. *)
Theorem C04_base32_no_panic_refuted_ff : ∃ s, LF ∉ s ∧ CR ∉ s ∧ decode_b32 s = Panic.
Proof. exists (B "PMWUGCC2MJGDMIABPM" ++ repeat pad_byte 8).
  split; [|split]; [apply (bool_decide_eq_true_1 _); vm_compute; reflexivity..|].
  vm_compute. reflexivity. Qed.
(** What is true: for strings without LF, CR and 0xFF, the result is an ID exactly for 26
    characters of the alphabet and an error otherwise. *)
Theorem C04_base32_no_panic_partial : ∀ s, (∀ c, c ∈ odd_bytes → c ∉ s) →
  (∃ u, decode_b32 s = Ok u) ∧ length s = 26 ∧ Forall (λ c, c ∈ b32_alphabet) s
  ∨ (∃ e, decode_b32 s = Err e) ∧ ¬ (length s = 26 ∧ Forall (λ c, c ∈ b32_alphabet) s).
Proof. exact decode_b32_plain. Qed.
(** And exactly when it panics, for 26-byte strings without 0xFF: when removing the line
    breaks changes the string and leaves only characters of the alphabet. *)
Theorem C04_base32_panics_exactly : ∀ s, pad_byte ∉ s → length s = 26 →
  let t := strip_newlines s in
  (Forall (λ c, c ∈ b32_alphabet) t ∧ t = s ∧ ∃ u, decode_b32 s = Ok u) ∨
  (Forall (λ c, c ∈ b32_alphabet) t ∧ t ≠ s ∧ decode_b32 s = Panic) ∨
  (¬ Forall (λ c, c ∈ b32_alphabet) t ∧ decode_b32 s = Err EBase32).
Proof. exact decode_b32_nopad. Qed.
Print Assumptions C04_base32_no_panic_refuted.
Print Assumptions C04_base32_no_panic_refuted_ff.
Print Assumptions C04_base32_no_panic_partial.
Print Assumptions C04_base32_panics_exactly.
Example C04_sat : (∀ c, c ∈ odd_bytes → c ∉ B "PMWUGCC2MJGDMIAB5FBGGBSHE!") ∧
  decode_b32 (B "PMWUGCC2MJGDMIAB5FBGGBSHE!") = Err EBase32.
Proof. split; [|vm_compute; reflexivity].
  apply (proj1 (stdpp.list.Forall_forall (λ c, c ∉ B "PMWUGCC2MJGDMIAB5FBGGBSHE!") odd_bytes)). apply (bool_decide_eq_true_1 _). vm_compute. reflexivity. Qed.

(** ** C05: false of the code (the last character has two unused bits). *)
Theorem C05_unique_spelling_refuted : ∃ s t u, s ≠ t ∧ decode_b32 s = Ok u ∧ decode_b32 t = Ok u.
Proof. exists (B "PMWUGCC2MJGDMIAB5FBGGBSHEI"), (B "PMWUGCC2MJGDMIAB5FBGGBSHEJ"), sample.
  split; [discriminate|]. vm_compute. auto. Qed.
(** Exactly four strings decode to each ID... *)
Theorem C05_four_spellings : ∀ u, ∃ l : list bytes,
  NoDup l ∧ length l = 4 ∧ uid_b32 u ∈ l ∧ ∀ s, decode_b32 s = Ok u ↔ s ∈ l.
Proof. exact four_spellings. Qed.
(** ...namely those that agree on the first 25 characters and on the last one up to the two
    low bits of its position in the alphabet. *)
Theorem C05_which_spellings : ∀ s u, decode_b32 s = Ok u ↔
  length s = 26 ∧ take 25 s = take 25 (uid_b32 u) ∧
  ∃ c d i j, drop 25 s = [c] ∧ drop 25 (uid_b32 u) = [d] ∧
    index_of c b32_alphabet = Some i ∧ index_of d b32_alphabet = Some j ∧ i / 4 = j / 4.
Proof. exact decode_b32_spellings. Qed.
Print Assumptions C05_unique_spelling_refuted.
Print Assumptions C05_four_spellings.
Print Assumptions C05_which_spellings.
Example C05_sat : index_of "I"%char b32_alphabet = Some 8 ∧ index_of "L"%char b32_alphabet = Some 11 ∧
  decode_b32 (B "PMWUGCC2MJGDMIAB5FBGGBSHEL") = Ok sample ∧ decode_b32 (B "PMWUGCC2MJGDMIAB5FBGGBSHEM") ≠ Ok sample.
Proof. split; [|split; [|split]]; vm_compute; [reflexivity..|discriminate]. Qed.

(** ** C06 *)
Theorem C06_new_uid_bijective :
  (∀ v w v' w', (v < 2^64)%N → (w < 2^64)%N → (v' < 2^64)%N → (w' < 2^64)%N →
     new_uid v w = new_uid v' w' → v = v' ∧ w = w') ∧
  (∀ u, ∃ v w, (v < 2^64)%N ∧ (w < 2^64)%N ∧ new_uid v w = u).
Proof. exact (conj new_uid_inj new_uid_surj). Qed.
Print Assumptions C06_new_uid_bijective.
Example C06_sat : uid_hex (new_uid 0x0102030405060708 0x1112131415161718) = B "08070605040302011817161514131211".
Proof. vm_compute. reflexivity. Qed.

(** ** C07: false of the code for digests shorter than 16 bytes, which panic. *)
Theorem C07_short_hash_zero_padded_refuted : ∃ alg data,
  length (alg data) < 16 ∧ new_uid_from_hash alg data = Panic.
Proof. exists (λ d, take 4 d), (B "data"). split; [cbn; lia|]. reflexivity. Qed.
(** What is true: a digest of at least 16 bytes gives the ID of its first 16 bytes; a
    shorter one always panics. *)
Theorem C07_hash_prefix_partial : ∀ alg data,
  (16 ≤ length (alg data) → ∀ u, new_uid_from_hash alg data = Ok u ↔ ubytes u = take 16 (alg data)) ∧
  (length (alg data) < 16 ↔ new_uid_from_hash alg data = Panic).
Proof. exact (λ alg data, conj (λ H u, new_uid_from_hash_long alg data u H) (new_uid_from_hash_short alg data)). Qed.
Print Assumptions C07_short_hash_zero_padded_refuted.
Print Assumptions C07_hash_prefix_partial.
Example C07_sat : new_uid_from_hash (λ d, d ++ d) (ubytes sample) = Ok sample.
Proof. vm_compute. reflexivity. Qed.
