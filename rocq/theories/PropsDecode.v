(** Property theorems C79 and C80: the character readers. The specifications are
    SpecDecode and the encodings of SpecError. *)
From Coq Require Import String.
From Verif Require Import Base SpecText UnicodeModel SpecStr SpecAny CodeModel StreamModel SpecStream LiteralModel SpecLiteral SpecNoThrow SpecError AddressModel NetWitness SpecDecode DecodeLemmas.
Open Scope Z_scope.
Open Scope list_scope.

(** One call at the encoding of a code point, anywhere in a text: the character, or the error with this code point, and the iterator behind the encoding. *)
Theorem C79_step : forall T p c r e, T <> TChar -> code_point c -> Forall (unit_ok T) p -> Forall (unit_ok T) r -> zlen (p ++ enc T c) <= e <= zlen (p ++ enc T c ++ r) ->
  reader_of T (p ++ enc T c ++ r) e (zlen p) = Ret (read_as c, zlen p + zlen (enc T c)).
Proof. exact step_decode. Qed.
Print Assumptions C79_step.
(** A whole text. *)
Theorem C79_tokens : forall T cs, T <> TChar -> Forall code_point cs -> tokens (reader_of T) (encode T cs) = Ret (map read_as cs).
Proof. exact tokens_decode. Qed.
Print Assumptions C79_tokens.
Example C79_step_ex : code_point 0x1F600 /\ enc TChar8 0x1F600 = [0xF0; 0x9F; 0x98; 0x80] /\ enc TChar16 0x1F600 = [0xD83D; 0xDE00] /\
  utf8_next [49; 0xF0; 0x9F; 0x98; 0x80; 50] 5 1 = Ret (Bad unexpected_symbol 0x1F600, 5) /\
  tokens utf16_next [49; 0xD83D; 0xDE00; 50] = Ret [Ch 49; Bad unexpected_symbol 0x1F600; Ch 50].
Proof. split; [right; split; [lia|lia]|]. repeat split; vm_compute; reflexivity. Qed.

(** The outcome of parsing, errors and their numbers included, does not depend on the encoding: for every class and every text of code points. *)
Theorem C79_same : forall T T' k strict cs, T <> TChar -> T' <> TChar -> Forall code_point cs -> string_of T k strict (encode T cs) = string_of T' k strict (encode T' cs).
Proof. exact same_outcome. Qed.
Print Assumptions C79_same.
Theorem C79_same_codes : forall T T' k strict cs code, T <> TChar -> T' <> TChar -> Forall code_point cs -> coded_of T k strict (encode T cs) code = coded_of T' k strict (encode T' cs) code.
Proof. exact same_code. Qed.
Print Assumptions C79_same_codes.
(** ASCII texts are their own encoding, and parse like a text of char. *)
Theorem C79_ascii : forall T k strict cs, Forall is_ascii cs -> encode T cs = cs /\ string_of T k strict cs = string_of TChar k strict cs.
Proof. exact same_ascii. Qed.
Print Assumptions C79_ascii.
Example C79_same_ex : Forall code_point [49; 46; 0x661] /\ string_of TChar8 (KAddr V4) true (encode TChar8 [49; 46; 0x661]) = Err unexpected_symbol 0x661 /\
  string_of TChar16 (KAddr V4) true [49; 46; 0x661] = Err unexpected_symbol 0x661.
Proof. split; [repeat (constructor; [right; split; lia|]); constructor|]. split; vm_compute; reflexivity. Qed.

(** No reader looks at or behind the end pointer. *)
Theorem C80_reads : forall T s t e it, 0 <= it < e -> firstn (Z.to_nat e) s = firstn (Z.to_nat e) t -> reader_of T s e it = reader_of T t e it.
Proof. exact reader_local. Qed.
Print Assumptions C80_reads.
(** Every call returns, has moved by the number of units announced, and reports ill-formed sequences exactly as described by broken. *)
Theorem C80_step : forall T s e it u, Forall (unit_ok T) s -> 0 <= it < e -> e <= zlen s -> nth_error s (Z.to_nat it) = Some u ->
  exists t, reader_of T s e it = Ret (t, it + span T u) /\ (t = Bad wrong_encoding_sequence 0 <-> broken T s e it u).
Proof. exact reader_step. Qed.
Print Assumptions C80_step.
(** So the iterator stays before the end or at it, unless the error is reported; then it may be up to three units behind it. *)
Theorem C80_range : forall T s e it t it', Forall (unit_ok T) s -> 0 <= it < e -> e <= zlen s -> reader_of T s e it = Ret (t, it') ->
  it < it' <= e + 3 /\ (e < it' -> t = Bad wrong_encoding_sequence 0).
Proof. exact reader_range. Qed.
Print Assumptions C80_range.
Theorem C80_beyond : forall T s e it u t it', Forall (unit_ok T) s -> 0 <= it < e -> e <= zlen s -> nth_error s (Z.to_nat it) = Some u -> reader_of T s e it = Ret (t, it') -> (e < it' <-> e < it + span T u).
Proof. exact reader_beyond. Qed.
Print Assumptions C80_beyond.
(** Pointers beyond one past the end are formed for truncated sequences. *)
Theorem C80_pointer_refuted : (exists s, Forall is_u8 s /\ utf8_next s (zlen s) 0 = Ret (Bad wrong_encoding_sequence 0, zlen s + 3)) /\
  (exists s, Forall is_u16 s /\ utf16_next s (zlen s) 0 = Ret (Bad wrong_encoding_sequence 0, zlen s + 1)).
Proof. exact reader_overshoots. Qed.
Print Assumptions C80_pointer_refuted.
(** A low surrogate without a high one is ill-formed UTF-16 but reported as a symbol. *)
Theorem C80_lone_low_refuted : exists s, Forall is_u16 s /\ utf16_next s (zlen s) 0 = Ret (Bad unexpected_symbol 0xDC00, 1).
Proof. exact lone_low. Qed.
Print Assumptions C80_lone_low_refuted.
Example C80_ex : broken TChar8 [49; 0xE2; 0x82] 3 1 0xE2 /\ utf8_next [49; 0xE2; 0x82] 3 1 = Ret (Bad wrong_encoding_sequence 0, 4) /\ ~ broken TChar16 [0xD83D; 0xDE00] 2 0 0xD83D.
Proof. split; [split; [lia|exact I]|]. split; [vm_compute; reflexivity|]. intros [_ H]. apply H. unfold low. lia. Qed.

