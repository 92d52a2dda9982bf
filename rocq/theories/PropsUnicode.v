(** Theorems about encoded inputs: properties C51 and C52 (IPv4 parser). *)
From Verif Require Import Base UnicodeModel V4Model SpecStr StrProofs Utf8Proofs UnicodeLemmas.

(** ** C51: UTF-16 and UTF-32 inputs parse as their ASCII text *)
Theorem C51_utf16_v4 : forall s a, Forall is_u16 s ->
  ((ts <- tokens utf16_next s ;; v4_from_string ts) = Ret a <->
   Forall is_ascii s /\ v4_from_string (chars s) = Ret a).
Proof. exact utf16_v4. Qed.
Print Assumptions C51_utf16_v4.
Theorem C51_utf32_v4 : forall s a, Forall is_u32 s ->
  ((ts <- tokens utf32_next s ;; v4_from_string ts) = Ret a <->
   Forall is_ascii s /\ v4_from_string (chars s) = Ret a).
Proof. exact utf32_v4. Qed.
Print Assumptions C51_utf32_v4.
(** The reader is defined on every input, leaves ASCII untouched, and turns the
    first non-ASCII unit into one of the two encoding errors. *)
Theorem C51_utf16_tokens : forall s, Forall is_u16 s ->
  exists ts, tokens utf16_next s = Ret ts /\
    ((Forall is_ascii s /\ ts = chars s) \/
     (exists p x q e v rest, s = p ++ x :: q /\ Forall is_ascii p /\ ~ is_ascii x /\
        ts = chars p ++ Bad e v :: rest /\ (e = unexpected_symbol \/ e = wrong_encoding_sequence))).
Proof. exact utf16_tokens. Qed.
Print Assumptions C51_utf16_tokens.
Theorem C51_utf32_tokens : forall s, Forall is_u32 s ->
  exists ts, tokens utf32_next s = Ret ts /\
    ((Forall is_ascii s /\ ts = chars s) \/
     (exists p x q e v rest, s = p ++ x :: q /\ Forall is_ascii p /\ ~ is_ascii x /\
        ts = chars p ++ Bad e v :: rest /\ (e = unexpected_symbol \/ e = wrong_encoding_sequence))).
Proof. exact utf32_tokens. Qed.
Print Assumptions C51_utf32_tokens.
Example C51_ex : (* U+FF11 (fullwidth 1) and a lone surrogate are rejected *)
  (ts <- tokens utf16_next [49; 46; 0xFF11] ;; v4_from_string ts) = Err unexpected_symbol 0xFF11 /\
  (ts <- tokens utf16_next [49; 0xD800] ;; v4_from_string ts) = Err wrong_encoding_sequence 0 /\
  (ts <- tokens utf16_next [0xD83D; 0xDE00] ;; v4_from_string ts) = Err unexpected_symbol 0x1F600 /\
  (ts <- tokens utf16_next [49;46;50;46;51;46;52] ;; v4_from_string ts) = Ret [1; 2; 3; 4].
Proof. repeat split; reflexivity. Qed.

(** ** C52: UTF-8 *)
(** The reader never reads outside the input, and what it takes for ASCII text
    is exactly the relation [lax_utf8], which is wider than UTF-8: the bytes of
    overlong sequences, and any inner byte of a longer one, are let through. *)
Theorem C52_reads_exactly_partial : forall s, Forall is_u8 s ->
  exists ts, tokens utf8_next s = Ret ts /\ forall p, ts = chars p <-> lax_utf8 s p.
Proof. exact utf8_tokens. Qed.
Print Assumptions C52_reads_exactly_partial.
Theorem C52_parse_v4_partial : forall s a, Forall is_u8 s ->
  ((ts <- tokens utf8_next s ;; v4_from_string ts) = Ret a <->
   exists p, lax_utf8 s p /\ v4_from_string (chars p) = Ret a).
Proof. exact utf8_v4. Qed.
Print Assumptions C52_parse_v4_partial.
(** ASCII text means itself and nothing else. *)
Theorem C52_ascii : forall s, Forall is_ascii s -> lax_utf8 s s /\ forall p, lax_utf8 s p -> p = s.
Proof. exact utf8_ascii. Qed.
Print Assumptions C52_ascii.
(** The first non-ASCII byte of an accepted text starts an overlong sequence
    which is complete; so truncated sequences, stray continuation bytes, invalid
    lead bytes and well-formed non-ASCII characters are all rejected. *)
Theorem C52_rejects_partial : forall p b q t, Forall is_ascii p -> ~ is_ascii b -> lax_utf8 (p ++ b :: q) t ->
  ((b = 0xC0 \/ b = 0xC1) /\ exists t1 q', q = t1 :: q' /\ cont t1) \/
  (b = 0xE0 /\ exists x t1 q', q = x :: t1 :: q' /\ cont t1) \/
  (b = 0xF0 /\ exists x y t1 q', q = x :: y :: t1 :: q' /\ cont t1).
Proof. exact utf8_first_bad. Qed.
Print Assumptions C52_rejects_partial.
(** The overlong C0 B1 is accepted as '1', and so is E0 41 B1 whose second byte
    is not even a continuation byte. *)
Theorem C52_overlong_refuted :
  exists s a, Forall is_u8 s /\ s = 0xC0 :: 0xB1 :: [46; 50; 46; 51; 46; 52] /\
  (ts <- tokens utf8_next s ;; v4_from_string ts) = Ret a.
Proof. exact utf8_overlong. Qed.
Print Assumptions C52_overlong_refuted.
Theorem C52_bad_continuation_refuted :
  exists s a, Forall is_u8 s /\ s = 0xE0 :: 0x41 :: 0xB1 :: [46; 50; 46; 51; 46; 52] /\
  ~ cont 0x41 /\ (ts <- tokens utf8_next s ;; v4_from_string ts) = Ret a.
Proof. exact utf8_bad_cont. Qed.
Print Assumptions C52_bad_continuation_refuted.
Example C52_ex : (* truncated sequence, two-byte letter *)
  (ts <- tokens utf8_next [49; 0xE0; 0x80] ;; v4_from_string ts) = Err wrong_encoding_sequence 0 /\
  (ts <- tokens utf8_next [49; 0xC3; 0xA9] ;; v4_from_string ts) = Err unexpected_symbol 0xE9.
Proof. split; reflexivity. Qed.
