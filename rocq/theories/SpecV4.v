(** Independent specification of the dotted-quad notation and of the errors a
    left-to-right reader meets.  Characters are ASCII codes: '.' is 46, '0' 48. *)
From Verif Require Import Base SpecText.

(** A decimal number in 0..255 without superfluous leading zero. *)
Definition octet_text (s : list Z) (x : Z) : Prop := numeral 10 s x /\ x <= 255.

(** [dotted_quad s bs]: the text [s] is the dotted quad of the four octets [bs]. *)
Definition dotted_quad (s bs : list Z) : Prop :=
  exists sa sb sc sd a b c d,
    octet_text sa a /\ octet_text sb b /\ octet_text sc c /\ octet_text sd d /\
    s = sa ++ 46 :: sb ++ 46 :: sc ++ 46 :: sd /\ bs = [a; b; c; d].

(** [octets_prefix p k]: [p] is [k] octets each followed by a dot. *)
Inductive octets_prefix : list Z -> Z -> Prop :=
| op_nil : octets_prefix [] 0
| op_snoc p k s x : octets_prefix p k -> octet_text s x -> octets_prefix (p ++ s ++ [46]) (k + 1).

(** [octet_start s]: [s] is empty or a number of at most three digits without
    superfluous leading zero: the part of the current octet read so far. *)
Definition octet_start (s : list Z) : Prop :=
  s = [] \/ (exists v, numeral 10 s v) /\ zlen s <= 3.

(** [v4_error ts e k]: the first violation met reading [ts] from left to right
    is [e], at octet number [k] (or at the offending symbol for an encoding
    error). *)
Inductive v4_error : list tok -> ec -> Z -> Prop :=
| ve_empty : v4_error [] empty_address 0
| ve_encoding p k s rest e v : octets_prefix p k -> octet_start s -> (k < 4 \/ k = 4 /\ s = []) ->
    v4_error (chars (p ++ s) ++ Bad e v :: rest) e v
| ve_fifth p c rest : octets_prefix p 4 ->
    v4_error (chars p ++ Ch c :: rest) expected_4_octets 4
| ve_few p k s : octets_prefix p k -> octet_start s -> (k < 3 \/ k = 4 /\ s = []) -> p ++ s <> [] ->
    v4_error (chars (p ++ s)) expected_4_octets k
| ve_last_empty p : octets_prefix p 3 -> v4_error (chars p) empty_octet 3
| ve_last_big p s v : octets_prefix p 3 -> numeral 10 s v -> zlen s <= 3 -> v > 255 ->
    v4_error (chars (p ++ s)) octet_exceeded_255 3
| ve_leading_zero p k c rest : octets_prefix p k -> k < 4 -> is_dec_digit c ->
    v4_error (chars (p ++ [48]) ++ Ch c :: rest) leading_0_are_not_permitted k
| ve_long p k s v c rest : octets_prefix p k -> k < 4 -> numeral 10 s v -> zlen s = 3 -> is_dec_digit c ->
    v4_error (chars (p ++ s) ++ Ch c :: rest) octet_more_3_characters k
| ve_dot_empty p k rest : octets_prefix p k -> k < 4 ->
    v4_error (chars p ++ Ch 46 :: rest) empty_octet k
| ve_dot_big p k s v rest : octets_prefix p k -> k < 4 -> numeral 10 s v -> zlen s <= 3 -> v > 255 ->
    v4_error (chars (p ++ s) ++ Ch 46 :: rest) octet_exceeded_255 k
| ve_symbol p k s c rest : octets_prefix p k -> k < 4 -> octet_start s -> ~ is_dec_digit c -> c <> 46 ->
    v4_error (chars (p ++ s) ++ Ch c :: rest) octet_has_invalid_symbol k.
