(** Theorems about IPv4 text and integers: properties C01-C04 and the IPv4
    part of C05, C06 and C12.  Texts are lists of character codes. *)
From Verif Require Import Base SpecText SpecAddr V4Model SpecV4 V4Proofs V4Format BitProofs V4Lemmas.

(** ** C01: the parser accepts exactly the dotted quads *)
Theorem C01_parse_iff : forall s bs, v4_from_string (chars s) = Ret bs <-> dotted_quad s bs.
Proof. exact v4_accept_iff. Qed.
Print Assumptions C01_parse_iff.
(** Also for inputs containing an undecodable symbol: never accepted. *)
Theorem C01_parse_tokens : forall ts bs,
  v4_from_string ts = Ret bs <-> exists s, ts = chars s /\ dotted_quad s bs.
Proof. exact v4_accept_tokens. Qed.
Print Assumptions C01_parse_tokens.
Theorem C01_octets_are_bytes : forall s bs, dotted_quad s bs -> bytes_ok V4 bs.
Proof. exact dotted_quad_ok. Qed.
Print Assumptions C01_octets_are_bytes.
Example C01_ex : (* "192.168.0.254" *)
  v4_from_string (chars [49;57;50;46;49;54;56;46;48;46;50;53;52]) = Ret [192; 168; 0; 254] /\
  dotted_quad [49;57;50;46;49;54;56;46;48;46;50;53;52] [192; 168; 0; 254] /\
  (* "1.2.3.04" and "1.2.3.4 " are not dotted quads *)
  (forall bs, ~ dotted_quad [49;46;50;46;51;46;48;52] bs) /\
  (forall bs, ~ dotted_quad [49;46;50;46;51;46;52;32] bs).
Proof.
  split; [reflexivity|]. split; [apply v4_accept_iff; reflexivity|].
  split; intros bs H; apply v4_accept_iff in H; discriminate H.
Qed.

(** ** C02: round trip *)
Theorem C02_format : forall bs, bytes_ok V4 bs ->
  exists s, v4_to_string bs = Ret s /\ dotted_quad s bs /\ zlen s <= 15.
Proof. exact v4_format_ok. Qed.
Print Assumptions C02_format.
Theorem C02_round_trip : forall bs, bytes_ok V4 bs ->
  exists s, v4_to_string bs = Ret s /\ v4_from_string (chars s) = Ret bs.
Proof. exact v4_round_trip_ok. Qed.
Print Assumptions C02_round_trip.
Theorem C02_text_round_trip : forall s bs, v4_from_string (chars s) = Ret bs -> v4_to_string bs = Ret s.
Proof. exact v4_round_trip_text. Qed.
Print Assumptions C02_text_round_trip.
Theorem C02_text_unique : forall s s' bs, dotted_quad s bs -> dotted_quad s' bs -> s = s'.
Proof. exact dotted_quad_unique. Qed.
Print Assumptions C02_text_unique.
Example C02_ex : bytes_ok V4 [10; 0; 200; 255] /\
  v4_to_string [10; 0; 200; 255] = Ret [49;48;46;48;46;50;48;48;46;50;53;53].
Proof. split; [apply bytes4_ok; unfold is_byte; lia|reflexivity]. Qed.

(** ** C03: no undefined behaviour *)
Theorem C03_parse_defined : forall ts, is_defined (v4_from_string ts).
Proof. exact v4_defined. Qed.
Print Assumptions C03_parse_defined.
Example C03_ex : (* a long run of digits, a fifth octet *)
  v4_from_string (chars [57;57;57;57;57;57;57;57;57;57;57]) = Err octet_more_3_characters 0 /\
  v4_from_string (chars [49;46;49;46;49;46;49;46;49]) = Err expected_4_octets 4.
Proof. split; reflexivity. Qed.

(** ** C04: the error is the first violation *)
Theorem C04_error_iff : forall ts e k, v4_from_string ts = Err e k <-> v4_error ts e k.
Proof. exact v4_reject_iff. Qed.
Print Assumptions C04_error_iff.
(** Only the documented codes (plus the encoding errors of the reader). *)
Theorem C04_codes : forall s e k, v4_from_string (chars s) = Err e k ->
  In e [empty_address; expected_4_octets; empty_octet; leading_0_are_not_permitted;
        octet_more_3_characters; octet_exceeded_255; octet_has_invalid_symbol] /\ 0 <= k <= 4.
Proof. exact v4_error_codes. Qed.
Print Assumptions C04_codes.
Example C04_ex : (* "1.2.300.x": octet 2 is too big, reported before the invalid symbol *)
  v4_from_string (chars [49;46;50;46;51;48;48;46;120]) = Err octet_exceeded_255 2 /\
  v4_from_string (chars [49;46;50;46;120]) = Err octet_has_invalid_symbol 2 /\
  v4_from_string (chars [49;46;50]) = Err expected_4_octets 1 /\
  v4_from_string (chars [49;46;50;46;51;46]) = Err empty_octet 3.
Proof. repeat split; reflexivity. Qed.

(** ** C05 (IPv4): the integer form, on a little-endian host *)
Theorem C05_v4_to_uint_partial : forall bs, bytes_ok V4 bs -> v4_to_uint true bs = Ret (be_value bs).
Proof. exact v4_to_uint_ok. Qed.
Print Assumptions C05_v4_to_uint_partial.
Theorem C05_v4_from_uint_partial : forall n, 0 <= n < 2 ^ 32 ->
  bytes_ok V4 (v4_from_uint true n) /\ be_value (v4_from_uint true n) = n.
Proof. exact v4_from_uint_ok. Qed.
Print Assumptions C05_v4_from_uint_partial.
Example C05_v4_ex : v4_to_uint true [192; 168; 0; 1] = Ret 0xC0A80001 /\ be_value [192; 168; 0; 1] = 0xC0A80001.
Proof. split; reflexivity. Qed.
(** On a big-endian host the bytes come out reversed: missing from the theorems
    above, and false. *)
Theorem C05_v4_big_endian_refuted : exists bs, bytes_ok V4 bs /\
  exists n, v4_to_uint false bs = Ret n /\ n <> be_value bs.
Proof. exact v4_big_endian_wrong. Qed.
Print Assumptions C05_v4_big_endian_refuted.
(** On either host the two conversions are inverse to each other. *)
Theorem C05_v4_inverse : forall le bs, bytes_ok V4 bs ->
  exists n, v4_to_uint le bs = Ret n /\ 0 <= n < 2 ^ 32 /\ v4_from_uint le n = bs.
Proof. exact v4_uint_inverse. Qed.
Print Assumptions C05_v4_inverse.

(** ** C06 (IPv4): reverse pointer, on either host *)
Theorem C06_v4_pointer : forall le a b c d, bytes_ok V4 [a; b; c; d] ->
  exists s, v4_reverse_pointer le [a; b; c; d] = Ret (s ++ [46;105;110;45;97;100;100;114;46;97;114;112;97])
    /\ dotted_quad s [d; c; b; a].
Proof. exact v4_pointer. Qed.
Print Assumptions C06_v4_pointer.
Theorem C06_v4_injective : forall le x y s, bytes_ok V4 x -> bytes_ok V4 y ->
  v4_reverse_pointer le x = Ret s -> v4_reverse_pointer le y = Ret s -> x = y.
Proof. exact v4_pointer_inj. Qed.
Print Assumptions C06_v4_injective.
Example C06_v4_ex : (* 1.0.168.192.in-addr.arpa *)
  v4_reverse_pointer true [192; 168; 0; 1] =
  Ret [49;46;48;46;49;54;56;46;49;57;50;46;105;110;45;97;100;100;114;46;97;114;112;97].
Proof. reflexivity. Qed.

(** ** C12 (IPv4): the formatter stays inside its 16-character buffer *)
Theorem C12_v4_defined : forall bs, bytes_ok V4 bs -> is_defined (v4_to_chars bs).
Proof. exact v4_to_chars_defined. Qed.
Print Assumptions C12_v4_defined.
Example C12_v4_ex : (* the longest text fills the buffer completely *)
  v4_to_chars [255; 255; 255; 255] =
  Ret ([50;53;53;46;50;53;53;46;50;53;53;46;50;53;53;0], 15).
Proof. reflexivity. Qed.
