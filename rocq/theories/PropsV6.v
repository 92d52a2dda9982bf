(** Theorems about IPv6 text, integers and scope ids: properties C07-C11, C14,
    C17 and the IPv6 part of C05, C06, C12, C13, C51 and C52.  Addresses are 16
    bytes and the text of the scope id; texts are lists of character codes.
    [v6_from_string true] is the parser on a little-endian host. *)
From Verif Require Import Base SpecText SpecInt SpecAddr SpecStr SpecV4 SpecV6 Uint128Model UnicodeModel V4Model V6Model V4Proofs V6Lemmas V6Proofs V6Full.

(** ** C07: the accepted texts *)
(** Missing from the full statement: one RFC 4291 form is refused ([refused]:
    '::' followed by five groups and a dotted quad), and texts with NUL are
    treated separately in C13. *)
Theorem C07_parse_iff_partial : forall s, no_nul s ->
  (exists b t, v6_from_string true (chars s) = Ret (b, t)) <-> (exists gs t, v6_scoped s gs t) /\ ~ refused s.
Proof. exact v6_accepts_iff. Qed.
Print Assumptions C07_parse_iff_partial.
Theorem C07_long_quad_refuted : exists s gs, v6_text s gs /\ no_nul s /\
  forall b t, v6_from_string true (chars s) <> Ret (b, t).
Proof. exact v6_refused. Qed.
Print Assumptions C07_long_quad_refuted.
(** No input with an undecodable symbol is accepted. *)
Theorem C07_tokens : forall ts x, v6_from_string true ts = Ret x -> exists s, ts = chars s.
Proof. exact v6_tokens_only. Qed.
Print Assumptions C07_tokens.
Example C07_ex :
  (* "1::8", "::ffff:1.2.3.4", "::1%eth0" *)
  (exists x, v6_from_string true (chars [49;58;58;56]) = Ret x) /\
  (exists x, v6_from_string true (chars [58;58;102;102;102;102;58;49;46;50;46;51;46;52]) = Ret x) /\
  (exists x, v6_from_string true (chars [58;58;49;37;101;116;104;48]) = Ret x) /\
  (* "1::2::3", ":1", "1:2:3:4:5:6:7::8" with nine groups, "12345::" are refused *)
  v6_from_string true (chars [49;58;58;50;58;58;51]) = Err most_one_double_colon_permitted 5 /\
  (exists e v, v6_from_string true (chars [58;49]) = Err e v) /\
  (exists e v, v6_from_string true (chars [49;58;50;58;51;58;52;58;53;58;54;58;55;58;56;58;58]) = Err e v) /\
  (exists e v, v6_from_string true (chars [49;50;51;52;53;58;58]) = Err e v).
Proof. do 3 (split; [vm_compute; eauto|]). split; [reflexivity|]. do 2 (split; [vm_compute; eauto|]). vm_compute; eauto. Qed.

(** ** C08: the value *)
Theorem C08_value : forall s b t, no_nul s -> v6_from_string true (chars s) = Ret (b, t) ->
  exists gs, v6_scoped s gs t /\ b = group_bytes gs /\ bytes_ok V6 b /\ storable t.
Proof. exact v6_value. Qed.
Print Assumptions C08_value.
(** A text denotes at most one address. *)
Theorem C08_value_unique : forall s gs t gs' t', no_nul s -> ~ refused s ->
  v6_scoped s gs t -> v6_scoped s gs' t' -> group_bytes gs = group_bytes gs' /\ t = t'.
Proof. exact v6_denotes_one. Qed.
Print Assumptions C08_value_unique.
Example C08_ex : (* "1:2::a.b" style: "1:2::7:1.2.3.4%x" *)
  v6_from_string true (chars [49;58;50;58;58;55;58;49;46;50;46;51;46;52;37;120]) =
  Ret ([0;1; 0;2; 0;0; 0;0; 0;0; 0;7; 1;2; 3;4], [120]).
Proof. reflexivity. Qed.

(** ** C09: memory safety *)
Theorem C09_parse_defined : forall ts, is_defined (v6_from_string true ts).
Proof. exact v6_defined. Qed.
Print Assumptions C09_parse_defined.
Example C09_ex : (* ":::::::::::" and a 40 character last part *)
  v6_from_string true (chars (repeat 58 11)) = Err expected_at_most_7_other_parts_with_double_colon 9 /\
  (exists e v, v6_from_string true (chars ([58; 58] ++ repeat 49 40)) = Err e v).
Proof. split; vm_compute; eauto. Qed.

(** ** C10: round trip *)
Theorem C10_round_trip : forall bs scope fmt, bytes_ok V6 bs -> storable scope ->
  exists s, v6_to_string bs scope fmt = Ret s /\ v6_from_string true (chars s) = Ret (bs, scope).
Proof. exact v6_round_trip_ok. Qed.
Print Assumptions C10_round_trip.
Theorem C10_injective : forall fmt bs scope bs' scope' s, bytes_ok V6 bs -> storable scope -> bytes_ok V6 bs' -> storable scope' ->
  v6_to_string bs scope fmt = Ret s -> v6_to_string bs' scope' fmt = Ret s -> bs = bs' /\ scope = scope'.
Proof. exact v6_format_inj. Qed.
Print Assumptions C10_injective.
(** Everything the parser produces is storable (NUL-free texts). *)
Theorem C10_parsed_storable : forall s bs t, no_nul s -> v6_from_string true (chars s) = Ret (bs, t) ->
  bytes_ok V6 bs /\ storable t.
Proof. exact v6_parsed_ok. Qed.
Print Assumptions C10_parsed_storable.
Example C10_ex : let bs := [0x20;1; 0xd;0xb8; 0;0; 0;0; 0;1; 0;0; 0;0; 0;1] in
  bytes_ok V6 bs /\ storable [101; 110; 48] /\
  (* "2001:db8::1:0:0:1%en0" *)
  v6_to_string bs [101; 110; 48] compressed =
    Ret [50;48;48;49;58;100;98;56;58;58;49;58;48;58;48;58;49;37;101;110;48].
Proof.
  cbv zeta. split; [split; [reflexivity|repeat (apply Forall_cons; [unfold is_byte; lia|]); apply Forall_nil]|]. split; [|reflexivity].
  right. split; [split; [cbn; lia|repeat (apply Forall_cons; [unfold scope_char; lia|]); apply Forall_nil]|unfold no_nul; cbn [In]; lia].
Qed.

(** ** C11: the formats *)
Theorem C11_formats : forall bs scope fmt, bytes_ok V6 bs -> zlen scope <= 16 ->
  exists gs t, length gs = 8%nat /\ Forall is_group gs /\ bs = group_bytes gs /\ text_in fmt gs t /\
    v6_to_string bs scope fmt = Ret (t ++ scope_suffix scope).
Proof. exact v6_formats. Qed.
Print Assumptions C11_formats.
(** The specification determines the text. *)
Theorem C11_text_unique : forall fmt gs t t', Forall is_group gs -> text_in fmt gs t -> text_in fmt gs t' -> t = t'.
Proof. exact text_in_unique. Qed.
Print Assumptions C11_text_unique.
Example C11_ex : (* 1:0:0:2:0:0:3:0: the leftmost of two equally long runs; a single 0 is not compressed *)
  let bs := [0;1; 0;0; 0;0; 0;2; 0;0; 0;0; 0;3; 0;0] in
  v6_to_string bs [] compressed = Ret [49;58;58;50;58;48;58;48;58;51;58;48] /\
  v6_to_string bs [] compact = Ret [49;58;48;58;48;58;50;58;48;58;48;58;51;58;48] /\
  v6_to_string bs [] full = Ret [48;48;48;49;58;48;48;48;48;58;48;48;48;48;58;48;48;48;50;58;48;48;48;48;58;48;48;48;48;58;48;48;48;51;58;48;48;48;48].
Proof. repeat split; reflexivity. Qed.

(** ** C12 (IPv6): the formatter stays inside its 58-character buffer *)
Theorem C12_v6_buffer : forall bs scope fmt, bytes_ok V6 bs -> zlen scope <= 16 ->
  exists r n, v6_to_chars bs scope fmt = Ret (r, n) /\ zlen r = 58 /\ 0 <= n <= 57.
Proof. exact v6_buffer. Qed.
Print Assumptions C12_v6_buffer.
Example C12_v6_ex : (* the longest full text with the longest scope uses 56 characters *)
  exists r, v6_to_chars (repeat 255 16) (repeat 97 16) full = Ret (r, 56) /\ nth_error r 56 = Some 0.
Proof. eexists. split; [vm_compute; reflexivity|reflexivity]. Qed.

(** ** C05 (IPv6): the integer form, on a little-endian host *)
Theorem C05_v6_to_uint_partial : forall bs, bytes_ok V6 bs ->
  exists u, v6_to_uint true bs = Ret u /\ wf128 u /\ to_Z u = be_value bs.
Proof. exact v6_to_uint_ok. Qed.
Print Assumptions C05_v6_to_uint_partial.
Theorem C05_v6_from_uint_partial : forall u, wf128 u ->
  exists bs, v6_from_uint true u = Ret bs /\ bytes_ok V6 bs /\ be_value bs = to_Z u.
Proof. exact v6_from_uint_ok. Qed.
Print Assumptions C05_v6_from_uint_partial.
(** On either host the two are inverse to each other... *)
Theorem C05_v6_inverse : forall le bs, bytes_ok V6 bs ->
  exists u, v6_to_uint le bs = Ret u /\ wf128 u /\ v6_from_uint le u = Ret bs.
Proof. exact v6_uint_inverse. Qed.
Print Assumptions C05_v6_inverse.
(** ...but on a big-endian host the number is not the one the bytes denote. *)
Theorem C05_v6_big_endian_refuted : exists bs u, bytes_ok V6 bs /\ v6_to_uint false bs = Ret u /\ to_Z u <> be_value bs.
Proof. exact v6_big_endian_wrong. Qed.
Print Assumptions C05_v6_big_endian_refuted.
Example C05_v6_ex : v6_to_uint true [1;2;3;4;5;6;7;8;9;10;11;12;13;14;15;16] =
  Ret (mk128 0x0102030405060708 0x090a0b0c0d0e0f10).
Proof. reflexivity. Qed.

(** ** C06 (IPv6): reverse pointer *)
Theorem C06_v6_pointer : forall bs, bytes_ok V6 bs -> exists s, v6_reverse_pointer bs = Ret s /\ pointer6 (be_value bs) s.
Proof. exact v6_pointer_ok. Qed.
Print Assumptions C06_v6_pointer.
Theorem C06_v6_injective : forall a b s, bytes_ok V6 a -> bytes_ok V6 b ->
  v6_reverse_pointer a = Ret s -> v6_reverse_pointer b = Ret s -> a = b.
Proof. exact v6_pointer_inj. Qed.
Print Assumptions C06_v6_injective.
Example C06_v6_ex : exists s, v6_reverse_pointer ([0x20; 0x01] ++ repeat 0 13 ++ [0xab]) = Ret s /\
  firstn 8 s = [98;46;97;46;48;46;48;46] /\ skipn 56 s = [49;46;48;46;48;46;50;46;105;112;54;46;97;114;112;97].
Proof. eexists. split; [vm_compute; reflexivity|split; reflexivity]. Qed.

(** ** C13: NUL *)
(** IPv4 refuses every text with NUL. *)
Theorem C13_v4 : forall s b, In 0 s -> v4_from_string (chars s) <> Ret b.
Proof. exact v4_nul. Qed.
Print Assumptions C13_v4.
Example C13_v4_ex : v4_from_string (chars [49;46;50;46;51;46;52;0]) = Err octet_has_invalid_symbol 3.
Proof. reflexivity. Qed.
(** The IPv6 parser ignores what follows a NUL in the address ("::1" NUL "zz")
    and in the scope id ("::1%a" NUL "b"). *)
Theorem C13_v6_refuted : exists s r x, ~ In 0 s /\
  v6_from_string true (chars (s ++ 0 :: r)) = Ret x /\ v6_from_string true (chars s) = Ret x /\ r = [122; 122].
Proof. exact v6_nul_ignored. Qed.
Print Assumptions C13_v6_refuted.
Theorem C13_v6_scope_refuted : exists s r b, ~ In 0 s /\
  v6_from_string true (chars (s ++ 0 :: r)) = Ret (b, [97]) /\ r = [98].
Proof. exact v6_scope_nul. Qed.
Print Assumptions C13_v6_scope_refuted.

(** ** C14: scope id *)
Theorem C14_set_iff_partial : forall s t, no_nul s ->
  (v6_set_scope (zlen s) (chars s) = Ret t <-> zlen s <= 16 /\ Forall scope_char s /\ t = s).
Proof. exact set_scope_exact. Qed.
Print Assumptions C14_set_iff_partial.
Theorem C14_set_defined : forall s, is_defined (v6_set_scope (zlen s) (chars s)).
Proof. exact set_scope_defined. Qed.
Print Assumptions C14_set_defined.
(** Texts with NUL are silently shortened. *)
Theorem C14_set_nul_refuted : exists s t, v6_set_scope (zlen s) (chars s) = Ret t /\ t <> s.
Proof. exact set_scope_nul. Qed.
Print Assumptions C14_set_nul_refuted.
Theorem C14_has_uint32 : forall s,
  fst (scope_value s) = true <-> s <> [] /\ exists ds, digits_of 10 s ds.
Proof. exact scope_has_value. Qed.
Print Assumptions C14_has_uint32.
(** The number is right when it fits 32 bits, and reduced silently otherwise. *)
Theorem C14_get_uint32_partial : forall s ds, s <> [] -> digits_of 10 s ds -> horner 10 0 ds < 2 ^ 32 ->
  scope_value s = (true, horner 10 0 ds).
Proof. exact scope_value_small. Qed.
Print Assumptions C14_get_uint32_partial.
Theorem C14_get_uint32_wraps : forall s ds, s <> [] -> digits_of 10 s ds ->
  snd (scope_value s) = horner 10 0 ds mod 2 ^ 32.
Proof. exact scope_value_mod. Qed.
Print Assumptions C14_get_uint32_wraps.
Theorem C14_get_uint32_refuted : exists s ds, digits_of 10 s ds /\ zlen s <= 16 /\
  fst (scope_value s) = true /\ snd (scope_value s) <> horner 10 0 ds.
Proof. exact scope_value_wrap. Qed.
Print Assumptions C14_get_uint32_refuted.
Example C14_ex : (* "42" is a number, "eth0" is not, "a/b" is refused *)
  v6_set_scope 2 (chars [52; 50]) = Ret [52; 50] /\ scope_value [52; 50] = (true, 42) /\
  v6_set_scope 4 (chars [101;116;104;48]) = Ret [101;116;104;48] /\ scope_value [101;116;104;48] = (false, 0) /\
  v6_set_scope 3 (chars [97; 47; 98]) = Err invalid_scope_id 0 /\
  v6_set_scope 17 (chars (repeat 97 17)) = Err scope_id_is_too_long 0.
Proof. repeat split; reflexivity. Qed.

(** ** C17: embedded IPv4 addresses *)
Theorem C17_sixtofour : forall bs, bytes_ok V6 bs -> exists o, v6_sixtofour bs = Ret o /\
  forall a, o = Some a <-> be_value bs / 2 ^ 112 = 0x2002 /\ bytes_ok V4 a /\ be_value a = be_value bs / 2 ^ 80 mod 2 ^ 32.
Proof. exact v6_6to4_ok. Qed.
Print Assumptions C17_sixtofour.
Theorem C17_teredo : forall bs, bytes_ok V6 bs -> exists o, v6_teredo bs = Ret o /\
  forall s c, o = Some (s, c) <-> be_value bs / 2 ^ 96 = 0x20010000 /\ bytes_ok V4 s /\ bytes_ok V4 c /\
    be_value s = be_value bs / 2 ^ 64 mod 2 ^ 32 /\ be_value c = 2 ^ 32 - 1 - be_value bs mod 2 ^ 32.
Proof. exact v6_teredo_ok. Qed.
Print Assumptions C17_teredo.
(** ipv4_mapped looks at 16 bits only: every mapped address is recognised and
    its value is right, but addresses outside ::ffff:0:0/96 are taken too. *)
Theorem C17_mapped_partial : forall bs, bytes_ok V6 bs -> be_value bs / 2 ^ 32 = 0xFFFF ->
  exists a, v6_ipv4_mapped bs = Ret (Some a) /\ bytes_ok V4 a /\ be_value a = be_value bs mod 2 ^ 32.
Proof. exact v6_mapped_complete. Qed.
Print Assumptions C17_mapped_partial.
Theorem C17_mapped_exact : forall bs, bytes_ok V6 bs -> exists o, v6_ipv4_mapped bs = Ret o /\
  forall a, o = Some a <-> be_value bs / 2 ^ 32 mod 2 ^ 16 = 0xFFFF /\ bytes_ok V4 a /\ be_value a = be_value bs mod 2 ^ 32.
Proof. exact v6_mapped_ok. Qed.
Print Assumptions C17_mapped_exact.
Theorem C17_mapped_refuted : exists bs a, bytes_ok V6 bs /\ v6_ipv4_mapped bs = Ret (Some a) /\ be_value bs / 2 ^ 32 <> 0xFFFF.
Proof. exact v6_mapped_wrong. Qed.
Print Assumptions C17_mapped_refuted.
Example C17_ex :
  v6_sixtofour ([0x20; 0x02; 192; 0; 2; 4] ++ repeat 0 10) = Ret (Some [192; 0; 2; 4]) /\
  v6_sixtofour ([0x20; 0x03; 192; 0; 2; 4] ++ repeat 0 10) = Ret None /\
  v6_teredo [0x20; 0x01; 0; 0; 65; 54; 227; 120; 128; 0; 99; 191; 63; 255; 253; 210] =
    Ret (Some ([65; 54; 227; 120], [192; 0; 2; 45])) /\
  v6_ipv4_mapped (repeat 0 10 ++ [255; 255; 1; 2; 3; 4]) = Ret (Some [1; 2; 3; 4]).
Proof. repeat split; reflexivity. Qed.

(** ** C51, C52: encoded inputs *)
Theorem C51_utf16_v6 : forall s a, Forall is_u16 s ->
  ((ts <- tokens utf16_next s ;; v6_from_string true ts) = Ret a <->
   Forall is_ascii s /\ v6_from_string true (chars s) = Ret a).
Proof. exact utf16_v6. Qed.
Print Assumptions C51_utf16_v6.
Theorem C51_utf32_v6 : forall s a, Forall is_u32 s ->
  ((ts <- tokens utf32_next s ;; v6_from_string true ts) = Ret a <->
   Forall is_ascii s /\ v6_from_string true (chars s) = Ret a).
Proof. exact utf32_v6. Qed.
Print Assumptions C51_utf32_v6.
Theorem C52_parse_v6_partial : forall s a, Forall is_u8 s ->
  ((ts <- tokens utf8_next s ;; v6_from_string true ts) = Ret a <->
   exists p, lax_utf8 s p /\ v6_from_string true (chars p) = Ret a).
Proof. exact utf8_v6. Qed.
Print Assumptions C52_parse_v6_partial.
Example C51_v6_ex : (* a fullwidth colon *)
  (ts <- tokens utf16_next [58; 58; 49; 0xFF1A] ;; v6_from_string true ts) = Err unexpected_symbol 0xFF1A /\
  (ts <- tokens utf32_next [58; 58; 49] ;; v6_from_string true ts) = Ret (repeat 0 15 ++ [1], []).
Proof. split; reflexivity. Qed.
