(** The codes a parser of text can report. *)
From Verif Require Import Base UnicodeModel V4Model V6Model AddressModel.

Definition v4_codes : list ec :=
  [empty_address; expected_4_octets; empty_octet; leading_0_are_not_permitted; octet_more_3_characters; octet_exceeded_255; octet_has_invalid_symbol].
Definition v6_codes : list ec :=
  [empty_address; least_3_parts; most_8_colons_permitted; part_is_more_4_chars; part_has_invalid_symbol; exactly_8_parts_expected_without_double_colon;
   leading_colon_only_permitted_as_part_of_double_colon; trailing_colon_only_permitted_as_part_of_double_colon;
   expected_at_most_7_other_parts_with_double_colon; most_one_double_colon_permitted; scope_id_is_too_long; invalid_scope_id;
   expected_4_octets; empty_octet; leading_0_are_not_permitted; octet_more_3_characters; octet_exceeded_255; octet_has_invalid_symbol].
Definition slash_codes : list ec := [only_one_slash_permitted; empty_netmask; invalid_netmask; has_host_bits_set].
(** Those of addresses and of networks. *)
Definition addr_codes (v : ver) : list ec := match v with V4 => v4_codes | V6 => v6_codes end.
Definition net_codes (v : ver) : list ec := addr_codes v ++ slash_codes ++ match v with V4 => [netmask_pattern_mixes_zeroes_and_ones] | V6 => [] end.
