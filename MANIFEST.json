{
 "claims": [
  {
   "property": "C01",
   "status": "proved",
   "theorems": [
    "C01_parse_iff",
    "C01_parse_tokens",
    "C01_octets_are_bytes"
   ],
   "note": "Exact characterisation of the accepted texts and of the octets, for every token list."
  },
  {
   "property": "C02",
   "status": "proved",
   "theorems": [
    "C02_format",
    "C02_round_trip",
    "C02_text_round_trip",
    "C02_text_unique"
   ],
   "note": "Both directions of the round trip, text length at most 15."
  },
  {
   "property": "C03",
   "status": "proved",
   "theorems": [
    "C03_codes",
    "C03_codes_all",
    "C03_parse_defined"
   ],
   "note": "No out-of-bounds access or overflow for any input."
  },
  {
   "property": "C04",
   "status": "proved",
   "theorems": [
    "C04_error_iff",
    "C04_codes"
   ],
   "note": "Error code and octet index characterised exactly (iff) by a left-to-right specification."
  },
  {
   "property": "C05",
   "status": "partial",
   "theorems": [
    "C05_v4_to_uint_partial",
    "C05_v4_from_uint_partial",
    "C05_v4_big_endian_refuted",
    "C05_v4_inverse",
    "C05_v6_to_uint_partial",
    "C05_v6_from_uint_partial",
    "C05_v6_inverse",
    "C05_v6_big_endian_refuted"
   ],
   "note": "Proved for both versions on little-endian hosts; to_uint and from_uint are inverse on either host, but on big-endian hosts the integer is not the network-order value (C05_*_big_endian_refuted)."
  },
  {
   "property": "C06",
   "status": "proved",
   "theorems": [
    "C06_v4_pointer",
    "C06_v4_injective",
    "C06_v6_pointer",
    "C06_v6_injective"
   ],
   "note": "Both versions, with injectivity."
  },
  {
   "property": "C07",
   "status": "partial",
   "theorems": [
    "C07_parse_iff_partial",
    "C07_long_quad_refuted",
    "C07_tokens"
   ],
   "note": "Exact for every NUL-free text, except that one RFC 4291 form ('::', five groups, dotted quad) is refused (C07_long_quad_refuted); texts with NUL are covered by C13."
  },
  {
   "property": "C08",
   "status": "proved",
   "theorems": [
    "C08_value",
    "C08_value_unique"
   ],
   "note": "For every accepted NUL-free text; the denoted address is unique."
  },
  {
   "property": "C09",
   "status": "proved",
   "theorems": [
    "C09_codes",
    "C09_codes_all",
    "C09_parse_defined"
   ],
   "note": "For every token list: no read or write outside any buffer, no assertion."
  },
  {
   "property": "C10",
   "status": "proved",
   "theorems": [
    "C10_round_trip",
    "C10_injective",
    "C10_parsed_storable"
   ],
   "note": "All addresses, all storable scope ids, three formats; injectivity."
  },
  {
   "property": "C11",
   "status": "proved",
   "theorems": [
    "C11_formats",
    "C11_text_unique"
   ],
   "note": "Text of each format is exactly the one specified, and the specification determines it uniquely."
  },
  {
   "property": "C12",
   "status": "proved",
   "theorems": [
    "C12_v4_defined",
    "C12_v6_buffer"
   ],
   "note": "Both versions, any scope of up to 16 characters."
  },
  {
   "property": "C13",
   "status": "partial",
   "theorems": [
    "C13_v6_exact",
    "C13_network_refuted",
    "C13_v4",
    "C13_v6_refuted",
    "C13_v6_scope_refuted"
   ],
   "note": "True for IPv4. Refuted for the IPv6 address and scope id; C13_v6_exact gives the complete language of the IPv6 parser, NUL included."
  },
  {
   "property": "C14",
   "status": "partial",
   "theorems": [
    "C14_setter_state",
    "C14_set_exact",
    "C14_set_iff_partial",
    "C14_set_defined",
    "C14_set_nul_refuted",
    "C14_has_uint32",
    "C14_get_uint32_partial",
    "C14_get_uint32_wraps",
    "C14_get_uint32_refuted"
   ],
   "note": "Setter state and, for all texts, exactly what is accepted and stored (C14_set_exact): NUL shortens (refuted); get_uint32 wraps modulo 2^32 (refuted, exact)."
  },
  {
   "property": "C15",
   "status": "partial",
   "theorems": [
    "C15_equality",
    "C15_three_way",
    "C15_operators",
    "C15_irreflexive",
    "C15_transitive",
    "C15_total",
    "C15_older_operators_partial",
    "C15_older_operators_v4",
    "C15_older_operators_refuted",
    "C15_older_exact",
    "C15_families_agree"
   ],
   "note": "C++20 operators: total order proved. The operators generated before C++20 agree for equal scope ids and for IPv4; for IPv6 with different scope ids a<b and b<a can both hold (refuted). What they compute for any scope ids, and exactly when the two families agree, is C15_older_exact and C15_families_agree."
  },
  {
   "property": "C16",
   "status": "proved",
   "theorems": [
    "C16_address",
    "C16_defined",
    "C16_any_address",
    "C16_any_network",
    "C16_network"
   ],
   "note": "Addresses and networks of both versions and of the version-erased classes, 32 and 64-bit size_t."
  },
  {
   "property": "C17",
   "status": "partial",
   "theorems": [
    "C17_sixtofour",
    "C17_teredo",
    "C17_mapped_partial",
    "C17_mapped_exact",
    "C17_mapped_refuted"
   ],
   "note": "6to4 and Teredo exact. ipv4_mapped tests only bytes 10 and 11: exact recognised set in C17_mapped_exact, refuted as stated."
  },
  {
   "property": "C18",
   "status": "proved",
   "theorems": [
    "C18_subnets",
    "C18_exclude",
    "C18_from_address",
    "C18_parse",
    "C18_supernet",
    "C18_mask_bits",
    "C18_host_bits"
   ],
   "note": "from_address, parse, supernet, every element of subnets() and every element listed by address_exclude."
  },
  {
   "property": "C19",
   "status": "proved",
   "theorems": [
    "C19_strict",
    "C19_strict_error",
    "C19_nonstrict"
   ],
   "note": "Full statement for all addresses, prefix lengths 0..width and both modes; non-strict masking drops the scope id."
  },
  {
   "property": "C20",
   "status": "partial",
   "theorems": [
    "C20_in_range_partial",
    "C20_refuted",
    "C20_always_undefined"
   ],
   "note": "False of the code: every prefix length above the maximum is undefined behaviour (proved); defined for all p in range."
  },
  {
   "property": "C21",
   "status": "partial",
   "theorems": [
    "C21_broadcast",
    "C21_hostmask",
    "C21_count_partial",
    "C21_count_refuted",
    "C21_count_whole_space"
   ],
   "note": "Broadcast and host mask proved; addresses_count is exact for p >= 1 and wraps to 0 for /0 (refuted)."
  },
  {
   "property": "C22",
   "status": "proved",
   "theorems": [
    "C22_contains",
    "C22_block",
    "C22_leading_bits"
   ],
   "note": "Interval form, block form and leading-bits form."
  },
  {
   "property": "C23",
   "status": "proved",
   "theorems": [
    "C23_scope_ids",
    "C23_reflexive",
    "C23_antisymmetric_scoped",
    "C23_transitive_scoped",
    "C23_inclusion",
    "C23_prefix_form",
    "C23_transitive",
    "C23_antisymmetric",
    "C23_scoped"
   ],
   "note": "Both operator families. The set meaning is for unscoped networks; C23_scope_ids gives the exact behaviour for any scope ids, under which subnet_of is still a partial order (C23_reflexive, C23_antisymmetric_scoped, C23_transitive_scoped)."
  },
  {
   "property": "C24",
   "status": "proved",
   "theorems": [
    "C24_intersection",
    "C24_reflexive",
    "C24_symmetric",
    "C24_nested"
   ],
   "note": "Full statement."
  },
  {
   "property": "C25",
   "status": "partial",
   "theorems": [
    "C25_difference_partial",
    "C25_new_prefix_partial",
    "C25_unique",
    "C25_errors",
    "C25_whole_space",
    "C25_refuted",
    "C25_new_prefix_refuted",
    "C25_undefined_only"
   ],
   "note": "Proved except removing the full width at once, which is undefined behaviour (refuted, and shown to be the only undefined case)."
  },
  {
   "property": "C26",
   "status": "partial",
   "theorems": [
    "C26_masks_exact",
    "C26_undefined_exact",
    "C26_masks_partial",
    "C26_others_refused_partial",
    "C26_number_refuted",
    "C26_zero_mask_refuted",
    "C26_undefined_only"
   ],
   "note": "All mask texts: C26_masks_exact. As the property is worded it fails for numbers >= 2^64 (read modulo 2^64) and \"0.0.0.0\" (undefined shift); both refuted."
  },
  {
   "property": "C27",
   "status": "proved",
   "theorems": [
    "C27_text",
    "C27_round_trip",
    "C27_injective"
   ],
   "note": "Full statement, all formats, any scope id, strict or not."
  },
  {
   "property": "C28",
   "status": "partial",
   "theorems": [
    "C28_exact",
    "C28_undefined_exact",
    "C28_complete_partial",
    "C28_truncation",
    "C28_refuted",
    "C28_scope_refuted"
   ],
   "note": "All texts: C28_exact. As the property is worded it holds for NUL-free texts whose address part fits in the buffer and fails for truncated ones (refuted)."
  },
  {
   "property": "C29",
   "status": "partial",
   "theorems": [
    "C29_safe_partial",
    "C29_refuted"
   ],
   "note": "No access out of bounds for any input; the only undefined outcome is the shift for the netmask \"0.0.0.0\" (refuted)."
  },
  {
   "property": "C30",
   "status": "partial",
   "theorems": [
    "C30_older_exact",
    "C30_equality",
    "C30_equality_meaning",
    "C30_three_way",
    "C30_operators",
    "C30_irreflexive",
    "C30_transitive",
    "C30_total",
    "C30_older_operators_partial",
    "C30_older_operators_refuted"
   ],
   "note": "C++20 operators: full statement. Older operators: equal scopes only; refuted for different scope ids; what they compute for any scope ids is C30_older_exact."
  },
  {
   "property": "C31",
   "status": "proved",
   "theorems": [
    "C31_defined",
    "C31_size",
    "C31_elements",
    "C31_order",
    "C31_cnt",
    "C31_begin_at",
    "C31_front",
    "C31_back",
    "C31_empty"
   ],
   "note": "Every network of both versions: exact set, order, count, front, back, begin()[i]."
  },
  {
   "property": "C32",
   "status": "partial",
   "theorems": [
    "C32_at_top_elements",
    "C32_terminates_partial",
    "C32_steps_at_top_partial",
    "C32_terminates_refuted",
    "C32_terminates_v6_refuted"
   ],
   "note": "True unless the last host is the last address of the space (hosts_short); there the loop visits the hosts and then a whole turn of the address space (every element proved, refuted with 255.255.255.254/31 and ffff:ffff:ffff:ffff::/64)."
  },
  {
   "property": "C33",
   "status": "partial",
   "theorems": [
    "C33_hosts_at_top_elements",
    "C33_subnets_at_top_elements",
    "C33_subnets_refuted",
    "C33_hosts_partial",
    "C33_hosts_at_top_partial",
    "C33_hosts_refuted",
    "C33_subnets_partial",
    "C33_base_reverse",
    "C33_net_base_reverse"
   ],
   "note": "hosts() and subnets() under the same conditions as C32 and C36; otherwise every element and the exact number of steps (refuted with 255.255.255.254/31 and 255.255.255.128/25); base(reverse(it)) = it always."
  },
  {
   "property": "C34",
   "status": "partial",
   "theorems": [
    "C34_hosts_iterators",
    "C34_subnets_iterators",
    "C34_positions",
    "C34_plus_minus",
    "C34_next",
    "C34_index",
    "C34_order_eq",
    "C34_order_cmp",
    "C34_order_lt",
    "C34_negative_partial",
    "C34_negative_refuted",
    "C34_difference_partial",
    "C34_difference_value",
    "C34_difference_refuted",
    "C34_net_plus_minus",
    "C34_net_next",
    "C34_net_index",
    "C34_net_order_eq",
    "C34_net_order_cmp",
    "C34_net_order_lt",
    "C34_net_difference_value",
    "C34_net_difference_refuted"
   ],
   "note": "Inverse, step, index and order laws for all positions and offsets. it += -n and a + (b - a) hold exactly on characterised sets (refuted in general); the difference of subnet iterators is not divided by the step (refuted)."
  },
  {
   "property": "C35",
   "status": "partial",
   "theorems": [
    "C35_defined_partial",
    "C35_element_partial",
    "C35_cover_partial",
    "C35_order_partial",
    "C35_ends_partial",
    "C35_whole_space_refuted",
    "C35_whole_space_v6_refuted"
   ],
   "note": "Everything except splitting the whole space by the full width, and the IPv4 space by 0, which are undefined behaviour (refuted)."
  },
  {
   "property": "C36",
   "status": "partial",
   "theorems": [
    "C36_at_top_elements",
    "C36_terminates_partial",
    "C36_steps_at_top_partial",
    "C36_terminates_refuted",
    "C36_terminates_whole_refuted"
   ],
   "note": "True unless the network touches the end of the space (every element and the exact number of steps given, refuted) or is ::/0 split by 0 (never ends, refuted)."
  },
  {
   "property": "C37",
   "status": "partial",
   "theorems": [
    "C37_checks_partial",
    "C37_single",
    "C37_overflow_refuted",
    "C37_overflow_v6_refuted",
    "C37_overflow_exact",
    "C37_any_overflow_exact"
   ],
   "note": "Exact outcome for all arguments: C37_checks_partial without overflow of prefix + difference, C37_overflow_exact with it (undefined for IPv4, has_host_bits_set for IPv6), C37_single for one address. The overflow and the undefined cases of C35 break the claim."
  },
  {
   "property": "C38",
   "status": "partial",
   "theorems": [
    "C38_one_exact",
    "C38_partition_partial",
    "C38_steps_partial",
    "C38_equal",
    "C38_not_contained",
    "C38_partition_refuted"
   ],
   "note": "Full partition except for excluding 0.0.0.1/32 or ::1/128, whose last piece equals the end marker (refuted); there exactly that piece is missing (C38_one_exact)."
  },
  {
   "property": "C39",
   "status": "proved",
   "theorems": [
    "C39_private",
    "C39_global",
    "C39_exclusive",
    "C39_multicast",
    "C39_reserved",
    "C39_loopback",
    "C39_link_local",
    "C39_unspecified",
    "C39_tables"
   ],
   "note": "Every predicate is exactly membership in the independently written ranges; private, global and shared exclude each other and cover everything; every table literal parses."
  },
  {
   "property": "C40",
   "status": "partial",
   "theorems": [
    "C40_site_local",
    "C40_multicast",
    "C40_reserved",
    "C40_loopback",
    "C40_link_local",
    "C40_unspecified",
    "C40_private_partial",
    "C40_mapped",
    "C40_only_mapped_refuted"
   ],
   "note": "All predicates exact. is_private/is_global follow the embedded IPv4 address of every address whose bits 32-47 are ffff, not only of ::ffff:0:0/96 (C40_only_mapped_refuted); the exact rule is C40_private_partial."
  },
  {
   "property": "C41",
   "status": "partial",
   "theorems": [
    "C41_multicast",
    "C41_loopback",
    "C41_link_local",
    "C41_unspecified",
    "C41_site_local",
    "C41_reserved_v4",
    "C41_reserved_v6_partial",
    "C41_reserved_v6_refuted",
    "C41_private_v4",
    "C41_private_exact",
    "C41_private_v6_partial",
    "C41_private_v6_refuted",
    "C41_private_mapped_refuted",
    "C41_global_v4",
    "C41_reserved_v6_exact"
   ],
   "note": "Exact for multicast, loopback, link-local, site-local, unspecified and for IPv4 reserved and private. IPv6 reserved is wrong exactly for ::/1 (C41_reserved_v6_exact); IPv6 private is wrong for ::/127 and for networks with addresses that look IPv4-mapped."
  },
  {
   "property": "C42",
   "status": "proved",
   "theorems": [
    "C42_add",
    "C42_sub",
    "C42_neg",
    "C42_inc",
    "C42_dec",
    "C42_mul"
   ],
   "note": "All operations of the two-halves class, for all operands."
  },
  {
   "property": "C43",
   "status": "proved",
   "theorems": [
    "C43_div",
    "C43_mod",
    "C43_div_by_zero",
    "C43_mod_by_zero"
   ],
   "note": "Full Knuth division loop proved for all operands; division by zero is defined."
  },
  {
   "property": "C44",
   "status": "partial",
   "theorems": [
    "C44_shl_partial",
    "C44_shr_partial",
    "C44_shift_by_128_refuted"
   ],
   "note": "True for every count except exactly 128, where both shifts execute a 64-bit shift by 64 (undefined behaviour): C44_shift_by_128_refuted."
  },
  {
   "property": "C45",
   "status": "proved",
   "theorems": [
    "C45_compare",
    "C45_bitwise",
    "C45_bool"
   ],
   "note": "All comparisons (both operator families), bitwise operators and bool conversion."
  },
  {
   "property": "C46",
   "status": "partial",
   "theorems": [
    "C46_to_string",
    "C46_round_trip",
    "C46_from_string_value",
    "C46_from_string_partial",
    "C46_from_string_refuted"
   ],
   "note": "to_string and the round trip hold for all values and radixes; from_string accepts the empty string, wraps modulo 2^128 and stops at NUL (C46_from_string_refuted), exact acceptance is C46_from_string_partial."
  },
  {
   "property": "C47",
   "status": "proved",
   "theorems": [
    "C47_from_signed",
    "C47_from_unsigned",
    "C47_to_unsigned",
    "C47_to_signed",
    "C47_round_trip"
   ],
   "note": "All integral widths up to 64 bits."
  },
  {
   "property": "C48",
   "status": "partial",
   "theorems": [
    "C48_from_double",
    "C48_from_negative",
    "C48_from_big",
    "C48_from_special",
    "C48_to_double_partial",
    "C48_nearest_is_closest",
    "C48_to_double_refuted",
    "C48_to_double_value",
    "C48_order_refuted",
    "C48_order_partial",
    "C48_to_double_error",
    "C48_round_trip",
    "C48_round_trip_back",
    "C48_from_float",
    "C48_float_round_trip",
    "C48_float_refuted",
    "C48_to_float_value",
    "C48_from_long",
    "C48_from_long_special",
    "C48_from_long_exact",
    "C48_from_long_refuted",
    "C48_to_long",
    "C48_to_long_refuted"
   ],
   "note": "Doubles and floats are Flocq's IEEE binary64/binary32. Construction truncates (all finite doubles in [0, 2^128)) and saturates. The claim about operator double is false for some values between 2^88 and 2^101 (C48_to_double_refuted, C48_order_refuted): uint128.hpp line 1470 or-s the low 24 bits over bits 24-47. Proved correct below 2^88, from 2^101 up, and for values with clear low 24 bits; error bound 2^-39 for every value; exact round trips. From 2^88 up the exact value is given (C48_to_double_value). operator float rounds twice (C48_float_refuted); its exact value, with overflow to +infinity, is C48_to_float_value. long double not modelled. long double is any IEEE binary format: the constructor goes through double and so is wrong for values that are no doubles (C48_from_long_refuted), the conversion operator has the value of operator double."
  },
  {
   "property": "C49",
   "status": "partial",
   "theorems": [
    "C49_disjoint",
    "C49_networks_disjoint",
    "C49_parse",
    "C49_parse_code",
    "C49_language",
    "C49_network_parse",
    "C49_network_parse_code",
    "C49_round_trip",
    "C49_address_queries",
    "C49_to_uint32",
    "C49_to_uint128",
    "C49_network_queries",
    "C49_makers",
    "C49_equal",
    "C49_three_way",
    "C49_irreflexive",
    "C49_transitive",
    "C49_total",
    "C49_operators",
    "C49_older_operators_partial",
    "C49_hash",
    "C49_swap",
    "C49_network_equal",
    "C49_network_three_way",
    "C49_network_less_partial",
    "C49_contains",
    "C49_overlaps",
    "C49_subnet_partial",
    "C49_older_exact",
    "C49_network_less_exact",
    "C49_subnet_exact",
    "C49_older_operators_refuted"
   ],
   "note": "Parsing, disjointness, language, queries, makers, equality and order proved in full. The comparison operators of older standards and subnet_of/supernet_of are the expected ones for equal or absent scope ids (as C15 and C23) and not an order otherwise (refuted); what they compute for all scope ids is C49_older_exact, C49_network_less_exact and C49_subnet_exact."
  },
  {
   "property": "C50",
   "status": "partial",
   "theorems": [
    "C50_hosts",
    "C50_hosts_fail",
    "C50_subnets",
    "C50_subnets_fail",
    "C50_subnets_size_partial",
    "C50_subnets_size_zero",
    "C50_subnets_size_refuted",
    "C50_subnets_error_refuted",
    "C50_host_iterators",
    "C50_subnet_iterators",
    "C50_iterator_less_refuted",
    "C50_exclude_partial",
    "C50_exclude_partition_v6",
    "C50_exclude_partition_partial",
    "C50_exclude_not_contained",
    "C50_exclude_equal",
    "C50_exclude_versions",
    "C50_exclude_mirror_refuted",
    "C50_exclude_partition_refuted",
    "C50_exclude_v4"
   ],
   "note": "hosts() and subnets() mirrored in full (loop, reverse loop, at, front, back, empty). Partial: size() of subnets for networks other than the whole space (refuted there); address_exclude mirrored for IPv4 in full, for IPv6 except for ::1/128 (refuted); IPv6 partition in full."
  },
  {
   "property": "C51",
   "status": "proved",
   "theorems": [
    "C51_utf16_v4",
    "C51_utf32_v4",
    "C51_utf16_tokens",
    "C51_utf32_tokens",
    "C51_utf16_v6",
    "C51_utf32_v6"
   ],
   "note": "Exact for the UTF-16 and UTF-32 readers with both address parsers."
  },
  {
   "property": "C52",
   "status": "partial",
   "theorems": [
    "C52_reads_exactly_partial",
    "C52_parse_v4_partial",
    "C52_ascii",
    "C52_rejects_partial",
    "C52_overlong_refuted",
    "C52_bad_continuation_refuted",
    "C52_parse_v6_partial"
   ],
   "note": "Never reads outside; the exact accepted language is proved for both parsers; overlong and badly continued sequences are accepted (refuted)."
  },
  {
   "property": "C53",
   "status": "partial",
   "theorems": [
    "C53_construct",
    "C53_contents_unique",
    "C53_equal",
    "C53_less",
    "C53_three_way",
    "C53_order_total",
    "C53_order_irreflexive",
    "C53_order_transitive",
    "C53_swap",
    "C53_hash",
    "C53_hash_capacity_refuted",
    "C53_back_partial",
    "C53_back_refuted",
    "C53_at",
    "C53_front",
    "C53_walk",
    "C53_walk_back"
   ],
   "note": "Everything except back(), which reads the last array element instead of the last character (C53_back_refuted), and the hash of fixed_string<0>, which is 0 although that string equals an empty string of larger capacity (C53_hash_capacity_refuted)."
  },
  {
   "property": "C54",
   "status": "partial",
   "theorems": [
    "C54_readers",
    "C54_parse",
    "C54_parse_array",
    "C54_scope",
    "C54_scope_array",
    "C54_network_parse",
    "C54_network_parse_array",
    "C54_from_address",
    "C54_supernet",
    "C54_subnets_partial",
    "C54_exclude_partial",
    "C54_subnets_refuted",
    "C54_exclude_refuted",
    "C54_any_parse",
    "C54_any_network_parse",
    "C54_any_from_address",
    "C54_any_supernet",
    "C54_any_exclude",
    "C54_any_subnets_partial",
    "C54_any_scope_partial",
    "C54_any_scope_refuted",
    "C54_address_model",
    "C54_network_model",
    "C54_makers_model",
    "C54_any_model",
    "C54_scope_model"
   ],
   "note": "parse (strings, arrays of any code unit, networks, version-erased), set_scope_id, from_address and supernet proved in full on a state-passing model of the code variable, which is also proved equal to the parsers used elsewhere. subnets and address_exclude (and set_scope_id of a version-erased IPv4 address) do not write the code on success: agreement holds when the variable holds no_error (partial), and a stale code survives otherwise (refuted)."
  },
  {
   "property": "C55",
   "status": "proved",
   "theorems": [
    "C55_from_bytes",
    "C55_well_formed",
    "C55_unspecified",
    "C55_any"
   ],
   "note": "All arrays and counts."
  },
  {
   "property": "C56",
   "status": "proved",
   "theorems": [
    "C56_literal"
   ],
   "note": "All NUL-free texts."
  },
  {
   "property": "C57",
   "status": "proved",
   "theorems": [
    "C57_swap"
   ],
   "note": "Both versions."
  },
  {
   "property": "C58",
   "status": "partial",
   "theorems": [
    "C58_text_partial",
    "C58_text_iff",
    "C58_scope_ascii",
    "C58_text_refuted",
    "C58_number"
   ],
   "note": "Every class and character type; proved for ASCII scope ids and for char with any scope id; for the other types the text reads back exactly when the scope id is ASCII (C58_text_iff), so the unrestricted claim is refuted: bytes above 127 are sign-extended by string_converter, and a UTF-8 text can even be read as a different address."
  },
  {
   "property": "C59",
   "status": "proved",
   "theorems": [
    "C59_insert",
    "C59_insert_failed",
    "C59_manipulator",
    "C59_cased_unique",
    "C59_insert_all",
    "C59_extract",
    "C59_word_unique",
    "C59_word_exists",
    "C59_nothing",
    "C59_strictness",
    "C59_round_trip"
   ],
   "note": "Manipulators, width, fill, uppercase, failbit/eofbit and the word extraction of operator>> are modelled; the behaviour of std streams and strings is assumed as in the C++ standard (classic locale)."
  },
  {
   "property": "C60",
   "status": "partial",
   "theorems": [
    "C60_insert",
    "C60_insert_failed",
    "C60_extract",
    "C60_word",
    "C60_bad_word_partial",
    "C60_nothing",
    "C60_unchanged_refuted",
    "C60_round_trip"
   ],
   "note": "Round trip in the same radix proved; a failed extraction leaves the variable unchanged when a word was read, but overwrites it with 0 when there was nothing to read (C60_unchanged_refuted)."
  },
  {
   "property": "C61",
   "status": "partial",
   "theorems": [
    "C61_class",
    "C61_quotes",
    "C61_shown",
    "C61_shown_ascii",
    "C61_stops",
    "C61_fixed",
    "C61_number",
    "C61_symbol",
    "C61_message_tells_code",
    "C61_message_tells_number",
    "C61_parse",
    "C61_parse_array",
    "C61_network_parse_array",
    "C61_parse_message",
    "C61_scope_message",
    "C61_literal_message",
    "C61_from_address_message",
    "C61_supernet_class",
    "C61_subnets_class",
    "C61_exclude_class",
    "C61_dots_refuted"
   ],
   "note": "Class, code, quotation, numbers and totality proved for all texts; the ellipsis of a cut text is lost when a multi-unit symbol straddles unit 100 (C61_dots_refuted; the exact rule is the specification excerpt)."
  },
  {
   "property": "C62",
   "status": "proved",
   "theorems": [
    "C62_types",
    "C62_convert",
    "C62_left",
    "C62_right",
    "C62_compare_left",
    "C62_compare_right",
    "C62_compare_numbers",
    "C62_negative",
    "C62_logic",
    "C62_assign",
    "C62_assign_shl",
    "C62_assign_shr",
    "C62_increment",
    "C62_swap",
    "C62_abs"
   ],
   "note": "All integer types by one function of the type's width and sign; division by zero gives the library's value (see C43). A negative integer compares as its value modulo 2^128 (C62_negative). Shift by exactly 128 is excluded here and covered by C44."
  },
  {
   "property": "C63",
   "status": "proved",
   "theorems": [
    "C63_range",
    "C63_digits"
   ],
   "note": "digits10 and digits proved to be the exact ones."
  },
  {
   "property": "C64",
   "status": "proved",
   "theorems": [
    "C64_size",
    "C64_at",
    "C64_write",
    "C64_front_back",
    "C64_front_back_none",
    "C64_iterate",
    "C64_compare",
    "C64_equal",
    "C64_swap"
   ],
   "note": "The comparison loops are also proved equal to those used in the address model. operator< before C++20 does not exist for byte_array<0> (it would not compile); its model there is vacuous."
  },
  {
   "property": "C65",
   "status": "proved",
   "theorems": [
    "C65_make",
    "C65_run",
    "C65_reset"
   ],
   "note": "Value types whose move is a copy (all those of the library). Reading an empty optional returns the stored member (default unless written through the reference)."
  },
  {
   "property": "C66",
   "status": "partial",
   "theorems": [
    "C66_hosts",
    "C66_subnets",
    "C66_any_hosts",
    "C66_any_subnets",
    "C66_hosts_forward",
    "C66_subnets_forward",
    "C66_any_hosts_forward",
    "C66_any_subnets_forward",
    "C66_there_and_back",
    "C66_hosts_distance",
    "C66_subnets_distance",
    "C66_any_hosts_distance",
    "C66_any_subnets_distance",
    "C66_hosts_order",
    "C66_subnets_order",
    "C66_order_reversed",
    "C66_any_hosts_order",
    "C66_any_subnets_order",
    "C66_hosts_order_refuted",
    "C66_subnets_order_refuted"
   ],
   "note": "Everything but the order holds for all positions; the order is exactly the reversed one unless exactly one of the two bases stands at position 0 (then inverted: C66_hosts_order_refuted), which makes rbegin() < rend() false for sequences beginning at address 0."
  },
  {
   "property": "C67",
   "status": "partial",
   "theorems": [
    "C67_array",
    "C67_array_rejects",
    "C67_terminated",
    "C67_address_defined",
    "C67_template",
    "C67_literal_partial",
    "C67_literal_rejects",
    "C67_v4_fits",
    "C67_v6_long_refuted",
    "C67_network_long_refuted",
    "C67_utf8_refuted",
    "C67_unterminated_refuted",
    "C67_number",
    "C67_number_refuted"
   ],
   "note": "Arrays and templates agree with strings for all ASCII texts (all texts in char); literals too up to their maximal length, which is exact for IPv4 addresses but refuses some texts the string parser accepts (C67_v6_long_refuted, C67_network_long_refuted). In UTF-8 an overlong NUL cuts an array (C67_utf8_refuted) and an unterminated array can be overrun (C67_unterminated_refuted). Before C++20 an integer literal above 2^32-1 wraps silently (C67_number_refuted)."
  },
  {
   "property": "C68",
   "status": "proved",
   "theorems": [
    "C68_settings",
    "C68_default",
    "C68_parse_exact",
    "C68_parse_defined",
    "C68_parse_monotone",
    "C68_parsed_scope",
    "C68_off",
    "C68_text",
    "C68_round_trip",
    "C68_set_exact",
    "C68_set_refused",
    "C68_set_off"
   ],
   "note": "Every length 0..64 and both white-space settings; the default functions are the instance at 16."
  },
  {
   "property": "C69",
   "status": "proved",
   "theorems": [
    "C69_make",
    "C69_get",
    "C69_any_get",
    "C69_number_wraps",
    "C69_set_exact",
    "C69_set_codes",
    "C69_set_wf",
    "C69_set_get",
    "C69_set_nul",
    "C69_copy",
    "C69_types",
    "C69_types_code",
    "C69_array",
    "C69_array_code",
    "C69_array_bad",
    "C69_any_four",
    "C69_any_six"
   ],
   "note": "Complete for all texts and types; witnesses that the number wraps (C69_number_wraps) and that characters after a NUL are dropped (C69_set_nul)."
  },
  {
   "property": "C70",
   "status": "partial",
   "theorems": [
    "C70_string",
    "C70_scope",
    "C70_string_order",
    "C70_address_cpp20",
    "C70_address_order",
    "C70_address_older",
    "C70_address_same_scope",
    "C70_network_cpp20",
    "C70_network_order",
    "C70_network_older",
    "C70_network_same_scope",
    "C70_any_cpp20",
    "C70_any_order",
    "C70_any_older",
    "C70_any_network_cpp20",
    "C70_any_network_order",
    "C70_any_network_older",
    "C70_hosts",
    "C70_hosts_same",
    "C70_nets",
    "C70_nets_order",
    "C70_exclude_cpp20",
    "C70_exclude_older",
    "C70_any_exclude_cpp20",
    "C70_any_exclude_older",
    "C70_any_hosts",
    "C70_any_nets",
    "C70_any_versions",
    "C70_any_hosts_refuted",
    "C70_swap",
    "C70_any_swap",
    "C70_any_network_versions"
   ],
   "note": "Complete for C++20, and before C++20 for strings, scopes and one-version iterators. The older operators of addresses and networks are characterised exactly (from_less over either_before), are that order when the scope ids agree, and are none otherwise; those of version-erased iterators of different versions are no order (C70_any_hosts_refuted)."
  },
  {
   "property": "C71",
   "status": "partial",
   "theorems": [
    "C71_string",
    "C71_array",
    "C71_literal",
    "C71_never",
    "C71_code",
    "C71_code_default",
    "C71_code_same",
    "C71_code_refuted",
    "C71_literal_long",
    "C71_literal_refuted",
    "C71_fixed_string",
    "C71_fixed_string_cut",
    "C71_fixed_string_refuted",
    "C71_scope",
    "C71_scope_array",
    "C71_any_scope",
    "C71_any_scope_array",
    "C71_from_address",
    "C71_supernet",
    "C71_any_from_address",
    "C71_any_supernet",
    "C71_subnets",
    "C71_any_subnets",
    "C71_subnets_empty",
    "C71_subnets_walk",
    "C71_any_subnets_walk",
    "C71_subnets_refuted",
    "C71_exclude",
    "C71_any_exclude",
    "C71_exclude_empty",
    "C71_exclude_walk",
    "C71_any_exclude_walk",
    "C71_exclude_stuck",
    "C71_exclude_endless"
   ],
   "note": "Complete for every function; the statement is false in four places, each with a witness: version-erased parsing returns the IPv6 default (C71_code_refuted), over-long literals are cut off and read (C71_literal_refuted, exactly C71_literal_long), fixed_string keeps what precedes a bad unit (C71_fixed_string_refuted), and subnets whose new prefix wraps in 64 bits give a non-empty sequence (C71_subnets_refuted)."
  },
  {
   "property": "C72",
   "status": "partial",
   "theorems": [
    "C72_bytes",
    "C72_any_bytes",
    "C72_block",
    "C72_scope",
    "C72_v4_partial",
    "C72_networks",
    "C72_prefix",
    "C72_any_prefix",
    "C72_integers",
    "C72_strings",
    "C72_fnv",
    "C72_fnv_refuted",
    "C72_v6_refuted",
    "C72_v4_refuted",
    "C72_networks_refuted",
    "C72_integers_refuted"
   ],
   "note": "Complete as stated, except that FNV-1a holds for ASCII only (C72_fnv, C72_fnv_refuted). Witnesses of collisions show that a hash does not identify an object (C72_v6_refuted for both widths, C72_v4_refuted in 32 bits). C72_v4_partial: in 64 bits IPv4 addresses that agree in their last two bytes never collide; that none collide at all is missing (it needs a computation over 2^24 states)."
  },
  {
   "property": "C73",
   "status": "proved",
   "theorems": [
    "C73_strings",
    "C73_codes",
    "C73_arrays",
    "C73_literals",
    "C73_templates",
    "C73_scopes",
    "C73_scope_codes",
    "C73_scope_arrays",
    "C73_scope_array_codes",
    "C73_ascii",
    "C73_ascii_codes",
    "C73_ascii_arrays",
    "C73_ascii_literals",
    "C73_ascii_templates",
    "C73_ascii_scopes",
    "C73_others",
    "C73_others_codes",
    "C73_others_arrays",
    "C73_others_literals",
    "C73_others_templates",
    "C73_others_scopes",
    "C73_others_scope_arrays",
    "C73_get",
    "C73_ascii_get",
    "C73_others_get",
    "C73_numbers",
    "C73_ascii_numbers",
    "C73_ascii_get_numbers",
    "C73_accepted",
    "C73_scope_ascii",
    "C73_scope_ascii_arrays",
    "C73_scope_ascii_setter",
    "C73_builds_differ",
    "C73_overlong",
    "C73_default",
    "C73_default_arrays",
    "C73_default_scopes"
   ],
   "note": "Complete. Over-long encodings are accepted, as for char8_t (C73_overlong; exactly what is accepted: C73_accepted). C73_default, C73_default_arrays and C73_default_scopes show that the parametrised definitions are those of the default build for its reader."
  },
  {
   "property": "C74",
   "status": "proved",
   "theorems": [
    "C74_little",
    "C74_to_integer",
    "C74_from_integer",
    "C74_round_trip",
    "C74_integer_differs",
    "C74_text_v4",
    "C74_text_v6",
    "C74_text_v6_dotted",
    "C74_network_v4",
    "C74_network_v6",
    "C74_network_text_v4",
    "C74_network_text_plain",
    "C74_network_text_v6",
    "C74_network_differs",
    "C74_count",
    "C74_count_v6",
    "C74_count_v4",
    "C74_supernet_v4",
    "C74_hosts",
    "C74_supernet_v6_differs",
    "C74_hosts_v6_differs",
    "C74_from_address_v6_halves",
    "C74_supernet_v6_halves",
    "C74_supernet_v6_64",
    "C74_loops_little",
    "C74_hosts_loop",
    "C74_single_host",
    "C74_single_host_v6",
    "C74_subnets_v4",
    "C74_subnets_single",
    "C74_subnets_v6_differs",
    "C74_subnets_v6_halves",
    "C74_contains_v4",
    "C74_overlaps_v4",
    "C74_subnet_of_v4",
    "C74_subnet_of_v4_differs",
    "C74_exclude_v4_differs",
    "C74_exclude_v4"
   ],
   "note": "Complete for the functions of HostModel; the characterisation is exact. The differences (C74_integer_differs, C74_network_differs, C74_supernet_v6_differs, C74_hosts_v6_differs) are behaviour of the code: the integer of an address, IPv4 masks and IPv6 counts are wrong on such hosts. Loops over hosts are characterised for both versions, loops over subnets for IPv4 and for IPv6 masks of whole halves; for other IPv6 subnets, and for subnet_of and address_exclude, difference is shown by witness (C74_subnets_v6_differs, C74_subnet_of_v4_differs, C74_exclude_v4_differs). Summaries of ranges are not repeated for big-endian hosts."
  },
  {
   "property": "C75",
   "status": "proved",
   "theorems": [
    "C75_own_network",
    "C75_same_network",
    "C75_host_network",
    "C75_subnet_contains",
    "C75_contains_subnet",
    "C75_overlaps",
    "C75_sorted",
    "C75_supernet",
    "C75_subnets",
    "C75_subnets_supernet",
    "C75_subnets_sorted",
    "C75_subnets_count",
    "C75_hosts",
    "C75_exclude",
    "C75_exclude_error",
    "C75_classes",
    "C75_classes_half",
    "C75_mapped",
    "C75_mapped_global"
   ],
   "note": "Complete as stated: the statement carries its exceptions, which are those of C38 (the excluded network is the single address of value one) and C41 (::/1), shown by C75_classes_half and C75_mapped_global. Theorems speak of subnets where they are defined (see `defined`, C35), of networks without zones, and of supernet and the number of addresses for prefix lengths above zero."
  },
  {
   "property": "C76",
   "status": "proved",
   "theorems": [
    "C76_address",
    "C76_network",
    "C76_any",
    "C76_address_iterator",
    "C76_network_iterator",
    "C76_any_iterator",
    "C76_network_iterator_diff",
    "C76_subnets",
    "C76_exclude",
    "C76_failed_subnets"
   ],
   "note": "Complete as stated. The undefined division (C76_network_iterator_diff, C76_failed_subnets) is behaviour of the code; C50_subnets_error_refuted gives a witness."
  },
  {
   "property": "C77",
   "status": "partial",
   "theorems": [
    "C77_exact",
    "C77_unique",
    "C77_accepted",
    "C77_long_number",
    "C77_symbol_number",
    "C77_octet_number",
    "C77_symbol_number_refuted",
    "C77_octet_number_refuted",
    "C77_network_number",
    "C77_network_number_refuted"
   ],
   "note": "The choice of the error and its number are proved exactly (C77_exact, an equivalence). The sentence about the number is false of the code for invalid symbols, embedded octets and networks (C77_symbol_number_refuted, C77_octet_number_refuted, C77_network_number_refuted); C77_symbol_number, C77_octet_number and C77_network_number say what the numbers are."
  },
  {
   "property": "C78",
   "status": "partial",
   "theorems": [
    "C78_parse",
    "C78_network_parse",
    "C78_supernet",
    "C78_any_supernet",
    "C78_subnets_exact",
    "C78_any_subnets_exact",
    "C78_subnets_refuted",
    "C78_exclude",
    "C78_any_exclude",
    "C78_iterators",
    "C78_iterators_compare",
    "C78_iterators_difference",
    "C78_any_iterators",
    "C78_any_iterators_compare",
    "C78_exclude_iterators",
    "C78_exclude_compare",
    "C78_any_exclude_iterators",
    "C78_any_exclude_compare",
    "C78_constructor_exact",
    "C78_constructor_refuted",
    "C78_exclude_constructor_exact",
    "C78_exclude_constructor_host",
    "C78_exclude_constructor_refuted"
   ],
   "note": "Proved for parsers, supernet, address_exclude, and all reachable iterators. For subnets and for the two public constructors the exact condition under which an exception leaves is proved (C78_subnets_exact, C78_constructor_exact, C78_exclude_constructor_exact and C78_exclude_constructor_host) and it can be met (the refuted theorems). std::bad_alloc is not modelled."
  },
  {
   "property": "C79",
   "status": "proved",
   "theorems": [
    "C79_step",
    "C79_tokens",
    "C79_same",
    "C79_same_codes",
    "C79_ascii"
   ],
   "note": "For wchar_t of 32 bits. Messages of exceptions are covered by C61 (they are cut after 100 units, so they do depend on the encoding)."
  },
  {
   "property": "C80",
   "status": "partial",
   "theorems": [
    "C80_reads",
    "C80_step",
    "C80_range",
    "C80_beyond",
    "C80_pointer_refuted",
    "C80_lone_low_refuted"
   ],
   "note": "Reads, returns, moves and the exact set of sequences reported as ill-formed are proved. The pointer goes beyond one past the end for truncated sequences (C80_pointer_refuted, exactly C80_beyond), and lone low surrogates are not reported as ill-formed (C80_lone_low_refuted)."
  },
  {
   "property": "C81",
   "status": "partial",
   "theorems": [
    "C81_default_addresses",
    "C81_default_networks",
    "C81_network_exact",
    "C81_network_defined",
    "C81_network_parsed",
    "C81_address_parsed",
    "C81_network_round_trip",
    "C81_unscoped",
    "C81_unscoped_refuted",
    "C81_literal",
    "C81_ip_address",
    "C81_swap",
    "C81_equal",
    "C81_compare",
    "C81_less_exact",
    "C81_less_off",
    "C81_less_refuted",
    "C81_hash_on",
    "C81_hash_off",
    "C81_hash_defined",
    "C81_hash_seed",
    "C81_network_equal",
    "C81_network_compare",
    "C81_network_less",
    "C81_network_hash"
   ],
   "note": "Everything is proved except that address texts without scope id always fit in network texts: refuted for each length below four (C81_unscoped_refuted), proved for the others (C81_unscoped). The older < is not an order for any positive length (C81_less_refuted, exactly C81_less_exact)."
  },
  {
   "property": "C82",
   "status": "proved",
   "theorems": [
    "C82_full_order",
    "C82_network_order",
    "C82_v4_order",
    "C82_v6_order",
    "C82_prefix_order",
    "C82_lengths",
    "C82_near_shortest",
    "C82_shortest",
    "C82_address_texts",
    "C82_network_texts",
    "C82_kinds"
   ],
   "note": "The texts that do not sort like their objects are part of the statement: C82_v4_order, C82_v6_order and C82_prefix_order give pairs. C82_shortest says exactly which addresses have a text shorter than the compressed one."
  },
  {
   "property": "C83",
   "status": "proved",
   "theorems": [
    "C83_contains",
    "C83_subset",
    "C83_only"
   ],
   "note": "Domain names are the texts of reverse_pointer, split at dots; C83_only shows that the condition on the prefix length cannot be dropped."
  },
  {
   "property": "C84",
   "status": "proved",
   "theorems": [
    "C84_codes",
    "C84_codes_all",
    "C84_mask_exact",
    "C84_exact",
    "C84_unique",
    "C84_any_address",
    "C84_any_network",
    "C84_any_host_bits",
    "C84_strict",
    "C84_host_bits"
   ],
   "note": "Both directions: the parser reports exactly the error of the specification. Symbols are the outcome of decoding (C51, C52, C79); undecodable symbols carry the error of the decoder."
  },
  {
   "property": "C85",
   "status": "proved",
   "theorems": [
    "C85_default",
    "C85_from_address",
    "C85_inclusion",
    "C85_inclusion_off",
    "C85_blind",
    "C85_hosts",
    "C85_subnets",
    "C85_exclude"
   ],
   "note": "The results for networks without scope id in the default build are described by C18-C25 and C31-C38."
  },
  {
   "property": "C86",
   "status": "proved",
   "theorems": [
    "C86_plain",
    "C86_accepted",
    "C86_silent_strings",
    "C86_silent_arrays",
    "C86_silent_literals",
    "C86_long_literals",
    "C86_utf8_strings",
    "C86_utf8_codes",
    "C86_utf8_arrays",
    "C86_utf8_literals",
    "C86_other_strings",
    "C86_other_codes",
    "C86_other_arrays",
    "C86_other_literals",
    "C86_codes",
    "C86_array_string",
    "C86_literal_string",
    "C86_scope_exact",
    "C86_scope_codes",
    "C86_scope_silent",
    "C86_scope_array_silent",
    "C86_scope_utf8",
    "C86_scope_other",
    "C86_scope_off",
    "C86_default_strings",
    "C86_default_arrays",
    "C86_default_literals",
    "C86_quiet_strings",
    "C86_quiet_arrays",
    "C86_utf8_default_strings",
    "C86_utf8_default_arrays"
   ],
   "note": "The errors and accepted networks of the scope-id macros alone are described by C68 and C81, to which C86_plain reduces every build."
  },
  {
   "property": "C87",
   "status": "proved",
   "theorems": [
    "C87_addresses",
    "C87_arrays",
    "C87_any_addresses",
    "C87_networks",
    "C87_network_codes",
    "C87_any_networks",
    "C87_total",
    "C87_accepted",
    "C87_errors",
    "C87_undefined",
    "C87_small",
    "C87_any_small",
    "C87_wide",
    "C87_round_trip",
    "C87_differ",
    "C87_subnets",
    "C87_subnets_code",
    "C87_any_subnets",
    "C87_halves",
    "C87_overflow",
    "C87_overflow_code",
    "C87_any_overflow",
    "C87_code_throws"
   ],
   "note": "Functions that use size_t only for lengths, indices and prefix lengths of objects (all below 2^32) are not modelled again; the hash for both sizes is C72."
  },
  {
   "property": "C88",
   "status": "proved",
   "theorems": [
    "C88_default",
    "C88_operators_address",
    "C88_operators_network",
    "C88_operators_any_address",
    "C88_operators_any_network",
    "C88_order_address",
    "C88_order_network",
    "C88_order_any_address",
    "C88_order_any_network",
    "C88_address_forward",
    "C88_network_forward",
    "C88_hash",
    "C88_network_hash",
    "C88_round_trip",
    "C88_network_text",
    "C88_network_round_trip",
    "C88_inclusion",
    "C88_sequences",
    "C88_hosts",
    "C88_subnets",
    "C88_exclude"
   ],
   "note": "Hosts, subnets and address_exclude are reduced to the default build, where C50 with C32 to C38 say what they are."
  },
  {
   "property": "C89",
   "status": "partial",
   "theorems": [
    "C89_default",
    "C89_text",
    "C89_insert",
    "C89_insert_failed",
    "C89_insert_all",
    "C89_extract",
    "C89_extract_exists",
    "C89_quiet",
    "C89_strictness",
    "C89_nothing",
    "C89_round_trip_partial",
    "C89_round_trip_refuted"
   ],
   "note": "Reading back needs scope ids that are ASCII (or plain char that is not UTF-8) and, for streams, without blanks, which only IPADDRESS_SCOPE_ID_SUPPORT_SPACES permits; refuted with a scope id that contains a space."
  },
  {
   "property": "C90",
   "status": "partial",
   "theorems": [
    "C90_tables",
    "C90_texts",
    "C90_private",
    "C90_global",
    "C90_multicast",
    "C90_reserved",
    "C90_loopback",
    "C90_link_local",
    "C90_site_local",
    "C90_net_multicast",
    "C90_net_loopback",
    "C90_net_link_local",
    "C90_net_site_local",
    "C90_net_private4",
    "C90_net_reserved_partial",
    "C90_net_reserved_refuted",
    "C90_net_private_partial",
    "C90_net_global_partial",
    "C90_scope",
    "C90_any_scope",
    "C90_class",
    "C90_quotes",
    "C90_fixed",
    "C90_number",
    "C90_symbol",
    "C90_codes_differ",
    "C90_shown",
    "C90_default",
    "C90_throws",
    "C90_array_throws",
    "C90_net_array_throws",
    "C90_scope_throws",
    "C90_message",
    "C90_scope_message",
    "C90_array_message",
    "C90_array_bad",
    "C90_literal_message",
    "C90_long_literal",
    "C90_quiet",
    "C90_big_endian_refuted",
    "C90_big_endian_v4_refuted",
    "C90_big_endian_v6"
   ],
   "note": "Refuted on big-endian hosts, where all but four entries of the IPv4 tables are refused and the tables do not compile, and for is_reserved of ::/1; is_private and is_global of IPv6 networks are characterised by the ranges that hold the whole network. Everything else is proved for every build."
  },
  {
   "property": "C91",
   "status": "proved",
   "theorems": [
    "C91_subnets",
    "C91_exclude",
    "C91_any_subnets",
    "C91_any_exclude",
    "C91_codes",
    "C91_any_codes",
    "C91_empty",
    "C91_default_subnets",
    "C91_default_exclude",
    "C91_default_any_subnets",
    "C91_default_any_exclude",
    "C91_stuck"
   ],
   "note": "Proved for every setting. Sums of prefix lengths of 2^64 and more are excluded, as in C71 (C71_subnets_refuted)."
  },
  {
   "property": "C92",
   "status": "proved",
   "theorems": [
    "C92_made",
    "C92_defaults",
    "C92_constructors",
    "C92_address_reads",
    "C92_address_pairs",
    "C92_address_changes",
    "C92_address_creations",
    "C92_network_reads",
    "C92_network_parts",
    "C92_network_pairs",
    "C92_network_creations",
    "C92_sequences",
    "C92_host_iterator_reads",
    "C92_host_iterator_moves",
    "C92_subnet_iterator_reads",
    "C92_subnet_iterator_moves",
    "C92_exclude",
    "C92_exclude_steps",
    "C92_wrong_address",
    "C92_wrong_network",
    "C92_wrong_host_iterator",
    "C92_wrong_subnet_iterator"
   ],
   "note": "Proved for every object reachable by the listed operations (made_a, made_n, made_h, made_s, made_x). Conversions of characters, streams and literals only call the constructors, the parsers and to_string and are in other properties. The wrong_ theorems show that the model notices a tag that does not agree."
  },
  {
   "property": "C93",
   "status": "proved",
   "theorems": [
    "C93_little",
    "C93_iterators_little",
    "C93_exclude_little",
    "C93_text",
    "C93_text_dotted",
    "C93_to_integer",
    "C93_from_integer",
    "C93_network_text",
    "C93_network_text_v4",
    "C93_from_address",
    "C93_count",
    "C93_count_v6",
    "C93_count_v4",
    "C93_supernet_v4",
    "C93_hosts",
    "C93_single_host",
    "C93_subnets_v4",
    "C93_text_differs",
    "C93_integer_differs",
    "C93_network_differs",
    "C93_network_accepts_differs",
    "C93_hosts_v6_differs",
    "C93_iterator_order_differs",
    "C93_subnets_v6_differs",
    "C93_supernet_v6_differs",
    "C93_exclude_differs",
    "C93_exclude_v4"
   ],
   "note": "The differences are existence theorems with witnesses (_differs). Overloads with an error code are modelled for parse and address_exclude; those of from_address, supernet and subnets differ from the throwing ones only in how they report (C27, C49). The mirror theorems for subnets and supernet are for IPv4; for IPv6 only the differences are shown."
  }
 ]
}
