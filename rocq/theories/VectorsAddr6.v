(* Expectations of the project's own test suite, evaluated on the model: /repo/tests/ipv6-address-tests.cpp.
   They are tests of the model's fidelity, not proofs of any property. *)
From Coq Require Import ZArith List Bool String.
From Verif Require Import Base UnicodeModel FixedStringModel Uint128Model AddressModel NetworkModel IterModel ClassifyModel AnyModel CodeModel StreamModel ErrorModel ScopeModel V6Model LiteralModel RelModel Uint128OpsModel NetWitness VectorBase.
Import ListNotations.
Local Open Scope Z_scope.
Local Open Scope string_scope.

(* ipv6-address-tests.cpp:347-352 *)
Example v_FromUint128Params : failing (chk_from_uint V6)
  [(0, str "::");
   (42549171344950636613079587071710986241, str "2002:ac1d:2d64::1")] = [].
Proof. vm_compute. reflexivity. Qed.

(* ipv6-address-tests.cpp:377-382 *)
Example v_FromBytesIpv6Params : failing (chk_from_bytes_v6)
  [([254; 128; 0; 0; 0; 0; 0; 0; 1; 255; 254; 35; 69; 103; 137; 10], str "");
   ([254; 128; 0; 0; 0; 0; 0; 0; 1; 255; 254; 35; 69; 103; 137; 10], str "eth2")] = [].
Proof. vm_compute. reflexivity. Qed.

(* ipv6-address-tests.cpp:449-474 *)
Example v_AddressParserIpv6Params : failing (chk_parse_v6)
  [(str "2001:db8:0:0:1:0:0:1", [32; 1; 13; 184; 0; 0; 0; 0; 0; 1; 0; 0; 0; 0; 0; 1], false, false, str "", 0);
   (str "2001:DB8::1", [32; 1; 13; 184; 0; 0; 0; 0; 0; 0; 0; 0; 0; 0; 0; 1], false, false, str "", 0);
   (str "2001:db8::1", [32; 1; 13; 184; 0; 0; 0; 0; 0; 0; 0; 0; 0; 0; 0; 1], false, false, str "", 0);
   (str "2001:0db8:85a3:0000:0000:8a2e:0370:7334", [32; 1; 13; 184; 133; 163; 0; 0; 0; 0; 138; 46; 3; 112; 115; 52], false, false, str "", 0);
   (str "fe80::1ff:fe23:4567:890a", [254; 128; 0; 0; 0; 0; 0; 0; 1; 255; 254; 35; 69; 103; 137; 10], false, false, str "", 0);
   (str "::", [0; 0; 0; 0; 0; 0; 0; 0; 0; 0; 0; 0; 0; 0; 0; 0], false, false, str "", 0);
   (str "::127.0.0.1", [0; 0; 0; 0; 0; 0; 0; 0; 0; 0; 0; 0; 127; 0; 0; 1], false, false, str "", 0);
   (str "0000::0000", [0; 0; 0; 0; 0; 0; 0; 0; 0; 0; 0; 0; 0; 0; 0; 0], false, false, str "", 0);
   (str "::c0a8:1", [0; 0; 0; 0; 0; 0; 0; 0; 0; 0; 0; 0; 192; 168; 0; 1], false, false, str "", 0);
   (str "000::c0a8:0001", [0; 0; 0; 0; 0; 0; 0; 0; 0; 0; 0; 0; 192; 168; 0; 1], false, false, str "", 0);
   (str "::1", [0; 0; 0; 0; 0; 0; 0; 0; 0; 0; 0; 0; 0; 0; 0; 1], false, false, str "", 0);
   (str "::ffff:0:0", [0; 0; 0; 0; 0; 0; 0; 0; 0; 0; 255; 255; 0; 0; 0; 0], false, false, str "", 0);
   (str "::ffff:0:0:0", [0; 0; 0; 0; 0; 0; 0; 0; 255; 255; 0; 0; 0; 0; 0; 0], false, false, str "", 0);
   (str "64:ff9b::", [0; 100; 255; 155; 0; 0; 0; 0; 0; 0; 0; 0; 0; 0; 0; 0], false, false, str "", 0);
   (str "64:ff9b:1::", [0; 100; 255; 155; 0; 1; 0; 0; 0; 0; 0; 0; 0; 0; 0; 0], false, false, str "", 0);
   (str "100::", [1; 0; 0; 0; 0; 0; 0; 0; 0; 0; 0; 0; 0; 0; 0; 0], false, false, str "", 0);
   (str "ff02::1:3", [255; 2; 0; 0; 0; 0; 0; 0; 0; 0; 0; 0; 0; 1; 0; 3], false, false, str "", 0);
   (str "fe80::1ff:fe23:4567:890a%eth2", [254; 128; 0; 0; 0; 0; 0; 0; 1; 255; 254; 35; 69; 103; 137; 10], true, false, str "eth2", 0);
   (str "fe80::1ff:fe23:4567:890a%25eth01234567", [254; 128; 0; 0; 0; 0; 0; 0; 1; 255; 254; 35; 69; 103; 137; 10], true, false, str "25eth01234567", 0);
   (str "fe80::1ff:fe23:4567:890a%3", [254; 128; 0; 0; 0; 0; 0; 0; 1; 255; 254; 35; 69; 103; 137; 10], true, true, str "3", 3);
   (str "fe80::1ff:fe23:4567:890a%31", [254; 128; 0; 0; 0; 0; 0; 0; 1; 255; 254; 35; 69; 103; 137; 10], true, true, str "31", 31);
   (str "1:2:3:4:5:6:42.42.42.1", [0; 1; 0; 2; 0; 3; 0; 4; 0; 5; 0; 6; 42; 42; 42; 1], false, false, str "", 0)] = [].
Proof. vm_compute. reflexivity. Qed.

(* ipv6-address-tests.cpp:501-625 *)
Example v_InvalidAddressIpv6Params : failing (chk_addr_err V6)
  [(str "", empty_address, str "address cannot be empty");
   (str ":", least_3_parts, str "least 3 parts in address :");
   (str ":1", least_3_parts, str "least 3 parts in address :1");
   (str "FEDC:9878", least_3_parts, str "least 3 parts in address FEDC:9878");
   (str ":%scope", least_3_parts, str "least 3 parts in address :%scope");
   (str ":1%scope", least_3_parts, str "least 3 parts in address :1%scope");
   (str "FEDC:9878%scope", least_3_parts, str "least 3 parts in address FEDC:9878%scope");
   (str "10:9:8:7:6:5:4:3:2:1", most_8_colons_permitted, str "most 8 colons permitted in address 10:9:8:7:6:5:4:3:2:1");
   (str "10:9:8:7:6:5:4:3:42.42.42.42", most_8_colons_permitted, str "most 8 colons permitted in address 10:9:8:7:6:5:4:3:42.42.42.42");
   (str "1:2:3:4:5:6:7:42.42.42.42", most_8_colons_permitted, str "most 8 colons permitted in address 1:2:3:4:5:6:7:42.42.42.42");
   (str "10:9:8:7:6:5:4:3:2:1%scope", most_8_colons_permitted, str "most 8 colons permitted in address 10:9:8:7:6:5:4:3:2:1%scope");
   (str "10:9:8:7:6:5:4:3:42.42.42.42%scope", most_8_colons_permitted, str "most 8 colons permitted in address 10:9:8:7:6:5:4:3:42.42.42.42%scope");
   (str "3ffe::1::1", most_one_double_colon_permitted, str "at most one '::' permitted in address 3ffe::1::1");
   (str "1::2::3::4:5", most_one_double_colon_permitted, str "at most one '::' permitted in address 1::2::3::4:5");
   (str "2001::db:::1", most_one_double_colon_permitted, str "at most one '::' permitted in address 2001::db:::1");
   (str "3ffe::1::", most_one_double_colon_permitted, str "at most one '::' permitted in address 3ffe::1::");
   (str "::3ffe::1", most_one_double_colon_permitted, str "at most one '::' permitted in address ::3ffe::1");
   (str ":3ffe::1::1", most_one_double_colon_permitted, str "at most one '::' permitted in address :3ffe::1::1");
   (str "3ffe::1::1:", most_one_double_colon_permitted, str "at most one '::' permitted in address 3ffe::1::1:");
   (str ":3ffe::1::1:", most_one_double_colon_permitted, str "at most one '::' permitted in address :3ffe::1::1:");
   (str ":::", most_one_double_colon_permitted, str "at most one '::' permitted in address :::");
   (str "2001:db8:::1", most_one_double_colon_permitted, str "at most one '::' permitted in address 2001:db8:::1");
   (str "3ffe::1::1%scope", most_one_double_colon_permitted, str "at most one '::' permitted in address 3ffe::1::1%scope");
   (str "1::2::3::4:5%scope", most_one_double_colon_permitted, str "at most one '::' permitted in address 1::2::3::4:5%scope");
   (str "2001::db:::1%scope", most_one_double_colon_permitted, str "at most one '::' permitted in address 2001::db:::1%scope");
   (str "3ffe::1::%scope", most_one_double_colon_permitted, str "at most one '::' permitted in address 3ffe::1::%scope");
   (str "::3ffe::1%scope", most_one_double_colon_permitted, str "at most one '::' permitted in address ::3ffe::1%scope");
   (str ":3ffe::1::1%scope", most_one_double_colon_permitted, str "at most one '::' permitted in address :3ffe::1::1%scope");
   (str "3ffe::1::1:%scope", most_one_double_colon_permitted, str "at most one '::' permitted in address 3ffe::1::1:%scope");
   (str ":3ffe::1::1:%scope", most_one_double_colon_permitted, str "at most one '::' permitted in address :3ffe::1::1:%scope");
   (str ":::%scope", most_one_double_colon_permitted, str "at most one '::' permitted in address :::%scope");
   (str "2001:db8:::1%scope", most_one_double_colon_permitted, str "at most one '::' permitted in address 2001:db8:::1%scope");
   (str "::00000", part_is_more_4_chars, str "in part 2 of address ::00000 more 4 characters");
   (str "3ffe::10000", part_is_more_4_chars, str "in part 2 of address 3ffe::10000 more 4 characters");
   (str "02001:db8::", part_is_more_4_chars, str "in part 0 of address 02001:db8:: more 4 characters");
   (str "2001:888888::1", part_is_more_4_chars, str "in part 1 of address 2001:888888::1 more 4 characters");
   (str "::00000%scope", part_is_more_4_chars, str "in part 2 of address ::00000%scope more 4 characters");
   (str "3ffe::10000%scope", part_is_more_4_chars, str "in part 2 of address 3ffe::10000%scope more 4 characters");
   (str "02001:db8::%scope", part_is_more_4_chars, str "in part 0 of address 02001:db8::%scope more 4 characters");
   (str "2001:888888::1%scope", part_is_more_4_chars, str "in part 1 of address 2001:888888::1%scope more 4 characters");
   (str "1.2.3.4::%scope", part_is_more_4_chars, str "in part 0 of address 1.2.3.4::%scope more 4 characters");
   (str "1.2.3.4::", part_is_more_4_chars, str "in part 0 of address 1.2.3.4:: more 4 characters");
   (str "::1.2.3.4:%scope", part_is_more_4_chars, str "in part 2 of address ::1.2.3.4:%scope more 4 characters");
   (str "::1.2.3.4.5.6.7.8.9", part_is_more_4_chars, str "in part 2 of address ::1.2.3.4.5.6.7.8.9 more 4 characters");
   (str "123456789abcfeh::", part_is_more_4_chars, str "in part 0 of address 123456789abcfeh:: more 4 characters");
   (str "123456789abcfe::", part_is_more_4_chars, str "in part 0 of address 123456789abcfe:: more 4 characters");
   (str "3ffe::1.1.1.net", octet_has_invalid_symbol, str "in octet 2 of address 3ffe::1.1.1.net has invalid symbol");
   (str "3ffe::1.1.1.net%scope", octet_has_invalid_symbol, str "in octet 2 of address 3ffe::1.1.1.net%scope has invalid symbol");
   (str "3ffe::goog", part_has_invalid_symbol, str "in part 3 of address 3ffe::goog has invalid symbols");
   (str "3ffe::-0", part_has_invalid_symbol, str "in part 3 of address 3ffe::-0 has invalid symbols");
   (str "3ffe::+0", part_has_invalid_symbol, str "in part 3 of address 3ffe::+0 has invalid symbols");
   (str "3ffe::-1", part_has_invalid_symbol, str "in part 3 of address 3ffe::-1 has invalid symbols");
   (str "1234:axy::b", part_has_invalid_symbol, str "in part 4 of address 1234:axy::b has invalid symbols");
   (str "3ffe::goog%scope", part_has_invalid_symbol, str "in part 3 of address 3ffe::goog%scope has invalid symbols");
   (str "3ffe::-0%scope", part_has_invalid_symbol, str "in part 3 of address 3ffe::-0%scope has invalid symbols");
   (str "3ffe::+0%scope", part_has_invalid_symbol, str "in part 3 of address 3ffe::+0%scope has invalid symbols");
   (str "3ffe::-1%scope", part_has_invalid_symbol, str "in part 3 of address 3ffe::-1%scope has invalid symbols");
   (str "1234:axy::b%scope", part_has_invalid_symbol, str "in part 4 of address 1234:axy::b%scope has invalid symbols");
   (str "::1/24", part_has_invalid_symbol, str "in part 3 of address ::1/24 has invalid symbols");
   (str "3ffe::1::1", most_one_double_colon_permitted, str "at most one '::' permitted in address 3ffe::1::1");
   (str "1::2::3::4:5", most_one_double_colon_permitted, str "at most one '::' permitted in address 1::2::3::4:5");
   (str "2001::db:::1", most_one_double_colon_permitted, str "at most one '::' permitted in address 2001::db:::1");
   (str "3ffe::1::", most_one_double_colon_permitted, str "at most one '::' permitted in address 3ffe::1::");
   (str "::3ffe::1", most_one_double_colon_permitted, str "at most one '::' permitted in address ::3ffe::1");
   (str ":3ffe::1::1", most_one_double_colon_permitted, str "at most one '::' permitted in address :3ffe::1::1");
   (str "3ffe::1::1:", most_one_double_colon_permitted, str "at most one '::' permitted in address 3ffe::1::1:");
   (str ":3ffe::1::1:", most_one_double_colon_permitted, str "at most one '::' permitted in address :3ffe::1::1:");
   (str ":::", most_one_double_colon_permitted, str "at most one '::' permitted in address :::");
   (str "2001:db8:::1", most_one_double_colon_permitted, str "at most one '::' permitted in address 2001:db8:::1");
   (str "3ffe::1::1%scope", most_one_double_colon_permitted, str "at most one '::' permitted in address 3ffe::1::1%scope");
   (str "1::2::3::4:5%scope", most_one_double_colon_permitted, str "at most one '::' permitted in address 1::2::3::4:5%scope");
   (str "2001::db:::1%scope", most_one_double_colon_permitted, str "at most one '::' permitted in address 2001::db:::1%scope");
   (str "3ffe::1::%scope", most_one_double_colon_permitted, str "at most one '::' permitted in address 3ffe::1::%scope");
   (str "::3ffe::1%scope", most_one_double_colon_permitted, str "at most one '::' permitted in address ::3ffe::1%scope");
   (str ":3ffe::1::1%scope", most_one_double_colon_permitted, str "at most one '::' permitted in address :3ffe::1::1%scope");
   (str "3ffe::1::1:%scope", most_one_double_colon_permitted, str "at most one '::' permitted in address 3ffe::1::1:%scope");
   (str ":3ffe::1::1:%scope", most_one_double_colon_permitted, str "at most one '::' permitted in address :3ffe::1::1:%scope");
   (str ":::%scope", most_one_double_colon_permitted, str "at most one '::' permitted in address :::%scope");
   (str "2001:db8:::1%scope", most_one_double_colon_permitted, str "at most one '::' permitted in address 2001:db8:::1%scope");
   (str ":2001:db8::1", leading_colon_only_permitted_as_part_of_double_colon, str "at leading ':' only permitted as part of '::' in address :2001:db8::1");
   (str ":1:2:3:4:5:6:7", leading_colon_only_permitted_as_part_of_double_colon, str "at leading ':' only permitted as part of '::' in address :1:2:3:4:5:6:7");
   (str ":1:2:3:4:5:6:", leading_colon_only_permitted_as_part_of_double_colon, str "at leading ':' only permitted as part of '::' in address :1:2:3:4:5:6:");
   (str ":6:5:4:3:2:1::", leading_colon_only_permitted_as_part_of_double_colon, str "at leading ':' only permitted as part of '::' in address :6:5:4:3:2:1::");
   (str ":2001:db8::1%scope", leading_colon_only_permitted_as_part_of_double_colon, str "at leading ':' only permitted as part of '::' in address :2001:db8::1%scope");
   (str ":1:2:3:4:5:6:7%scope", leading_colon_only_permitted_as_part_of_double_colon, str "at leading ':' only permitted as part of '::' in address :1:2:3:4:5:6:7%scope");
   (str ":1:2:3:4:5:6:%scope", leading_colon_only_permitted_as_part_of_double_colon, str "at leading ':' only permitted as part of '::' in address :1:2:3:4:5:6:%scope");
   (str ":6:5:4:3:2:1::%scope", leading_colon_only_permitted_as_part_of_double_colon, str "at leading ':' only permitted as part of '::' in address :6:5:4:3:2:1::%scope");
   (str "2001:db8::1:", trailing_colon_only_permitted_as_part_of_double_colon, str "at trailing ':' only permitted as part of '::' in address 2001:db8::1:");
   (str "1:2:3:4:5:6:7:", trailing_colon_only_permitted_as_part_of_double_colon, str "at trailing ':' only permitted as part of '::' in address 1:2:3:4:5:6:7:");
   (str "::7:6:5:4:3:2:", trailing_colon_only_permitted_as_part_of_double_colon, str "at trailing ':' only permitted as part of '::' in address ::7:6:5:4:3:2:");
   (str "2001:db8::1:%scope", trailing_colon_only_permitted_as_part_of_double_colon, str "at trailing ':' only permitted as part of '::' in address 2001:db8::1:%scope");
   (str "1:2:3:4:5:6:7:%scope", trailing_colon_only_permitted_as_part_of_double_colon, str "at trailing ':' only permitted as part of '::' in address 1:2:3:4:5:6:7:%scope");
   (str "::7:6:5:4:3:2:%scope", trailing_colon_only_permitted_as_part_of_double_colon, str "at trailing ':' only permitted as part of '::' in address ::7:6:5:4:3:2:%scope");
   (str "8:7:6:5:4:3:2:1::", trailing_colon_only_permitted_as_part_of_double_colon, str "at trailing ':' only permitted as part of '::' in address 8:7:6:5:4:3:2:1::");
   (str "8:7:6:5:4:3:2:1::%scope", trailing_colon_only_permitted_as_part_of_double_colon, str "at trailing ':' only permitted as part of '::' in address 8:7:6:5:4:3:2:1::%scope");
   (str "9:8:7:6:5:4:3::2:1", expected_at_most_7_other_parts_with_double_colon, str "expected at most 7 other parts with '::' in address 9:8:7:6:5:4:3::2:1");
   (str "::8:7:6:5:4:3:2:1", expected_at_most_7_other_parts_with_double_colon, str "expected at most 7 other parts with '::' in address ::8:7:6:5:4:3:2:1");
   (str "8:7:6:5:4:3::2:1", expected_at_most_7_other_parts_with_double_colon, str "expected at most 7 other parts with '::' in address 8:7:6:5:4:3::2:1");
   (str "9:8:7:6:5:4:3::2:1%scope", expected_at_most_7_other_parts_with_double_colon, str "expected at most 7 other parts with '::' in address 9:8:7:6:5:4:3::2:1%scope");
   (str "::8:7:6:5:4:3:2:1%scope", expected_at_most_7_other_parts_with_double_colon, str "expected at most 7 other parts with '::' in address ::8:7:6:5:4:3:2:1%scope");
   (str "1:2:3:4:5::6:7:8", expected_at_most_7_other_parts_with_double_colon, str "expected at most 7 other parts with '::' in address 1:2:3:4:5::6:7:8");
   (str "1:2:3:4:5::6:7:8%scope", expected_at_most_7_other_parts_with_double_colon, str "expected at most 7 other parts with '::' in address 1:2:3:4:5::6:7:8%scope");
   (str "1:2:3:4:5:6:7:8:", exactly_8_parts_expected_without_double_colon, str "exactly 8 parts expected without '::' in address 1:2:3:4:5:6:7:8:");
   (str "7:6:5:4:3:2:1", exactly_8_parts_expected_without_double_colon, str "exactly 8 parts expected without '::' in address 7:6:5:4:3:2:1");
   (str "7:6:5:4:3:2:1%scope", exactly_8_parts_expected_without_double_colon, str "exactly 8 parts expected without '::' in address 7:6:5:4:3:2:1%scope");
   (str "::%123456789abcdefgh", scope_id_is_too_long, str "scope id is too long in address ::%123456789abcdefgh");
   (str "::1%", invalid_scope_id, str "invalid scope id in address ::1%");
   (str "::1%scope%", invalid_scope_id, str "invalid scope id in address ::1%scope%");
   (str "::1%scope_id/24", invalid_scope_id, str "invalid scope id in address ::1%scope_id/24")] = [].
Proof. vm_compute. reflexivity. Qed.

(* ipv6-address-tests.cpp:816-842 *)
Example v_ToStringIpv6Params : failing (chk_text_v6 TChar)
  [(str "2001:db8:0:0:1:0:0:1", str "2001:0db8:0000:0000:0001:0000:0000:0001", str "2001:db8:0:0:1:0:0:1", str "2001:db8::1:0:0:1", str "2001:DB8::1:0:0:1");
   (str "2001:DB8::1", str "2001:0db8:0000:0000:0000:0000:0000:0001", str "2001:db8:0:0:0:0:0:1", str "2001:db8::1", str "2001:DB8::1");
   (str "2001:db8::1", str "2001:0db8:0000:0000:0000:0000:0000:0001", str "2001:db8:0:0:0:0:0:1", str "2001:db8::1", str "2001:DB8::1");
   (str "2001:0db8:85a3:0000:0000:8a2e:0370:7334", str "2001:0db8:85a3:0000:0000:8a2e:0370:7334", str "2001:db8:85a3:0:0:8a2e:370:7334", str "2001:db8:85a3::8a2e:370:7334", str "2001:DB8:85A3::8A2E:370:7334");
   (str "fe80::1ff:fe23:4567:890a", str "fe80:0000:0000:0000:01ff:fe23:4567:890a", str "fe80:0:0:0:1ff:fe23:4567:890a", str "fe80::1ff:fe23:4567:890a", str "FE80::1FF:FE23:4567:890A");
   (str "::", str "0000:0000:0000:0000:0000:0000:0000:0000", str "0:0:0:0:0:0:0:0", str "::", str "::");
   (str "::127.0.0.1", str "0000:0000:0000:0000:0000:0000:7f00:0001", str "0:0:0:0:0:0:7f00:1", str "::7f00:1", str "::7F00:1");
   (str "0000::0000", str "0000:0000:0000:0000:0000:0000:0000:0000", str "0:0:0:0:0:0:0:0", str "::", str "::");
   (str "::c0a8:1", str "0000:0000:0000:0000:0000:0000:c0a8:0001", str "0:0:0:0:0:0:c0a8:1", str "::c0a8:1", str "::C0A8:1");
   (str "000::c0a8:0001", str "0000:0000:0000:0000:0000:0000:c0a8:0001", str "0:0:0:0:0:0:c0a8:1", str "::c0a8:1", str "::C0A8:1");
   (str "::1", str "0000:0000:0000:0000:0000:0000:0000:0001", str "0:0:0:0:0:0:0:1", str "::1", str "::1");
   (str "::ffff:0:0", str "0000:0000:0000:0000:0000:ffff:0000:0000", str "0:0:0:0:0:ffff:0:0", str "::ffff:0:0", str "::FFFF:0:0");
   (str "::ffff:0:0:0", str "0000:0000:0000:0000:ffff:0000:0000:0000", str "0:0:0:0:ffff:0:0:0", str "::ffff:0:0:0", str "::FFFF:0:0:0");
   (str "64:ff9b::", str "0064:ff9b:0000:0000:0000:0000:0000:0000", str "64:ff9b:0:0:0:0:0:0", str "64:ff9b::", str "64:FF9B::");
   (str "64:ff9b:1::", str "0064:ff9b:0001:0000:0000:0000:0000:0000", str "64:ff9b:1:0:0:0:0:0", str "64:ff9b:1::", str "64:FF9B:1::");
   (str "100::", str "0100:0000:0000:0000:0000:0000:0000:0000", str "100:0:0:0:0:0:0:0", str "100::", str "100::");
   (str "ff02::1:3", str "ff02:0000:0000:0000:0000:0000:0001:0003", str "ff02:0:0:0:0:0:1:3", str "ff02::1:3", str "FF02::1:3");
   (str "fe80::1ff:fe23:4567:890a%eth2", str "fe80:0000:0000:0000:01ff:fe23:4567:890a%eth2", str "fe80:0:0:0:1ff:fe23:4567:890a%eth2", str "fe80::1ff:fe23:4567:890a%eth2", str "FE80::1FF:FE23:4567:890A%eth2");
   (str "fe80::1ff:fe23:4567:890a%25eth01234567", str "fe80:0000:0000:0000:01ff:fe23:4567:890a%25eth01234567", str "fe80:0:0:0:1ff:fe23:4567:890a%25eth01234567", str "fe80::1ff:fe23:4567:890a%25eth01234567", str "FE80::1FF:FE23:4567:890A%25eth01234567");
   (str "fe80::1ff:fe23:4567:890a%3", str "fe80:0000:0000:0000:01ff:fe23:4567:890a%3", str "fe80:0:0:0:1ff:fe23:4567:890a%3", str "fe80::1ff:fe23:4567:890a%3", str "FE80::1FF:FE23:4567:890A%3");
   (str "fe80::1ff:fe23:4567:890a%31", str "fe80:0000:0000:0000:01ff:fe23:4567:890a%31", str "fe80:0:0:0:1ff:fe23:4567:890a%31", str "fe80::1ff:fe23:4567:890a%31", str "FE80::1FF:FE23:4567:890A%31");
   (str "1:2:3:4:5:6:42.42.42.1", str "0001:0002:0003:0004:0005:0006:2a2a:2a01", str "1:2:3:4:5:6:2a2a:2a01", str "1:2:3:4:5:6:2a2a:2a01", str "1:2:3:4:5:6:2A2A:2A01");
   (str "0:0:0:4:5:6:42.42.42.1%test", str "0000:0000:0000:0004:0005:0006:2a2a:2a01%test", str "0:0:0:4:5:6:2a2a:2a01%test", str "::4:5:6:2a2a:2a01%test", str "::4:5:6:2A2A:2A01%test")] = [].
Proof. vm_compute. reflexivity. Qed.

(* ipv6-address-tests.cpp:871-897 *)
Example v_ToWStringIpv6Params : failing (chk_text_v6 TWchar)
  [(str "2001:db8:0:0:1:0:0:1", str "2001:0db8:0000:0000:0001:0000:0000:0001", str "2001:db8:0:0:1:0:0:1", str "2001:db8::1:0:0:1", str "2001:DB8::1:0:0:1");
   (str "2001:DB8::1", str "2001:0db8:0000:0000:0000:0000:0000:0001", str "2001:db8:0:0:0:0:0:1", str "2001:db8::1", str "2001:DB8::1");
   (str "2001:db8::1", str "2001:0db8:0000:0000:0000:0000:0000:0001", str "2001:db8:0:0:0:0:0:1", str "2001:db8::1", str "2001:DB8::1");
   (str "2001:0db8:85a3:0000:0000:8a2e:0370:7334", str "2001:0db8:85a3:0000:0000:8a2e:0370:7334", str "2001:db8:85a3:0:0:8a2e:370:7334", str "2001:db8:85a3::8a2e:370:7334", str "2001:DB8:85A3::8A2E:370:7334");
   (str "fe80::1ff:fe23:4567:890a", str "fe80:0000:0000:0000:01ff:fe23:4567:890a", str "fe80:0:0:0:1ff:fe23:4567:890a", str "fe80::1ff:fe23:4567:890a", str "FE80::1FF:FE23:4567:890A");
   (str "::", str "0000:0000:0000:0000:0000:0000:0000:0000", str "0:0:0:0:0:0:0:0", str "::", str "::");
   (str "::127.0.0.1", str "0000:0000:0000:0000:0000:0000:7f00:0001", str "0:0:0:0:0:0:7f00:1", str "::7f00:1", str "::7F00:1");
   (str "0000::0000", str "0000:0000:0000:0000:0000:0000:0000:0000", str "0:0:0:0:0:0:0:0", str "::", str "::");
   (str "::c0a8:1", str "0000:0000:0000:0000:0000:0000:c0a8:0001", str "0:0:0:0:0:0:c0a8:1", str "::c0a8:1", str "::C0A8:1");
   (str "000::c0a8:0001", str "0000:0000:0000:0000:0000:0000:c0a8:0001", str "0:0:0:0:0:0:c0a8:1", str "::c0a8:1", str "::C0A8:1");
   (str "::1", str "0000:0000:0000:0000:0000:0000:0000:0001", str "0:0:0:0:0:0:0:1", str "::1", str "::1");
   (str "::ffff:0:0", str "0000:0000:0000:0000:0000:ffff:0000:0000", str "0:0:0:0:0:ffff:0:0", str "::ffff:0:0", str "::FFFF:0:0");
   (str "::ffff:0:0:0", str "0000:0000:0000:0000:ffff:0000:0000:0000", str "0:0:0:0:ffff:0:0:0", str "::ffff:0:0:0", str "::FFFF:0:0:0");
   (str "64:ff9b::", str "0064:ff9b:0000:0000:0000:0000:0000:0000", str "64:ff9b:0:0:0:0:0:0", str "64:ff9b::", str "64:FF9B::");
   (str "64:ff9b:1::", str "0064:ff9b:0001:0000:0000:0000:0000:0000", str "64:ff9b:1:0:0:0:0:0", str "64:ff9b:1::", str "64:FF9B:1::");
   (str "100::", str "0100:0000:0000:0000:0000:0000:0000:0000", str "100:0:0:0:0:0:0:0", str "100::", str "100::");
   (str "ff02::1:3", str "ff02:0000:0000:0000:0000:0000:0001:0003", str "ff02:0:0:0:0:0:1:3", str "ff02::1:3", str "FF02::1:3");
   (str "fe80::1ff:fe23:4567:890a%eth2", str "fe80:0000:0000:0000:01ff:fe23:4567:890a%eth2", str "fe80:0:0:0:1ff:fe23:4567:890a%eth2", str "fe80::1ff:fe23:4567:890a%eth2", str "FE80::1FF:FE23:4567:890A%eth2");
   (str "fe80::1ff:fe23:4567:890a%25eth01234567", str "fe80:0000:0000:0000:01ff:fe23:4567:890a%25eth01234567", str "fe80:0:0:0:1ff:fe23:4567:890a%25eth01234567", str "fe80::1ff:fe23:4567:890a%25eth01234567", str "FE80::1FF:FE23:4567:890A%25eth01234567");
   (str "fe80::1ff:fe23:4567:890a%3", str "fe80:0000:0000:0000:01ff:fe23:4567:890a%3", str "fe80:0:0:0:1ff:fe23:4567:890a%3", str "fe80::1ff:fe23:4567:890a%3", str "FE80::1FF:FE23:4567:890A%3");
   (str "fe80::1ff:fe23:4567:890a%31", str "fe80:0000:0000:0000:01ff:fe23:4567:890a%31", str "fe80:0:0:0:1ff:fe23:4567:890a%31", str "fe80::1ff:fe23:4567:890a%31", str "FE80::1FF:FE23:4567:890A%31");
   (str "1:2:3:4:5:6:42.42.42.1", str "0001:0002:0003:0004:0005:0006:2a2a:2a01", str "1:2:3:4:5:6:2a2a:2a01", str "1:2:3:4:5:6:2a2a:2a01", str "1:2:3:4:5:6:2A2A:2A01");
   (str "0:0:0:4:5:6:42.42.42.1%test", str "0000:0000:0000:0004:0005:0006:2a2a:2a01%test", str "0:0:0:4:5:6:2a2a:2a01%test", str "::4:5:6:2a2a:2a01%test", str "::4:5:6:2A2A:2A01%test")] = [].
Proof. vm_compute. reflexivity. Qed.

(* ipv6-address-tests.cpp:990-997 *)
Example v_IsMulticastIpv6Params : failing (chk_addr_bool V6 (fun a => Ret (is_multicast V6 a)))
  [(str "ffff::", true);
   (str "ffff:ffff:ffff:ffff:ffff:ffff:ffff:ffff", true);
   (str "ff00::", true);
   (str "fdff::", false)] = [].
Proof. vm_compute. reflexivity. Qed.

(* ipv6-address-tests.cpp:1007-1016 *)
Example v_IsPrivateIpv6Params : failing (chk_addr_bool V6 (is_private V6))
  [(str "fc00::", true);
   (str "fc00:ffff:ffff:ffff::", true);
   (str "fbff:ffff::", false);
   (str "fe00::", false);
   (str "::ffff:192.168.1.1", true);
   (str "::ffff:172.32.0.0", false)] = [].
Proof. vm_compute. reflexivity. Qed.

(* ipv6-address-tests.cpp:1026-1030 *)
Example v_IsGlobalIpv6Params : failing (chk_addr_bool V6 (is_global V6))
  [(str "200::1", true)] = [].
Proof. vm_compute. reflexivity. Qed.

(* ipv6-address-tests.cpp:1040-1044 *)
Example v_IsReservedIpv6Params : failing (chk_addr_bool V6 (fun a => Ret (is_reserved V6 a)))
  [(str "100::", true)] = [].
Proof. vm_compute. reflexivity. Qed.

(* ipv6-address-tests.cpp:1054-1060 *)
Example v_IsLoopbackIpv6Params : failing (chk_addr_bool V6 (fun a => Ret (is_loopback V6 a)))
  [(str "0:0::0:01", true);
   (str "::1", true);
   (str "::2", false)] = [].
Proof. vm_compute. reflexivity. Qed.

(* ipv6-address-tests.cpp:1070-1077 *)
Example v_IsLinkLocalIpv6Params : failing (chk_addr_bool V6 (fun a => Ret (is_link_local V6 a)))
  [(str "fea0::", true);
   (str "febf:ffff::", true);
   (str "fe7f:ffff::", false);
   (str "fec0::", false)] = [].
Proof. vm_compute. reflexivity. Qed.

(* ipv6-address-tests.cpp:1087-1092 *)
Example v_IsUnspecifiedIpv6Params : failing (chk_addr_bool V6 (fun a => Ret (is_unspecified a)))
  [(str "0::0", true);
   (str "::1", false)] = [].
Proof. vm_compute. reflexivity. Qed.

(* ipv6-address-tests.cpp:1102-1109 *)
Example v_IsSiteLocalIpv6Params : failing (chk_addr_bool V6 (fun a => Ret (v6_is_site_local a)))
  [(str "fecf::", true);
   (str "feff:ffff:ffff:ffff::", true);
   (str "fbf:ffff::", false);
   (str "ff00::", false)] = [].
Proof. vm_compute. reflexivity. Qed.

(* ipv6-address-tests.cpp:1121-1127 *)
Example v_Ipv4MappedIpv6Params : failing (chk_embedded v6_ipv4_mapped)
  [(str "::ffff:192.168.1.1%test", str "192.168.1.1", true);
   (str "::c0a8:101", str "0.0.0.0", false);
   (str "::ffff:c0a8:101", str "192.168.1.1", true)] = [].
Proof. vm_compute. reflexivity. Qed.

(* ipv6-address-tests.cpp:1139-1144 *)
Example v_SixtofourIpv6Params : failing (chk_embedded v6_sixtofour)
  [(str "2002:ac1d:2d64::1", str "172.29.45.100", true);
   (str "2000:ac1d:2d64::1", str "0.0.0.0", false)] = [].
Proof. vm_compute. reflexivity. Qed.

(* ipv6-address-tests.cpp:1158-1165 *)
Example v_TeredoIpv6Params : failing (chk_teredo)
  [(str "2001:0000:4136:e378:8000:63bf:3fff:fdd2", str "65.54.227.120", str "192.0.2.45", true);
   (str "2000::4136:e378:8000:63bf:3fff:fdd2", str "0.0.0.0", str "0.0.0.0", false);
   (str "2001:0001:4136:e378:8000:63bf:3fff:fdd2", str "0.0.0.0", str "0.0.0.0", false);
   (str "2001:0:5ef5:79fd:0:59d:a0e5:ba1", str "94.245.121.253", str "95.26.244.94", true)] = [].
Proof. vm_compute. reflexivity. Qed.

