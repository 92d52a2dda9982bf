(* Expectations of the project's own test suite, evaluated on the model: /repo/tests/ip-address-tests.cpp.
   They are tests of the model's fidelity, not proofs of any property. *)
From Coq Require Import ZArith List Bool String.
From Verif Require Import Base UnicodeModel FixedStringModel Uint128Model AddressModel NetworkModel IterModel ClassifyModel AnyModel CodeModel StreamModel ErrorModel ScopeModel V6Model LiteralModel RelModel Uint128OpsModel NetWitness VectorBase.
Import ListNotations.
Local Open Scope Z_scope.
Local Open Scope string_scope.

(* ip-address-tests.cpp:406-428 *)
Example v_InvalidAddressParams : failing (chk_any_err)
  [(str "", empty_address, str "address cannot be empty");
   (str "127", least_3_parts, str "least 3 parts in address 127");
   (str "127.0.0.", empty_octet, str "empty octet 0 in address 127.0.0.");
   (str "127.0.0.1/24", octet_has_invalid_symbol, str "in octet 0 of address 127.0.0.1/24 has invalid symbol");
   (str "127.0.0.1271", octet_more_3_characters, str "in octet 0 of address 127.0.0.1271 more 3 characters");
   (str "192.168.0.999", octet_exceeded_255, str "octet 0 of address 192.168.0.999 exceeded 255");
   (str "1.2.3.040", leading_0_are_not_permitted, str "leading zeros are not permitted in octet 0 of address 1.2.3.040");
   (str "FEDC:9878%scope", least_3_parts, str "least 3 parts in address FEDC:9878%scope");
   (str "10:9:8:7:6:5:4:3:42.42.42.42%scope", most_8_colons_permitted, str "most 8 colons permitted in address 10:9:8:7:6:5:4:3:42.42.42.42%scope");
   (str "2001:db8:::1%scope", most_one_double_colon_permitted, str "at most one '::' permitted in address 2001:db8:::1%scope");
   (str "123456789abcfe::", part_is_more_4_chars, str "in part 0 of address 123456789abcfe:: more 4 characters");
   (str "::1/24", part_has_invalid_symbol, str "in part 3 of address ::1/24 has invalid symbols");
   (str "2001:db8:::1%scope", most_one_double_colon_permitted, str "at most one '::' permitted in address 2001:db8:::1%scope");
   (str ":6:5:4:3:2:1::%scope", leading_colon_only_permitted_as_part_of_double_colon, str "at leading ':' only permitted as part of '::' in address :6:5:4:3:2:1::%scope");
   (str "8:7:6:5:4:3:2:1::%scope", trailing_colon_only_permitted_as_part_of_double_colon, str "at trailing ':' only permitted as part of '::' in address 8:7:6:5:4:3:2:1::%scope");
   (str "1:2:3:4:5::6:7:8%scope", expected_at_most_7_other_parts_with_double_colon, str "expected at most 7 other parts with '::' in address 1:2:3:4:5::6:7:8%scope");
   (str "7:6:5:4:3:2:1%scope", exactly_8_parts_expected_without_double_colon, str "exactly 8 parts expected without '::' in address 7:6:5:4:3:2:1%scope");
   (str "::%123456789abcdefgh", scope_id_is_too_long, str "scope id is too long in address ::%123456789abcdefgh");
   (str "::1%scope_id/24", invalid_scope_id, str "invalid scope id in address ::1%scope_id/24")] = [].
Proof. vm_compute. reflexivity. Qed.

