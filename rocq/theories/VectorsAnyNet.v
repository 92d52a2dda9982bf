(* Expectations of the project's own test suite, evaluated on the model: /repo/tests/ip-network-tests.cpp.
   They are tests of the model's fidelity, not proofs of any property. *)
From Coq Require Import ZArith List Bool String.
From Verif Require Import Base UnicodeModel FixedStringModel Uint128Model AddressModel NetworkModel IterModel ClassifyModel AnyModel CodeModel StreamModel ErrorModel ScopeModel V6Model LiteralModel RelModel Uint128OpsModel NetWitness VectorBase.
Import ListNotations.
Local Open Scope Z_scope.
Local Open Scope string_scope.

(* ip-network-tests.cpp:327-349 *)
Example v_InvalidNetworkParams : failing (chk_anet_err)
  [(str "/8", empty_address, str "address cannot be empty");
   (str "1.2.3.4/", empty_netmask, str "empty mask in address 1.2.3.4/");
   (str "1.2.3.4/33", least_3_parts, str "least 3 parts in address 1.2.3.4/33");
   (str "1.2.3.4/255.255.255.127", invalid_netmask, str "is not a valid netmask in address 1.2.3.4/255.255.255.127");
   (str "1.2.3.4/24", least_3_parts, str "least 3 parts in address 1.2.3.4/24");
   (str "1.2.3.4//", only_one_slash_permitted, str "only one '/' permitted in address 1.2.3.4//");
   (str "bogus", part_is_more_4_chars, str "in part 0 of address bogus more 4 characters");
   (str "10/8", least_3_parts, str "least 3 parts in address 10/8");
   (str "1.2.3.256", octet_exceeded_255, str "octet 0 of address 1.2.3.256 exceeded 255");
   (str "/", empty_netmask, str "empty mask in address /");
   (str "2001:db8::/129", invalid_netmask, str "is not a valid netmask in address 2001:db8::/129");
   (str "2001:db8::/24", has_host_bits_set, str "has host bits set in address 2001:db8::/24");
   (str "google.com", octet_has_invalid_symbol, str "in octet 0 of address google.com has invalid symbol");
   (str "10/8", least_3_parts, str "least 3 parts in address 10/8");
   (str "1234:axy::b", part_has_invalid_symbol, str "in part 0 of address 1234:axy::b has invalid symbols");
   (str "google.com%scope", octet_has_invalid_symbol, str "in octet 0 of address google.com%scope has invalid symbol");
   (str "1.2.3.4%scope", least_3_parts, str "least 3 parts in address 1.2.3.4%scope");
   (str "10%scope/8", least_3_parts, str "least 3 parts in address 10%scope/8");
   (str "1234:axy::b%scope", part_has_invalid_symbol, str "in part 0 of address 1234:axy::b%scope has invalid symbols")] = [].
Proof. vm_compute. reflexivity. Qed.

