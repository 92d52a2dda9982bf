(* Expectations of the project's own test suite, evaluated on the model: /repo/tests/ipv4-address-tests.cpp.
   They are tests of the model's fidelity, not proofs of any property. *)
From Coq Require Import ZArith List Bool String.
From Verif Require Import Base UnicodeModel FixedStringModel Uint128Model AddressModel NetworkModel IterModel ClassifyModel AnyModel CodeModel StreamModel ErrorModel ScopeModel V6Model LiteralModel RelModel Uint128OpsModel NetWitness VectorBase.
Import ListNotations.
Local Open Scope Z_scope.
Local Open Scope string_scope.

(* ipv4-address-tests.cpp:229-234 *)
Example v_FromUint32Params : failing (chk_from_uint V4)
  [(0, str "0.0.0.0");
   (3232235521, str "192.168.0.1")] = [].
Proof. vm_compute. reflexivity. Qed.

(* ipv4-address-tests.cpp:240-245 *)
Example v_FromBytesIpv4Params : failing (chk_from_bytes V4)
  [([0; 8; 0; 0]);
   ([192; 168; 0; 1])] = [].
Proof. vm_compute. reflexivity. Qed.

(* ipv4-address-tests.cpp:296-303 *)
Example v_AddressParserIpv4Params : failing (chk_parse_v4)
  [(str "0.0.0.0", 0, [0; 0; 0; 0]);
   (str "100.64.0.0", 1681915904, [100; 64; 0; 0]);
   (str "127.0.0.1", 2130706433, [127; 0; 0; 1]);
   (str "192.168.1.1", 3232235777, [192; 168; 1; 1])] = [].
Proof. vm_compute. reflexivity. Qed.

(* ipv4-address-tests.cpp:332-384 *)
Example v_InvalidAddressIpv4Params : failing (chk_addr_err V4)
  [(str "", empty_address, str "address cannot be empty");
   (str "127", expected_4_octets, str "expected 4 octets in 127");
   (str "127.0", expected_4_octets, str "expected 4 octets in 127.0");
   (str "127.0.0", expected_4_octets, str "expected 4 octets in 127.0.0");
   (str "42.42.42.42.42", expected_4_octets, str "expected 4 octets in 42.42.42.42.42");
   (str "192.168.0.1.com", expected_4_octets, str "expected 4 octets in 192.168.0.1.com");
   (str "42.42.42.42...", expected_4_octets, str "expected 4 octets in 42.42.42.42...");
   (str "...42.42.42.42", empty_octet, str "empty octet 0 in address ...42.42.42.42");
   (str "42..42.42.42", empty_octet, str "empty octet 1 in address 42..42.42.42");
   (str "42.42..42.42", empty_octet, str "empty octet 2 in address 42.42..42.42");
   (str "42.42.42..42", empty_octet, str "empty octet 3 in address 42.42.42..42");
   (str "42.42..42", empty_octet, str "empty octet 2 in address 42.42..42");
   (str ".42.42.42.42", empty_octet, str "empty octet 0 in address .42.42.42.42");
   (str ".", empty_octet, str "empty octet 0 in address .");
   (str "42..42.42", empty_octet, str "empty octet 1 in address 42..42.42");
   (str "...", empty_octet, str "empty octet 0 in address ...");
   (str "127.0.0.", empty_octet, str "empty octet 3 in address 127.0.0.");
   (str "0x0a.0x0a.0x0a.0x0a", octet_has_invalid_symbol, str "in octet 0 of address 0x0a.0x0a.0x0a.0x0a has invalid symbol");
   (str "0xa.0x0a.0x0a.0x0a", octet_has_invalid_symbol, str "in octet 0 of address 0xa.0x0a.0x0a.0x0a has invalid symbol");
   (str "42.42.42.-0", octet_has_invalid_symbol, str "in octet 3 of address 42.42.42.-0 has invalid symbol");
   (str "42.42.42.+0", octet_has_invalid_symbol, str "in octet 3 of address 42.42.42.+0 has invalid symbol");
   (str "42.42.42.-42", octet_has_invalid_symbol, str "in octet 3 of address 42.42.42.-42 has invalid symbol");
   (str "+1.+2.+3.4", octet_has_invalid_symbol, str "in octet 0 of address +1.+2.+3.4 has invalid symbol");
   (str "1.2.3.4e0", octet_has_invalid_symbol, str "in octet 3 of address 1.2.3.4e0 has invalid symbol");
   (str "1.2.3.4::", octet_has_invalid_symbol, str "in octet 3 of address 1.2.3.4:: has invalid symbol");
   (str "1.a.2.3", octet_has_invalid_symbol, str "in octet 1 of address 1.a.2.3 has invalid symbol");
   (str "127.0.0.1/24", octet_has_invalid_symbol, str "in octet 3 of address 127.0.0.1/24 has invalid symbol");
   (str "1271.0.0.1", octet_more_3_characters, str "in octet 0 of address 1271.0.0.1 more 3 characters");
   (str "127.1271.0.1", octet_more_3_characters, str "in octet 1 of address 127.1271.0.1 more 3 characters");
   (str "127.0.1271.1", octet_more_3_characters, str "in octet 2 of address 127.0.1271.1 more 3 characters");
   (str "127.0.0.1271", octet_more_3_characters, str "in octet 3 of address 127.0.0.1271 more 3 characters");
   (str "257.0.0.0", octet_exceeded_255, str "octet 0 of address 257.0.0.0 exceeded 255");
   (str "127.258.0.1", octet_exceeded_255, str "octet 1 of address 127.258.0.1 exceeded 255");
   (str "127.0.700.1", octet_exceeded_255, str "octet 2 of address 127.0.700.1 exceeded 255");
   (str "192.168.0.999", octet_exceeded_255, str "octet 3 of address 192.168.0.999 exceeded 255");
   (str "000.000.000.000", leading_0_are_not_permitted, str "leading zeros are not permitted in octet 0 of address 000.000.000.000");
   (str "192.168.000.001", leading_0_are_not_permitted, str "leading zeros are not permitted in octet 2 of address 192.168.000.001");
   (str "016.016.016.016", leading_0_are_not_permitted, str "leading zeros are not permitted in octet 0 of address 016.016.016.016");
   (str "001.000.008.016", leading_0_are_not_permitted, str "leading zeros are not permitted in octet 0 of address 001.000.008.016");
   (str "01.2.3.40", leading_0_are_not_permitted, str "leading zeros are not permitted in octet 0 of address 01.2.3.40");
   (str "1.02.3.40", leading_0_are_not_permitted, str "leading zeros are not permitted in octet 1 of address 1.02.3.40");
   (str "1.2.03.40", leading_0_are_not_permitted, str "leading zeros are not permitted in octet 2 of address 1.2.03.40");
   (str "1.2.3.040", leading_0_are_not_permitted, str "leading zeros are not permitted in octet 3 of address 1.2.3.040")] = [].
Proof. vm_compute. reflexivity. Qed.

(* ipv4-address-tests.cpp:486-492 *)
Example v_ToStringIpv4Params : failing (chk_text_v4 TChar)
  [(str "0.0.0.0");
   (str "127.0.0.1");
   (str "255.0.42.42")] = [].
Proof. vm_compute. reflexivity. Qed.

(* ipv4-address-tests.cpp:508-514 *)
Example v_ToWStringIpv4Params : failing (chk_text_v4 TWchar)
  [(str "0.0.0.0");
   (str "127.0.0.1");
   (str "255.0.42.42")] = [].
Proof. vm_compute. reflexivity. Qed.

(* ipv4-address-tests.cpp:525-531 *)
Example v_ToUtf16StringIpv4Params : failing (chk_text_v4 TChar16)
  [(str "0.0.0.0");
   (str "127.0.0.1");
   (str "255.0.42.42")] = [].
Proof. vm_compute. reflexivity. Qed.

(* ipv4-address-tests.cpp:542-548 *)
Example v_ToUtf32StringIpv4Params : failing (chk_text_v4 TChar32)
  [(str "0.0.0.0");
   (str "127.0.0.1");
   (str "255.0.42.42")] = [].
Proof. vm_compute. reflexivity. Qed.

(* ipv4-address-tests.cpp:560-566 *)
Example v_ToUtf8StringIpv4Params : failing (chk_text_v4 TChar8)
  [(str "0.0.0.0");
   (str "127.0.0.1");
   (str "255.0.42.42")] = [].
Proof. vm_compute. reflexivity. Qed.

(* ipv4-address-tests.cpp:656-661 *)
Example v_IsMulticastIpv4Params : failing (chk_addr_bool V4 (fun a => Ret (is_multicast V4 a)))
  [(str "224.1.1.1", true);
   (str "240.0.0.0", false)] = [].
Proof. vm_compute. reflexivity. Qed.

(* ipv4-address-tests.cpp:671-680 *)
Example v_IsPrivateIpv4Params : failing (chk_addr_bool V4 (is_private V4))
  [(str "192.168.1.1", true);
   (str "192.169.0.0", false);
   (str "10.255.255.255", true);
   (str "11.0.0.0", false);
   (str "172.31.255.255", true);
   (str "172.32.0.0", false)] = [].
Proof. vm_compute. reflexivity. Qed.

(* ipv4-address-tests.cpp:690-695 *)
Example v_IsGlobalIpv4Params : failing (chk_addr_bool V4 (is_global V4))
  [(str "192.0.7.1", true);
   (str "203.0.113.1", false)] = [].
Proof. vm_compute. reflexivity. Qed.

(* ipv4-address-tests.cpp:705-710 *)
Example v_IsReservedIpv4Params : failing (chk_addr_bool V4 (fun a => Ret (is_reserved V4 a)))
  [(str "240.0.0.1", true);
   (str "239.255.255.255", false)] = [].
Proof. vm_compute. reflexivity. Qed.

(* ipv4-address-tests.cpp:720-726 *)
Example v_IsLoopbackIpv4Params : failing (chk_addr_bool V4 (fun a => Ret (is_loopback V4 a)))
  [(str "127.100.200.254", true);
   (str "127.42.0.0", true);
   (str "128.0.0.0", false)] = [].
Proof. vm_compute. reflexivity. Qed.

(* ipv4-address-tests.cpp:736-741 *)
Example v_IsLinkLocalIpv4Params : failing (chk_addr_bool V4 (fun a => Ret (is_link_local V4 a)))
  [(str "169.254.100.200", true);
   (str "169.255.100.200", false)] = [].
Proof. vm_compute. reflexivity. Qed.

(* ipv4-address-tests.cpp:751-755 *)
Example v_IsUnspecifiedIpv4Params : failing (chk_addr_bool V4 (fun a => Ret (is_unspecified a)))
  [(str "0.0.0.0", true)] = [].
Proof. vm_compute. reflexivity. Qed.

