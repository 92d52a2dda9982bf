(* Expectations of the project's own test suite, evaluated on the model: /repo/tests/ipv4-network-tests.cpp.
   They are tests of the model's fidelity, not proofs of any property. *)
From Coq Require Import ZArith List Bool String.
From Verif Require Import Base UnicodeModel FixedStringModel Uint128Model AddressModel NetworkModel IterModel ClassifyModel AnyModel CodeModel StreamModel ErrorModel ScopeModel V6Model LiteralModel RelModel Uint128OpsModel NetWitness VectorBase.
Import ListNotations.
Local Open Scope Z_scope.
Local Open Scope string_scope.

(* ipv4-network-tests.cpp:471-482 *)
Example v_NetworkParserIpv4Params : failing (chk_net_parse V4 true)
  [(str "1.2.3.4", str "1.2.3.4", str "1.2.3.4", str "255.255.255.255", str "0.0.0.0", 32);
   (str "1.2.3.4/32", str "1.2.3.4", str "1.2.3.4", str "255.255.255.255", str "0.0.0.0", 32);
   (str "1.2.3.4/255.255.255.255", str "1.2.3.4", str "1.2.3.4", str "255.255.255.255", str "0.0.0.0", 32);
   (str "192.0.2.0/24", str "192.0.2.0", str "192.0.2.255", str "255.255.255.0", str "0.0.0.255", 24);
   (str "192.0.2.0/255.255.255.0", str "192.0.2.0", str "192.0.2.255", str "255.255.255.0", str "0.0.0.255", 24);
   (str "192.0.2.0/0.0.0.255", str "192.0.2.0", str "192.0.2.255", str "255.255.255.0", str "0.0.0.255", 24);
   (str "192.0.2.0/27", str "192.0.2.0", str "192.0.2.31", str "255.255.255.224", str "0.0.0.31", 27);
   (str "192.0.2.0/255.255.255.224", str "192.0.2.0", str "192.0.2.31", str "255.255.255.224", str "0.0.0.31", 27)] = [].
Proof. vm_compute. reflexivity. Qed.

(* ipv4-network-tests.cpp:514-519 *)
Example v_NetworkParserIpv4NotStrictParams : failing (chk_net_parse V4 false)
  [(str "1.2.3.4/24", str "1.2.3.0", str "1.2.3.255", str "255.255.255.0", str "0.0.0.255", 24);
   (str "192.0.2.0/255.255.0.0", str "192.0.0.0", str "192.0.255.255", str "255.255.0.0", str "0.0.255.255", 16)] = [].
Proof. vm_compute. reflexivity. Qed.

(* ipv4-network-tests.cpp:546-551 *)
Example v_NetworkFromAddressIpv4Params : failing (chk_from_address V4)
  [(str "1.2.3.4/24", str "1.2.3.4", 24, false);
   (str "192.0.2.0/255.255.255.0", str "192.0.2.0", 24, true)] = [].
Proof. vm_compute. reflexivity. Qed.

(* ipv4-network-tests.cpp:605-639 *)
Example v_InvalidNetworkIpv4Params : failing (chk_net_err V4)
  [(str "1.2.3.4/", empty_netmask, str "empty mask in address 1.2.3.4/");
   (str "1.2.3.4/33", invalid_netmask, str "is not a valid netmask in address 1.2.3.4/33");
   (str "1.2.3.4/255.0.0.256", invalid_netmask, str "is not a valid netmask in address 1.2.3.4/255.0.0.256");
   (str "1.2.3.4/-1", invalid_netmask, str "is not a valid netmask in address 1.2.3.4/-1");
   (str "1.2.3.4/+1", invalid_netmask, str "is not a valid netmask in address 1.2.3.4/+1");
   (str "1.2.3.4/ 1 ", invalid_netmask, str "is not a valid netmask in address 1.2.3.4/ 1 ");
   (str "1.2.3.4/0x1", invalid_netmask, str "is not a valid netmask in address 1.2.3.4/0x1");
   (str "1.2.3.4/254.254.255.256", invalid_netmask, str "is not a valid netmask in address 1.2.3.4/254.254.255.256");
   (str "1.2.3.4/1.a.2.3", invalid_netmask, str "is not a valid netmask in address 1.2.3.4/1.a.2.3");
   (str "1.1.1.1/254.xyz.2.3", invalid_netmask, str "is not a valid netmask in address 1.1.1.1/254.xyz.2.3");
   (str "1.1.1.1/pudding", invalid_netmask, str "is not a valid netmask in address 1.1.1.1/pudding");
   (str "1.1.1.1/::", invalid_netmask, str "is not a valid netmask in address 1.1.1.1/::");
   (str "1.2.3.4/255.255.255.127", netmask_pattern_mixes_zeroes_and_ones, str "netmask pattern mixes zeroes & ones in address 1.2.3.4/255.255.255.127");
   (str "1.2.3.4/255.255.255.251", netmask_pattern_mixes_zeroes_and_ones, str "netmask pattern mixes zeroes & ones in address 1.2.3.4/255.255.255.251");
   (str "1.1.1.1/240.255.0.0", netmask_pattern_mixes_zeroes_and_ones, str "netmask pattern mixes zeroes & ones in address 1.1.1.1/240.255.0.0");
   (str "1.1.1.1/255.254.128.0", netmask_pattern_mixes_zeroes_and_ones, str "netmask pattern mixes zeroes & ones in address 1.1.1.1/255.254.128.0");
   (str "1.1.1.1/0.1.127.255", netmask_pattern_mixes_zeroes_and_ones, str "netmask pattern mixes zeroes & ones in address 1.1.1.1/0.1.127.255");
   (str "1.2.3.4/24", has_host_bits_set, str "has host bits set in address 1.2.3.4/24");
   (str "1.2.3.4//", only_one_slash_permitted, str "only one '/' permitted in address 1.2.3.4//");
   (str "1.2.3.4//32", only_one_slash_permitted, str "only one '/' permitted in address 1.2.3.4//32");
   (str "1.2.3.4/32/24", only_one_slash_permitted, str "only one '/' permitted in address 1.2.3.4/32/24");
   (str "/", empty_netmask, str "empty mask in address /");
   (str "/8", empty_address, str "address cannot be empty");
   (str "bogus", octet_has_invalid_symbol, str "in octet 0 of address bogus has invalid symbol");
   (str "example.com", octet_has_invalid_symbol, str "in octet 0 of address example.com has invalid symbol");
   (str "10/8", expected_4_octets, str "expected 4 octets in 10/8");
   (str "::1.2.3.4", octet_has_invalid_symbol, str "in octet 0 of address ::1.2.3.4 has invalid symbol");
   (str "1.2.3.256", octet_exceeded_255, str "octet 0 of address 1.2.3.256 exceeded 255")] = [].
Proof. vm_compute. reflexivity. Qed.

(* ipv4-network-tests.cpp:741-747 *)
Example v_ToStringNetworkIpv4Params : failing (chk_net_text4 TChar)
  [(str "1.2.3.4", str "1.2.3.4/32");
   (str "1.2.3.4/32", str "1.2.3.4/32");
   (str "1.2.3.4/255.255.255.255", str "1.2.3.4/32")] = [].
Proof. vm_compute. reflexivity. Qed.

(* ipv4-network-tests.cpp:763-769 *)
Example v_ToWStringNetworkIpv4Params : failing (chk_net_text4 TWchar)
  [(str "1.2.3.4", str "1.2.3.4/32");
   (str "1.2.3.4/32", str "1.2.3.4/32");
   (str "1.2.3.4/255.255.255.255", str "1.2.3.4/32")] = [].
Proof. vm_compute. reflexivity. Qed.

(* ipv4-network-tests.cpp:780-786 *)
Example v_ToUtf16StringNetworkIpv4Params : failing (chk_net_text4 TChar16)
  [(str "1.2.3.4", str "1.2.3.4/32");
   (str "1.2.3.4/32", str "1.2.3.4/32");
   (str "1.2.3.4/255.255.255.255", str "1.2.3.4/32")] = [].
Proof. vm_compute. reflexivity. Qed.

(* ipv4-network-tests.cpp:797-803 *)
Example v_ToUtf32StringNetworkIpv4Params : failing (chk_net_text4 TChar32)
  [(str "1.2.3.4", str "1.2.3.4/32");
   (str "1.2.3.4/32", str "1.2.3.4/32");
   (str "1.2.3.4/255.255.255.255", str "1.2.3.4/32")] = [].
Proof. vm_compute. reflexivity. Qed.

(* ipv4-network-tests.cpp:815-821 *)
Example v_ToUtf8StringNetworkIpv4Params : failing (chk_net_text4 TChar8)
  [(str "1.2.3.4", str "1.2.3.4/32");
   (str "1.2.3.4/32", str "1.2.3.4/32");
   (str "1.2.3.4/255.255.255.255", str "1.2.3.4/32")] = [].
Proof. vm_compute. reflexivity. Qed.

(* ipv4-network-tests.cpp:902-907 *)
Example v_IsMulticastIpv4NetworkParams : failing (chk_net_bool V4 (fun n => Ret (net_is_multicast V4 n)))
  [(str "224.1.1.0/31", true);
   (str "240.0.0.0", false)] = [].
Proof. vm_compute. reflexivity. Qed.

(* ipv4-network-tests.cpp:917-937 *)
Example v_IsPrivateIpv4NetworkParams : failing (chk_net_bool V4 (fun n => Ret (net_is_private V4 n)))
  [(str "1.0.0.0/8", false);
   (str "100.64.0.0/10", false);
   (str "0.0.0.0/0", false);
   (str "0.0.0.0/8", true);
   (str "10.0.0.0/8", true);
   (str "127.0.0.0/8", true);
   (str "169.254.0.0/16", true);
   (str "172.16.0.0/12", true);
   (str "192.0.0.0/29", true);
   (str "192.0.0.170/31", true);
   (str "192.0.2.0/24", true);
   (str "192.168.0.0/16", true);
   (str "198.18.0.0/15", true);
   (str "198.51.100.0/24", true);
   (str "203.0.113.0/24", true);
   (str "240.0.0.0/4", true);
   (str "255.255.255.255/32", true)] = [].
Proof. vm_compute. reflexivity. Qed.

(* ipv4-network-tests.cpp:947-952 *)
Example v_IsGlobalIpv4NetworkParams : failing (chk_net_bool V4 (fun n => Ret (net_is_global V4 n)))
  [(str "100.64.0.0/10", false);
   (str "192.0.3.0/24", true)] = [].
Proof. vm_compute. reflexivity. Qed.

(* ipv4-network-tests.cpp:962-967 *)
Example v_IsReservedIpv4NetworkParams : failing (chk_net_bool V4 (fun n => Ret (net_is_reserved V4 n)))
  [(str "240.0.0.1", true);
   (str "239.255.255.255", false)] = [].
Proof. vm_compute. reflexivity. Qed.

(* ipv4-network-tests.cpp:977-983 *)
Example v_IsLoopbackIpv4NetworkParams : failing (chk_net_bool V4 (fun n => Ret (net_is_loopback V4 n)))
  [(str "127.100.200.254", true);
   (str "127.42.0.0/24", true);
   (str "128.0.0.0/8", false)] = [].
Proof. vm_compute. reflexivity. Qed.

(* ipv4-network-tests.cpp:993-998 *)
Example v_IsLinkLocalIpv4NetworkParams : failing (chk_net_bool V4 (fun n => Ret (net_is_link_local V4 n)))
  [(str "169.254.1.0/24", true);
   (str "169.255.100.200", false)] = [].
Proof. vm_compute. reflexivity. Qed.

(* ipv4-network-tests.cpp:1008-1013 *)
Example v_IsUnspecifiedIpv4NetworkParams : failing (chk_net_bool V4 (fun n => Ret (net_is_unspecified n)))
  [(str "0.0.0.0/32", true);
   (str "0.0.0.0/8", false)] = [].
Proof. vm_compute. reflexivity. Qed.

(* ipv4-network-tests.cpp:1026-1031 *)
Example v_ContainsIpv4NetworkParams : failing (chk_contains V4)
  [(str "192.0.2.0/28", str "192.0.2.6", true);
   (str "192.0.2.0/28", str "192.0.3.6", false)] = [].
Proof. vm_compute. reflexivity. Qed.

(* ipv4-network-tests.cpp:1044-1050 *)
Example v_OverlapsIpv4NetworkParams : failing (chk_net_rel V4 (fun a b => Ret (overlaps a b)))
  [(str "1.2.3.0/24", str "1.2.3.0/30", true);
   (str "1.2.3.0/24", str "1.2.2.0/24", false);
   (str "1.2.2.0/24", str "1.2.2.64/26", true)] = [].
Proof. vm_compute. reflexivity. Qed.

(* ipv4-network-tests.cpp:1063-1071 *)
Example v_SubnetOfIpv4NetworkParams : failing (chk_net_rel V4 (fun a b => both (subnet_of true V4 a b) (subnet_of false V4 a b)))
  [(str "192.168.1.0/24", str "192.168.1.128/30", false);
   (str "10.0.0.0/30", str "10.0.1.0/24", false);
   (str "10.0.0.0/30", str "10.0.0.0/24", true);
   (str "10.0.0.0/30", str "10.0.1.0/24", false);
   (str "10.0.1.0/24", str "10.0.0.0/30", false)] = [].
Proof. vm_compute. reflexivity. Qed.

(* ipv4-network-tests.cpp:1084-1091 *)
Example v_SupernetOfIpv4NetworkParams : failing (chk_net_rel V4 (fun a b => both (supernet_of true V4 a b) (supernet_of false V4 a b)))
  [(str "192.168.1.0/24", str "192.168.1.128/30", true);
   (str "10.0.0.0/30", str "10.0.1.0/24", false);
   (str "10.0.0.0/30", str "10.0.0.0/24", false);
   (str "10.0.0.0/24", str "10.0.0.0/30", true)] = [].
Proof. vm_compute. reflexivity. Qed.

(* ipv4-network-tests.cpp:1101-1112 *)
Example v_AddressesCountIpv4NetworkParams : failing (chk_count V4)
  [(str "192.168.1.0/24", 256);
   (str "192.168.1.0/32", 1);
   (str "1.2.3.0/24", 256);
   (str "10.0.0.0/30", 4);
   (str "0.0.0.0/0", 0);
   (str "0.0.0.0/1", 2147483648);
   (str "0.0.0.0/32", 1);
   (str "0.0.0.0/31", 2)] = [].
Proof. vm_compute. reflexivity. Qed.

(* ipv4-network-tests.cpp:1158-1164 *)
Example v_HostsIpv4NetworkParams : failing (chk_hosts V4)
  [(str "192.0.2.0/29", [str "192.0.2.1"; str "192.0.2.2"; str "192.0.2.3"; str "192.0.2.4"; str "192.0.2.5"; str "192.0.2.6"]);
   (str "192.0.2.0/31", [str "192.0.2.0"; str "192.0.2.1"]);
   (str "192.0.2.1/32", [str "192.0.2.1"])] = [].
Proof. vm_compute. reflexivity. Qed.

(* ipv4-network-tests.cpp:1178-1187 *)
Example v_SupernetIpv4NetworkParams : failing (chk_supernet V4)
  [(str "192.0.2.0/24", 1, None, str "192.0.2.0/23");
   (str "192.0.2.0/24", 2, None, str "192.0.0.0/22");
   (str "192.0.2.0/24", 1, Some 20, str "192.0.0.0/20");
   (str "192.0.0.0/2", 1, None, str "128.0.0.0/1");
   (str "128.0.0.0/1", 1, None, str "0.0.0.0/0");
   (str "0.0.0.0/0", 1, None, str "0.0.0.0/0")] = [].
Proof. vm_compute. reflexivity. Qed.

(* ipv4-network-tests.cpp:1220-1226 *)
Example v_SupernetErrorIpv4NetworkParams : failing (chk_supernet_err V4)
  [(str "192.0.2.0/24", 1, Some 25, new_prefix_must_be_shorter, str "new prefix must be shorter");
   (str "192.0.2.0/24", 2, Some 23, cannot_set_prefixlen_diff_and_new_prefix, str "cannot set prefixlen_diff and new_prefix");
   (str "192.0.2.0/24", 25, None, invalid_prefixlen_diff, str "invalid prefixlen_diff")] = [].
Proof. vm_compute. reflexivity. Qed.

(* ipv4-network-tests.cpp:1277-1287 *)
Example v_SubnetsIpv4NetworkParams : failing (chk_subnets V4)
  [(str "0.0.0.0/0", 1, None, [str "0.0.0.0/1"; str "128.0.0.0/1"]);
   (str "192.0.2.0/24", 1, None, [str "192.0.2.0/25"; str "192.0.2.128/25"]);
   (str "192.0.2.0/24", 2, None, [str "192.0.2.0/26"; str "192.0.2.64/26"; str "192.0.2.128/26"; str "192.0.2.192/26"]);
   (str "192.0.2.0/24", 1, Some 26, [str "192.0.2.0/26"; str "192.0.2.64/26"; str "192.0.2.128/26"; str "192.0.2.192/26"]);
   (str "192.0.2.0/24", 1, Some 25, [str "192.0.2.0/25"; str "192.0.2.128/25"]);
   (str "192.0.2.0/32", 1, None, [str "192.0.2.0/32"]);
   (str "255.255.255.255/32", 1, None, [str "255.255.255.255/32"])] = [].
Proof. vm_compute. reflexivity. Qed.

(* ipv4-network-tests.cpp:1314-1320 *)
Example v_SubnetsErrorIpv4NetworkParams : failing (chk_subnets_err V4)
  [(str "192.0.2.0/24", 1, Some 23, new_prefix_must_be_longer, str "new prefix must be longer");
   (str "192.0.2.0/24", 2, Some 25, cannot_set_prefixlen_diff_and_new_prefix, str "cannot set prefixlen_diff and new_prefix");
   (str "192.0.2.0/24", 1, Some 33, invalid_prefixlen_diff, str "invalid prefixlen_diff")] = [].
Proof. vm_compute. reflexivity. Qed.

(* ipv4-network-tests.cpp:1344-1348 *)
Example v_AddressExcludeIpv4NetworkParams : failing (chk_exclude V4)
  [(str "192.0.2.0/28", str "192.0.2.1/32", [str "192.0.2.8/29"; str "192.0.2.4/30"; str "192.0.2.2/31"; str "192.0.2.0/32"])] = [].
Proof. vm_compute. reflexivity. Qed.

(* ipv4-network-tests.cpp:1374-1378 *)
Example v_AddressExcludeErrorIpv4NetworkParams : failing (chk_exclude_err V4)
  [(str "192.168.1.128/30", str "192.168.1.0/24", not_contained_network, str "network is not a subnet of other")] = [].
Proof. vm_compute. reflexivity. Qed.

