(* Expectations of the project's own test suite, evaluated on the model: /repo/tests/ipv6-network-tests.cpp.
   They are tests of the model's fidelity, not proofs of any property. *)
From Coq Require Import ZArith List Bool String.
From Verif Require Import Base UnicodeModel FixedStringModel Uint128Model AddressModel NetworkModel IterModel ClassifyModel AnyModel CodeModel StreamModel ErrorModel ScopeModel V6Model LiteralModel RelModel Uint128OpsModel NetWitness VectorBase.
Import ListNotations.
Local Open Scope Z_scope.
Local Open Scope string_scope.

(* ipv6-network-tests.cpp:474-483 *)
Example v_NetworkParserIpv6Params : failing (chk_net_parse V6 true)
  [(str "::1", str "::1", str "::1", str "ffff:ffff:ffff:ffff:ffff:ffff:ffff:ffff", str "::", 128);
   (str "::1%scope", str "::1%scope", str "::1", str "ffff:ffff:ffff:ffff:ffff:ffff:ffff:ffff", str "::", 128);
   (str "2001:db8::/32", str "2001:db8::", str "2001:db8:ffff:ffff:ffff:ffff:ffff:ffff", str "ffff:ffff::", str "::ffff:ffff:ffff:ffff:ffff:ffff", 32);
   (str "2001:db8::%scope/32", str "2001:db8::%scope", str "2001:db8:ffff:ffff:ffff:ffff:ffff:ffff", str "ffff:ffff::", str "::ffff:ffff:ffff:ffff:ffff:ffff", 32);
   (str "::/0", str "::", str "ffff:ffff:ffff:ffff:ffff:ffff:ffff:ffff", str "::", str "ffff:ffff:ffff:ffff:ffff:ffff:ffff:ffff", 0);
   (str "::/128", str "::", str "::", str "ffff:ffff:ffff:ffff:ffff:ffff:ffff:ffff", str "::", 128)] = [].
Proof. vm_compute. reflexivity. Qed.

(* ipv6-network-tests.cpp:515-520 *)
Example v_NetworkParserIpv6NotStrictParams : failing (chk_net_parse V6 false)
  [(str "2001:db8::/16", str "2001::", str "2001:ffff:ffff:ffff:ffff:ffff:ffff:ffff", str "ffff::", str "::ffff:ffff:ffff:ffff:ffff:ffff:ffff", 16);
   (str "2001:db8::/24", str "2001:d00::", str "2001:dff:ffff:ffff:ffff:ffff:ffff:ffff", str "ffff:ff00::", str "0:ff:ffff:ffff:ffff:ffff:ffff:ffff", 24)] = [].
Proof. vm_compute. reflexivity. Qed.

(* ipv6-network-tests.cpp:547-552 *)
Example v_NetworkFromAddressIpv6Params : failing (chk_from_address V6)
  [(str "2001:db8::/16", str "2001:db8::", 16, false);
   (str "2001:db8::/32", str "2001:db8::", 32, true)] = [].
Proof. vm_compute. reflexivity. Qed.

(* ipv6-network-tests.cpp:606-638 *)
Example v_InvalidNetworkIpv6Params : failing (chk_net_err V6)
  [(str "/", empty_netmask, str "empty mask in address /");
   (str "2001:db8::/", empty_netmask, str "empty mask in address 2001:db8::/");
   (str "2001:db8::/129", invalid_netmask, str "is not a valid netmask in address 2001:db8::/129");
   (str "2001:db8::/255.255.255.255", invalid_netmask, str "is not a valid netmask in address 2001:db8::/255.255.255.255");
   (str "/%scope", invalid_netmask, str "is not a valid netmask in address /%scope");
   (str "/%scope8", invalid_netmask, str "is not a valid netmask in address /%scope8");
   (str "::1/::1", invalid_netmask, str "is not a valid netmask in address ::1/::1");
   (str "::1/1::", invalid_netmask, str "is not a valid netmask in address ::1/1::");
   (str "::1/-1", invalid_netmask, str "is not a valid netmask in address ::1/-1");
   (str "::1/+1", invalid_netmask, str "is not a valid netmask in address ::1/+1");
   (str "::1/ 1 ", invalid_netmask, str "is not a valid netmask in address ::1/ 1 ");
   (str "::1/word", invalid_netmask, str "is not a valid netmask in address ::1/word");
   (str "::1/::", invalid_netmask, str "is not a valid netmask in address ::1/::");
   (str "::1%scope/word", invalid_netmask, str "is not a valid netmask in address ::1%scope/word");
   (str "2001:db8::/24", has_host_bits_set, str "has host bits set in address 2001:db8::/24");
   (str "2001:db8:://", only_one_slash_permitted, str "only one '/' permitted in address 2001:db8:://");
   (str "2001:db8:://128", only_one_slash_permitted, str "only one '/' permitted in address 2001:db8:://128");
   (str "2001:db8::/128/128", only_one_slash_permitted, str "only one '/' permitted in address 2001:db8::/128/128");
   (str "/8", empty_address, str "address cannot be empty");
   (str "google.com", octet_has_invalid_symbol, str "in octet 0 of address google.com has invalid symbol");
   (str "1.2.3.4", least_3_parts, str "least 3 parts in address 1.2.3.4");
   (str "10/8", least_3_parts, str "least 3 parts in address 10/8");
   (str "1234:axy::b", part_has_invalid_symbol, str "in part 0 of address 1234:axy::b has invalid symbols");
   (str "google.com%scope", octet_has_invalid_symbol, str "in octet 0 of address google.com%scope has invalid symbol");
   (str "1.2.3.4%scope", least_3_parts, str "least 3 parts in address 1.2.3.4%scope");
   (str "10%scope/8", least_3_parts, str "least 3 parts in address 10%scope/8");
   (str "1234:axy::b%scope", part_has_invalid_symbol, str "in part 0 of address 1234:axy::b%scope has invalid symbols")] = [].
Proof. vm_compute. reflexivity. Qed.

(* ipv6-network-tests.cpp:750-756 *)
Example v_ToStringNetworkIpv6Params : failing (chk_net_text6 TChar)
  [(str "2001:db8::", str "2001:0db8:0000:0000:0000:0000:0000:0000/128", str "2001:db8:0:0:0:0:0:0/128", str "2001:db8::/128");
   (str "2001:db8::/32", str "2001:0db8:0000:0000:0000:0000:0000:0000/32", str "2001:db8:0:0:0:0:0:0/32", str "2001:db8::/32");
   (str "2001:db8::%scope/32", str "2001:0db8:0000:0000:0000:0000:0000:0000%scope/32", str "2001:db8:0:0:0:0:0:0%scope/32", str "2001:db8::%scope/32")] = [].
Proof. vm_compute. reflexivity. Qed.

(* ipv6-network-tests.cpp:782-788 *)
Example v_ToWStringNetworkIpv6Params : failing (chk_net_text6 TWchar)
  [(str "2001:db8::", str "2001:0db8:0000:0000:0000:0000:0000:0000/128", str "2001:db8:0:0:0:0:0:0/128", str "2001:db8::/128");
   (str "2001:db8::/32", str "2001:0db8:0000:0000:0000:0000:0000:0000/32", str "2001:db8:0:0:0:0:0:0/32", str "2001:db8::/32");
   (str "2001:db8::%scope/32", str "2001:0db8:0000:0000:0000:0000:0000:0000%scope/32", str "2001:db8:0:0:0:0:0:0%scope/32", str "2001:db8::%scope/32")] = [].
Proof. vm_compute. reflexivity. Qed.

(* ipv6-network-tests.cpp:804-810 *)
Example v_ToUtf16StringNetworkIpv6Params : failing (chk_net_text6 TChar16)
  [(str "2001:db8::", str "2001:0db8:0000:0000:0000:0000:0000:0000/128", str "2001:db8:0:0:0:0:0:0/128", str "2001:db8::/128");
   (str "2001:db8::/32", str "2001:0db8:0000:0000:0000:0000:0000:0000/32", str "2001:db8:0:0:0:0:0:0/32", str "2001:db8::/32");
   (str "2001:db8::%scope/32", str "2001:0db8:0000:0000:0000:0000:0000:0000%scope/32", str "2001:db8:0:0:0:0:0:0%scope/32", str "2001:db8::%scope/32")] = [].
Proof. vm_compute. reflexivity. Qed.

(* ipv6-network-tests.cpp:826-832 *)
Example v_ToUtf32StringNetworkIpv6Params : failing (chk_net_text6 TChar32)
  [(str "2001:db8::", str "2001:0db8:0000:0000:0000:0000:0000:0000/128", str "2001:db8:0:0:0:0:0:0/128", str "2001:db8::/128");
   (str "2001:db8::/32", str "2001:0db8:0000:0000:0000:0000:0000:0000/32", str "2001:db8:0:0:0:0:0:0/32", str "2001:db8::/32");
   (str "2001:db8::%scope/32", str "2001:0db8:0000:0000:0000:0000:0000:0000%scope/32", str "2001:db8:0:0:0:0:0:0%scope/32", str "2001:db8::%scope/32")] = [].
Proof. vm_compute. reflexivity. Qed.

(* ipv6-network-tests.cpp:849-855 *)
Example v_ToUtf8StringNetworkIpv6Params : failing (chk_net_text6 TChar8)
  [(str "2001:db8::", str "2001:0db8:0000:0000:0000:0000:0000:0000/128", str "2001:db8:0:0:0:0:0:0/128", str "2001:db8::/128");
   (str "2001:db8::/32", str "2001:0db8:0000:0000:0000:0000:0000:0000/32", str "2001:db8:0:0:0:0:0:0/32", str "2001:db8::/32");
   (str "2001:db8::%scope/32", str "2001:0db8:0000:0000:0000:0000:0000:0000%scope/32", str "2001:db8:0:0:0:0:0:0%scope/32", str "2001:db8::%scope/32")] = [].
Proof. vm_compute. reflexivity. Qed.

(* ipv6-network-tests.cpp:939-946 *)
Example v_IsMulticastIpv6NetworkParams : failing (chk_net_bool V6 (fun n => Ret (net_is_multicast V6 n)))
  [(str "ffff::", true);
   (str "ffff:ffff:ffff:ffff:ffff:ffff:ffff:ffff", true);
   (str "ff00::", true);
   (str "fdff::", false)] = [].
Proof. vm_compute. reflexivity. Qed.

(* ipv6-network-tests.cpp:956-976 *)
Example v_IsPrivateIpv6NetworkParams : failing (chk_net_bool V6 (fun n => Ret (net_is_private V6 n)))
  [(str "fbff:ffff::", false);
   (str "fe00::%123", false);
   (str "::/0", false);
   (str "::ff/128", false);
   (str "2001::1/128", true);
   (str "fc00::", true);
   (str "fc00:ffff:ffff:ffff::", true);
   (str "::/128", true);
   (str "::1/128", true);
   (str "::ffff:0:0/96", true);
   (str "100::/64", true);
   (str "2001::/23", true);
   (str "2001:10::/28", true);
   (str "2001:2::/48", true);
   (str "2001:db8::/32", true);
   (str "fc00::%test/7", true);
   (str "fe80::/10", true)] = [].
Proof. vm_compute. reflexivity. Qed.

(* ipv6-network-tests.cpp:986-990 *)
Example v_IsGlobalIpv6NetworkParams : failing (chk_net_bool V6 (fun n => Ret (net_is_global V6 n)))
  [(str "200::1/128", true)] = [].
Proof. vm_compute. reflexivity. Qed.

(* ipv6-network-tests.cpp:1000-1004 *)
Example v_IsReservedIpv6NetworkParams : failing (chk_net_bool V6 (fun n => Ret (net_is_reserved V6 n)))
  [(str "4000::1/128", true)] = [].
Proof. vm_compute. reflexivity. Qed.

(* ipv6-network-tests.cpp:1014-1020 *)
Example v_IsLoopbackIpv6NetworkParams : failing (chk_net_bool V6 (fun n => Ret (net_is_loopback V6 n)))
  [(str "0:0::0:01", true);
   (str "::1", true);
   (str "::2", false)] = [].
Proof. vm_compute. reflexivity. Qed.

(* ipv6-network-tests.cpp:1030-1037 *)
Example v_IsLinkLocalIpv6NetworkParams : failing (chk_net_bool V6 (fun n => Ret (net_is_link_local V6 n)))
  [(str "fea0::", true);
   (str "febf:ffff::", true);
   (str "fe7f:ffff::", false);
   (str "fec0::", false)] = [].
Proof. vm_compute. reflexivity. Qed.

(* ipv6-network-tests.cpp:1064-1070 *)
Example v_IsUnspecifiedIpv6NetworkParams : failing (chk_net_bool V6 (fun n => Ret (net_is_unspecified n)))
  [(str "0::0", true);
   (str "::1", false);
   (str "::/127", false)] = [].
Proof. vm_compute. reflexivity. Qed.

(* ipv6-network-tests.cpp:1047-1054 *)
Example v_IsSiteLocalIpv6NetworkParams : failing (chk_net_bool V6 (fun n => Ret (v6_net_is_site_local n)))
  [(str "fecf::", true);
   (str "feff:ffff:ffff:ffff::", true);
   (str "fbf:ffff::", false);
   (str "ff00::", false)] = [].
Proof. vm_compute. reflexivity. Qed.

(* ipv6-network-tests.cpp:1083-1088 *)
Example v_ContainsIpv6NetworkParams : failing (chk_contains V6)
  [(str "2001:db8::/32", str "2001:db8::1", true);
   (str "2001:db8::/32", str "2001:dbc::", false)] = [].
Proof. vm_compute. reflexivity. Qed.

(* ipv6-network-tests.cpp:1101-1107 *)
Example v_OverlapsIpv6NetworkParams : failing (chk_net_rel V6 (fun a b => Ret (overlaps a b)))
  [(str "2001:db8::/32", str "2001:db8::/128", true);
   (str "2001:dbc::/32", str "2001:db8::/32", false);
   (str "2001:db8::/32", str "2001:db8::/32", true)] = [].
Proof. vm_compute. reflexivity. Qed.

(* ipv6-network-tests.cpp:1120-1129 *)
Example v_SubnetOfIpv6NetworkParams : failing (chk_net_rel V6 (fun a b => both (subnet_of true V6 a b) (subnet_of false V6 a b)))
  [(str "2000:999::/56", str "2000:aaa::/48", false);
   (str "2000:aaa::/56", str "2000:aaa::/48", true);
   (str "2000:bbb::/56", str "2000:aaa::/48", false);
   (str "2000:aaa::/48", str "2000:aaa::/56", false);
   (str "2000:999::%scope/56", str "2000:aaa::%scope/48", false);
   (str "2000:aaa::%scope/56", str "2000:aaa::%scope/48", true)] = [].
Proof. vm_compute. reflexivity. Qed.

(* ipv6-network-tests.cpp:1142-1149 *)
Example v_SupernetOfIpv6NetworkParams : failing (chk_net_rel V6 (fun a b => both (supernet_of true V6 a b) (supernet_of false V6 a b)))
  [(str "2000:999::/56", str "2000:aaa::/48", false);
   (str "2000:aaa::/56", str "2000:aaa::/48", false);
   (str "2000:bbb::/56", str "2000:aaa::/48", false);
   (str "2000:aaa::/48", str "2000:aaa::/56", true)] = [].
Proof. vm_compute. reflexivity. Qed.

(* ipv6-network-tests.cpp:1159-1164 *)
Example v_AddressesCountIpv6NetworkParams : failing (chk_count V6)
  [(str "2001:658:22a:cafe::/64", 18446744073709551616);
   (str "2001:658:22a:cafe::%scope/64", 18446744073709551616)] = [].
Proof. vm_compute. reflexivity. Qed.

(* ipv6-network-tests.cpp:1210-1234 *)
Example v_HostsIpv6NetworkParams : failing (chk_hosts V6)
  [(str "ffff:ffff:ffff:ffff:ffff:ffff:ffff:ffff/128", [str "ffff:ffff:ffff:ffff:ffff:ffff:ffff:ffff"]);
   (str "2001:658:22a:cafe::1/128", [str "2001:658:22a:cafe::1"]);
   (str "2001:658:22a:cafe::/127", [str "2001:658:22a:cafe::"; str "2001:658:22a:cafe::1"]);
   (str "2001:658:22a:cafe::/120", [str "2001:658:22a:cafe::1"; str "2001:658:22a:cafe::2"; str "2001:658:22a:cafe::3"; str "2001:658:22a:cafe::4"; str "2001:658:22a:cafe::5"; str "2001:658:22a:cafe::6"; str "2001:658:22a:cafe::7"; str "2001:658:22a:cafe::8"; str "2001:658:22a:cafe::9"; str "2001:658:22a:cafe::a"; str "2001:658:22a:cafe::b"; str "2001:658:22a:cafe::c"; str "2001:658:22a:cafe::d"; str "2001:658:22a:cafe::e"; str "2001:658:22a:cafe::f"; str "2001:658:22a:cafe::10"; str "2001:658:22a:cafe::11"; str "2001:658:22a:cafe::12"; str "2001:658:22a:cafe::13"; str "2001:658:22a:cafe::14"; str "2001:658:22a:cafe::15"; str "2001:658:22a:cafe::16"; str "2001:658:22a:cafe::17"; str "2001:658:22a:cafe::18"; str "2001:658:22a:cafe::19"; str "2001:658:22a:cafe::1a"; str "2001:658:22a:cafe::1b"; str "2001:658:22a:cafe::1c"; str "2001:658:22a:cafe::1d"; str "2001:658:22a:cafe::1e"; str "2001:658:22a:cafe::1f"; str "2001:658:22a:cafe::20"; str "2001:658:22a:cafe::21"; str "2001:658:22a:cafe::22"; str "2001:658:22a:cafe::23"; str "2001:658:22a:cafe::24"; str "2001:658:22a:cafe::25"; str "2001:658:22a:cafe::26"; str "2001:658:22a:cafe::27"; str "2001:658:22a:cafe::28"; str "2001:658:22a:cafe::29"; str "2001:658:22a:cafe::2a"; str "2001:658:22a:cafe::2b"; str "2001:658:22a:cafe::2c"; str "2001:658:22a:cafe::2d"; str "2001:658:22a:cafe::2e"; str "2001:658:22a:cafe::2f"; str "2001:658:22a:cafe::30"; str "2001:658:22a:cafe::31"; str "2001:658:22a:cafe::32"; str "2001:658:22a:cafe::33"; str "2001:658:22a:cafe::34"; str "2001:658:22a:cafe::35"; str "2001:658:22a:cafe::36"; str "2001:658:22a:cafe::37"; str "2001:658:22a:cafe::38"; str "2001:658:22a:cafe::39"; str "2001:658:22a:cafe::3a"; str "2001:658:22a:cafe::3b"; str "2001:658:22a:cafe::3c"; str "2001:658:22a:cafe::3d"; str "2001:658:22a:cafe::3e"; str "2001:658:22a:cafe::3f"; str "2001:658:22a:cafe::40"; str "2001:658:22a:cafe::41"; str "2001:658:22a:cafe::42"; str "2001:658:22a:cafe::43"; str "2001:658:22a:cafe::44"; str "2001:658:22a:cafe::45"; str "2001:658:22a:cafe::46"; str "2001:658:22a:cafe::47"; str "2001:658:22a:cafe::48"; str "2001:658:22a:cafe::49"; str "2001:658:22a:cafe::4a"; str "2001:658:22a:cafe::4b"; str "2001:658:22a:cafe::4c"; str "2001:658:22a:cafe::4d"; str "2001:658:22a:cafe::4e"; str "2001:658:22a:cafe::4f"; str "2001:658:22a:cafe::50"; str "2001:658:22a:cafe::51"; str "2001:658:22a:cafe::52"; str "2001:658:22a:cafe::53"; str "2001:658:22a:cafe::54"; str "2001:658:22a:cafe::55"; str "2001:658:22a:cafe::56"; str "2001:658:22a:cafe::57"; str "2001:658:22a:cafe::58"; str "2001:658:22a:cafe::59"; str "2001:658:22a:cafe::5a"; str "2001:658:22a:cafe::5b"; str "2001:658:22a:cafe::5c"; str "2001:658:22a:cafe::5d"; str "2001:658:22a:cafe::5e"; str "2001:658:22a:cafe::5f"; str "2001:658:22a:cafe::60"; str "2001:658:22a:cafe::61"; str "2001:658:22a:cafe::62"; str "2001:658:22a:cafe::63"; str "2001:658:22a:cafe::64"; str "2001:658:22a:cafe::65"; str "2001:658:22a:cafe::66"; str "2001:658:22a:cafe::67"; str "2001:658:22a:cafe::68"; str "2001:658:22a:cafe::69"; str "2001:658:22a:cafe::6a"; str "2001:658:22a:cafe::6b"; str "2001:658:22a:cafe::6c"; str "2001:658:22a:cafe::6d"; str "2001:658:22a:cafe::6e"; str "2001:658:22a:cafe::6f"; str "2001:658:22a:cafe::70"; str "2001:658:22a:cafe::71"; str "2001:658:22a:cafe::72"; str "2001:658:22a:cafe::73"; str "2001:658:22a:cafe::74"; str "2001:658:22a:cafe::75"; str "2001:658:22a:cafe::76"; str "2001:658:22a:cafe::77"; str "2001:658:22a:cafe::78"; str "2001:658:22a:cafe::79"; str "2001:658:22a:cafe::7a"; str "2001:658:22a:cafe::7b"; str "2001:658:22a:cafe::7c"; str "2001:658:22a:cafe::7d"; str "2001:658:22a:cafe::7e"; str "2001:658:22a:cafe::7f"; str "2001:658:22a:cafe::80"; str "2001:658:22a:cafe::81"; str "2001:658:22a:cafe::82"; str "2001:658:22a:cafe::83"; str "2001:658:22a:cafe::84"; str "2001:658:22a:cafe::85"; str "2001:658:22a:cafe::86"; str "2001:658:22a:cafe::87"; str "2001:658:22a:cafe::88"; str "2001:658:22a:cafe::89"; str "2001:658:22a:cafe::8a"; str "2001:658:22a:cafe::8b"; str "2001:658:22a:cafe::8c"; str "2001:658:22a:cafe::8d"; str "2001:658:22a:cafe::8e"; str "2001:658:22a:cafe::8f"; str "2001:658:22a:cafe::90"; str "2001:658:22a:cafe::91"; str "2001:658:22a:cafe::92"; str "2001:658:22a:cafe::93"; str "2001:658:22a:cafe::94"; str "2001:658:22a:cafe::95"; str "2001:658:22a:cafe::96"; str "2001:658:22a:cafe::97"; str "2001:658:22a:cafe::98"; str "2001:658:22a:cafe::99"; str "2001:658:22a:cafe::9a"; str "2001:658:22a:cafe::9b"; str "2001:658:22a:cafe::9c"; str "2001:658:22a:cafe::9d"; str "2001:658:22a:cafe::9e"; str "2001:658:22a:cafe::9f"; str "2001:658:22a:cafe::a0"; str "2001:658:22a:cafe::a1"; str "2001:658:22a:cafe::a2"; str "2001:658:22a:cafe::a3"; str "2001:658:22a:cafe::a4"; str "2001:658:22a:cafe::a5"; str "2001:658:22a:cafe::a6"; str "2001:658:22a:cafe::a7"; str "2001:658:22a:cafe::a8"; str "2001:658:22a:cafe::a9"; str "2001:658:22a:cafe::aa"; str "2001:658:22a:cafe::ab"; str "2001:658:22a:cafe::ac"; str "2001:658:22a:cafe::ad"; str "2001:658:22a:cafe::ae"; str "2001:658:22a:cafe::af"; str "2001:658:22a:cafe::b0"; str "2001:658:22a:cafe::b1"; str "2001:658:22a:cafe::b2"; str "2001:658:22a:cafe::b3"; str "2001:658:22a:cafe::b4"; str "2001:658:22a:cafe::b5"; str "2001:658:22a:cafe::b6"; str "2001:658:22a:cafe::b7"; str "2001:658:22a:cafe::b8"; str "2001:658:22a:cafe::b9"; str "2001:658:22a:cafe::ba"; str "2001:658:22a:cafe::bb"; str "2001:658:22a:cafe::bc"; str "2001:658:22a:cafe::bd"; str "2001:658:22a:cafe::be"; str "2001:658:22a:cafe::bf"; str "2001:658:22a:cafe::c0"; str "2001:658:22a:cafe::c1"; str "2001:658:22a:cafe::c2"; str "2001:658:22a:cafe::c3"; str "2001:658:22a:cafe::c4"; str "2001:658:22a:cafe::c5"; str "2001:658:22a:cafe::c6"; str "2001:658:22a:cafe::c7"; str "2001:658:22a:cafe::c8"; str "2001:658:22a:cafe::c9"; str "2001:658:22a:cafe::ca"; str "2001:658:22a:cafe::cb"; str "2001:658:22a:cafe::cc"; str "2001:658:22a:cafe::cd"; str "2001:658:22a:cafe::ce"; str "2001:658:22a:cafe::cf"; str "2001:658:22a:cafe::d0"; str "2001:658:22a:cafe::d1"; str "2001:658:22a:cafe::d2"; str "2001:658:22a:cafe::d3"; str "2001:658:22a:cafe::d4"; str "2001:658:22a:cafe::d5"; str "2001:658:22a:cafe::d6"; str "2001:658:22a:cafe::d7"; str "2001:658:22a:cafe::d8"; str "2001:658:22a:cafe::d9"; str "2001:658:22a:cafe::da"; str "2001:658:22a:cafe::db"; str "2001:658:22a:cafe::dc"; str "2001:658:22a:cafe::dd"; str "2001:658:22a:cafe::de"; str "2001:658:22a:cafe::df"; str "2001:658:22a:cafe::e0"; str "2001:658:22a:cafe::e1"; str "2001:658:22a:cafe::e2"; str "2001:658:22a:cafe::e3"; str "2001:658:22a:cafe::e4"; str "2001:658:22a:cafe::e5"; str "2001:658:22a:cafe::e6"; str "2001:658:22a:cafe::e7"; str "2001:658:22a:cafe::e8"; str "2001:658:22a:cafe::e9"; str "2001:658:22a:cafe::ea"; str "2001:658:22a:cafe::eb"; str "2001:658:22a:cafe::ec"; str "2001:658:22a:cafe::ed"; str "2001:658:22a:cafe::ee"; str "2001:658:22a:cafe::ef"; str "2001:658:22a:cafe::f0"; str "2001:658:22a:cafe::f1"; str "2001:658:22a:cafe::f2"; str "2001:658:22a:cafe::f3"; str "2001:658:22a:cafe::f4"; str "2001:658:22a:cafe::f5"; str "2001:658:22a:cafe::f6"; str "2001:658:22a:cafe::f7"; str "2001:658:22a:cafe::f8"; str "2001:658:22a:cafe::f9"; str "2001:658:22a:cafe::fa"; str "2001:658:22a:cafe::fb"; str "2001:658:22a:cafe::fc"; str "2001:658:22a:cafe::fd"; str "2001:658:22a:cafe::fe"; str "2001:658:22a:cafe::ff"])] = [].
Proof. vm_compute. reflexivity. Qed.

(* ipv6-network-tests.cpp:1248-1257 *)
Example v_SupernetIpv6NetworkParams : failing (chk_supernet V6)
  [(str "2001:658:22a:cafe::/127", 1, None, str "2001:658:22a:cafe::/126");
   (str "2001:658:22a:cafe::/127", 2, None, str "2001:658:22a:cafe::/125");
   (str "2001:658:22a:cafe::/127", 1, Some 64, str "2001:658:22a:cafe::/64");
   (str "2001:658:22a:cafe::/64", 1, None, str "2001:658:22a:cafe::/63");
   (str "2001:658:22a:cafe::/63", 1, None, str "2001:658:22a:cafc::/62");
   (str "::/0", 1, None, str "::/0")] = [].
Proof. vm_compute. reflexivity. Qed.

(* ipv6-network-tests.cpp:1290-1296 *)
Example v_SupernetErrorIpv6NetworkParams : failing (chk_supernet_err V6)
  [(str "2001:658:22a:cafe::/64", 1, Some 65, new_prefix_must_be_shorter, str "new prefix must be shorter");
   (str "2001:658:22a:cafe::/64", 2, Some 63, cannot_set_prefixlen_diff_and_new_prefix, str "cannot set prefixlen_diff and new_prefix");
   (str "2001:658:22a:cafe::/64", 65, None, invalid_prefixlen_diff, str "invalid prefixlen_diff")] = [].
Proof. vm_compute. reflexivity. Qed.

(* ipv6-network-tests.cpp:1347-1356 *)
Example v_SubnetsIpv6NetworkParams : failing (chk_subnets V6)
  [(str "::/0", 1, None, [str "::/1"; str "8000::/1"]);
   (str "2001:658:22a:cafe::/120", 1, None, [str "2001:658:22a:cafe::/121"; str "2001:658:22a:cafe::80/121"]);
   (str "2001:658:22a:cafe::/120", 2, None, [str "2001:658:22a:cafe::/122"; str "2001:658:22a:cafe::40/122"; str "2001:658:22a:cafe::80/122"; str "2001:658:22a:cafe::c0/122"]);
   (str "2001:658:22a:cafe::/120", 1, Some 123, [str "2001:658:22a:cafe::/123"; str "2001:658:22a:cafe::20/123"; str "2001:658:22a:cafe::40/123"; str "2001:658:22a:cafe::60/123"; str "2001:658:22a:cafe::80/123"; str "2001:658:22a:cafe::a0/123"; str "2001:658:22a:cafe::c0/123"; str "2001:658:22a:cafe::e0/123"]);
   (str "2001:db8::1/128", 1, None, [str "2001:db8::1/128"]);
   (str "ffff:ffff:ffff:ffff:ffff:ffff:ffff:ffff/128", 1, None, [str "ffff:ffff:ffff:ffff:ffff:ffff:ffff:ffff/128"])] = [].
Proof. vm_compute. reflexivity. Qed.

(* ipv6-network-tests.cpp:1383-1389 *)
Example v_SubnetsErrorIpv6NetworkParams : failing (chk_subnets_err V6)
  [(str "2001:658:22a:cafe::/120", 1, Some 119, new_prefix_must_be_longer, str "new prefix must be longer");
   (str "2001:658:22a:cafe::/120", 2, Some 121, cannot_set_prefixlen_diff_and_new_prefix, str "cannot set prefixlen_diff and new_prefix");
   (str "2001:658:22a:cafe::/120", 1, Some 500, invalid_prefixlen_diff, str "invalid prefixlen_diff")] = [].
Proof. vm_compute. reflexivity. Qed.

(* ipv6-network-tests.cpp:1413-1417 *)
Example v_AddressExcludeIpv6NetworkParams : failing (chk_exclude V6)
  [(str "2001:658:22a:cafe::/120", str "2001:658:22a:cafe::/122", [str "2001:658:22a:cafe::80/121"; str "2001:658:22a:cafe::40/122"])] = [].
Proof. vm_compute. reflexivity. Qed.

(* ipv6-network-tests.cpp:1443-1447 *)
Example v_AddressExcludeErrorIpv6NetworkParams : failing (chk_exclude_err V6)
  [(str "2001:658:22a:caff::/120", str "2001:658:22a:cafe::/122", not_contained_network, str "network is not a subnet of other")] = [].
Proof. vm_compute. reflexivity. Qed.

