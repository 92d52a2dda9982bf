(** Expectations of the plain tests of the project's own test suite (/repo/tests),
    evaluated on the model. They are tests of the model's fidelity, not proofs
    of any property. *)
From Coq Require Import ZArith List Bool String.
From Verif Require Import Base UnicodeModel FixedStringModel Uint128Model AddressModel NetworkModel IterModel ClassifyModel AnyModel
  CodeModel StreamModel ErrorModel ScopeModel V4Model V6Model ReverseModel LiteralModel RelModel Uint128OpsModel NetWitness VectorBase.
Import ListNotations.
Local Open Scope string_scope.
Local Open Scope list_scope.
Local Open Scope bool_scope.
Local Open Scope Z_scope.

Definition with_any {A} (s : list Z) (f : aaddr -> A) (d : A) : A := match any_parse_text TChar s with Ret a => f a | _ => d end.
Definition with_anet {A} (s : list Z) (f : anet -> A) (d : A) : A := match anet_parse_text TChar s true with Ret a => f a | _ => d end.
Definition chk_rel {A} (R : rels A) (get : list Z -> (A -> bool) -> bool -> bool) (r : list Z * cop * list Z * bool) : bool :=
  let '(s, op, t, e) := r in get s (fun a => get t (fun b => forallb (fun sp => isb (rel_op R sp op a b) e) [true; false]) false) false.
Definition chk_hash {A} (h : bool -> A -> res Z) (get : list Z -> (A -> bool) -> bool -> bool) (r : list Z * Z * Z) : bool :=
  let '(s, h64, h32) := r in get s (fun a => isz (h true a) h64 && isz (h false a) h32) false.
Definition net_of (v : ver) (s : list Z) (f : net -> bool) (d : bool) : bool := with_net v s true f d.

(* ipv4-address-tests.cpp:438-470 *)
Example t_ipv4_address_comparison :
  failing (chk_rel (addr_rels V4) (with_addr V4))
  [(str "127.239.0.1", CLt, str "127.240.0.1", true);
   (str "127.239.0.1", CLe, str "127.240.0.1", true);
   (str "127.239.0.1", CGt, str "127.240.0.1", false);
   (str "127.239.0.1", CGe, str "127.240.0.1", false);
   (str "127.239.0.1", CEq, str "127.240.0.1", false);
   (str "127.239.0.1", CNe, str "127.240.0.1", true);
   (str "127.240.0.1", CLt, str "127.239.0.1", false);
   (str "127.240.0.1", CLe, str "127.239.0.1", false);
   (str "127.240.0.1", CGt, str "127.239.0.1", true);
   (str "127.240.0.1", CGe, str "127.239.0.1", true);
   (str "127.240.0.1", CEq, str "127.239.0.1", false);
   (str "127.240.0.1", CNe, str "127.239.0.1", true);
   (str "127.240.0.1", CLt, str "127.240.0.1", false);
   (str "127.240.0.1", CLe, str "127.240.0.1", true);
   (str "127.240.0.1", CGt, str "127.240.0.1", false);
   (str "127.240.0.1", CGe, str "127.240.0.1", true);
   (str "127.240.0.1", CEq, str "127.240.0.1", true);
   (str "127.240.0.1", CNe, str "127.240.0.1", false);
   (str "127.240.0.1", CLt, str "127.240.0.1", false);
   (str "127.240.0.1", CLe, str "127.240.0.1", true);
   (str "127.240.0.1", CGt, str "127.240.0.1", false);
   (str "127.240.0.1", CGe, str "127.240.0.1", true);
   (str "127.240.0.1", CEq, str "127.240.0.1", true);
   (str "127.240.0.1", CNe, str "127.240.0.1", false)] = [].
Proof. vm_compute. reflexivity. Qed.

(* ipv4-address-tests.cpp:569-582 *)
Example t_ipv4_address_hash :
  failing (chk_hash (fun w => addr_hash w V4) (with_addr V4))
  [(str "127.0.0.1", 2753421670903790749, 4009513643);
   (str "127.0.0.2", 9476900596348728241, 1628829895);
   (str "127.0.0.3", 5977026382871150005, 778481730);
   (str "127.0.0.1", 2753421670903790749, 4009513643);
   (str "127.0.0.2", 9476900596348728241, 1628829895);
   (str "127.0.0.3", 5977026382871150005, 778481730)] = [].
Proof. vm_compute. reflexivity. Qed.

(* ipv6-address-tests.cpp:709-786 *)
Example t_ipv6_address_comparison :
  failing (chk_rel (addr_rels V6) (with_addr V6))
  [(str "2001:db8::1", CLt, str "2001:db8::2", true);
   (str "2001:db8::1", CLe, str "2001:db8::2", true);
   (str "2001:db8::1", CGt, str "2001:db8::2", false);
   (str "2001:db8::1", CGe, str "2001:db8::2", false);
   (str "2001:db8::1", CEq, str "2001:db8::2", false);
   (str "2001:db8::1", CNe, str "2001:db8::2", true);
   (str "2001:db8::2", CLt, str "2001:db8::1", false);
   (str "2001:db8::2", CLe, str "2001:db8::1", false);
   (str "2001:db8::2", CGt, str "2001:db8::1", true);
   (str "2001:db8::2", CGe, str "2001:db8::1", true);
   (str "2001:db8::2", CEq, str "2001:db8::1", false);
   (str "2001:db8::2", CNe, str "2001:db8::1", true);
   (str "2001:db8::2", CLt, str "2001:db8::2", false);
   (str "2001:db8::2", CLe, str "2001:db8::2", true);
   (str "2001:db8::2", CGt, str "2001:db8::2", false);
   (str "2001:db8::2", CGe, str "2001:db8::2", true);
   (str "2001:db8::2", CEq, str "2001:db8::2", true);
   (str "2001:db8::2", CNe, str "2001:db8::2", false);
   (str "2001:db8::2", CLt, str "2001:db8::2", false);
   (str "2001:db8::2", CLe, str "2001:db8::2", true);
   (str "2001:db8::2", CGt, str "2001:db8::2", false);
   (str "2001:db8::2", CGe, str "2001:db8::2", true);
   (str "2001:db8::2", CEq, str "2001:db8::2", true);
   (str "2001:db8::2", CNe, str "2001:db8::2", false);
   (str "2001:db8::2", CLt, str "2001:db8::2%abc", true);
   (str "2001:db8::2", CLe, str "2001:db8::2%abc", true);
   (str "2001:db8::2", CGt, str "2001:db8::2%abc", false);
   (str "2001:db8::2", CGe, str "2001:db8::2%abc", false);
   (str "2001:db8::2", CEq, str "2001:db8::2%abc", false);
   (str "2001:db8::2", CNe, str "2001:db8::2%abc", true);
   (str "2001:db8::2%abc", CLt, str "2001:db8::2", false);
   (str "2001:db8::2%abc", CLe, str "2001:db8::2", false);
   (str "2001:db8::2%abc", CGt, str "2001:db8::2", true);
   (str "2001:db8::2%abc", CGe, str "2001:db8::2", true);
   (str "2001:db8::2%abc", CEq, str "2001:db8::2", false);
   (str "2001:db8::2%abc", CNe, str "2001:db8::2", true);
   (str "2001:db8::2%abc", CLt, str "2001:db8::2%abc", false);
   (str "2001:db8::2%abc", CLe, str "2001:db8::2%abc", true);
   (str "2001:db8::2%abc", CGt, str "2001:db8::2%abc", false);
   (str "2001:db8::2%abc", CGe, str "2001:db8::2%abc", true);
   (str "2001:db8::2%abc", CEq, str "2001:db8::2%abc", true);
   (str "2001:db8::2%abc", CNe, str "2001:db8::2%abc", false);
   (str "2001:db8::2%abc", CLt, str "2001:db8::2%abc", false);
   (str "2001:db8::2%abc", CLe, str "2001:db8::2%abc", true);
   (str "2001:db8::2%abc", CGt, str "2001:db8::2%abc", false);
   (str "2001:db8::2%abc", CGe, str "2001:db8::2%abc", true);
   (str "2001:db8::2%abc", CEq, str "2001:db8::2%abc", true);
   (str "2001:db8::2%abc", CNe, str "2001:db8::2%abc", false);
   (str "2001:db8::2%abc", CLt, str "2001:db8::2%acc", true);
   (str "2001:db8::2%abc", CLe, str "2001:db8::2%acc", true);
   (str "2001:db8::2%abc", CGt, str "2001:db8::2%acc", false);
   (str "2001:db8::2%abc", CGe, str "2001:db8::2%acc", false);
   (str "2001:db8::2%abc", CEq, str "2001:db8::2%acc", false);
   (str "2001:db8::2%abc", CNe, str "2001:db8::2%acc", true);
   (str "2001:db8::2%acc", CLt, str "2001:db8::2%abc", false);
   (str "2001:db8::2%acc", CLe, str "2001:db8::2%abc", false);
   (str "2001:db8::2%acc", CGt, str "2001:db8::2%abc", true);
   (str "2001:db8::2%acc", CGe, str "2001:db8::2%abc", true);
   (str "2001:db8::2%acc", CEq, str "2001:db8::2%abc", false);
   (str "2001:db8::2%acc", CNe, str "2001:db8::2%abc", true)] = [].
Proof. vm_compute. reflexivity. Qed.

(* ipv6-address-tests.cpp:899-915 *)
Example t_ipv6_address_hash :
  failing (chk_hash (fun w => addr_hash w V6) (with_addr V6))
  [(str "2001:db8::1", 6222153021643990098, 1539407693);
   (str "2001:db8::2", 6116520725720747177, 2230264075);
   (str "2001:db8::3", 16584966935191602359, 4145152766);
   (str "2001:db8::3%scope", 460899037339188753, 844563635);
   (str "2001:db8::1", 6222153021643990098, 1539407693);
   (str "2001:db8::2", 6116520725720747177, 2230264075);
   (str "2001:db8::3", 16584966935191602359, 4145152766);
   (str "2001:db8::3%scope", 460899037339188753, 844563635)] = [].
Proof. vm_compute. reflexivity. Qed.

(* ipv4-network-tests.cpp:693-725 *)
Example t_ipv4_network_comparison :
  failing (chk_rel (net_rels V4) (net_of V4))
  [(str "127.240.1.0/24", CLt, str "127.240.1.0", true);
   (str "127.240.1.0/24", CLe, str "127.240.1.0", true);
   (str "127.240.1.0/24", CGt, str "127.240.1.0", false);
   (str "127.240.1.0/24", CGe, str "127.240.1.0", false);
   (str "127.240.1.0/24", CEq, str "127.240.1.0", false);
   (str "127.240.1.0/24", CNe, str "127.240.1.0", true);
   (str "127.240.1.0", CLt, str "127.240.1.0/24", false);
   (str "127.240.1.0", CLe, str "127.240.1.0/24", false);
   (str "127.240.1.0", CGt, str "127.240.1.0/24", true);
   (str "127.240.1.0", CGe, str "127.240.1.0/24", true);
   (str "127.240.1.0", CEq, str "127.240.1.0/24", false);
   (str "127.240.1.0", CNe, str "127.240.1.0/24", true);
   (str "127.240.1.0", CLt, str "127.240.1.0/32", false);
   (str "127.240.1.0", CLe, str "127.240.1.0/32", true);
   (str "127.240.1.0", CGt, str "127.240.1.0/32", false);
   (str "127.240.1.0", CGe, str "127.240.1.0/32", true);
   (str "127.240.1.0", CEq, str "127.240.1.0/32", true);
   (str "127.240.1.0", CNe, str "127.240.1.0/32", false);
   (str "127.240.1.0/32", CLt, str "127.240.1.0", false);
   (str "127.240.1.0/32", CLe, str "127.240.1.0", true);
   (str "127.240.1.0/32", CGt, str "127.240.1.0", false);
   (str "127.240.1.0/32", CGe, str "127.240.1.0", true);
   (str "127.240.1.0/32", CEq, str "127.240.1.0", true);
   (str "127.240.1.0/32", CNe, str "127.240.1.0", false)] = [].
Proof. vm_compute. reflexivity. Qed.

(* ipv4-network-tests.cpp:824-840 *)
Example t_ipv4_network_hash :
  failing (chk_hash (fun w => net_hash w V4) (net_of V4))
  [(str "127.0.0.1", 605929542755200525, 2256296057);
   (str "127.0.0.1/32", 605929542755200525, 2256296057);
   (str "127.0.0.0/24", 7623195473821216247, 546525844);
   (str "127.0.0.0/16", 5503161050249481481, 2858631644);
   (str "127.0.0.1", 605929542755200525, 2256296057);
   (str "127.0.0.1/32", 605929542755200525, 2256296057);
   (str "127.0.0.0/24", 7623195473821216247, 546525844);
   (str "127.0.0.0/16", 5503161050249481481, 2858631644)] = [].
Proof. vm_compute. reflexivity. Qed.

(* ipv6-network-tests.cpp:692-724 *)
Example t_ipv6_network_comparison :
  failing (chk_rel (net_rels V6) (net_of V6))
  [(str "2001:db8::/96", CLt, str "2001:dc8::", true);
   (str "2001:db8::/96", CLe, str "2001:dc8::", true);
   (str "2001:db8::/96", CGt, str "2001:dc8::", false);
   (str "2001:db8::/96", CGe, str "2001:dc8::", false);
   (str "2001:db8::/96", CEq, str "2001:dc8::", false);
   (str "2001:db8::/96", CNe, str "2001:dc8::", true);
   (str "2001:dc8::", CLt, str "2001:db8::/96", false);
   (str "2001:dc8::", CLe, str "2001:db8::/96", false);
   (str "2001:dc8::", CGt, str "2001:db8::/96", true);
   (str "2001:dc8::", CGe, str "2001:db8::/96", true);
   (str "2001:dc8::", CEq, str "2001:db8::/96", false);
   (str "2001:dc8::", CNe, str "2001:db8::/96", true);
   (str "2001:dc8::", CLt, str "2001:dc8::/128", false);
   (str "2001:dc8::", CLe, str "2001:dc8::/128", true);
   (str "2001:dc8::", CGt, str "2001:dc8::/128", false);
   (str "2001:dc8::", CGe, str "2001:dc8::/128", true);
   (str "2001:dc8::", CEq, str "2001:dc8::/128", true);
   (str "2001:dc8::", CNe, str "2001:dc8::/128", false);
   (str "2001:dc8::/128", CLt, str "2001:dc8::", false);
   (str "2001:dc8::/128", CLe, str "2001:dc8::", true);
   (str "2001:dc8::/128", CGt, str "2001:dc8::", false);
   (str "2001:dc8::/128", CGe, str "2001:dc8::", true);
   (str "2001:dc8::/128", CEq, str "2001:dc8::", true);
   (str "2001:dc8::/128", CNe, str "2001:dc8::", false)] = [].
Proof. vm_compute. reflexivity. Qed.

(* ipv6-network-tests.cpp:858-874 *)
Example t_ipv6_network_hash :
  failing (chk_hash (fun w => net_hash w V6) (net_of V6))
  [(str "2001:db8::", 15427398023827107304, 3105424018);
   (str "2001:db8::/128", 15427398023827107304, 3105424018);
   (str "2001:db8::/32", 15947883579910446492, 3052474356);
   (str "2001:db8::%scope/32", 1368690913789066344, 589600209);
   (str "2001:db8::", 15427398023827107304, 3105424018);
   (str "2001:db8::/128", 15427398023827107304, 3105424018);
   (str "2001:db8::/32", 15947883579910446492, 3052474356);
   (str "2001:db8::%scope/32", 1368690913789066344, 589600209)] = [].
Proof. vm_compute. reflexivity. Qed.

(* ip-address-tests.cpp:512-537 *)
Example t_ip_address_comparison :
  failing (chk_rel any_rels with_any)
  [(str "127.240.0.1", CLt, str "2001:db8::1", true);
   (str "127.240.0.1", CLe, str "2001:db8::1", true);
   (str "127.240.0.1", CGt, str "2001:db8::1", false);
   (str "127.240.0.1", CGe, str "2001:db8::1", false);
   (str "127.240.0.1", CEq, str "2001:db8::1", false);
   (str "127.240.0.1", CNe, str "2001:db8::1", true);
   (str "2001:db8::1", CLt, str "127.240.0.1", false);
   (str "2001:db8::1", CLe, str "127.240.0.1", false);
   (str "2001:db8::1", CGt, str "127.240.0.1", true);
   (str "2001:db8::1", CGe, str "127.240.0.1", true);
   (str "2001:db8::1", CEq, str "127.240.0.1", false);
   (str "2001:db8::1", CNe, str "127.240.0.1", true);
   (str "2001:db8::2", CLt, str "2001:db8::1", false);
   (str "2001:db8::2", CLe, str "2001:db8::1", false);
   (str "2001:db8::2", CGt, str "2001:db8::1", true);
   (str "2001:db8::2", CGe, str "2001:db8::1", true);
   (str "2001:db8::2", CEq, str "2001:db8::1", false);
   (str "2001:db8::2", CNe, str "2001:db8::1", true)] = [].
Proof. vm_compute. reflexivity. Qed.

(* ip-address-tests.cpp:701-716 *)
Example t_ip_address_hash :
  failing (chk_hash any_hash with_any)
  [(str "127.0.0.1", 2753421670903790749, 4009513643);
   (str "2001:db8::1", 6222153021643990098, 1539407693);
   (str "127.0.0.1", 2753421670903790749, 4009513643);
   (str "2001:db8::1", 6222153021643990098, 1539407693)] = [].
Proof. vm_compute. reflexivity. Qed.

(* ip-network-tests.cpp:403-428 *)
Example t_ip_network_comparison :
  failing (chk_rel anet_rels with_anet)
  [(str "127.240.0.0/32", CLt, str "2001:db8::/64", true);
   (str "127.240.0.0/32", CLe, str "2001:db8::/64", true);
   (str "127.240.0.0/32", CGt, str "2001:db8::/64", false);
   (str "127.240.0.0/32", CGe, str "2001:db8::/64", false);
   (str "127.240.0.0/32", CEq, str "2001:db8::/64", false);
   (str "127.240.0.0/32", CNe, str "2001:db8::/64", true);
   (str "2001:db8::/64", CLt, str "127.240.0.0/32", false);
   (str "2001:db8::/64", CLe, str "127.240.0.0/32", false);
   (str "2001:db8::/64", CGt, str "127.240.0.0/32", true);
   (str "2001:db8::/64", CGe, str "127.240.0.0/32", true);
   (str "2001:db8::/64", CEq, str "127.240.0.0/32", false);
   (str "2001:db8::/64", CNe, str "127.240.0.0/32", true);
   (str "2001:db8::/65", CLt, str "2001:db8::/64", false);
   (str "2001:db8::/65", CLe, str "2001:db8::/64", false);
   (str "2001:db8::/65", CGt, str "2001:db8::/64", true);
   (str "2001:db8::/65", CGe, str "2001:db8::/64", true);
   (str "2001:db8::/65", CEq, str "2001:db8::/64", false);
   (str "2001:db8::/65", CNe, str "2001:db8::/64", true)] = [].
Proof. vm_compute. reflexivity. Qed.

(* ip-network-tests.cpp:592-607 *)
Example t_ip_network_hash :
  failing (chk_hash anet_hash with_anet)
  [(str "127.0.0.0/24", 7623195473821216247, 546525844);
   (str "2001:db8::/64", 9261008770321846004, 3598479863);
   (str "127.0.0.0/24", 7623195473821216247, 546525844);
   (str "2001:db8::/64", 9261008770321846004, 3598479863)] = [].
Proof. vm_compute. reflexivity. Qed.

(* ip-address-tests.cpp:838-904 *)
Example t_ip_address_is_prop :
  forallb (fun b => b)
  [with_any (str "224.1.1.1") (fun x => isb (Ret (any_is_multicast x)) true) false;
   with_any (str "240.0.0.0") (fun x => isb (Ret (any_is_multicast x)) false) false;
   with_any (str "ffff::") (fun x => isb (Ret (any_is_multicast x)) true) false;
   with_any (str "fdff::") (fun x => isb (Ret (any_is_multicast x)) false) false;
   with_any (str "192.168.1.1") (fun x => isb (any_is_private x) true) false;
   with_any (str "192.169.0.0") (fun x => isb (any_is_private x) false) false;
   with_any (str "fc00::") (fun x => isb (any_is_private x) true) false;
   with_any (str "fbff:ffff::") (fun x => isb (any_is_private x) false) false;
   with_any (str "192.0.7.1") (fun x => isb (any_is_global x) true) false;
   with_any (str "203.0.113.1") (fun x => isb (any_is_global x) false) false;
   with_any (str "200::1") (fun x => isb (any_is_global x) true) false;
   with_any (str "fc00::") (fun x => isb (any_is_global x) false) false;
   with_any (str "240.0.0.1") (fun x => isb (Ret (any_is_reserved x)) true) false;
   with_any (str "239.255.255.255") (fun x => isb (Ret (any_is_reserved x)) false) false;
   with_any (str "100::") (fun x => isb (Ret (any_is_reserved x)) true) false;
   with_any (str "ffff::") (fun x => isb (Ret (any_is_reserved x)) false) false;
   with_any (str "127.42.0.0") (fun x => isb (Ret (any_is_loopback x)) true) false;
   with_any (str "128.0.0.0") (fun x => isb (Ret (any_is_loopback x)) false) false;
   with_any (str "::1") (fun x => isb (Ret (any_is_loopback x)) true) false;
   with_any (str "::2") (fun x => isb (Ret (any_is_loopback x)) false) false;
   with_any (str "169.254.100.200") (fun x => isb (Ret (any_is_link_local x)) true) false;
   with_any (str "169.255.100.200") (fun x => isb (Ret (any_is_link_local x)) false) false;
   with_any (str "fea0::") (fun x => isb (Ret (any_is_link_local x)) true) false;
   with_any (str "fe7f:ffff::") (fun x => isb (Ret (any_is_link_local x)) false) false;
   with_any (str "0.0.0.0") (fun x => isb (Ret (any_is_unspecified x)) true) false;
   with_any (str "127.0.0.1") (fun x => isb (Ret (any_is_unspecified x)) false) false;
   with_any (str "::") (fun x => isb (Ret (any_is_unspecified x)) true) false;
   with_any (str "::1") (fun x => isb (Ret (any_is_unspecified x)) false) false;
   with_any (str "127.0.0.1") (fun x => isb (Ret (any_is_site_local x)) false) false;
   with_any (str "0.0.0.0") (fun x => isb (Ret (any_is_site_local x)) false) false;
   with_any (str "fecf::") (fun x => isb (Ret (any_is_site_local x)) true) false;
   with_any (str "fbf:ffff::") (fun x => isb (Ret (any_is_site_local x)) false) false] = true.
Proof. vm_compute. reflexivity. Qed.

(* ip-network-tests.cpp:656-722 *)
Example t_ip_network_is_prop :
  forallb (fun b => b)
  [with_anet (str "224.1.1.1") (fun x => isb (Ret (anet_is_multicast x)) true) false;
   with_anet (str "240.0.0.0") (fun x => isb (Ret (anet_is_multicast x)) false) false;
   with_anet (str "ffff::") (fun x => isb (Ret (anet_is_multicast x)) true) false;
   with_anet (str "fdff::") (fun x => isb (Ret (anet_is_multicast x)) false) false;
   with_anet (str "192.168.1.1") (fun x => isb (Ret (anet_is_private x)) true) false;
   with_anet (str "192.169.0.0") (fun x => isb (Ret (anet_is_private x)) false) false;
   with_anet (str "fc00::") (fun x => isb (Ret (anet_is_private x)) true) false;
   with_anet (str "fbff:ffff::") (fun x => isb (Ret (anet_is_private x)) false) false;
   with_anet (str "192.0.7.1") (fun x => isb (Ret (anet_is_global x)) true) false;
   with_anet (str "203.0.113.1") (fun x => isb (Ret (anet_is_global x)) false) false;
   with_anet (str "200::1") (fun x => isb (Ret (anet_is_global x)) true) false;
   with_anet (str "fc00::") (fun x => isb (Ret (anet_is_global x)) false) false;
   with_anet (str "240.0.0.1") (fun x => isb (Ret (anet_is_reserved x)) true) false;
   with_anet (str "239.255.255.255") (fun x => isb (Ret (anet_is_reserved x)) false) false;
   with_anet (str "100::") (fun x => isb (Ret (anet_is_reserved x)) true) false;
   with_anet (str "ffff::") (fun x => isb (Ret (anet_is_reserved x)) false) false;
   with_anet (str "127.42.0.0") (fun x => isb (Ret (anet_is_loopback x)) true) false;
   with_anet (str "128.0.0.0") (fun x => isb (Ret (anet_is_loopback x)) false) false;
   with_anet (str "::1") (fun x => isb (Ret (anet_is_loopback x)) true) false;
   with_anet (str "::2") (fun x => isb (Ret (anet_is_loopback x)) false) false;
   with_anet (str "169.254.100.200") (fun x => isb (Ret (anet_is_link_local x)) true) false;
   with_anet (str "169.255.100.200") (fun x => isb (Ret (anet_is_link_local x)) false) false;
   with_anet (str "fea0::") (fun x => isb (Ret (anet_is_link_local x)) true) false;
   with_anet (str "fe7f:ffff::") (fun x => isb (Ret (anet_is_link_local x)) false) false;
   with_anet (str "0.0.0.0") (fun x => isb (Ret (anet_is_unspecified x)) true) false;
   with_anet (str "127.0.0.1") (fun x => isb (Ret (anet_is_unspecified x)) false) false;
   with_anet (str "::") (fun x => isb (Ret (anet_is_unspecified x)) true) false;
   with_anet (str "::1") (fun x => isb (Ret (anet_is_unspecified x)) false) false;
   with_anet (str "127.0.0.1") (fun x => isb (Ret (anet_is_site_local x)) false) false;
   with_anet (str "0.0.0.0") (fun x => isb (Ret (anet_is_site_local x)) false) false;
   with_anet (str "fecf::") (fun x => isb (Ret (anet_is_site_local x)) true) false;
   with_anet (str "fbf:ffff::") (fun x => isb (Ret (anet_is_site_local x)) false) false] = true.
Proof. vm_compute. reflexivity. Qed.

(* ip-network-tests.cpp:732-742 *)
Example t_ip_network_contains :
  forallb (fun b => b)
  [with_anet (str "192.0.2.0/28") (fun x => with_any (str "192.0.2.6") (fun y => isb (Ret (anet_contains x y)) true) false) false;
   with_anet (str "192.0.2.0/28") (fun x => with_any (str "192.0.3.6") (fun y => isb (Ret (anet_contains x y)) false) false) false;
   with_anet (str "2001:db8::/32") (fun x => with_any (str "2001:db8::1") (fun y => isb (Ret (anet_contains x y)) true) false) false;
   with_anet (str "2001:db8::/32") (fun x => with_any (str "2001:dbc::") (fun y => isb (Ret (anet_contains x y)) false) false) false] = true.
Proof. vm_compute. reflexivity. Qed.

(* ip-network-tests.cpp:744-754 *)
Example t_ip_network_overlaps :
  forallb (fun b => b)
  [with_anet (str "1.2.3.0/24") (fun x => with_anet (str "1.2.3.0/30") (fun y => isb (Ret (anet_overlaps x y)) true) false) false;
   with_anet (str "1.2.3.0/24") (fun x => with_anet (str "1.2.2.0/24") (fun y => isb (Ret (anet_overlaps x y)) false) false) false;
   with_anet (str "2001:db8::/32") (fun x => with_anet (str "2001:db8::/128") (fun y => isb (Ret (anet_overlaps x y)) true) false) false;
   with_anet (str "2001:dbc::/32") (fun x => with_anet (str "2001:db8::/32") (fun y => isb (Ret (anet_overlaps x y)) false) false) false] = true.
Proof. vm_compute. reflexivity. Qed.

(* ip-network-tests.cpp:756-766 *)
Example t_ip_network_subnet_of :
  forallb (fun b => b)
  [with_anet (str "10.0.0.0/30") (fun x => with_anet (str "10.0.0.0/24") (fun y => isb (both (anet_subnet_of true x y) (anet_subnet_of false x y)) true) false) false;
   with_anet (str "10.0.0.0/30") (fun x => with_anet (str "10.0.1.0/24") (fun y => isb (both (anet_subnet_of true x y) (anet_subnet_of false x y)) false) false) false;
   with_anet (str "2000:aaa::/56") (fun x => with_anet (str "2000:aaa::/48") (fun y => isb (both (anet_subnet_of true x y) (anet_subnet_of false x y)) true) false) false;
   with_anet (str "2000:bbb::/56") (fun x => with_anet (str "2000:aaa::/48") (fun y => isb (both (anet_subnet_of true x y) (anet_subnet_of false x y)) false) false) false] = true.
Proof. vm_compute. reflexivity. Qed.

(* ip-network-tests.cpp:768-778 *)
Example t_ip_network_supernet_of :
  forallb (fun b => b)
  [with_anet (str "192.168.1.0/24") (fun x => with_anet (str "192.168.1.128/30") (fun y => isb (both (anet_supernet_of true x y) (anet_supernet_of false x y)) true) false) false;
   with_anet (str "10.0.0.0/30") (fun x => with_anet (str "10.0.1.0/24") (fun y => isb (both (anet_supernet_of true x y) (anet_supernet_of false x y)) false) false) false;
   with_anet (str "2000:aaa::/48") (fun x => with_anet (str "2000:aaa::/56") (fun y => isb (both (anet_supernet_of true x y) (anet_supernet_of false x y)) true) false) false;
   with_anet (str "2000:aaa::/56") (fun x => with_anet (str "2000:aaa::/48") (fun y => isb (both (anet_supernet_of true x y) (anet_supernet_of false x y)) false) false) false] = true.
Proof. vm_compute. reflexivity. Qed.

(** ** Version-erased classes *)

Definition any_value (v : ver) (n : Z) (x : aaddr) : bool :=
  ver_eqb (aa_ver x) v && (any_size x =? Z.of_nat (nbytes v)) && isz (addr_to_uint v (aa_addr x)) n &&
  Bool.eqb (has (aa_v4 x)) (ver_eqb v V4) && Bool.eqb (has (aa_v6 x)) (ver_eqb v V6).
Definition anet_value (v : ver) (n : Z) (x : anet) : bool :=
  ver_eqb (an_ver x) v && isz (addr_to_uint v (n_addr (an_net x))) n && Bool.eqb (has (anet_v4 x)) (ver_eqb v V4) && Bool.eqb (has (anet_v6 x)) (ver_eqb v V6).
(* ip-address-tests.cpp:293-380 *)
Example t_ip_address_parse :
  with_any (str "192.168.1.1") (any_value V4 0xC0A80101) false &&
  with_any (str "fe80::1ff:fe23:4567:890a") (any_value V6 338288524927261089654163009981888563466) false &&
  with_any (str "100.64.0.0") (any_value V4 0x64400000) false &&
  with_any (str "2001:0db8:85a3:0000:0000:8a2e:0370:7334") (any_value V6 42540766452641154071740215577757643572) false &&
  with_any (str "127.0.0.1") (any_value V4 0x7F000001) false &&
  with_any (str "fe80::1ff:fe23:4567:890a%eth2") (any_value V6 338288524927261089654163009981888563466) false &&
  stream_ok (fun i => i) (any_get TChar) (str "255.0.42.42") (any_value V4 0xFF002A2A) &&
  stream_ok (fun i => i) (any_get TChar) (str "2001:db8:0:0:1:0:0:1") (any_value V6 42540766411282592856904266426630537217) = true.
Proof. vm_compute. reflexivity. Qed.

(* ip-network-tests.cpp:214-302 *)
Example t_ip_network_parse :
  with_anet (str "192.168.1.1") (anet_value V4 0xC0A80101) false &&
  with_anet (str "fe80::1ff:fe23:4567:890a") (anet_value V6 338288524927261089654163009981888563466) false &&
  with_anet (str "100.64.0.0") (anet_value V4 0x64400000) false &&
  with_anet (str "2001:0db8:85a3:0000:0000:8a2e:0370:7334") (anet_value V6 42540766452641154071740215577757643572) false &&
  with_anet (str "fe80::1ff:fe23:4567:890a%eth2") (anet_value V6 338288524927261089654163009981888563466) false &&
  stream_ok manip_non_strict (anet_get TChar) (str "255.0.42.42/24") (anet_value V4 0xFF002A00) &&
  stream_ok (fun i => i) (anet_get TChar) (str "2001:db8:0:0:1:0:0:1") (anet_value V6 42540766411282592856904266426630537217) = true.
Proof. vm_compute. reflexivity. Qed.

(* ipv4-address-tests.cpp:630-636, ipv6-address-tests.cpp:966-972, ip-address-tests.cpp:765-774 *)
Example t_reverse_pointer :
  with_addr V4 (str "127.0.0.1") (fun a => iss (v4_reverse_pointer true (a_bytes a)) (str "1.0.0.127.in-addr.arpa")) false &&
  with_addr V6 (str "2001:db8::1") (fun a => iss (v6_reverse_pointer (a_bytes a))
    (str "1.0.0.0.0.0.0.0.0.0.0.0.0.0.0.0.0.0.0.0.0.0.0.0.8.b.d.0.1.0.0.2.ip6.arpa")) false &&
  with_any (str "127.0.0.1") (fun a => iss (any_reverse_pointer a) (str "1.0.0.127.in-addr.arpa")) false &&
  with_any (str "2001:db8::1") (fun a => iss (any_reverse_pointer a)
    (str "1.0.0.0.0.0.0.0.0.0.0.0.0.0.0.0.0.0.0.0.0.0.0.0.8.b.d.0.1.0.0.2.ip6.arpa")) false = true.
Proof. vm_compute. reflexivity. Qed.

Definition chk_any_embedded (f : aaddr -> res (option (list Z))) (r : list Z * option (list Z)) : bool :=
  let '(s, e) := r in
  with_any s (fun a => okb (f a) (fun o => match o, e with Some b, Some t => any_is t (mk_aa V4 (mk_addr b [])) | None, None => true | _, _ => false end)) false.
(* ip-address-tests.cpp:776-836 *)
Example t_ip_address_embedded :
  failing (chk_any_embedded any_ipv4_mapped)
    [(str "127.0.0.1", None); (str "::ffff:192.168.1.1%test", Some (str "192.168.1.1")); (str "::c0a8:101", None)] = [] /\
  failing (chk_any_embedded any_sixtofour)
    [(str "127.0.0.1", None); (str "2002:ac1d:2d64::1", Some (str "172.29.45.100")); (str "2000:ac1d:2d64::1", None)] = [] /\
  failing (chk_any_embedded (fun a => x <- any_teredo a ;; Ret (option_map fst x)))
    [(str "127.0.0.1", None); (str "2001:0000:4136:e378:8000:63bf:3fff:fdd2", Some (str "65.54.227.120")); (str "2000::4136:e378:8000:63bf:3fff:fdd2", None)] = [] /\
  failing (chk_any_embedded (fun a => x <- any_teredo a ;; Ret (option_map snd x)))
    [(str "127.0.0.1", None); (str "2001:0000:4136:e378:8000:63bf:3fff:fdd2", Some (str "192.0.2.45")); (str "2000::4136:e378:8000:63bf:3fff:fdd2", None)] = [].
Proof. vm_compute. repeat split. Qed.

Definition any_scope_is (x : res aaddr) (hs hi : bool) (s : list Z) (n : Z) (text : list Z) : bool :=
  okb x (fun x => okb (any_get_scope x) (fun c => Bool.eqb (scope_bool c) hs && Bool.eqb (scope_has_string c) hs && Bool.eqb (scope_has_uint32 c) hi &&
    zl_eqb (scope_string c) s && (scope_uint32 c =? n)) && iss (any_to_text TChar x compressed) text).
(* ip-address-tests.cpp:916-947 *)
Example t_ip_address_scope :
  with_any (str "127.128.128.255") (fun a =>
    any_scope_is (Ret a) false false [] 0 (str "127.128.128.255") &&
    any_scope_is (any_scope_set TChar a (str "123")) false false [] 0 (str "127.128.128.255") &&
    any_scope_is (a <- any_scope_set TChar a (str "123") ;; any_scope_set TChar a (str "eth1")) false false [] 0 (str "127.128.128.255")) false &&
  with_any (str "2001:db8::1") (fun a =>
    any_scope_is (Ret a) false false [] 0 (str "2001:db8::1") &&
    any_scope_is (any_scope_set TChar a (str "123")) true true (str "123") 123 (str "2001:db8::1%123") &&
    any_scope_is (a <- any_scope_set TChar a (str "123") ;; any_scope_set TChar a (str "eth1")) true false (str "eth1") 0 (str "2001:db8::1%eth1")) false = true.
Proof. vm_compute. reflexivity. Qed.

(* ip-network-tests.cpp:724-730, 780-783 *)
Example t_ip_network_count_supernet :
  with_anet (str "10.0.0.0/30") (fun x => isz (anet_count x) 4) false &&
  with_anet (str "2001:658:22a:cafe::/64") (fun x => isz (anet_count x) 18446744073709551616) false &&
  with_anet (str "192.0.2.0/24") (fun x => okb (anet_supernet x 1 None) (anet_is (str "192.0.2.0/23"))) false = true.
Proof. vm_compute. reflexivity. Qed.

(** *(--(++sequence.begin()++ + 2U) -= 1U) *)
Definition dance {I E} (o : bops I E) (it : I) : res E :=
  q <- ReverseModel.post_inc o it ;; a <- b_next o (fst q) ;; a <- b_add o a 2 ;; a <- b_prev o a ;; a <- b_sub o a 1 ;; Ret (b_get o a).
Definition rdance {I E} (o : bops I E) (it : rit I) : res E :=
  q <- rit_postinc o it ;; a <- rit_next o (fst q) ;; a <- rit_add o a 2 ;; a <- rit_prev o a ;; a <- rit_sub_eq o a 1 ;; Ret (rit_get o a).
Definition chk_aseq {I E} (o : iops I E) (is : list Z -> E -> bool) (q : aseq I E) (e : list (list Z)) : bool :=
  let item i := nth i e [] in
  let n := zlen e in
  isb (aseq_empty o q) false && isz (aseq_size o q) n && is (item 0%nat) (aseq_front q) && okb (aseq_back o q) (is (last e [])) &&
  forallb (fun i => okb (aseq_at o q i) (is (item (Z.to_nat i))) && okb (aiter_at o (q_begin q) i) (is (item (Z.to_nat i)))) (indices e) &&
  isz (aiter_udiff o (q_end q) (q_begin q)) n && okb (dance (any_bops o) (q_begin q)) (is (item 1%nat)) &&
  rel_is (aiter_rels o) (q_begin q) (q_end q) true false false &&
  okb (rit_make (any_bops o) (q_end q)) (fun rb => okb (rit_make (any_bops o) (q_begin q)) (fun re =>
    isz (rit_udiff (any_bops o) re rb) n && is (last e []) (rit_get (any_bops o) rb) &&
    forallb (fun i => okb (rit_at (any_bops o) rb i) (is (nth (Z.to_nat i) (rev e) []))) (indices e) &&
    okb (rdance (any_bops o) rb) (is (nth 1 (rev e) [])) &&
    isb (rit_eqb (any_bops o) rb re) false && isb (rit_neb (any_bops o) rb re) true && isb (rit_ltb (any_bops o) rb re) true &&
    isb (rit_leb (any_bops o) rb re) true && isb (rit_gtb (any_bops o) rb re) false && isb (rit_geb (any_bops o) rb re) false)).
(* ip-network-tests.cpp:785-863 *)
Example t_ip_network_hosts :
  forallb (fun sp => with_anet (str "192.0.2.0/29") (fun x => okb (any_hosts sp x) (fun q => chk_aseq host_ops any_is q
    [str "192.0.2.1"; str "192.0.2.2"; str "192.0.2.3"; str "192.0.2.4"; str "192.0.2.5"; str "192.0.2.6"])) false) [true; false] = true.
Proof. vm_compute. reflexivity. Qed.
(* ip-network-tests.cpp:865-943 *)
Example t_ip_network_subnets :
  forallb (fun sp => with_anet (str "192.0.2.0/24") (fun x => okb (any_subnets sp x 2 None) (fun q => chk_aseq net_ops anet_is q
    [str "192.0.2.0/26"; str "192.0.2.64/26"; str "192.0.2.128/26"; str "192.0.2.192/26"])) false) [true; false] = true.
Proof. vm_compute. reflexivity. Qed.
(* ip-network-tests.cpp:945-970 *)
Example t_ip_network_exclude :
  forallb (fun sp => with_anet (str "192.0.2.0/28") (fun x => with_anet (str "192.0.2.1/32") (fun y => okb (any_exclude sp x y) (fun q =>
    anet_is (str "192.0.2.8/29") (ax_current (ae_begin q)) && okb (axit_next sp (ae_begin q)) (fun i => anet_is (str "192.0.2.4/30") (ax_current i)) &&
    rel_is axit_rels (ae_begin q) (ae_end q) true false false)) false) false) [true; false] = true.
Proof. vm_compute. reflexivity. Qed.

(* ipv4-network-tests.cpp:553-570, ipv6-network-tests.cpp:554-571 *)
Example t_from_address_error :
  with_addr V4 (str "127.0.0.1") (fun a => code_is (from_address_code V4 a no_error 24 true) has_host_bits_set &&
    exn_is (from_address_x V4 a 24 true) XParse has_host_bits_set (str "has host bits set in address 127.0.0.1")) false &&
  with_addr V6 (str "2001:db8::") (fun a => code_is (from_address_code V6 a no_error 16 true) has_host_bits_set &&
    exn_is (from_address_x V6 a 16 true) XParse has_host_bits_set (str "has host bits set in address 2001:db8::")) false = true.
Proof. vm_compute. reflexivity. Qed.

(** ** Other alphabets *)

(** A string of code points in the encoding of the character type. *)
Definition enc (T : chtype) (s : list Z) : list Z :=
  match T with
  | TChar | TChar8 => flat_map (fun c =>
      if c <? 0x80 then [c] else if c <? 0x800 then [0xC0 + c / 64; 0x80 + c mod 64]
      else if c <? 0x10000 then [0xE0 + c / 4096; 0x80 + c / 64 mod 64; 0x80 + c mod 64]
      else [0xF0 + c / 262144; 0x80 + c / 4096 mod 64; 0x80 + c / 64 mod 64; 0x80 + c mod 64]) s
  | TChar16 => flat_map (fun c => if c <? 0x10000 then [c] else [0xD800 + (c - 0x10000) / 1024; 0xDC00 + (c - 0x10000) mod 1024]) s
  | TChar32 | TWchar => s
  end.
Definition wide : list chtype := [TChar8; TChar16; TChar32; TWchar].
Definition all_wide (f : chtype -> bool) : bool := forallb f wide.
(* unicode-tests.cpp:46-91, 152-169: 12 U+10348 U+d55c U+0418 $ and the terminator *)
Example t_unicode_tokens :
  forallb (fun T => match tokens (reader_of T) (enc T [49; 50; 0x10348; 0xd55c; 0x418; 36; 0]) with
    | Ret [Ch 49; Ch 50; Bad unexpected_symbol 0x10348; Bad unexpected_symbol 0xd55c; Bad unexpected_symbol 0x418; Ch 36; Ch 0] => true
    | _ => false end) wide = true.
Proof. vm_compute. reflexivity. Qed.
(* unicode-tests.cpp:93-115, 171-187 *)
Example t_unicode_print :
  all_wide (fun T => iss (print_array T (enc T [49; 50; 0x10348; 0xd55c; 0x418; 36])) (str "12{U+10348}{U+d55c}{U+0418}$")) = true.
Proof. vm_compute. reflexivity. Qed.
(* ipv4-address-tests.cpp:396-436, ipv6-address-tests.cpp:664-707, ip-address-tests.cpp:467-510 *)
Example t_parse_unexpected_address :
  all_wide (fun T => exn_is (addr_parse_x T V4 (enc T (str "127." ++ [0x10348] ++ str "." ++ [0xd55c] ++ str ".1"))) XParse unexpected_symbol
    (str "unexpected next unicode symbol {U+10348} in string 127.{U+10348}.{U+d55c}.1")) &&
  all_wide (fun T => exn_is (addr_parse_x T V6 (enc T (str "200" ++ [0x10348] ++ str ":d" ++ [0xd55c] ++ str "8::1"))) XParse unexpected_symbol
    (str "unexpected next unicode symbol {U+10348} in string 200{U+10348}:d{U+d55c}8::1")) &&
  all_wide (fun T => exn_is (any_parse_x T (enc T (str "200" ++ [0x10348] ++ str ":d" ++ [0xd55c] ++ str "8::1"))) XParse unexpected_symbol
    (str "unexpected next unicode symbol {U+10348} in string 200{U+10348}:d{U+d55c}8::1")) &&
  with_addr V6 (str "2001:db8::1") (fun a => all_wide (fun T => exn_is (set_scope_x T a (enc T (str "12" ++ [0xd55c] ++ str "3"))) XParse unexpected_symbol
    (str "unexpected next unicode symbol {U+d55c} in string 12{U+d55c}3"))) false = true.
Proof. vm_compute. reflexivity. Qed.
(* ipv4-network-tests.cpp:641-691, ipv6-network-tests.cpp:640-690 *)
Example t_parse_unexpected_network :
  all_wide (fun T => exn_is (net_parse_x T V4 (enc T (str "127.0.0.1/3" ++ [0xd55c])) true) XParse unexpected_symbol
    (str "unexpected next unicode symbol {U+d55c} in string 127.0.0.1/3{U+d55c}")) &&
  all_wide (fun T => exn_is (net_parse_x T V6 (enc T (str "2001:dc8::/1" ++ [0xd55c] ++ str "2" ++ [0xd55c])) true) XParse unexpected_symbol
    (str "unexpected next unicode symbol {U+d55c} in string 2001:dc8::/1{U+d55c}2{U+d55c}")) = true.
Proof. vm_compute. reflexivity. Qed.

(** ** uint128_t *)

Definition u (h l : Z) : u128 := mk128 h l.
Definition isu (r : res u128) (h l : Z) : bool := match r with Ret x => (up x =? h) && (lo x =? l) | _ => false end.
Definition M : Z := 0xFFFFFFFFFFFFFFFF.
(* uint128-tests.cpp:94-130 *)
Example t_u128_casts :
  let v := u 4 140185576636287 in let n := 0x7F7F7F7F7F7F in
  (u128_to_signed 8 v, u128_to_unsigned 8 v, u128_to_signed 16 v, u128_to_unsigned 16 v, u128_to_signed 32 v, u128_to_unsigned 32 v,
   u128_to_signed 64 v, u128_to_unsigned 64 v) = (0x7F, 0x7F, 0x7F7F, 0x7F7F, 0x7F7F7F7F, 0x7F7F7F7F, n, n).
Proof. vm_compute. reflexivity. Qed.
(* uint128-tests.cpp:132-289 *)
Example t_u128_arithmetic :
  let a := u 4 5 in let b := u 4 (M - 1) in let c := u 4 M in
  isu (Ret (u128_plus a)) 4 5 && isu (Ret (u128_plus b)) 4 (M - 1) && isu (Ret (u128_plus c)) 4 M &&
  isu (Ret (u128_neg a)) (M - 4) (M - 4) && isu (Ret (u128_neg b)) (M - 4) 2 && isu (Ret (u128_neg c)) (M - 4) 1 &&
  isu (Ret (u128_not a)) (M - 4) (M - 5) && isu (Ret (u128_not b)) (M - 4) 1 && isu (Ret (u128_not c)) (M - 4) 0 &&
  isu (u128_bin_r OAdd a IInt 1) 4 6 && isu (u128_bin_r OAdd b IInt 1) 4 M && isu (u128_bin_r OAdd c IInt 1) 5 0 &&
  isu (u128_bin OAdd a (u 10 (M - 2))) 15 2 && isu (u128_bin_l OAdd IInt 1 a) 4 6 &&
  isu (u128_bin_r OSub a IInt 6) 3 M && isu (u128_bin_r OSub b IInt 7) 4 (M - 8) && isu (u128_bin_r OSub c IInt 1) 4 (M - 1) &&
  isu (u128_bin OSub a (u 2 (M - 2))) 1 8 && isu (u128_bin_l OSub IInt 10 (u128_of_int IInt 7)) 0 3 &&
  isu (u128_bin_r OMul a IInt 6) 24 30 && isu (u128_bin_r OMul b IInt 7) 34 0xFFFFFFFFFFFFFFF2 && isu (u128_bin_r OMul c IInt 1) 4 M &&
  isu (u128_bin_l OMul IInt 1000 (u 2 (M - 2))) 0xBB7 0xFFFFFFFFFFFFF448 &&
  isu (u128_bin_r ODiv a IInt 25) 0 0x28F5C28F5C28F5C2 && isu (u128_bin_r ODiv b IInt 2) 2 0x7fffffffffffffff && isu (u128_bin_r ODiv c IInt 1) 4 M &&
  isu (u128_bin_l ODiv IInt 1000 (u 0 2)) 0 0x1F4 && isu (u128_bin_l ODiv IInt 0 (u 0 2)) 0 0 && isu (u128_bin_l ODiv IInt 0 (u 0 0)) 0 0 &&
  isu (u128_bin_l ODiv IInt 1000 (u 0 1000)) 0 1 && isu (u128_bin_l ODiv IInt 1000 (u 0 2000)) 0 0 && isu (u128_bin ODiv (u 2 1000) (u 2 1000)) 0 1 &&
  isu (u128_bin ODiv (u 2 1000) (u 2 2000)) 0 0 &&
  isu (u128_bin_r OMod a IInt 25) 0 19 && isu (u128_bin_r OMod b IInt 2) 0 0 && isu (u128_bin_r OMod c IInt 1) 0 0 && isu (u128_bin_l OMod IInt 15 a) 0 15 &&
  isu (u128_bin OAnd (u 1 1) (u 3 3)) 1 1 && isu (u128_bin_r OAnd (u 1 1) IInt 1) 0 1 && isu (u128_bin_l OAnd IInt 1 (u 1 1)) 0 1 &&
  isu (u128_bin OOr (u 1 1) (u 2 2)) 3 3 && isu (u128_bin_r OOr (u 1 1) IInt 2) 1 3 && isu (u128_bin_l OOr IInt 2 (u 1 1)) 1 3 &&
  isu (u128_bin OXor (u 1 1) (u 3 3)) 2 2 && isu (u128_bin_r OXor (u 1 1) IInt 3) 1 2 && isu (u128_bin_l OXor IInt 3 (u 1 1)) 1 2 &&
  isu (u128_shl (u 0 M) 1) 1 0xFFFFFFFFFFFFFFFE = true.
Proof. vm_compute. reflexivity. Qed.
(* uint128-tests.cpp:291-333 *)
Example t_u128_assignment :
  let run op j s := s <- s ;; assign op (set s 1 (u128_of_int IInt j)) 0 1 in
  let at0 (s : res store) := s <- s ;; Ret (s 0) in
  let s0 := Ret (fun _ => u 4 5) in let s1 := run OAdd 3 s0 in let s2 := run OSub 2 s1 in let s3 := run OMul 2 s2 in let s4 := run ODiv 2 s3 in
  let s5 := run OMod 3 s4 in let s6 := run OAnd 0 s5 in let s7 := run OOr 1 s6 in let s8 := run OXor 3 s7 in
  let s9 := (s <- s8 ;; assign_shl s 0 1) in let s10 := (s <- s9 ;; assign_shr s 0 1) in
  isu (at0 s1) 4 8 && isu (at0 s2) 4 6 && isu (at0 s3) 8 12 && isu (at0 s4) 4 6 && isu (at0 s5) 0 1 && isu (at0 s6) 0 0 && isu (at0 s7) 0 1 &&
  isu (at0 s8) 0 2 && isu (at0 s9) 0 4 && isu (at0 s10) 0 2 = true.
Proof. vm_compute. reflexivity. Qed.
(* uint128-tests.cpp:335-359 *)
Example t_u128_inc_dec :
  let run (v r1 r2 e2 r3 e3 r4 : u128) :=
    let s := set (fun _ => u 0 0) 0 v in
    let '(a, s) := pre_inc s 0 in let '(b, s) := Uint128OpsModel.post_inc s 0 in let sb := s 0 in
    let '(c, s) := Uint128OpsModel.post_dec s 0 in let sc := s 0 in let '(d, s) := pre_dec s 0 in
    u128_eqb a r1 && u128_eqb b r2 && u128_eqb sb e2 && u128_eqb c r3 && u128_eqb sc e3 && u128_eqb d r4 in
  run (u 4 5) (u 4 6) (u 4 6) (u 4 7) (u 4 7) (u 4 6) (u 4 5) &&
  run (u 4 (M - 1)) (u 4 M) (u 4 M) (u 5 0) (u 5 0) (u 4 M) (u 4 (M - 1)) &&
  run (u 4 M) (u 5 0) (u 5 0) (u 5 1) (u 5 1) (u 5 0) (u 4 M) = true.
Proof. vm_compute. reflexivity. Qed.
(* uint128-tests.cpp:361-390 *)
Example t_u128_logical :
  let a := u 0 0 in let b := u 0 1 in let c := u 1 0 in let d := u 1 1 in
  (map u128_bool [a; b; c; d], map u128_lognot [a; b; c; d],
   [u128_land a a; u128_land a b; u128_land b c; u128_land c d; u128_land d a; u128_land d d],
   [u128_lor a a; u128_lor a b; u128_lor b c; u128_lor c d; u128_lor d a; u128_lor d d]) =
  ([false; true; true; true], [true; false; false; false], [false; false; true; true; false; true], [false; true; true; true; true; true]).
Proof. vm_compute. reflexivity. Qed.
(* uint128-tests.cpp:392-439 *)
Example t_u128_comparison :
  let ops := [CEq; CNe; CLt; CGt; CLe; CGe] in let lt := [false; true; true; false; true; false] in let eq := [true; false; false; false; true; true] in
  let gt := [false; true; false; true; false; true] in
  forallb (fun sp =>
    all2 Bool.eqb (map (fun op => u128_rel sp op (u 0 0) (u 0 1)) ops) lt && all2 Bool.eqb (map (fun op => u128_rel sp op (u 0 0) (u 1 0)) ops) lt &&
    all2 Bool.eqb (map (fun op => u128_rel_r sp op (u 0 1) IInt 1) ops) eq && all2 Bool.eqb (map (fun op => u128_rel_l sp op IInt 1 (u 0 1)) ops) eq &&
    all2 Bool.eqb (map (fun op => u128_rel sp op (u 1 0) (u 1 0)) ops) eq && all2 Bool.eqb (map (fun op => u128_rel sp op (u 1 1) (u 0 1)) ops) gt) [true; false] = true.
Proof. vm_compute. reflexivity. Qed.
(* uint128-tests.cpp:441-449 *)
Example t_u128_hash :
  (u128_hash 64 (u 0 0), u128_hash 32 (u 0 0), u128_hash 64 (u 4 5), u128_hash 32 (u 4 5)) =
  (0xA55DB391E20904C2, 0xE20904C2, 0xFD9B4C34031415A2, 0xBDD51BB8).
Proof. vm_compute. reflexivity. Qed.
(* uint128-tests.cpp:463-506 *)
Example t_u128_to_string :
  let os upper hex oct := mk_os [] false upper false hex oct 0 32 0 in
  let p a o s := put_is (u128_put TChar a o) (str s) in
  p (u 0 17852) (os false false false) "17852" && p (u 0 17852) (os false false true) "42674" && p (u 0 17852) (os false true false) "45bc" &&
  p (u 0 17852) (os true true false) "45BC" && p (u 4 17852) (os false false false) "73786976294838224316" &&
  p (u 4 17852) (os false false true) "10000000000000000042674" && p (u 4 17852) (os false true false) "400000000000045bc" &&
  p (u 4 17852) (os true true false) "400000000000045BC" &&
  forallb (fun T => iss (u128_to_text T UDec (u 542 1864712049423066802)) (convert T (str "10000000000000000042674"))) [TChar; TWchar; TChar16; TChar32; TChar8] &&
  forallb (fun T => put_is (u128_put T (u 542 1864712049423066802) (os false false false)) (convert T (str "10000000000000000042674"))) [TChar; TWchar] = true.
Proof. vm_compute. reflexivity. Qed.
(* uint128-tests.cpp:508-650 *)
Example t_u128_from_string :
  let is hex oct s := mk_is (str s) false false true hex oct 0 0 in
  let g T i h l := okb (u128_get T (u 0 0) i) (fun q => isu (Ret (fst q)) h l && negb (i_fail (snd q))) in
  let bad T i := okb (u128_get T (u 0 0) i) (fun q => isu (Ret (fst q)) 0 0 && i_fail (snd q)) in
  g TChar (is false false "17852 test") 0 17852 && g TChar (is false true "42674 test") 0 17852 && g TChar (is true false "45bc test") 0 17852 &&
  g TChar (is true false "45BC test") 0 17852 && g TChar (is false false "73786976294838224316 test") 4 17852 &&
  g TChar (is false true "10000000000000000042674 test") 4 17852 && g TChar (is true false "400000000000045bc test") 4 17852 &&
  g TChar (is true false "400000000000045BC test") 4 17852 && bad TChar (is false false "bad") &&
  g TWchar (is false false "10000000000000000042674") 542 1864712049423066802 && bad TWchar (is false false "1000c0000000000000042674") &&
  forallb (fun T => match u128_from_text T UDec (str "10000000000000000042674") with Ret (Some x) => isu (Ret x) 542 1864712049423066802 | _ => false end &&
    match u128_from_text T UDec (str "100000000000a00000042674") with Ret None => true | _ => false end) [TChar; TWchar; TChar16; TChar32; TChar8] = true.
Proof. vm_compute. reflexivity. Qed.
(* uint128-tests.cpp:652-664 *)
Example t_u128_limits :
  limits_digits = 128 /\ limits_min = u 0 0 /\ limits_lowest = u 0 0 /\ limits_max = u M M /\ u128_abs (u 0 5) = u 0 5.
Proof. vm_compute. repeat split. Qed.
