(** Classification predicates.  Models: include/ipaddress/ip-networks.hpp,
    ip-address-base.hpp 507-515, ip-network-base.hpp 752-831, ipv6-network.hpp
    41-44. *)
From Coq Require Import String Ascii.
From Verif Require Import Base V4Model V6Model AddressModel NetworkModel.

(** A table entry is the parsed literal.  (A literal that does not parse would not
    compile; ClassifyProofs shows that all of them parse, so the default network
    below is never used.) *)
Definition codes (s : string) : list Z := map (fun a => Z.of_N (N_of_ascii a)) (list_ascii_of_string s).
Arguments codes s%string.
Definition entry (v : ver) (s : string) : net :=
  match net_parse v (chars (codes s)) true with Ret n => n | _ => net_default v end.
Arguments entry v s%string.

(** Private networks, ip-networks.hpp 53-68 and 76-87. *)
Definition private_texts (v : ver) : list string :=
  match v with
  | V4 => ["0.0.0.0/8"; "10.0.0.0/8"; "127.0.0.0/8"; "169.254.0.0/16"; "172.16.0.0/12"; "192.0.0.0/29"; "192.0.0.170/31";
           "192.0.2.0/24"; "192.168.0.0/16"; "198.18.0.0/15"; "198.51.100.0/24"; "203.0.113.0/24"; "240.0.0.0/4";
           "255.255.255.255/32"]
  | V6 => ["::1/128"; "::/128"; "::ffff:0:0/96"; "100::/64"; "2001::/23"; "2001:2::/48"; "2001:db8::/32"; "2001:10::/28";
           "fc00::/7"; "fe80::/10"]
  end%string.
(** ip-networks.hpp 96. *)
Definition public_text : string := "100.64.0.0/10".
(** Reserved networks, ip-networks.hpp 105 and 113-129 (one network for IPv4). *)
Definition reserved_texts (v : ver) : list string :=
  match v with
  | V4 => ["240.0.0.0/4"]
  | V6 => ["::/8"; "100::/8"; "200::/7"; "400::/6"; "800::/5"; "1000::/4"; "4000::/3"; "6000::/3"; "8000::/3"; "A000::/3";
           "C000::/3"; "E000::/4"; "F000::/5"; "F800::/6"; "FE00::/9"]
  end%string.
(** ip-networks.hpp 138, 146. *)
Definition multicast_text (v : ver) : string := match v with V4 => "224.0.0.0/4" | V6 => "ff00::/8" end.
(** ip-networks.hpp 155. *)
Definition loopback_text : string := "127.0.0.0/8".
(** ip-networks.hpp 164, 172. *)
Definition link_local_text (v : ver) : string := match v with V4 => "169.254.0.0/16" | V6 => "fe80::/10" end.
(** ip-networks.hpp 181. *)
Definition site_local_text : string := "fec0::/10".

Definition private_nets (v : ver) : list net := map (entry v) (private_texts v).
Definition public_net : net := entry V4 public_text.
Definition reserved_nets (v : ver) : list net := map (entry v) (reserved_texts v).

(** Loops over the tables, ip-networks.hpp 236-242, 258-264, 275-281, 314-321, 333-339. *)
Definition any_contains (l : list net) (a : addr) : bool := existsb (fun n => contains n a) l.

(** props<ipv4_address>, ip-networks.hpp 274-302. *)
Definition v4_is_private (a : addr) : bool := any_contains (private_nets V4) a.
Definition v4_is_global (a : addr) : bool := negb (contains public_net a) && negb (v4_is_private a).
(** props<ipv6_address>::is_private, ip-networks.hpp 307-322. *)
Definition v6_is_private (a : addr) : res bool :=
  m <- v6_ipv4_mapped (a_bytes a) ;;
  match m with
  | Some q => Ret (v4_is_private (mk_addr q []))
  | None => Ret (any_contains (private_nets V6) a)
  end.
Definition is_private (v : ver) (a : addr) : res bool :=
  match v with V4 => Ret (v4_is_private a) | V6 => v6_is_private a end.
Definition is_global (v : ver) (a : addr) : res bool :=
  match v with V4 => Ret (v4_is_global a) | V6 => x <- v6_is_private a ;; Ret (negb x) end.
(** ip-networks.hpp 288-290, 328-330. *)
Definition is_multicast (v : ver) (a : addr) : bool := contains (entry v (multicast_text v)) a.
(** ip-networks.hpp 292-294, 332-340. *)
Definition is_reserved (v : ver) (a : addr) : bool := any_contains (reserved_nets v) a.
(** ip-networks.hpp 296-298, 342-348: bytes 0 to 14 are 0 and byte 15 is 1. *)
Fixpoint zeros_then_one (b : list Z) : bool :=
  match b with
  | [] => false
  | [x] => x =? 1
  | x :: b' => (x =? 0) && zeros_then_one b'
  end.
Definition is_loopback (v : ver) (a : addr) : bool :=
  match v with V4 => contains (entry V4 loopback_text) a | V6 => zeros_then_one (a_bytes a) end.
(** ip-networks.hpp 300-302, 350-352. *)
Definition is_link_local (v : ver) (a : addr) : bool := contains (entry v (link_local_text v)) a.
(** ipv6_address_base::is_site_local, ip-networks.hpp 397-400: on a copy without scope id. *)
Definition v6_is_site_local (a : addr) : bool := contains (entry V6 site_local_text) (mk_addr (a_bytes a) []).
(** is_unspecified, ip-address-base.hpp 507-515. *)
Definition is_unspecified (a : addr) : bool := forallb (fun b => b =? 0) (a_bytes a).

(** Networks: ip-network-base.hpp 752-831, ipv6-network.hpp 41-44. *)
Definition both_ends (f : addr -> bool) (n : net) : bool := f (n_addr n) && f (broadcast n).
Definition net_is_multicast (v : ver) := both_ends (is_multicast v).
Definition net_is_reserved (v : ver) := both_ends (is_reserved v).
Definition net_is_loopback (v : ver) := both_ends (is_loopback v).
Definition net_is_link_local (v : ver) := both_ends (is_link_local v).
Definition net_is_unspecified := both_ends is_unspecified.
Definition v6_net_is_site_local := both_ends v6_is_site_local.
(** props<ipv4_network> ip-networks.hpp 233-250 and props<ipv6_network> 255-269. *)
Definition net_is_private (v : ver) (n : net) : bool :=
  existsb (fun m => contains m (n_addr n) && contains m (broadcast n)) (private_nets v).
Definition net_is_global (v : ver) (n : net) : bool :=
  match v with
  | V4 => negb (contains public_net (n_addr n) && contains public_net (broadcast n)) && negb (net_is_private V4 n)
  | V6 => negb (net_is_private V6 n)
  end.
