(** Version-erased addresses, networks, iterators and sequences.  Models:
    include/ipaddress/ip-any-address.hpp, ip-any-network.hpp,
    ip-any-iterator.hpp.  The union and its version tag are a version and the
    record of that version. *)
From Verif Require Import Base UnicodeModel FixedStringModel V4Model V6Model Uint128Model SpecInt AddressModel NetworkModel
  IterModel ClassifyModel.

(** ip_version of ip-address-base.hpp 29-32: V4 = 4 < V6 = 6. *)
Definition ver_num (v : ver) : Z := match v with V4 => 4 | V6 => 6 end.
Definition ver_eqb (a b : ver) : bool := ver_num a =? ver_num b.
(** Conversions between uint32_t and uint128_t. *)
Definition u32_of_u128 (n : Z) : Z := u128_to_unsigned 32 (of_Z n).
Definition u128_of_u32 (n : Z) : Z := to_Z (u128_of_u64 n).

(** The address parser with an error code, ip-address-base.hpp 773-778: the
    address and the code after the call; [code] is the value before it. *)
Definition addr_parse_code (v : ver) (ts : list tok) (code : ec) : res (addr * ec) :=
  match addr_parse v ts with
  | Ret a => Ret (a, no_error)
  | Err e _ => Ret (addr_default v, e)
  | UB u => UB u
  end.

(** ** ip_address, ip-any-address.hpp 73-1363 *)
Record aaddr := mk_aa { aa_ver : ver; aa_addr : addr }.
(** Default constructor, ip-any-address.hpp 305-306 and the initialisers 1343-1362. *)
Definition aa_default : aaddr := mk_aa V4 (addr_default V4).

(** ip_any_parser, ip-any-address.hpp 33-41 and 43-54. *)
Definition any_parse (ts : list tok) : res aaddr :=
  '(ipv4, code) <- addr_parse_code V4 ts no_error ;;
  if ec_eqb code no_error then Ret (mk_aa V4 ipv4)
  else a <- addr_parse V6 ts ;; Ret (mk_aa V6 a).
Definition any_parse_code (ts : list tok) (code : ec) : res (aaddr * ec) :=
  '(ipv4, code) <- addr_parse_code V4 ts no_error ;;
  if ec_eqb code no_error then Ret (mk_aa V4 ipv4, code)
  else
    '(ipv6, code) <- addr_parse_code V6 ts code ;;
    if ec_eqb code no_error then Ret (mk_aa V6 ipv6, code) else Ret (aa_default, code).
(** Constructors and conversions: ip-any-address.hpp 315-346, v4() 267-272, v6() 281-286. *)
Definition aa_v4 (x : aaddr) : option addr := if ver_eqb (aa_ver x) V6 then None else Some (aa_addr x).
Definition aa_v6 (x : aaddr) : option addr := if ver_eqb (aa_ver x) V4 then None else Some (aa_addr x).
(** from_bytes(pointer, count, version), ip-any-address.hpp 388-390. *)
Definition any_from_bytes (src : list Z) (count : Z) (v : ver) : res aaddr :=
  if ver_eqb v V4 then a <- from_bytes V4 src count ;; Ret (mk_aa V4 a)
  else a <- from_bytes V6 src count ;; Ret (mk_aa V6 a).
(** to_uint32 ip-any-address.hpp 423-425, to_uint128 436-438. *)
Definition any_to_uint32 (x : aaddr) : res Z :=
  if ver_eqb (aa_ver x) V4 then addr_to_uint V4 (aa_addr x)
  else n <- addr_to_uint V6 (aa_addr x) ;; Ret (u32_of_u128 n).
Definition any_to_uint128 (x : aaddr) : res Z :=
  if ver_eqb (aa_ver x) V4 then n <- addr_to_uint V4 (aa_addr x) ;; Ret (u128_of_u32 n)
  else addr_to_uint V6 (aa_addr x).
(** is_multicast 97 ... is_site_local 174, size 203, hash 215, to_string 448,
    reverse_pointer 522. *)
Definition any_is_multicast (x : aaddr) : bool := if ver_eqb (aa_ver x) V4 then is_multicast V4 (aa_addr x) else is_multicast V6 (aa_addr x).
Definition any_is_private (x : aaddr) : res bool := if ver_eqb (aa_ver x) V4 then is_private V4 (aa_addr x) else is_private V6 (aa_addr x).
Definition any_is_global (x : aaddr) : res bool := if ver_eqb (aa_ver x) V4 then is_global V4 (aa_addr x) else is_global V6 (aa_addr x).
Definition any_is_reserved (x : aaddr) : bool := if ver_eqb (aa_ver x) V4 then is_reserved V4 (aa_addr x) else is_reserved V6 (aa_addr x).
Definition any_is_loopback (x : aaddr) : bool := if ver_eqb (aa_ver x) V4 then is_loopback V4 (aa_addr x) else is_loopback V6 (aa_addr x).
Definition any_is_link_local (x : aaddr) : bool := if ver_eqb (aa_ver x) V4 then is_link_local V4 (aa_addr x) else is_link_local V6 (aa_addr x).
Definition any_is_unspecified (x : aaddr) : bool := is_unspecified (aa_addr x).
Definition any_is_site_local (x : aaddr) : bool := if ver_eqb (aa_ver x) V4 then false else v6_is_site_local (aa_addr x).
Definition any_size (x : aaddr) : Z := if ver_eqb (aa_ver x) V4 then Z.of_nat (nbytes V4) else Z.of_nat (nbytes V6).
Definition any_hash (is64 : bool) (x : aaddr) : res Z := if ver_eqb (aa_ver x) V4 then addr_hash is64 V4 (aa_addr x) else addr_hash is64 V6 (aa_addr x).
Definition any_to_string (x : aaddr) (fmt : format) : res (list Z) :=
  if ver_eqb (aa_ver x) V4 then addr_to_string V4 (aa_addr x) fmt else addr_to_string V6 (aa_addr x) fmt.
Definition any_reverse_pointer (x : aaddr) : res (list Z) :=
  if ver_eqb (aa_ver x) V4 then v4_reverse_pointer true (a_bytes (aa_addr x)) else v6_reverse_pointer (a_bytes (aa_addr x)).
(** ipv4_mapped 227, sixtofour 240, teredo 256. *)
Definition any_ipv4_mapped (x : aaddr) : res (option (list Z)) := if ver_eqb (aa_ver x) V4 then Ret None else v6_ipv4_mapped (a_bytes (aa_addr x)).
Definition any_sixtofour (x : aaddr) : res (option (list Z)) := if ver_eqb (aa_ver x) V4 then Ret None else v6_sixtofour (a_bytes (aa_addr x)).
Definition any_teredo (x : aaddr) : res (option (list Z * list Z)) := if ver_eqb (aa_ver x) V4 then Ret None else v6_teredo (a_bytes (aa_addr x)).
(** get_scope_id, ip-any-address.hpp 1193-1198 (set_scope_id is in CodeModel). *)
Definition any_scope (x : aaddr) : list Z := if ver_eqb (aa_ver x) V4 then [] else a_scope (aa_addr x).
(** == ip-any-address.hpp 1247-1252, <=> 1276-1282, < 1294-1302, > <= >= 1312-1338. *)
Definition any_eqb (x y : aaddr) : res bool :=
  if negb (ver_eqb (aa_ver x) (aa_ver y)) then Ret false
  else if ver_eqb (aa_ver x) V4 then addr_eqb V4 (aa_addr x) (aa_addr y) else addr_eqb V6 (aa_addr x) (aa_addr y).
Definition any_cmp (x y : aaddr) : res comparison :=
  match ver_num (aa_ver x) ?= ver_num (aa_ver y) with
  | Eq => if ver_eqb (aa_ver x) V4 then addr_cmp V4 (aa_addr x) (aa_addr y) else addr_cmp V6 (aa_addr x) (aa_addr y)
  | c => Ret c
  end.
Definition any_ltb (x y : aaddr) : res bool :=
  if ver_num (aa_ver x) <? ver_num (aa_ver y) then Ret true
  else if ver_num (aa_ver x) >? ver_num (aa_ver y) then Ret false
  else if ver_eqb (aa_ver x) V4 then addr_ltb V4 (aa_addr x) (aa_addr y) else addr_ltb V6 (aa_addr x) (aa_addr y).
Definition any_lt (sp : bool) (x y : aaddr) : res bool :=
  if sp then c <- any_cmp x y ;; Ret (match c with Lt => true | _ => false end) else any_ltb x y.
Definition any_gt (sp : bool) (x y : aaddr) : res bool :=
  if sp then c <- any_cmp x y ;; Ret (match c with Gt => true | _ => false end) else any_ltb y x.
Definition any_le (sp : bool) (x y : aaddr) : res bool :=
  if sp then c <- any_cmp x y ;; Ret (match c with Gt => false | _ => true end) else b <- any_ltb y x ;; Ret (negb b).
Definition any_ge (sp : bool) (x y : aaddr) : res bool :=
  if sp then c <- any_cmp x y ;; Ret (match c with Lt => false | _ => true end) else b <- any_ltb x y ;; Ret (negb b).
(** swap, ip-any-address.hpp 533-537. *)
Definition any_swap (x y : aaddr) : aaddr * aaddr := let tmp := x in let x := y in let y := tmp in (x, y).

(** ** ip_network, ip-any-network.hpp 70-1331 *)
Record anet := mk_an { an_ver : ver; an_net : net }.
Definition an_default : anet := mk_an V4 (net_default V4).
(** net_any_parser, ip-any-network.hpp 34-42 and 44-56. *)
Definition anet_parse (ts : list tok) (strict : bool) : res anet :=
  '(net4, code) <- net_parse_code V4 ts no_error strict ;;
  if ec_eqb code no_error then Ret (mk_an V4 net4)
  else n <- net_parse V6 ts strict ;; Ret (mk_an V6 n).
Definition anet_parse_code (ts : list tok) (code : ec) (strict : bool) : res (anet * ec) :=
  '(net4, code) <- net_parse_code V4 ts no_error strict ;;
  if ec_eqb code no_error then Ret (mk_an V4 net4, code)
  else
    '(net6, code) <- net_parse_code V6 ts code strict ;;
    if ec_eqb code no_error then Ret (mk_an V6 net6, code) else Ret (an_default, code).
(** prefixlen 92, network_address 103, broadcast_address 115, netmask 127,
    hostmask 138: the constructors of ip_address set the version. *)
Definition anet_is_v4 (x : anet) : bool := ver_eqb (an_ver x) V4.
Definition anet_prefixlen (x : anet) : Z := n_prefix (an_net x).
Definition anet_address (x : anet) : aaddr := if anet_is_v4 x then mk_aa V4 (n_addr (an_net x)) else mk_aa V6 (n_addr (an_net x)).
Definition anet_broadcast (x : anet) : aaddr := if anet_is_v4 x then mk_aa V4 (broadcast (an_net x)) else mk_aa V6 (broadcast (an_net x)).
Definition anet_netmask (x : anet) : aaddr := if anet_is_v4 x then mk_aa V4 (n_mask (an_net x)) else mk_aa V6 (n_mask (an_net x)).
Definition anet_hostmask (x : anet) : aaddr := if anet_is_v4 x then mk_aa V4 (hostmask (an_net x)) else mk_aa V6 (hostmask (an_net x)).
(** is_multicast 152 ... is_site_local 246. *)
Definition anet_is_multicast (x : anet) : bool := if anet_is_v4 x then net_is_multicast V4 (an_net x) else net_is_multicast V6 (an_net x).
Definition anet_is_private (x : anet) : bool := if anet_is_v4 x then net_is_private V4 (an_net x) else net_is_private V6 (an_net x).
Definition anet_is_global (x : anet) : bool := if anet_is_v4 x then net_is_global V4 (an_net x) else net_is_global V6 (an_net x).
Definition anet_is_reserved (x : anet) : bool := if anet_is_v4 x then net_is_reserved V4 (an_net x) else net_is_reserved V6 (an_net x).
Definition anet_is_loopback (x : anet) : bool := if anet_is_v4 x then net_is_loopback V4 (an_net x) else net_is_loopback V6 (an_net x).
Definition anet_is_link_local (x : anet) : bool := if anet_is_v4 x then net_is_link_local V4 (an_net x) else net_is_link_local V6 (an_net x).
Definition anet_is_unspecified (x : anet) : bool := net_is_unspecified (an_net x).
Definition anet_is_site_local (x : anet) : bool := if anet_is_v4 x then false else v6_net_is_site_local (an_net x).
(** hash 288, addresses_count 297, to_string 782. *)
Definition anet_hash (is64 : bool) (x : anet) : res Z := if anet_is_v4 x then net_hash is64 V4 (an_net x) else net_hash is64 V6 (an_net x).
Definition anet_count (x : anet) : res Z :=
  if anet_is_v4 x then n <- addresses_count V4 (an_net x) ;; Ret (u128_of_u32 n) else addresses_count V6 (an_net x).
Definition anet_to_string (x : anet) (fmt : format) : res (list Z) :=
  if anet_is_v4 x then net_to_string V4 (an_net x) fmt else net_to_string V6 (an_net x) fmt.
(** contains ip-any-network.hpp 321-327, overlaps 348-354, subnet_of 375-381, supernet_of 402-408. *)
Definition anet_contains (x : anet) (a : aaddr) : bool :=
  if ver_eqb (an_ver x) (aa_ver a) then contains (an_net x) (aa_addr a) else false.
Definition anet_overlaps (x y : anet) : bool := if ver_eqb (an_ver x) (an_ver y) then overlaps (an_net x) (an_net y) else false.
Definition anet_subnet_of (sp : bool) (x y : anet) : res bool :=
  if ver_eqb (an_ver x) (an_ver y) then
    if anet_is_v4 x then subnet_of sp V4 (an_net x) (an_net y) else subnet_of sp V6 (an_net x) (an_net y)
  else Ret false.
Definition anet_supernet_of (sp : bool) (x y : anet) : res bool :=
  if ver_eqb (an_ver x) (an_ver y) then
    if anet_is_v4 x then supernet_of sp V4 (an_net x) (an_net y) else supernet_of sp V6 (an_net x) (an_net y)
  else Ret false.
(** from_address ip-any-network.hpp 740-748 and 762-771, supernet 431-433 and 459-461. *)
Definition anet_from_address (a : aaddr) (p : Z) (strict : bool) : res anet :=
  if ver_eqb (aa_ver a) V4 then n <- from_address V4 (aa_addr a) p strict ;; Ret (mk_an V4 n)
  else n <- from_address V6 (aa_addr a) p strict ;; Ret (mk_an V6 n).
Definition anet_from_address_code (a : aaddr) (code : ec) (p : Z) (strict : bool) : res (anet * ec) :=
  if ver_eqb (aa_ver a) V4 then '(n, code) <- from_address_code V4 (aa_addr a) code p strict ;; Ret (mk_an V4 n, code)
  else '(n, code) <- from_address_code V6 (aa_addr a) code p strict ;; Ret (mk_an V6 n, code).
Definition anet_supernet (x : anet) (d : Z) (np : option Z) : res anet :=
  if anet_is_v4 x then n <- supernet V4 (an_net x) d np ;; Ret (mk_an V4 n)
  else n <- supernet V6 (an_net x) d np ;; Ret (mk_an V6 n).
Definition anet_supernet_code (x : anet) (code : ec) (d : Z) (np : option Z) : res (anet * ec) :=
  if anet_is_v4 x then '(n, code) <- supernet_code V4 (an_net x) code d np ;; Ret (mk_an V4 n, code)
  else '(n, code) <- supernet_code V6 (an_net x) code d np ;; Ret (mk_an V6 n, code).
(** == ip-any-network.hpp 1221-1226, <=> 1250-1256, < 1268-1276. *)
Definition anet_eqb (x y : anet) : res bool :=
  if negb (ver_eqb (an_ver x) (an_ver y)) then Ret false
  else if ver_eqb (an_ver x) V4 then net_eqb V4 (an_net x) (an_net y) else net_eqb V6 (an_net x) (an_net y).
Definition anet_cmp (x y : anet) : res comparison :=
  match ver_num (an_ver x) ?= ver_num (an_ver y) with
  | Eq => if ver_eqb (an_ver x) V4 then net_cmp V4 (an_net x) (an_net y) else net_cmp V6 (an_net x) (an_net y)
  | c => Ret c
  end.
Definition anet_ltb (x y : anet) : res bool :=
  if ver_num (an_ver x) <? ver_num (an_ver y) then Ret true
  else if ver_num (an_ver x) >? ver_num (an_ver y) then Ret false
  else if ver_eqb (an_ver x) V4 then net_ltb V4 (an_net x) (an_net y) else net_ltb V6 (an_net x) (an_net y).

(** ** ip_any_iterator, ip-any-iterator.hpp 43-467 *)
(** [I]: the versioned iterator (the union member), [E]: the elements. *)
Record aiter (I E : Type) := mk_ai { ai_ver : ver; ai_it : I; ai_cur : E }.
Arguments mk_ai {I E}. Arguments ai_ver {I E}. Arguments ai_it {I E}. Arguments ai_cur {I E}.
(** What the template uses of the versioned iterators: operations by version and
    the conversion of an element. *)
Record iops (I E : Type) := mk_iops {
  o_get : ver -> I -> E;
  o_add : ver -> I -> Z -> res I;
  o_sub : ver -> I -> Z -> res I;
  o_at : ver -> I -> Z -> res E;
  o_udiff : ver -> I -> I -> res Z;
  o_diff : ver -> I -> I -> Z;
  o_eqb : ver -> I -> I -> res bool;
  o_cmp : ver -> I -> I -> res comparison;
  o_ltb : ver -> I -> I -> res bool;
  o_base : ver -> I -> res I;
  o_reverse : ver -> I -> res I }.
Arguments o_get {I E}. Arguments o_add {I E}. Arguments o_sub {I E}. Arguments o_at {I E}. Arguments o_udiff {I E}.
Arguments o_diff {I E}. Arguments o_eqb {I E}. Arguments o_cmp {I E}. Arguments o_ltb {I E}. Arguments o_base {I E}. Arguments o_reverse {I E}.
(** Instances of hosts_any_sequence 489 and subnets_any_sequence 668. *)
Definition host_ops : iops ait aaddr := mk_iops _ _
  (fun v it => mk_aa v (it_current it)) ait_add ait_sub (fun v it n => a <- ait_at v it n ;; Ret (mk_aa v a))
  (fun v a b => Ret (ait_uint_diff v a b)) ait_diff ait_eqb ait_cmp ait_ltb ait_base ait_reverse.
Definition net_ops : iops nit anet := mk_iops _ _
  (fun v it => mk_an v (ni_current it)) nit_add nit_sub (fun v it n => a <- nit_at v it n ;; Ret (mk_an v a))
  nit_uint_diff nit_diff nit_eqb nit_cmp nit_ltb nit_base nit_reverse.

(** Constructors, ip-any-iterator.hpp 64-73. *)
Definition aiter_make {I E} (o : iops I E) (v : ver) (it : I) : aiter I E := mk_ai v it (o_get o v it).
(** uint_diff, ip-any-iterator.hpp 83-88. *)
Definition aiter_udiff {I E} (o : iops I E) (a b : aiter I E) : res Z :=
  if negb (ver_eqb (ai_ver a) (ai_ver b)) then Ret 0
  else if ver_eqb (ai_ver a) V4 then n <- o_udiff o V4 (ai_it a) (ai_it b) ;; Ret (u128_of_u32 n)
  else o_udiff o V6 (ai_it a) (ai_it b).
(** operator[], ip-any-iterator.hpp 125-127 and 114-117. *)
Definition aiter_at {I E} (o : iops I E) (a : aiter I E) (n : Z) : res E :=
  if ver_eqb (ai_ver a) V4 then o_at o V4 (ai_it a) (u32_of_u128 n) else o_at o V6 (ai_it a) n.
Definition aiter_index {I E} (o : iops I E) (a : aiter I E) (n : Z) : res E := aiter_at o a (to_Z (u128_of_i64 n)).
(** add, ip-any-iterator.hpp 429-437, and sub, 439-447. *)
Definition aiter_add {I E} (o : iops I E) (a : aiter I E) (n : Z) : res (aiter I E) :=
  if ver_eqb (ai_ver a) V4 then it <- o_add o V4 (ai_it a) (u32_of_u128 n) ;; Ret (mk_ai (ai_ver a) it (o_get o V4 it))
  else it <- o_add o V6 (ai_it a) n ;; Ret (mk_ai (ai_ver a) it (o_get o V6 it)).
Definition aiter_sub {I E} (o : iops I E) (a : aiter I E) (n : Z) : res (aiter I E) :=
  if ver_eqb (ai_ver a) V4 then it <- o_sub o V4 (ai_it a) (u32_of_u128 n) ;; Ret (mk_ai (ai_ver a) it (o_get o V4 it))
  else it <- o_sub o V6 (ai_it a) n ;; Ret (mk_ai (ai_ver a) it (o_get o V6 it)).
(** ++ 134, -- 155, += and -= of a difference_type 179 and 205. *)
Definition aiter_next {I E} (o : iops I E) (a : aiter I E) : res (aiter I E) := aiter_add o a (to_Z (u128_of_i64 1)).
Definition aiter_prev {I E} (o : iops I E) (a : aiter I E) : res (aiter I E) := aiter_sub o a (to_Z (u128_of_i64 1)).
Definition aiter_plus {I E} (o : iops I E) (a : aiter I E) (n : Z) : res (aiter I E) := aiter_add o a (to_Z (u128_of_i64 n)).
Definition aiter_minus {I E} (o : iops I E) (a : aiter I E) (n : Z) : res (aiter I E) := aiter_sub o a (to_Z (u128_of_i64 n)).
(** operator- ip-any-iterator.hpp 313-318, == 328-333, <=> 357-363, < 375-380. *)
Definition aiter_diff {I E} (o : iops I E) (a b : aiter I E) : Z :=
  if negb (ver_eqb (ai_ver a) (ai_ver b)) then 0
  else if ver_eqb (ai_ver a) V4 then o_diff o V4 (ai_it a) (ai_it b) else o_diff o V6 (ai_it a) (ai_it b).
Definition aiter_eqb {I E} (o : iops I E) (a b : aiter I E) : res bool :=
  if negb (ver_eqb (ai_ver a) (ai_ver b)) then Ret false
  else if ver_eqb (ai_ver a) V4 then o_eqb o V4 (ai_it a) (ai_it b) else o_eqb o V6 (ai_it a) (ai_it b).
Definition aiter_cmp {I E} (o : iops I E) (a b : aiter I E) : res comparison :=
  match ver_num (ai_ver a) ?= ver_num (ai_ver b) with
  | Eq => if ver_eqb (ai_ver a) V4 then o_cmp o V4 (ai_it a) (ai_it b) else o_cmp o V6 (ai_it a) (ai_it b)
  | c => Ret c
  end.
Definition aiter_ltb {I E} (o : iops I E) (a b : aiter I E) : res bool :=
  if negb (ver_eqb (ai_ver a) (ai_ver b)) then Ret false
  else if ver_eqb (ai_ver a) V4 then o_ltb o V4 (ai_it a) (ai_it b) else o_ltb o V6 (ai_it a) (ai_it b).
(** base ip-any-iterator.hpp 421-423, reverse 425-427. *)
Definition aiter_base {I E} (o : iops I E) (a : aiter I E) : res (aiter I E) :=
  if ver_eqb (ai_ver a) V4 then it <- o_base o V4 (ai_it a) ;; Ret (aiter_make o V4 it)
  else it <- o_base o V6 (ai_it a) ;; Ret (aiter_make o V6 it).
Definition aiter_reverse {I E} (o : iops I E) (a : aiter I E) : res (aiter I E) :=
  if ver_eqb (ai_ver a) V4 then it <- o_reverse o V4 (ai_it a) ;; Ret (aiter_make o V4 it)
  else it <- o_reverse o V6 (ai_it a) ;; Ret (aiter_make o V6 it).

(** ** hosts_any_sequence ip-any-iterator.hpp 479-644 and subnets_any_sequence 657-823 *)
Record aseq (I E : Type) := mk_aseq { q_begin : aiter I E; q_end : aiter I E }.
Arguments mk_aseq {I E}. Arguments q_begin {I E}. Arguments q_end {I E}.
(** size ip-any-iterator.hpp 599-601 and 778-780, at 619-621 and 798-800, front 628 and 807, back
    637 and 816, empty 590 and 769, rbegin 536 and 715, rend 545 and 724. *)
Definition aseq_size {I E} (o : iops I E) (s : aseq I E) : res Z := aiter_udiff o (q_end s) (q_begin s).
Definition aseq_at {I E} (o : iops I E) (s : aseq I E) (n : Z) : res E := a <- aiter_add o (q_begin s) n ;; Ret (ai_cur a).
Definition aseq_front {I E} (s : aseq I E) : E := ai_cur (q_begin s).
Definition aseq_back {I E} (o : iops I E) (s : aseq I E) : res E := a <- aiter_sub o (q_end s) (to_Z (u128_of_u64 1)) ;; Ret (ai_cur a).
Definition aseq_empty {I E} (o : iops I E) (s : aseq I E) : res bool := aiter_eqb o (q_begin s) (q_end s).
Definition aseq_rbegin {I E} (o : iops I E) (s : aseq I E) : res (aiter I E) := aiter_reverse o (q_end s).
Definition aseq_rend {I E} (o : iops I E) (s : aseq I E) : res (aiter I E) := aiter_reverse o (q_begin s).
Definition aseq_make {I E} (o : iops I E) (v : ver) (b e : I) : aseq I E := mk_aseq (aiter_make o v b) (aiter_make o v e).
Definition aseq_walk {I E} (o : iops I E) := walk (aiter_eqb o) (aiter_next o) (@ai_cur I E).
Definition aseq_rwalk {I E} (o : iops I E) := walk (aiter_eqb o) (aiter_prev o) (@ai_cur I E).

(** hosts, ip-any-network.hpp 498-506. *)
Definition any_hosts (sp : bool) (x : anet) : res (aseq ait aaddr) :=
  if anet_is_v4 x then s <- hosts sp V4 (an_net x) ;; Ret (aseq_make host_ops V4 (h_begin s) (h_end s))
  else s <- hosts sp V6 (an_net x) ;; Ret (aseq_make host_ops V6 (h_begin s) (h_end s)).
(** subnets, ip-any-network.hpp 535-543 and 575-583. *)
Definition any_subnets (sp : bool) (x : anet) (d : Z) (np : option Z) : res (aseq nit anet) :=
  if anet_is_v4 x then s <- subnets sp V4 (an_net x) d np ;; Ret (aseq_make net_ops V4 (s_begin s) (s_end s))
  else s <- subnets sp V6 (an_net x) d np ;; Ret (aseq_make net_ops V6 (s_begin s) (s_end s)).
Definition any_subnets_code (sp : bool) (x : anet) (code : ec) (d : Z) (np : option Z) : res (aseq nit anet * ec) :=
  if anet_is_v4 x then '(s, code) <- subnets_code sp V4 (an_net x) code d np ;; Ret (aseq_make net_ops V4 (s_begin s) (s_end s), code)
  else '(s, code) <- subnets_code sp V6 (an_net x) code d np ;; Ret (aseq_make net_ops V6 (s_begin s) (s_end s), code).

(** Default constructor of ip_any_iterator, ip-any-iterator.hpp 57 with 449-459. *)
Definition host_aiter_default : aiter ait aaddr := mk_ai V4 (ait_default V4) aa_default.
Definition net_aiter_default : aiter nit anet := mk_ai V4 (nit_default V4) an_default.

(** ** ip_exclude_network_iterator<ip_network>, ip-network-iterator.hpp 461-664 *)
Record axit := mk_axit { ax_other : anet; ax_s1 : anet; ax_s2 : anet; ax_current : anet }.
Definition axit_default : axit := mk_axit an_default an_default an_default an_default.
Definition any_halves (sp : bool) (x : anet) : res (anet * anet) :=
  s <- any_subnets sp x 1 None ;; a <- aseq_at net_ops s 0 ;; b <- aseq_at net_ops s 1 ;; Ret (a, b).
(** operator++, ip-network-iterator.hpp 511-556, see IterModel. *)
Definition axit_next (sp : bool) (x : axit) : res axit :=
  e1 <- anet_eqb (ax_s1 x) (ax_other x) ;;
  e2 <- anet_eqb (ax_s2 x) (ax_other x) ;;
  if negb e1 && negb e2 then
    i1 <- anet_subnet_of sp (ax_other x) (ax_s1 x) ;;
    if i1 : bool then
      c <- anet_eqb (ax_current x) (ax_s2 x) ;;
      if negb c then '(s1, s2) <- any_halves sp (ax_s1 x) ;; Ret (mk_axit (ax_other x) s1 s2 (ax_s2 x))
      else Ret axit_default
    else
      i2 <- anet_subnet_of sp (ax_other x) (ax_s2 x) ;;
      if i2 : bool then
        c <- anet_eqb (ax_current x) (ax_s1 x) ;;
        if negb c then '(s1, s2) <- any_halves sp (ax_s2 x) ;; Ret (mk_axit (ax_other x) s1 s2 (ax_s1 x))
        else Ret axit_default
      else UB AssertFailed
  else if e1 then
    c <- anet_eqb (ax_current x) (ax_s2 x) ;;
    if negb c then Ret (mk_axit (ax_other x) (ax_s1 x) (ax_s2 x) (ax_s2 x)) else Ret axit_default
  else if e2 then
    c <- anet_eqb (ax_current x) (ax_s1 x) ;;
    if negb c then Ret (mk_axit (ax_other x) (ax_s1 x) (ax_s2 x) (ax_s1 x)) else Ret axit_default
  else UB AssertFailed.
Definition axit_make (sp : bool) (network other : anet) : res axit :=
  '(s1, s2) <- any_halves sp network ;; axit_next sp (mk_axit other s1 s2 network).
Definition axit_eqb (a b : axit) : res bool := anet_eqb (ax_current a) (ax_current b).
Record aexclude := mk_aexclude { ae_begin : axit; ae_end : axit }.
Definition aexclude_default : aexclude := mk_aexclude axit_default axit_default.
(** set_scope_id("") on an address (ip-any-network.hpp 651-652, the throwing
    overload ip-any-address.hpp 1178-1182). *)
Definition any_clear_scope (x : aaddr) : res aaddr :=
  if ver_eqb (aa_ver x) V6 then a <- remove_scope V6 (aa_addr x) ;; Ret (mk_aa V6 a) else Ret x.
(** address_exclude with an error code, ip-any-network.hpp 644-666. *)
Definition any_exclude_code (sp : bool) (x other : anet) (code : ec) : res (aexclude * ec) :=
  if negb (ver_eqb (an_ver x) (an_ver other)) then Ret (aexclude_default, invalid_version)
  else
    addr1 <- any_clear_scope (anet_address x) ;;
    addr2 <- any_clear_scope (anet_address other) ;;
    lhs <- anet_from_address addr1 (anet_prefixlen x) true ;;
    rhs <- anet_from_address addr2 (anet_prefixlen other) true ;;
    sub <- anet_subnet_of sp rhs lhs ;;
    if negb sub then Ret (aexclude_default, not_contained_network)
    else
      eq <- anet_eqb lhs rhs ;;
      if eq : bool then Ret (aexclude_default, no_error)
      else x <- axit_make sp lhs rhs ;; Ret (mk_aexclude x axit_default, no_error).
(** The throwing overload, ip-any-network.hpp 608-615. *)
Definition any_exclude (sp : bool) (x other : anet) : res aexclude :=
  '(result, code) <- any_exclude_code sp x other no_error ;; raise_if result code 0.
Definition aexclude_walk (sp : bool) := walk axit_eqb (axit_next sp) ax_current.
