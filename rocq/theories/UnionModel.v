(** The unions inside the version-erased classes.  Models: ip-any-address.hpp
    (union 1342-1361, tag 1362), ip-any-network.hpp (union 1316-1329, tag 1330),
    ip-any-iterator.hpp (union 449-462, tag 463).  In AnyModel an object is a
    version and a record of that version; here it is, as in the code, a version
    tag next to a union which knows which of its two members was last written,
    and reading or updating the other member is a distinct outcome, as is
    value() of an empty optional. *)
From Verif Require Import Base UnicodeModel FixedStringModel V4Model V6Model Uint128Model SpecInt AddressModel NetworkModel
  IterModel ClassifyModel AnyModel CodeModel StreamModel LiteralModel ScopeModel.

(** A union of a version 4 and a version 6 member: the active member. *)
Inductive un (A : Type) := M4 (a : A) | M6 (a : A).
Arguments M4 {A}. Arguments M6 {A}.
(** Outcome of a call: an outcome of the versioned code, an access to a member
    which is not the active one, or value() of an empty optional. *)
Inductive ures (A : Type) := Val (r : res A) | Inactive | NoValue.
Arguments Val {A}. Arguments Inactive {A}. Arguments NoValue {A}.
Definition ubind {A B : Type} (m : ures A) (k : A -> ures B) : ures B :=
  match m with
  | Val (Ret a) => k a | Val (Err e v) => Val (Err e v) | Val (UB u) => Val (UB u)
  | Inactive => Inactive | NoValue => NoValue
  end.
Notation "x <~ m ~~ k" := (ubind m (fun x => k)) (at level 61, m at next level, right associativity).
Notation "' p <~ m ~~ k" := (ubind m (fun x => match x with p => k end)) (at level 61, p pattern, m at next level, right associativity).
(** Member access _ipv.ipv4 and _ipv.ipv6. *)
Definition mem4 {A} (u : un A) : ures A := match u with M4 a => Val (Ret a) | M6 _ => Inactive end.
Definition mem6 {A} (u : un A) : ures A := match u with M6 a => Val (Ret a) | M4 _ => Inactive end.
(** optional::value(), optional.hpp. *)
Definition value_of {A} (o : option A) : ures A := match o with Some a => Val (Ret a) | None => NoValue end.

(** ** ip_address, ip-any-address.hpp *)
Record uaddr := mk_ua { ua_ver : ver; ua_un : un addr }.
(** Constructors: default 305 with 1343 and 1362, of an ipv4_address 315 with 1346, of an ipv6_address 325 with 1349,
    of bytes 335 with 1352 and 345 with 1355. *)
Definition ua_default : uaddr := mk_ua V4 (M4 (addr_default V4)).
Definition ua_of4 (a : addr) : uaddr := mk_ua V4 (M4 a).
Definition ua_of6 (a : addr) : uaddr := mk_ua V6 (M6 a).
Definition ua_bytes4 (b : list Z) : uaddr := mk_ua V4 (M4 (mk_addr b [])).
Definition ua_bytes6 (b : list Z) : uaddr := mk_ua V6 (M6 (mk_addr b [])).
(** is_v4 183-185, is_v6 192-194. *)
Definition ua_is_v4 (x : uaddr) : bool := ver_eqb (ua_ver x) V4.
Definition ua_is_v6 (x : uaddr) : bool := ver_eqb (ua_ver x) V6.

(** is_multicast, ip-any-address.hpp 98. *)
Definition ua_is_multicast (x : uaddr) : ures bool :=
  if ua_is_v4 x then m <~ mem4 (ua_un x) ~~ Val (Ret (is_multicast V4 m)) else m <~ mem6 (ua_un x) ~~ Val (Ret (is_multicast V6 m)).

(** is_private, ip-any-address.hpp 109. *)
Definition ua_is_private (x : uaddr) : ures bool :=
  if ua_is_v4 x then m <~ mem4 (ua_un x) ~~ Val (is_private V4 m) else m <~ mem6 (ua_un x) ~~ Val (is_private V6 m).

(** is_global, ip-any-address.hpp 120. *)
Definition ua_is_global (x : uaddr) : ures bool :=
  if ua_is_v4 x then m <~ mem4 (ua_un x) ~~ Val (is_global V4 m) else m <~ mem6 (ua_un x) ~~ Val (is_global V6 m).

(** is_reserved, ip-any-address.hpp 129. *)
Definition ua_is_reserved (x : uaddr) : ures bool :=
  if ua_is_v4 x then m <~ mem4 (ua_un x) ~~ Val (Ret (is_reserved V4 m)) else m <~ mem6 (ua_un x) ~~ Val (Ret (is_reserved V6 m)).

(** is_loopback, ip-any-address.hpp 140. *)
Definition ua_is_loopback (x : uaddr) : ures bool :=
  if ua_is_v4 x then m <~ mem4 (ua_un x) ~~ Val (Ret (is_loopback V4 m)) else m <~ mem6 (ua_un x) ~~ Val (Ret (is_loopback V6 m)).

(** is_link_local, ip-any-address.hpp 149. *)
Definition ua_is_link_local (x : uaddr) : ures bool :=
  if ua_is_v4 x then m <~ mem4 (ua_un x) ~~ Val (Ret (is_link_local V4 m)) else m <~ mem6 (ua_un x) ~~ Val (Ret (is_link_local V6 m)).

(** is_unspecified, ip-any-address.hpp 164. *)
Definition ua_is_unspecified (x : uaddr) : ures bool :=
  if ua_is_v4 x then m <~ mem4 (ua_un x) ~~ Val (Ret (is_unspecified m)) else m <~ mem6 (ua_un x) ~~ Val (Ret (is_unspecified m)).

(** is_site_local, ip-any-address.hpp 175. *)
Definition ua_is_site_local (x : uaddr) : ures bool :=
  if ua_is_v4 x then Val (Ret false) else m <~ mem6 (ua_un x) ~~ Val (Ret (v6_is_site_local m)).

(** size, ip-any-address.hpp 204. *)
Definition ua_size (x : uaddr) : ures Z :=
  if ua_is_v4 x then m <~ mem4 (ua_un x) ~~ Val (Ret (Z.of_nat (nbytes V4))) else m <~ mem6 (ua_un x) ~~ Val (Ret (Z.of_nat (nbytes V6))).

(** hash, ip-any-address.hpp 216. *)
Definition ua_hash (is64 : bool) (x : uaddr) : ures Z :=
  if ua_is_v4 x then m <~ mem4 (ua_un x) ~~ Val (addr_hash is64 V4 m) else m <~ mem6 (ua_un x) ~~ Val (addr_hash is64 V6 m).

(** ipv4_mapped, ip-any-address.hpp 228. *)
Definition ua_ipv4_mapped (x : uaddr) : ures (option (list Z)) :=
  if ua_is_v4 x then Val (Ret None) else m <~ mem6 (ua_un x) ~~ Val (v6_ipv4_mapped (a_bytes m)).

(** sixtofour, ip-any-address.hpp 241. *)
Definition ua_sixtofour (x : uaddr) : ures (option (list Z)) :=
  if ua_is_v4 x then Val (Ret None) else m <~ mem6 (ua_un x) ~~ Val (v6_sixtofour (a_bytes m)).

(** teredo, ip-any-address.hpp 257. *)
Definition ua_teredo (x : uaddr) : ures (option (list Z * list Z)) :=
  if ua_is_v4 x then Val (Ret None) else m <~ mem6 (ua_un x) ~~ Val (v6_teredo (a_bytes m)).

(** data, ip-any-address.hpp 297. *)
Definition ua_data (x : uaddr) : ures (list Z) :=
  if ua_is_v4 x then m <~ mem4 (ua_un x) ~~ Val (Ret (a_bytes m)) else m <~ mem6 (ua_un x) ~~ Val (Ret (a_bytes m)).

(** to_uint32, ip-any-address.hpp 424. *)
Definition ua_to_uint32 (x : uaddr) : ures Z :=
  if ua_is_v4 x then m <~ mem4 (ua_un x) ~~ Val (addr_to_uint V4 m) else m <~ mem6 (ua_un x) ~~ Val (n <- addr_to_uint V6 m ;; Ret (u32_of_u128 n)).

(** to_uint128, ip-any-address.hpp 437. *)
Definition ua_to_uint128 (x : uaddr) : ures Z :=
  if ua_is_v4 x then m <~ mem4 (ua_un x) ~~ Val (n <- addr_to_uint V4 m ;; Ret (u128_of_u32 n)) else m <~ mem6 (ua_un x) ~~ Val (addr_to_uint V6 m).

(** to_string, ip-any-address.hpp 449. *)
Definition ua_to_string (fmt : format) (x : uaddr) : ures (list Z) :=
  if ua_is_v4 x then m <~ mem4 (ua_un x) ~~ Val (addr_to_string V4 m fmt) else m <~ mem6 (ua_un x) ~~ Val (addr_to_string V6 m fmt).

(** reverse_pointer, ip-any-address.hpp 523. *)
Definition ua_reverse_pointer (x : uaddr) : ures (list Z) :=
  if ua_is_v4 x then m <~ mem4 (ua_un x) ~~ Val (v4_reverse_pointer true (a_bytes m)) else m <~ mem6 (ua_un x) ~~ Val (v6_reverse_pointer (a_bytes m)).

(** v4(), ip-any-address.hpp 267-272, and v6(), 281-286. *)
Definition ua_v4 (x : uaddr) : ures (option addr) :=
  if ua_is_v6 x then Val (Ret None) else m <~ mem4 (ua_un x) ~~ Val (Ret (Some m)).
Definition ua_v6 (x : uaddr) : ures (option addr) :=
  if ua_is_v4 x then Val (Ret None) else m <~ mem6 (ua_un x) ~~ Val (Ret (Some m)).
(** from_bytes of a pointer, a count and a version, ip-any-address.hpp 388-390. *)
Definition ua_from_bytes (src : list Z) (count : Z) (v : ver) : ures uaddr :=
  if ver_eqb v V4 then a <~ Val (from_bytes V4 src count) ~~ Val (Ret (ua_of4 a))
  else a <~ Val (from_bytes V6 src count) ~~ Val (Ret (ua_of6 a)).
(** set_scope_id: every overload tests the tag and updates the member in place,
    ip-any-address.hpp 748-943, 1041-1129 and 1178-1182. *)
Definition ua_scope_set (T : chtype) (x : uaddr) (s : list Z) : ures uaddr :=
  if ua_is_v6 x then m <~ mem6 (ua_un x) ~~ m <~ Val (scope_set T m s) ~~ Val (Ret (mk_ua (ua_ver x) (M6 m))) else Val (Ret x).
Definition ua_scope_set_code (T : chtype) (x : uaddr) (s : list Z) (code : ec) : ures (uaddr * ec) :=
  if ua_is_v6 x then
    m <~ mem6 (ua_un x) ~~ '(m, code) <~ Val (scope_set_code T m s code) ~~ Val (Ret (mk_ua (ua_ver x) (M6 m), code))
  else Val (Ret (x, code)).
Definition ua_scope_set_array (T : chtype) (x : uaddr) (data : list Z) : ures uaddr :=
  if ua_is_v6 x then
    m <~ mem6 (ua_un x) ~~ m <~ Val (scope_set_array T m data) ~~ Val (Ret (mk_ua (ua_ver x) (M6 m)))
  else Val (Ret x).
(** set_scope_id of the empty literal, ip-any-address.hpp 1178-1182, as AnyModel.any_clear_scope. *)
Definition ua_clear_scope (x : uaddr) : ures uaddr :=
  if ua_is_v6 x then m <~ mem6 (ua_un x) ~~ m <~ Val (remove_scope V6 m) ~~ Val (Ret (mk_ua (ua_ver x) (M6 m))) else Val (Ret x).
(** get_scope_id, ip-any-address.hpp 1193-1198. *)
Definition ua_get_scope (x : uaddr) : ures scope :=
  if ua_is_v4 x then Val (scope_make (fs_empty 16)) else m <~ mem6 (ua_un x) ~~ Val (get_scope m).
(** == ip-any-address.hpp 1247-1252, <=> 1276-1282, < 1294-1302. *)
Definition ua_eqb (x y : uaddr) : ures bool :=
  if negb (ver_eqb (ua_ver x) (ua_ver y)) then Val (Ret false)
  else if ua_is_v4 x then a <~ mem4 (ua_un x) ~~ b <~ mem4 (ua_un y) ~~ Val (addr_eqb V4 a b)
  else a <~ mem6 (ua_un x) ~~ b <~ mem6 (ua_un y) ~~ Val (addr_eqb V6 a b).
Definition ua_cmp (x y : uaddr) : ures comparison :=
  match ver_num (ua_ver x) ?= ver_num (ua_ver y) with
  | Eq =>
    if ua_is_v4 x then a <~ mem4 (ua_un x) ~~ b <~ mem4 (ua_un y) ~~ Val (addr_cmp V4 a b)
    else a <~ mem6 (ua_un x) ~~ b <~ mem6 (ua_un y) ~~ Val (addr_cmp V6 a b)
  | c => Val (Ret c)
  end.
Definition ua_ltb (x y : uaddr) : ures bool :=
  if ver_num (ua_ver x) <? ver_num (ua_ver y) then Val (Ret true)
  else if ver_num (ua_ver x) >? ver_num (ua_ver y) then Val (Ret false)
  else if ua_is_v4 x then a <~ mem4 (ua_un x) ~~ b <~ mem4 (ua_un y) ~~ Val (addr_ltb V4 a b)
  else a <~ mem6 (ua_un x) ~~ b <~ mem6 (ua_un y) ~~ Val (addr_ltb V6 a b).
(** swap, ip-any-address.hpp 533-537: three copies of whole objects, tag and union. *)
Definition ua_swap (x y : uaddr) : uaddr * uaddr := let tmp := x in let x := y in let y := tmp in (x, y).
(** ip_any_parser, ip-any-address.hpp 33-41 and 43-54. *)
Definition ua_parse (ts : list tok) : ures uaddr :=
  '(ipv4, code) <~ Val (addr_parse_code V4 ts no_error) ~~
  if ec_eqb code no_error then Val (Ret (ua_of4 ipv4))
  else a <~ Val (addr_parse V6 ts) ~~ Val (Ret (ua_of6 a)).
Definition ua_parse_code (ts : list tok) (code : ec) : ures (uaddr * ec) :=
  '(ipv4, code) <~ Val (addr_parse_code V4 ts no_error) ~~
  if ec_eqb code no_error then Val (Ret (ua_of4 ipv4, code))
  else
    '(ipv6, code) <~ Val (addr_parse_code V6 ts code) ~~
    if ec_eqb code no_error then Val (Ret (ua_of6 ipv6, code)) else Val (Ret (ua_default, code)).

(** ** ip_network, ip-any-network.hpp *)
Record unet := mk_unet { un_ver : ver; un_un : un net }.
(** Constructors: default 703 with 1317, of an ipv4_network 713 with 1320, of an ipv6_network 723 with 1323. *)
Definition un_default : unet := mk_unet V4 (M4 (net_default V4)).
Definition un_of4 (n : net) : unet := mk_unet V4 (M4 n).
Definition un_of6 (n : net) : unet := mk_unet V6 (M6 n).
(** is_v4, ip-any-network.hpp 255-257. *)
Definition un_is_v4 (x : unet) : bool := ver_eqb (un_ver x) V4.

(** prefixlen, ip-any-network.hpp 93. *)
Definition un_prefixlen (x : unet) : ures Z :=
  if un_is_v4 x then m <~ mem4 (un_un x) ~~ Val (Ret (n_prefix m)) else m <~ mem6 (un_un x) ~~ Val (Ret (n_prefix m)).

(** network_address, ip-any-network.hpp 104. *)
Definition un_address (x : unet) : ures uaddr :=
  if un_is_v4 x then m <~ mem4 (un_un x) ~~ Val (Ret (ua_of4 (n_addr m))) else m <~ mem6 (un_un x) ~~ Val (Ret (ua_of6 (n_addr m))).

(** broadcast_address, ip-any-network.hpp 116. *)
Definition un_broadcast (x : unet) : ures uaddr :=
  if un_is_v4 x then m <~ mem4 (un_un x) ~~ Val (Ret (ua_of4 (broadcast m))) else m <~ mem6 (un_un x) ~~ Val (Ret (ua_of6 (broadcast m))).

(** netmask, ip-any-network.hpp 128. *)
Definition un_netmask (x : unet) : ures uaddr :=
  if un_is_v4 x then m <~ mem4 (un_un x) ~~ Val (Ret (ua_of4 (n_mask m))) else m <~ mem6 (un_un x) ~~ Val (Ret (ua_of6 (n_mask m))).

(** hostmask, ip-any-network.hpp 139. *)
Definition un_hostmask (x : unet) : ures uaddr :=
  if un_is_v4 x then m <~ mem4 (un_un x) ~~ Val (Ret (ua_of4 (hostmask m))) else m <~ mem6 (un_un x) ~~ Val (Ret (ua_of6 (hostmask m))).

(** is_multicast, ip-any-network.hpp 153. *)
Definition un_is_multicast (x : unet) : ures bool :=
  if un_is_v4 x then m <~ mem4 (un_un x) ~~ Val (Ret (net_is_multicast V4 m)) else m <~ mem6 (un_un x) ~~ Val (Ret (net_is_multicast V6 m)).

(** is_private, ip-any-network.hpp 167. *)
Definition un_is_private (x : unet) : ures bool :=
  if un_is_v4 x then m <~ mem4 (un_un x) ~~ Val (Ret (net_is_private V4 m)) else m <~ mem6 (un_un x) ~~ Val (Ret (net_is_private V6 m)).

(** is_global, ip-any-network.hpp 181. *)
Definition un_is_global (x : unet) : ures bool :=
  if un_is_v4 x then m <~ mem4 (un_un x) ~~ Val (Ret (net_is_global V4 m)) else m <~ mem6 (un_un x) ~~ Val (Ret (net_is_global V6 m)).

(** is_reserved, ip-any-network.hpp 193. *)
Definition un_is_reserved (x : unet) : ures bool :=
  if un_is_v4 x then m <~ mem4 (un_un x) ~~ Val (Ret (net_is_reserved V4 m)) else m <~ mem6 (un_un x) ~~ Val (Ret (net_is_reserved V6 m)).

(** is_loopback, ip-any-network.hpp 207. *)
Definition un_is_loopback (x : unet) : ures bool :=
  if un_is_v4 x then m <~ mem4 (un_un x) ~~ Val (Ret (net_is_loopback V4 m)) else m <~ mem6 (un_un x) ~~ Val (Ret (net_is_loopback V6 m)).

(** is_link_local, ip-any-network.hpp 220. *)
Definition un_is_link_local (x : unet) : ures bool :=
  if un_is_v4 x then m <~ mem4 (un_un x) ~~ Val (Ret (net_is_link_local V4 m)) else m <~ mem6 (un_un x) ~~ Val (Ret (net_is_link_local V6 m)).

(** is_unspecified, ip-any-network.hpp 234. *)
Definition un_is_unspecified (x : unet) : ures bool :=
  if un_is_v4 x then m <~ mem4 (un_un x) ~~ Val (Ret (net_is_unspecified m)) else m <~ mem6 (un_un x) ~~ Val (Ret (net_is_unspecified m)).

(** is_site_local, ip-any-network.hpp 247. *)
Definition un_is_site_local (x : unet) : ures bool :=
  if un_is_v4 x then Val (Ret false) else m <~ mem6 (un_un x) ~~ Val (Ret (v6_net_is_site_local m)).

(** hash, ip-any-network.hpp 289. *)
Definition un_hash (is64 : bool) (x : unet) : ures Z :=
  if un_is_v4 x then m <~ mem4 (un_un x) ~~ Val (net_hash is64 V4 m) else m <~ mem6 (un_un x) ~~ Val (net_hash is64 V6 m).

(** addresses_count, ip-any-network.hpp 298. *)
Definition un_count (x : unet) : ures Z :=
  if un_is_v4 x then m <~ mem4 (un_un x) ~~ Val (n <- addresses_count V4 m ;; Ret (u128_of_u32 n)) else m <~ mem6 (un_un x) ~~ Val (addresses_count V6 m).

(** to_string, ip-any-network.hpp 783. *)
Definition un_to_string (fmt : format) (x : unet) : ures (list Z) :=
  if un_is_v4 x then m <~ mem4 (un_un x) ~~ Val (net_to_string V4 m fmt) else m <~ mem6 (un_un x) ~~ Val (net_to_string V6 m fmt).

(** supernet, ip-any-network.hpp 432. *)
Definition un_supernet (d : Z) (np : option Z) (x : unet) : ures unet :=
  if un_is_v4 x then m <~ mem4 (un_un x) ~~ Val (n <- supernet V4 m d np ;; Ret (un_of4 n)) else m <~ mem6 (un_un x) ~~ Val (n <- supernet V6 m d np ;; Ret (un_of6 n)).

(** supernet with an error code, ip-any-network.hpp 460. *)
Definition un_supernet_code (code : ec) (d : Z) (np : option Z) (x : unet) : ures (unet * ec) :=
  if un_is_v4 x then m <~ mem4 (un_un x) ~~ Val ('(n, code) <- supernet_code V4 m code d np ;; Ret (un_of4 n, code)) else m <~ mem6 (un_un x) ~~ Val ('(n, code) <- supernet_code V6 m code d np ;; Ret (un_of6 n, code)).

(** v4(), ip-any-network.hpp 675-680, and v6(), 689-694. *)
Definition un_v4 (x : unet) : ures (option net) :=
  if ver_eqb (un_ver x) V4 then m <~ mem4 (un_un x) ~~ Val (Ret (Some m)) else Val (Ret None).
Definition un_v6 (x : unet) : ures (option net) :=
  if ver_eqb (un_ver x) V6 then m <~ mem6 (un_un x) ~~ Val (Ret (Some m)) else Val (Ret None).
(** contains ip-any-network.hpp 321-327, overlaps 348-354, subnet_of 375-381, supernet_of 402-408. *)
Definition un_contains (x : unet) (a : uaddr) : ures bool :=
  if ver_eqb (un_ver x) (ua_ver a) then
    if un_is_v4 x then m <~ mem4 (un_un x) ~~ o <~ ua_v4 a ~~ b <~ value_of o ~~ Val (Ret (contains m b))
    else m <~ mem6 (un_un x) ~~ o <~ ua_v6 a ~~ b <~ value_of o ~~ Val (Ret (contains m b))
  else Val (Ret false).
Definition un_overlaps (x y : unet) : ures bool :=
  if ver_eqb (un_ver x) (un_ver y) then
    if un_is_v4 x then m <~ mem4 (un_un x) ~~ o <~ un_v4 y ~~ b <~ value_of o ~~ Val (Ret (overlaps m b))
    else m <~ mem6 (un_un x) ~~ o <~ un_v6 y ~~ b <~ value_of o ~~ Val (Ret (overlaps m b))
  else Val (Ret false).
Definition un_subnet_of (sp : bool) (x y : unet) : ures bool :=
  if ver_eqb (un_ver x) (un_ver y) then
    if un_is_v4 x then m <~ mem4 (un_un x) ~~ o <~ un_v4 y ~~ b <~ value_of o ~~ Val (subnet_of sp V4 m b)
    else m <~ mem6 (un_un x) ~~ o <~ un_v6 y ~~ b <~ value_of o ~~ Val (subnet_of sp V6 m b)
  else Val (Ret false).
Definition un_supernet_of (sp : bool) (x y : unet) : ures bool :=
  if ver_eqb (un_ver x) (un_ver y) then
    if un_is_v4 x then m <~ mem4 (un_un x) ~~ o <~ un_v4 y ~~ b <~ value_of o ~~ Val (supernet_of sp V4 m b)
    else m <~ mem6 (un_un x) ~~ o <~ un_v6 y ~~ b <~ value_of o ~~ Val (supernet_of sp V6 m b)
  else Val (Ret false).
(** from_address, ip-any-network.hpp 744-748 and 767-771. *)
Definition un_from_address (a : uaddr) (p : Z) (strict : bool) : ures unet :=
  if ua_is_v4 a then o <~ ua_v4 a ~~ b <~ value_of o ~~ n <~ Val (from_address V4 b p strict) ~~ Val (Ret (un_of4 n))
  else o <~ ua_v6 a ~~ b <~ value_of o ~~ n <~ Val (from_address V6 b p strict) ~~ Val (Ret (un_of6 n)).
Definition un_from_address_code (a : uaddr) (code : ec) (p : Z) (strict : bool) : ures (unet * ec) :=
  if ua_is_v4 a then
    o <~ ua_v4 a ~~ b <~ value_of o ~~ '(n, code) <~ Val (from_address_code V4 b code p strict) ~~ Val (Ret (un_of4 n, code))
  else
    o <~ ua_v6 a ~~ b <~ value_of o ~~ '(n, code) <~ Val (from_address_code V6 b code p strict) ~~ Val (Ret (un_of6 n, code)).
(** == ip-any-network.hpp 1221-1226, <=> 1250-1256, < 1268-1276. *)
Definition un_eqb (x y : unet) : ures bool :=
  if negb (ver_eqb (un_ver x) (un_ver y)) then Val (Ret false)
  else if un_is_v4 x then a <~ mem4 (un_un x) ~~ b <~ mem4 (un_un y) ~~ Val (net_eqb V4 a b)
  else a <~ mem6 (un_un x) ~~ b <~ mem6 (un_un y) ~~ Val (net_eqb V6 a b).
Definition un_cmp (x y : unet) : ures comparison :=
  match ver_num (un_ver x) ?= ver_num (un_ver y) with
  | Eq =>
    if un_is_v4 x then a <~ mem4 (un_un x) ~~ b <~ mem4 (un_un y) ~~ Val (net_cmp V4 a b)
    else a <~ mem6 (un_un x) ~~ b <~ mem6 (un_un y) ~~ Val (net_cmp V6 a b)
  | c => Val (Ret c)
  end.
Definition un_ltb (x y : unet) : ures bool :=
  if ver_num (un_ver x) <? ver_num (un_ver y) then Val (Ret true)
  else if ver_num (un_ver x) >? ver_num (un_ver y) then Val (Ret false)
  else if un_is_v4 x then a <~ mem4 (un_un x) ~~ b <~ mem4 (un_un y) ~~ Val (net_ltb V4 a b)
  else a <~ mem6 (un_un x) ~~ b <~ mem6 (un_un y) ~~ Val (net_ltb V6 a b).
(** net_any_parser, ip-any-network.hpp 34-42 and 44-56. *)
Definition un_parse (ts : list tok) (strict : bool) : ures unet :=
  '(net4, code) <~ Val (net_parse_code V4 ts no_error strict) ~~
  if ec_eqb code no_error then Val (Ret (un_of4 net4))
  else n <~ Val (net_parse V6 ts strict) ~~ Val (Ret (un_of6 n)).
Definition un_parse_code (ts : list tok) (code : ec) (strict : bool) : ures (unet * ec) :=
  '(net4, code) <~ Val (net_parse_code V4 ts no_error strict) ~~
  if ec_eqb code no_error then Val (Ret (un_of4 net4, code))
  else
    '(net6, code) <~ Val (net_parse_code V6 ts code strict) ~~
    if ec_eqb code no_error then Val (Ret (un_of6 net6, code)) else Val (Ret (un_default, code)).

(** ** ip_any_iterator, ip-any-iterator.hpp: the tag, the union of the two iterators, the current element *)
Record uiter (I E : Type) := mk_ui { ui_ver : ver; ui_un : un I; ui_cur : E }.
Arguments mk_ui {I E}. Arguments ui_ver {I E}. Arguments ui_un {I E}. Arguments ui_cur {I E}.
(** The elements are themselves unions: AnyModel.host_ops and net_ops with the constructors above. *)
Definition u_elem {A B : Type} (of4 of6 : A -> B) (v : ver) (a : A) : B := match v with V4 => of4 a | V6 => of6 a end.
Definition host_uops : iops ait uaddr := mk_iops _ _
  (fun v it => u_elem ua_of4 ua_of6 v (it_current it)) ait_add ait_sub (fun v it n => a <- ait_at v it n ;; Ret (u_elem ua_of4 ua_of6 v a))
  (fun v a b => Ret (ait_uint_diff v a b)) ait_diff ait_eqb ait_cmp ait_ltb ait_base ait_reverse.
Definition net_uops : iops nit unet := mk_iops _ _
  (fun v it => u_elem un_of4 un_of6 v (ni_current it)) nit_add nit_sub (fun v it n => a <- nit_at v it n ;; Ret (u_elem un_of4 un_of6 v a))
  nit_uint_diff nit_diff nit_eqb nit_cmp nit_ltb nit_base nit_reverse.
(** Constructors, ip-any-iterator.hpp 57, 64-65 and 72-73, with 450-457. *)
Definition host_uiter_default : uiter ait uaddr := mk_ui V4 (M4 (ait_default V4)) ua_default.
Definition net_uiter_default : uiter nit unet := mk_ui V4 (M4 (nit_default V4)) un_default.
Definition ui_of4 {I E} (o : iops I E) (it : I) : uiter I E := mk_ui V4 (M4 it) (o_get o V4 it).
Definition ui_of6 {I E} (o : iops I E) (it : I) : uiter I E := mk_ui V6 (M6 it) (o_get o V6 it).
(** uint_diff, ip-any-iterator.hpp 83-88. *)
Definition ui_udiff {I E} (o : iops I E) (a b : uiter I E) : ures Z :=
  if negb (ver_eqb (ui_ver a) (ui_ver b)) then Val (Ret 0)
  else if ver_eqb (ui_ver a) V4 then x <~ mem4 (ui_un a) ~~ y <~ mem4 (ui_un b) ~~ Val (n <- o_udiff o V4 x y ;; Ret (u128_of_u32 n))
  else x <~ mem6 (ui_un a) ~~ y <~ mem6 (ui_un b) ~~ Val (o_udiff o V6 x y).
(** operator[], ip-any-iterator.hpp 125-127. *)
Definition ui_at {I E} (o : iops I E) (a : uiter I E) (n : Z) : ures E :=
  if ver_eqb (ui_ver a) V4 then x <~ mem4 (ui_un a) ~~ Val (o_at o V4 x (u32_of_u128 n))
  else x <~ mem6 (ui_un a) ~~ Val (o_at o V6 x n).
(** add, ip-any-iterator.hpp 429-437, and sub, 439-447: the member is updated in
    place, then read again for the current element. *)
Definition ui_add {I E} (o : iops I E) (a : uiter I E) (n : Z) : ures (uiter I E) :=
  if ver_eqb (ui_ver a) V4 then
    x <~ mem4 (ui_un a) ~~ x <~ Val (o_add o V4 x (u32_of_u128 n)) ~~
    let u := M4 x in y <~ mem4 u ~~ Val (Ret (mk_ui (ui_ver a) u (o_get o V4 y)))
  else
    x <~ mem6 (ui_un a) ~~ x <~ Val (o_add o V6 x n) ~~
    let u := M6 x in y <~ mem6 u ~~ Val (Ret (mk_ui (ui_ver a) u (o_get o V6 y))).
Definition ui_sub {I E} (o : iops I E) (a : uiter I E) (n : Z) : ures (uiter I E) :=
  if ver_eqb (ui_ver a) V4 then
    x <~ mem4 (ui_un a) ~~ x <~ Val (o_sub o V4 x (u32_of_u128 n)) ~~
    let u := M4 x in y <~ mem4 u ~~ Val (Ret (mk_ui (ui_ver a) u (o_get o V4 y)))
  else
    x <~ mem6 (ui_un a) ~~ x <~ Val (o_sub o V6 x n) ~~
    let u := M6 x in y <~ mem6 u ~~ Val (Ret (mk_ui (ui_ver a) u (o_get o V6 y))).
(** operator- ip-any-iterator.hpp 313-318, == 328-333, <=> 357-363, < 375-380. *)
Definition ui_diff {I E} (o : iops I E) (a b : uiter I E) : ures Z :=
  if negb (ver_eqb (ui_ver a) (ui_ver b)) then Val (Ret 0)
  else if ver_eqb (ui_ver a) V4 then x <~ mem4 (ui_un a) ~~ y <~ mem4 (ui_un b) ~~ Val (Ret (o_diff o V4 x y))
  else x <~ mem6 (ui_un a) ~~ y <~ mem6 (ui_un b) ~~ Val (Ret (o_diff o V6 x y)).
Definition ui_eqb {I E} (o : iops I E) (a b : uiter I E) : ures bool :=
  if negb (ver_eqb (ui_ver a) (ui_ver b)) then Val (Ret false)
  else if ver_eqb (ui_ver a) V4 then x <~ mem4 (ui_un a) ~~ y <~ mem4 (ui_un b) ~~ Val (o_eqb o V4 x y)
  else x <~ mem6 (ui_un a) ~~ y <~ mem6 (ui_un b) ~~ Val (o_eqb o V6 x y).
Definition ui_cmp {I E} (o : iops I E) (a b : uiter I E) : ures comparison :=
  match ver_num (ui_ver a) ?= ver_num (ui_ver b) with
  | Eq =>
    if ver_eqb (ui_ver a) V4 then x <~ mem4 (ui_un a) ~~ y <~ mem4 (ui_un b) ~~ Val (o_cmp o V4 x y)
    else x <~ mem6 (ui_un a) ~~ y <~ mem6 (ui_un b) ~~ Val (o_cmp o V6 x y)
  | c => Val (Ret c)
  end.
Definition ui_ltb {I E} (o : iops I E) (a b : uiter I E) : ures bool :=
  if negb (ver_eqb (ui_ver a) (ui_ver b)) then Val (Ret false)
  else if ver_eqb (ui_ver a) V4 then x <~ mem4 (ui_un a) ~~ y <~ mem4 (ui_un b) ~~ Val (o_ltb o V4 x y)
  else x <~ mem6 (ui_un a) ~~ y <~ mem6 (ui_un b) ~~ Val (o_ltb o V6 x y).
(** base ip-any-iterator.hpp 421-423, reverse 425-427. *)
Definition ui_base {I E} (o : iops I E) (a : uiter I E) : ures (uiter I E) :=
  if ver_eqb (ui_ver a) V4 then x <~ mem4 (ui_un a) ~~ it <~ Val (o_base o V4 x) ~~ Val (Ret (ui_of4 o it))
  else x <~ mem6 (ui_un a) ~~ it <~ Val (o_base o V6 x) ~~ Val (Ret (ui_of6 o it)).
Definition ui_reverse {I E} (o : iops I E) (a : uiter I E) : ures (uiter I E) :=
  if ver_eqb (ui_ver a) V4 then x <~ mem4 (ui_un a) ~~ it <~ Val (o_reverse o V4 x) ~~ Val (Ret (ui_of4 o it))
  else x <~ mem6 (ui_un a) ~~ it <~ Val (o_reverse o V6 x) ~~ Val (Ret (ui_of6 o it)).
(** hosts, ip-any-network.hpp 498-506, and subnets, 535-543 and 575-583: begin and end. *)
Definition un_hosts (sp : bool) (x : unet) : ures (uiter ait uaddr * uiter ait uaddr) :=
  if un_is_v4 x then
    m <~ mem4 (un_un x) ~~ s <~ Val (hosts sp V4 m) ~~ Val (Ret (ui_of4 host_uops (h_begin s), ui_of4 host_uops (h_end s)))
  else
    m <~ mem6 (un_un x) ~~ s <~ Val (hosts sp V6 m) ~~ Val (Ret (ui_of6 host_uops (h_begin s), ui_of6 host_uops (h_end s))).
Definition un_subnets (sp : bool) (x : unet) (d : Z) (np : option Z) : ures (uiter nit unet * uiter nit unet) :=
  if un_is_v4 x then
    m <~ mem4 (un_un x) ~~ s <~ Val (subnets sp V4 m d np) ~~ Val (Ret (ui_of4 net_uops (s_begin s), ui_of4 net_uops (s_end s)))
  else
    m <~ mem6 (un_un x) ~~ s <~ Val (subnets sp V6 m d np) ~~ Val (Ret (ui_of6 net_uops (s_begin s), ui_of6 net_uops (s_end s))).
Definition un_subnets_code (sp : bool) (x : unet) (code : ec) (d : Z) (np : option Z) : ures (uiter nit unet * uiter nit unet * ec) :=
  if un_is_v4 x then
    m <~ mem4 (un_un x) ~~ '(s, code) <~ Val (subnets_code sp V4 m code d np) ~~
    Val (Ret (ui_of4 net_uops (s_begin s), ui_of4 net_uops (s_end s), code))
  else
    m <~ mem6 (un_un x) ~~ '(s, code) <~ Val (subnets_code sp V6 m code d np) ~~
    Val (Ret (ui_of6 net_uops (s_begin s), ui_of6 net_uops (s_end s), code)).

(** ** ip_exclude_network_iterator<ip_network>, ip-network-iterator.hpp 461-664 *)
Record uxit := mk_uxit { ux_other : unet; ux_s1 : unet; ux_s2 : unet; ux_current : unet }.
Definition uxit_default : uxit := mk_uxit un_default un_default un_default un_default.
(** subnets() and its elements 0 and 1, with at of ip-any-iterator.hpp 798-800. *)
Definition un_halves (sp : bool) (x : unet) : ures (unet * unet) :=
  '(b, e) <~ un_subnets sp x 1 None ~~
  i <~ ui_add net_uops b 0 ~~ j <~ ui_add net_uops b 1 ~~ Val (Ret (ui_cur i, ui_cur j)).
(** operator++, ip-network-iterator.hpp 511-556, see IterModel. *)
Definition uxit_next (sp : bool) (x : uxit) : ures uxit :=
  e1 <~ un_eqb (ux_s1 x) (ux_other x) ~~
  e2 <~ un_eqb (ux_s2 x) (ux_other x) ~~
  if negb e1 && negb e2 then
    i1 <~ un_subnet_of sp (ux_other x) (ux_s1 x) ~~
    if i1 : bool then
      c <~ un_eqb (ux_current x) (ux_s2 x) ~~
      if negb c then '(s1, s2) <~ un_halves sp (ux_s1 x) ~~ Val (Ret (mk_uxit (ux_other x) s1 s2 (ux_s2 x)))
      else Val (Ret uxit_default)
    else
      i2 <~ un_subnet_of sp (ux_other x) (ux_s2 x) ~~
      if i2 : bool then
        c <~ un_eqb (ux_current x) (ux_s1 x) ~~
        if negb c then '(s1, s2) <~ un_halves sp (ux_s2 x) ~~ Val (Ret (mk_uxit (ux_other x) s1 s2 (ux_s1 x)))
        else Val (Ret uxit_default)
      else Val (UB AssertFailed)
  else if e1 then
    c <~ un_eqb (ux_current x) (ux_s2 x) ~~
    if negb c then Val (Ret (mk_uxit (ux_other x) (ux_s1 x) (ux_s2 x) (ux_s2 x))) else Val (Ret uxit_default)
  else if e2 then
    c <~ un_eqb (ux_current x) (ux_s1 x) ~~
    if negb c then Val (Ret (mk_uxit (ux_other x) (ux_s1 x) (ux_s2 x) (ux_s1 x))) else Val (Ret uxit_default)
  else Val (UB AssertFailed).
Definition uxit_make (sp : bool) (network other : unet) : ures uxit :=
  '(s1, s2) <~ un_halves sp network ~~ uxit_next sp (mk_uxit other s1 s2 network).
Definition uxit_eqb (a b : uxit) : ures bool := un_eqb (ux_current a) (ux_current b).
(** address_exclude with an error code, ip-any-network.hpp 644-666: begin and end. *)
Definition un_exclude_code (sp : bool) (x other : unet) (code : ec) : ures (uxit * uxit * ec) :=
  if negb (ver_eqb (un_ver x) (un_ver other)) then Val (Ret (uxit_default, uxit_default, invalid_version))
  else
    addr1 <~ un_address x ~~ addr1 <~ ua_clear_scope addr1 ~~
    addr2 <~ un_address other ~~ addr2 <~ ua_clear_scope addr2 ~~
    p1 <~ un_prefixlen x ~~ lhs <~ un_from_address addr1 p1 true ~~
    p2 <~ un_prefixlen other ~~ rhs <~ un_from_address addr2 p2 true ~~
    sub <~ un_subnet_of sp rhs lhs ~~
    if negb sub then Val (Ret (uxit_default, uxit_default, not_contained_network))
    else
      eq <~ un_eqb lhs rhs ~~
      if eq : bool then Val (Ret (uxit_default, uxit_default, no_error))
      else x <~ uxit_make sp lhs rhs ~~ Val (Ret (x, uxit_default, no_error)).
