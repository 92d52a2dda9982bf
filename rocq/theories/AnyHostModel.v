(** The version-erased classes for a host of either byte order, [le] being
    is_little_endian(), endian.hpp 107-117: what AnyModel fixes to [true].
    Models: ip-any-address.hpp, ip-any-network.hpp and ip-any-iterator.hpp over
    the versioned functions of HostModel. *)
From Verif Require Import Base UnicodeModel FixedStringModel V4Model V6Model Uint128Model SpecInt AddressModel NetworkModel IterModel AnyModel HostModel.

(** The rest of the versioned iterators: operator[] 495-497, sub 823-832, base
    790-799 and reverse 801-810 of ip-address-iterator.hpp. *)
Definition ait_at_h (le : bool) (v : ver) (a : ait) (n : Z) : res addr := from_uint_h le v (uadd v (it_offset a) n).
Definition ait_sub_h (le : bool) (v : ver) (a : ait) (n : Z) : res ait :=
  if negb (n =? 0) then
    let o := usub v (it_offset a) n in
    c <- from_uint_h le v o ;;
    Ret (mk_ait c o (if o >? it_offset a then 1 - it_carry a else it_carry a))
  else Ret a.
Definition ait_base_h (le : bool) (v : ver) (a : ait) : res ait :=
  let o := uadd v (it_offset a) 1 in
  c <- from_uint_h le v o ;; Ret (mk_ait c o (if o <? it_offset a then 1 - it_carry a else it_carry a)).
Definition ait_reverse_h (le : bool) (v : ver) (a : ait) : res ait :=
  let o := usub v (it_offset a) 1 in
  c <- from_uint_h le v o ;; Ret (mk_ait c o (if o >? it_offset a then 1 - it_carry a else it_carry a)).
(** operator[] 108-111, sub 433-436, base 404-414 and reverse 416-426 of ip-network-iterator.hpp. *)
Definition nit_at_h (le : bool) (v : ver) (a : nit) (n : Z) : res net :=
  x <- ait_add_h le v (ni_it a) (umul v (ni_step a) n) ;; from_address_h le v (it_current x) (ni_prefix a) true.
Definition nit_sub_h (le : bool) (v : ver) (a : nit) (n : Z) : res nit :=
  x <- ait_sub_h le v (ni_it a) (umul v (ni_step a) n) ;;
  c <- from_address_h le v (it_current x) (ni_prefix a) true ;; Ret (mk_nit c x (ni_step a) (ni_prefix a)).
Definition nit_base_h (le : bool) (v : ver) (a : nit) : res nit :=
  let o := uadd v (it_offset (ni_it a)) (ni_step a) in
  c <- from_uint_h le v o ;;
  n <- from_address_h le v c (ni_prefix a) true ;;
  Ret (mk_nit n (mk_ait c o (if o <? it_offset (ni_it a) then 1 - it_carry (ni_it a) else it_carry (ni_it a)))
         (ni_step a) (ni_prefix a)).
Definition nit_reverse_h (le : bool) (v : ver) (a : nit) : res nit :=
  let o := usub v (it_offset (ni_it a)) (ni_step a) in
  c <- from_uint_h le v o ;;
  n <- from_address_h le v c (ni_prefix a) true ;;
  Ret (mk_nit n (mk_ait c o (if o >? it_offset (ni_it a) then 1 - it_carry (ni_it a) else it_carry (ni_it a)))
         (ni_step a) (ni_prefix a)).
(** The two instances of ip_any_iterator, ip-any-iterator.hpp 489 and 668. *)
Definition host_ops_h (le : bool) : iops ait aaddr := mk_iops _ _
  (fun v it => mk_aa v (it_current it)) (ait_add_h le) (ait_sub_h le) (fun v it n => a <- ait_at_h le v it n ;; Ret (mk_aa v a))
  (fun v a b => Ret (ait_uint_diff v a b)) ait_diff ait_eqb ait_cmp ait_ltb (ait_base_h le) (ait_reverse_h le).
Definition net_ops_h (le : bool) : iops nit anet := mk_iops _ _
  (fun v it => mk_an v (ni_current it)) (nit_add_h le) (nit_sub_h le) (fun v it n => a <- nit_at_h le v it n ;; Ret (mk_an v a))
  nit_uint_diff nit_diff nit_eqb nit_cmp nit_ltb (nit_base_h le) (nit_reverse_h le).

(** ** ip_address *)
(** parse with a code, ip-address-base.hpp 773-778. *)
Definition parse_code_h (le : bool) (v : ver) (ts : list tok) (code : ec) : res (addr * ec) :=
  match parse_h le v ts with
  | Ret a => Ret (a, no_error)
  | Err e _ => Ret (addr_default v, e)
  | UB u => UB u
  end.
(** ip_any_parser, ip-any-address.hpp 33-41 and 43-54. *)
Definition any_parse_h (le : bool) (ts : list tok) : res aaddr :=
  '(ipv4, code) <- parse_code_h le V4 ts no_error ;;
  if ec_eqb code no_error then Ret (mk_aa V4 ipv4)
  else a <- parse_h le V6 ts ;; Ret (mk_aa V6 a).
Definition any_parse_code_h (le : bool) (ts : list tok) (code : ec) : res (aaddr * ec) :=
  '(ipv4, code) <- parse_code_h le V4 ts no_error ;;
  if ec_eqb code no_error then Ret (mk_aa V4 ipv4, code)
  else
    '(ipv6, code) <- parse_code_h le V6 ts code ;;
    if ec_eqb code no_error then Ret (mk_aa V6 ipv6, code) else Ret (aa_default, code).
(** from_uint of a uint32_t, ip-any-address.hpp 399-401, and of a uint128_t, 410-412. *)
Definition any_from_uint_h (le : bool) (v : ver) (n : Z) : res aaddr := a <- from_uint_h le v n ;; Ret (mk_aa v a).
(** to_uint32 423-425 and to_uint128 436-438. *)
Definition any_to_uint32_h (le : bool) (x : aaddr) : res Z :=
  if ver_eqb (aa_ver x) V4 then to_uint_h le V4 (aa_addr x)
  else n <- to_uint_h le V6 (aa_addr x) ;; Ret (u32_of_u128 n).
Definition any_to_uint128_h (le : bool) (x : aaddr) : res Z :=
  if ver_eqb (aa_ver x) V4 then n <- to_uint_h le V4 (aa_addr x) ;; Ret (u128_of_u32 n)
  else to_uint_h le V6 (aa_addr x).

(** ** ip_network *)
(** parse with a code, ip-network-base.hpp 1237-1243, and without, 1245-1254. *)
Definition net_parse_code_h (le : bool) (v : ver) (ts : list tok) (code : ec) (strict : bool) : res (net * ec) :=
  match net_parse_h le v ts strict with
  | Ret n => Ret (n, no_error)
  | Err e _ => Ret (net_default v, e)
  | UB u => UB u
  end.
Definition net_parse_raise_h (le : bool) (v : ver) (ts : list tok) (strict : bool) : res net :=
  match net_parse_h le v ts strict with Err e value => raise_if (net_default v) e value | r => r end.
(** net_any_parser, ip-any-network.hpp 34-42 and 44-56. *)
Definition anet_parse_h (le : bool) (ts : list tok) (strict : bool) : res anet :=
  '(net4, code) <- net_parse_code_h le V4 ts no_error strict ;;
  if ec_eqb code no_error then Ret (mk_an V4 net4)
  else n <- net_parse_raise_h le V6 ts strict ;; Ret (mk_an V6 n).
Definition anet_parse_code_h (le : bool) (ts : list tok) (code : ec) (strict : bool) : res (anet * ec) :=
  '(net4, code) <- net_parse_code_h le V4 ts no_error strict ;;
  if ec_eqb code no_error then Ret (mk_an V4 net4, code)
  else
    '(net6, code) <- net_parse_code_h le V6 ts code strict ;;
    if ec_eqb code no_error then Ret (mk_an V6 net6, code) else Ret (an_default, code).
(** addresses_count, ip-any-network.hpp 297-299; from_address 740-748; supernet 431-433. *)
Definition anet_count_h (le : bool) (x : anet) : res Z :=
  if anet_is_v4 x then n <- addresses_count_h le V4 (an_net x) ;; Ret (u128_of_u32 n) else addresses_count_h le V6 (an_net x).
Definition anet_from_address_h (le : bool) (a : aaddr) (p : Z) (strict : bool) : res anet :=
  if ver_eqb (aa_ver a) V4 then n <- from_address_h le V4 (aa_addr a) p strict ;; Ret (mk_an V4 n)
  else n <- from_address_h le V6 (aa_addr a) p strict ;; Ret (mk_an V6 n).
Definition anet_supernet_h (le : bool) (x : anet) (d : Z) (np : option Z) : res anet :=
  if anet_is_v4 x then n <- supernet_h le V4 (an_net x) d np ;; Ret (mk_an V4 n)
  else n <- supernet_h le V6 (an_net x) d np ;; Ret (mk_an V6 n).
(** hosts, ip-any-network.hpp 498-506, and subnets, 535-543. *)
Definition any_hosts_h (le sp : bool) (x : anet) : res (aseq ait aaddr) :=
  if anet_is_v4 x then s <- hosts_h le sp V4 (an_net x) ;; Ret (aseq_make (host_ops_h le) V4 (h_begin s) (h_end s))
  else s <- hosts_h le sp V6 (an_net x) ;; Ret (aseq_make (host_ops_h le) V6 (h_begin s) (h_end s)).
Definition any_subnets_h (le sp : bool) (x : anet) (d : Z) (np : option Z) : res (aseq nit anet) :=
  if anet_is_v4 x then s <- subnets_h le sp V4 (an_net x) d np ;; Ret (aseq_make (net_ops_h le) V4 (s_begin s) (s_end s))
  else s <- subnets_h le sp V6 (an_net x) d np ;; Ret (aseq_make (net_ops_h le) V6 (s_begin s) (s_end s)).

(** ** ip_exclude_network_iterator<ip_network>, ip-network-iterator.hpp 481-486 and 511-556 *)
Definition any_halves_h (le sp : bool) (x : anet) : res (anet * anet) :=
  s <- any_subnets_h le sp x 1 None ;; a <- aseq_at (net_ops_h le) s 0 ;; b <- aseq_at (net_ops_h le) s 1 ;; Ret (a, b).
Definition axit_next_h (le sp : bool) (x : axit) : res axit :=
  e1 <- anet_eqb (ax_s1 x) (ax_other x) ;;
  e2 <- anet_eqb (ax_s2 x) (ax_other x) ;;
  if negb e1 && negb e2 then
    i1 <- anet_subnet_of sp (ax_other x) (ax_s1 x) ;;
    if i1 : bool then
      c <- anet_eqb (ax_current x) (ax_s2 x) ;;
      if negb c then '(s1, s2) <- any_halves_h le sp (ax_s1 x) ;; Ret (mk_axit (ax_other x) s1 s2 (ax_s2 x))
      else Ret axit_default
    else
      i2 <- anet_subnet_of sp (ax_other x) (ax_s2 x) ;;
      if i2 : bool then
        c <- anet_eqb (ax_current x) (ax_s1 x) ;;
        if negb c then '(s1, s2) <- any_halves_h le sp (ax_s2 x) ;; Ret (mk_axit (ax_other x) s1 s2 (ax_s1 x))
        else Ret axit_default
      else UB AssertFailed
  else if e1 then
    c <- anet_eqb (ax_current x) (ax_s2 x) ;;
    if negb c then Ret (mk_axit (ax_other x) (ax_s1 x) (ax_s2 x) (ax_s2 x)) else Ret axit_default
  else if e2 then
    c <- anet_eqb (ax_current x) (ax_s1 x) ;;
    if negb c then Ret (mk_axit (ax_other x) (ax_s1 x) (ax_s2 x) (ax_s1 x)) else Ret axit_default
  else UB AssertFailed.
Definition axit_make_h (le sp : bool) (network other : anet) : res axit :=
  '(s1, s2) <- any_halves_h le sp network ;; axit_next_h le sp (mk_axit other s1 s2 network).
(** address_exclude, ip-any-network.hpp 644-666 and 608-615. *)
Definition any_exclude_code_h (le sp : bool) (x other : anet) (code : ec) : res (aexclude * ec) :=
  if negb (ver_eqb (an_ver x) (an_ver other)) then Ret (aexclude_default, invalid_version)
  else
    addr1 <- any_clear_scope (anet_address x) ;;
    addr2 <- any_clear_scope (anet_address other) ;;
    lhs <- anet_from_address_h le addr1 (anet_prefixlen x) true ;;
    rhs <- anet_from_address_h le addr2 (anet_prefixlen other) true ;;
    sub <- anet_subnet_of sp rhs lhs ;;
    if negb sub then Ret (aexclude_default, not_contained_network)
    else
      eq <- anet_eqb lhs rhs ;;
      if eq : bool then Ret (aexclude_default, no_error)
      else x <- axit_make_h le sp lhs rhs ;; Ret (mk_aexclude x axit_default, no_error).
Definition any_exclude_h (le sp : bool) (x other : anet) : res aexclude :=
  '(result, code) <- any_exclude_code_h le sp x other no_error ;; raise_if result code 0.
Definition aexclude_walk_h (le sp : bool) := walk axit_eqb (axit_next_h le sp) ax_current.
