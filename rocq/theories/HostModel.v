(** The functions that go through the integer value of an address, for a host of
    either byte order.  [le] is is_little_endian(), endian.hpp 107-117: the other
    model files fix it to [true].  Everything not repeated here works on bytes
    and does not depend on the host.  Models: ip-network-base.hpp,
    ip-address-base.hpp and ip-address-iterator.hpp over base-v4.hpp,
    base-v6.hpp and ipv6-address.hpp. *)
From Verif Require Import Base UnicodeModel FixedStringModel V4Model V6Model Uint128Model SpecInt AddressModel NetworkModel IterModel.

(** from_uint and to_uint, ipv4-address.hpp 50-62, ipv6-address.hpp 667-704. *)
Definition to_uint_h (le : bool) (v : ver) (a : addr) : res Z :=
  match v with
  | V4 => v4_to_uint le (a_bytes a)
  | V6 => u <- v6_to_uint le (a_bytes a) ;; Ret (to_Z u)
  end.
Definition from_uint_h (le : bool) (v : ver) (n : Z) : res addr :=
  match v with
  | V4 => Ret (mk_addr (v4_from_uint le n) [])
  | V6 => b <- v6_from_uint le (of_Z n) ;; Ret (mk_addr b [])
  end.

(** parse, ip-address-base.hpp 762-778, and of an array, 402-432: only the dotted
    quad of an IPv6 text depends on the host (base-v6.hpp 425). *)
Definition parse_h (le : bool) (v : ver) (ts : list tok) : res addr :=
  match v with
  | V4 => b <- v4_from_string ts ;; Ret (mk_addr b [])
  | V6 => '(b, s) <- v6_from_string le ts ;; Ret (mk_addr b s)
  end.
Definition parse_array_h (le : bool) (v : ver) (data : list Z) : res addr :=
  f <- fs_make char_next (Z.to_nat (max_string_len v)) data ;; parse_h le v (chars (fs_chars f)).

(** ip_from_prefix, base-v4.hpp 142-146, base-v6.hpp 114-125. *)
Definition ip_from_prefix_h (le : bool) (v : ver) (p : Z) : res addr :=
  b <- match v with V4 => v4_from_prefix le p | V6 => v6_from_prefix p end ;; Ret (mk_addr b []).
(** strict_netmask, base-v4.hpp 227-239, base-v6.hpp 273-292. *)
Definition strict_netmask_h (le : bool) (v : ver) (a m : addr) (strict : bool) : res addr :=
  match v with
  | V4 => b <- v4_strict_netmask le (a_bytes a) (a_bytes m) strict ;; Ret (mk_addr b [])
  | V6 => '(b, s) <- v6_strict_netmask (a_bytes a) (a_scope a) (a_bytes m) strict ;; Ret (mk_addr b s)
  end.
(** parse_netmask, base-v4.hpp 178-225, base-v6.hpp 239-271. *)
Definition parse_netmask_h (le : bool) (v : ver) (ts : list tok) : res (addr * Z) :=
  '(m, p) <- match v with V4 => v4_parse_netmask le ts | V6 => v6_parse_netmask ts end ;;
  Ret (mk_addr m [], p).

(** from_address, ip-network-base.hpp 425-438. *)
Definition from_address_h (le : bool) (v : ver) (address : addr) (prefixlen : Z) (strict : bool) : res net :=
  netmask <- ip_from_prefix_h le v prefixlen ;;
  match strict_netmask_h le v address netmask strict with
  | Ret a => Ret (mk_net a netmask prefixlen)
  | Err e _ => Err e 0
  | UB u => UB u
  end.
(** parse_address_with_prefix, ip-network-base.hpp 1256-1312. *)
Definition net_parse_h (le : bool) (v : ver) (ts : list tok) (strict : bool) : res net :=
  '(address, mask_tokens) <- net_split (max_string_len v) ts (repeat 0 (Z.to_nat (max_string_len v + 1))) 0 false [] ;;
  '(netmask, prefixlen) <- parse_netmask_h le v mask_tokens ;;
  a <- with_value (mask_value v mask_tokens) (parse_array_h le v address) ;;
  a <- with_value (mask_value v mask_tokens) (strict_netmask_h le v a netmask strict) ;;
  Ret (mk_net a netmask prefixlen).

(** addresses_count, ip-network-base.hpp 838-840. *)
Definition addresses_count_h (le : bool) (v : ver) (n : net) : res Z :=
  b <- to_uint_h le v (broadcast n) ;; a <- to_uint_h le v (n_addr n) ;; Ret (uadd v (usub v b a) 1).

(** supernet, ip-network-base.hpp 1072-1079 and 1105-1132. *)
Definition supernet_h (le : bool) (v : ver) (n : net) (prefixlen_diff : Z) (new_prefixlen : option Z) : res net :=
  if n_prefix n =? 0 then Ret n
  else
    match
      match new_prefixlen with
      | Some np =>
          if np >? n_prefix n then inl new_prefix_must_be_shorter
          else if negb (prefixlen_diff =? 1) then inl cannot_set_prefixlen_diff_and_new_prefix
          else inr (n_prefix n - np)
      | None => inr prefixlen_diff
      end
    with
    | inl e => Err e 0
    | inr diff =>
        if diff >? n_prefix n then Err invalid_prefixlen_diff 0
        else
          let new_prefix := n_prefix n - diff in
          a <- to_uint_h le v (n_addr n) ;;
          m <- to_uint_h le v (n_mask n) ;;
          s <- ushl v m diff ;;
          address <- from_uint_h le v (uand v a s) ;;
          from_address_h le v address new_prefix true
    end.

(** The iterator of addresses: constructor 444-446 and add 812-821 of
    ip-address-iterator.hpp. *)
Definition ait_make_h (le : bool) (v : ver) (ref : addr) (carry : Z) : res ait :=
  o <- to_uint_h le v ref ;; Ret (mk_ait ref o carry).
Definition ait_add_h (le : bool) (v : ver) (a : ait) (n : Z) : res ait :=
  if negb (n =? 0) then
    let o := uadd v (it_offset a) n in
    c <- from_uint_h le v o ;;
    Ret (mk_ait c o (if o <? it_offset a then 1 - it_carry a else it_carry a))
  else Ret a.
(** hosts_sequence, ip-address-iterator.hpp 889-906, and at, 1014-1016; hosts(): ip-network-base.hpp 877-879. *)
Definition hosts_make_h (le sp : bool) (v : ver) (na ba : addr) (prefixlen maxp : Z) : res hosts_seq :=
  if prefixlen =? maxp - 1 then
    n <- to_uint_h le v na ;; b <- to_uint_h le v ba ;;
    first <- from_uint_h le v n ;; last <- from_uint_h le v (uadd v b 1) ;;
    x <- ait_make_h le v first 0 ;; y <- ait_make_h le v last 0 ;; Ret (mk_hosts x y)
  else if prefixlen =? maxp then
    n <- to_uint_h le v na ;;
    first <- from_uint_h le v n ;; last <- from_uint_h le v (uadd v n 1) ;;
    lt <- op_lt sp v last first ;;
    x <- ait_make_h le v first 0 ;; y <- ait_make_h le v last (if lt : bool then 1 else 0) ;; Ret (mk_hosts x y)
  else
    n <- to_uint_h le v na ;; b <- to_uint_h le v ba ;;
    first <- from_uint_h le v (uadd v n 1) ;;
    last <- from_uint_h le v (uadd v b (match v with V6 => 1 | V4 => 0 end)) ;;
    x <- ait_make_h le v first 0 ;; y <- ait_make_h le v last 0 ;; Ret (mk_hosts x y).
Definition hosts_h (le sp : bool) (v : ver) (n : net) : res hosts_seq :=
  hosts_make_h le sp v (n_addr n) (broadcast n) (n_prefix n) (width v).
Definition hosts_at_h (le : bool) (v : ver) (s : hosts_seq) (n : Z) : res addr :=
  a <- ait_add_h le v (h_begin s) n ;; Ret (it_current a).
(** operator++ of the iterator of addresses, ip-address-iterator.hpp 506-509, and a loop over hosts(). *)
Definition ait_next_h (le : bool) (v : ver) (a : ait) : res ait := ait_add_h le v a 1.
Definition hosts_walk_h (le : bool) (v : ver) := walk (ait_eqb v) (ait_next_h le v) it_current.

(** The iterator of networks: constructor 57-59, add 428-431 of ip-network-iterator.hpp. *)
Definition nit_make_h (le : bool) (v : ver) (ref : addr) (step prefixlen carry : Z) : res nit :=
  n <- from_address_h le v ref prefixlen true ;; a <- ait_make_h le v ref carry ;; Ret (mk_nit n a step prefixlen).
Definition nit_add_h (le : bool) (v : ver) (a : nit) (n : Z) : res nit :=
  x <- ait_add_h le v (ni_it a) (umul v (ni_step a) n) ;;
  c <- from_address_h le v (it_current x) (ni_prefix a) true ;; Ret (mk_nit c x (ni_step a) (ni_prefix a)).
Definition nit_next_h (le : bool) (v : ver) (a : nit) : res nit := nit_add_h le v a 1.
(** subnets_sequence, ip-network-iterator.hpp 711-718 and 732-741; at, 849. *)
Definition subnets_single_h (le sp : bool) (v : ver) (na : addr) (new_prefixlen : Z) : res subnets_seq :=
  let first := mk_addr (a_bytes na) [] in
  n <- to_uint_h le v na ;;
  last <- from_uint_h le v (uadd v n 1) ;;
  x <- nit_make_h le v first 1 new_prefixlen 0 ;;
  lt <- op_lt sp v last first ;;
  y <- nit_make_h le v last 1 new_prefixlen (if lt : bool then 1 else 0) ;;
  Ret (mk_subnets x y 1).
Definition subnets_make_h (le : bool) (v : ver) (na ba hm : addr) (prefixlen_diff new_prefixlen : Z) : res subnets_seq :=
  begin_uint <- to_uint_h le v na ;;
  end_uint <- to_uint_h le v ba ;;
  first <- from_uint_h le v begin_uint ;;
  last <- from_uint_h le v (uadd v end_uint 1) ;;
  h <- to_uint_h le v hm ;;
  s <- ushr v h prefixlen_diff ;;
  let step := uadd v s 1 in
  x <- nit_make_h le v first step new_prefixlen 0 ;;
  eq <- addr_eqb v first last ;;
  y <- nit_make_h le v last step new_prefixlen (if eq : bool then 1 else 0) ;;
  q <- udivide v (usub v end_uint begin_uint) step ;;
  Ret (mk_subnets x y (uadd v q 1)).
(** subnets, ip-network-base.hpp 983-990 and 1022-1049. *)
Definition subnets_h (le sp : bool) (v : ver) (n : net) (prefixlen_diff : Z) (new_prefixlen : option Z) : res subnets_seq :=
  address <- remove_scope v (n_addr n) ;;
  if n_prefix n =? width v then subnets_single_h le sp v address (n_prefix n)
  else
    match
      match new_prefixlen with
      | Some np =>
          if np <? n_prefix n then inl new_prefix_must_be_longer
          else if negb (prefixlen_diff =? 1) then inl cannot_set_prefixlen_diff_and_new_prefix
          else inr (np - n_prefix n)
      | None => inr prefixlen_diff
      end
    with
    | inl e => Err e 0
    | inr diff =>
        let new_prefix := w64 (n_prefix n + diff) in
        if new_prefix >? width v then Err invalid_prefixlen_diff 0
        else subnets_make_h le v address (broadcast n) (hostmask n) diff new_prefix
    end.
Definition subnets_at_h (le : bool) (v : ver) (s : subnets_seq) (n : Z) : res net :=
  a <- nit_add_h le v (s_begin s) n ;; Ret (ni_current a).
Definition subnets_walk_h (le : bool) (v : ver) := walk (nit_eqb v) (nit_next_h le v) ni_current.

(** ip_exclude_network_iterator, ip-network-iterator.hpp 481-486 and 511-556. *)
Definition halves_h (le sp : bool) (v : ver) (n : net) : res (net * net) :=
  s <- subnets_h le sp v n 1 None ;; a <- subnets_at_h le v s 0 ;; b <- subnets_at_h le v s 1 ;; Ret (a, b).
Definition xit_next_h (le sp : bool) (v : ver) (x : xit) : res xit :=
  e1 <- net_eqb v (x_s1 x) (x_other x) ;;
  e2 <- net_eqb v (x_s2 x) (x_other x) ;;
  if negb e1 && negb e2 then
    i1 <- subnet_of sp v (x_other x) (x_s1 x) ;;
    if i1 : bool then
      c <- net_eqb v (x_current x) (x_s2 x) ;;
      if negb c then '(s1, s2) <- halves_h le sp v (x_s1 x) ;; Ret (mk_xit (x_other x) s1 s2 (x_s2 x))
      else Ret (xit_default v)
    else
      i2 <- subnet_of sp v (x_other x) (x_s2 x) ;;
      if i2 : bool then
        c <- net_eqb v (x_current x) (x_s1 x) ;;
        if negb c then '(s1, s2) <- halves_h le sp v (x_s2 x) ;; Ret (mk_xit (x_other x) s1 s2 (x_s1 x))
        else Ret (xit_default v)
      else UB AssertFailed
  else if e1 then
    c <- net_eqb v (x_current x) (x_s2 x) ;;
    if negb c then Ret (mk_xit (x_other x) (x_s1 x) (x_s2 x) (x_s2 x)) else Ret (xit_default v)
  else if e2 then
    c <- net_eqb v (x_current x) (x_s1 x) ;;
    if negb c then Ret (mk_xit (x_other x) (x_s1 x) (x_s2 x) (x_s1 x)) else Ret (xit_default v)
  else UB AssertFailed.
Definition xit_make_h (le sp : bool) (v : ver) (network other : net) : res xit :=
  '(s1, s2) <- halves_h le sp v network ;; xit_next_h le sp v (mk_xit other s1 s2 network).
(** address_exclude, ip-network-base.hpp 904-911 and 940-954; remove_scope_id, ipv6-network.hpp 53-55. *)
Definition remove_scope_net_h (le : bool) (v : ver) (n : net) : res net :=
  match v with
  | V4 => Ret n
  | V6 => a <- remove_scope v (n_addr n) ;; from_address_h le v a (n_prefix n) true
  end.
Definition exclude_h (le sp : bool) (v : ver) (n other : net) : res exclude_seq :=
  lhs <- remove_scope_net_h le v n ;;
  rhs <- remove_scope_net_h le v other ;;
  sub <- subnet_of sp v rhs lhs ;;
  if negb sub then Err not_contained_network 0
  else
    eq <- net_eqb v lhs rhs ;;
    if eq : bool then Ret (exclude_default v)
    else x <- xit_make_h le sp v lhs rhs ;; Ret (mk_exclude x (xit_default v)).
Definition exclude_walk_h (le sp : bool) (v : ver) := walk (xit_eqb v) (xit_next_h le sp v) x_current.
