(** Hosts whose size_t has [w] bits: the functions of the other models which
    store a size_t reduced modulo 2^64, with reduction modulo 2^w.  Nothing else
    computes with size_t beyond small counters (loop indices and lengths of
    fixed arrays); the hash has its own parameter in AddressModel. *)
From Verif Require Import Base UnicodeModel FixedStringModel V4Model V6Model Uint128Model SpecInt AddressModel NetworkModel IterModel AnyModel.

Definition wsize (w x : Z) : Z := x mod 2 ^ w.

(** ** Parsing of addresses *)
(** get_parts_bound, base-v6.hpp 463-519. *)
Definition get_parts_bound_z (w : Z) (parts : list (list Z)) (parts_count : Z) : res (Z * Z * Z) :=
  skip <- skip_loop (Z.to_nat (parts_count - 1 - 1)) 1 parts parts_count 0 ;;
  if negb (skip =? 0) then
    let parts_hi := skip in
    let parts_lo := wsize w (parts_count - skip - 1) in
    e0 <- part_empty parts 0 ;;
    parts_hi <-
      (if e0 : bool then
         let parts_hi := wsize w (parts_hi - 1) in
         if negb (parts_hi =? 0) then
           Err leading_colon_only_permitted_as_part_of_double_colon parts_count
         else Ret parts_hi
       else Ret parts_hi) ;;
    e1 <- part_empty parts (parts_count - 1) ;;
    parts_lo <-
      (if e1 : bool then
         let parts_lo := wsize w (parts_lo - 1) in
         if negb (parts_lo =? 0) then
           Err trailing_colon_only_permitted_as_part_of_double_colon parts_count
         else Ret parts_lo
       else Ret parts_lo) ;;
    let parts_skipped := wsize w (8 - wsize w (parts_hi + parts_lo)) in
    if parts_skipped <? 1 then Err expected_at_most_7_other_parts_with_double_colon parts_count
    else Ret (parts_hi, parts_lo, parts_skipped)
  else
    if negb (parts_count =? 8) then Err exactly_8_parts_expected_without_double_colon parts_count
    else
      e0 <- part_empty parts 0 ;;
      if e0 : bool then Err leading_colon_only_permitted_as_part_of_double_colon parts_count
      else
        e1 <- part_empty parts (parts_count - 1) ;;
        if e1 : bool then Err trailing_colon_only_permitted_as_part_of_double_colon parts_count
        else Ret (parts_count, 0, 0).
(** parse_parts, base-v6.hpp 521-547. *)
Definition parse_parts_z (w : Z) (parts : list (list Z)) (parts_count hi lo skipped : Z) : res (list Z) :=
  '(index, result) <- parts_loop (Z.to_nat hi) 0 parts parts_count 0 (repeat 0 16) ;;
  let index := wsize w (index + wsize w (Z.shiftl skipped 1)) in
  _ <- assert (parts_count >? lo) ;;
  '(index, result) <- parts_loop (Z.to_nat lo) (parts_count - lo) parts parts_count index result ;;
  Ret result.
(** ip_from_string, base-v6.hpp 75-112. *)
Definition v6_from_string_z (w : Z) (le : bool) (ts : list tok) : res (list Z * list Z) :=
  match ts with
  | [] => Err empty_address 0
  | _ =>
      '(end_ip, scope_id) <- split_scope_id ts ;;
      '(parts, parts_count) <- split_parts le (firstn (Z.to_nat end_ip) ts) ;;
      '(hi, lo, skipped) <- get_parts_bound_z w parts parts_count ;;
      bytes <- parse_parts_z w parts parts_count hi lo skipped ;;
      s0 <- rd scope_id 0 ;;
      if negb (s0 =? 0) then
        f <- fs_make char_next 16 scope_id ;; Ret (bytes, fs_chars f)
      else Ret (bytes, [])
  end.
(** parse, ip-address-base.hpp 762-771, of an array 402-432; the IPv4 parser computes with
    octets only. *)
Definition addr_parse_z (w : Z) (v : ver) (ts : list tok) : res addr :=
  match v with
  | V4 => b <- v4_from_string ts ;; Ret (mk_addr b [])
  | V6 => '(b, s) <- v6_from_string_z w true ts ;; Ret (mk_addr b s)
  end.
Definition addr_parse_array_z (w : Z) (v : ver) (data : list Z) : res addr :=
  f <- fs_make char_next (Z.to_nat (max_string_len v)) data ;; addr_parse_z w v (chars (fs_chars f)).

(** ip_address::parse, ip-any-address.hpp 33-41. *)
Definition addr_parse_code_z (w : Z) (v : ver) (ts : list tok) (code : ec) : res (addr * ec) :=
  match addr_parse_z w v ts with
  | Ret a => Ret (a, no_error)
  | Err e _ => Ret (addr_default v, e)
  | UB u => UB u
  end.
Definition any_parse_z (w : Z) (ts : list tok) : res aaddr :=
  '(ipv4, code) <- addr_parse_code_z w V4 ts no_error ;;
  if ec_eqb code no_error then Ret (mk_aa V4 ipv4)
  else a <- addr_parse_z w V6 ts ;; Ret (mk_aa V6 a).

(** ** Parsing of networks *)
(** prefix_from_ip_uint32, base-v4.hpp 242-252. *)
Definition prefix_from_ip_z (w ip : Z) : res Z :=
  trailing_zeroes <- count_righthand_zero_bits ip 32 ;;
  let prefixlen := wsize w (32 - trailing_zeroes) in
  leading_ones <- (if negb (trailing_zeroes =? 32) then shr32 ip trailing_zeroes else Ret 0) ;;
  x <- shl32 1 (wsize w (prefixlen - 1)) ;;
  x <- shl32 x 1 ;;
  let all_ones := w32 (x - 1) in
  if negb (leading_ones =? all_ones) then Err netmask_pattern_mixes_zeroes_and_ones 0
  else Ret prefixlen.
(** parse_netmask, base-v4.hpp 178-225. *)
Fixpoint netmask_digits_z (w : Z) (ts : list tok) (prefixlen : Z) : res (bool * Z) :=
  match ts with
  | [] => Ret (true, prefixlen)
  | Bad e v :: _ => Err e v
  | Ch c :: ts' =>
      if (c >=? 48) && (c <=? 57) then netmask_digits_z w ts' (wsize w (wsize w (prefixlen * 10) + (c - 48)))
      else Ret (false, prefixlen)
  end.
Definition v4_parse_netmask_z (w : Z) (le : bool) (ts : list tok) : res (list Z * Z) :=
  '(is_value, prefixlen) <- netmask_digits_z w ts 0 ;;
  prefixlen <-
    (if is_value : bool then
       if prefixlen >? 32 then Err invalid_netmask 0 else Ret prefixlen
     else
       match v4_from_string ts with
       | UB u => UB u
       | Err e v => Err invalid_netmask v
       | Ret bytes =>
           ip <- v4_to_uint le bytes ;;
           match prefix_from_ip_z w ip with
           | Err _ _ => match prefix_from_ip_z w (Z.lxor ip v4_all_ones) with Err e _ => Err e 3 | r => r end
           | r => r
           end
       end) ;;
  let prefixlen := match ts with [] => 32 | _ => prefixlen end in
  netmask <- v4_from_prefix le prefixlen ;;
  Ret (netmask, prefixlen).
(** parse_netmask, base-v6.hpp 245-272. *)
Fixpoint v6_netmask_digits_z (w : Z) (ts : list tok) (prefixlen : Z) : res Z :=
  match ts with
  | [] => Ret prefixlen
  | Bad e v :: _ => Err e v
  | Ch c :: ts' =>
      if (c >=? 48) && (c <=? 57) then v6_netmask_digits_z w ts' (wsize w (wsize w (prefixlen * 10) + (c - 48)))
      else Err invalid_netmask 0
  end.
Definition v6_parse_netmask_z (w : Z) (ts : list tok) : res (list Z * Z) :=
  prefixlen <- v6_netmask_digits_z w ts 0 ;;
  if prefixlen >? 128 then Err invalid_netmask 0
  else
    let prefixlen := match ts with [] => 128 | _ => prefixlen end in
    netmask <- v6_from_prefix prefixlen ;;
    Ret (netmask, prefixlen).
Definition parse_netmask_z (w : Z) (v : ver) (ts : list tok) : res (addr * Z) :=
  '(m, p) <- match v with V4 => v4_parse_netmask_z w true ts | V6 => v6_parse_netmask_z w ts end ;;
  Ret (mk_addr m [], p).
(** parse_address_with_prefix, ip-network-base.hpp 1256-1312; the number of an error does not
    depend on the prefix length, see NetworkModel.mask_value. *)
Definition net_parse_res_z (w : Z) (v : ver) (ts : list tok) (strict : bool) : res net :=
  '(address, mask_tokens) <- net_split (max_string_len v) ts (repeat 0 (Z.to_nat (max_string_len v + 1))) 0 false [] ;;
  '(netmask, prefixlen) <- parse_netmask_z w v mask_tokens ;;
  a <- with_value (mask_value v mask_tokens) (addr_parse_array_z w v address) ;;
  a <- with_value (mask_value v mask_tokens) (strict_netmask v a netmask strict) ;;
  Ret (mk_net a netmask prefixlen).
(** The overload with an error code and the throwing one, ip-network-base.hpp 1245-1254. *)
Definition net_parse_code_z (w : Z) (v : ver) (ts : list tok) (code : ec) (strict : bool) : res (net * ec) :=
  match net_parse_res_z w v ts strict with
  | Ret n => Ret (n, no_error)
  | Err e _ => Ret (net_default v, e)
  | UB u => UB u
  end.
Definition net_parse_z (w : Z) (v : ver) (ts : list tok) (strict : bool) : res net :=
  match net_parse_res_z w v ts strict with Err e value => raise_if (net_default v) e value | r => r end.
(** ip_network::parse, ip-any-network.hpp 35-42. *)
Definition anet_parse_z (w : Z) (ts : list tok) (strict : bool) : res anet :=
  '(net4, code) <- net_parse_code_z w V4 ts no_error strict ;;
  if ec_eqb code no_error then Ret (mk_an V4 net4)
  else n <- net_parse_z w V6 ts strict ;; Ret (mk_an V6 n).

(** ** subnets *)
(** subnets, ip-network-base.hpp 1022-1049 and 983-990. *)
Definition subnets_code_z (w : Z) (sp : bool) (v : ver) (n : net) (code : ec) (prefixlen_diff : Z) (new_prefixlen : option Z)
  : res (subnets_seq * ec) :=
  address <- remove_scope v (n_addr n) ;;
  if n_prefix n =? width v then
    s <- subnets_single sp v address (n_prefix n) ;; Ret (s, code)
  else
    match
      match new_prefixlen with
      | Some np =>
          if np <? n_prefix n then inl new_prefix_must_be_longer
          else if negb (prefixlen_diff =? 1) then inl cannot_set_prefixlen_diff_and_new_prefix
          else inr (np - n_prefix n)
      | None => inr prefixlen_diff
      end
    with
    | inl e => Ret (subnets_default v, e)
    | inr diff =>
        let new_prefix := wsize w (n_prefix n + diff) in
        if new_prefix >? width v then Ret (subnets_default v, invalid_prefixlen_diff)
        else s <- subnets_make v address (broadcast n) (hostmask n) diff new_prefix ;; Ret (s, code)
    end.
Definition subnets_z (w : Z) (sp : bool) (v : ver) (n : net) (prefixlen_diff : Z) (new_prefixlen : option Z) : res subnets_seq :=
  '(result, code) <- subnets_code_z w sp v n no_error prefixlen_diff new_prefixlen ;; raise_if result code 0.
(** The two halves which address_exclude takes from the default subnets(),
    ip-network-iterator.hpp 511-556: its only use of this function. *)
Definition halves_z (w : Z) (sp : bool) (v : ver) (n : net) : res (net * net) :=
  s <- subnets_z w sp v n 1 None ;; a <- subnets_at v s 0 ;; b <- subnets_at v s 1 ;; Ret (a, b).
(** ip_network::subnets, ip-any-network.hpp 535-545. *)
Definition any_subnets_z (w : Z) (sp : bool) (x : anet) (d : Z) (np : option Z) : res (aseq nit anet) :=
  if anet_is_v4 x then s <- subnets_z w sp V4 (an_net x) d np ;; Ret (aseq_make net_ops V4 (s_begin s) (s_end s))
  else s <- subnets_z w sp V6 (an_net x) d np ;; Ret (aseq_make net_ops V6 (s_begin s) (s_end s)).
