(** IPv6 addresses and networks under every setting of the scope-id macros (see
    ConfigModel): what else depends on them.  IPv4 does not. *)
From Verif Require Import Base UnicodeModel FixedStringModel V4Model V6Model AddressModel NetworkModel AnyModel ConfigModel.

(** base_max_string_len, base-v6.hpp 49. *)
Definition max_len_c (g : config) : Z := 41 + c_max g.

(** parse: ip-address-base.hpp 762-771; of an array of base_max_string_len + 1
    characters, 402-432; the literal operators, 785-795. *)
Definition addr_parse_c (g : config) (ts : list tok) : res addr :=
  '(b, s) <- v6_from_string_c g true ts ;; Ret (mk_addr b s).
Definition addr_parse_array_c (g : config) (data : list Z) : res addr :=
  f <- fs_make char_next (Z.to_nat (max_len_c g)) data ;; addr_parse_c g (chars (fs_chars f)).
Definition addr_literal_c (g : config) (s : list Z) : res addr :=
  if zlen s >? max_len_c g then Err string_is_too_long 0
  else addr_parse_array_c g (s ++ repeat 0 (Z.to_nat (max_len_c g + 1 - zlen s))).
(** ip_address::parse, ip-any-address.hpp 33-41. *)
Definition any_parse_c (g : config) (ts : list tok) : res aaddr :=
  '(ipv4, code) <- addr_parse_code V4 ts no_error ;;
  if ec_eqb code no_error then Ret (mk_aa V4 ipv4)
  else a <- addr_parse_c g ts ;; Ret (mk_aa V6 a).

(** The stored scope id: a fixed_string<c_max> (ipv6-address.hpp 865-867), whose
    unused characters are zero.  No such member for c_max = 0. *)
Definition scope_fs_c (g : config) (s : list Z) : fstr :=
  mkfs (zlen s) (s ++ repeat 0 (Z.to_nat (c_max g) - length s)).
(** swap, ipv6-address.hpp 781-786. *)
Definition addr_swap_c (g : config) (a b : addr) : res (addr * addr) :=
  if c_max g >? 0 then
    '(x, y) <- fs_swap (scope_fs_c g (a_scope a)) (scope_fs_c g (a_scope b)) ;;
    Ret (mk_addr (a_bytes b) (fs_chars x), mk_addr (a_bytes a) (fs_chars y))
  else Ret (mk_addr (a_bytes b) (a_scope a), mk_addr (a_bytes a) (a_scope b)).
(** hash, ipv6-address.hpp 788-799. *)
Definition addr_hash_c (g : config) (is64 : bool) (a : addr) : res Z :=
  seed <- (if c_max g >? 0 then fs_hash is64 (scope_fs_c g (a_scope a)) else Ret 0) ;;
  Ret (calc_hash is64 seed (a_bytes a)).
(** equals, ipv6-address.hpp 801-808. *)
Definition addr_eqb_c (g : config) (a b : addr) : res bool :=
  if list_eqb (a_bytes a) (a_bytes b) then
    if c_max g >? 0 then
      c <- fs_compare (scope_fs_c g (a_scope a)) (scope_fs_c g (a_scope b)) ;; Ret (c =? 0)
    else Ret true
  else Ret false.
(** less, ipv6-address.hpp 810-817. *)
Definition addr_ltb_c (g : config) (a b : addr) : res bool :=
  if c_max g >? 0 then
    if bytes_ltb (a_bytes a) (a_bytes b) then Ret true
    else c <- fs_compare (scope_fs_c g (a_scope a)) (scope_fs_c g (a_scope b)) ;; Ret (c <? 0)
  else Ret (bytes_ltb (a_bytes a) (a_bytes b)).
(** compare, ipv6-address.hpp 821-837. *)
Definition addr_cmp_c (g : config) (a b : addr) : res comparison :=
  if c_max g >? 0 then
    match bytes_cmp (a_bytes a) (a_bytes b) with
    | Eq => c <- fs_compare (scope_fs_c g (a_scope a)) (scope_fs_c g (a_scope b)) ;;
            Ret (if c <? 0 then Lt else if c =? 0 then Eq else Gt)
    | c => Ret c
    end
  else Ret (bytes_cmp (a_bytes a) (a_bytes b)).
(** to_string, ip-address-base.hpp 527-531 and ipv6-address.hpp 841-852 (the empty
    string stands for the scope id when c_max = 0). *)
Definition addr_to_string_c (g : config) (a : addr) (fmt : format) : res (list Z) :=
  v6_to_string_c g (a_bytes a) (if c_max g >? 0 then a_scope a else []) fmt.

(** parse_address_with_prefix, ip-network-base.hpp 1256-1312, as NetworkModel.net_parse_res
    with a buffer of this setting. *)
Definition net_parse_res_c (g : config) (ts : list tok) (strict : bool) : res net :=
  '(address, mask_tokens) <- net_split (max_len_c g) ts (repeat 0 (Z.to_nat (max_len_c g + 1))) 0 false [] ;;
  '(netmask, prefixlen) <- parse_netmask V6 mask_tokens ;;
  a <- with_value (mask_value V6 mask_tokens) (addr_parse_array_c g address) ;;
  a <- with_value (mask_value V6 mask_tokens) (strict_netmask V6 a netmask strict) ;;
  Ret (mk_net a netmask prefixlen).
(** The throwing overload, ip-network-base.hpp 1245-1254. *)
Definition net_parse_c (g : config) (ts : list tok) (strict : bool) : res net :=
  match net_parse_res_c g ts strict with Err e value => raise_if (net_default V6) e value | r => r end.
(** to_string of a network, ip-network-base.hpp 585-587. *)
Definition net_to_string_c (g : config) (n : net) (fmt : format) : res (list Z) :=
  a <- addr_to_string_c g (n_addr n) fmt ;; p <- dec_digits 20 (n_prefix n) [] ;; Ret (a ++ 47 :: p).
(** ==, <=> and < of networks, ip-network-base.hpp 1153-1204, and hash 669-671. *)
Definition net_eqb_c (g : config) (a b : net) : res bool :=
  x <- addr_eqb_c g (n_addr a) (n_addr b) ;;
  if x : bool then addr_eqb_c g (n_mask a) (n_mask b) else Ret false.
Definition net_cmp_c (g : config) (a b : net) : res comparison :=
  c <- addr_cmp_c g (n_addr a) (n_addr b) ;;
  match c with Eq => addr_cmp_c g (n_mask a) (n_mask b) | _ => Ret c end.
Definition net_ltb_c (g : config) (a b : net) : res bool :=
  x <- addr_eqb_c g (n_addr a) (n_addr b) ;;
  if negb x then addr_ltb_c g (n_addr a) (n_addr b)
  else
    y <- addr_eqb_c g (n_mask a) (n_mask b) ;;
    if negb y then addr_ltb_c g (n_mask a) (n_mask b) else Ret false.
Definition net_hash_c (g : config) (is64 : bool) (n : net) : res Z :=
  h <- addr_hash_c g is64 (n_addr n) ;; m <- addr_hash_c g is64 (n_mask n) ;; Ret (calc_hash is64 h [m]).
