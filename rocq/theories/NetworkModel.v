(** Networks of both versions.  Models: include/ipaddress/ip-network-base.hpp,
    ipv4-network.hpp, ipv6-network.hpp.  Loops over the bytes of an address
    (whose number is fixed by the type) are maps over the byte lists. *)
From Verif Require Import Base UnicodeModel FixedStringModel V4Model V6Model Uint128Model SpecInt AddressModel.

Record net := mk_net { n_addr : addr; n_mask : addr; n_prefix : Z }.

(** An exception is raised when the code is set: the throwing overloads. *)
Definition raise_if {A} (r : A) (code : ec) (value : Z) : res A :=
  if ec_eqb code no_error then Ret r else Err code value.

(** ip_from_prefix of either base class. *)
Definition ip_from_prefix (v : ver) (p : Z) : res addr :=
  b <- match v with V4 => v4_from_prefix true p | V6 => v6_from_prefix p end ;; Ret (mk_addr b []).
(** strict_netmask of either base class. *)
Definition strict_netmask (v : ver) (a m : addr) (strict : bool) : res addr :=
  match v with
  | V4 => b <- v4_strict_netmask true (a_bytes a) (a_bytes m) strict ;; Ret (mk_addr b [])
  | V6 => '(b, s) <- v6_strict_netmask (a_bytes a) (a_scope a) (a_bytes m) strict ;; Ret (mk_addr b s)
  end.
(** parse_netmask of either base class. *)
Definition parse_netmask (v : ver) (ts : list tok) : res (addr * Z) :=
  '(m, p) <- match v with V4 => v4_parse_netmask true ts | V6 => v6_parse_netmask ts end ;;
  Ret (mk_addr m [], p).

(** Default constructor, ip-network-base.hpp 44-49 (ip_from_prefix of the maximum is all ones). *)
Definition net_default (v : ver) : net :=
  mk_net (addr_default v) (mk_addr (repeat 255 (nbytes v)) []) (width v).

(** from_address with an error code, ip-network-base.hpp 452-472: the network and the code after the
    call; [code] is the value before it.  [prefixlen] is not checked. *)
Definition from_address_code (v : ver) (address : addr) (code : ec) (prefixlen : Z) (strict : bool) : res (net * ec) :=
  netmask <- ip_from_prefix v prefixlen ;;
  match strict_netmask v address netmask strict with
  | Ret a => Ret (mk_net a netmask prefixlen, no_error)
  | Err e _ => Ret (net_default v, e)
  | UB u => UB u
  end.
(** The throwing overload, ip-network-base.hpp 425-438. *)
Definition from_address (v : ver) (address : addr) (prefixlen : Z) (strict : bool) : res net :=
  '(result, code) <- from_address_code v address no_error prefixlen strict ;; raise_if result code 0.

(** contains, ip-network-base.hpp 494-505. *)
Fixpoint contains_loop (ip m a : list Z) : bool :=
  match ip, m, a with
  | x :: ip', y :: m', z :: a' => if negb (Z.land x y =? z) then false else contains_loop ip' m' a'
  | _, _, _ => true
  end.
Definition contains (n : net) (a : addr) : bool :=
  contains_loop (a_bytes a) (a_bytes (n_mask n)) (a_bytes (n_addr n)).

(** hostmask, ip-network-base.hpp 721-728, and broadcast_address, 692-700. *)
Definition hostmask (n : net) : addr :=
  mk_addr (map (fun b => w8 (Z.lxor b 0xFF)) (a_bytes (n_mask n))) [].
Fixpoint or_bytes (a b : list Z) : list Z :=
  match a, b with x :: a', y :: b' => w8 (Z.lor x y) :: or_bytes a' b' | _, _ => [] end.
Definition broadcast (n : net) : addr :=
  mk_addr (or_bytes (a_bytes (n_addr n)) (a_bytes (hostmask n))) [].

(** addresses_count, ip-network-base.hpp 838-840. *)
Definition addresses_count (v : ver) (n : net) : res Z :=
  b <- addr_to_uint v (broadcast n) ;; a <- addr_to_uint v (n_addr n) ;; Ret (uadd v (usub v b a) 1).

(** overlaps, ip-network-base.hpp 526-528. *)
Definition overlaps (n other : net) : bool :=
  contains other (n_addr n) || contains other (broadcast n) || contains n (n_addr other) || contains n (broadcast other).

(** is_subnet_of, ip-network-base.hpp 1314-1316; [sp]: operator family, see AddressModel. *)
Definition is_subnet_of (sp : bool) (v : ver) (lhs rhs : net) : res bool :=
  x <- op_le sp v (n_addr rhs) (n_addr lhs) ;;
  if x : bool then op_ge sp v (broadcast rhs) (broadcast lhs) else Ret false.
(** subnet_of ip-network-base.hpp 549-551, supernet_of 572-574. *)
Definition subnet_of (sp : bool) (v : ver) (n other : net) : res bool := is_subnet_of sp v n other.
Definition supernet_of (sp : bool) (v : ver) (n other : net) : res bool := is_subnet_of sp v other n.

(** Comparison, ip-network-base.hpp 1153-1204. *)
Definition net_eqb (v : ver) (a b : net) : res bool :=
  x <- addr_eqb v (n_addr a) (n_addr b) ;;
  if x : bool then addr_eqb v (n_mask a) (n_mask b) else Ret false.
Definition net_cmp (v : ver) (a b : net) : res comparison :=
  c <- addr_cmp v (n_addr a) (n_addr b) ;;
  match c with Eq => addr_cmp v (n_mask a) (n_mask b) | _ => Ret c end.
Definition net_ltb (v : ver) (a b : net) : res bool :=
  x <- addr_eqb v (n_addr a) (n_addr b) ;;
  if negb x then addr_ltb v (n_addr a) (n_addr b)
  else
    y <- addr_eqb v (n_mask a) (n_mask b) ;;
    if negb y then addr_ltb v (n_mask a) (n_mask b) else Ret false.
(** The relational operators, ip-network-base.hpp 1179-1240, see AddressModel. *)
Definition nop_lt (sp : bool) (v : ver) (a b : net) : res bool :=
  if sp then c <- net_cmp v a b ;; Ret (match c with Lt => true | _ => false end) else net_ltb v a b.
Definition nop_gt (sp : bool) (v : ver) (a b : net) : res bool :=
  if sp then c <- net_cmp v a b ;; Ret (match c with Gt => true | _ => false end) else net_ltb v b a.
Definition nop_le (sp : bool) (v : ver) (a b : net) : res bool :=
  if sp then c <- net_cmp v a b ;; Ret (match c with Gt => false | _ => true end)
  else x <- net_ltb v b a ;; Ret (negb x).
Definition nop_ge (sp : bool) (v : ver) (a b : net) : res bool :=
  if sp then c <- net_cmp v a b ;; Ret (match c with Lt => false | _ => true end)
  else x <- net_ltb v a b ;; Ret (negb x).
(** hash, ip-network-base.hpp 669-671. *)
Definition net_hash (is64 : bool) (v : ver) (n : net) : res Z :=
  h <- addr_hash is64 v (n_addr n) ;; m <- addr_hash is64 v (n_mask n) ;; Ret (calc_hash is64 h [m]).

(** std::to_string of a size_t (20 digits are enough). *)
Fixpoint dec_digits (k : nat) (n : Z) (acc : list Z) : res (list Z) :=
  match k with
  | O => UB OutOfFuel
  | S k' => let acc := n mod 10 + 48 :: acc in
            if n / 10 =? 0 then Ret acc else dec_digits k' (n / 10) acc
  end.
(** to_string, ip-network-base.hpp 585-587. *)
Definition net_to_string (v : ver) (n : net) (fmt : format) : res (list Z) :=
  a <- addr_to_string v (n_addr n) fmt ;; p <- dec_digits 20 (n_prefix n) [] ;; Ret (a ++ 47 :: p).

(** The splitting loop of parse_address_with_prefix, ip-network-base.hpp 1265-1288: the address
    characters (array of base_max_string_len + 1) and the remaining tokens of
    the netmask. *)
Fixpoint net_split (maxlen : Z) (ts : list tok) (address : list Z) (symbol : Z) (has_slash : bool) (netmask : list tok)
  : res (list Z * list tok) :=
  match ts with
  | [] => Ret (address, netmask)
  | Bad e v :: _ => Err e v
  | Ch c :: ts' =>
      if (c =? 47) && has_slash then Err only_one_slash_permitted 0
      else if (c =? 47) && (zlen ts' =? 0) then Err empty_netmask 0
      else
        let netmask := if c =? 47 then ts' else netmask in
        let has_slash := if c =? 47 then true else has_slash in
        '(address, symbol) <-
          (if negb has_slash then address <- wr address symbol c ;; Ret (address, symbol + 1)
           else Ret (address, symbol)) ;;
        if symbol >? maxlen then Ret (address, netmask)
        else net_split maxlen ts' address symbol has_slash netmask
  end.
(** What a successful parse_netmask leaves in [code_value]: base-v4.hpp 184 stores 0, and
    ip_from_string (205) leaves the index 3 of the last octet of a dotted mask; base-v6.hpp
    245-272 reads digits only and leaves 0. *)
Definition mask_value (v : ver) (mask_tokens : list tok) : Z :=
  match v with
  | V4 => match netmask_digits mask_tokens 0 with Ret (false, _) => 3 | _ => 0 end
  | V6 => 0
  end.
(** The error of a call which has no [code_value] parameter: the caller's value stays. *)
Definition with_value {A} (value : Z) (r : res A) : res A :=
  match r with Err e _ => Err e value | r => r end.
(** parse_address_with_prefix, ip-network-base.hpp 1256-1312.
    [ip_address_type::parse(address, code)] and strict_netmask do not touch
    [code_value]: their errors carry what parse_netmask left there. *)
Definition net_parse_res (v : ver) (ts : list tok) (strict : bool) : res net :=
  '(address, mask_tokens) <- net_split (max_string_len v) ts (repeat 0 (Z.to_nat (max_string_len v + 1))) 0 false [] ;;
  '(netmask, prefixlen) <- parse_netmask v mask_tokens ;;
  a <- with_value (mask_value v mask_tokens) (addr_parse_array v address) ;;
  a <- with_value (mask_value v mask_tokens) (strict_netmask v a netmask strict) ;;
  Ret (mk_net a netmask prefixlen).
(** The overload with an error code: the network and the code after the call. *)
Definition net_parse_code (v : ver) (ts : list tok) (code : ec) (strict : bool) : res (net * ec) :=
  match net_parse_res v ts strict with
  | Ret n => Ret (n, no_error)
  | Err e _ => Ret (net_default v, e)
  | UB u => UB u
  end.
(** The throwing overload, ip-network-base.hpp 1245-1254. *)
Definition net_parse (v : ver) (ts : list tok) (strict : bool) : res net :=
  match net_parse_res v ts strict with Err e value => raise_if (net_default v) e value | r => r end.

(** remove_scope_id of an address: ipv4-network.hpp 33-35, ipv6-network.hpp 47-51. *)
Definition remove_scope (v : ver) (a : addr) : res addr :=
  match v with
  | V4 => Ret a
  | V6 => s <- v6_set_scope 0 [] ;; Ret (mk_addr (a_bytes a) s)
  end.
(** ... and of a network: ipv4-network.hpp 37-39, ipv6-network.hpp 53-55. *)
Definition remove_scope_net (v : ver) (n : net) : res net :=
  match v with
  | V4 => Ret n
  | V6 => a <- remove_scope v (n_addr n) ;; from_address v a (n_prefix n) true
  end.

(** supernet with an error code, ip-network-base.hpp 1105-1132; [new_prefixlen] is the optional. *)
Definition supernet_code (v : ver) (n : net) (code : ec) (prefixlen_diff : Z) (new_prefixlen : option Z) : res (net * ec) :=
  if n_prefix n =? 0 then Ret (n, no_error)
  else
    match
      match new_prefixlen with
      | Some np =>
          if np >? n_prefix n then inl new_prefix_must_be_shorter
          else if negb (prefixlen_diff =? 1) then inl cannot_set_prefixlen_diff_and_new_prefix
          else inr (n_prefix n - np)
      | None => inr prefixlen_diff
      end
    with
    | inl e => Ret (net_default v, e)
    | inr diff =>
        if diff >? n_prefix n then Ret (net_default v, invalid_prefixlen_diff)
        else
          let new_prefix := n_prefix n - diff in
          a <- addr_to_uint v (n_addr n) ;;
          m <- addr_to_uint v (n_mask n) ;;
          s <- ushl v m diff ;;
          address <- addr_from_uint v (uand v a s) ;;
          r <- from_address v address new_prefix true ;;
          Ret (r, no_error)
    end.
(** The throwing overload, ip-network-base.hpp 1072-1079. *)
Definition supernet (v : ver) (n : net) (prefixlen_diff : Z) (new_prefixlen : option Z) : res net :=
  '(result, code) <- supernet_code v n no_error prefixlen_diff new_prefixlen ;; raise_if result code 0.
