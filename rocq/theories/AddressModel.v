(** Addresses of both versions.  Models: include/ipaddress/ip-address-base.hpp,
    ipv4-address.hpp, ipv6-address.hpp, byte-array.hpp, hash.hpp.  An address is
    its bytes and its scope id (always empty for IPv4).  The host is
    little-endian here (the byte-order parameter is in V4Model and V6Model). *)
From Verif Require Import Base UnicodeModel FixedStringModel V4Model V6Model Uint128Model SpecInt.

Record addr := mk_addr { a_bytes : list Z; a_scope : list Z }.

(** The default address, ip-address-base.hpp 63 and the zero initialisers. *)
Definition addr_default (v : ver) : addr := mk_addr (repeat 0 (nbytes v)) [].

(** The stored scope: fixed_string<16> whose unused characters are zero
    (base-v6.hpp 96-101 and ipv6-address.hpp 54-74 build it so). *)
Definition scope_fs (s : list Z) : fstr := mkfs (zlen s) (s ++ repeat 0 (16 - length s)).

(** byte_array operators ==, <=>, <: byte-array.hpp 378-386, 422-430, 446-456.
    Both arrays have the same length by their type. *)
Fixpoint bytes_cmp (a b : list Z) : comparison :=
  match a, b with
  | x :: a', y :: b' => if negb (x =? y) then (if x <? y then Lt else Gt) else bytes_cmp a' b'
  | _, _ => Eq
  end.
Fixpoint bytes_ltb (a b : list Z) : bool :=
  match a, b with
  | x :: a', y :: b' => if x <? y then true else if negb (x =? y) then false else bytes_ltb a' b'
  | _, _ => false
  end.

(** equals: ipv4-address.hpp 88-90, ipv6-address.hpp 801-808. *)
Definition addr_eqb (v : ver) (a b : addr) : res bool :=
  match v with
  | V4 => Ret (list_eqb (a_bytes a) (a_bytes b))
  | V6 => if list_eqb (a_bytes a) (a_bytes b)
          then c <- fs_compare (scope_fs (a_scope a)) (scope_fs (a_scope b)) ;; Ret (c =? 0)
          else Ret false
  end.
(** compare (operator<=>): ipv4-address.hpp 98-100, ipv6-address.hpp 821-837. *)
Definition addr_cmp (v : ver) (a b : addr) : res comparison :=
  match v with
  | V4 => Ret (bytes_cmp (a_bytes a) (a_bytes b))
  | V6 => match bytes_cmp (a_bytes a) (a_bytes b) with
          | Eq => c <- fs_compare (scope_fs (a_scope a)) (scope_fs (a_scope b)) ;;
                  Ret (if c <? 0 then Lt else if c =? 0 then Eq else Gt)
          | c => Ret c
          end
  end.
(** less (operator< before C++20): ipv4-address.hpp 92-94, ipv6-address.hpp 810-817. *)
Definition addr_ltb (v : ver) (a b : addr) : res bool :=
  match v with
  | V4 => Ret (bytes_ltb (a_bytes a) (a_bytes b))
  | V6 => if bytes_ltb (a_bytes a) (a_bytes b) then Ret true
          else c <- fs_compare (scope_fs (a_scope a)) (scope_fs (a_scope b)) ;; Ret (c <? 0)
  end.

(** The relational operators in the two families: [sp] selects the C++20 family
    derived from operator<=> (ip-address-base.hpp 698-700), otherwise the
    pre-C++20 one (713-754). *)
Definition op_lt (sp : bool) (v : ver) (a b : addr) : res bool :=
  if sp then c <- addr_cmp v a b ;; Ret (match c with Lt => true | _ => false end) else addr_ltb v a b.
Definition op_gt (sp : bool) (v : ver) (a b : addr) : res bool :=
  if sp then c <- addr_cmp v a b ;; Ret (match c with Gt => true | _ => false end) else addr_ltb v b a.
Definition op_le (sp : bool) (v : ver) (a b : addr) : res bool :=
  if sp then c <- addr_cmp v a b ;; Ret (match c with Gt => false | _ => true end)
  else x <- addr_ltb v b a ;; Ret (negb x).
Definition op_ge (sp : bool) (v : ver) (a b : addr) : res bool :=
  if sp then c <- addr_cmp v a b ;; Ret (match c with Lt => false | _ => true end)
  else x <- addr_ltb v a b ;; Ret (negb x).

(** hash.hpp: hash_combine<4> 29-39, hash_sum 53-56, calc_hash 58-67;
    [is64] is the width of size_t (hash_combine<8> is in Uint128Model). *)
Definition hash_combine4 (value : Z) : Z :=
  let value := Z.lxor value (Z.shiftr value 16) in
  let value := w32 (value * 0x21f0aaad) in
  let value := Z.lxor value (Z.shiftr value 15) in
  let value := w32 (value * 0x735a2d97) in
  Z.lxor value (Z.shiftr value 15).
Definition hash_sum (is64 : bool) (seed value : Z) : Z :=
  if is64 then hash_combine8 (w64 (w64 (seed + 0x9e3779b9) + value))
  else hash_combine4 (w32 (w32 (seed + 0x9e3779b9) + value)).
Definition calc_hash (is64 : bool) (seed : Z) (args : list Z) : Z :=
  fold_left (hash_sum is64) args seed.
(** ipv4-address.hpp 84-86, ipv6-address.hpp 788-799. *)
Definition addr_hash (is64 : bool) (v : ver) (a : addr) : res Z :=
  match v with
  | V4 => Ret (calc_hash is64 0 (a_bytes a))
  | V6 => seed <- fs_hash is64 (scope_fs (a_scope a)) ;; Ret (calc_hash is64 seed (a_bytes a))
  end.

(** from_bytes(pointer, count), ip-address-base.hpp 104-110; [src] is the
    memory readable from the pointer. *)
Fixpoint from_bytes_loop (k : nat) (i : Z) (src : list Z) (count : Z) (data : list Z) : res (list Z) :=
  match k with
  | O => Ret data
  | S k' => if i <? count then x <- rd src i ;; data <- wr data i x ;; from_bytes_loop k' (i + 1) src count data
            else Ret data
  end.
Definition from_bytes (v : ver) (src : list Z) (count : Z) : res addr :=
  data <- from_bytes_loop (nbytes v) 0 src count (repeat 0 (nbytes v)) ;; Ret (mk_addr data []).

(** is_unspecified, ip-address-base.hpp 507-515. *)
Fixpoint all_zero (b : list Z) : bool :=
  match b with [] => true | x :: b' => if negb (x =? 0) then false else all_zero b' end.
Definition addr_unspecified (a : addr) : bool := all_zero (a_bytes a).

(** from_uint and to_uint of both versions (uint_type is uint32_t or uint128_t). *)
Definition addr_to_uint (v : ver) (a : addr) : res Z :=
  match v with
  | V4 => v4_to_uint true (a_bytes a)
  | V6 => u <- v6_to_uint true (a_bytes a) ;; Ret (to_Z u)
  end.
Definition addr_from_uint (v : ver) (n : Z) : res addr :=
  match v with
  | V4 => Ret (mk_addr (v4_from_uint true n) [])
  | V6 => b <- v6_from_uint true (of_Z n) ;; Ret (mk_addr b [])
  end.

(** Arithmetic on uint_type: native for uint32_t, the operators of uint128.hpp
    (Uint128Model) for uint128_t, on the number it holds. *)
Definition uadd (v : ver) (x y : Z) : Z :=
  match v with V4 => w32 (x + y) | V6 => to_Z (u128_add (of_Z x) (of_Z y)) end.
Definition usub (v : ver) (x y : Z) : Z :=
  match v with V4 => w32 (x - y) | V6 => to_Z (u128_sub (of_Z x) (of_Z y)) end.
Definition umul (v : ver) (x y : Z) : Z :=
  match v with V4 => w32 (x * y) | V6 => to_Z (u128_mul (of_Z x) (of_Z y)) end.
Definition uand (v : ver) (x y : Z) : Z :=
  match v with V4 => Z.land x y | V6 => to_Z (u128_and (of_Z x) (of_Z y)) end.
Definition ushl (v : ver) (x n : Z) : res Z :=
  match v with V4 => shl32 x n | V6 => u <- u128_shl (of_Z x) n ;; Ret (to_Z u) end.
Definition ushr (v : ver) (x n : Z) : res Z :=
  match v with V4 => shr32 x n | V6 => u <- u128_shr (of_Z x) n ;; Ret (to_Z u) end.
(** Division: Uint128Model.u128_div for uint128_t. *)
Definition udivide (v : ver) (x y : Z) : res Z :=
  match v with V4 => udiv x y | V6 => u <- u128_div (of_Z x) (of_Z y) ;; Ret (to_Z u) end.

(** parse: ip-address-base.hpp 762-778 on the tokens of the text. *)
Definition addr_parse (v : ver) (ts : list tok) : res addr :=
  match v with
  | V4 => b <- v4_from_string ts ;; Ret (mk_addr b [])
  | V6 => '(b, s) <- v6_from_string true ts ;; Ret (mk_addr b s)
  end.
(** base_max_string_len: base-v4.hpp 38, base-v6.hpp 50. *)
Definition max_string_len (v : ver) : Z := match v with V4 => 15 | V6 => 57 end.
(** parse(const char (&)[N]) of the array of base_max_string_len + 1
    characters, ip-address-base.hpp 402-432. *)
Definition addr_parse_array (v : ver) (data : list Z) : res addr :=
  f <- fs_make char_next (Z.to_nat (max_string_len v)) data ;; addr_parse v (chars (fs_chars f)).
(** to_string, ip-address-base.hpp 527-531. *)
Definition addr_to_string (v : ver) (a : addr) (fmt : format) : res (list Z) :=
  match v with V4 => v4_to_string (a_bytes a) | V6 => v6_to_string (a_bytes a) (a_scope a) fmt end.

(** The literal operators, ip-address-base.hpp 785-795: the text is copied into MaxLen + 1
    characters (MaxLen = base_max_string_len) and parsed as an array. *)
Definition addr_literal (v : ver) (s : list Z) : res addr :=
  if zlen s >? max_string_len v then Err string_is_too_long 0
  else addr_parse_array v (s ++ repeat 0 (Z.to_nat (max_string_len v + 1 - zlen s))).

(** set_scope_id(scope, code): ipv6-address.hpp 40-77.  The address afterwards,
    the error code and the index; [code] is the value before the call. *)
Definition addr_set_scope (a : addr) (code : ec) (n : Z) (ts : list tok) : res (addr * ec * Z) :=
  match v6_set_scope n ts with
  | Ret s => Ret (mk_addr (a_bytes a) s, no_error, 0)
  | Err e i => Ret (a, e, i)
  | UB u => UB u
  end.

(** swap of two addresses: ipv4-address.hpp 80-82, ipv6-address.hpp 781-786. *)
Definition addr_swap (a b : addr) : res (addr * addr) :=
  '(x, y) <- fs_swap (scope_fs (a_scope a)) (scope_fs (a_scope b)) ;;
  Ret (mk_addr (a_bytes b) (fs_chars x), mk_addr (a_bytes a) (fs_chars y)).
