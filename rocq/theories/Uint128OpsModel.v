(** Operators of uint128_t that mix it with built-in integers, compound
    assignments, increments, swap, and std::numeric_limits.  Models: uint128.hpp
    141-229, 310-314, 673-837, 992-1033, 1054-1257, 1678-1883, 1904-1965, 2056-2064.
    A reference to a variable is its name in a store, so that both operands of
    an assignment may be the same object. *)
From Verif Require Import Base Uint128Model.

(** ** Built-in integers *)
Inductive ity := IBool | IChar | ISChar | IUChar | IWchar | IChar8 | IChar16 | IChar32 | IShort | IUShort | IInt | IUInt | ILong | IULong | ILLong | IULLong.
(** uint128_t(lower) for a [lower] of the type (uint128.hpp 141-229).  Types
    without a constructor of their own are promoted, to int, or to unsigned int
    for char32_t ([conv.prom] of the C++ standard). *)
Definition u128_of_int (t : ity) (x : Z) : u128 :=
  match t with
  | IUShort | IUInt | IULong | IULLong | IChar32 => u128_of_u64 x
  | _ => u128_of_i64 x
  end.

Inductive bop := OAdd | OSub | OMul | ODiv | OMod | OAnd | OOr | OXor.
(** The operators of two uint128_t, uint128.hpp 843-937. *)
Definition u128_bin (op : bop) (a b : u128) : res u128 :=
  match op with
  | OAdd => Ret (u128_add a b) | OSub => Ret (u128_sub a b) | OMul => Ret (u128_mul a b)
  | ODiv => u128_div a b | OMod => u128_mod a b
  | OAnd => Ret (u128_and a b) | OOr => Ret (u128_or a b) | OXor => Ret (u128_xor a b)
  end.
(** integer op uint128_t, uint128.hpp 1678-1772, and uint128_t op integer (the
    converting constructors are implicit). *)
Definition u128_bin_l (op : bop) (t : ity) (x : Z) (b : u128) : res u128 := u128_bin op (u128_of_int t x) b.
Definition u128_bin_r (op : bop) (a : u128) (t : ity) (y : Z) : res u128 := u128_bin op a (u128_of_int t y).

Inductive cop := CEq | CNe | CLt | CGt | CLe | CGe.
(** Comparisons of two uint128_t: == 1092, != 1118, the others either written
    out (uint128.hpp 1178-1257) or, in C++20, rewritten with <=> (1146-1152). *)
Definition u128_rel (sp : bool) (op : cop) (a b : u128) : bool :=
  match op with
  | CEq => u128_eqb a b
  | CNe => negb (u128_eqb a b)
  | CLt => if sp then match u128_cmp a b with Lt => true | _ => false end else u128_ltb a b
  | CGt => if sp then match u128_cmp a b with Gt => true | _ => false end else u128_gtb a b
  | CLe => if sp then match u128_cmp a b with Gt => false | _ => true end else u128_leb a b
  | CGe => if sp then match u128_cmp a b with Lt => false | _ => true end else u128_geb a b
  end.
(** With an integer on the right, uint128.hpp 1079-1246, and on the left, 1782-1883. *)
Definition u128_rel_r (sp : bool) (op : cop) (a : u128) (t : ity) (y : Z) : bool := u128_rel sp op a (u128_of_int t y).
Definition u128_rel_l (sp : bool) (op : cop) (t : ity) (x : Z) (b : u128) : bool := u128_rel sp op (u128_of_int t x) b.
(** operator&& 1054-1056 and operator|| 1066-1068 (overloaded: both operands are evaluated). *)
Definition u128_land (a b : u128) : bool :=
  (negb (up a =? 0) || negb (lo a =? 0)) && (negb (up b =? 0) || negb (lo b =? 0)).
Definition u128_lor (a b : u128) : bool :=
  (negb (up a =? 0) || negb (lo a =? 0)) || (negb (up b =? 0) || negb (lo b =? 0)).

(** ** Variables *)
Definition store := Z -> u128.
Definition set (s : store) (i : Z) (v : u128) : store := fun k => if k =? i then v else s k.
(** += -= *= /= %= uint128.hpp 673-728: [*this = *this op other]; &= |= ^= 738-770: the halves
    one after the other, each read again from the variables. *)
Definition assign_halves (f : Z -> Z -> Z) (s : store) (i j : Z) : store :=
  let s := set s i (mk128 (f (up (s i)) (up (s j))) (lo (s i))) in
  set s i (mk128 (up (s i)) (f (lo (s i)) (lo (s j)))).
Definition assign (op : bop) (s : store) (i j : Z) : res store :=
  match op with
  | OAnd => Ret (assign_halves Z.land s i j)
  | OOr => Ret (assign_halves Z.lor s i j)
  | OXor => Ret (assign_halves Z.lxor s i j)
  | _ => r <- u128_bin op (s i) (s j) ;; Ret (set s i r)
  end.
(** <<= 781-785 and >>= 796-800. *)
Definition assign_shl (s : store) (i shift : Z) : res store := r <- u128_shl (s i) shift ;; Ret (set s i r).
Definition assign_shr (s : store) (i shift : Z) : res store := r <- u128_shr (s i) shift ;; Ret (set s i r).
(** ++ and --, prefix uint128.hpp 992-1007 and postfix 1016-1033: the value of
    the expression and the variables afterwards. *)
Definition pre_inc (s : store) (i : Z) : u128 * store :=
  let s := set s i (u128_add (s i) (u128_of_int IInt 1)) in (s i, s).
Definition pre_dec (s : store) (i : Z) : u128 * store :=
  let s := set s i (u128_sub (s i) (u128_of_int IInt 1)) in (s i, s).
Definition post_inc (s : store) (i : Z) : u128 * store :=
  let tmp := s i in let '(_, s) := pre_inc s i in (tmp, s).
Definition post_dec (s : store) (i : Z) : u128 * store :=
  let tmp := s i in let '(_, s) := pre_dec s i in (tmp, s).
(** swap, uint128.hpp 310-314 and std::swap 2056-2060. *)
Definition u128_swap (s : store) (i j : Z) : store :=
  let tmp := s i in
  let s := set s i (s j) in
  set s j tmp.
(** std::abs, uint128.hpp 2062-2064, and unary +, 809-811. *)
Definition u128_abs (a : u128) : u128 := a.
Definition u128_plus (a : u128) : u128 := a.

(** ** std::numeric_limits<uint128_t>, uint128.hpp 1904-1965 *)
Definition limits_digits : Z := 128.
Definition limits_digits10 : Z := 38.
Definition limits_radix : Z := 2.
Definition limits_is_signed : bool := false.
Definition limits_is_modulo : bool := true.
Definition limits_min : u128 := u128_of_int IInt 0.
Definition limits_max : u128 := mk128 0xFFFFFFFFFFFFFFFF 0xFFFFFFFFFFFFFFFF.
Definition limits_lowest : u128 := limits_min.
