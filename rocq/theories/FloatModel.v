(** Conversions between uint128_t and the floating-point types.
    Models: include/ipaddress/uint128.hpp 239-266 (constructors), 639-663
    (conversion operators), 1428-1485 (from_double, to_double and the two
    bit casts).

    [double] is Flocq's [binary64] and [float] its [binary32]: IEEE 754 data
    with signed zeros, infinities and NaNs.  Arithmetic is performed in the
    default rounding mode (to nearest, ties to even) and without excess
    precision.  [long double] is any IEEE binary format, given by its precision
    and largest exponent; formats that are no such format (pairs of doubles) are
    not modelled. *)
From Flocq Require Import Core IEEE754.Binary IEEE754.Bits.
Import BinarySingleNaN (mode, mode_NE).
From Verif Require Import Base Uint128Model.

Definition double := binary64.
Definition float := binary32.

Definition dprec : FLX.Prec_gt_0 53 := eq_refl.
Definition dmax : BinarySingleNaN.Prec_lt_emax 53 1024 := eq_refl.
Definition fprec : FLX.Prec_gt_0 24 := eq_refl.
Definition fmax : BinarySingleNaN.Prec_lt_emax 24 128 := eq_refl.

(** A conversion from an integer type, and the literals of 1429 and uint128.hpp 1450-1453. *)
Definition double_of_int (z : Z) : double := binary_normalize 53 1024 dprec dmax mode_NE z 0 false.
(** The usual operators on [double]; every comparison with a NaN is false. *)
Definition dlt (x y : double) : bool :=
  match b64_compare x y with Some Lt => true | _ => false end.
Definition dge (x y : double) : bool :=
  match b64_compare x y with Some Gt | Some Eq => true | _ => false end.
Definition dsub (x y : double) : double := b64_minus mode_NE x y.
Definition dadd (x y : double) : double := b64_plus mode_NE x y.
Definition disnan (x : double) : bool := is_nan 53 1024 x.

(** double_to_uint64_bits, uint128.hpp 1481-1485, and uint64_bits_to_double, 1475-1479: memcpy. *)
Definition double_to_uint64_bits (x : double) : Z := bits_of_b64 x.
Definition uint64_bits_to_double (bits : Z) : double := b64_of_bits bits.

(** from_double, uint128.hpp 1428-1447. *)
Definition from_double (value : double) : res u128 :=
  if dlt value (double_of_int 0) || disnan value then Ret (mk128 0 0)
  else if dge value (double_of_int 340282366920938463463374607431768211456)
  then Ret (mk128 0xFFFFFFFFFFFFFFFF 0xFFFFFFFFFFFFFFFF)
  else if dge value (double_of_int 1) then
    let bits := double_to_uint64_bits value in
    let result := mk128 (Z.lor (Z.shiftr (w64 (Z.shiftl bits 12)) 1) 0x8000000000000000) 0 in
    u128_shr result (1023 + 128 - 1 - Z.shiftr bits 52)
  else Ret (mk128 0 0).

(** to_double, uint128.hpp 1449-1473. *)
Definition to_double (value : u128) : res double :=
  let two_pow_52 := double_of_int 4503599627370496 in
  let two_pow_76 := double_of_int 75557863725914323419136 in
  let two_pow_104 := double_of_int 20282409603651670423947251286016 in
  let two_pow_128 := double_of_int 340282366920938463463374607431768211456 in
  let two_pow_52_bits := 0x4330000000000000 in
  let two_pow_76_bits := 0x44B0000000000000 in
  let two_pow_104_bits := 0x4670000000000000 in
  let two_pow_128_bits := 0x47F0000000000000 in
  if up value =? 0 then Ret (double_of_int (lo value))
  else if Z.shiftr (up value) 24 =? 0 then
    let lower := dsub (uint64_bits_to_double
      (Z.lor two_pow_52_bits (Z.shiftr (w64 (Z.shiftl (lo value) 12)) 12))) two_pow_52 in
    s <- u128_shr value 52 ;;
    let upper := dsub (uint64_bits_to_double
      (Z.lor two_pow_104_bits (u128_to_unsigned 64 s))) two_pow_104 in
    Ret (dadd lower upper)
  else
    t <- u128_shr value 12 ;;
    let lower := dsub (uint64_bits_to_double
      (Z.lor (Z.lor two_pow_76_bits (Z.shiftr (u128_to_unsigned 64 t) 12))
             (Z.land (lo value) 0xFFFFFF))) two_pow_76 in
    s <- u128_shr value 76 ;;
    let upper := dsub (uint64_bits_to_double
      (Z.lor two_pow_128_bits (u128_to_unsigned 64 s))) two_pow_128 in
    Ret (dadd lower upper).

(** The casts (double) float and (float) double of the language. *)
Definition double_of_float (x : float) : double :=
  match x with
  | B754_zero _ _ s => B754_zero 53 1024 s
  | B754_infinity _ _ s => B754_infinity 53 1024 s
  | B754_nan _ _ _ _ _ => proj1_sig default_nan_pl64
  | B754_finite _ _ s m e _ => binary_normalize 53 1024 dprec dmax mode_NE (cond_Zopp s (Zpos m)) e s
  end.
Definition float_of_double (x : double) : float :=
  match x with
  | B754_zero _ _ s => B754_zero 24 128 s
  | B754_infinity _ _ s => B754_infinity 24 128 s
  | B754_nan _ _ _ _ _ => proj1_sig default_nan_pl32
  | B754_finite _ _ s m e _ => binary_normalize 24 128 fprec fmax mode_NE (cond_Zopp s (Zpos m)) e s
  end.

(** uint128_t(double), uint128.hpp 239-243, and uint128_t(float), 264-265. *)
Definition u128_of_double (value : double) : res u128 := from_double value.
Definition u128_of_float (value : float) : res u128 := u128_of_double (double_of_float value).
(** operator double, uint128.hpp 650-652, and operator float, 661-663. *)
Definition u128_to_double (a : u128) : res double := to_double a.
Definition u128_to_float (a : u128) : res float := d <- to_double a ;; Ret (float_of_double d).

(** The casts (double) long double and (long double) double of the language, for a long double
    of [prec] bits and exponents up to [emax]; [nan] is what the latter makes of a NaN. *)
Definition double_of_long (prec emax : Z) (x : binary_float prec emax) : double :=
  match x with
  | B754_zero _ _ s => B754_zero 53 1024 s
  | B754_infinity _ _ s => B754_infinity 53 1024 s
  | B754_nan _ _ _ _ _ => proj1_sig default_nan_pl64
  | B754_finite _ _ s m e _ => binary_normalize 53 1024 dprec dmax mode_NE (cond_Zopp s (Zpos m)) e s
  end.
Definition long_of_double (prec emax : Z) (P : FLX.Prec_gt_0 prec) (L : BinarySingleNaN.Prec_lt_emax prec emax) (nan : binary_float prec emax)
    (x : double) : binary_float prec emax :=
  match x with
  | B754_zero _ _ s => B754_zero prec emax s
  | B754_infinity _ _ s => B754_infinity prec emax s
  | B754_nan _ _ _ _ _ => nan
  | B754_finite _ _ s m e _ => binary_normalize prec emax P L mode_NE (cond_Zopp s (Zpos m)) e s
  end.
(** uint128_t(long double), uint128.hpp 253-254, and operator long double, 639-641. *)
Definition u128_of_long (prec emax : Z) (value : binary_float prec emax) : res u128 := u128_of_double (double_of_long prec emax value).
Definition u128_to_long (prec emax : Z) (P : FLX.Prec_gt_0 prec) (L : BinarySingleNaN.Prec_lt_emax prec emax) (nan : binary_float prec emax)
    (a : u128) : res (binary_float prec emax) := d <- to_double a ;; Ret (long_of_double prec emax P L nan d).
