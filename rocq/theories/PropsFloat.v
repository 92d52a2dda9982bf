(** Property theorems C48: conversions between uint128_t and the IEEE types.
    [dval] and [fval] are the real value of a double and of a float, [dfinite]
    and [ffinite] exclude infinities and NaNs; [nearest_even] is IEEE rounding
    to nearest, [closest] says no double is nearer (SpecDouble). *)
From Coq Require Import Reals.
From Flocq Require Import Core IEEE754.Binary IEEE754.Bits.
From Verif Require Import Base Uint128Model FloatModel SpecInt SpecDouble FloatProofs FloatProofs2 FloatProofs3 FloatProofs4 FloatProofs5 FloatProofs6.

(** A finite double from 0 up to 2^128 is truncated toward zero. *)
Theorem C48_from_double : forall x, dfinite x -> (0 <= dval x < bpow radix2 128)%R ->
  u128_of_double x = Ret (of_Z (Ztrunc (dval x))).
Proof. exact from_double_trunc. Qed.
Print Assumptions C48_from_double.
(** Negative doubles give 0; doubles from 2^128 up saturate; NaN gives 0 and +infinity the maximum. *)
Theorem C48_from_negative : forall x, dfinite x -> (dval x < 0)%R -> u128_of_double x = Ret (mk128 0 0).
Proof. exact from_double_neg. Qed.
Print Assumptions C48_from_negative.
Theorem C48_from_big : forall x, dfinite x -> (bpow radix2 128 <= dval x)%R ->
  u128_of_double x = Ret (of_Z (2 ^ 128 - 1)).
Proof. exact from_double_big. Qed.
Print Assumptions C48_from_big.
Theorem C48_from_special : forall x, ~ dfinite x ->
  u128_of_double x = Ret (of_Z (match x with B754_infinity _ _ false => 2 ^ 128 - 1 | _ => 0 end)).
Proof. exact from_double_special. Qed.
Print Assumptions C48_from_special.
Example C48_from_ex :
  u128_of_double (b64_of_bits 0x4059200000000000) = Ret (of_Z 100) /\
  u128_of_double (b64_of_bits 0x47EFFFFFFFFFFFFF) = Ret (of_Z (2 ^ 128 - 2 ^ 75)) /\
  u128_of_double (b64_of_bits 0x3FEFFFFFFFFFFFFF) = Ret (of_Z 0) /\
  u128_of_double (b64_of_bits 0xC059200000000000) = Ret (of_Z 0) /\
  u128_of_double (b64_of_bits 0x47F0000000000000) = Ret (of_Z (2 ^ 128 - 1)) /\
  u128_of_double (b64_of_bits 0x7FF8000000000000) = Ret (of_Z 0).
Proof. repeat (split; [vm_compute; reflexivity|]). vm_compute. reflexivity. Qed.
Example C48_from_ex_value : dfinite (b64_of_bits 0x4059200000000000) /\ dval (b64_of_bits 0x4059200000000000) = (IZR 201 * / 2)%R.
Proof.
  split; [reflexivity|].
  rewrite (dval_ff _ (F754_finite false 7072058789855232 (-46))) by (vm_compute; reflexivity).
  unfold FF2R, F2R; cbn [cond_Zopp Fnum Fexp]. change 7072058789855232 with (201 * 2 ^ 45).
  rewrite mult_IZR, <- bpow_IZR, Rmult_assoc, <- bpow_plus by (intros H; discriminate H). reflexivity.
Qed.
(** operator double rounds to nearest even below 2^88, from 2^101 up, and between
    whenever the low 24 bits are clear.  Missing: values from 2^88 to 2^101 with a low bit set. *)
Theorem C48_to_double_partial : forall a, wf128 a ->
  to_Z a < 2 ^ 88 \/ 2 ^ 101 <= to_Z a \/ to_Z a mod 2 ^ 24 = 0 ->
  exists d, u128_to_double a = Ret d /\ nearest_even (IZR (to_Z a)) d.
Proof. exact to_double_nearest. Qed.
Print Assumptions C48_to_double_partial.
Theorem C48_nearest_is_closest : forall x d, nearest_even x d -> closest x d.
Proof. exact nearest_closest. Qed.
Print Assumptions C48_nearest_is_closest.
(** Between 2^88 and 2^101 the result need not be the closest double. *)
Theorem C48_to_double_refuted : exists a d, wf128 a /\ u128_to_double a = Ret d /\ ~ closest (IZR (to_Z a)) d.
Proof. exact bad_not_closest. Qed.
Print Assumptions C48_to_double_refuted.
(** From 2^88 up the result is, exactly, the rounded value of what remains when
    bits 0 to 23 are or-ed into bits 24 to 47. *)
Theorem C48_to_double_value : forall a, wf128 a -> 2 ^ 88 <= to_Z a ->
  exists d, u128_to_double a = Ret d /\ nearest_even (IZR (Z.lor (to_Z a / 2 ^ 24) (to_Z a mod 2 ^ 24) * 2 ^ 24)) d.
Proof. exact to_double_value. Qed.
Print Assumptions C48_to_double_value.
Example C48_to_double_value_ex : wf128 (mk128 (2 ^ 24) 0xFFFFFF) /\ 2 ^ 88 <= to_Z (mk128 (2 ^ 24) 0xFFFFFF) /\
  Z.lor (to_Z (mk128 (2 ^ 24) 0xFFFFFF) / 2 ^ 24) (to_Z (mk128 (2 ^ 24) 0xFFFFFF) mod 2 ^ 24) * 2 ^ 24 = 2 ^ 88 + 0xFFFFFF * 2 ^ 24.
Proof. split; [split; split; vm_compute; (reflexivity || discriminate)|]. split; [vm_compute; discriminate|vm_compute; reflexivity]. Qed.
(** There the conversion does not even keep the order of two values. *)
Theorem C48_order_refuted : exists a b x y, wf128 a /\ wf128 b /\ to_Z a < to_Z b /\
  u128_to_double a = Ret x /\ u128_to_double b = Ret y /\ (dval y < dval x)%R.
Proof. exact bad_order. Qed.
Print Assumptions C48_order_refuted.
Theorem C48_order_partial : forall a b, wf128 a -> wf128 b -> to_Z a <= to_Z b ->
  to_Z a < 2 ^ 88 \/ 2 ^ 101 <= to_Z a \/ to_Z a mod 2 ^ 24 = 0 ->
  to_Z b < 2 ^ 88 \/ 2 ^ 101 <= to_Z b \/ to_Z b mod 2 ^ 24 = 0 ->
  exists x y, u128_to_double a = Ret x /\ u128_to_double b = Ret y /\ (dval x <= dval y)%R.
Proof. exact to_double_mono. Qed.
Print Assumptions C48_order_partial.
(** For every value the result is finite and off by at most one part in 2^39. *)
Theorem C48_to_double_error : forall a, wf128 a -> exists d, u128_to_double a = Ret d /\ dfinite d /\
  (Rabs (dval d - IZR (to_Z a)) <= bpow radix2 (-39) * IZR (to_Z a))%R.
Proof. exact to_double_error. Qed.
Print Assumptions C48_to_double_error.
(** Every value that some double represents converts to that double and back. *)
Theorem C48_round_trip : forall a, wf128 a -> exact (IZR (to_Z a)) ->
  exists d, u128_to_double a = Ret d /\ dfinite d /\ dval d = IZR (to_Z a) /\ u128_of_double d = Ret a.
Proof. exact to_double_exact. Qed.
Print Assumptions C48_round_trip.
(** Every integral double below 2^128 converts to that integer and back to the same value. *)
Theorem C48_round_trip_back : forall x, dfinite x -> (0 <= dval x < bpow radix2 128)%R ->
  forall z, dval x = IZR z -> exists a, u128_of_double x = Ret a /\ wf128 a /\ to_Z a = z /\
  exists d, u128_to_double a = Ret d /\ dfinite d /\ dval d = dval x.
Proof. exact of_double_exact. Qed.
Print Assumptions C48_round_trip_back.
Example C48_to_ex : exists x y z, u128_to_double (of_Z (2 ^ 53 + 1)) = Ret x /\ bits_of_b64 x = 0x4340000000000000 /\
  u128_to_double (of_Z (2 ^ 80 + 2 ^ 27 + 1)) = Ret y /\ bits_of_b64 y = 0x44F0000000000001 /\
  u128_to_double (of_Z (2 ^ 128 - 1)) = Ret z /\ bits_of_b64 z = 0x47F0000000000000.
Proof.
  destruct (to_double_ok (of_Z (2 ^ 53 + 1))) as (x & X & _); [split; split; vm_compute; (reflexivity || discriminate)|].
  destruct (to_double_ok (of_Z (2 ^ 80 + 2 ^ 27 + 1))) as (y & Y & _); [split; split; vm_compute; (reflexivity || discriminate)|].
  destruct (to_double_ok (of_Z (2 ^ 128 - 1))) as (z & Q & _); [split; split; vm_compute; (reflexivity || discriminate)|].
  assert (forall r d b, r = Ret d -> match r with Ret x => bits_of_b64 x =? b | _ => false end = true -> bits_of_b64 d = b) as K.
  { intros r d b -> H. apply Z.eqb_eq, H. }
  exists x, y, z. split; [exact X|]. split; [apply (K _ _ _ X); vm_compute; reflexivity|].
  split; [exact Y|]. split; [apply (K _ _ _ Y); vm_compute; reflexivity|].
  split; [exact Q|]. apply (K _ _ _ Q); vm_compute; reflexivity.
Qed.
(** 2^100 + 2^48 is a double inside the band, so the round-trip hypothesis is met there. *)
Example C48_round_trip_ex : exact (IZR (2 ^ 100 + 2 ^ 48)).
Proof.
  exists (b64_of_bits 0x4630000000000001). split; [reflexivity|].
  rewrite (dval_ff _ (F754_finite false (2 ^ 52 + 1) 48)) by (vm_compute; reflexivity).
  rewrite ff_int by discriminate. reflexivity.
Qed.
(** float: construction truncates every finite value (all are below 2^128). *)
Theorem C48_from_float : forall x, ffinite x ->
  u128_of_float x = Ret (of_Z (if Rlt_bool (fval x) 0 then 0 else Ztrunc (fval x))).
Proof. exact from_float_trunc. Qed.
Print Assumptions C48_from_float.
(** Values that are exactly a float convert to it and back. *)
Theorem C48_float_round_trip : forall a y, wf128 a -> ffinite y -> fval y = IZR (to_Z a) ->
  exists f, u128_to_float a = Ret f /\ ffinite f /\ fval f = IZR (to_Z a) /\ u128_of_float f = Ret a.
Proof. exact to_float_exact. Qed.
Print Assumptions C48_float_round_trip.
(** operator float rounds twice (to double, then to float): a nearer float may exist. *)
Theorem C48_float_refuted : exists a f y, wf128 a /\ u128_to_float a = Ret f /\ ffinite f /\ ffinite y /\
  (Rabs (fval y - IZR (to_Z a)) < Rabs (fval f - IZR (to_Z a)))%R.
Proof. exact float_twice. Qed.
Print Assumptions C48_float_refuted.
(** operator float: the double, rounded to the nearest float, +infinity on overflow. *)
Theorem C48_to_float_value : forall a, wf128 a -> exists d f, u128_to_double a = Ret d /\ u128_to_float a = Ret f /\
  let y := round radix2 (FLT_exp (-149) 24) ZnearestE (dval d) in
  ((y < bpow radix2 128)%R -> ffinite f /\ fval f = y) /\ ((bpow radix2 128 <= y)%R -> f = B754_infinity 24 128 false).
Proof. exact to_float_value. Qed.
Print Assumptions C48_to_float_value.
(** The largest value converts to +infinity. *)
Example C48_to_float_value_ex : wf128 (mk128 (2 ^ 64 - 1) (2 ^ 64 - 1)) /\ u128_to_float (mk128 (2 ^ 64 - 1) (2 ^ 64 - 1)) = Ret (B754_infinity 24 128 false).
Proof.
  assert (W : wf128 (mk128 (2 ^ 64 - 1) (2 ^ 64 - 1))) by (split; split; vm_compute; (reflexivity || discriminate)). split; [exact W|].
  destruct (to_float_value _ W) as (d & f & _ & E & _). rewrite E. f_equal.
  assert (K : B2FF 24 128 f = F754_infinity false).
  { change (match Ret f with Ret z => B2FF 24 128 z | _ => F754_zero false end = F754_infinity false). rewrite <- E. vm_compute. reflexivity. }
  destruct f; try discriminate K. injection K as ->. reflexivity.
Qed.
Example C48_float_ex : u128_of_float (b32_of_bits 0x7F7FFFFF) = Ret (of_Z (2 ^ 128 - 2 ^ 104)) /\
  u128_of_float (b32_of_bits 0x3FC00000) = Ret (of_Z 1) /\ ffinite (b32_of_bits 0x7F7FFFFF) /\
  fval (b32_of_bits 0x7F7FFFFF) = IZR (to_Z (of_Z (2 ^ 128 - 2 ^ 104))).
Proof.
  split; [vm_compute; reflexivity|]. split; [vm_compute; reflexivity|]. split; [reflexivity|].
  rewrite (fval_ff _ (F754_finite false (2 ^ 24 - 1) 104)) by (vm_compute; reflexivity).
  rewrite ff_int by discriminate. f_equal.
Qed.
(** long double, in any IEEE binary format: construction rounds to a double first, ... *)
Theorem C48_from_long : forall prec emax x, is_finite prec emax x = true ->
  let y := round radix2 (FLT_exp (-1074) 53) ZnearestE (B2R prec emax x) in
  u128_of_long prec emax x = Ret (of_Z (if Rlt_bool y 0 then 0 else if Rle_bool (bpow radix2 128) y then 2 ^ 128 - 1 else Ztrunc y)).
Proof. exact from_long_value. Qed.
Print Assumptions C48_from_long.
Theorem C48_from_long_special : forall prec emax x, is_finite prec emax x = false ->
  u128_of_long prec emax x = Ret (of_Z (match x with B754_infinity _ _ false => 2 ^ 128 - 1 | _ => 0 end)).
Proof. exact from_long_special. Qed.
Print Assumptions C48_from_long_special.
(** ... so values that are doubles are truncated ... *)
Theorem C48_from_long_exact : forall prec emax x d, is_finite prec emax x = true -> dfinite d -> B2R prec emax x = dval d -> (0 <= dval d < bpow radix2 128)%R ->
  u128_of_long prec emax x = Ret (of_Z (Ztrunc (dval d))).
Proof. exact from_long_exact. Qed.
Print Assumptions C48_from_long_exact.
(** ... and others need not be: 2^64 - 1 of the x87 format becomes 2^64. *)
Theorem C48_from_long_refuted : exists x : binary_float 64 16384, is_finite 64 16384 x = true /\ B2R 64 16384 x = IZR (2 ^ 64 - 1) /\ u128_of_long 64 16384 x = Ret (of_Z (2 ^ 64)).
Proof. exact from_long_bad. Qed.
Print Assumptions C48_from_long_refuted.
(** The conversion to long double has the value of the conversion to double, ... *)
Theorem C48_to_long : forall prec emax P L nan a, 53 <= prec -> 1024 <= emax -> wf128 a ->
  exists d x, u128_to_double a = Ret d /\ u128_to_long prec emax P L nan a = Ret x /\ is_finite prec emax x = true /\ B2R prec emax x = dval d.
Proof. exact to_long_value. Qed.
Print Assumptions C48_to_long.
(** ... even if the format could hold the integer. *)
Theorem C48_to_long_refuted : exists a, wf128 a /\ to_Z a = 2 ^ 64 - 1 /\ (exists y : binary_float 64 16384, is_finite 64 16384 y = true /\ B2R 64 16384 y = IZR (to_Z a)) /\
  forall P L nan, exists x, u128_to_long 64 16384 P L nan a = Ret x /\ B2R 64 16384 x = IZR (2 ^ 64).
Proof. exact to_long_lossy. Qed.
Print Assumptions C48_to_long_refuted.
Example C48_long_ex : is_finite 64 16384 x87_max64 = true /\ B2R 64 16384 x87_max64 = IZR (2 ^ 64 - 1) /\
  is_finite 113 16384 (B754_infinity 113 16384 false) = false /\ u128_of_long 113 16384 (B754_infinity 113 16384 false) = Ret (of_Z (2 ^ 128 - 1)) /\
  u128_of_long 113 16384 (B754_finite 113 16384 false (2 ^ 112 + 1) (-110) eq_refl) = Ret (of_Z 4).
Proof. split; [reflexivity|]. split; [exact x87_max64_value|]. split; [reflexivity|]. split; vm_compute; reflexivity. Qed.
