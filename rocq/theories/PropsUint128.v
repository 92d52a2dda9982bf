(** Theorems about the 128-bit integer: properties C42-C47.
    [wf128 a] says the two halves are 64-bit values; [to_Z a] is the number. *)
From Verif Require Import Base Uint128Model SpecInt SpecText Uint128Proofs Uint128Div Uint128Div2 Uint128Text.

(** ** C42: ring operations modulo 2^128 *)
Theorem C42_add : forall a b, wf128 a -> wf128 b ->
  wf128 (u128_add a b) /\ to_Z (u128_add a b) = (to_Z a + to_Z b) mod 2 ^ 128.
Proof. exact (fun a b Ha Hb => conj (add_wf a b) (add_ok a b Ha Hb)). Qed.
Print Assumptions C42_add.
Example C42_add_ex : (* carry into the upper half *)
  wf128 (mk128 0 (2 ^ 64 - 1)) /\ u128_add (mk128 0 (2 ^ 64 - 1)) (mk128 5 3) = mk128 6 2.
Proof. vm_compute. intuition congruence. Qed.

Theorem C42_sub : forall a b, wf128 a -> wf128 b ->
  wf128 (u128_sub a b) /\ to_Z (u128_sub a b) = (to_Z a - to_Z b) mod 2 ^ 128.
Proof. exact (fun a b Ha Hb => conj (sub_wf a b) (sub_ok a b Ha Hb)). Qed.
Print Assumptions C42_sub.
Example C42_sub_ex : u128_sub (mk128 1 0) (mk128 0 1) = mk128 0 (2 ^ 64 - 1).
Proof. reflexivity. Qed.

Theorem C42_neg : forall a, wf128 a -> wf128 (u128_neg a) /\ to_Z (u128_neg a) = (- to_Z a) mod 2 ^ 128.
Proof. exact (fun a Ha => conj (neg_wf a) (neg_ok a Ha)). Qed.
Print Assumptions C42_neg.
Example C42_neg_ex : u128_neg (mk128 0 1) = mk128 (2 ^ 64 - 1) (2 ^ 64 - 1).
Proof. reflexivity. Qed.

Theorem C42_inc : forall a, wf128 a -> wf128 (u128_inc a) /\ to_Z (u128_inc a) = (to_Z a + 1) mod 2 ^ 128.
Proof. exact (fun a Ha => conj (inc_wf a) (inc_ok a Ha)). Qed.
Print Assumptions C42_inc.
Theorem C42_dec : forall a, wf128 a -> wf128 (u128_dec a) /\ to_Z (u128_dec a) = (to_Z a - 1) mod 2 ^ 128.
Proof. exact (fun a Ha => conj (dec_wf a) (dec_ok a Ha)). Qed.
Print Assumptions C42_dec.
Example C42_incdec_ex : u128_inc (mk128 7 (2 ^ 64 - 1)) = mk128 8 0 /\ u128_dec (mk128 8 0) = mk128 7 (2 ^ 64 - 1).
Proof. split; reflexivity. Qed.

Theorem C42_mul : forall a b, wf128 a -> wf128 b ->
  wf128 (u128_mul a b) /\ to_Z (u128_mul a b) = (to_Z a * to_Z b) mod 2 ^ 128.
Proof. exact (fun a b Ha Hb => conj (mul_wf a b Ha Hb) (mul_ok a b Ha Hb)). Qed.
Print Assumptions C42_mul.
Example C42_mul_ex : (* the 64x64 product needs all four partial products *)
  to_Z (u128_mul (mk128 0 (2 ^ 64 - 1)) (mk128 0 (2 ^ 64 - 1))) = (2 ^ 64 - 1) * (2 ^ 64 - 1).
Proof. reflexivity. Qed.

(** ** C43: division and remainder *)
Theorem C43_div : forall a b, wf128 a -> wf128 b -> to_Z b <> 0 ->
  exists q, u128_div a b = Ret q /\ wf128 q /\ to_Z q = to_Z a / to_Z b.
Proof. exact div_ok. Qed.
Print Assumptions C43_div.
Theorem C43_mod : forall a b, wf128 a -> wf128 b -> to_Z b <> 0 ->
  exists r, u128_mod a b = Ret r /\ wf128 r /\ to_Z r = to_Z a mod to_Z b.
Proof. exact mod_ok. Qed.
Print Assumptions C43_mod.
Example C43_ex : (* three-digit divisor, estimate corrected by the add-back step *)
  wf128 (mk128 (2 ^ 63) 0) /\ wf128 (mk128 (2 ^ 31) 1) /\
  u128_div (mk128 (2 ^ 63) 0) (mk128 (2 ^ 31) 1) = Ret (mk128 0 (2 ^ 32 - 1)) /\
  u128_mod (mk128 (2 ^ 63) 0) (mk128 (2 ^ 31) 1) = Ret (mk128 (2 ^ 31 - 1) (2 ^ 64 - 2 ^ 32 + 1)).
Proof. vm_compute. intuition congruence. Qed.
(** Division by zero is defined: quotient 0, remainder the dividend. *)
Theorem C43_div_by_zero : forall a b, wf128 b -> to_Z b = 0 -> u128_div a b = Ret (mk128 0 0).
Proof. exact div_zero. Qed.
Print Assumptions C43_div_by_zero.
Theorem C43_mod_by_zero : forall a b, wf128 a -> wf128 b -> to_Z b = 0 ->
  exists r, u128_mod a b = Ret r /\ to_Z r = to_Z a.
Proof. exact mod_zero. Qed.
Print Assumptions C43_mod_by_zero.
Example C43_zero_ex : u128_mod (mk128 5 6) (mk128 0 0) = Ret (mk128 5 6).
Proof. reflexivity. Qed.

(** ** C44: shifts.  The full property also covers the count 128, where the
    code has undefined behaviour ([_refuted] below). *)
Theorem C44_shl_partial : forall a n, wf128 a -> 0 <= n -> n <> 128 ->
  exists r, u128_shl a n = Ret r /\ wf128 r /\ to_Z r = (to_Z a * 2 ^ n) mod 2 ^ 128.
Proof. exact shl_ok. Qed.
Print Assumptions C44_shl_partial.
Theorem C44_shr_partial : forall a n, wf128 a -> 0 <= n -> n <> 128 ->
  exists r, u128_shr a n = Ret r /\ wf128 r /\ to_Z r = to_Z a / 2 ^ n.
Proof. exact shr_ok. Qed.
Print Assumptions C44_shr_partial.
Example C44_ex : u128_shl (mk128 0 3) 65 = Ret (mk128 6 0) /\ u128_shr (mk128 6 0) 65 = Ret (mk128 0 3)
  /\ u128_shl (mk128 1 1) 129 = Ret (mk128 0 0).
Proof. repeat split; reflexivity. Qed.
Theorem C44_shift_by_128_refuted :
  (forall a, u128_shl a 128 = UB BadShift) /\ (forall a, u128_shr a 128 = UB BadShift).
Proof. exact (conj shl_128 shr_128). Qed.
Print Assumptions C44_shift_by_128_refuted.

(** ** C45: comparisons and bitwise operators *)
Theorem C45_compare : forall a b, wf128 a -> wf128 b ->
  u128_eqb a b = (to_Z a =? to_Z b) /\ u128_cmp a b = (to_Z a ?= to_Z b) /\
  u128_ltb a b = (to_Z a <? to_Z b) /\ u128_gtb a b = (to_Z a >? to_Z b) /\
  u128_leb a b = (to_Z a <=? to_Z b) /\ u128_geb a b = (to_Z a >=? to_Z b).
Proof. exact (fun a b Ha Hb => conj (eqb_ok a b Ha Hb) (conj (cmp_ok a b Ha Hb) (conj (ltb_ok a b Ha Hb)
  (conj (gtb_ok a b Ha Hb) (conj (leb_ok a b Ha Hb) (geb_ok a b Ha Hb)))))). Qed.
Print Assumptions C45_compare.
Theorem C45_bitwise : forall a b, wf128 a -> wf128 b ->
  to_Z (u128_and a b) = Z.land (to_Z a) (to_Z b) /\ to_Z (u128_or a b) = Z.lor (to_Z a) (to_Z b) /\
  to_Z (u128_xor a b) = Z.lxor (to_Z a) (to_Z b) /\ to_Z (u128_not a) = 2 ^ 128 - 1 - to_Z a.
Proof. exact (fun a b Ha Hb => conj (and_ok a b Ha Hb) (conj (or_ok a b Ha Hb) (conj (xor_ok a b Ha Hb) (not_ok a Ha)))). Qed.
Print Assumptions C45_bitwise.
Theorem C45_bool : forall a, wf128 a -> u128_bool a = negb (to_Z a =? 0) /\ u128_lognot a = (to_Z a =? 0).
Proof. exact (fun a Ha => conj (bool_ok a Ha) (lognot_ok a Ha)). Qed.
Print Assumptions C45_bool.
Example C45_ex : u128_ltb (mk128 1 0) (mk128 0 9) = false /\ u128_cmp (mk128 1 5) (mk128 1 6) = Lt
  /\ u128_xor (mk128 12 1) (mk128 10 1) = mk128 6 0 /\ u128_bool (mk128 1 0) = true.
Proof. repeat split; reflexivity. Qed.

(** ** C46: text.  [numeral r s v]: [s] is the canonical radix-r numeral of [v]
    (unique by [numeral_unique]). *)
Theorem C46_to_string : forall f a, wf128 a ->
  exists s, u128_to_string f a = Ret s /\ numeral (ufmt_radix f) s (to_Z a).
Proof. exact to_string_ok. Qed.
Print Assumptions C46_to_string.
Example C46_to_string_ex : (* 2^64 + 5 = 18446744073709551621 *)
  u128_to_string UDec (mk128 1 5) =
  Ret [49;56;52;52;54;55;52;52;48;55;51;55;48;57;53;53;49;54;50;49].
Proof. reflexivity. Qed.
Theorem C46_round_trip : forall f a, wf128 a ->
  exists s, u128_to_string f a = Ret s /\ u128_from_string f (chars s) = Some a.
Proof. exact text_round_trip. Qed.
Print Assumptions C46_round_trip.
(** Every canonical numeral below 2^128 is read with its value. *)
Theorem C46_from_string_value : forall f s v, numeral (ufmt_radix f) s v -> v < 2 ^ 128 ->
  exists a, u128_from_string f (chars s) = Some a /\ wf128 a /\ to_Z a = v.
Proof. exact from_string_numeral. Qed.
Print Assumptions C46_from_string_value.
(** What from_string accepts, exactly: strings of digits (possibly none), read
    modulo 2^128.  The property asks for non-empty numerals below 2^128 only. *)
Theorem C46_from_string_partial : forall f s, Forall (fun c => c <> 0) s -> forall v,
  u128_from_string f (chars s) = Some v <->
  exists ds, Forall2 (digit_read f) s ds /\ v = of_Z (horner (ufmt_radix f) 0 ds).
Proof. exact from_string_ok. Qed.
Print Assumptions C46_from_string_partial.
Example C46_from_string_ex : u128_from_string UDec (chars [49;50;51]) = Some (mk128 0 123)
  /\ u128_from_string UHex (chars [102;70]) = Some (mk128 0 255)
  /\ u128_from_string UOct (chars [56]) = None.
Proof. repeat split; reflexivity. Qed.
(** The empty string is read as 0; the numeral of 2^128 is read as 0; text
    after a NUL is ignored. *)
Theorem C46_from_string_refuted :
  u128_from_string UDec (chars []) = Some (mk128 0 0) /\
  (exists s, numeral 10 s (2 ^ 128) /\ u128_from_string UDec (chars s) = Some (mk128 0 0)) /\
  u128_from_string UDec (chars [49; 0; 120]) = Some (mk128 0 1).
Proof. exact from_string_bad. Qed.
Print Assumptions C46_from_string_refuted.

(** ** C47: integral conversions *)
Theorem C47_from_signed : forall x, - 2 ^ 63 <= x < 2 ^ 63 ->
  wf128 (u128_of_i64 x) /\ to_Z (u128_of_i64 x) = x mod 2 ^ 128.
Proof. exact (fun x H => conj (of_i64_wf x) (of_i64_ok x H)). Qed.
Print Assumptions C47_from_signed.
Theorem C47_from_unsigned : forall x, 0 <= x < 2 ^ 64 ->
  wf128 (u128_of_u64 x) /\ to_Z (u128_of_u64 x) = x.
Proof. exact (fun x H => conj (of_u64_wf x H) (of_u64_ok x)). Qed.
Print Assumptions C47_from_unsigned.
Theorem C47_to_unsigned : forall n a, 0 <= n <= 64 -> u128_to_unsigned n a = to_Z a mod 2 ^ n.
Proof. exact to_unsigned_ok. Qed.
Print Assumptions C47_to_unsigned.
(** The signed n-bit result is the number in [-2^(n-1), 2^(n-1)) congruent to
    the value modulo 2^n. *)
Theorem C47_to_signed : forall n a, 0 < n <= 64 -> wf128 a ->
  - 2 ^ (n - 1) <= u128_to_signed n a < 2 ^ (n - 1) /\
  (u128_to_signed n a) mod 2 ^ n = (to_Z a) mod 2 ^ n.
Proof. exact to_signed_ok. Qed.
Print Assumptions C47_to_signed.
Theorem C47_round_trip : forall n x, 0 < n <= 64 ->
  (- 2 ^ (n - 1) <= x < 2 ^ (n - 1) -> u128_to_signed n (u128_of_i64 x) = x) /\
  (0 <= x < 2 ^ n -> u128_to_unsigned n (u128_of_u64 x) = x).
Proof. exact int_round_trip. Qed.
Print Assumptions C47_round_trip.
Example C47_ex : u128_of_i64 (-2) = mk128 (2 ^ 64 - 1) (2 ^ 64 - 2) /\ u128_to_signed 8 (mk128 3 255) = -1
  /\ u128_to_unsigned 16 (mk128 3 65537) = 1.
Proof. repeat split; reflexivity. Qed.
