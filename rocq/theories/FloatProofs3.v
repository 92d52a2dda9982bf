(** Construction from a double: truncation, saturation; round trips; floats. *)
From Coq Require Import Reals Lra.
From Flocq Require Import Core IEEE754.Binary IEEE754.Bits.
Import BinarySingleNaN (mode, mode_NE, round_mode).
From Verif Require Import Base Tac Uint128Model FloatModel SpecInt SpecDouble BitProofs Uint128Proofs FloatProofs FloatProofs2.

Lemma cmp_ok : forall x y, dfinite x -> dfinite y -> b64_compare x y = Some (Rcompare (dval x) (dval y)).
Proof. intros x y X Y. apply Bcompare_correct; assumption. Qed.

Lemma dlt_ok : forall x y, dfinite x -> dfinite y -> dlt x y = Rlt_bool (dval x) (dval y).
Proof.
  intros x y X Y. unfold dlt. rewrite cmp_ok by assumption. unfold Rlt_bool.
  destruct (Rcompare (dval x) (dval y)); reflexivity.
Qed.
Lemma dge_ok : forall x y, dfinite x -> dfinite y -> dge x y = Rle_bool (dval y) (dval x).
Proof.
  intros x y X Y. unfold dge. rewrite cmp_ok by assumption. unfold Rle_bool.
  rewrite (Rcompare_sym (dval y) (dval x)). destruct (Rcompare (dval x) (dval y)); reflexivity.
Qed.

Lemma zero_lit : dfinite (double_of_int 0) /\ dval (double_of_int 0) = 0%R.
Proof. apply double_of_int_exact; [lia|]. apply generic_format_0. Qed.

Lemma finite_nan : forall x, dfinite x -> disnan x = false.
Proof. intros [s|s|s p H|s m e H] F; try discriminate F; reflexivity. Qed.

(** Mantissa and exponent of a double at least 1. *)
Lemma normal : forall m e H, (1 <= dval (B754_finite 53 1024 false m e H) < bpow radix2 128)%R ->
  2 ^ 52 <= Zpos m < 2 ^ 53 /\ -52 <= e <= 75.
Proof.
  intros m e H [L U]. unfold dval, B2R, F2R in L, U; cbn [Fnum Fexp cond_Zopp] in L, U.
  apply andb_prop in H. destruct H as [C B]. apply Zeq_bool_eq in C. unfold SpecFloat.fexp, SpecFloat.emin in C.
  rewrite Digits.Zpos_digits2_pos in C.
  assert (Zpos m < 2 ^ 53) as M.
  { apply (Zpower_gt_Zdigits radix2 53 (Zpos m)). lia. }
  assert (2 ^ 52 <= Zpos m) as N.
  { destruct (Z.ltb_spec (Zpos m) (2 ^ 52)) as [K|K]; [exfalso|exact K].
    assert (Zdigits radix2 (Zpos m) <= 52) as D by (apply Zdigits_le_Zpower; cbn -[Z.pow]; lia).
    assert (e = -1074) by lia. subst e.
    assert (IZR (Zpos m) * bpow radix2 (-1074) < 1)%R; [|lra].
    replace 1%R with (bpow radix2 1074 * bpow radix2 (-1074))%R by (rewrite <- bpow_plus; reflexivity).
    apply Rmult_lt_compat_r; [apply bpow_gt_0|].
    apply Rlt_le_trans with (bpow radix2 52); [rewrite bpow_IZR by lia; apply IZR_lt; exact K|].
    apply bpow_le. lia. }
  split; [split; assumption|]. split.
  - destruct (Z.ltb_spec e (-52)) as [K|K]; [exfalso|lia].
    assert (IZR (Zpos m) * bpow radix2 e < 1)%R; [|lra].
    replace 1%R with (bpow radix2 53 * bpow radix2 (-53))%R by (rewrite <- bpow_plus; reflexivity).
    apply Rlt_le_trans with (bpow radix2 53 * bpow radix2 e)%R.
    + apply Rmult_lt_compat_r; [apply bpow_gt_0|]. rewrite bpow_IZR by lia. apply IZR_lt. exact M.
    + apply Rmult_le_compat_l; [apply bpow_ge_0|]. apply bpow_le. lia.
  - destruct (Z.ltb_spec 75 e) as [K|K]; [exfalso|lia].
    assert (bpow radix2 128 <= IZR (Zpos m) * bpow radix2 e)%R; [|lra].
    replace (bpow radix2 128) with (bpow radix2 52 * bpow radix2 76)%R by (rewrite <- bpow_plus; reflexivity).
    apply Rmult_le_compat; [apply bpow_ge_0|apply bpow_ge_0| |apply bpow_le; lia].
    rewrite bpow_IZR by lia. apply IZR_le. exact N.
Qed.

(** Truncation of a scaled integer. *)
Lemma trunc_scaled : forall m e, 0 <= m -> -75 <= e <= 75 ->
  Ztrunc (IZR m * bpow radix2 e) = m * 2 ^ 75 / 2 ^ (75 - e).
Proof.
  intros m e M E. rewrite Ztrunc_floor by (apply Rmult_le_pos; [apply IZR_le; lia|apply bpow_ge_0]).
  replace (IZR m * bpow radix2 e)%R with (IZR (m * 2 ^ 75) / IZR (2 ^ (75 - e)))%R.
  - apply Zfloor_div. pose proof (Z.pow_pos_nonneg 2 (75 - e) ltac:(lia) ltac:(lia)). lia.
  - rewrite mult_IZR, <- !bpow_IZR by lia. unfold Rdiv. rewrite <- bpow_opp, Rmult_assoc, <- bpow_plus.
    do 2 f_equal. lia.
Qed.

Lemma top_bits : forall x : Z, 2 ^ 52 <= x < 2 ^ 53 -> forall k, 0 <= k < 2 ^ 11 ->
  Z.lor (Z.shiftr (w64 (Z.shiftl (k * 2 ^ 52 + (x - 2 ^ 52)) 12)) 1) 0x8000000000000000 = x * 2 ^ 11.
Proof.
  intros x X k K. rewrite Z.shiftl_mul_pow2, Z.shiftr_div_pow2 by lia. unfold w64.
  assert ((k * 2 ^ 52 + (x - 2 ^ 52)) * 2 ^ 12 mod 2 ^ 64 = (x - 2 ^ 52) * 2 ^ 12) as ->.
  { symmetry. apply Z.mod_unique with k; lia. }
  assert ((x - 2 ^ 52) * 2 ^ 12 / 2 ^ 1 = (x - 2 ^ 52) * 2 ^ 11) as ->.
  { symmetry. apply Z.div_unique with 0; lia. }
  rewrite Z.lor_comm. change 0x8000000000000000 with (1 * 2 ^ 63). rewrite lor_add by lia. lia.
Qed.

Lemma of_Z_to_Z : forall a v, wf128 a -> to_Z a = v -> a = of_Z v.
Proof.
  intros [u l] v [U L] <-. unfold of_Z, to_Z; cbn [up lo] in *.
  rewrite (Z.mod_small (u * 2 ^ 64 + l)) by lia. f_equal.
  - apply Z.div_unique with l; lia.
  - apply Z.mod_unique with u; lia.
Qed.

(** Truncation toward zero of every finite double from 0 up to 2^128. *)
Theorem from_double_trunc : forall x, dfinite x -> (0 <= dval x < bpow radix2 128)%R ->
  u128_of_double x = Ret (of_Z (Ztrunc (dval x))).
Proof.
  intros x F [L U]. unfold u128_of_double, from_double.
  destruct zero_lit as [F0 V0].
  rewrite dlt_ok, V0 by assumption. rewrite Rlt_bool_false by exact L.
  rewrite (finite_nan x F). cbn [orb].
  change 340282366920938463463374607431768211456 with (2 ^ 128).
  destruct (double_of_pow 128 ltac:(lia)) as [F128 V128].
  rewrite dge_ok, V128 by assumption. rewrite Rle_bool_false by exact U.
  change (double_of_int 1) with (double_of_int (2 ^ 0)).
  destruct (double_of_pow 0 ltac:(lia)) as [F1 V1]. change (bpow radix2 0) with 1%R in V1.
  rewrite dge_ok, V1 by assumption.
  destruct (Rle_bool_spec 1 (dval x)) as [G|G].
  2: { assert (Ztrunc (dval x) = 0) as ->; [|reflexivity].
       rewrite Ztrunc_floor by exact L. apply Zfloor_imp. split; [exact L|exact G]. }
  destruct x as [s|s|s p H|s m e H]; try discriminate F.
  { exfalso. unfold dval, B2R in G. lra. }
  destruct s.
  { exfalso. unfold dval, B2R, F2R in G; cbn [Fnum Fexp cond_Zopp] in G.
    assert (IZR (- Zpos m) * bpow radix2 e <= 0)%R; [|lra].
    rewrite opp_IZR, Ropp_mult_distr_l_reverse.
    assert (0 <= IZR (Zpos m) * bpow radix2 e)%R; [|lra].
    apply Rmult_le_pos; [apply IZR_le; lia|apply bpow_ge_0]. }
  destruct (normal m e H (conj G U)) as [M E].
  assert (double_to_uint64_bits (B754_finite 53 1024 false m e H) = (e + 1075) * 2 ^ 52 + (Zpos m - 2 ^ 52)) as ->.
  { unfold double_to_uint64_bits, bits_of_b64, bits_of_binary_float.
    change (Z.pow_pos 2 52) with (2 ^ 52).
    rewrite Zle_bool_true by lia. unfold join_bits. rewrite Z.shiftl_mul_pow2 by lia.
    match goal with |- ?a * _ + _ = _ => replace a with (e + 1075); [reflexivity|] end.
    match goal with |- context [SpecFloat.emin ?a ?b] => change (SpecFloat.emin a b) with (-1074) end. lia. }
  cbv zeta. rewrite top_bits by lia.
  rewrite Z.shiftr_div_pow2 by lia.
  assert (((e + 1075) * 2 ^ 52 + (Zpos m - 2 ^ 52)) / 2 ^ 52 = e + 1075) as ->.
  { symmetry. apply Z.div_unique with (Zpos m - 2 ^ 52); lia. }
  replace (1023 + 128 - 1 - (e + 1075)) with (75 - e) by lia.
  destruct (shr_ok (mk128 (Zpos m * 2 ^ 11) 0) (75 - e)) as (r & -> & Wr & Vr); [|lia|lia|].
  { split; cbn [up lo]; lia. }
  f_equal. apply of_Z_to_Z; [exact Wr|]. rewrite Vr. unfold dval, B2R, F2R; cbn [Fnum Fexp cond_Zopp].
  rewrite trunc_scaled by lia. unfold to_Z; cbn [up lo]. f_equal. lia.
Qed.

Lemma from_double_neg : forall x, dfinite x -> (dval x < 0)%R -> u128_of_double x = Ret (mk128 0 0).
Proof.
  intros x F N. unfold u128_of_double, from_double. destruct zero_lit as [F0 V0].
  rewrite dlt_ok, V0 by assumption. rewrite Rlt_bool_true by exact N. reflexivity.
Qed.
Lemma from_double_big : forall x, dfinite x -> (bpow radix2 128 <= dval x)%R ->
  u128_of_double x = Ret (of_Z (2 ^ 128 - 1)).
Proof.
  intros x F N. unfold u128_of_double, from_double. destruct zero_lit as [F0 V0].
  pose proof (bpow_gt_0 radix2 128) as P.
  rewrite dlt_ok, V0 by assumption. rewrite Rlt_bool_false by lra.
  rewrite (finite_nan x F). cbn [orb].
  change 340282366920938463463374607431768211456 with (2 ^ 128).
  destruct (double_of_pow 128 ltac:(lia)) as [F128 V128].
  rewrite dge_ok, V128 by assumption. rewrite Rle_bool_true by exact N. reflexivity.
Qed.
Lemma from_double_special : forall x, ~ dfinite x ->
  u128_of_double x = Ret (of_Z (match x with B754_infinity _ _ false => 2 ^ 128 - 1 | _ => 0 end)).
Proof.
  intros [s|s|s p H|s m e H] F; try (exfalso; apply F; reflexivity); [destruct s|]; vm_compute; reflexivity.
Qed.
