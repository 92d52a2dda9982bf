(** Proofs about the double conversions. *)
From Coq Require Import Reals Lra.
From Flocq Require Import Core IEEE754.Binary IEEE754.Bits.
Import BinarySingleNaN (mode, mode_NE, round_mode).
From Verif Require Import Base Tac Uint128Model FloatModel SpecInt SpecDouble BitProofs Uint128Proofs.

Notation fx := (FLT_exp (-1074) 53).
Notation rnd := (round radix2 fx ZnearestE).

#[global] Instance dprec_i : FLX.Prec_gt_0 53 := dprec.
#[global] Instance fx_valid : Valid_exp fx := FLT_exp_valid (-1074) 53.

(** Small integers times a power of two are doubles. *)
Lemma format_scaled : forall m e, Z.abs m <= 2 ^ 53 -> -1074 <= e ->
  generic_format radix2 fx (IZR m * bpow radix2 e).
Proof.
  intros m e M E. apply generic_format_FLT.
  destruct (Z.eq_dec (Z.abs m) (2 ^ 53)) as [Q|Q].
  - assert (m = 2 ^ 53 \/ m = - 2 ^ 53) as D by lia.
    exists (Float radix2 (m / 2) (e + 1)).
    + unfold F2R; cbn [Fnum Fexp]. rewrite bpow_plus. change (bpow radix2 1) with 2%R.
      assert (IZR m = IZR (m / 2) * 2)%R as ->.
      { rewrite <- mult_IZR. f_equal. destruct D as [-> | ->]; reflexivity. }
      ring.
    + cbn [Fnum]. destruct D as [-> | ->]; reflexivity.
    + cbn [Fexp]. lia.
  - exists (Float radix2 m e); [reflexivity| |exact E].
    cbn [Fnum]. change (radix_val radix2 ^ 53) with (2 ^ 53). lia.
Qed.

Lemma round_bound : forall x, (0 <= x <= bpow radix2 128)%R -> (0 <= rnd x <= bpow radix2 128)%R.
Proof.
  intros x [L H]. split.
  - rewrite <- (round_0 radix2 fx ZnearestE). apply round_le; [typeclasses eauto..|exact L].
  - apply round_le_generic; [typeclasses eauto..| |exact H].
    apply generic_format_bpow. unfold FLT_exp. reflexivity || (cbn; lia).
Qed.

Lemma small_lt : forall x, (0 <= x <= bpow radix2 128)%R ->
  Rlt_bool (Rabs x) (bpow radix2 1024) = true.
Proof.
  intros x H. apply Rlt_bool_true. rewrite Rabs_pos_eq by tauto.
  apply Rle_lt_trans with (bpow radix2 128); [tauto|]. apply bpow_lt. lia.
Qed.

Lemma bpow_IZR : forall e, 0 <= e -> bpow radix2 e = IZR (2 ^ e).
Proof. intros e H. rewrite <- IZR_Zpower by exact H. reflexivity. Qed.

(** Conversion from an integer below 2^128. *)
Lemma double_of_int_ok : forall z, 0 <= z <= 2 ^ 128 -> nearest_even (IZR z) (double_of_int z).
Proof.
  intros z Z. unfold nearest_even, dfinite, dval, double_of_int.
  pose proof (binary_normalize_correct 53 1024 dprec dmax mode_NE z 0 false) as H.
  unfold F2R in H; cbn [Fnum Fexp bpow] in H. rewrite Rmult_1_r in H.
  change (SpecFloat.fexp 53 1024) with fx in H. change (round_mode mode_NE) with ZnearestE in H.
  rewrite small_lt in H.
  - tauto.
  - apply round_bound. rewrite bpow_IZR by lia. split; apply IZR_le; lia.
Qed.

Lemma double_of_int_exact : forall z, 0 <= z <= 2 ^ 128 -> generic_format radix2 fx (IZR z) ->
  dfinite (double_of_int z) /\ dval (double_of_int z) = IZR z.
Proof.
  intros z Z G. destruct (double_of_int_ok z Z) as [A B]. split; [exact A|].
  rewrite B. apply round_generic; [typeclasses eauto|exact G].
Qed.

Lemma pow_format : forall e, 0 <= e -> generic_format radix2 fx (IZR (2 ^ e)).
Proof.
  intros e E. rewrite <- bpow_IZR by exact E.
  replace (bpow radix2 e) with (IZR 1 * bpow radix2 e)%R by ring. apply format_scaled; lia.
Qed.

Lemma double_of_pow : forall e, 0 <= e <= 128 ->
  dfinite (double_of_int (2 ^ e)) /\ dval (double_of_int (2 ^ e)) = bpow radix2 e.
Proof.
  intros e E. rewrite bpow_IZR by lia. apply double_of_int_exact; [|apply pow_format; lia].
  split; [apply Z.pow_nonneg; lia|]. apply Z.pow_le_mono_r; lia.
Qed.

(** The value of a bit pattern with a given exponent field. *)
Lemma bits_value : forall k w, 1 <= k < 2047 -> 0 <= w < 2 ^ 52 ->
  dfinite (b64_of_bits (k * 2 ^ 52 + w)) /\
  dval (b64_of_bits (k * 2 ^ 52 + w)) = (IZR (2 ^ 52 + w) * bpow radix2 (k - 1075))%R.
Proof.
  intros k w K W. unfold dfinite, dval, b64_of_bits, binary_float_of_bits.
  rewrite is_finite_FF2B, B2R_FF2B. unfold binary_float_of_bits_aux, split_bits.
  change (Z.pow_pos 2 52) with (2 ^ 52) in *. change (2 ^ 52 * 2 ^ 11) with (2 ^ 63).
  assert (2 ^ 63 <=? k * 2 ^ 52 + w = false) as -> by lia.
  assert ((k * 2 ^ 52 + w) mod 2 ^ 52 = w) as ->.
  { rewrite Z.add_comm, Z.mod_add by lia. apply Z.mod_small; exact W. }
  assert ((k * 2 ^ 52 + w) / 2 ^ 52 mod 2 ^ 11 = k) as ->.
  { rewrite Z.add_comm, Z.div_add by lia. rewrite Z.div_small by exact W. apply Z.mod_small. lia. }
  unfold Zeq_bool. 
  assert (k ?= 0 = Gt) as -> by (apply Z.compare_gt_iff; lia).
  change (2 ^ 11 - 1) with 2047.
  assert (k ?= 2047 = Lt) as -> by (apply Z.compare_lt_iff; lia).
  destruct (w + 2 ^ 52) as [|p|p] eqn:P; [lia| |lia].
  split; [reflexivity|]. cbn [FF2R cond_Zopp]. unfold F2R; cbn [Fnum Fexp].
  rewrite <- P. rewrite (Z.add_comm w). replace (k - 1075) with (k + -1074 - 1) by lia. reflexivity.
Qed.

Lemma dsub_ok : forall x y, dfinite x -> dfinite y -> (0 <= dval x - dval y <= bpow radix2 128)%R ->
  nearest_even (dval x - dval y) (dsub x y).
Proof.
  intros x y X Y H. unfold nearest_even, dfinite, dval, dsub, b64_minus in *.
  match goal with |- context [Bminus 53 1024 ?a ?b ?n mode_NE x y] =>
    pose proof (Bminus_correct 53 1024 a b n mode_NE x y X Y) as C end.
  change (SpecFloat.fexp 53 1024) with fx in C. change (round_mode mode_NE) with ZnearestE in C.
  rewrite small_lt in C by (apply round_bound; exact H). tauto.
Qed.
Lemma dadd_ok : forall x y, dfinite x -> dfinite y -> (0 <= dval x + dval y <= bpow radix2 128)%R ->
  nearest_even (dval x + dval y) (dadd x y).
Proof.
  intros x y X Y H. unfold nearest_even, dfinite, dval, dadd, b64_plus in *.
  match goal with |- context [Bplus 53 1024 ?a ?b ?n mode_NE x y] =>
    pose proof (Bplus_correct 53 1024 a b n mode_NE x y X Y) as C end.
  change (SpecFloat.fexp 53 1024) with fx in C. change (round_mode mode_NE) with ZnearestE in C.
  rewrite small_lt in C by (apply round_bound; exact H). tauto.
Qed.

(** Splicing 52 bits into the pattern of 2^e and subtracting 2^e is exact. *)
Lemma splice : forall e w, 52 <= e <= 128 -> 0 <= w < 2 ^ 52 ->
  let r := dsub (uint64_bits_to_double ((e + 1023) * 2 ^ 52 + w)) (double_of_int (2 ^ e)) in
  dfinite r /\ dval r = (IZR w * bpow radix2 (e - 52))%R.
Proof.
  intros e w E W r. unfold r, uint64_bits_to_double.
  destruct (bits_value (e + 1023) w ltac:(lia) W) as [F1 V1].
  destruct (double_of_pow e ltac:(lia)) as [F2 V2].
  replace (e + 1023 - 1075) with (e - 52) in V1 by lia.
  assert (dval (b64_of_bits ((e + 1023) * 2 ^ 52 + w)) - dval (double_of_int (2 ^ e))
          = IZR w * bpow radix2 (e - 52))%R as Q.
  { rewrite V1, V2, plus_IZR. replace (bpow radix2 e) with (IZR (2 ^ 52) * bpow radix2 (e - 52))%R.
    - ring.
    - rewrite <- bpow_IZR by lia. rewrite <- bpow_plus. f_equal. lia. }
  destruct (dsub_ok _ _ F1 F2) as [A B].
  - rewrite Q. split.
    + apply Rmult_le_pos; [apply IZR_le; lia|apply bpow_ge_0].
    + replace (bpow radix2 128) with (IZR (2 ^ 52) * bpow radix2 76)%R
        by (rewrite <- bpow_IZR by lia; rewrite <- bpow_plus; reflexivity).
      apply Rmult_le_compat; [apply IZR_le; lia|apply bpow_ge_0|apply IZR_le; lia|apply bpow_le; lia].
  - split; [exact A|]. rewrite B, Q. apply round_generic; [typeclasses eauto|].
    apply format_scaled; lia.
Qed.

Lemma high_bit : forall w n i, 0 <= w < 2 ^ n -> n <= i -> Z.testbit w i = false.
Proof.
  intros w n i W I. destruct (Z.eq_dec w 0) as [->|N]; [apply Z.bits_0|].
  apply Z.bits_above_log2; [lia|]. apply Z.log2_lt_pow2; [lia|].
  apply Z.lt_le_trans with (2 ^ n); [lia|]. apply Z.pow_le_mono_r; lia.
Qed.
Lemma land_disjoint : forall a w n, 0 <= n -> 0 <= w < 2 ^ n -> Z.land (a * 2 ^ n) w = 0.
Proof.
  intros a w n N W. apply Z.bits_inj'. intros i I. rewrite Z.land_spec, Z.bits_0.
  destruct (Z.ltb_spec i n).
  - rewrite Z.mul_pow2_bits_low by lia. reflexivity.
  - rewrite (high_bit w n i) by lia. apply andb_false_r.
Qed.
Lemma lor_add : forall a w n, 0 <= n -> 0 <= w < 2 ^ n -> Z.lor (a * 2 ^ n) w = a * 2 ^ n + w.
Proof.
  intros a w n N W. pose proof (land_disjoint a w n N W) as D.
  rewrite <- Z.lxor_lor by exact D. symmetry. apply Z.add_nocarry_lxor. exact D.
Qed.

(** The integer the third branch adds up: bits 24 to 47 are or-ed with bits 0
    to 23, which then count 2^24 times too much. *)
Definition smeared (v : Z) : Z :=
  v / 2 ^ 76 * 2 ^ 76 + Z.lor (v / 2 ^ 24 mod 2 ^ 52) (v mod 2 ^ 24) * 2 ^ 24.

Lemma lor_pow_lt : forall a b n, 0 <= n -> 0 <= a < 2 ^ n -> 0 <= b < 2 ^ n -> 0 <= Z.lor a b < 2 ^ n.
Proof. exact lor_lt. Qed.

Lemma smeared_range : forall v, 0 <= v < 2 ^ 128 -> 0 <= smeared v < 2 ^ 128.
Proof.
  intros v V. unfold smeared.
  pose proof (lor_lt (v / 2 ^ 24 mod 2 ^ 52) (v mod 2 ^ 24) 52 ltac:(lia)
    ltac:(apply Z.mod_pos_bound; lia)
    ltac:(pose proof (Z.mod_pos_bound v (2 ^ 24) ltac:(lia)); lia)) as L.
  assert (0 <= v / 2 ^ 76 < 2 ^ 52) as U.
  { split; [apply Z.div_pos; lia|]. apply Z.div_lt_upper_bound; lia. }
  generalize dependent (Z.lor (v / 2 ^ 24 mod 2 ^ 52) (v mod 2 ^ 24)).
  generalize dependent (v / 2 ^ 76). clear. intros. lia.
Qed.

Lemma up_div : forall a, wf128 a -> up a = to_Z a / 2 ^ 64.
Proof. intros [u l] [U L]. unfold to_Z; cbn [up lo] in *. apply Z.div_unique with l; lia. Qed.
Lemma lo_mod : forall a, wf128 a -> lo a = to_Z a mod 2 ^ 64.
Proof. intros [u l] [U L]. unfold to_Z; cbn [up lo] in *. apply Z.mod_unique with u; lia. Qed.
Lemma to_Z_range : forall a, wf128 a -> 0 <= to_Z a < 2 ^ 128.
Proof. intros [u l] [U L]. unfold to_Z; cbn [up lo] in *. lia. Qed.

Lemma add_int : forall x y a b, dfinite x -> dfinite y -> dval x = IZR a -> dval y = IZR b ->
  0 <= a + b <= 2 ^ 128 -> nearest_even (IZR (a + b)) (dadd x y).
Proof.
  intros x y a b X Y A B R. rewrite plus_IZR, <- A, <- B. apply dadd_ok; [exact X|exact Y|].
  rewrite A, B, <- plus_IZR, bpow_IZR by lia. split; apply IZR_le; lia.
Qed.

(** What to_double computes, in terms of the number alone. *)
Theorem to_double_ok : forall a, wf128 a -> exists d, to_double a = Ret d /\
  nearest_even (IZR (if to_Z a <? 2 ^ 88 then to_Z a else smeared (to_Z a))) d.
Proof.
  intros a W. pose proof (to_Z_range a W) as R. pose proof (up_div a W) as U. pose proof (lo_mod a W) as L.
  unfold to_double. cbv zeta.
  destruct (Z.eqb_spec (up a) 0) as [E|E].
  { exists (double_of_int (lo a)). split; [reflexivity|].
    assert (lo a = to_Z a) as -> by (unfold to_Z; rewrite E; lia).
    assert (to_Z a < 2 ^ 64) by (unfold to_Z; rewrite E; destruct W; lia).
    assert (to_Z a <? 2 ^ 88 = true) as -> by lia.
    apply double_of_int_ok. lia. }
  rewrite Z.shiftr_div_pow2 by lia.
  destruct (Z.eqb_spec (up a / 2 ^ 24) 0) as [F|F].
  - assert (to_Z a < 2 ^ 88) as T.
    { unfold to_Z. assert (up a < 2 ^ 24) by (apply Z.div_small_iff in F; lia). destruct W; lia. }
    assert (to_Z a <? 2 ^ 88 = true) as -> by lia.
    destruct (shr_ok a 52 W ltac:(lia) ltac:(lia)) as (s & -> & Ws & Vs). cbn [bind].
    eexists. split; [reflexivity|].
    assert (u128_to_unsigned 64 s = to_Z a / 2 ^ 52) as ->.
    { unfold u128_to_unsigned. rewrite (lo_mod s Ws), Vs, Z.mod_mod by lia. apply Z.mod_small.
      split; [apply Z.div_pos; lia|]. apply Z.div_lt_upper_bound; lia. }
    assert (Z.shiftr (w64 (Z.shiftl (lo a) 12)) 12 = to_Z a mod 2 ^ 52) as ->.
    { rewrite L. unfold w64. rewrite Z.shiftl_mul_pow2, Z.shiftr_div_pow2 by lia.
      change (2 ^ 64) with (2 ^ 52 * 2 ^ 12) at 2. rewrite Z.mul_mod_distr_r by lia.
      rewrite Z.div_mul by lia. rewrite <- Znumtheory.Zmod_div_mod; [reflexivity|lia|lia|].
      exists (2 ^ 12). reflexivity. }
    pose proof (Z.mod_pos_bound (to_Z a) (2 ^ 52) ltac:(lia)) as M.
    assert (0 <= to_Z a / 2 ^ 52 < 2 ^ 52) as D.
    { split; [apply Z.div_pos; lia|]. apply Z.div_lt_upper_bound; lia. }
    change 0x4330000000000000 with ((52 + 1023) * 2 ^ 52).
    change 4503599627370496 with (2 ^ 52).
    change 0x4670000000000000 with ((104 + 1023) * 2 ^ 52).
    change 20282409603651670423947251286016 with (2 ^ 104).
    rewrite !lor_add by (lia || assumption).
    destruct (splice 52 _ ltac:(lia) M) as [F1 V1].
    destruct (splice 104 _ ltac:(lia) D) as [F2 V2].
    change (52 - 52) with 0 in V1. change (104 - 52) with 52 in V2.
    rewrite bpow_IZR, <- mult_IZR in V1, V2 by lia.
    pose proof (Z.div_mod (to_Z a) (2 ^ 52) ltac:(lia)) as DM.
    replace (to_Z a) with (to_Z a mod 2 ^ 52 * 2 ^ 0 + to_Z a / 2 ^ 52 * 2 ^ 52) at 1
      by (change (2 ^ 0) with 1; lia).
    apply add_int; try assumption. change (2 ^ 0) with 1. lia.
  - assert (2 ^ 88 <= to_Z a) as T.
    { unfold to_Z. assert (2 ^ 24 <= up a).
      { destruct (Z.ltb_spec (up a) (2 ^ 24)); [|assumption]. exfalso. apply F. apply Z.div_small. destruct W; lia. }
      destruct W; lia. }
    assert (to_Z a <? 2 ^ 88 = false) as -> by lia.
    destruct (shr_ok a 12 W ltac:(lia) ltac:(lia)) as (t & -> & Wt & Vt). cbn [bind].
    destruct (shr_ok a 76 W ltac:(lia) ltac:(lia)) as (s & -> & Ws & Vs). cbn [bind].
    eexists. split; [reflexivity|].
    assert (u128_to_unsigned 64 s = to_Z a / 2 ^ 76) as ->.
    { unfold u128_to_unsigned. rewrite (lo_mod s Ws), Vs, Z.mod_mod by lia. apply Z.mod_small.
      split; [apply Z.div_pos; lia|]. apply Z.div_lt_upper_bound; lia. }
    assert (Z.shiftr (u128_to_unsigned 64 t) 12 = to_Z a / 2 ^ 24 mod 2 ^ 52) as ->.
    { unfold u128_to_unsigned. rewrite (lo_mod t Wt), Vt, Z.mod_mod by lia.
      rewrite Z.shiftr_div_pow2 by lia.
      change (2 ^ 64) with (2 ^ 12 * 2 ^ 52).
      rewrite (Z.rem_mul_r (to_Z a / 2 ^ 12)) by lia.
      rewrite Z.div_div by lia. change (2 ^ 12 * 2 ^ 12) with (2 ^ 24).
      rewrite (Z.mul_comm (2 ^ 12) (_ mod _)), Z.div_add by lia.
      rewrite (Z.div_small (_ mod 2 ^ 12)) by (apply Z.mod_pos_bound; lia). reflexivity. }
    assert (Z.land (lo a) 16777215 = to_Z a mod 2 ^ 24) as ->.
    { change 16777215 with (Z.ones 24). rewrite Z.land_ones by lia. rewrite L.
      rewrite <- Znumtheory.Zmod_div_mod; [reflexivity|lia|lia|]. exists (2 ^ 40). reflexivity. }
    assert (0 <= to_Z a / 2 ^ 76 < 2 ^ 52) as D.
    { split; [apply Z.div_pos; lia|]. apply Z.div_lt_upper_bound; lia. }
    pose proof (lor_lt (to_Z a / 2 ^ 24 mod 2 ^ 52) (to_Z a mod 2 ^ 24) 52 ltac:(lia)
      ltac:(apply Z.mod_pos_bound; lia)
      ltac:(pose proof (Z.mod_pos_bound (to_Z a) (2 ^ 24) ltac:(lia)); lia)) as M.
    rewrite <- Z.lor_assoc.
    change 0x44B0000000000000 with ((76 + 1023) * 2 ^ 52).
    change 75557863725914323419136 with (2 ^ 76).
    change 0x47F0000000000000 with ((128 + 1023) * 2 ^ 52).
    change 340282366920938463463374607431768211456 with (2 ^ 128).
    rewrite !lor_add by (lia || assumption).
    destruct (splice 76 _ ltac:(lia) M) as [F1 V1].
    destruct (splice 128 _ ltac:(lia) D) as [F2 V2].
    change (76 - 52) with 24 in V1. change (128 - 52) with 76 in V2.
    rewrite bpow_IZR, <- mult_IZR in V1, V2 by lia.
    pose proof (smeared_range _ R) as SR. unfold smeared in *. rewrite Z.add_comm.
    apply add_int; try assumption. rewrite Z.add_comm. clear - SR. 
    generalize dependent (to_Z a / 2 ^ 76 * 2 ^ 76). intros.
    generalize dependent (Z.lor (to_Z a / 2 ^ 24 mod 2 ^ 52) (to_Z a mod 2 ^ 24) * 2 ^ 24). intros.
    split; [apply SR|apply Z.lt_le_incl, SR].
Qed.
