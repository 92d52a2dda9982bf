(** The exact value of operator double from 2^88 up, and of operator float. *)
From Coq Require Import Reals Lra.
From Flocq Require Import Core IEEE754.Binary IEEE754.Bits.
Import BinarySingleNaN (mode, mode_NE, round_mode).
From Verif Require Import Base Tac Uint128Model FloatModel SpecInt SpecDouble BitProofs Uint128Proofs
  FloatProofs FloatProofs2 FloatProofs3 FloatProofs4.

Lemma smeared_lor : forall v, 0 <= v < 2 ^ 128 -> smeared v = Z.lor (v / 2 ^ 24) (v mod 2 ^ 24) * 2 ^ 24.
Proof.
  intros v V. unfold smeared.
  assert (0 <= v / 2 ^ 24 mod 2 ^ 52 < 2 ^ 52) as C by (apply Z.mod_pos_bound; reflexivity).
  assert (0 <= v mod 2 ^ 24 < 2 ^ 52) as D by (pose proof (Z.mod_pos_bound v (2 ^ 24) ltac:(reflexivity)); lia).
  pose proof (lor_lt _ _ 52 ltac:(lia) C D) as L.
  assert (E : v / 2 ^ 24 = Z.lor (v / 2 ^ 76 * 2 ^ 52) (v / 2 ^ 24 mod 2 ^ 52)).
  { rewrite lor_add by (lia || exact C). replace (v / 2 ^ 76) with (v / 2 ^ 24 / 2 ^ 52) by (rewrite Z.div_div by lia; reflexivity).
    pose proof (Z.div_mod (v / 2 ^ 24) (2 ^ 52) ltac:(lia)). lia. }
  replace (Z.lor (v / 2 ^ 24) (v mod 2 ^ 24)) with (v / 2 ^ 76 * 2 ^ 52 + Z.lor (v / 2 ^ 24 mod 2 ^ 52) (v mod 2 ^ 24)).
  - generalize (Z.lor (v / 2 ^ 24 mod 2 ^ 52) (v mod 2 ^ 24)) (v / 2 ^ 76). clear. intros. lia.
  - rewrite <- lor_add by (lia || exact L). rewrite Z.lor_assoc, <- E. reflexivity.
Qed.
Lemma to_double_value : forall a, wf128 a -> 2 ^ 88 <= to_Z a ->
  exists d, u128_to_double a = Ret d /\ nearest_even (IZR (Z.lor (to_Z a / 2 ^ 24) (to_Z a mod 2 ^ 24) * 2 ^ 24)) d.
Proof.
  intros a W H. destruct (to_double_ok a W) as (d & E & N). exists d. split; [exact E|].
  destruct (Z.ltb_spec (to_Z a) (2 ^ 88)) as [L|L]; [lia|]. rewrite smeared_lor in N by (apply to_Z_range; exact W). exact N.
Qed.

#[local] Instance prec24 : Prec_gt_0 24. Proof. reflexivity. Qed.
(** Narrowing: IEEE rounding, overflow to infinity. *)
Lemma narrow_round : forall x, dfinite x -> (0 <= dval x)%R ->
  let y := round radix2 (FLT_exp (-149) 24) ZnearestE (dval x) in
  ((y < bpow radix2 128)%R -> ffinite (float_of_double x) /\ fval (float_of_double x) = y) /\
  ((bpow radix2 128 <= y)%R -> float_of_double x = B754_infinity 24 128 false).
Proof.
  intros [s|s|s p H|s m e H] F P; try discriminate F; cbv zeta.
  - unfold dval, B2R. rewrite round_0 by typeclasses eauto. split; [intros _; split; reflexivity|]. intros K. pose proof (bpow_gt_0 radix2 128). lra.
  - unfold ffinite, fval, float_of_double.
    pose proof (binary_normalize_correct 24 128 fprec fmax mode_NE (cond_Zopp s (Zpos m)) e s) as C.
    change (F2R (Float radix2 (cond_Zopp s (Zpos m)) e)) with (dval (B754_finite 53 1024 s m e H)) in C.
    change (SpecFloat.fexp 24 128) with (FLT_exp (-149) 24) in C. change (round_mode mode_NE) with ZnearestE in C.
    set (y := round radix2 (FLT_exp (-149) 24) ZnearestE (dval (B754_finite 53 1024 s m e H))) in *.
    assert (0 <= y)%R as Y by (unfold y; apply round_ge_generic; [typeclasses eauto..|apply generic_format_0|exact P]).
    rewrite Rabs_pos_eq in C by exact Y. split.
    + intros K. rewrite Rlt_bool_true in C by exact K. split; [apply C|]. destruct C as [C _]. exact C.
    + intros K. rewrite Rlt_bool_false in C by exact K.
      assert (s = false) as ->.
      { destruct s; [|reflexivity]. exfalso. unfold dval, B2R in P. pose proof (F2R_lt_0 radix2 (Float radix2 (cond_Zopp true (Zpos m)) e) ltac:(reflexivity)). lra. }
      rewrite Rlt_bool_false in C by exact P. destruct (binary_normalize _ _ _ _ _ _ _ _); try discriminate C. injection C as ->. reflexivity.
Qed.
Lemma to_double_pos : forall a, wf128 a -> exists d, u128_to_double a = Ret d /\ dfinite d /\ (0 <= dval d)%R.
Proof.
  intros a W. destruct (to_double_ok a W) as (d & E & F & N). exists d. split; [exact E|]. split; [exact F|]. rewrite N. pose proof (to_Z_range a W) as R.
  apply round_ge_generic; [typeclasses eauto..|apply generic_format_0|]. apply IZR_le. destruct (_ <? _); [lia|]. apply smeared_range. exact R.
Qed.
Lemma to_float_value : forall a, wf128 a -> exists d f, u128_to_double a = Ret d /\ u128_to_float a = Ret f /\
  let y := round radix2 (FLT_exp (-149) 24) ZnearestE (dval d) in
  ((y < bpow radix2 128)%R -> ffinite f /\ fval f = y) /\ ((bpow radix2 128 <= y)%R -> f = B754_infinity 24 128 false).
Proof.
  intros a W. destruct (to_double_pos a W) as (d & E & F & P). exists d, (float_of_double d). split; [exact E|]. split; [|exact (narrow_round d F P)].
  unfold u128_to_float. unfold u128_to_double in E. rewrite E. reflexivity.
Qed.
