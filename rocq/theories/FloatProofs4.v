(** Round trips, single precision, and the band where to_double is wrong. *)
From Coq Require Import Reals Lra.
From Flocq Require Import Core IEEE754.Binary IEEE754.Bits.
Import BinarySingleNaN (mode, mode_NE, round_mode).
From Verif Require Import Base Tac Uint128Model FloatModel SpecInt SpecDouble BitProofs Uint128Proofs
  FloatProofs FloatProofs2 FloatProofs3.

Lemma exact_format : forall x, exact x -> generic_format radix2 fx x.
Proof. intros x (y & F & <-). exact (generic_format_B2R 53 1024 y). Qed.

Lemma exact_clean : forall v, 2 ^ 88 <= v -> exact (IZR v) -> v mod 2 ^ 24 = 0.
Proof.
  intros v V X. apply exact_format in X. red in X. unfold F2R in X; cbn [Fnum Fexp] in X.
  set (M := Ztrunc (scaled_mantissa radix2 fx (IZR v))) in *.
  assert (36 <= cexp radix2 fx (IZR v)) as C.
  { unfold cexp, FLT_exp. assert (88 < mag radix2 (IZR v)); [|lia].
    apply mag_gt_bpow. rewrite bpow_IZR, Rabs_pos_eq by (lia || (apply IZR_le; lia)). apply IZR_le. exact V. }
  set (c := cexp radix2 fx (IZR v)) in *.
  rewrite bpow_IZR, <- mult_IZR in X by lia. apply eq_IZR in X. rewrite X.
  replace c with (c - 24 + 24) by lia. rewrite Z.pow_add_r by lia. rewrite Z.mul_assoc. apply Z.mod_mul. lia.
Qed.

(** Representable values survive, exactly, in both directions. *)
Lemma to_double_exact : forall a, wf128 a -> exact (IZR (to_Z a)) ->
  exists d, u128_to_double a = Ret d /\ dfinite d /\ dval d = IZR (to_Z a) /\ u128_of_double d = Ret a.
Proof.
  intros a W X.
  assert (to_Z a < 2 ^ 88 \/ 2 ^ 101 <= to_Z a \/ to_Z a mod 2 ^ 24 = 0) as H.
  { destruct (Z.ltb_spec (to_Z a) (2 ^ 88)); [tauto|]. right; right. apply exact_clean; assumption. }
  destruct (to_double_nearest a W H) as (d & E & F & N).
  rewrite round_generic in N by (typeclasses eauto || apply exact_format, X).
  exists d. split; [exact E|]. split; [exact F|]. split; [exact N|].
  pose proof (to_Z_range a W) as R.
  rewrite from_double_trunc.
  - rewrite N, Ztrunc_IZR. f_equal. symmetry. apply of_Z_to_Z; [exact W|reflexivity].
  - exact F.
  - rewrite N, bpow_IZR by lia. split; [apply IZR_le|apply IZR_lt]; lia.
Qed.
Lemma of_double_exact : forall x, dfinite x -> (0 <= dval x < bpow radix2 128)%R ->
  forall z, dval x = IZR z -> exists a, u128_of_double x = Ret a /\ wf128 a /\ to_Z a = z /\
  exists d, u128_to_double a = Ret d /\ dfinite d /\ dval d = dval x.
Proof.
  intros x F R z Z. rewrite from_double_trunc by assumption. rewrite Z, Ztrunc_IZR.
  rewrite Z, bpow_IZR in R by lia.
  assert (0 <= z < 2 ^ 128) as B by (destruct R as [R1 R2]; apply le_IZR in R1; apply lt_IZR in R2; lia).
  exists (of_Z z). split; [reflexivity|].
  assert (wf128 (of_Z z) /\ to_Z (of_Z z) = z) as [W V].
  { pose proof (Z.div_mod z (2 ^ 64) ltac:(lia)) as DM. pose proof (Z.mod_pos_bound z (2 ^ 64) ltac:(lia)) as MB.
    assert (0 <= z / 2 ^ 64 < 2 ^ 64) by (split; [apply Z.div_pos; lia|apply Z.div_lt_upper_bound; lia]).
    unfold of_Z, wf128, to_Z; cbn [up lo]. rewrite (Z.mod_small z (2 ^ 128)) by lia.
    split; [split; assumption|]. rewrite DM at 3. ring. }
  split; [exact W|]. split; [exact V|].
  destruct (to_double_exact (of_Z z) W) as (d & E & Fd & Vd & _).
  - rewrite V. exists x. split; assumption.
  - exists d. rewrite V in Vd. split; [exact E|]. split; assumption.
Qed.

(** Order is kept outside the band (and across values clean of low bits). *)
Lemma to_double_mono : forall a b, wf128 a -> wf128 b -> to_Z a <= to_Z b ->
  to_Z a < 2 ^ 88 \/ 2 ^ 101 <= to_Z a \/ to_Z a mod 2 ^ 24 = 0 ->
  to_Z b < 2 ^ 88 \/ 2 ^ 101 <= to_Z b \/ to_Z b mod 2 ^ 24 = 0 ->
  exists x y, u128_to_double a = Ret x /\ u128_to_double b = Ret y /\ (dval x <= dval y)%R.
Proof.
  intros a b A B L HA HB.
  destruct (to_double_nearest a A HA) as (x & E & F & N). destruct (to_double_nearest b B HB) as (y & E' & F' & N').
  exists x, y. split; [exact E|]. split; [exact E'|]. rewrite N, N'.
  apply round_le; [typeclasses eauto..|]. apply IZR_le. exact L.
Qed.

(** The value of a computed double. *)
Lemma dval_ff : forall x f, B2FF 53 1024 x = f -> dval x = FF2R radix2 f.
Proof. intros x f <-. unfold dval. symmetry. apply FF2R_B2FF. Qed.
Lemma fval_ff : forall x f, B2FF 24 128 x = f -> fval x = FF2R radix2 f.
Proof. intros x f <-. unfold fval. symmetry. apply FF2R_B2FF. Qed.
Lemma ff_int : forall m e, 0 <= e -> FF2R radix2 (F754_finite false m e) = IZR (Zpos m * 2 ^ e).
Proof. intros m e E. unfold FF2R, F2R; cbn [cond_Zopp Fnum Fexp]. rewrite bpow_IZR, <- mult_IZR by exact E. reflexivity. Qed.

Definition bad_value : u128 := mk128 (2 ^ 24) 0xFFFFFF.
Lemma bad_not_closest : exists a d, wf128 a /\ u128_to_double a = Ret d /\ ~ closest (IZR (to_Z a)) d.
Proof.
  exists bad_value. destruct (to_double_ok bad_value) as (d & E & _); [split; cbn; lia|].
  exists d. split; [split; cbn; lia|]. split; [exact E|]. intros [F C].
  assert (B2FF 53 1024 d = F754_finite false 4503599627374592 36) as K.
  { change (match Ret d with Ret z => B2FF 53 1024 z | _ => F754_zero false end = F754_finite false 4503599627374592 36).
    rewrite <- E. vm_compute. reflexivity. }
  apply dval_ff in K. rewrite ff_int in K by lia.
  destruct (double_of_pow 88 ltac:(lia)) as [F1 V1]. rewrite bpow_IZR in V1 by lia.
  specialize (C _ F1). rewrite K, V1 in C. rewrite <- !minus_IZR, <- !abs_IZR in C. apply le_IZR in C.
  revert C. vm_compute. intros C. apply C. reflexivity.
Qed.
(** ... and the order of two values can be reversed. *)
Lemma bad_order : exists a b x y, wf128 a /\ wf128 b /\ to_Z a < to_Z b /\
  u128_to_double a = Ret x /\ u128_to_double b = Ret y /\ (dval y < dval x)%R.
Proof.
  exists bad_value, (mk128 (2 ^ 24) 0x1000000).
  destruct (to_double_ok bad_value) as (x & E & _); [split; cbn; lia|].
  destruct (to_double_ok (mk128 (2 ^ 24) 0x1000000)) as (y & E' & _); [split; cbn; lia|].
  exists x, y. split; [split; cbn; lia|]. split; [split; cbn; lia|]. split; [reflexivity|].
  split; [exact E|]. split; [exact E'|].
  assert (B2FF 53 1024 x = F754_finite false 4503599627374592 36) as K.
  { change (match Ret x with Ret z => B2FF 53 1024 z | _ => F754_zero false end = F754_finite false 4503599627374592 36).
    rewrite <- E. vm_compute. reflexivity. }
  assert (B2FF 53 1024 y = F754_finite false 4503599627370496 36) as K'.
  { change (match Ret y with Ret z => B2FF 53 1024 z | _ => F754_zero false end = F754_finite false 4503599627370496 36).
    rewrite <- E'. vm_compute. reflexivity. }
  apply dval_ff in K, K'. rewrite ff_int in K, K' by lia. rewrite K, K'. apply IZR_lt. reflexivity.
Qed.

(** Single precision. *)
Lemma float_parts : forall m e (H : SpecFloat.bounded 24 128 m e = true),
  Zpos m < 2 ^ 24 /\ -149 <= e <= 104.
Proof.
  intros m e H. apply andb_prop in H. destruct H as [C B]. apply Zeq_bool_eq in C. apply Z.leb_le in B.
  unfold SpecFloat.fexp, SpecFloat.emin in C. rewrite Digits.Zpos_digits2_pos in C.
  split; [|lia]. apply (Zpower_gt_Zdigits radix2 24 (Zpos m)). lia.
Qed.

Lemma widen : forall x, ffinite x -> dfinite (double_of_float x) /\ dval (double_of_float x) = fval x.
Proof.
  intros [s|s|s p H|s m e H] F; try discriminate F; [split; reflexivity|].
  destruct (float_parts m e H) as [M E].
  unfold dfinite, dval, fval, double_of_float.
  pose proof (binary_normalize_correct 53 1024 dprec dmax mode_NE (cond_Zopp s (Zpos m)) e s) as C.
  change (SpecFloat.fexp 53 1024) with fx in C. change (round_mode mode_NE) with ZnearestE in C.
  assert (generic_format radix2 fx (F2R (Float radix2 (cond_Zopp s (Zpos m)) e))) as G.
  { unfold F2R; cbn [Fnum Fexp]. apply format_scaled; [|lia]. destruct s; cbn [cond_Zopp]; lia. }
  rewrite (round_generic radix2 fx ZnearestE _ G) in C.
  rewrite Rlt_bool_true in C; [split; [apply C|]; destruct C as [C _]; exact C|].
  rewrite <- F2R_Zabs. apply Rlt_le_trans with (bpow radix2 128); [|apply bpow_le; lia].
  unfold F2R; cbn [Fnum Fexp].
  replace (bpow radix2 128) with (bpow radix2 24 * bpow radix2 104)%R by (rewrite <- bpow_plus; reflexivity).
  apply Rlt_le_trans with (bpow radix2 24 * bpow radix2 e)%R.
  - apply Rmult_lt_compat_r; [apply bpow_gt_0|]. rewrite bpow_IZR by lia. apply IZR_lt. destruct s; cbn [cond_Zopp]; lia.
  - apply Rmult_le_compat_l; [apply bpow_ge_0|]. apply bpow_le. lia.
Qed.

Lemma fval_bound : forall x, (fval x < bpow radix2 128)%R.
Proof. intros x. apply Rle_lt_trans with (1 := Rle_abs _). exact (abs_B2R_lt_emax 24 128 x). Qed.

Theorem from_float_trunc : forall x, ffinite x ->
  u128_of_float x = Ret (of_Z (if Rlt_bool (fval x) 0 then 0 else Ztrunc (fval x))).
Proof.
  intros x F. destruct (widen x F) as [D V]. unfold u128_of_float.
  destruct (Rlt_bool_spec (fval x) 0) as [N|N].
  - rewrite from_double_neg; [reflexivity|exact D|rewrite V; exact N].
  - rewrite from_double_trunc; [rewrite V; reflexivity|exact D|]. rewrite V. split; [exact N|apply fval_bound].
Qed.

Lemma narrow : forall x y, dfinite x -> ffinite y -> dval x = fval y ->
  ffinite (float_of_double x) /\ fval (float_of_double x) = fval y.
Proof.
  intros [s|s|s p H|s m e H] y F Y V; try discriminate F; [split; [reflexivity|exact V]|].
  unfold ffinite, fval, float_of_double.
  pose proof (binary_normalize_correct 24 128 fprec fmax mode_NE (cond_Zopp s (Zpos m)) e s) as C.
  change (F2R (Float radix2 (cond_Zopp s (Zpos m)) e)) with (dval (B754_finite 53 1024 s m e H)) in C.
  rewrite V in C.
  pose proof (generic_format_B2R 24 128 y) as G.
  rewrite (round_generic radix2 _ _ _ G) in C.
  rewrite Rlt_bool_true in C; [split; [apply C|]; destruct C as [C _]; exact C|].
  exact (abs_B2R_lt_emax 24 128 y).
Qed.

(** Values that are exactly a float survive, exactly, in both directions. *)
Lemma to_float_exact : forall a y, wf128 a -> ffinite y -> fval y = IZR (to_Z a) ->
  exists f, u128_to_float a = Ret f /\ ffinite f /\ fval f = IZR (to_Z a) /\ u128_of_float f = Ret a.
Proof.
  intros a y W Y V. destruct (widen y Y) as [D E].
  destruct (to_double_exact a W) as (d & T & Fd & Vd & _).
  { exists (double_of_float y). split; [exact D|]. rewrite E. exact V. }
  unfold u128_to_double in T. unfold u128_to_float. rewrite T. cbn [bind].
  destruct (narrow d y Fd Y) as [Ff Vf]; [rewrite Vd, V; reflexivity|].
  exists (float_of_double d). split; [reflexivity|]. split; [exact Ff|].
  rewrite Vf, V. split; [reflexivity|].
  rewrite from_float_trunc by exact Ff. rewrite Vf, V.
  pose proof (to_Z_range a W) as R. rewrite Rlt_bool_false by (apply IZR_le; lia).
  rewrite Ztrunc_IZR. f_equal. symmetry. apply of_Z_to_Z; [exact W|reflexivity].
Qed.

(** (float) rounds twice. *)
Definition twice_value : u128 := mk128 0 (2 ^ 60 + 2 ^ 36 + 1).
Lemma ff_finite : forall x m e, B2FF 24 128 x = F754_finite false m e -> ffinite x.
Proof. intros [s|s|s p H|s k e' H] m e E; try discriminate E. reflexivity. Qed.
Lemma float_twice : exists a f y, wf128 a /\ u128_to_float a = Ret f /\ ffinite f /\ ffinite y /\
  (Rabs (fval y - IZR (to_Z a)) < Rabs (fval f - IZR (to_Z a)))%R.
Proof.
  exists twice_value. destruct (to_double_ok twice_value) as (d & T & _); [split; cbn; lia|].
  assert (u128_to_float twice_value = Ret (float_of_double d)) as E by (unfold u128_to_float; rewrite T; reflexivity).
  remember (float_of_double d) as f eqn:Q. clear Q.
  exists f, (binary_normalize 24 128 fprec fmax mode_NE (2 ^ 60 + 2 ^ 37) 0 false).
  split; [split; cbn; lia|]. split; [exact E|].
  assert (B2FF 24 128 f = F754_finite false 8388608 37) as K.
  { change (match Ret f with Ret z => B2FF 24 128 z | _ => F754_zero false end = F754_finite false 8388608 37).
    rewrite <- E. vm_compute. reflexivity. }
  split; [exact (ff_finite _ _ _ K)|].
  split; [apply (ff_finite _ 8388609 37); vm_compute; reflexivity|].
  apply fval_ff in K. rewrite ff_int in K by lia. rewrite K.
  rewrite (fval_ff (binary_normalize _ _ _ _ _ _ _ _) (F754_finite false 8388609 37)) by (vm_compute; reflexivity).
  rewrite ff_int by lia. rewrite <- !minus_IZR, <- !abs_IZR. apply IZR_lt. vm_compute. reflexivity.
Qed.
