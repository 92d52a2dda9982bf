(** long double: any IEEE binary format at least as large as double. *)
From Coq Require Import Reals Lra.
From Flocq Require Import Core IEEE754.Binary IEEE754.Bits.
Import BinarySingleNaN (mode, mode_NE, round_mode).
From Verif Require Import Base Tac Uint128Model FloatModel SpecInt SpecDouble BitProofs Uint128Proofs
  FloatProofs FloatProofs2 FloatProofs3 FloatProofs4 FloatProofs5.

Lemma to_long_value : forall prec emax P L nan a, 53 <= prec -> 1024 <= emax -> wf128 a ->
  exists d x, u128_to_double a = Ret d /\ u128_to_long prec emax P L nan a = Ret x /\ is_finite prec emax x = true /\ B2R prec emax x = dval d.
Proof.
  intros prec emax P L nan a Hp He W. destruct (to_double_pos a W) as (d & E & F & Q). exists d, (long_of_double prec emax P L nan d). split; [exact E|].
  split; [unfold u128_to_long; unfold u128_to_double in E; rewrite E; reflexivity|]. clear E W. destruct d as [s|s|s p H|s m e H]; try discriminate F; [split; reflexivity|].
  unfold long_of_double. pose proof (binary_normalize_correct prec emax P L mode_NE (cond_Zopp s (Zpos m)) e s) as C.
  change (F2R (Float radix2 (cond_Zopp s (Zpos m)) e)) with (dval (B754_finite 53 1024 s m e H)) in C.
  set (x := B754_finite 53 1024 s m e H) in *.
  assert (G : generic_format radix2 (SpecFloat.fexp prec emax) (dval x)).
  { apply (generic_inclusion_mag radix2 (FLT_exp (-1074) 53)).
    - intros _. unfold SpecFloat.fexp, FLT_exp, SpecFloat.emin. lia.
    - exact (generic_format_B2R 53 1024 x). }
  rewrite round_generic in C by (exact G || apply BinarySingleNaN.valid_rnd_round_mode).
  rewrite Rlt_bool_true in C; [split; apply C|].
  apply Rlt_le_trans with (bpow radix2 1024); [exact (abs_B2R_lt_emax 53 1024 x)|apply bpow_le, He].
Qed.

Lemma from_long_value : forall prec emax x, is_finite prec emax x = true ->
  let y := round radix2 (FLT_exp (-1074) 53) ZnearestE (B2R prec emax x) in
  u128_of_long prec emax x = Ret (of_Z (if Rlt_bool y 0 then 0 else if Rle_bool (bpow radix2 128) y then 2 ^ 128 - 1 else Ztrunc y)).
Proof.
  intros prec emax [s|s|s p H|s m e H] F; try discriminate F; cbv zeta.
  - cbn [B2R]. rewrite round_0 by typeclasses eauto. rewrite Rlt_bool_false by lra. rewrite Rle_bool_false by apply bpow_gt_0.
    unfold u128_of_long. cbn [double_of_long]. rewrite from_double_trunc; [reflexivity|reflexivity|]. cbn. split; [lra|apply (bpow_gt_0 radix2 128)].
  - unfold u128_of_long, double_of_long.
    pose proof (binary_normalize_correct 53 1024 dprec dmax mode_NE (cond_Zopp s (Zpos m)) e s) as C.
    change (F2R (Float radix2 (cond_Zopp s (Zpos m)) e)) with (B2R prec emax (B754_finite prec emax s m e H)) in C.
    change (SpecFloat.fexp 53 1024) with (FLT_exp (-1074) 53) in C. change (round_mode mode_NE) with ZnearestE in C.
    set (r := B2R prec emax (B754_finite prec emax s m e H)) in *. set (y := round radix2 (FLT_exp (-1074) 53) ZnearestE r) in *.
    set (d := binary_normalize 53 1024 dprec dmax mode_NE (cond_Zopp s (Zpos m)) e s) in *.
    destruct (Rlt_bool_spec (Rabs y) (bpow radix2 1024)) as [K|K].
    + destruct C as (Cv & Cf & _). destruct (Rlt_bool_spec y 0) as [N|N].
      * rewrite from_double_neg; [reflexivity|exact Cf|]. unfold dval. rewrite Cv. exact N.
      * destruct (Rle_bool_spec (bpow radix2 128) y) as [B|B].
        -- apply from_double_big; [exact Cf|]. unfold dval. rewrite Cv. exact B.
        -- rewrite from_double_trunc; [unfold dval; rewrite Cv; reflexivity|exact Cf|]. unfold dval. rewrite Cv. split; assumption.
    + assert (D : d = B754_infinity 53 1024 (Rlt_bool r 0)) by (destruct d; try discriminate C; injection C as ->; reflexivity).
      assert (BB : (bpow radix2 128 <= bpow radix2 1024)%R) by (apply bpow_le; lia). pose proof (bpow_gt_0 radix2 128) as B0.
      rewrite D. rewrite from_double_special by (intros Q; discriminate Q). destruct (Rlt_bool_spec r 0) as [N|N].
      * assert (y <= 0)%R by (apply round_le_generic; [typeclasses eauto..|apply generic_format_0|lra]).
        rewrite Rabs_left1 in K by assumption. rewrite Rlt_bool_true by lra. reflexivity.
      * assert (0 <= y)%R by (apply round_ge_generic; [typeclasses eauto..|apply generic_format_0|lra]).
        rewrite Rabs_pos_eq in K by assumption. rewrite Rlt_bool_false by lra. rewrite Rle_bool_true by lra. reflexivity.
Qed.
Lemma from_long_special : forall prec emax x, is_finite prec emax x = false ->
  u128_of_long prec emax x = Ret (of_Z (match x with B754_infinity _ _ false => 2 ^ 128 - 1 | _ => 0 end)).
Proof.
  intros prec emax [s|s|s p H|s m e H] F; try discriminate F; unfold u128_of_long; cbn [double_of_long]; rewrite from_double_special.
  - reflexivity.
  - intros K. discriminate K.
  - destruct default_nan_pl64 as [n Hn]. cbn [proj1_sig]. destruct n; try discriminate Hn. reflexivity.
  - destruct default_nan_pl64 as [n Hn]. cbn [proj1_sig]. destruct n; try discriminate Hn. intros K. discriminate K.
Qed.
(** A value that is also a double is truncated. *)
Lemma from_long_exact : forall prec emax x d, is_finite prec emax x = true -> dfinite d -> B2R prec emax x = dval d -> (0 <= dval d < bpow radix2 128)%R ->
  u128_of_long prec emax x = Ret (of_Z (Ztrunc (dval d))).
Proof.
  intros prec emax x d F Fd E R. rewrite (from_long_value prec emax x F). rewrite E.
  rewrite round_generic by (typeclasses eauto || exact (generic_format_B2R 53 1024 d)). rewrite Rlt_bool_false by lra. rewrite Rle_bool_false by lra. reflexivity.
Qed.
(** Any other may be off: 2^64 - 1 in the x87 format. *)
Definition x87_max64 : binary_float 64 16384 := B754_finite 64 16384 false 18446744073709551615 0 eq_refl.
Lemma x87_max64_value : B2R 64 16384 x87_max64 = IZR (2 ^ 64 - 1).
Proof. change (F2R (Float radix2 (2 ^ 64 - 1) 0) = IZR (2 ^ 64 - 1)). unfold F2R. cbn [Fnum Fexp]. change (bpow radix2 0) with 1%R. rewrite Rmult_1_r. reflexivity. Qed.
Lemma from_long_bad : exists x : binary_float 64 16384, is_finite 64 16384 x = true /\ B2R 64 16384 x = IZR (2 ^ 64 - 1) /\ u128_of_long 64 16384 x = Ret (of_Z (2 ^ 64)).
Proof.
  exists x87_max64. split; [reflexivity|]. split; [exact x87_max64_value|]. unfold u128_of_long.
  assert (E : B2FF 53 1024 (double_of_long 64 16384 x87_max64) = F754_finite false (2 ^ 52) 12) by (vm_compute; reflexivity).
  pose proof (dval_ff _ _ E) as V. rewrite ff_int in V by lia. change (Zpos (2 ^ 52) * 2 ^ 12) with (2 ^ 64) in V.
  rewrite from_double_trunc; [rewrite V, Ztrunc_IZR; reflexivity| |].
  - unfold dfinite. destruct (double_of_long 64 16384 x87_max64); try discriminate E; reflexivity.
  - rewrite V. split; [apply IZR_le; lia|]. rewrite bpow_IZR by lia. apply IZR_lt. reflexivity.
Qed.
(** The way there and back loses bits that the format has room for. *)
Lemma to_long_bad : exists a d x, wf128 a /\ u128_to_double a = Ret d /\ (forall P L nan, u128_to_long 64 16384 P L nan a = Ret (x P L nan) /\ B2R 64 16384 (x P L nan) = IZR (2 ^ 64)) /\ to_Z a = 2 ^ 64 - 1 /\
  exists y : binary_float 64 16384, B2R 64 16384 y = IZR (to_Z a).
Proof.
  assert (W : wf128 (of_Z (2 ^ 64 - 1))) by (split; split; vm_compute; (reflexivity || discriminate)).
  destruct (to_double_ok _ W) as (d & E & _).
  assert (K : forall r d f, r = Ret d -> match r with Ret x => B2FF 53 1024 x = f | _ => False end -> B2FF 53 1024 d = f) by (intros r d' f -> H; exact H).
  exists (of_Z (2 ^ 64 - 1)), d, (fun P L nan => long_of_double 64 16384 P L nan d). split; [exact W|]. split; [exact E|]. split; [|split; [reflexivity|]].
  - intros P L nan. destruct (to_long_value 64 16384 P L nan _ ltac:(lia) ltac:(lia) W) as (d' & x & E' & X & _ & V). unfold u128_to_double in E'. rewrite E in E'. injection E' as <-.
    unfold u128_to_long in *. rewrite E in *. cbn [bind] in *. split; [reflexivity|]. injection X as <-. rewrite V.
    assert (EF : B2FF 53 1024 d = F754_finite false (2 ^ 52) 12) by (apply (K _ _ _ E); vm_compute; reflexivity).
    rewrite (dval_ff _ _ EF). rewrite ff_int by lia. reflexivity.
  - exists x87_max64. exact x87_max64_value.
Qed.
Lemma to_long_lossy : exists a, wf128 a /\ to_Z a = 2 ^ 64 - 1 /\ (exists y : binary_float 64 16384, is_finite 64 16384 y = true /\ B2R 64 16384 y = IZR (to_Z a)) /\
  forall P L nan, exists x, u128_to_long 64 16384 P L nan a = Ret x /\ B2R 64 16384 x = IZR (2 ^ 64).
Proof.
  destruct to_long_bad as (a & d & x & W & _ & K & V & _). exists a. split; [exact W|]. split; [exact V|]. split.
  - exists x87_max64. split; [reflexivity|]. rewrite V. exact x87_max64_value.
  - intros P L nan. exists (x P L nan). apply K.
Qed.
