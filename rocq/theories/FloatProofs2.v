(** When the smeared low bits do not matter; accuracy; truncation. *)
From Coq Require Import Reals Lra.
From Flocq Require Import Core Relative IEEE754.Binary IEEE754.Bits.
Import BinarySingleNaN (mode, mode_NE, round_mode).
From Verif Require Import Base Tac Uint128Model FloatModel SpecInt SpecDouble BitProofs Uint128Proofs FloatProofs.

(** Rounding to nearest even at bit [c], on integers. *)
Definition near (v c : Z) : Z :=
  match v mod 2 ^ c ?= 2 ^ (c - 1) with
  | Lt => v / 2 ^ c
  | Eq => if Z.even (v / 2 ^ c) then v / 2 ^ c else v / 2 ^ c + 1
  | Gt => v / 2 ^ c + 1
  end.

Lemma near_ok : forall v c, 1 <= c -> ZnearestE (IZR v * bpow radix2 (- c)) = near v c.
Proof.
  intros v c C. unfold near, Znearest.
  pose proof (Z.pow_pos_nonneg 2 c ltac:(lia) ltac:(lia)) as P.
  pose proof (Z.mod_pos_bound v (2 ^ c) P) as M.
  pose proof (Z.div_mod v (2 ^ c) ltac:(lia)) as DM.
  assert (2 ^ c = 2 * 2 ^ (c - 1)) as H2.
  { replace c with (Z.succ (c - 1)) at 1 by lia. apply Z.pow_succ_r. lia. }
  set (f := v / 2 ^ c) in *. set (m := v mod 2 ^ c) in *.
  assert (bpow radix2 (- c) = / IZR (2 ^ c))%R as B.
  { rewrite bpow_opp, bpow_IZR by lia. reflexivity. }
  assert (0 < IZR (2 ^ c))%R as P' by (apply IZR_lt; exact P).
  assert (IZR v * bpow radix2 (- c) = IZR f + IZR m * / IZR (2 ^ c))%R as X.
  { rewrite B, DM, plus_IZR, mult_IZR. field. lra. }
  assert (0 <= IZR m * / IZR (2 ^ c) < 1)%R as FR.
  { split.
    - apply Rmult_le_pos; [apply IZR_le; lia|]. apply Rlt_le, Rinv_0_lt_compat, P'.
    - apply Rmult_lt_reg_r with (IZR (2 ^ c)); [exact P'|].
      rewrite Rmult_assoc, Rinv_l, Rmult_1_r, Rmult_1_l by lra. apply IZR_lt. lia. }
  assert (Zfloor (IZR v * bpow radix2 (- c)) = f) as FL.
  { apply Zfloor_imp. rewrite X, plus_IZR. lra. }
  rewrite FL.
  assert (Rcompare (IZR v * bpow radix2 (- c) - IZR f) (/ 2) = (m ?= 2 ^ (c - 1))) as ->.
  { rewrite X. replace (IZR f + IZR m * / IZR (2 ^ c) - IZR f)%R with (IZR m * / IZR (2 ^ c))%R by ring.
    replace (/ 2)%R with (IZR (2 ^ (c - 1)) * / IZR (2 ^ c))%R.
    - rewrite Rcompare_mult_r by (apply Rinv_0_lt_compat, P'). apply Rcompare_IZR.
    - rewrite H2, mult_IZR. field. apply not_0_IZR. lia. }
  assert (0 < m -> Zceil (IZR v * bpow radix2 (- c)) = f + 1) as CE.
  { intros Hm. rewrite Zceil_floor_neq; [rewrite FL; reflexivity|]. rewrite FL, X. intros K.
    assert (0 < IZR m * / IZR (2 ^ c))%R; [|lra].
    apply Rmult_lt_0_compat; [apply IZR_lt; exact Hm|apply Rinv_0_lt_compat, P']. }
  pose proof (Z.pow_pos_nonneg 2 (c - 1) ltac:(lia) ltac:(lia)) as P1.
  destruct (Z.compare_spec m (2 ^ (c - 1))) as [E|E|E].
  - rewrite CE by (rewrite E; exact P1). destruct (Z.even f); reflexivity.
  - reflexivity.
  - apply CE. apply Z.lt_trans with (2 ^ (c - 1)); assumption.
Qed.

(** [near] only looks at the bits from [c - 1] up and at whether any bit below is set. *)
Lemma near_same : forall v v' k c, 0 <= k -> k < c -> v / 2 ^ k = v' / 2 ^ k ->
  (v mod 2 ^ k = 0 <-> v' mod 2 ^ k = 0) -> near v c = near v' c.
Proof.
  intros v v' k c K C Q R.
  assert (2 ^ c = 2 ^ k * 2 ^ (c - k)) as SP by (rewrite <- Z.pow_add_r by lia; f_equal; lia).
  assert (2 ^ (c - 1) = 2 ^ k * 2 ^ (c - 1 - k)) as SH by (rewrite <- Z.pow_add_r by lia; f_equal; lia).
  pose proof (Z.pow_pos_nonneg 2 k ltac:(lia) ltac:(lia)) as PK.
  pose proof (Z.pow_pos_nonneg 2 (c - k) ltac:(lia) ltac:(lia)) as PC.
  unfold near. rewrite SP, !Z.rem_mul_r, <- !Z.div_div by lia. rewrite <- Q, SH.
  assert ((v mod 2 ^ k + 2 ^ k * (v / 2 ^ k mod 2 ^ (c - k)) ?= 2 ^ k * 2 ^ (c - 1 - k))
        = (v' mod 2 ^ k + 2 ^ k * (v / 2 ^ k mod 2 ^ (c - k)) ?= 2 ^ k * 2 ^ (c - 1 - k))) as ->;
    [|reflexivity].
  pose proof (Z.mod_pos_bound v (2 ^ k) PK) as M. pose proof (Z.mod_pos_bound v' (2 ^ k) PK) as M'.
  generalize dependent (v / 2 ^ k mod 2 ^ (c - k)). intros g.
  generalize dependent (2 ^ (c - 1 - k)). intros h _.
  clear Q SP PC. revert M M' R. generalize (v mod 2 ^ k) (v' mod 2 ^ k). intros r r' M M' R.
  generalize dependent (2 ^ k). intros p PK M M'.
  destruct (Z.compare_spec g h) as [G|G|G].
  - subst. destruct (Z.eq_dec r 0) as [E|E].
    + assert (r' = 0) by tauto. subst. reflexivity.
    + assert (r' <> 0) by tauto.
      rewrite !(proj2 (Z.compare_gt_iff _ _)) by lia. reflexivity.
  - rewrite !(proj2 (Z.compare_lt_iff _ _)) by nia. reflexivity.
  - rewrite !(proj2 (Z.compare_gt_iff _ _)) by nia. reflexivity.
Qed.

Lemma mag_int : forall v e, 2 ^ (e - 1) <= v < 2 ^ e -> 1 <= e -> mag_val radix2 _ (mag radix2 (IZR v)) = e.
Proof.
  intros v e [L H] E. apply mag_unique. rewrite Rabs_pos_eq.
  - rewrite !bpow_IZR by lia. split; [apply IZR_le|apply IZR_lt]; lia.
  - apply IZR_le. pose proof (Z.pow_pos_nonneg 2 (e - 1) ltac:(lia) ltac:(lia)). lia.
Qed.

Lemma rnd_near : forall v e, 2 ^ (e - 1) <= v < 2 ^ e -> 54 <= e ->
  rnd (IZR v) = (IZR (near v (e - 53)) * bpow radix2 (e - 53))%R.
Proof.
  intros v e V E. unfold round, F2R, scaled_mantissa, cexp; cbn [Fnum Fexp].
  rewrite (mag_int v e V) by lia.
  assert (fx e = e - 53) as -> by (unfold FLT_exp; lia).
  rewrite near_ok by lia. reflexivity.
Qed.

Lemma rnd_same : forall v v', 2 ^ 101 <= v -> v / 2 ^ 48 = v' / 2 ^ 48 ->
  (v mod 2 ^ 48 = 0 <-> v' mod 2 ^ 48 = 0) -> rnd (IZR v) = rnd (IZR v').
Proof.
  intros v v' V Q R.
  set (e := Z.log2 v + 1).
  assert (102 <= e) as E.
  { assert (101 <= Z.log2 v); [|unfold e; lia]. apply Z.log2_le_pow2; lia. }
  assert (2 ^ (e - 1) <= v < 2 ^ e) as B.
  { unfold e. replace (Z.log2 v + 1 - 1) with (Z.log2 v) by lia. apply Z.log2_spec. lia. }
  assert (2 ^ (e - 1) <= v' < 2 ^ e) as B'.
  { assert (2 ^ (e - 1) = 2 ^ (e - 49) * 2 ^ 48) as P1 by (rewrite <- Z.pow_add_r by lia; f_equal; lia).
    assert (2 ^ e = 2 ^ (e - 48) * 2 ^ 48) as P2 by (rewrite <- Z.pow_add_r by lia; f_equal; lia).
    rewrite P1, P2 in *.
    assert (2 ^ (e - 49) <= v / 2 ^ 48) by (apply Z.div_le_lower_bound; lia).
    assert (v / 2 ^ 48 < 2 ^ (e - 48)) by (apply Z.div_lt_upper_bound; lia).
    rewrite Q in *.
    pose proof (Z.div_mod v' (2 ^ 48) ltac:(lia)). pose proof (Z.mod_pos_bound v' (2 ^ 48) ltac:(lia)).
    generalize dependent (v' / 2 ^ 48). generalize dependent (v' mod 2 ^ 48).
    generalize (2 ^ (e - 49)) (2 ^ (e - 48)). clear. intros. lia. }
  rewrite (rnd_near v e B), (rnd_near v' e B') by lia. f_equal. f_equal.
  apply near_same with 48; [lia|lia|exact Q|exact R].
Qed.

(** Smearing keeps everything from bit 48 up, and whether anything below is set. *)
Lemma smeared_parts : forall v, 0 <= v ->
  smeared v = v / 2 ^ 48 * 2 ^ 48 + Z.lor (v / 2 ^ 24 mod 2 ^ 24) (v mod 2 ^ 24) * 2 ^ 24.
Proof.
  intros v V. unfold smeared.
  change (2 ^ 52) with (2 ^ 24 * 2 ^ 28). rewrite Z.rem_mul_r, Z.div_div by lia.
  change (2 ^ 24 * 2 ^ 24) with (2 ^ 48).
  assert (v / 2 ^ 76 = v / 2 ^ 48 / 2 ^ 28) as -> by (rewrite Z.div_div by lia; reflexivity).
  pose proof (Z.mod_pos_bound (v / 2 ^ 24) (2 ^ 24) ltac:(lia)) as C.
  pose proof (Z.mod_pos_bound v (2 ^ 24) ltac:(lia)) as D.
  rewrite (Z.add_comm (_ mod _)), (Z.mul_comm (2 ^ 24) (v / 2 ^ 48 mod 2 ^ 28)).
  rewrite <- (lor_add _ _ 24 ltac:(lia) C). rewrite <- Z.lor_assoc.
  pose proof (lor_lt _ _ 24 ltac:(lia) C D) as L.
  rewrite (lor_add _ _ 24 ltac:(lia) L).
  pose proof (Z.div_mod (v / 2 ^ 48) (2 ^ 28) ltac:(lia)) as E. revert E.
  generalize (Z.lor (v / 2 ^ 24 mod 2 ^ 24) (v mod 2 ^ 24)) (v / 2 ^ 48) (v / 2 ^ 48 / 2 ^ 28) (v / 2 ^ 48 mod 2 ^ 28).
  clear. intros. lia.
Qed.

Lemma low48 : forall v, 0 <= v -> v mod 2 ^ 48 = v mod 2 ^ 24 + 2 ^ 24 * (v / 2 ^ 24 mod 2 ^ 24).
Proof. intros v V. change (2 ^ 48) with (2 ^ 24 * 2 ^ 24). apply Z.rem_mul_r; lia. Qed.

Lemma smeared_low : forall v, 0 <= v ->
  smeared v / 2 ^ 48 = v / 2 ^ 48 /\
  smeared v mod 2 ^ 48 = Z.lor (v / 2 ^ 24 mod 2 ^ 24) (v mod 2 ^ 24) * 2 ^ 24.
Proof.
  intros v V. rewrite (smeared_parts v V).
  pose proof (lor_lt _ _ 24 ltac:(lia) (Z.mod_pos_bound (v / 2 ^ 24) (2 ^ 24) ltac:(lia))
    (Z.mod_pos_bound v (2 ^ 24) ltac:(lia))) as L. revert L.
  generalize (Z.lor (v / 2 ^ 24 mod 2 ^ 24) (v mod 2 ^ 24)) (v / 2 ^ 48). clear. intros z q L. split.
  - symmetry. apply Z.div_unique with (z * 2 ^ 24); lia.
  - symmetry. apply Z.mod_unique with q; lia.
Qed.

Lemma smeared_sticky : forall v, 0 <= v -> (v mod 2 ^ 48 = 0 <-> smeared v mod 2 ^ 48 = 0).
Proof.
  intros v V. destruct (smeared_low v V) as [_ ->]. rewrite (low48 v V).
  pose proof (Z.mod_pos_bound (v / 2 ^ 24) (2 ^ 24) ltac:(lia)) as C.
  pose proof (Z.mod_pos_bound v (2 ^ 24) ltac:(lia)) as D. revert C D.
  generalize (v / 2 ^ 24 mod 2 ^ 24) (v mod 2 ^ 24). clear. intros c d C D. split; intros H.
  - assert (c = 0 /\ d = 0) as [-> ->] by lia. reflexivity.
  - assert (Z.lor c d = 0) as K by lia. apply Z.lor_eq_0_iff in K. destruct K as [-> ->]. reflexivity.
Qed.

Lemma smeared_clean : forall v, 0 <= v -> v mod 2 ^ 24 = 0 -> smeared v = v.
Proof.
  intros v V Z. rewrite (smeared_parts v V), Z, Z.lor_0_r.
  pose proof (Z.div_mod v (2 ^ 48) ltac:(lia)) as E. rewrite (low48 v V), Z in E.
  revert E. generalize (v / 2 ^ 48) (v / 2 ^ 24 mod 2 ^ 24). clear. intros. lia.
Qed.

Lemma smeared_near : forall v, 0 <= v -> v - 2 ^ 48 < smeared v < v + 2 ^ 48.
Proof.
  intros v V. destruct (smeared_low v V) as [Q _].
  pose proof (Z.div_mod v (2 ^ 48) ltac:(lia)). pose proof (Z.mod_pos_bound v (2 ^ 48) ltac:(lia)).
  pose proof (Z.div_mod (smeared v) (2 ^ 48) ltac:(lia)).
  pose proof (Z.mod_pos_bound (smeared v) (2 ^ 48) ltac:(lia)). rewrite Q in *.
  generalize dependent (v / 2 ^ 48). generalize dependent (v mod 2 ^ 48).
  generalize dependent (smeared v mod 2 ^ 48). generalize (smeared v). clear. intros. lia.
Qed.

(** Where the conversion rounds correctly. *)
Lemma to_double_nearest : forall a, wf128 a ->
  to_Z a < 2 ^ 88 \/ 2 ^ 101 <= to_Z a \/ to_Z a mod 2 ^ 24 = 0 ->
  exists d, u128_to_double a = Ret d /\ nearest_even (IZR (to_Z a)) d.
Proof.
  intros a W H. destruct (to_double_ok a W) as (d & E & F & N). exists d. split; [exact E|].
  split; [exact F|]. pose proof (to_Z_range a W) as R. rewrite N.
  destruct (Z.ltb_spec (to_Z a) (2 ^ 88)) as [L|L]; [reflexivity|].
  destruct H as [H|[H|H]]; [lia| |].
  - symmetry. apply rnd_same; [exact H| |].
    + symmetry. apply smeared_low. lia.
    + apply smeared_sticky. lia.
  - rewrite smeared_clean; [reflexivity|lia|exact H].
Qed.

Lemma nearest_closest : forall x d, nearest_even x d -> closest x d.
Proof.
  intros x d [F N]. split; [exact F|]. intros y Y. rewrite N.
  destruct (round_N_pt radix2 fx (fun x => negb (Z.even x)) x) as [_ H].
  apply H. exact (generic_format_B2R 53 1024 y).
Qed.

Lemma rnd_error : forall z, 0 <= z -> (Rabs (rnd (IZR z) - IZR z) <= bpow radix2 (-53) * IZR z)%R.
Proof.
  intros z Z. destruct (Z.eq_dec z 0) as [->|N].
  - rewrite round_0 by typeclasses eauto. rewrite Rminus_0_r, Rabs_R0, Rmult_0_r. lra.
  - pose proof (relative_error_N_FLT radix2 (-1074) 53 ltac:(reflexivity) (fun x => negb (Z.even x)) (IZR z)) as H.
    replace (/ 2 * bpow radix2 (- (53) + 1))%R with (bpow radix2 (-53)) in H.
    + rewrite (Rabs_pos_eq (IZR z)) in H by (apply IZR_le; lia). apply H.
      apply Rle_trans with 1%R; [|apply IZR_le; lia]. change 1%R with (bpow radix2 0). apply bpow_le. lia.
    + change (/ 2)%R with (bpow radix2 (-1)). rewrite <- bpow_plus. reflexivity.
Qed.

(** Accuracy for every value. *)
Lemma to_double_error : forall a, wf128 a -> exists d, u128_to_double a = Ret d /\ dfinite d /\
  (Rabs (dval d - IZR (to_Z a)) <= bpow radix2 (-39) * IZR (to_Z a))%R.
Proof.
  intros a W. destruct (to_double_ok a W) as (d & E & F & N). exists d. split; [exact E|].
  split; [exact F|]. pose proof (to_Z_range a W) as R. rewrite N. clear E F N.
  assert (0 <= IZR (to_Z a))%R as P by (apply IZR_le; lia).
  destruct (Z.ltb_spec (to_Z a) (2 ^ 88)) as [L|L].
  - apply Rle_trans with (1 := rnd_error (to_Z a) ltac:(lia)).
    apply Rmult_le_compat_r; [exact P|]. apply bpow_le. lia.
  - pose proof (smeared_range _ R) as SR. pose proof (smeared_near (to_Z a) ltac:(lia)) as SN.
    pose proof (rnd_error (smeared (to_Z a)) ltac:(lia)) as RE.
    replace (rnd (IZR (smeared (to_Z a))) - IZR (to_Z a))%R
      with ((rnd (IZR (smeared (to_Z a))) - IZR (smeared (to_Z a))) + (IZR (smeared (to_Z a)) - IZR (to_Z a)))%R by ring.
    apply Rle_trans with (1 := Rabs_triang _ _).
    assert (Rabs (IZR (smeared (to_Z a)) - IZR (to_Z a)) <= IZR (2 ^ 48))%R as D.
    { rewrite <- minus_IZR, <- abs_IZR. apply IZR_le. lia. }
    assert (IZR (smeared (to_Z a)) <= IZR (to_Z a) + IZR (2 ^ 48))%R as U.
    { rewrite <- plus_IZR. apply IZR_le. lia. }
    assert (IZR (2 ^ 48) <= bpow radix2 (-40) * IZR (to_Z a))%R as S.
    { rewrite <- bpow_IZR by lia. apply Rle_trans with (bpow radix2 (-40) * IZR (2 ^ 88))%R.
      - rewrite <- bpow_IZR, <- bpow_plus by lia. apply Rle_refl.
      - apply Rmult_le_compat_l; [apply bpow_ge_0|]. apply IZR_le. exact L. }
    assert (bpow radix2 (-53) <= / 8 * bpow radix2 (-40))%R as B53.
    { change (/ 8)%R with (bpow radix2 (-3)). rewrite <- bpow_plus. apply bpow_le. lia. }
    assert (bpow radix2 (-39) = 2 * bpow radix2 (-40))%R as ->.
    { change 2%R with (bpow radix2 1). rewrite <- bpow_plus. reflexivity. }
    assert (bpow radix2 (-40) <= 1)%R as B1.
    { change 1%R with (bpow radix2 0). apply bpow_le. lia. }
    pose proof (bpow_ge_0 radix2 (-40)) as B0. pose proof (bpow_ge_0 radix2 (-53)) as B2.
    assert (0 <= IZR (smeared (to_Z a)))%R as PS by (apply IZR_le; lia).
    assert (bpow radix2 (-53) * IZR (smeared (to_Z a)) <= / 8 * bpow radix2 (-40) * (2 * IZR (to_Z a)))%R as K.
    { apply Rmult_le_compat; [exact B2|exact PS|exact B53|].
      apply Rle_trans with (1 := U). assert (bpow radix2 (-40) * IZR (to_Z a) <= 1 * IZR (to_Z a))%R; [|lra].
      apply Rmult_le_compat_r; assumption. }
    clear - RE D S K P B0 PS. pose proof (Rmult_le_pos _ _ B0 P). lra.
Qed.
