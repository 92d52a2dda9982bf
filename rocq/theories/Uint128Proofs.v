(** Lemmas about the 128-bit integer model: all operations except division. *)
From Verif Require Import Base Uint128Model SpecInt Tac.

Definition B64 := 18446744073709551616.
Definition B32 := 4294967296.

Lemma to_Z_range a : wf128 a -> 0 <= to_Z a < 2 ^ 128.
Proof. unfold wf128, to_Z. pows. lia. Qed.

Lemma of_Z_wf x : wf128 (of_Z x).
Proof. unfold wf128, of_Z; cbn [up lo]. pows. lia. Qed.

Lemma to_of_Z x : to_Z (of_Z x) = x mod 2 ^ 128.
Proof. unfold to_Z, of_Z; cbn [up lo]. pows. lia. Qed.

Lemma of_to_Z a : wf128 a -> of_Z (to_Z a) = a.
Proof.
  destruct a as [u l]. unfold wf128, to_Z, of_Z; cbn [up lo]. intros H.
  f_equal; pows; lia.
Qed.

Lemma to_Z_inj a b : wf128 a -> wf128 b -> to_Z a = to_Z b -> a = b.
Proof. intros Ha Hb E. rewrite <- (of_to_Z a), <- (of_to_Z b), E by assumption. reflexivity. Qed.

Lemma add_wf a b : wf128 (u128_add a b).
Proof. unfold wf128, u128_add, w64; cbn [up lo]. pows. lia. Qed.
Lemma add_ok a b : wf128 a -> wf128 b -> to_Z (u128_add a b) = (to_Z a + to_Z b) mod 2 ^ 128.
Proof.
  unfold wf128, u128_add, to_Z, w64; cbn [up lo]. intros Ha Hb. pows.
  destruct (Z.ltb_spec ((lo a + lo b) mod 18446744073709551616) (lo a)); lia.
Qed.

Lemma sub_wf a b : wf128 (u128_sub a b).
Proof. unfold wf128, u128_sub, w64; cbn [up lo]. pows. lia. Qed.
Lemma sub_ok a b : wf128 a -> wf128 b -> to_Z (u128_sub a b) = (to_Z a - to_Z b) mod 2 ^ 128.
Proof.
  unfold wf128, u128_sub, to_Z, w64; cbn [up lo]. intros Ha Hb. pows.
  rewrite Z.gtb_ltb.
  destruct (Z.ltb_spec (lo a) ((lo a - lo b) mod 18446744073709551616)); lia.
Qed.

Lemma not_wf a : wf128 (u128_not a).
Proof. unfold wf128, u128_not, w64; cbn [up lo]. pows. lia. Qed.
Lemma not_ok a : wf128 a -> to_Z (u128_not a) = 2 ^ 128 - 1 - to_Z a.
Proof.
  unfold wf128, u128_not, to_Z, w64, Z.lnot; cbn [up lo]. intros Ha. pows. lia.
Qed.

Lemma of_i64_wf x : wf128 (u128_of_i64 x).
Proof. unfold wf128, u128_of_i64, w64; cbn [up lo]. pows. lia. Qed.
Lemma of_i64_ok x : - 2 ^ 63 <= x < 2 ^ 63 -> to_Z (u128_of_i64 x) = x mod 2 ^ 128.
Proof.
  unfold u128_of_i64, to_Z, w64; cbn [up lo]. intros H. rewrite shr_div by lia. pows. lia.
Qed.
Lemma of_u64_wf x : 0 <= x < 2 ^ 64 -> wf128 (u128_of_u64 x).
Proof. unfold wf128, u128_of_u64; cbn [up lo]. pows. lia. Qed.
Lemma of_u64_ok x : to_Z (u128_of_u64 x) = x.
Proof. unfold u128_of_u64, to_Z; cbn [up lo]. lia. Qed.

Lemma inc_wf a : wf128 (u128_inc a). Proof. apply add_wf. Qed.
Lemma inc_ok a : wf128 a -> to_Z (u128_inc a) = (to_Z a + 1) mod 2 ^ 128.
Proof. intros H. unfold u128_inc. rewrite add_ok; auto using of_i64_wf. Qed.
Lemma dec_wf a : wf128 (u128_dec a). Proof. apply sub_wf. Qed.
Lemma dec_ok a : wf128 a -> to_Z (u128_dec a) = (to_Z a - 1) mod 2 ^ 128.
Proof. intros H. unfold u128_dec. rewrite sub_ok; auto using of_i64_wf. Qed.
Lemma neg_wf a : wf128 (u128_neg a). Proof. apply add_wf. Qed.
Lemma neg_ok a : wf128 a -> to_Z (u128_neg a) = (- to_Z a) mod 2 ^ 128.
Proof.
  intros H. unfold u128_neg. rewrite inc_ok, not_ok by auto using not_wf.
  pose proof (to_Z_range a H). pows. lia.
Qed.

(** ** Multiplication *)
Lemma mul_bound a b : 0 <= a < B32 -> 0 <= b < B32 -> 0 <= a * b <= (B32 - 1) * (B32 - 1).
Proof. unfold B32. nia. Qed.

Lemma big_mul_ok a b u l : 0 <= a < B64 -> 0 <= b < B64 -> big_mul a b = (u, l) ->
  0 <= u < B64 /\ 0 <= l < B64 /\ u * B64 + l = a * b.
Proof.
  intros Ha Hb. unfold big_mul. cbv zeta.
  rewrite !shr_div by lia. unfold w32. change (2 ^ 32) with B32.
  set (al := a mod B32). set (ah := (a / B32) mod B32).
  set (bl := b mod B32). set (bh := (b / B32) mod B32).
  assert (Hal : 0 <= al < B32) by (subst al; unfold B32; lia).
  assert (Hah : 0 <= ah < B32) by (subst ah; unfold B32; lia).
  assert (Hbl : 0 <= bl < B32) by (subst bl; unfold B32; lia).
  assert (Hbh : 0 <= bh < B32) by (subst bh; unfold B32; lia).
  assert (Ea : a = ah * B32 + al) by (subst ah al; unfold B32, B64 in *; lia).
  assert (Eb : b = bh * B32 + bl) by (subst bh bl; unfold B32, B64 in *; lia).
  pose proof (mul_bound al bl Hal Hbl) as H1. pose proof (mul_bound ah bl Hah Hbl) as H2.
  pose proof (mul_bound al bh Hal Hbh) as H3. pose proof (mul_bound ah bh Hah Hbh) as H4.
  assert (Eab : a * b = ah * bh * B64 + (ah * bl + al * bh) * B32 + al * bl).
  { rewrite Ea, Eb. unfold B32, B64. ring. }
  rewrite Eab. clearbody al ah bl bh. clear Ea Eb Eab Ha Hb Hal Hah Hbl Hbh.
  generalize dependent (al * bl). intros p H1.
  generalize dependent (ah * bl). intros q H2.
  generalize dependent (al * bh). intros r H3.
  generalize dependent (ah * bh). intros s H4.
  unfold w64. change (2 ^ 64) with B64. rewrite shl_mul by lia. change (2 ^ 32) with B32.
  unfold B32, B64 in *.
  rewrite !(Z.mod_small p), !(Z.mod_small q), !(Z.mod_small r), !(Z.mod_small s) by lia.
  rewrite !(Z.mod_small (q + p / 4294967296)) by lia.
  set (t := q + p / 4294967296).
  assert (Ht : 0 <= t) by (subst t; lia).
  assert (Ht2 : t <= 4294967295 * 4294967295 + 4294967295) by (subst t; lia).
  rewrite !(Z.mod_small (r + t mod 4294967296)) by lia.
  set (tl := r + t mod 4294967296).
  assert (Htl : 0 <= tl <= 4294967295 * 4294967295 + 4294967295) by (subst tl; lia).
  assert (El : (tl * 4294967296) mod 18446744073709551616 = (tl mod 4294967296) * 2 ^ 32).
  { pows. lia. }
  rewrite El, lor_add by (pows; lia).
  intros E. injection E as <- <-. pows.
  rewrite !(Z.mod_small (s + t / 4294967296)) by lia.
  rewrite !(Z.mod_small (s + t / 4294967296 + tl / 4294967296)); subst tl t; lia.
Qed.

Lemma mul_wf a b : wf128 a -> wf128 b -> wf128 (u128_mul a b).
Proof.
  intros Ha Hb. unfold u128_mul. destruct (big_mul (lo a) (lo b)) as [u l] eqn:E.
  apply big_mul_ok in E; [|apply Ha|apply Hb]. unfold wf128, w64; cbn [up lo].
  unfold B64 in *. pows. lia.
Qed.
Lemma mul_ok a b : wf128 a -> wf128 b -> to_Z (u128_mul a b) = (to_Z a * to_Z b) mod 2 ^ 128.
Proof.
  intros Ha Hb. unfold u128_mul. destruct (big_mul (lo a) (lo b)) as [u l] eqn:E.
  apply big_mul_ok in E; [|apply Ha|apply Hb].
  destruct E as (Hu & Hl & E). unfold to_Z, w64; cbn [up lo].
  assert (P : (up a * 2 ^ 64 + lo a) * (up b * 2 ^ 64 + lo b)
    = up a * up b * 2 ^ 128 + (up a * lo b + lo a * up b) * 2 ^ 64 + lo a * lo b)
    by (pows; ring).
  rewrite P, <- E. clear P E Ha Hb.
  generalize (up a * up b) (up a * lo b) (lo a * up b). intros x y z.
  unfold B64 in *. pows. lia.
Qed.

(** ** Shifts *)
Lemma shl_ok a n : wf128 a -> 0 <= n -> n <> 128 ->
  exists r, u128_shl a n = Ret r /\ wf128 r /\ to_Z r = (to_Z a * 2 ^ n) mod 2 ^ 128.
Proof.
  intros Ha Hn H128. unfold u128_shl.
  destruct (Z.eqb_spec n 0) as [->|Hn0].
  { exists a. repeat split; try apply Ha. pose proof (to_Z_range a Ha).
    rewrite Z.mul_1_r, Z.mod_small; lia. }
  destruct Ha as [Hu Hl].
  destruct (Z.geb n 64 && Z.leb n 128) eqn:C.
  { unfold shl64. destruct ((0 <=? n - 64) && (n - 64 <? 64)) eqn:C2; [|lia].
    cbn [bind]. eexists. split; [reflexivity|]. unfold w64.
    split. { unfold wf128; cbn [up lo]. pows. lia. }
    unfold to_Z; cbn [up lo]. rewrite shl_mul by lia.
    replace n with (64 + (n - 64)) at 2 by lia. rewrite pow2_split by lia.
    set (p := 2 ^ (n - 64)).
    change (2 ^ 128) with (2 ^ 64 * 2 ^ 64).
    replace ((up a * 2 ^ 64 + lo a) * (2 ^ 64 * p)) with
      ((up a * 2 ^ 64 * p + lo a * p) * 2 ^ 64) by ring.
    rewrite mod_mul_split by (pows; lia).
    replace (up a * 2 ^ 64 * p + lo a * p) with (lo a * p + (up a * p) * 2 ^ 64) by ring.
    rewrite Z.mod_add by (pows; lia). lia. }
  destruct ((n <? 64) && (n >? 0)) eqn:C2.
  { unfold shl64, shr64.
    destruct ((0 <=? n) && (n <? 64)) eqn:C3; [|lia].
    destruct ((0 <=? 64 - n) && (64 - n <? 64)) eqn:C4; [|lia].
    cbn [bind]. eexists. split; [reflexivity|].
    rewrite !shl_mul, shr_div by lia.
    assert (E64 : 2 ^ 64 = 2 ^ n * 2 ^ (64 - n)) by (rewrite <- pow2_split by lia; f_equal; lia).
    assert (Hp : 0 < 2 ^ n) by (apply pow2_pos; lia).
    assert (Hq : 0 < 2 ^ (64 - n)) by (apply pow2_pos; lia).
    set (p := 2 ^ n) in *. set (q := 2 ^ (64 - n)) in *.
    unfold w64. split. { unfold wf128; cbn [up lo]. split; apply Z.mod_pos_bound; pows; lia. }
    unfold to_Z; cbn [up lo].
    rewrite Z.add_mod_idemp_l by (pows; lia).
    assert (Hlo : lo a = lo a / q * q + lo a mod q) by (rewrite (Z.div_mod (lo a) q) at 1; lia).
    assert (El : (lo a * p) mod 2 ^ 64 = (lo a mod q) * p).
    { rewrite E64. apply mod_mul_split; lia. }
    rewrite El.
    assert (Eb : (up a * 2 ^ 64 + lo a) * p
       = (up a * p + lo a / q) * 2 ^ 64 + (lo a mod q) * p).
    { rewrite Hlo at 1. rewrite E64. ring. }
    rewrite Eb.
    assert (Hm : 0 <= (lo a mod q) * p < 2 ^ 64).
    { rewrite E64. pose proof (Z.mod_pos_bound (lo a) q Hq). nia. }
    generalize dependent ((lo a mod q) * p). generalize (up a * p + lo a / q). intros x y _ _ Hy.
    pows. lia. }
  exists (mk128 0 0). split; [reflexivity|]. split. { unfold wf128; cbn [up lo]. pows. lia. }
  replace n with (128 + (n - 128)) by lia. rewrite pow2_split by lia.
  replace (to_Z a * (2 ^ 128 * 2 ^ (n - 128))) with ((to_Z a * 2 ^ (n - 128)) * 2 ^ 128) by ring.
  rewrite Z.mod_mul by (pows; lia). reflexivity.
Qed.

Lemma shl_128 a : u128_shl a 128 = UB BadShift.
Proof. reflexivity. Qed.
Lemma shr_128 a : u128_shr a 128 = UB BadShift.
Proof. reflexivity. Qed.

Lemma shr_ok a n : wf128 a -> 0 <= n -> n <> 128 ->
  exists r, u128_shr a n = Ret r /\ wf128 r /\ to_Z r = to_Z a / 2 ^ n.
Proof.
  intros Ha Hn H128. unfold u128_shr.
  destruct (Z.eqb_spec n 0) as [->|Hn0].
  { exists a. repeat split; try apply Ha. rewrite Z.div_1_r. reflexivity. }
  pose proof (to_Z_range a Ha) as HR. destruct Ha as [Hu Hl].
  destruct (Z.geb n 64 && Z.leb n 128) eqn:C.
  { unfold shr64. destruct ((0 <=? n - 64) && (n - 64 <? 64)) eqn:C2; [|lia].
    cbn [bind]. eexists. split; [reflexivity|]. rewrite shr_div by lia.
    assert (Hp : 0 < 2 ^ (n - 64)) by (apply pow2_pos; lia).
    split.
    { unfold wf128; cbn [up lo]. split; [pows; lia|]. split; [apply Z.div_pos; lia|].
      apply Z.div_lt_upper_bound; [lia|]. pows. nia. }
    unfold to_Z; cbn [up lo]. replace n with (64 + (n - 64)) at 2 by lia.
    rewrite pow2_split by lia. rewrite <- Z.div_div by (pows; lia).
    replace ((up a * 2 ^ 64 + lo a) / 2 ^ 64) with (up a) by (pows; lia). lia. }
  destruct ((n <? 64) && (n >? 0)) eqn:C2.
  { unfold shl64, shr64.
    destruct ((0 <=? n) && (n <? 64)) eqn:C3; [|lia].
    destruct ((0 <=? 64 - n) && (64 - n <? 64)) eqn:C4; [|lia].
    cbn [bind]. eexists. split; [reflexivity|].
    rewrite !shl_mul, !shr_div by lia.
    assert (E64 : 2 ^ 64 = 2 ^ (64 - n) * 2 ^ n) by (rewrite <- pow2_split by lia; f_equal; lia).
    assert (Hp : 0 < 2 ^ n) by (apply pow2_pos; lia).
    assert (Hq : 0 < 2 ^ (64 - n)) by (apply pow2_pos; lia).
    set (p := 2 ^ n) in *. set (q := 2 ^ (64 - n)) in *.
    assert (El : (up a * q) mod 2 ^ 64 = (up a mod p) * q).
    { rewrite E64. apply mod_mul_split; lia. }
    unfold w64. rewrite El.
    assert (Hlq : 0 <= lo a / p < q).
    { split; [apply Z.div_pos; lia|]. apply Z.div_lt_upper_bound; [lia|]. lia. }
    assert (Hm : 0 <= up a mod p < p) by (apply Z.mod_pos_bound; lia).
    rewrite (Z.mod_small (lo a / p + up a mod p * q)) by (rewrite E64; nia).
    assert (Hup : 0 <= up a / p < 2 ^ 64).
    { split; [apply Z.div_pos; lia|]. apply Z.div_lt_upper_bound; [lia|]. nia. }
    split. { unfold wf128; cbn [up lo]. split; [exact Hup|]. rewrite E64. nia. }
    unfold to_Z; cbn [up lo].
    replace (up a * 2 ^ 64 + lo a) with (lo a + (up a * q) * p) by (rewrite E64; ring).
    rewrite Z.div_add by lia.
    assert (up a = p * (up a / p) + up a mod p) by (apply Z.div_mod; lia).
    rewrite E64. nia. }
  exists (mk128 0 0). split; [reflexivity|]. split. { unfold wf128; cbn [up lo]. pows. lia. }
  rewrite Z.div_small; [reflexivity|]. split; [lia|].
  apply Z.lt_le_trans with (2 ^ 128); [lia|]. apply Z.pow_le_mono_r; lia.
Qed.

Lemma shl_neg a n : n < 0 -> u128_shl a n = Ret (mk128 0 0).
Proof.
  intros H. unfold u128_shl. destruct (Z.eqb_spec n 0); [lia|].
  destruct ((n >=? 64) && (n <=? 128)) eqn:?; [lia|].
  destruct ((n <? 64) && (n >? 0)) eqn:?; [lia|]. reflexivity.
Qed.
Lemma shr_neg a n : n < 0 -> u128_shr a n = Ret (mk128 0 0).
Proof.
  intros H. unfold u128_shr. destruct (Z.eqb_spec n 0); [lia|].
  destruct ((n >=? 64) && (n <=? 128)) eqn:?; [lia|].
  destruct ((n <? 64) && (n >? 0)) eqn:?; [lia|]. reflexivity.
Qed.

(** ** Bitwise *)
Lemma testbit_halves u l n : 0 <= l < 2 ^ 64 -> 0 <= n ->
  Z.testbit (u * 2 ^ 64 + l) n = if n <? 64 then Z.testbit l n else Z.testbit u (n - 64).
Proof.
  intros Hl Hn. rewrite <- lor_add, Z.lor_spec by lia.
  destruct (Z.ltb_spec n 64).
  - rewrite Z.mul_pow2_bits_low by lia. reflexivity.
  - rewrite Z.mul_pow2_bits by lia.
    destruct (Z.eq_dec l 0) as [->|]; [rewrite Z.bits_0, orb_false_r; reflexivity|].
    rewrite (Z.bits_above_log2 l n), orb_false_r; [reflexivity|lia|].
    apply Z.lt_le_trans with 64; [apply Z.log2_lt_pow2; lia|lia].
Qed.

Lemma land_range a b k : 0 <= k -> 0 <= a < 2 ^ k -> 0 <= b < 2 ^ k -> 0 <= Z.land a b < 2 ^ k.
Proof.
  intros Hk Ha Hb. split; [apply Z.land_nonneg; lia|].
  destruct (Z.eq_dec (Z.land a b) 0) as [->|]; [lia|].
  assert (0 <= Z.land a b) by (apply Z.land_nonneg; lia).
  apply Z.log2_lt_pow2; [lia|]. eapply Z.le_lt_trans; [apply Z.log2_land; lia|].
  destruct (Z.eq_dec a 0) as [->|]; [rewrite Z.land_0_l in *; lia|].
  destruct (Z.eq_dec b 0) as [->|]; [rewrite Z.land_0_r in *; lia|].
  pose proof (proj1 (Z.log2_lt_pow2 a k ltac:(lia)) ltac:(lia)). lia.
Qed.
Lemma lor_range a b k : 0 <= k -> 0 <= a < 2 ^ k -> 0 <= b < 2 ^ k -> 0 <= Z.lor a b < 2 ^ k.
Proof.
  intros Hk Ha Hb. split; [apply Z.lor_nonneg; lia|].
  destruct (Z.eq_dec (Z.lor a b) 0) as [->|]; [lia|].
  assert (0 <= Z.lor a b) by (apply Z.lor_nonneg; lia).
  apply Z.log2_lt_pow2; [lia|]. rewrite Z.log2_lor by lia.
  assert (forall x, 0 <= x < 2 ^ k -> k = 0 \/ Z.log2 x < k).
  { intros x Hx. destruct (Z.eq_dec x 0) as [->|]; [cbn; lia|].
    right. apply Z.log2_lt_pow2; lia. }
  destruct (H0 a Ha), (H0 b Hb); try lia; subst k; cbn in *;
  assert (a = 0) by lia; assert (b = 0) by lia; subst; cbn in *; lia.
Qed.
Lemma lxor_range a b k : 0 <= k -> 0 <= a < 2 ^ k -> 0 <= b < 2 ^ k -> 0 <= Z.lxor a b < 2 ^ k.
Proof.
  intros Hk Ha Hb. assert (0 <= Z.lxor a b) by (apply Z.lxor_nonneg; lia). split; [lia|].
  destruct (Z.eq_dec (Z.lxor a b) 0) as [->|]; [lia|].
  apply Z.log2_lt_pow2; [lia|]. eapply Z.le_lt_trans; [apply Z.log2_lxor; lia|].
  assert (forall x, 0 <= x < 2 ^ k -> k = 0 \/ Z.log2 x < k).
  { intros x Hx. destruct (Z.eq_dec x 0) as [->|]; [cbn; lia|].
    right. apply Z.log2_lt_pow2; lia. }
  destruct (H0 a Ha), (H0 b Hb); try lia; subst k; cbn in *;
  assert (a = 0) by lia; assert (b = 0) by lia; subst; cbn in *; lia.
Qed.

Lemma and_wf a b : wf128 a -> wf128 b -> wf128 (u128_and a b).
Proof. intros [? ?] [? ?]. split; cbn [up lo u128_and]; apply land_range; lia. Qed.
Lemma or_wf a b : wf128 a -> wf128 b -> wf128 (u128_or a b).
Proof. intros [? ?] [? ?]. split; cbn [up lo u128_or]; apply lor_range; lia. Qed.
Lemma xor_wf a b : wf128 a -> wf128 b -> wf128 (u128_xor a b).
Proof. intros [? ?] [? ?]. split; cbn [up lo u128_xor]; apply lxor_range; lia. Qed.

Lemma and_ok a b : wf128 a -> wf128 b -> to_Z (u128_and a b) = Z.land (to_Z a) (to_Z b).
Proof.
  intros Ha Hb. pose proof (and_wf a b Ha Hb) as [_ Hl]. destruct Ha, Hb.
  apply Z.bits_inj'. intros n Hn. rewrite Z.land_spec. unfold to_Z.
  rewrite !testbit_halves by assumption. cbn [u128_and up lo]. destruct (n <? 64); apply Z.land_spec.
Qed.
Lemma or_ok a b : wf128 a -> wf128 b -> to_Z (u128_or a b) = Z.lor (to_Z a) (to_Z b).
Proof.
  intros Ha Hb. pose proof (or_wf a b Ha Hb) as [_ Hl]. destruct Ha, Hb.
  apply Z.bits_inj'. intros n Hn. rewrite Z.lor_spec. unfold to_Z.
  rewrite !testbit_halves by assumption. cbn [u128_or up lo]. destruct (n <? 64); apply Z.lor_spec.
Qed.
Lemma xor_ok a b : wf128 a -> wf128 b -> to_Z (u128_xor a b) = Z.lxor (to_Z a) (to_Z b).
Proof.
  intros Ha Hb. pose proof (xor_wf a b Ha Hb) as [_ Hl]. destruct Ha, Hb.
  apply Z.bits_inj'. intros n Hn. rewrite Z.lxor_spec. unfold to_Z.
  rewrite !testbit_halves by assumption. cbn [u128_xor up lo]. destruct (n <? 64); apply Z.lxor_spec.
Qed.

(** ** Comparisons *)
Lemma eqb_ok a b : wf128 a -> wf128 b -> u128_eqb a b = (to_Z a =? to_Z b).
Proof. unfold wf128, u128_eqb, to_Z. intros. pows. lia. Qed.
Lemma ltb_ok a b : wf128 a -> wf128 b -> u128_ltb a b = (to_Z a <? to_Z b).
Proof. unfold wf128, u128_ltb, to_Z. intros. pows. lia. Qed.
Lemma gtb_ok a b : wf128 a -> wf128 b -> u128_gtb a b = (to_Z a >? to_Z b).
Proof. intros. unfold u128_gtb. rewrite ltb_ok by assumption. rewrite Z.gtb_ltb. reflexivity. Qed.
Lemma leb_ok a b : wf128 a -> wf128 b -> u128_leb a b = (to_Z a <=? to_Z b).
Proof. intros. unfold u128_leb. rewrite ltb_ok by assumption. lia. Qed.
Lemma geb_ok a b : wf128 a -> wf128 b -> u128_geb a b = (to_Z a >=? to_Z b).
Proof. intros. unfold u128_geb. rewrite ltb_ok by assumption. lia. Qed.
Lemma cmp_ok a b : wf128 a -> wf128 b -> u128_cmp a b = (to_Z a ?= to_Z b).
Proof.
  unfold wf128, u128_cmp, to_Z. intros Ha Hb. symmetry.
  destruct (Z.compare_spec (up a) (up b)).
  - destruct (Z.compare_spec (lo a) (lo b)).
    + apply Z.compare_eq_iff. lia.
    + apply Z.compare_lt_iff. lia.
    + apply Z.compare_gt_iff. lia.
  - apply Z.compare_lt_iff. pows. lia.
  - apply Z.compare_gt_iff. pows. lia.
Qed.
Lemma bool_ok a : wf128 a -> u128_bool a = negb (to_Z a =? 0).
Proof. unfold wf128, u128_bool, to_Z. intros. pows. lia. Qed.
Lemma lognot_ok a : wf128 a -> u128_lognot a = (to_Z a =? 0).
Proof. unfold wf128, u128_lognot, to_Z. intros. pows. lia. Qed.

(** ** Integral conversions *)
Lemma to_unsigned_ok n a : 0 <= n <= 64 -> u128_to_unsigned n a = to_Z a mod 2 ^ n.
Proof.
  intros Hn. unfold u128_to_unsigned, to_Z.
  replace 64 with (n + (64 - n)) by lia. rewrite pow2_split by lia.
  replace (up a * (2 ^ n * 2 ^ (64 - n)) + lo a) with (lo a + (up a * 2 ^ (64 - n)) * 2 ^ n) by ring.
  rewrite Z.mod_add; [reflexivity|]. pose proof (pow2_pos n). lia.
Qed.
