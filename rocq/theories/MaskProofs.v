(** Netmask texts. *)
From Verif Require Import Base Tac TextProofs UnicodeModel FixedStringModel V4Model V6Model Uint128Model SpecInt Uint128Proofs Uint128Div2
  SpecText SpecAddr SpecStr SpecV4 SpecV6 StrProofs V4Proofs BufProofs BitProofs FixedStringProofs V4Lemmas V6Proofs V6Full V6Lemmas
  AddressModel SpecOrder AddressProofs NetworkModel SpecNet NetProofs NetProofs2 NetProofs3.

(** *** count_righthand_zero_bits *)
Lemma odd_part x : 0 < x -> exists t q, 0 <= t /\ 0 <= q /\ x = 2 ^ t * (2 * q + 1).
Proof.
  intros H. destruct x as [|p|p]; try lia. clear H. induction p as [p _|p IH|].
  - exists 0, (Z.pos p). repeat split; lia.
  - destruct IH as (t & q & Ht & Hq & E). exists (t + 1), q. repeat split; [lia|lia|].
    rewrite Z.pow_add_r by lia. change (2 ^ 1) with 2. lia.
  - exists 0, 0. repeat split; lia.
Qed.
Lemma land_split t a b x y : 0 <= t -> 0 <= x < 2 ^ t -> 0 <= y < 2 ^ t ->
  Z.land (a * 2 ^ t + x) (b * 2 ^ t + y) = Z.land a b * 2 ^ t + Z.land x y.
Proof.
  intros Ht Hx Hy. assert (R : 0 <= Z.land x y < 2 ^ t) by (apply land_lt; lia).
  rewrite <- !lor_add by lia. apply Z.bits_inj'. intros n Hn.
  rewrite ?Z.land_spec, ?Z.lor_spec, ?Z.land_spec.
  destruct (Z.ltb_spec n t).
  - rewrite !Z.mul_pow2_bits_low by lia. cbn [orb]. reflexivity.
  - rewrite !Z.mul_pow2_bits by lia. rewrite Z.land_spec.
    assert (forall z, 0 <= z < 2 ^ t -> Z.testbit z n = false) as A.
    { intros z Hz. destruct (Z.eq_dec z 0) as [->|]; [apply Z.bits_0|]. apply Z.bits_above_log2; [lia|].
      assert (Z.log2 z < t) by (apply Z.log2_lt_pow2; lia). lia. }
    rewrite !A by assumption. rewrite !orb_false_r. reflexivity.
Qed.
Lemma land_w32 x y : 0 <= y < 2 ^ 32 -> Z.land (w32 x) y = Z.land x y.
Proof.
  intros H. unfold w32. rewrite <- Z.land_ones by lia. rewrite <- Z.land_assoc. f_equal. rewrite Z.land_comm, Z.land_ones by lia.
  apply Z.mod_small. exact H.
Qed.
Lemma low_bits t q : 0 <= t -> 0 <= q -> Z.land (Z.lnot (2 ^ t * (2 * q + 1))) (2 ^ t * (2 * q + 1) - 1) = 2 ^ t - 1.
Proof.
  intros Ht Hq. pose proof (pow2_pos t Ht).
  replace (Z.lnot (2 ^ t * (2 * q + 1))) with (Z.lnot (2 * q + 1) * 2 ^ t + (2 ^ t - 1)) by (unfold Z.lnot; lia).
  replace (2 ^ t * (2 * q + 1) - 1) with (2 * q * 2 ^ t + (2 ^ t - 1)) by lia.
  rewrite land_split by lia. rewrite Z.land_diag.
  replace (Z.land (Z.lnot (2 * q + 1)) (2 * q)) with 0; [lia|].
  replace (Z.lnot (2 * q + 1)) with (Z.lnot q * 2 ^ 1 + 0) by (unfold Z.lnot; lia).
  replace (2 * q) with (q * 2 ^ 1 + 0) by lia. rewrite land_split by lia.
  rewrite Z.land_comm. replace (Z.land q (Z.lnot q)) with 0; [reflexivity|]. symmetry. apply Z.bits_inj'. intros n Hn.
  rewrite Z.land_spec, Z.lnot_spec, Z.bits_0 by lia. apply andb_negb_r.
Qed.
Lemma popcount_ones : forall k t c, 0 <= t <= Z.of_nat k -> popcount_loop k (2 ^ t - 1) c = Ret (c + t).
Proof.
  induction k as [|k IH]; intros t c Ht.
  - replace t with 0 by lia. cbn. f_equal. lia.
  - destruct (Z.eq_dec t 0) as [->|N]; [cbn; f_equal; lia|].
    assert (E : 2 ^ t - 1 = 2 * (2 ^ (t - 1) - 1) + 1).
    { replace t with (1 + (t - 1)) at 1 by lia. rewrite Z.pow_add_r by lia. lia. }
    pose proof (pow2_pos (t - 1) ltac:(lia)). cbn [popcount_loop]. destruct (Z.eqb_spec (2 ^ t - 1) 0); [lia|].
    replace (Z.shiftr (2 ^ t - 1) 1) with (2 ^ (t - 1) - 1) by (rewrite Z.shiftr_div_pow2 by lia; change (2 ^ 1) with 2; lia).
    replace (Z.land (2 ^ t - 1) 1) with 1 by (change 1 with (Z.ones 1) at 3; rewrite Z.land_ones by lia; change (2 ^ 1) with 2; lia).
    rewrite IH by lia. f_equal. lia.
Qed.
Lemma odd_small t q : 0 <= t -> 0 <= q -> 2 ^ t * (2 * q + 1) < 2 ^ 32 -> t < 32.
Proof.
  intros Ht Hq H. destruct (Z.lt_ge_cases t 32) as [|K]; [assumption|].
  pose proof (Z.pow_le_mono_r 2 32 t ltac:(lia) K). nia.
Qed.
Lemma zero_bits t q : 0 <= t -> 0 <= q -> 2 ^ t * (2 * q + 1) < 2 ^ 32 ->
  count_righthand_zero_bits (2 ^ t * (2 * q + 1)) 32 = Ret t.
Proof.
  intros Ht Hq H. pose proof (odd_small t q Ht Hq H). pose proof (pow2_pos t Ht). unfold count_righthand_zero_bits.
  assert (0 < 2 ^ t * (2 * q + 1)) by nia. set (x := 2 ^ t * (2 * q + 1)) in *.
  destruct (Z.eqb_spec x 0); [lia|]. replace (w32 (x - 1)) with (x - 1) by (symmetry; apply Z.mod_small; lia).
  rewrite land_w32 by lia. unfold x. rewrite low_bits by assumption. rewrite popcount_ones by lia. cbn [bind].
  destruct (Z.ltb_spec 32 (0 + t)); [lia|]. f_equal.
Qed.
(** *** prefix_from_ip_uint32: netmasks only; zero is undefined behaviour *)
Lemma prefix_from_ip_spec x : 0 < x < 2 ^ 32 ->
  (exists p, 1 <= p <= 32 /\ x = 2 ^ 32 - 2 ^ (32 - p) /\ prefix_from_ip_uint32 x = Ret p) \/
  (~ (exists p, 0 <= p <= 32 /\ x = 2 ^ 32 - 2 ^ (32 - p)) /\
   prefix_from_ip_uint32 x = Err netmask_pattern_mixes_zeroes_and_ones 0).
Proof.
  intros Hx. destruct (odd_part x ltac:(lia)) as (t & q & Ht & Hq & E). pose proof (pow2_pos t Ht) as Pt.
  assert (T : t < 32) by (apply (odd_small t q); lia).
  assert (D : x / 2 ^ t = 2 * q + 1) by (rewrite E, Z.mul_comm; apply Z.div_mul; lia).
  assert (P32 : 2 ^ 32 = 2 ^ (32 - t) * 2 ^ t) by (apply pow_div; lia).
  assert (R : prefix_from_ip_uint32 x =
    if negb (2 * q + 1 =? 2 ^ (32 - t) - 1) then Err netmask_pattern_mixes_zeroes_and_ones 0 else Ret (32 - t)).
  { unfold prefix_from_ip_uint32. rewrite E, zero_bits by lia. rewrite <- E. cbn [bind].
    destruct (Z.eqb_spec t 32); [lia|]. cbn [negb]. unfold shr32. destruct ((0 <=? t) && (t <? 32)) eqn:G; [|lia]. cbn [bind].
    rewrite Z.shiftr_div_pow2, D by lia.
    assert (W : w64 (32 - t) = 32 - t) by (apply Z.mod_small; lia). rewrite W.
    assert (W' : w64 (32 - t - 1) = 31 - t) by (unfold w64; rewrite Z.mod_small; lia). rewrite W'. unfold shl32.
    destruct ((0 <=? 31 - t) && (31 - t <? 32)) eqn:G'; [|lia]. cbn [bind Z.leb Z.ltb Z.compare andb].
    rewrite (Z.shiftl_mul_pow2 1) by lia. rewrite Z.mul_1_l.
    assert (Q : 2 ^ (31 - t) < 2 ^ 32) by (apply Z.pow_lt_mono_r; lia). pose proof (pow2_pos (31 - t) ltac:(lia)).
    assert (W2 : w32 (2 ^ (31 - t)) = 2 ^ (31 - t)) by (apply Z.mod_small; lia). rewrite W2.
    change (1 <? 32) with true. cbn [bind].
    replace (w32 (w32 (Z.shiftl (2 ^ (31 - t)) 1) - 1)) with (2 ^ (32 - t) - 1); [reflexivity|].
    rewrite Z.shiftl_mul_pow2 by lia. replace (2 ^ (31 - t) * 2 ^ 1) with (2 ^ (32 - t)).
    2:{ rewrite <- Z.pow_add_r by lia. f_equal. lia. }
    unfold w32. rewrite Zminus_mod_idemp_l. symmetry. apply Z.mod_small.
    pose proof (pow2_pos (32 - t) ltac:(lia)). pose proof (Z.pow_le_mono_r 2 (32 - t) 32 ltac:(lia) ltac:(lia)). lia. }
  rewrite R. destruct (Z.eqb_spec (2 * q + 1) (2 ^ (32 - t) - 1)) as [Q|Q]; cbn [negb].
  - left. exists (32 - t). split; [lia|]. split; [|reflexivity]. replace (32 - (32 - t)) with t by lia. rewrite E, Q, P32. ring.
  - right. split; [|reflexivity]. intros (p & Hp & Ep).
    assert (p <> 0) by (intros ->; change (32 - 0) with 32 in Ep; lia).
    (* x = 2^(32-p) * (2^p - 1): odd part unique *)
    set (k := 32 - p) in *. assert (Ep' : x = 2 ^ k * (2 ^ (32 - k) - 1)).
    { rewrite Ep, Z.mul_sub_distr_l, <- Z.pow_add_r by lia. replace (k + (32 - k)) with 32 by lia. lia. }
    assert (Od : exists r, 2 ^ (32 - k) - 1 = 2 * r + 1).
    { exists (2 ^ (31 - k) - 1). replace (32 - k) with (1 + (31 - k)) by lia. rewrite Z.pow_add_r by lia. lia. }
    destruct Od as [r Er]. rewrite Er in Ep'. assert (k = t /\ 2 * q + 1 = 2 * r + 1) as [Ek Eq].
    { rewrite E in Ep'. clear - Ep' Ht Hp Pt. assert (0 <= k) by (unfold k; lia). clearbody k. pose proof (pow2_pos k ltac:(lia)).
      destruct (Z.lt_trichotomy k t) as [L|[L|L]].
      - replace t with (k + (1 + (t - k - 1))) in Ep' by lia. rewrite Z.pow_add_r, (Z.pow_add_r 2 1) in Ep' by lia. change (2 ^ 1) with 2 in Ep'.
        rewrite <- Z.mul_assoc in Ep'. apply Z.mul_reg_l in Ep'; lia.
      - subst. apply Z.mul_reg_l in Ep'; lia.
      - replace k with (t + (1 + (k - t - 1))) in Ep' by lia. rewrite Z.pow_add_r, (Z.pow_add_r 2 1) in Ep' by lia. change (2 ^ 1) with 2 in Ep'.
        rewrite <- (Z.mul_assoc (2 ^ t)) in Ep'. apply Z.mul_reg_l in Ep'; lia. }
    subst t. rewrite Er in Q. lia.
Qed.
Lemma prefix_from_ip_zero : prefix_from_ip_uint32 0 = UB BadShift.
Proof. reflexivity. Qed.

(** *** The digit loops *)
Lemma w64_step a c : w64 (w64 (w64 a * 10) + (c - 48)) = w64 (a * 10 + (c - 48)).
Proof. unfold w64. rewrite Zplus_mod_idemp_l, <- (Zplus_mod_idemp_l (a mod _ * 10)), Zmult_mod_idemp_l, Zplus_mod_idemp_l. reflexivity. Qed.
Lemma dec_digit_b c : is_dec_digit c <-> (c >=? 48) && (c <=? 57) = true.
Proof. unfold is_dec_digit. lia. Qed.
Lemma digits_all : forall m acc, Forall is_dec_digit m ->
  netmask_digits (chars m) (w64 acc) = Ret (true, w64 (horner 10 acc (map (fun c => c - 48) m))) /\
  v6_netmask_digits (chars m) (w64 acc) = Ret (w64 (horner 10 acc (map (fun c => c - 48) m))).
Proof.
  induction m as [|c m IH]; intros acc H; [split; reflexivity|]. inversion H as [|? ? Hc Hm]. subst.
  apply dec_digit_b in Hc. cbn [chars map netmask_digits v6_netmask_digits horner]. rewrite Hc.
  rewrite w64_step. apply IH. exact Hm.
Qed.
Lemma digits_stop : forall p ts acc, Forall is_dec_digit p -> (forall c ts', ts = Ch c :: ts' -> ~ is_dec_digit c) -> ts <> [] ->
  (exists x, netmask_digits (chars p ++ ts) acc = Ret (false, x)) \/
  (exists e x, netmask_digits (chars p ++ ts) acc = Err e x /\ exists r, ts = Bad e x :: r).
Proof.
  induction p as [|c p IH]; intros ts acc H Hn Ht.
  - destruct ts as [|[c|e x] ts]; [contradiction| |right; exists e, x; split; [reflexivity|eauto]].
    left. cbn [chars map app netmask_digits]. specialize (Hn c ts eq_refl). rewrite dec_digit_b in Hn.
    destruct ((c >=? 48) && (c <=? 57)); [contradiction|]. eauto.
  - inversion H as [|? ? Hc Hp]. subst. apply dec_digit_b in Hc. cbn [chars map app netmask_digits]. rewrite Hc. apply IH; assumption.
Qed.
Lemma digits6_stop : forall p ts acc, Forall is_dec_digit p -> (forall c ts', ts = Ch c :: ts' -> ~ is_dec_digit c) -> ts <> [] ->
  exists e x, v6_netmask_digits (chars p ++ ts) acc = Err e x.
Proof.
  induction p as [|c p IH]; intros ts acc H Hn Ht.
  - destruct ts as [|[c|e x] ts]; [contradiction| |eexists _, _; reflexivity].
    cbn [chars map app v6_netmask_digits]. specialize (Hn c ts eq_refl). rewrite dec_digit_b in Hn.
    destruct ((c >=? 48) && (c <=? 57)); [contradiction|]. eauto.
  - inversion H as [|? ? Hc Hp]. subst. apply dec_digit_b in Hc. cbn [chars map app v6_netmask_digits]. rewrite Hc. apply IH; assumption.
Qed.
(** Every token list: all digits, or digits and then something else. *)
Lemma split_digits : forall ts, (exists m, ts = chars m /\ Forall is_dec_digit m) \/
  (exists p r, ts = chars p ++ r /\ Forall is_dec_digit p /\ r <> [] /\ forall c r', r = Ch c :: r' -> ~ is_dec_digit c).
Proof.
  induction ts as [|[c|e x] ts IH].
  - left. exists []. split; [reflexivity|constructor].
  - destruct (Z_le_dec 48 c), (Z_le_dec c 57).
    + destruct IH as [(m & -> & Hm)|(p & r & -> & Hp & Hr & Hc)].
      * left. exists (c :: m). split; [reflexivity|]. constructor; [unfold is_dec_digit; lia|exact Hm].
      * right. exists (c :: p), r. split; [reflexivity|]. split; [constructor; [unfold is_dec_digit; lia|exact Hp]|]. auto.
    + right. exists [], (Ch c :: ts). split; [reflexivity|]. split; [constructor|]. split; [discriminate|].
      intros c' r' [= <- <-]. unfold is_dec_digit. lia.
    + right. exists [], (Ch c :: ts). split; [reflexivity|]. split; [constructor|]. split; [discriminate|].
      intros c' r' [= <- <-]. unfold is_dec_digit. lia.
    + right. exists [], (Ch c :: ts). split; [reflexivity|]. split; [constructor|]. split; [discriminate|].
      intros c' r' [= <- <-]. unfold is_dec_digit. lia.
  - right. exists [], (Bad e x :: ts). split; [reflexivity|]. split; [constructor|]. split; [discriminate|]. discriminate.
Qed.
Lemma dec_text_iff m x : dec_text m x <-> m <> [] /\ Forall is_dec_digit m /\ x = dval m.
Proof.
  unfold dec_text. split.
  - intros (N & ds & H & <-). apply digits10_iff in H as [H ->]. auto.
  - intros (N & H & ->). split; [exact N|]. eexists. split; [apply digits10_iff; split; [exact H|reflexivity]|reflexivity].
Qed.
Lemma dec_text_nonneg m x : dec_text m x -> 0 <= x.
Proof.
  intros (_ & ds & H & <-). pose proof (horner_range 10 ltac:(lia) ds (digits_of_range 10 m ds H)). lia.
Qed.
Lemma quad_not_digits q bs : dotted_quad q bs -> ~ Forall is_dec_digit q.
Proof.
  intros (sa & sb & sc & sd & a & b & c & d & _ & _ & _ & _ & -> & _) H. apply Forall_app in H as [_ H]. inversion H as [|? ? K _].
  unfold is_dec_digit in K. lia.
Qed.

(** *** parse_netmask *)
(** What the parser accepts: decimal numbers modulo 2^64. *)
Definition mask_accepted (v : ver) (ts : list tok) (p : Z) : Prop :=
  (ts = [] /\ p = width v) \/
  (exists m x, ts = chars m /\ dec_text m x /\ p = x mod 2 ^ 64 /\ p <= width v) \/
  (v = V4 /\ exists m q, ts = chars m /\ dotted_quad m q /\
     ((1 <= p <= 32 /\ be_value q = 2 ^ 32 - 2 ^ (32 - p)) \/ (1 <= p <= 31 /\ be_value q = 2 ^ (32 - p) - 1))).
Definition mask_undefined (v : ver) (ts : list tok) : Prop := v = V4 /\ exists m, ts = chars m /\ dotted_quad m [0; 0; 0; 0].

Lemma lxor_all x : 0 <= x < 2 ^ 32 -> Z.lxor x v4_all_ones = 2 ^ 32 - 1 - x.
Proof.
  intros H. unfold v4_all_ones. change (2 ^ 32 - 1) with (Z.ones 32).
  assert (E : Z.lxor x (Z.ones 32) = Z.ldiff (Z.ones 32) x).
  { apply Z.bits_inj'. intros n Hn. rewrite Z.lxor_spec, Z.ldiff_spec. destruct (Z.ltb_spec n 32).
    - rewrite Z.ones_spec_low by lia. destruct (Z.testbit x n); reflexivity.
    - rewrite Z.ones_spec_high by lia. destruct (Z.eq_dec x 0) as [->|]; [rewrite Z.bits_0; reflexivity|].
      rewrite (Z.bits_above_log2 x); [reflexivity|lia|]. assert (Z.log2 x < 32) by (apply Z.log2_lt_pow2; lia). lia. }
  rewrite E. symmetry. apply Z.sub_nocarry_ldiff. apply Z.bits_inj'. intros n Hn. rewrite Z.ldiff_spec, Z.bits_0.
  destruct (Z.ltb_spec n 32).
  - rewrite Z.ones_spec_low by lia. apply andb_false_r.
  - destruct (Z.eq_dec x 0) as [->|]; [rewrite Z.bits_0; reflexivity|].
    rewrite (Z.bits_above_log2 x); [reflexivity|lia|]. assert (Z.log2 x < 32) by (apply Z.log2_lt_pow2; lia). lia.
Qed.
Lemma pow_lt_inj a b : 0 <= a -> 0 <= b -> 2 ^ a = 2 ^ b -> a = b.
Proof. intros Ha Hb H. apply (Z.pow_inj_r 2); lia. Qed.
(** The dotted masks. *)
Lemma dotted_mask x : 0 < x < 2 ^ 32 ->
  (exists p, match prefix_from_ip_uint32 x with Err _ _ => match prefix_from_ip_uint32 (Z.lxor x v4_all_ones) with Err e _ => Err e 3 | r => r end | r => r end = Ret p /\
     forall p', p' = p <-> (1 <= p' <= 32 /\ x = 2 ^ 32 - 2 ^ (32 - p')) \/ (1 <= p' <= 31 /\ x = 2 ^ (32 - p') - 1)) \/
  (match prefix_from_ip_uint32 x with Err _ _ => match prefix_from_ip_uint32 (Z.lxor x v4_all_ones) with Err e _ => Err e 3 | r => r end | r => r end
     = Err netmask_pattern_mixes_zeroes_and_ones 3 /\
   ~ exists p, (1 <= p <= 32 /\ x = 2 ^ 32 - 2 ^ (32 - p)) \/ (1 <= p <= 31 /\ x = 2 ^ (32 - p) - 1)).
Proof.
  intros Hx.
  assert (Inj : forall p q, 0 <= p <= 32 -> 0 <= q <= 32 -> 2 ^ (32 - p) = 2 ^ (32 - q) -> p = q).
  { intros p q Hp Hq E. apply pow_lt_inj in E; lia. }
  assert (Par : forall p, p < 32 -> exists r, 2 ^ (32 - p) = 2 * r).
  { intros p Hp. exists (2 ^ (31 - p)). replace (32 - p) with (1 + (31 - p)) by lia. destruct (Z.le_gt_cases p 31); [|lia].
    rewrite Z.pow_add_r by lia. reflexivity. }
  destruct (prefix_from_ip_spec x Hx) as [(p & Hp & Ep & ->)|[Hno ->]].
  - left. exists p. split; [reflexivity|]. intros p'. split.
    + intros ->. left. auto.
    + intros [[Hp' E]|[Hp' E]].
      * apply Inj; [lia|lia|]. lia.
      * exfalso. destruct (Par p' ltac:(lia)) as [r Er]. destruct (Z.eq_dec p 32) as [->|].
        -- change (2 ^ (32 - 32)) with 1 in Ep. pose proof (Z.pow_lt_mono_r 2 (32 - p') 32 ltac:(lia) ltac:(lia) ltac:(lia)). lia.
        -- destruct (Par p ltac:(lia)) as [r' Er']. change (2 ^ 32) with (2 * 2 ^ 31) in Ep. lia.
  - assert (Hne : x <> 2 ^ 32 - 1) by (intros K; apply Hno; exists 32; split; [lia|exact K]).
    rewrite lxor_all by lia. destruct (prefix_from_ip_spec (2 ^ 32 - 1 - x) ltac:(lia)) as [(p & Hp & Ep & ->)|[Hno' ->]].
    + left. assert (p <> 32) by (intros ->; change (2 ^ (32 - 32)) with 1 in Ep; lia).
      exists p. split; [reflexivity|]. intros p'. split.
      * intros ->. right. split; lia.
      * intros [[Hp' E]|[Hp' E]]; [exfalso; apply Hno; exists p'; split; [lia|exact E]|]. apply Inj; lia.
    + right. split; [reflexivity|]. intros (p & [[Hp E]|[Hp E]]); [apply Hno; exists p; split; [lia|exact E]|].
      apply Hno'. exists p. split; lia.
Qed.
Lemma zero_quad q : length q = 4%nat -> Forall is_byte q -> be_value q = 0 -> q = [0; 0; 0; 0].
Proof. intros L F E. apply (be_value_inj V4); [split; assumption|split; [reflexivity|repeat constructor; unfold is_byte; lia]|]. rewrite E. reflexivity. Qed.
Lemma parse_netmask_spec v ts :
  (exists p, 0 <= p <= width v /\ parse_netmask v ts = Ret (mask_of v p, p) /\ forall p', p' = p <-> mask_accepted v ts p') \/
  (exists e x, parse_netmask v ts = Err e x /\ (forall p, ~ mask_accepted v ts p) /\ ~ mask_undefined v ts) \/
  (parse_netmask v ts = UB BadShift /\ mask_undefined v ts).
Proof.
  assert (FP4 : forall p, 0 <= p <= 32 -> v4_from_prefix true p = Ret (a_bytes (mask_of V4 p)) /\ a_scope (mask_of V4 p) = []).
  { intros p Hp. pose proof (from_prefix_of V4 p Hp) as E. unfold ip_from_prefix in E. destruct (v4_from_prefix true p) as [b| |]; try discriminate.
    cbn [bind] in E. apply ret_inj in E. rewrite <- E. auto. }
  assert (FP6 : forall p, 0 <= p <= 128 -> v6_from_prefix p = Ret (a_bytes (mask_of V6 p)) /\ a_scope (mask_of V6 p) = []).
  { intros p Hp. pose proof (from_prefix_of V6 p Hp) as E. unfold ip_from_prefix in E. destruct (v6_from_prefix p) as [b| |]; try discriminate.
    cbn [bind] in E. apply ret_inj in E. rewrite <- E. auto. }
  assert (Eta : forall a, a_scope a = [] -> mk_addr (a_bytes a) [] = a) by (intros [b s] E; cbn in *; subst; reflexivity).
  destruct ts as [|t ts].
  { left. exists (width v). pose proof (width_pos v). split; [lia|]. split.
    - destruct v; unfold parse_netmask, v4_parse_netmask, v6_parse_netmask; cbn [v4_parse_netmask v6_parse_netmask netmask_digits v6_netmask_digits bind Z.gtb Z.compare].
      + destruct (FP4 32 ltac:(lia)) as [-> S0]. cbn [bind]. rewrite Eta by exact S0. reflexivity.
      + destruct (FP6 128 ltac:(lia)) as [-> S0]. cbn [bind]. rewrite Eta by exact S0. reflexivity.
    - intros p'. split; [intros ->; left; auto|].
      intros [[_ ->]|[(m & x & E & [N _] & _)|(_ & m & q & E & Q & _)]]; [reflexivity| |].
      + destruct m; [contradiction|discriminate].
      + destruct m; [|discriminate]. destruct Q as ([|? ?] & ? & ? & ? & ? & ? & ? & ? & _ & _ & _ & _ & K & _); discriminate. }
  assert (Hne : t :: ts <> []) by discriminate. remember (t :: ts) as us eqn:Eu.
  destruct (split_digits us) as [(m & Em & Hm)|(p0 & r & Er & Hp0 & Hr & Hc)].
  - (* all digits *)
    assert (Nm : m <> []) by (intros ->; apply Hne; exact Em).
    assert (Hd : dec_text m (dval m)) by (apply dec_text_iff; auto).
    assert (Uniq : forall p', mask_accepted v us p' -> p' = dval m mod 2 ^ 64 /\ dval m mod 2 ^ 64 <= width v).
    { intros p' [[K _]|[(m' & x & E & D & -> & L)|(_ & m' & q & E & Q & _)]]; [contradiction| |].
      - rewrite Em in E. apply chars_inj in E. subst m'. apply dec_text_iff in D as (_ & _ & ->). auto.
      - rewrite Em in E. apply chars_inj in E. subst m'. exfalso. apply (quad_not_digits _ _ Q Hm). }
    assert (NU : ~ mask_undefined v us).
    { intros (_ & m' & E & Q). rewrite Em in E. apply chars_inj in E. subst m'. apply (quad_not_digits _ _ Q Hm). }
    assert (Rg : 0 <= dval m mod 2 ^ 64) by (apply Z.mod_pos_bound; lia).
    destruct (digits_all m 0 Hm) as [E4 E6]. change (w64 0) with 0 in E4, E6. fold (dval m) in E4, E6.
    assert (PN : parse_netmask v us = if dval m mod 2 ^ 64 >? width v then Err invalid_netmask 0 else
      Ret (mask_of v (dval m mod 2 ^ 64), dval m mod 2 ^ 64)).
    { destruct v; unfold parse_netmask; cbn [width].
      - unfold v4_parse_netmask. rewrite Em, E4. cbn [bind]. rewrite <- Em. unfold w64. destruct (Z.gtb_spec (dval m mod 2 ^ 64) 32); [reflexivity|].
        cbn [bind]. rewrite Eu. destruct (FP4 (dval m mod 2 ^ 64) ltac:(lia)) as [-> S0]. cbn [bind]. rewrite Eta by exact S0. reflexivity.
      - unfold v6_parse_netmask. rewrite Em, E6. cbn [bind]. rewrite <- Em. unfold w64. destruct (Z.gtb_spec (dval m mod 2 ^ 64) 128); [reflexivity|].
        cbn [bind]. rewrite Eu. destruct (FP6 (dval m mod 2 ^ 64) ltac:(lia)) as [-> S0]. cbn [bind]. rewrite Eta by exact S0. reflexivity. }
    rewrite PN. destruct (Z.gtb_spec (dval m mod 2 ^ 64) (width v)).
    + right. left. exists invalid_netmask, 0. split; [reflexivity|]. split; [|exact NU]. intros p' K. apply Uniq in K. lia.
    + left. exists (dval m mod 2 ^ 64). split; [lia|]. split; [reflexivity|]. intros p'. split.
      * intros ->. right. left. exists m, (dval m). auto.
      * intros K. apply Uniq in K. tauto.
  - (* something else than digits *)
    assert (NotDec : forall m x, us = chars m -> ~ dec_text m x).
    { intros m x E D. apply dec_text_iff in D as (_ & D & _). rewrite Er in E.
      destruct r as [|[c|e y] r]; [contradiction| |].
      - apply (Hc c r eq_refl). rewrite Forall_forall in D. apply D.
        assert (In (Ch c) (chars m)) as K by (rewrite <- E; apply in_app_iff; right; left; reflexivity).
        apply in_map_iff in K as (c' & [= ->] & K). exact K.
      - symmetry in E. exact (chars_bad _ _ _ _ _ (eq_sym E)). }
    destruct v; unfold parse_netmask.
    + unfold v4_parse_netmask. destruct (v4_outcome us) as [(q & m & Eq & Em & Q)|(e & k & Ee & _)].
      * (* a dotted quad *)
        assert (X : exists x, netmask_digits us 0 = Ret (false, x)).
        { rewrite Er. destruct (digits_stop p0 r 0 Hp0 Hc Hr) as [X|(e & x & _ & r' & ->)]; [exact X|].
          exfalso. rewrite Em in Er. exact (chars_bad _ _ _ _ _ (eq_sym Er)). }
        destruct X as [x ->]. cbn [bind]. rewrite Eq.
        pose proof (dotted_quad_ok m q Q) as Bq. rewrite v4_to_uint_ok by exact Bq. cbn [bind].
        pose proof (be_value_range V4 q Bq) as Rq. cbn [width] in Rq.
        destruct (Z.eq_dec (be_value q) 0) as [Z0|NZ].
        -- right. right. rewrite Z0, prefix_from_ip_zero. split; [reflexivity|]. split; [reflexivity|]. exists m. split; [exact Em|].
           rewrite (zero_quad q) in Q by (try apply Bq; exact Z0). exact Q.
        -- assert (Uq : forall m' q', us = chars m' -> dotted_quad m' q' -> q' = q).
           { intros m' q' E Q'. apply v4_accept_iff in Q'. rewrite <- E, Eq in Q'. apply ret_inj in Q'. auto. }
           assert (NU : ~ mask_undefined V4 us).
           { intros (_ & m' & E & Q'). apply Uq in Q'; [|exact E]. apply NZ. rewrite <- Q'. reflexivity. }
           destruct (dotted_mask (be_value q) ltac:(lia)) as [(p & -> & Hp)|[-> Hp]].
           ++ left. exists p. cbn [bind]. assert (Rp : 1 <= p <= 32) by (pose proof (proj1 (Hp p) eq_refl); lia).
              split; [cbn [width]; lia|]. rewrite Eu. destruct (FP4 p ltac:(lia)) as [-> S0]. cbn [bind]. rewrite Eta by exact S0.
              split; [reflexivity|]. rewrite <- Eu. intros p'. rewrite Hp. split.
              ** intros K. right. right. split; [reflexivity|]. exists m, q. auto.
              ** intros [[K _]|[(m' & x' & E & D & _)|(_ & m' & q' & E & Q' & K)]]; [contradiction|exfalso; exact (NotDec m' x' E D)|].
                 apply Uq in Q'; [|exact E]. subst q'. exact K.
           ++ right. left. eexists _, _. split; [reflexivity|]. split; [|exact NU].
              intros p' [[K _]|[(m' & x' & E & D & _)|(_ & m' & q' & E & Q' & K)]]; [contradiction|exact (NotDec m' x' E D)|].
              apply Uq in Q'; [|exact E]. subst q'. apply Hp. exists p'. exact K.
      * (* anything else is refused *)
        right. left. assert (NA : forall p, ~ mask_accepted V4 us p).
        { intros p' [[K _]|[(m' & x' & E & D & _)|(_ & m' & q' & E & Q' & K)]]; [contradiction|exact (NotDec m' x' E D)|].
          apply v4_accept_iff in Q'. rewrite <- E in Q'. congruence. }
        assert (NU : ~ mask_undefined V4 us).
        { intros (_ & m' & E & Q'). apply v4_accept_iff in Q'. rewrite <- E in Q'. congruence. }
        assert (X : (exists x, netmask_digits us 0 = Ret (false, x)) \/ exists e x, netmask_digits us 0 = Err e x).
        { rewrite Er. destruct (digits_stop p0 r 0 Hp0 Hc Hr) as [X|(e' & x & X & _)]; eauto. }
        destruct X as [[x ->]|(e' & x & ->)]; cbn [bind]; [rewrite Ee; cbn [bind]|]; eauto.
    + right. left. unfold v6_parse_netmask. rewrite Er. destruct (digits6_stop p0 r 0 Hp0 Hc Hr) as (e & x & ->). cbn [bind].
      exists e, x. split; [reflexivity|]. rewrite <- Er. split.
      * intros p' [[K _]|[(m' & x' & E & D & _)|(K & _)]]; [contradiction|exact (NotDec m' x' E D)|discriminate].
      * intros (K & _). discriminate.
Qed.
