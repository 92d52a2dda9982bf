(** Mixed operators and assignments. *)
From Verif Require Import Base Tac Uint128Model SpecInt Uint128Proofs Uint128Div Uint128Div2 Uint128OpsModel SpecOps.

Lemma mod_wf x : 0 <= x mod 2 ^ 128 < 2 ^ 128.
Proof. apply Z.mod_pos_bound. reflexivity. Qed.
Lemma of_int_ok t x : in_type t x -> wf128 (u128_of_int t x) /\ to_Z (u128_of_int t x) = x mod 2 ^ 128.
Proof.
  intros H. assert (U : 0 <= x < 2 ^ 64 -> wf128 (u128_of_u64 x) /\ to_Z (u128_of_u64 x) = x mod 2 ^ 128).
  { intros B. split; [apply of_u64_wf, B|]. rewrite of_u64_ok. symmetry. apply Z.mod_small. change (2 ^ 128) with 340282366920938463463374607431768211456.
    change (2 ^ 64) with 18446744073709551616 in B. lia. }
  assert (S : - 2 ^ 63 <= x < 2 ^ 63 -> wf128 (u128_of_i64 x) /\ to_Z (u128_of_i64 x) = x mod 2 ^ 128).
  { intros B. split; [apply of_i64_wf|apply of_i64_ok, B]. }
  change (2 ^ 64) with 18446744073709551616 in U. change (2 ^ 63) with 9223372036854775808 in S.
  destruct t; cbn [u128_of_int in_type] in *; (apply U || apply S); clear U S;
    try (change (2 ^ 64) with 18446744073709551616 in H); try (change (2 ^ 63) with 9223372036854775808 in H); cbn in H; lia.
Qed.
Lemma bin_ok op a b : wf128 a -> wf128 b -> exists r, u128_bin op a b = Ret r /\ wf128 r /\ to_Z r = op_Z op (to_Z a) (to_Z b).
Proof.
  intros Ha Hb. destruct op; cbn [u128_bin op_Z].
  - eexists. split; [reflexivity|]. split; [apply add_wf|apply add_ok; assumption].
  - eexists. split; [reflexivity|]. split; [apply sub_wf|apply sub_ok; assumption].
  - eexists. split; [reflexivity|]. split; [apply mul_wf; assumption|apply mul_ok; assumption].
  - destruct (Z.eqb_spec (to_Z b) 0) as [E|E]; [|apply div_ok; assumption]. rewrite (div_zero a b Hb E). eexists. split; [reflexivity|]. split; [unfold wf128; cbn; lia|reflexivity].
  - destruct (Z.eqb_spec (to_Z b) 0) as [E|E]; [|apply mod_ok; assumption]. destruct (mod_zero a b Ha Hb E) as (r & Er & V). exists r. split; [exact Er|]. split; [|exact V].
    unfold u128_mod in Er. destruct (u128_div a b); cbn [bind] in Er; try discriminate. injection Er as <-. apply sub_wf.
  - eexists. split; [reflexivity|]. split; [apply and_wf; assumption|apply and_ok; assumption].
  - eexists. split; [reflexivity|]. split; [apply or_wf; assumption|apply or_ok; assumption].
  - eexists. split; [reflexivity|]. split; [apply xor_wf; assumption|apply xor_ok; assumption].
Qed.
Lemma bin_l_ok op t x b : in_type t x -> wf128 b -> exists r, u128_bin_l op t x b = Ret r /\ wf128 r /\ to_Z r = op_Z op (x mod 2 ^ 128) (to_Z b).
Proof. intros H Hb. destruct (of_int_ok t x H) as [W V]. unfold u128_bin_l. rewrite <- V. apply bin_ok; assumption. Qed.
Lemma bin_r_ok op a t y : wf128 a -> in_type t y -> exists r, u128_bin_r op a t y = Ret r /\ wf128 r /\ to_Z r = op_Z op (to_Z a) (y mod 2 ^ 128).
Proof. intros Ha H. destruct (of_int_ok t y H) as [W V]. unfold u128_bin_r. rewrite <- V. apply bin_ok; assumption. Qed.
Lemma rel_ok sp op a b : wf128 a -> wf128 b -> (u128_rel sp op a b = true <-> rel_Z op (to_Z a) (to_Z b)).
Proof.
  intros Ha Hb. unfold u128_rel, rel_Z. rewrite ?eqb_ok, ?cmp_ok, ?ltb_ok, ?gtb_ok, ?leb_ok, ?geb_ok by assumption.
  generalize (to_Z a) (to_Z b). clear. intros x y. destruct op.
  - apply Z.eqb_eq.
  - destruct (Z.eqb_spec x y); cbn; split; congruence.
  - destruct sp; [|apply Z.ltb_lt]. destruct (Z.compare_spec x y); split; intros; try discriminate; lia.
  - destruct sp; [|rewrite Z.gtb_lt; lia]. destruct (Z.compare_spec x y); split; intros; try discriminate; lia.
  - destruct sp; [|apply Z.leb_le]. destruct (Z.compare_spec x y); split; intros; try discriminate; lia.
  - destruct sp; [|rewrite Z.geb_leb, Z.leb_le; lia]. destruct (Z.compare_spec x y); split; intros; try discriminate; lia.
Qed.
Lemma rel_r_ok sp op a t y : wf128 a -> in_type t y -> (u128_rel_r sp op a t y = true <-> rel_Z op (to_Z a) (y mod 2 ^ 128)).
Proof. intros Ha H. destruct (of_int_ok t y H) as [W V]. unfold u128_rel_r. rewrite <- V. apply rel_ok; assumption. Qed.
Lemma rel_l_ok sp op t x b : in_type t x -> wf128 b -> (u128_rel_l sp op t x b = true <-> rel_Z op (x mod 2 ^ 128) (to_Z b)).
Proof. intros H Hb. destruct (of_int_ok t x H) as [W V]. unfold u128_rel_l. rewrite <- V. apply rel_ok; assumption. Qed.
Lemma small_int t x : in_type t x -> 0 <= x -> x mod 2 ^ 128 = x.
Proof.
  intros H P. apply Z.mod_small. split; [exact P|]. apply Z.lt_trans with (2 ^ 65); [|reflexivity].
  change (2 ^ 65) with 36893488147419103232. destruct t; cbn in H; lia.
Qed.
(** For integers that are not negative the comparison is that of the numbers. *)
Lemma rel_numbers sp op a t x : wf128 a -> in_type t x -> 0 <= x ->
  (u128_rel_r sp op a t x = true <-> rel_Z op (to_Z a) x) /\ (u128_rel_l sp op t x a = true <-> rel_Z op x (to_Z a)).
Proof. intros Ha H P. rewrite rel_r_ok, rel_l_ok, (small_int t x H P) by assumption. split; reflexivity. Qed.
(** A negative one counts as 2^128 more. *)
Lemma rel_negative : exists a, wf128 a /\ u128_rel_l true CLt IInt (-1) a = false /\ u128_rel_l false CLt IInt (-1) a = false /\ u128_rel_r true CEq (mk128 (2 ^ 64 - 1) (2 ^ 64 - 1)) IInt (-1) = true /\ -1 < to_Z a.
Proof. exists (mk128 0 5). repeat split; vm_compute; congruence. Qed.
Lemma logic_ok a b : wf128 a -> wf128 b -> u128_land a b = negb (to_Z a =? 0) && negb (to_Z b =? 0) /\ u128_lor a b = negb (to_Z a =? 0) || negb (to_Z b =? 0).
Proof.
  intros Ha Hb. pose proof (bool_ok a Ha) as A. pose proof (bool_ok b Hb) as B. unfold u128_bool in A, B. unfold u128_land, u128_lor. rewrite A, B. split; reflexivity.
Qed.

(** ** Variables *)
Lemma set_same s i v : set s i v i = v.
Proof. unfold set. rewrite Z.eqb_refl. reflexivity. Qed.
Lemma set_other s i v k : k <> i -> set s i v k = s k.
Proof. intros H. unfold set. rewrite (proj2 (Z.eqb_neq k i) H). reflexivity. Qed.
Lemma set_wf s i v : wf_store s -> wf128 v -> wf_store (set s i v).
Proof. intros H Hv k. unfold set. destruct (k =? i); auto. Qed.
Lemma set_changed s i v : wf_store s -> wf128 v -> changed s i (to_Z v) (set s i v).
Proof. intros H Hv. split; [apply set_wf; assumption|]. split; [rewrite set_same; reflexivity|]. intros k Hk. apply set_other, Hk. Qed.
Lemma halves_set f s i j : forall k, assign_halves f s i j k = set s i (mk128 (f (up (s i)) (up (s j))) (f (lo (s i)) (lo (s j)))) k.
Proof.
  intros k. unfold assign_halves. cbv zeta. unfold set. rewrite Z.eqb_refl. cbn [up lo]. destruct (k =? i); [|reflexivity].
  f_equal. f_equal. destruct (Z.eqb_spec j i) as [->|N]; [reflexivity|reflexivity].
Qed.
Lemma assign_ok op s i j : wf_store s -> exists s', assign op s i j = Ret s' /\ changed s i (op_Z op (to_Z (s i)) (to_Z (s j))) s'.
Proof.
  intros W. destruct (bin_ok op (s i) (s j) (W i) (W j)) as (r & E & Wr & V).
  assert (G : changed s i (op_Z op (to_Z (s i)) (to_Z (s j))) (set s i r)) by (rewrite <- V; apply set_changed; assumption).
  assert (H : forall f, u128_bin op (s i) (s j) = Ret (mk128 (f (up (s i)) (up (s j))) (f (lo (s i)) (lo (s j)))) ->
    changed s i (op_Z op (to_Z (s i)) (to_Z (s j))) (assign_halves f s i j)).
  { intros f F. rewrite E in F. injection F as ->. destruct G as (G1 & G2 & G3). pose proof (halves_set f s i j) as X.
    split; [intros k; rewrite X; apply G1|]. split; [rewrite X; exact G2|]. intros k Hk. rewrite X. apply G3, Hk. }
  destruct op; cbn [assign]; try (rewrite E; cbn [bind]; eexists; split; [reflexivity|exact G]); eexists; (split; [reflexivity|]); apply H; reflexivity.
Qed.
Lemma assign_shl_ok s i n : wf_store s -> 0 <= n -> n <> 128 -> exists s', assign_shl s i n = Ret s' /\ changed s i ((to_Z (s i) * 2 ^ n) mod 2 ^ 128) s'.
Proof.
  intros W H N. destruct (shl_ok (s i) n (W i) H N) as (r & E & Wr & V). unfold assign_shl. rewrite E. cbn [bind]. eexists. split; [reflexivity|].
  rewrite <- V. apply set_changed; assumption.
Qed.
Lemma assign_shr_ok s i n : wf_store s -> 0 <= n -> n <> 128 -> exists s', assign_shr s i n = Ret s' /\ changed s i (to_Z (s i) / 2 ^ n) s'.
Proof.
  intros W H N. destruct (shr_ok (s i) n (W i) H N) as (r & E & Wr & V). unfold assign_shr. rewrite E. cbn [bind]. eexists. split; [reflexivity|].
  rewrite <- V. apply set_changed; assumption.
Qed.
Lemma inc_dec_ok s i : wf_store s ->
  (changed s i ((to_Z (s i) + 1) mod 2 ^ 128) (snd (pre_inc s i)) /\ fst (pre_inc s i) = snd (pre_inc s i) i) /\
  (changed s i ((to_Z (s i) - 1) mod 2 ^ 128) (snd (pre_dec s i)) /\ fst (pre_dec s i) = snd (pre_dec s i) i) /\
  (changed s i ((to_Z (s i) + 1) mod 2 ^ 128) (snd (post_inc s i)) /\ fst (post_inc s i) = s i) /\
  (changed s i ((to_Z (s i) - 1) mod 2 ^ 128) (snd (post_dec s i)) /\ fst (post_dec s i) = s i).
Proof.
  intros W. assert (I : changed s i ((to_Z (s i) + 1) mod 2 ^ 128) (set s i (u128_add (s i) (u128_of_int IInt 1)))).
  { change (u128_add (s i) (u128_of_int IInt 1)) with (u128_inc (s i)). rewrite <- inc_ok by apply W. apply set_changed; [exact W|apply inc_wf]. }
  assert (D : changed s i ((to_Z (s i) - 1) mod 2 ^ 128) (set s i (u128_sub (s i) (u128_of_int IInt 1)))).
  { change (u128_sub (s i) (u128_of_int IInt 1)) with (u128_dec (s i)). rewrite <- dec_ok by apply W. apply set_changed; [exact W|apply dec_wf]. }
  unfold post_inc, post_dec, pre_inc, pre_dec. cbv zeta. cbn [fst snd]. auto 10.
Qed.
Lemma u128_swap_ok s i j : u128_swap s i j i = s j /\ u128_swap s i j j = s i /\ forall k, k <> i -> k <> j -> u128_swap s i j k = s k.
Proof.
  unfold u128_swap. cbv zeta. split; [|split].
  - destruct (Z.eq_dec i j) as [->|N]; [apply set_same|]. rewrite set_other by exact N. apply set_same.
  - apply set_same.
  - intros k Hi Hj. rewrite !set_other by assumption. reflexivity.
Qed.

(** ** numeric_limits *)
Lemma limits_range : wf128 limits_min /\ wf128 limits_max /\ wf128 limits_lowest /\
  (forall a, wf128 a -> to_Z limits_min <= to_Z a <= to_Z limits_max) /\ to_Z limits_lowest = to_Z limits_min /\
  (limits_is_signed = false <-> 0 <= to_Z limits_min) /\
  (limits_is_modulo = true <-> u128_inc limits_max = limits_min).
Proof.
  split; [unfold wf128; vm_compute; intuition discriminate|]. split; [unfold wf128; vm_compute; intuition discriminate|]. split; [unfold wf128; vm_compute; intuition discriminate|].
  split; [|split; [reflexivity|split; [split; [intros _; vm_compute; discriminate|reflexivity]|split; reflexivity]]].
  intros a [Hu Hl]. unfold to_Z. change (up limits_min * 2 ^ 64 + lo limits_min) with 0.
  change (up limits_max * 2 ^ 64 + lo limits_max) with 340282366920938463463374607431768211455. change (2 ^ 64) with 18446744073709551616 in *. lia.
Qed.
(** digits radix digits: the representable numbers are those below
    radix^digits; digits10 is the largest count of decimal digits that always fit. *)
Lemma limits_width : (forall x, (exists a, wf128 a /\ to_Z a = x) <-> 0 <= x < limits_radix ^ limits_digits) /\
  (forall n, 0 <= n -> (n <= limits_digits10 <-> forall x, 0 <= x < 10 ^ n -> exists a, wf128 a /\ to_Z a = x)).
Proof.
  assert (A : forall x, (exists a, wf128 a /\ to_Z a = x) <-> 0 <= x < 2 ^ 128).
  { intros x. split.
    - intros (a & [Hu Hl] & <-). unfold to_Z. change (2 ^ 64) with 18446744073709551616 in *. change (2 ^ 128) with 340282366920938463463374607431768211456. lia.
    - intros H. exists (of_Z x). split; [apply of_Z_wf|]. rewrite to_of_Z. apply Z.mod_small, H. }
  split; [exact A|]. intros n Hn. unfold limits_digits10. split.
  - intros L x H. apply A. split; [lia|]. apply Z.lt_le_trans with (10 ^ n); [lia|]. apply Z.le_trans with (10 ^ 38); [apply Z.pow_le_mono_r; lia|]. vm_compute. discriminate.
  - intros H. destruct (Z.le_gt_cases n 38) as [L|L]; [exact L|]. exfalso. assert (E : 10 ^ 39 <= 10 ^ n) by (apply Z.pow_le_mono_r; lia).
    destruct (H (2 ^ 128)) as (a & W & V); [split; [lia|]; apply Z.lt_le_trans with (10 ^ 39); [vm_compute; reflexivity|exact E]|].
    assert (0 <= 2 ^ 128 < 2 ^ 128) as F; [apply A; eauto|lia].
Qed.
Lemma abs_ok a : wf128 a -> to_Z (u128_abs a) = Z.abs (to_Z a) /\ to_Z (u128_plus a) = to_Z a.
Proof.
  intros [Hu Hl]. split; [|reflexivity]. unfold u128_abs. symmetry. apply Z.abs_eq. unfold to_Z. change (2 ^ 64) with 18446744073709551616 in *. lia.
Qed.
Lemma types_ok t : exists lo bits, In bits [1; 8; 16; 32; 64] /\ (lo = 0 \/ lo = - 2 ^ (bits - 1)) /\ forall x, in_type t x <-> lo <= x < lo + 2 ^ bits.
Proof.
  destruct t; cbn [in_type];
    first [exists 0, 1; split; [cbn; auto 10|]; split; [auto|]; intros; lia
          |exists (- 2 ^ 7), 8; split; [cbn; auto 10|]; split; [auto|]; intros; lia
          |exists 0, 8; split; [cbn; auto 10|]; split; [auto|]; intros; lia
          |exists (- 2 ^ 15), 16; split; [cbn; auto 10|]; split; [auto|]; intros; lia
          |exists 0, 16; split; [cbn; auto 10|]; split; [auto|]; intros; lia
          |exists (- 2 ^ 31), 32; split; [cbn; auto 10|]; split; [auto|]; intros; lia
          |exists 0, 32; split; [cbn; auto 10|]; split; [auto|]; intros; lia
          |exists (- 2 ^ 63), 64; split; [cbn; auto 10|]; split; [auto|]; intros; lia
          |exists 0, 64; split; [cbn; auto 10|]; split; [auto|]; intros; lia].
Qed.
