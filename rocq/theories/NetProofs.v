(** Networks as blocks of numbers. *)
From Verif Require Import Base Tac TextProofs UnicodeModel FixedStringModel V4Model V6Model Uint128Model SpecInt Uint128Proofs Uint128Div2
  SpecText SpecAddr SpecStr SpecV6 StrProofs V4Proofs BufProofs BitProofs FixedStringProofs V4Lemmas V6Proofs V6Full V6Lemmas
  AddressModel SpecOrder AddressProofs NetworkModel SpecNet.

Lemma width_pos v : 0 < width v. Proof. destruct v; reflexivity. Qed.

(** *** Integer conversions *)
Lemma to_uint_val v a : wf_addr v a -> addr_to_uint v a = Ret (val a).
Proof.
  intros [B _]. destruct v; cbn [addr_to_uint]; [apply v4_to_uint_ok; exact B|].
  destruct (v6_to_uint_ok _ B) as (u & -> & _ & E). cbn [bind]. rewrite E. reflexivity.
Qed.
(** The address without scope of a number. *)
Definition addr_of (v : ver) (n : Z) : addr :=
  match addr_from_uint v n with Ret a => a | _ => addr_default v end.
Lemma from_uint_spec v n : 0 <= n < 2 ^ width v ->
  exists a, addr_from_uint v n = Ret a /\ wf_addr v a /\ val a = n /\ a_scope a = [].
Proof.
  intros H. destruct v; cbn [addr_from_uint width] in *.
  - destruct (v4_from_uint_ok n H) as [B E]. eexists. split; [reflexivity|]. repeat split; cbn; try apply B; auto.
  - destruct (v6_from_uint_ok (of_Z n) (of_Z_wf n)) as (b & -> & B & E). cbn [bind]. eexists. split; [reflexivity|].
    split; [split; [exact B|split; [left; reflexivity|constructor]]|]. split; [|reflexivity].
    unfold val. cbn [a_bytes]. rewrite E, to_of_Z. apply Z.mod_small. exact H.
Qed.
Lemma from_uint_of v n : 0 <= n < 2 ^ width v -> addr_from_uint v n = Ret (addr_of v n).
Proof. intros H. unfold addr_of. destruct (from_uint_spec v n H) as (a & -> & _). reflexivity. Qed.
Lemma addr_of_wf v n : 0 <= n < 2 ^ width v -> wf_addr v (addr_of v n).
Proof. intros H. unfold addr_of. destruct (from_uint_spec v n H) as (a & -> & W & _). exact W. Qed.
Lemma addr_of_val v n : 0 <= n < 2 ^ width v -> val (addr_of v n) = n.
Proof. intros H. unfold addr_of. destruct (from_uint_spec v n H) as (a & -> & _ & E & _). exact E. Qed.
Lemma addr_of_scope v n : 0 <= n < 2 ^ width v -> a_scope (addr_of v n) = [].
Proof. intros H. unfold addr_of. destruct (from_uint_spec v n H) as (a & -> & _ & _ & E). exact E. Qed.
(** An address is its number and its scope. *)
Lemma addr_eq v a b : wf_addr v a -> wf_addr v b -> val a = val b -> a_scope a = a_scope b -> a = b.
Proof. intros Ha Hb E Es. apply addr_ext; [eapply val_inj; eassumption|assumption]. Qed.
Lemma addr_of_eq v a : wf_addr v a -> a_scope a = [] -> addr_of v (val a) = a.
Proof.
  intros H E. pose proof (val_range v a H). apply (addr_eq v); auto using addr_of_wf, addr_of_val.
  rewrite addr_of_scope; auto.
Qed.

Lemma uadd_ok v x y : uadd v x y = (x + y) mod 2 ^ width v.
Proof.
  destruct v; cbn [uadd width]; [reflexivity|]. rewrite add_ok by apply of_Z_wf. rewrite !to_of_Z. symmetry. apply Z.add_mod. lia.
Qed.
Lemma usub_ok v x y : usub v x y = (x - y) mod 2 ^ width v.
Proof.
  destruct v; cbn [usub width]; [reflexivity|]. rewrite sub_ok by apply of_Z_wf. rewrite !to_of_Z. symmetry. apply Zminus_mod.
Qed.
Lemma umul_ok v x y : umul v x y = (x * y) mod 2 ^ width v.
Proof.
  destruct v; cbn [umul width]; [reflexivity|]. rewrite mul_ok by apply of_Z_wf. rewrite !to_of_Z. symmetry. apply Z.mul_mod. lia.
Qed.
Lemma uand_ok v x y : 0 <= x < 2 ^ width v -> 0 <= y < 2 ^ width v -> uand v x y = Z.land x y.
Proof.
  destruct v; cbn [uand width]; [reflexivity|]. intros Hx Hy. rewrite and_ok by apply of_Z_wf. rewrite !to_of_Z, !Z.mod_small by assumption.
  reflexivity.
Qed.
Lemma ushl_ok v x n : 0 <= x < 2 ^ width v -> 0 <= n < width v -> ushl v x n = Ret ((x * 2 ^ n) mod 2 ^ width v).
Proof.
  intros Hx Hn. destruct v; cbn [ushl width] in *.
  - unfold shl32. destruct ((0 <=? n) && (n <? 32)) eqn:E; [|lia]. unfold w32. rewrite shl_mul by lia. reflexivity.
  - destruct (shl_ok (of_Z x) n (of_Z_wf x) ltac:(lia) ltac:(lia)) as (r & -> & _ & E). cbn [bind].
    rewrite E, to_of_Z, (Z.mod_small x) by assumption. reflexivity.
Qed.
Lemma ushr_ok v x n : 0 <= x < 2 ^ width v -> 0 <= n < width v -> ushr v x n = Ret (x / 2 ^ n).
Proof.
  intros Hx Hn. destruct v; cbn [ushr width] in *.
  - unfold shr32. destruct ((0 <=? n) && (n <? 32)) eqn:E; [|lia]. rewrite shr_div by lia. reflexivity.
  - destruct (shr_ok (of_Z x) n (of_Z_wf x) ltac:(lia) ltac:(lia)) as (r & -> & _ & E). cbn [bind].
    rewrite E, to_of_Z, (Z.mod_small x) by assumption. reflexivity.
Qed.
Lemma ushl_width v x : ushl v x (width v) = UB BadShift.
Proof. destruct v; reflexivity. Qed.
Lemma ushr_width v x : ushr v x (width v) = UB BadShift.
Proof. destruct v; reflexivity. Qed.
Lemma udivide_ok v x y : 0 <= x < 2 ^ width v -> 0 < y < 2 ^ width v -> udivide v x y = Ret (x / y).
Proof.
  intros Hx Hy. destruct v; cbn [udivide width] in *.
  - unfold udiv. destruct (Z.eqb_spec y 0); [lia|reflexivity].
  - destruct (div_ok (of_Z x) (of_Z y) (of_Z_wf x) (of_Z_wf y)) as (q & -> & _ & E); rewrite ?to_of_Z, ?Z.mod_small in * by lia; [lia|].
    cbn [bind]. rewrite E. reflexivity.
Qed.

(** *** Powers and masks *)
Lemma size_pos v n : 0 <= n_prefix n <= width v -> 0 < size v n.
Proof. intros. apply pow2_pos. lia. Qed.
Lemma pow_div w k : 0 <= k <= w -> 2 ^ w = 2 ^ (w - k) * 2 ^ k.
Proof. intros. rewrite <- pow2_split by lia. f_equal. lia. Qed.
Lemma pow_le w k : 0 <= k <= w -> 2 ^ k <= 2 ^ w.
Proof. intros. apply Z.pow_le_mono_r; lia. Qed.
Lemma block_end w k x : 0 <= k <= w -> 0 <= x < 2 ^ w -> x mod 2 ^ k = 0 -> x + 2 ^ k <= 2 ^ w.
Proof.
  intros Hk Hx Hm. pose proof (pow_div w k Hk) as E. pose proof (pow2_pos k ltac:(lia)). pose proof (pow2_pos (w - k) ltac:(lia)).
  apply Z.mod_divide in Hm as [q ->]; [|lia]. rewrite E in Hx. rewrite E. destruct Hx as [_ Hx].
  apply Z.mul_lt_mono_pos_r in Hx; [|lia].
  replace (q * 2 ^ k + 2 ^ k) with ((q + 1) * 2 ^ k) by ring. apply Z.mul_le_mono_nonneg_r; lia.
Qed.
Lemma land_mask w k x : 0 <= k <= w -> 0 <= x < 2 ^ w -> Z.land x (2 ^ w - 2 ^ k) = x - x mod 2 ^ k.
Proof.
  intros Hk Hx. replace (2 ^ w - 2 ^ k) with (Z.shiftl (Z.ones (w - k)) k).
  2:{ rewrite shl_mul, Z.ones_equiv by lia. rewrite (pow_div w k) by lia. lia. }
  replace (x - x mod 2 ^ k) with (x / 2 ^ k * 2 ^ k).
  2:{ pose proof (pow2_pos k ltac:(lia)). pose proof (Z.div_mod x (2 ^ k)). lia. }
  apply Z.bits_inj'. intros n Hn. rewrite Z.land_spec, Z.shiftl_spec by lia.
  destruct (Z.ltb_spec n k).
  - rewrite Z.mul_pow2_bits_low by lia. rewrite (Z.testbit_neg_r _ (n - k)) by lia. apply andb_false_r.
  - rewrite Z.mul_pow2_bits, Z.div_pow2_bits by lia. replace (n - k + k) with n by lia.
    destruct (Z.ltb_spec n w).
    + rewrite Z.ones_spec_low by lia. apply andb_true_r.
    + assert (Z.testbit x n = false) as ->; [|reflexivity].
      destruct (Z.eq_dec x 0) as [->|]; [apply Z.bits_0|]. apply Z.bits_above_log2; [lia|].
      apply Z.lt_le_trans with w; [apply Z.log2_lt_pow2; lia|lia].
Qed.

(** Byte-wise operations are operations on the numbers. *)
Lemma be_land_step x y a b : 0 <= a < 256 -> 0 <= b < 256 ->
  Z.land (x * 256 + a) (y * 256 + b) = Z.land x y * 256 + Z.land a b.
Proof.
  intros Ha Hb. change 256 with (2 ^ 8) in *.
  assert (R : 0 <= Z.land a b < 2 ^ 8) by (apply land_lt; lia).
  rewrite <- !lor_add by lia. apply Z.bits_inj'. intros n Hn.
  rewrite ?Z.land_spec, ?Z.lor_spec, ?Z.land_spec.
  destruct (Z.ltb_spec n 8).
  - rewrite !Z.mul_pow2_bits_low by lia. cbn [orb]. reflexivity.
  - rewrite !Z.mul_pow2_bits by lia. rewrite Z.land_spec.
    assert (forall z, 0 <= z < 2 ^ 8 -> Z.testbit z n = false) as A.
    { intros z Hz. apply byte_high; [unfold is_byte; lia|lia]. }
    rewrite !A by assumption. rewrite !orb_false_r. reflexivity.
Qed.
Fixpoint and_bytes (a b : list Z) : list Z :=
  match a, b with x :: a', y :: b' => Z.land x y :: and_bytes a' b' | _, _ => [] end.
Lemma and_bytes_app a a' b b' : length a = length b -> and_bytes (a ++ a') (b ++ b') = and_bytes a b ++ and_bytes a' b'.
Proof.
  revert b. induction a as [|x a IH]; intros [|y b] L; try discriminate; cbn; [reflexivity|]. f_equal. apply IH. cbn in L. lia.
Qed.
Lemma and_bytes_length : forall a b, length a = length b -> length (and_bytes a b) = length a.
Proof. induction a as [|x a IH]; intros [|y b] L; try discriminate; cbn; [reflexivity|]. f_equal. apply IH. cbn in L. lia. Qed.
Lemma and_bytes_ok : forall a b, Forall is_byte a -> Forall is_byte b -> Forall is_byte (and_bytes a b).
Proof.
  induction a as [|x a IH]; intros [|y b] A B; cbn; try constructor.
  - inversion A; inversion B; subst. unfold is_byte in *. pose proof (land_lt x y 8). lia.
  - inversion A; inversion B; auto.
Qed.
Lemma be_land : forall a b, length a = length b -> Forall is_byte a -> Forall is_byte b ->
  be_value (and_bytes a b) = Z.land (be_value a) (be_value b).
Proof.
  induction a as [|x a IH] using rev_ind; intros b L A B.
  - destruct b; [reflexivity|discriminate].
  - destruct b as [|y b _] using rev_ind; [rewrite app_length in L; cbn in L; lia|].
    rewrite !app_length in L. cbn in L. apply Forall_app in A as [A X]. apply Forall_app in B as [B Y].
    inversion X; inversion Y; subst. rewrite and_bytes_app by lia. rewrite !be_app. cbn [and_bytes].
    change (256 ^ zlen [Z.land x y]) with 256. change (256 ^ zlen [x]) with 256. change (256 ^ zlen [y]) with 256.
    change (be_value [Z.land x y]) with (Z.land x y). change (be_value [x]) with x. change (be_value [y]) with y.
    unfold is_byte in *. rewrite be_land_step by lia. rewrite IH by (auto; lia). reflexivity.
Qed.

Lemma be_lor_step x y a b : 0 <= a < 256 -> 0 <= b < 256 ->
  Z.lor (x * 256 + a) (y * 256 + b) = Z.lor x y * 256 + Z.lor a b.
Proof.
  intros Ha Hb. change 256 with (2 ^ 8) in *.
  assert (R : 0 <= Z.lor a b < 2 ^ 8) by (apply lor_lt; lia).
  rewrite <- !lor_add by lia. apply Z.bits_inj'. intros n Hn. rewrite ?Z.lor_spec.
  destruct (Z.ltb_spec n 8).
  - rewrite !Z.mul_pow2_bits_low by lia. cbn [orb]. reflexivity.
  - rewrite !Z.mul_pow2_bits by lia. rewrite Z.lor_spec.
    assert (forall z, 0 <= z < 2 ^ 8 -> Z.testbit z n = false) as A.
    { intros z Hz. apply byte_high; [unfold is_byte; lia|lia]. }
    rewrite !A by assumption. rewrite !orb_false_r. reflexivity.
Qed.
Lemma or_bytes_app a a' b b' : length a = length b -> or_bytes (a ++ a') (b ++ b') = or_bytes a b ++ or_bytes a' b'.
Proof.
  revert b. induction a as [|x a IH]; intros [|y b] L; try discriminate; cbn; [reflexivity|]. f_equal. apply IH. cbn in L. lia.
Qed.
Lemma or_bytes_length : forall a b, length a = length b -> length (or_bytes a b) = length a.
Proof. induction a as [|x a IH]; intros [|y b] L; try discriminate; cbn; [reflexivity|]. f_equal. apply IH. cbn in L. lia. Qed.
Lemma or_bytes_ok : forall a b, Forall is_byte (or_bytes a b).
Proof. induction a as [|x a IH]; intros [|y b]; cbn; try constructor; [apply w8_byte|apply IH]. Qed.
Lemma be_lor : forall a b, length a = length b -> Forall is_byte a -> Forall is_byte b ->
  be_value (or_bytes a b) = Z.lor (be_value a) (be_value b).
Proof.
  induction a as [|x a IH] using rev_ind; intros b L A B.
  - destruct b; [reflexivity|discriminate].
  - destruct b as [|y b _] using rev_ind; [rewrite app_length in L; cbn in L; lia|].
    rewrite !app_length in L. cbn in L. apply Forall_app in A as [A X]. apply Forall_app in B as [B Y].
    inversion X; inversion Y; subst. rewrite or_bytes_app by lia. rewrite !be_app. cbn [or_bytes].
    unfold is_byte in *. assert (R : 0 <= Z.lor x y < 2 ^ 8) by (apply lor_lt; lia).
    assert (E : w8 (Z.lor x y) = Z.lor x y) by (apply Z.mod_small; exact R). rewrite E.
    change (256 ^ zlen [Z.lor x y]) with 256. change (256 ^ zlen [x]) with 256. change (256 ^ zlen [y]) with 256.
    change (be_value [Z.lor x y]) with (Z.lor x y). change (be_value [x]) with x. change (be_value [y]) with y.
    rewrite be_lor_step by lia. rewrite IH by (auto; lia). reflexivity.
Qed.
Lemma xor_byte_check : forallb (fun b => w8 (Z.lxor b 0xFF) =? 255 - b) (upto 256) = true.
Proof. vm_compute. reflexivity. Qed.
Lemma xor_byte b : is_byte b -> w8 (Z.lxor b 0xFF) = 255 - b.
Proof.
  intros H. pose proof xor_byte_check as C. rewrite forallb_forall in C. apply Z.eqb_eq, C, in_upto. unfold is_byte in H. lia.
Qed.
Lemma be_not : forall a, Forall is_byte a -> be_value (map (fun b => w8 (Z.lxor b 0xFF)) a) = 256 ^ zlen a - 1 - be_value a.
Proof.
  induction a as [|x a IH]; intros A; [reflexivity|]. inversion A as [|? ? X A']. subst. cbn [map].
  rewrite !be_cons, IH by assumption. rewrite xor_byte by assumption.
  replace (zlen (map (fun b => w8 (Z.lxor b 255)) a)) with (zlen a) by (unfold zlen; rewrite map_length; reflexivity).
  rewrite zlen_cons, Z.pow_add_r by (try apply zlen_nonneg; lia). change (256 ^ 1) with 256. ring.
Qed.
Lemma pow256 v : 256 ^ Z.of_nat (nbytes v) = 2 ^ width v.
Proof. destruct v; reflexivity. Qed.

(** *** Masks of a prefix length *)
Definition mask_ok (v : ver) (p : Z) : bool :=
  match ip_from_prefix v p with
  | Ret m => (be_value (a_bytes m) =? 2 ^ width v - 2 ^ (width v - p)) && (zlen (a_bytes m) =? Z.of_nat (nbytes v))
             && forallb (fun b => (0 <=? b) && (b <=? 255)) (a_bytes m) && (zlen (a_scope m) =? 0)
  | _ => false
  end.
Lemma mask_check v : forallb (mask_ok v) (upto (Z.to_nat (width v + 1))) = true.
Proof. destruct v; vm_compute; reflexivity. Qed.
Lemma empty_scope v b : bytes_ok v b -> wf_addr v (mk_addr b []).
Proof. intros H. split; [exact H|]. destruct v; [reflexivity|split; [left; reflexivity|constructor]]. Qed.
Lemma from_prefix_spec v p : 0 <= p <= width v ->
  exists m, ip_from_prefix v p = Ret m /\ wf_addr v m /\ val m = 2 ^ width v - 2 ^ (width v - p) /\ a_scope m = [].
Proof.
  intros H. pose proof (mask_check v) as C. rewrite forallb_forall in C. pose proof (width_pos v).
  assert (K : In p (upto (Z.to_nat (width v + 1)))) by (apply in_upto; lia). apply C in K. unfold mask_ok in K.
  destruct (ip_from_prefix v p) as [[b s]|e x|u]; try discriminate. cbn [a_bytes a_scope] in K.
  exists (mk_addr b s). split; [reflexivity|]. apply andb_true_iff in K as [K Ks]. apply andb_true_iff in K as [K Kf].
  apply andb_true_iff in K as [Kv Kl]. apply Z.eqb_eq in Kv, Kl, Ks.
  assert (s = []) as -> by (destruct s; [reflexivity|rewrite zlen_cons in Ks; pose proof (zlen_nonneg s); lia]).
  split; [|split; [exact Kv|reflexivity]]. apply empty_scope. split; [unfold zlen in Kl; lia|].
  apply Forall_forall. intros x Hx. rewrite forallb_forall in Kf. apply Kf in Hx. unfold is_byte. lia.
Qed.
Definition mask_of (v : ver) (p : Z) : addr :=
  match ip_from_prefix v p with Ret m => m | _ => addr_default v end.
Lemma from_prefix_of v p : 0 <= p <= width v -> ip_from_prefix v p = Ret (mask_of v p).
Proof. intros H. unfold mask_of. destruct (from_prefix_spec v p H) as (m & -> & _). reflexivity. Qed.
Lemma mask_of_wf v p : 0 <= p <= width v -> wf_addr v (mask_of v p).
Proof. intros H. unfold mask_of. destruct (from_prefix_spec v p H) as (m & -> & W & _). exact W. Qed.
Lemma mask_of_val v p : 0 <= p <= width v -> val (mask_of v p) = 2 ^ width v - 2 ^ (width v - p).
Proof. intros H. unfold mask_of. destruct (from_prefix_spec v p H) as (m & -> & _ & E & _). exact E. Qed.
Lemma mask_of_scope v p : 0 <= p <= width v -> a_scope (mask_of v p) = [].
Proof. intros H. unfold mask_of. destruct (from_prefix_spec v p H) as (m & -> & _ & _ & E). exact E. Qed.
Lemma net_mask_eq v n : wf_net v n -> n_mask n = mask_of v (n_prefix n).
Proof.
  intros (_ & Wm & Sm & P & E & _). apply (addr_eq v); auto using mask_of_wf.
  - rewrite mask_of_val by exact P. exact E.
  - rewrite mask_of_scope by exact P. exact Sm.
Qed.
Lemma net_ext v a b : wf_net v a -> wf_net v b -> n_addr a = n_addr b -> n_prefix a = n_prefix b -> a = b.
Proof.
  intros Wa Wb Ea Ep. pose proof (net_mask_eq v a Wa). pose proof (net_mask_eq v b Wb). destruct a, b. cbn in *. congruence.
Qed.
Lemma net_default_ok v : ip_from_prefix v (width v) = Ret (n_mask (net_default v)).
Proof. destruct v; vm_compute; reflexivity. Qed.
Lemma addr_default_wf v : wf_addr v (addr_default v) /\ val (addr_default v) = 0.
Proof. split; [apply empty_scope; split; destruct v; cbn; try reflexivity; repeat constructor; unfold is_byte; lia|destruct v; reflexivity]. Qed.
Lemma net_default_wf v : wf_net v (net_default v).
Proof.
  pose proof (width_pos v). destruct (addr_default_wf v) as [W E].
  destruct (from_prefix_spec v (width v) ltac:(lia)) as (m & Em & Wm & Vm & Sm). rewrite net_default_ok in Em. injection Em as <-.
  split; [exact W|]. split; [exact Wm|]. split; [exact Sm|]. split; [cbn; lia|]. split; [exact Vm|].
  unfold first. cbn [n_addr net_default]. rewrite E. apply Z.mod_0_l. pose proof (size_pos v (net_default v)). cbn [n_prefix net_default] in *. lia.
Qed.
