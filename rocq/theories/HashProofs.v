(** Hash values: the mixing functions are permutations. *)
From Coq Require Import String.
From Verif Require Import Base Tac SpecText BitProofs SpecAddr SpecStr SpecV6 FixedStringModel FixedStringProofs SpecInt Uint128Model AddressModel SpecOrder AddressProofs NetworkModel SpecNet NetProofs NetProofs3
  AnyModel SpecAny NetWitness SpecHash.

(** *** Steps *)
Lemma xorshift_inj k x y : 0 < k -> 0 <= x -> 0 <= y -> Z.lxor x (Z.shiftr x k) = Z.lxor y (Z.shiftr y k) -> x = y.
Proof.
  intros Hk Hx Hy H. apply Z.lxor_eq. set (d := Z.lxor x y).
  assert (Hd : 0 <= d) by (apply Z.lxor_nonneg; tauto).
  assert (E : d = Z.shiftr d k). { unfold d. rewrite Z.shiftr_lxor. apply Z.lxor_eq.
    replace (Z.lxor (Z.lxor x y) (Z.lxor (Z.shiftr x k) (Z.shiftr y k))) with (Z.lxor (Z.lxor x (Z.shiftr x k)) (Z.lxor y (Z.shiftr y k))).
    - rewrite H. apply Z.lxor_nilpotent.
    - rewrite !Z.lxor_assoc. f_equal. rewrite <- !Z.lxor_assoc. f_equal. apply Z.lxor_comm. }
  rewrite Z.shiftr_div_pow2 in E by lia. destruct (Z.eq_dec d 0) as [|N]; [assumption|].
  assert (d / 2 ^ k < d); [|lia]. apply Z.div_lt; [lia|]. change 1 with (2 ^ 0). apply Z.pow_lt_mono_r; lia.
Qed.
Lemma xorshift_range n k x : 0 < n -> 0 <= k -> 0 <= x < 2 ^ n -> 0 <= Z.lxor x (Z.shiftr x k) < 2 ^ n.
Proof.
  intros Hn Hk Hx. assert (0 <= Z.shiftr x k < 2 ^ n).
  { rewrite Z.shiftr_div_pow2 by lia. pose proof (Z.pow_pos_nonneg 2 k ltac:(lia) ltac:(lia)). split; [apply Z.div_pos; lia|]. apply Z.le_lt_trans with x; [|lia].
    apply Z.div_le_upper_bound; [lia|]. nia. }
  assert (P : 0 <= Z.lxor x (Z.shiftr x k)) by (apply Z.lxor_nonneg; lia). split; [exact P|].
  destruct (Z.eq_dec (Z.lxor x (Z.shiftr x k)) 0) as [->|N]; [lia|]. apply Z.log2_lt_pow2; [lia|]. clear N P.
  apply Z.le_lt_trans with (1 := Z.log2_lxor x (Z.shiftr x k) (proj1 Hx) (proj1 H)). apply Z.max_lub_lt.
  - destruct (Z.eq_dec x 0) as [->|]; [exact Hn|]. apply Z.log2_lt_pow2; lia.
  - destruct (Z.eq_dec (Z.shiftr x k) 0) as [->|]; [exact Hn|]. apply Z.log2_lt_pow2; lia.
Qed.
Lemma odd_inj m c i x y : 0 < m -> (c * i) mod m = 1 mod m -> 0 <= x < m -> 0 <= y < m -> (x * c) mod m = (y * c) mod m -> x = y.
Proof.
  intros Hm Hi Hx Hy H. rewrite <- (Z.mod_small x m), <- (Z.mod_small y m) by lia.
  assert (forall z, z mod m = ((z * c) mod m * i) mod m) as G.
  { intros z. rewrite Z.mul_mod_idemp_l, <- Z.mul_assoc, <- Z.mul_mod_idemp_r, Hi, Z.mul_mod_idemp_r, Z.mul_1_r by lia. reflexivity. }
  rewrite (G x), (G y), H. reflexivity.
Qed.

Definition combine (is64 : bool) := if is64 then hash_combine8 else hash_combine4.
Definition modulus (is64 : bool) : Z := if is64 then 2 ^ 64 else 2 ^ 32.
Lemma modulus_pos is64 : 0 < modulus is64. Proof. destruct is64; reflexivity. Qed.
Lemma wmod n x : 0 < n -> 0 <= x mod 2 ^ n < 2 ^ n.
Proof. intros. apply Z.mod_pos_bound. apply Z.pow_pos_nonneg; lia. Qed.
Lemma combine_range is64 x : 0 <= x < modulus is64 -> 0 <= combine is64 x < modulus is64.
Proof.
  intros Hx. destruct is64; cbn [combine modulus] in *; unfold hash_combine8, hash_combine4, w64, w32; cbv zeta; apply xorshift_range; try lia; apply wmod; lia.
Qed.
Lemma combine8_inj x y : 0 <= x < 2 ^ 64 -> 0 <= y < 2 ^ 64 -> hash_combine8 x = hash_combine8 y -> x = y.
Proof.
  intros Hx Hy H. unfold hash_combine8, w64 in H. cbv zeta in H.
  apply xorshift_inj in H; [|lia|apply wmod; lia|apply wmod; lia].
  apply (odd_inj (2 ^ 64) _ 1530889947527838453) in H; [|lia|vm_compute; reflexivity|apply xorshift_range; try lia; apply wmod; lia|apply xorshift_range; try lia; apply wmod; lia].
  apply xorshift_inj in H; [|lia|apply wmod; lia|apply wmod; lia].
  apply (odd_inj (2 ^ 64) _ 1530889947527838453) in H; [|lia|vm_compute; reflexivity|apply xorshift_range; lia|apply xorshift_range; lia].
  apply xorshift_inj in H; lia.
Qed.
Lemma combine4_inj x y : 0 <= x < 2 ^ 32 -> 0 <= y < 2 ^ 32 -> hash_combine4 x = hash_combine4 y -> x = y.
Proof.
  intros Hx Hy H. unfold hash_combine4, w32 in H. cbv zeta in H.
  apply xorshift_inj in H; [|lia|apply wmod; lia|apply wmod; lia].
  apply (odd_inj (2 ^ 32) _ 2534613543) in H; [|lia|vm_compute; reflexivity|apply xorshift_range; try lia; apply wmod; lia|apply xorshift_range; try lia; apply wmod; lia].
  apply xorshift_inj in H; [|lia|apply wmod; lia|apply wmod; lia].
  apply (odd_inj (2 ^ 32) _ 859588901) in H; [|lia|vm_compute; reflexivity|apply xorshift_range; lia|apply xorshift_range; lia].
  apply xorshift_inj in H; lia.
Qed.

(** *** Sums of hashes *)
Lemma sum_eq is64 seed value : hash_sum is64 seed value = combine is64 ((seed + 0x9e3779b9 + value) mod modulus is64).
Proof. destruct is64; unfold hash_sum, combine, modulus, w64, w32; rewrite Z.add_mod_idemp_l by lia; reflexivity. Qed.
Lemma combine_inj is64 x y : 0 <= x < modulus is64 -> 0 <= y < modulus is64 -> combine is64 x = combine is64 y -> x = y.
Proof. destruct is64; [apply combine8_inj|apply combine4_inj]. Qed.
Lemma sum_range is64 seed value : 0 <= hash_sum is64 seed value < modulus is64.
Proof. rewrite sum_eq. apply combine_range, Z.mod_pos_bound, modulus_pos. Qed.
Lemma sum_inj is64 a b x y : hash_sum is64 a x = hash_sum is64 b y -> (a + x) mod modulus is64 = (b + y) mod modulus is64.
Proof.
  rewrite !sum_eq. intros H. pose proof (modulus_pos is64) as M. apply combine_inj in H; try (apply Z.mod_pos_bound; exact M).
  assert (G : forall s v, (s + v) mod modulus is64 = ((s + 0x9e3779b9 + v) mod modulus is64 - 0x9e3779b9) mod modulus is64).
  { intros s v. rewrite Zminus_mod_idemp_l. f_equal. lia. }
  rewrite (G a x), (G b y), H. reflexivity.
Qed.
Lemma mod_add_l m a x y : 0 < m -> 0 <= x < m -> 0 <= y < m -> (a + x) mod m = (a + y) mod m -> x = y.
Proof.
  intros Hm Hx Hy H. rewrite <- (Z.mod_small x m), <- (Z.mod_small y m) by lia.
  replace x with (a + x - a) by lia. replace y with (a + y - a) by lia. rewrite <- (Zminus_mod_idemp_l (a + x)), <- (Zminus_mod_idemp_l (a + y)), H. reflexivity.
Qed.
Lemma sum_inj_r is64 a x y : 0 <= x < modulus is64 -> 0 <= y < modulus is64 -> hash_sum is64 a x = hash_sum is64 a y -> x = y.
Proof. intros Hx Hy H. apply sum_inj in H. exact (mod_add_l _ _ _ _ (modulus_pos _) Hx Hy H). Qed.
Lemma sum_inj_l is64 a b x : 0 <= a < modulus is64 -> 0 <= b < modulus is64 -> hash_sum is64 a x = hash_sum is64 b x -> a = b.
Proof. intros Ha Hb H. apply sum_inj in H. rewrite (Z.add_comm a), (Z.add_comm b) in H. exact (mod_add_l _ _ _ _ (modulus_pos _) Ha Hb H). Qed.
Lemma calc_range is64 l : forall s, 0 <= s < modulus is64 -> 0 <= calc_hash is64 s l < modulus is64.
Proof. unfold calc_hash. induction l as [|x l IH]; intros s Hs; cbn [fold_left]; [exact Hs|]. apply IH, sum_range. Qed.
Lemma calc_inj is64 l : forall a b, 0 <= a < modulus is64 -> 0 <= b < modulus is64 -> calc_hash is64 a l = calc_hash is64 b l -> a = b.
Proof.
  unfold calc_hash. induction l as [|x l IH]; intros a b Ha Hb; cbn [fold_left]; [auto|]. intros H. apply IH in H; try apply sum_range.
  exact (sum_inj_l _ _ _ _ Ha Hb H).
Qed.
Lemma calc_app is64 s l r : calc_hash is64 s (l ++ r) = calc_hash is64 (calc_hash is64 s l) r.
Proof. apply fold_left_app. Qed.
Definition word is64 (x : Z) := 0 <= x < modulus is64.
Lemma calc_apart is64 s a b : Forall (word is64) a -> Forall (word is64) b -> one_apart a b -> calc_hash is64 s a <> calc_hash is64 s b.
Proof.
  intros Fa Fb (l & x & y & r & -> & -> & N) H. apply N. apply Forall_app in Fa as [_ Fa]. apply Forall_app in Fb as [_ Fb].
  inversion Fa as [|? ? X _]; subst. inversion Fb as [|? ? Y _]; subst.
  change (l ++ x :: r) with (l ++ [x] ++ r) in H. change (l ++ y :: r) with (l ++ [y] ++ r) in H. rewrite !app_assoc, !(calc_app _ _ _ r), !calc_app in H.
  apply calc_inj in H; try (unfold calc_hash; cbn [fold_left]; apply sum_range). unfold calc_hash in H. cbn [fold_left] in H. exact (sum_inj_r _ _ _ _ X Y H).
Qed.

(** *** fixed_string *)
Definition fbits (is64 : bool) : Z := if is64 then 64 else 32.
Definition fprime (is64 : bool) : Z := if is64 then 1099511628211 else 16777619.
Definition fbasis (is64 : bool) : Z := if is64 then 14695981039346656037 else 2166136261.
Definition fstep is64 (v c : Z) : Z := (Z.lxor v (c mod 2 ^ fbits is64) * fprime is64) mod 2 ^ fbits is64.
Lemma fs_hash_fold n is64 f : wf_fs (S n) f -> fs_hash is64 f = Ret (fold_left (fstep is64) (fs_chars f) (fbasis is64)).
Proof.
  intros Hf. unfold fs_hash. destruct (Z.eqb_spec (zlen (fs_data f)) 0) as [Z0|_]; [destruct Hf as [L _]; unfold zlen in Z0; rewrite L in Z0; lia|].
  pose proof (chars_length _ f Hf) as L. unfold fs_size.
  rewrite (fs_hash_loop_ok (S n) f) by (try exact Hf; unfold zlen in *; lia). change (Z.to_nat 0) with 0%nat. cbn [skipn].
  destruct is64; reflexivity.
Qed.
Lemma fbits_mod is64 : 2 ^ fbits is64 = modulus is64. Proof. destruct is64; reflexivity. Qed.
Lemma fold_fnv is64 l : Forall (fun c => 0 <= c < 128) l -> forall h, 0 <= h < modulus is64 ->
  fold_left (fstep is64) l h = fnv_1a (fbits is64) (fprime is64) h (map octet l).
Proof.
  unfold fnv_1a. induction 1 as [|c l Hc _ IH]; intros h Hh; cbn [fold_left map]; [reflexivity|].
  assert (E : fstep is64 h c = (Z.lxor h (octet c) * fprime is64) mod 2 ^ fbits is64).
  { unfold fstep, octet. rewrite (Z.mod_small c 256), (Z.mod_small c (2 ^ fbits is64)); [reflexivity|rewrite fbits_mod; destruct is64; cbn [modulus]; lia|lia]. }
  rewrite IH, E; [reflexivity|]. unfold fstep. rewrite fbits_mod. apply Z.mod_pos_bound, modulus_pos.
Qed.
Lemma fs_fnv n f : wf_fs (S n) f -> Forall (fun c => 0 <= c < 128) (fs_chars f) ->
  fs_hash true f = Ret (fnv_1a_64 (map octet (fs_chars f))) /\ fs_hash false f = Ret (fnv_1a_32 (map octet (fs_chars f))).
Proof. intros W F. rewrite !(fs_hash_fold n _ f W), !fold_fnv by (try assumption; split; vm_compute; congruence). split; reflexivity. Qed.
Lemma fs_fnv_wrong : exists f, wf_fs 1 f /\ Forall is_char (fs_chars f) /\ fs_hash true f <> Ret (fnv_1a_64 (map octet (fs_chars f))) /\
  fs_hash false f <> Ret (fnv_1a_32 (map octet (fs_chars f))).
Proof.
  exists (mkfs 1 [-23]). split; [split; [reflexivity|split; vm_compute; congruence]|]. split; [repeat (constructor; [split; vm_compute; congruence|]); constructor|].
  split; vm_compute; discriminate.
Qed.
Lemma lxor_bound n a b : 0 < n -> 0 <= a < 2 ^ n -> 0 <= b < 2 ^ n -> 0 <= Z.lxor a b < 2 ^ n.
Proof.
  intros Hn Ha Hb. assert (P : 0 <= Z.lxor a b) by (apply Z.lxor_nonneg; lia). split; [exact P|].
  destruct (Z.eq_dec (Z.lxor a b) 0) as [->|N]; [lia|]. apply Z.log2_lt_pow2; [lia|]. clear N P.
  apply Z.le_lt_trans with (1 := Z.log2_lxor a b (proj1 Ha) (proj1 Hb)). apply Z.max_lub_lt.
  - destruct (Z.eq_dec a 0) as [->|]; [exact Hn|]. apply Z.log2_lt_pow2; lia.
  - destruct (Z.eq_dec b 0) as [->|]; [exact Hn|]. apply Z.log2_lt_pow2; lia.
Qed.
Lemma fstep_inj is64 v c w d : 0 <= v < modulus is64 -> 0 <= w < modulus is64 -> fstep is64 v c = fstep is64 w d ->
  Z.lxor v (c mod modulus is64) = Z.lxor w (d mod modulus is64).
Proof.
  intros Hv Hw. unfold fstep. rewrite fbits_mod. pose proof (modulus_pos is64) as M. intros H.
  assert (B : forall a x, 0 <= a < modulus is64 -> 0 <= Z.lxor a (x mod modulus is64) < modulus is64).
  { intros a x Ha. rewrite <- fbits_mod in *. apply lxor_bound; [destruct is64; reflexivity|exact Ha|apply Z.mod_pos_bound; exact M]. }
  revert H. generalize (B v c Hv) (B w d Hw). generalize (Z.lxor v (c mod modulus is64)) (Z.lxor w (d mod modulus is64)). clear. intros x y Hx Hy.
  apply (odd_inj _ _ (if is64 then 14886173955864302971 else 899433627) x y (modulus_pos is64)); try assumption. destruct is64; vm_compute; reflexivity.
Qed.
Lemma lxor_cancel a x y : Z.lxor a x = Z.lxor a y -> x = y.
Proof. intros H. rewrite <- (Z.lxor_0_l x), <- (Z.lxor_0_l y), <- (Z.lxor_nilpotent a), !Z.lxor_assoc, H. reflexivity. Qed.
Lemma fstep_range is64 v c : 0 <= fstep is64 v c < modulus is64.
Proof. unfold fstep. rewrite fbits_mod. apply Z.mod_pos_bound, modulus_pos. Qed.
Lemma ffold_inj is64 l : forall v w, 0 <= v < modulus is64 -> 0 <= w < modulus is64 -> fold_left (fstep is64) l v = fold_left (fstep is64) l w -> v = w.
Proof.
  induction l as [|c l IH]; intros v w Hv Hw; cbn [fold_left]; [auto|]. intros H. apply IH in H; try apply fstep_range.
  apply fstep_inj in H; try assumption. rewrite !(Z.lxor_comm _ (c mod _)) in H. exact (lxor_cancel _ _ _ H).
Qed.
Lemma ffold_range is64 l : forall v, 0 <= v < modulus is64 -> 0 <= fold_left (fstep is64) l v < modulus is64.
Proof. induction l as [|c l IH]; intros v Hv; cbn [fold_left]; [exact Hv|]. apply IH, fstep_range. Qed.
Lemma char_mod is64 c d : is_char c -> is_char d -> c mod modulus is64 = d mod modulus is64 -> c = d.
Proof.
  unfold is_char. intros Hc Hd H. assert (G : forall x, -128 <= x < 128 -> x = (x mod modulus is64 + 128) mod modulus is64 - 128).
  { intros x Hx. rewrite Zplus_mod_idemp_l, Z.mod_small; [lia|]. destruct is64; cbn [modulus]; lia. }
  rewrite (G c Hc), (G d Hd), H. reflexivity.
Qed.
Lemma ffold_apart is64 a b v : 0 <= v < modulus is64 -> Forall is_char a -> Forall is_char b -> one_apart a b -> fold_left (fstep is64) a v <> fold_left (fstep is64) b v.
Proof.
  intros Hv Fa Fb (l & x & y & r & -> & -> & N) H. apply N. apply Forall_app in Fa as [_ Fa]. apply Forall_app in Fb as [_ Fb].
  inversion Fa as [|? ? X _]; subst. inversion Fb as [|? ? Y _]; subst. rewrite !fold_left_app in H. cbn [fold_left] in H.
  apply ffold_inj in H; try apply fstep_range. apply fstep_inj in H; try (apply ffold_range; exact Hv). apply lxor_cancel in H. exact (char_mod _ _ _ X Y H).
Qed.
Lemma fbasis_range is64 : 0 <= fbasis is64 < modulus is64. Proof. destruct is64; split; vm_compute; congruence. Qed.
Lemma fs_apart n m f g is64 x y : wf_fs (S n) f -> wf_fs (S m) g -> Forall is_char (fs_chars f) -> Forall is_char (fs_chars g) -> one_apart (fs_chars f) (fs_chars g) ->
  fs_hash is64 f = Ret x -> fs_hash is64 g = Ret y -> x <> y.
Proof.
  intros Wf Wg Cf Cg A. rewrite (fs_hash_fold n _ _ Wf), (fs_hash_fold m _ _ Wg). intros [= <-] [= <-]. apply ffold_apart; try assumption. apply fbasis_range.
Qed.

(** *** Addresses *)
Definition seed_of (is64 : bool) (v : ver) (scope : list Z) : Z := match v with V4 => 0 | V6 => fold_left (fstep is64) scope (fbasis is64) end.
Lemma seed_range is64 v s : 0 <= seed_of is64 v s < modulus is64.
Proof. destruct v; cbn [seed_of]; [pose proof (modulus_pos is64); lia|apply ffold_range, fbasis_range]. Qed.
Lemma addr_hash_fold is64 v a : wf_addr v a -> addr_hash is64 v a = Ret (calc_hash is64 (seed_of is64 v (a_scope a)) (a_bytes a)).
Proof.
  intros Ha. unfold addr_hash. destruct v; [reflexivity|]. destruct Ha as [_ [Sa _]]. destruct (scope_fs_wf _ (scope_len _ Sa)) as [W E].
  rewrite (fs_hash_fold 15 _ _ W), E. reflexivity.
Qed.
Lemma bytes_words is64 v a : wf_addr v a -> Forall (word is64) (a_bytes a).
Proof.
  intros [[_ F] _]. eapply Forall_impl; [|exact F]. cbv beta. unfold is_byte, word. intros x Hx. destruct is64; cbn [modulus]; lia.
Qed.
Lemma addr_apart is64 v a b x y : wf_addr v a -> wf_addr v b -> a_scope a = a_scope b -> one_apart (a_bytes a) (a_bytes b) ->
  addr_hash is64 v a = Ret x -> addr_hash is64 v b = Ret y -> x <> y.
Proof.
  intros Wa Wb Es A. rewrite (addr_hash_fold _ _ _ Wa), (addr_hash_fold _ _ _ Wb), Es. intros [= <-] [= <-].
  apply calc_apart; [exact (bytes_words _ _ _ Wa)|exact (bytes_words _ _ _ Wb)|exact A].
Qed.
Lemma scope_apart is64 a b x y : wf_addr V6 a -> wf_addr V6 b -> val a = val b -> one_apart (a_scope a) (a_scope b) ->
  addr_hash is64 V6 a = Ret x -> addr_hash is64 V6 b = Ret y -> x <> y.
Proof.
  intros Wa Wb Ev A. rewrite (addr_hash_fold _ _ _ Wa), (addr_hash_fold _ _ _ Wb).
  assert (Eb : a_bytes a = a_bytes b) by (eapply (val_inj V6); eassumption). rewrite Eb. intros [= <-] [= <-] H.
  apply (calc_inj _ _ _ _ (seed_range is64 V6 _) (seed_range is64 V6 _)) in H. cbn [seed_of] in H. revert H. destruct Wa as (_ & _ & Ca), Wb as (_ & _ & Cb). exact (ffold_apart is64 _ _ _ (fbasis_range is64) Ca Cb A).
Qed.
Lemma be_last l x : be_value (l ++ [x]) = be_value l * 256 + x.
Proof. unfold be_value. assert (G : forall l a, horner 256 a (l ++ [x]) = horner 256 a l * 256 + x). { clear l. induction l as [|c l IH]; intros a; cbn [horner app]; [reflexivity|apply IH]. } apply G. Qed.
Lemma block_apart is64 v a b x y : wf_addr v a -> wf_addr v b -> a_scope a = a_scope b -> val a / 256 = val b / 256 -> a <> b ->
  addr_hash is64 v a = Ret x -> addr_hash is64 v b = Ret y -> x <> y.
Proof.
  intros Wa Wb Es Ev N. apply (addr_apart is64 v a b); try assumption.
  destruct Wa as [[La Fa] Ra], Wb as [[Lb Fb] Rb]. unfold val in Ev.
  destruct (exists_last (l := a_bytes a)) as (l & c & Ea); [intros Z0; rewrite Z0 in La; destruct v; discriminate|].
  destruct (exists_last (l := a_bytes b)) as (m & d & Eb); [intros Z0; rewrite Z0 in Lb; destruct v; discriminate|].
  pose proof Fa as Fa'. pose proof Fb as Fb'. rewrite Ea in Fa'. rewrite Eb in Fb'. apply Forall_app in Fa' as [Fl Fc]. apply Forall_app in Fb' as [Fm Fd]. inversion Fc as [|? ? C _]; inversion Fd as [|? ? D _]; subst.
  rewrite Ea, Eb, !be_last in Ev. unfold is_byte in C, D.
  assert (E : be_value l = be_value m) by lia.
  assert (Lm : length l = length m). { rewrite Ea, app_length in La. rewrite Eb, app_length in Lb. cbn [length] in La, Lb. lia. }
  assert (l = m) as ->. { revert E. clear -Fl Fm Lm. revert m Fm Lm. induction l as [|p l IH]; intros [|q m] Fm Lm; try discriminate; [reflexivity|]. rewrite !be_cons.
    inversion Fl as [|? ? P Fl']; inversion Fm as [|? ? Q Fm']; subst. injection Lm as Lm.
    assert (R : forall t, Forall is_byte t -> 0 <= be_value t < 256 ^ zlen t).
    { clear. intros t F. induction F as [|c t Hc F IH]; [split; [reflexivity|reflexivity]|]. rewrite be_cons. unfold zlen in *. cbn [length]. rewrite Nat2Z.inj_succ, Z.pow_succ_r by lia. unfold is_byte in Hc. nia. }
    pose proof (R l Fl') as B1. pose proof (R m Fm') as B2. assert (zlen l = zlen m) as Z1 by (unfold zlen; lia). rewrite Z1 in *. intros E. unfold is_byte in P, Q.
    assert (p = q) by nia. subst q. f_equal. apply IH; try assumption. lia. }
  exists m, c, d, []. rewrite Ea, Eb. split; [reflexivity|]. split; [reflexivity|]. intros ->. apply N.
  destruct a, b. cbn in *. congruence.
Qed.

(** *** Lists without repetition, by computation *)
Fixpoint distinct (k : nat) (l : list Z) : bool :=
  match l with
  | [] | [_] => true
  | _ => match k with
         | O => false
         | S k' => distinct k' (map Z.div2 (filter Z.odd l)) && distinct k' (map Z.div2 (filter Z.even l))
         end
  end.
Lemma nodup_halves (l : list Z) : NoDup (filter Z.odd l) -> NoDup (filter Z.even l) -> NoDup l.
Proof.
  induction l as [|x l IH]; intros Ho He; [constructor|]. cbn [filter] in Ho, He. rewrite <- Z.negb_odd in He. destruct (Z.odd x) eqn:Ex; cbn [negb] in He.
  - inversion Ho as [|? ? N Ho']; subst. constructor; [|auto]. intros I. apply N. apply filter_In. auto.
  - inversion He as [|? ? N He']; subst. constructor; [|auto]. intros I. apply N. apply filter_In. split; [exact I|]. rewrite <- Z.negb_odd, Ex. reflexivity.
Qed.
Lemma distinct_ok : forall k l, distinct k l = true -> NoDup l.
Proof.
  induction k as [|k IH]; intros l H.
  - destruct l as [|x [|y l]]; [constructor|repeat constructor; intros []|discriminate].
  - destruct l as [|x [|y l]]; [constructor|repeat constructor; intros []|]. cbn [distinct] in H. apply andb_prop in H as [Ho He].
    apply nodup_halves; eapply NoDup_map_inv; apply IH; eassumption.
Qed.
Lemma nodup_inj {A} (h : A -> Z) l p q : NoDup (map h l) -> In p l -> In q l -> h p = h q -> p = q.
Proof.
  induction l as [|x l IH]; intros D Ip Iq E; [destruct Ip|]. inversion D as [|? ? N D']; subst.
  destruct Ip as [->|Ip], Iq as [->|Iq]; [reflexivity| | |auto].
  - destruct N. rewrite E. apply in_map. exact Iq.
  - destruct N. rewrite <- E. apply in_map. exact Ip.
Qed.

(** *** Networks *)
Definition mask_hash is64 v (p : nat) : Z := match addr_hash is64 v (mask_of v (Z.of_nat p)) with Ret h => h | _ => 0 end.
Lemma masks_distinct is64 v : NoDup (map (mask_hash is64 v) (seq 0 (Z.to_nat (width v) + 1))).
Proof. apply (distinct_ok 64). destruct is64, v; vm_compute; reflexivity. Qed.
Lemma mask_hash_eq is64 v n x : wf_net v n -> addr_hash is64 v (n_mask n) = Ret x -> x = mask_hash is64 v (Z.to_nat (n_prefix n)).
Proof. intros W H. unfold mask_hash. rewrite Z2Nat.id by (destruct W as (_ & _ & _ & P & _); lia). rewrite <- (net_mask_eq v n W), H. reflexivity. Qed.
Lemma mask_hash_inj is64 v n m x : wf_net v n -> wf_net v m -> addr_hash is64 v (n_mask n) = Ret x -> addr_hash is64 v (n_mask m) = Ret x -> n_prefix n = n_prefix m.
Proof.
  intros Wn Wm Hn Hm. apply (mask_hash_eq _ _ _ _ Wn) in Hn. apply (mask_hash_eq _ _ _ _ Wm) in Hm. subst x.
  destruct Wn as (_ & _ & _ & P & _), Wm as (_ & _ & _ & Q & _). apply Z2Nat.inj; [lia|lia|]. apply (nodup_inj _ _ _ _ (masks_distinct is64 v)); [| |exact Hm].
  - apply in_seq. lia.
  - apply in_seq. lia.
Qed.
Lemma addr_hash_range is64 v a x : wf_addr v a -> addr_hash is64 v a = Ret x -> 0 <= x < modulus is64.
Proof. intros W. rewrite (addr_hash_fold _ _ _ W). intros [= <-]. apply calc_range, seed_range. Qed.
Lemma net_hash_sum is64 v n x y : addr_hash is64 v (n_addr n) = Ret x -> addr_hash is64 v (n_mask n) = Ret y -> net_hash is64 v n = Ret (hash_sum is64 x y).
Proof. intros Hx Hy. unfold net_hash. rewrite Hx, Hy. reflexivity. Qed.
Lemma prefix_apart is64 v n m x y : wf_net v n -> wf_net v m -> n_addr n = n_addr m -> n_prefix n <> n_prefix m ->
  net_hash is64 v n = Ret x -> net_hash is64 v m = Ret y -> x <> y.
Proof.
  intros Wn Wm Ea N. destruct (addr_hash_defined is64 v _ (proj1 Wn)) as (a & Ha). destruct (addr_hash_defined is64 v _ (proj1 (proj2 Wn))) as (b & Hb). destruct (addr_hash_defined is64 v _ (proj1 (proj2 Wm))) as (c & Hc).
  rewrite (net_hash_sum _ _ _ _ _ Ha Hb). rewrite Ea in Ha. rewrite (net_hash_sum _ _ _ _ _ Ha Hc). intros [= <-] [= <-] H. apply N.
  apply sum_inj_r in H; [|exact (addr_hash_range _ _ _ _ (proj1 (proj2 Wn)) Hb)|exact (addr_hash_range _ _ _ _ (proj1 (proj2 Wm)) Hc)]. subst c.
  exact (mask_hash_inj is64 v n m b Wn Wm Hb Hc).
Qed.
Lemma net_apart is64 v n m x y : wf_net v n -> wf_net v m -> n_prefix n = n_prefix m -> a_scope (n_addr n) = a_scope (n_addr m) -> one_apart (a_bytes (n_addr n)) (a_bytes (n_addr m)) ->
  net_hash is64 v n = Ret x -> net_hash is64 v m = Ret y -> x <> y.
Proof.
  intros Wn Wm Ep Es A. destruct (addr_hash_defined is64 v _ (proj1 Wn)) as (a & Ha). destruct (addr_hash_defined is64 v _ (proj1 Wm)) as (b & Hb). destruct (addr_hash_defined is64 v _ (proj1 (proj2 Wn))) as (c & Hc).
  assert (Em : n_mask n = n_mask m) by (rewrite (net_mask_eq v n Wn), (net_mask_eq v m Wm), Ep; reflexivity).
  rewrite (net_hash_sum _ _ _ _ _ Ha Hc). rewrite Em in Hc. rewrite (net_hash_sum _ _ _ _ _ Hb Hc). intros [= <-] [= <-] H.
  apply sum_inj_l in H; [|exact (addr_hash_range _ _ _ _ (proj1 Wn) Ha)|exact (addr_hash_range _ _ _ _ (proj1 Wm) Hb)].
  exact (addr_apart is64 v _ _ _ _ (proj1 Wn) (proj1 Wm) Es A Ha Hb H).
Qed.

(** *** 128-bit numbers *)
Lemma c8_range x : 0 <= x < 2 ^ 64 -> 0 <= hash_combine8 x < 2 ^ 64. Proof. exact (combine_range true x). Qed.
Lemma u128_sum a : wf128 a -> u128_hash 64 a = hash_sum true (hash_combine8 (up a)) (lo a).
Proof.
  intros [Ua La]. unfold u128_hash. cbv zeta. rewrite (Z.mod_small (hash_combine8 (up a))) by (apply c8_range; exact Ua).
  change (w64 ((hash_combine8 (up a) + 2654435769) mod 2 ^ 64 + lo a)) with (w64 (w64 (hash_combine8 (up a) + 2654435769) + lo a)).
  unfold hash_sum. apply Z.mod_small. apply c8_range. unfold w64 at 1 3. apply wmod. reflexivity.
Qed.
Lemma u128_apart a b : wf128 a -> wf128 b -> a <> b -> up a = up b \/ lo a = lo b -> u128_hash 64 a <> u128_hash 64 b.
Proof.
  intros Wa Wb N D. rewrite (u128_sum a Wa), (u128_sum b Wb). intros H. apply N.
  destruct a as [ua la], b as [ub lb], Wa as [Ua La], Wb as [Ub Lb]; cbn [up lo] in *. destruct D as [->| ->].
  - f_equal. exact (sum_inj_r true _ _ _ La Lb H).
  - f_equal. apply (sum_inj_l true _ _ _ (c8_range _ Ua) (c8_range _ Ub)) in H. exact (combine8_inj _ _ Ua Ub H).
Qed.

(** *** IPv4 in 64 bits: the states after one byte are at least 256 apart *)
Definition state1 (x : Z) : Z := hash_sum true 0 x.
Definition key0 (x : Z) : Z := state1 x / 512.
Definition key1 (x : Z) : Z := (state1 x + 256) mod 2 ^ 64 / 512.
Definition bytes256 : list Z := map Z.of_nat (seq 0 256).
Lemma keys0 : NoDup (map key0 bytes256).
Proof. apply (distinct_ok 64). vm_compute. reflexivity. Qed.
Lemma keys1 : NoDup (map key1 bytes256).
Proof. apply (distinct_ok 64). vm_compute. reflexivity. Qed.
Lemma in256 x : is_byte x -> In x bytes256.
Proof. intros H. unfold is_byte in H. apply in_map_iff. exists (Z.to_nat x). split; [lia|]. apply in_seq. lia. Qed.
Lemma grids a b x y : 0 <= a < 2 ^ 64 -> 0 <= b < 2 ^ 64 -> is_byte x -> is_byte y -> (a + x) mod 2 ^ 64 = (b + y) mod 2 ^ 64 ->
  a / 512 = b / 512 \/ (a + 256) mod 2 ^ 64 / 512 = (b + 256) mod 2 ^ 64 / 512.
Proof. unfold is_byte. change (2 ^ 64) with 18446744073709551616. intros. lia. Qed.
Lemma first_two x y z w : is_byte x -> is_byte y -> is_byte z -> is_byte w -> hash_sum true (state1 x) z = hash_sum true (state1 y) w -> x = y /\ z = w.
Proof.
  intros Hx Hy Hz Hw H. assert (x = y).
  { pose proof (sum_inj _ _ _ _ _ H) as G. cbn [modulus] in G. destruct (grids _ _ _ _ (sum_range true 0 x) (sum_range true 0 y) Hz Hw G) as [K|K].
    - exact (nodup_inj key0 _ _ _ keys0 (in256 _ Hx) (in256 _ Hy) K).
    - exact (nodup_inj key1 _ _ _ keys1 (in256 _ Hx) (in256 _ Hy) K). }
  subst y. split; [reflexivity|]. unfold is_byte in *. apply (sum_inj_r true (state1 x)); [cbn [modulus]; lia|cbn [modulus]; lia|exact H].
Qed.
Lemma four_steps p q r t : calc_hash true 0 [p; q; r; t] = calc_hash true (hash_sum true (state1 p) q) [r; t].
Proof. unfold calc_hash, state1. cbn [fold_left]. reflexivity. Qed.
Lemma v4_halves a b x y : wf_addr V4 a -> wf_addr V4 b -> val a mod 2 ^ 16 = val b mod 2 ^ 16 -> a <> b ->
  addr_hash true V4 a = Ret x -> addr_hash true V4 b = Ret y -> x <> y.
Proof.
  intros Wa Wb E N. rewrite (addr_hash_fold _ _ _ Wa), (addr_hash_fold _ _ _ Wb). cbn [seed_of]. intros [= <-] [= <-] H. apply N.
  destruct Wa as [[La Fa] Sa], Wb as [[Lb Fb] Sb]. destruct a as [ba sa], b as [bb sb]. cbn [a_bytes a_scope] in *. subst sa sb.
  destruct ba as [|a0 [|a1 [|a2 [|a3 [|]]]]]; try discriminate. destruct bb as [|b0 [|b1 [|b2 [|b3 [|]]]]]; try discriminate. clear La Lb.
  repeat match goal with F : Forall _ (_ :: _) |- _ => apply Forall_cons_iff in F; destruct F end.
  unfold val in E. cbn [a_bytes] in E. rewrite !be_value4 in E. unfold pack4 in E. unfold is_byte in *.
  assert (a2 = b2 /\ a3 = b3) as [-> ->] by (clear H N; pows; lia).
  rewrite !four_steps in H. apply calc_inj in H; [|apply sum_range|apply sum_range].
  destruct (first_two a0 b0 a1 b1) as [-> ->]; try assumption. reflexivity.
Qed.

(** *** Collisions *)
Lemma v6_collide is64 : exists a b h, wf_addr V6 a /\ wf_addr V6 b /\ a <> b /\ addr_hash is64 V6 a = Ret h /\ addr_hash is64 V6 b = Ret h.
Proof.
  destruct is64.
  - exists (addr_at V6 "2001:db8::f:3c03:7455"), (addr_at V6 "2001:db8::e:8b0:2800"). eexists. do 2 (split; [apply addr_at_wf; reflexivity|]). split; [vm_compute; discriminate|].
    split; vm_compute; reflexivity.
  - exists (addr_at V6 "2001:db8::b:1700"), (addr_at V6 "2001:db8::11:3dc6"). eexists. do 2 (split; [apply addr_at_wf; reflexivity|]). split; [vm_compute; discriminate|].
    split; vm_compute; reflexivity.
Qed.
Lemma v4_collide : exists a b h, wf_addr V4 a /\ wf_addr V4 b /\ a <> b /\ addr_hash false V4 a = Ret h /\ addr_hash false V4 b = Ret h.
Proof.
  exists (addr_at V4 "10.11.73.0"), (addr_at V4 "10.31.56.125"). eexists. do 2 (split; [apply addr_at_wf; reflexivity|]). split; [vm_compute; discriminate|].
  split; vm_compute; reflexivity.
Qed.
Lemma net_collide is64 : exists n m h, wf_net V6 n /\ wf_net V6 m /\ n <> m /\ net_hash is64 V6 n = Ret h /\ net_hash is64 V6 m = Ret h.
Proof.
  destruct is64.
  - exists (net_at V6 "2001:db8::f:3c03:7455/128"), (net_at V6 "2001:db8::e:8b0:2800/128"). eexists. do 2 (split; [wfn|]). split; [vm_compute; discriminate|]. split; vm_compute; reflexivity.
  - exists (net_at V6 "2001:db8::b:1700/128"), (net_at V6 "2001:db8::11:3dc6/128"). eexists. do 2 (split; [wfn|]). split; [vm_compute; discriminate|]. split; vm_compute; reflexivity.
Qed.
Lemma u128_collide : exists a b, wf128 a /\ wf128 b /\ a <> b /\ u128_hash 64 a = u128_hash 64 b.
Proof.
  exists (mk128 0 0), (mk128 1 (2 ^ 64 - hash_combine8 1)). split; [split; vm_compute; split; congruence|]. split; [split; vm_compute; split; congruence|]. split; [discriminate|]. vm_compute. reflexivity.
Qed.
(** On a version-erased value, an address of each version. *)
Lemma any_apart is64 v a b x y : wf_addr v a -> wf_addr v b -> a_scope a = a_scope b -> one_apart (a_bytes a) (a_bytes b) ->
  any_hash is64 (mk_aa v a) = Ret x -> any_hash is64 (mk_aa v b) = Ret y -> x <> y.
Proof. destruct v; unfold any_hash; cbn; [exact (addr_apart is64 V4 a b x y)|exact (addr_apart is64 V6 a b x y)]. Qed.
Lemma anet_apart is64 v n m x y : wf_net v n -> wf_net v m -> n_addr n = n_addr m -> n_prefix n <> n_prefix m ->
  anet_hash is64 (mk_an v n) = Ret x -> anet_hash is64 (mk_an v m) = Ret y -> x <> y.
Proof. destruct v; unfold anet_hash, anet_is_v4; cbn; [exact (prefix_apart is64 V4 n m x y)|exact (prefix_apart is64 V6 n m x y)]. Qed.
