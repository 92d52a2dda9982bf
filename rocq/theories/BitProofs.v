(** Bit-by-bit equality of machine integers, and the byte swap. *)
From Verif Require Import Base Tac SpecText TextProofs SpecAddr V4Model V4Proofs V4Format.

Definition upto (n : nat) : list Z := map Z.of_nat (seq 0 n).
Lemma in_upto n k : 0 <= k < Z.of_nat n -> In k (upto n).
Proof. intros. unfold upto. apply in_map_iff. exists (Z.to_nat k). rewrite in_seq. lia. Qed.

Lemma bits_ext w x y : 0 <= x < 2 ^ Z.of_nat w -> 0 <= y < 2 ^ Z.of_nat w ->
  (forall n, In n (upto w) -> Z.testbit x n = Z.testbit y n) -> x = y.
Proof.
  intros Hx Hy H. apply Z.bits_inj'. intros n Hn.
  destruct (Z.ltb_spec n (Z.of_nat w)); [apply H, in_upto; lia|].
  assert (A : forall z, 0 <= z < 2 ^ Z.of_nat w -> Z.testbit z n = false).
  { intros z Hz. destruct (Z.eq_dec z 0) as [->|]; [apply Z.bits_0|]. apply Z.bits_above_log2; [lia|].
    apply Z.lt_le_trans with (Z.of_nat w); [apply Z.log2_lt_pow2; lia|lia]. }
  rewrite !A by assumption. reflexivity.
Qed.

(** Normalise bits at a concrete position. *)
Ltac evalz :=
  repeat match goal with
  | |- context [Z.testbit ?x ?e] =>
      lazymatch e with Z0 => fail | Zpos _ => fail | Zneg _ => fail | _ => idtac end;
      let v := eval vm_compute in e in
      lazymatch v with Z0 => idtac | Zpos _ => idtac | Zneg _ => idtac end; change e with v
  end.
Ltac evalc :=
  repeat match goal with
  | |- context [Z.testbit ?x ?e] =>
      lazymatch x with Z0 => idtac | Zpos _ => idtac | Zneg _ => idtac end;
      let v := eval vm_compute in (Z.testbit x e) in change (Z.testbit x e) with v
  end.
Ltac bitstep :=
  repeat (first
   [ rewrite Z.lor_spec | rewrite Z.land_spec | rewrite Z.lxor_spec
   | rewrite Z.mod_pow2_bits_low by lia | rewrite Z.mod_pow2_bits_high by lia
   | rewrite Z.shiftl_spec by lia | rewrite Z.shiftr_spec by lia
   | rewrite Z.div_pow2_bits by lia
   | rewrite Z.testbit_neg_r by lia ]; evalz; evalc);
  cbn [andb orb xorb negb]; rewrite ?andb_true_r, ?andb_false_r, ?orb_false_r, ?orb_true_r.
Ltac each_bit := let n := fresh "n" in let H := fresh "H" in
  intros n H; cbv [upto seq map] in H; cbn [In] in H;
  repeat (destruct H as [H|H]; [subst n|]); [..|contradiction].

Lemma w32_range x : 0 <= w32 x < 2 ^ 32.
Proof. unfold w32. apply Z.mod_pos_bound. reflexivity. Qed.
Lemma w8_range x : 0 <= w8 x < 2 ^ 8.
Proof. unfold w8. apply Z.mod_pos_bound. reflexivity. Qed.

Lemma lor_lt a b n : 0 <= n -> 0 <= a < 2 ^ n -> 0 <= b < 2 ^ n -> 0 <= Z.lor a b < 2 ^ n.
Proof.
  intros Hn Ha Hb. split; [apply Z.lor_nonneg; lia|].
  assert (E : Z.lor a b = Z.lor a b mod 2 ^ n); [|rewrite E; apply Z.mod_pos_bound; lia].
  apply Z.bits_inj'. intros k Hk. destruct (Z.ltb_spec k n).
  - rewrite Z.mod_pow2_bits_low by lia. reflexivity.
  - rewrite Z.mod_pow2_bits_high by lia. rewrite Z.lor_spec.
    rewrite <- (Z.mod_small a (2 ^ n)), <- (Z.mod_small b (2 ^ n)) by lia.
    rewrite !Z.mod_pow2_bits_high by lia. reflexivity.
Qed.
Lemma land_lt a b n : 0 <= n -> 0 <= a -> 0 <= b < 2 ^ n -> 0 <= Z.land a b < 2 ^ n.
Proof.
  intros Hn Ha Hb. split; [apply Z.land_nonneg; lia|].
  assert (E : Z.land a b = Z.land a b mod 2 ^ n); [|rewrite E; apply Z.mod_pos_bound; lia].
  apply Z.bits_inj'. intros k Hk. destruct (Z.ltb_spec k n).
  - rewrite Z.mod_pow2_bits_low by lia. reflexivity.
  - rewrite Z.mod_pow2_bits_high by lia. rewrite Z.land_spec.
    rewrite <- (Z.mod_small b (2 ^ n)) by lia.
    rewrite !Z.mod_pow2_bits_high, andb_false_r by lia. reflexivity.
Qed.
Lemma shiftr_lt a k n : 0 <= k -> 0 <= n -> 0 <= a < 2 ^ n -> 0 <= Z.shiftr a k < 2 ^ n.
Proof.
  intros. rewrite Z.shiftr_div_pow2 by lia. pose proof (pow2_pos k ltac:(lia)). split; [apply Z.div_pos; lia|].
  apply Z.div_lt_upper_bound; nia.
Qed.

Lemma swap_range x : 0 <= x < 2 ^ 32 -> 0 <= swap_bytes x < 2 ^ 32.
Proof.
  intros H. unfold swap_bytes. apply lor_lt; [lia|apply w32_range|].
  apply shiftr_lt; [lia|lia|]. apply lor_lt; [lia|..].
  - apply land_lt; [lia|apply w32_range|split; [lia|reflexivity]].
  - apply land_lt; [lia|apply Z.shiftr_nonneg; lia|split; [lia|reflexivity]].
Qed.

(** The integer with given four bytes. *)
Definition pack4 (a b c d : Z) : Z := ((a * 256 + b) * 256 + c) * 256 + d.
Lemma be_value4 a b c d : be_value [a; b; c; d] = pack4 a b c d.
Proof. unfold be_value, pack4. cbn [horner]. ring. Qed.

Lemma pack4_range a b c d : is_byte a -> is_byte b -> is_byte c -> is_byte d -> 0 <= pack4 a b c d < 2 ^ 32.
Proof. unfold is_byte, pack4. pows. lia. Qed.

Lemma pack4_lor a b c d : is_byte a -> is_byte b -> is_byte c -> is_byte d ->
  pack4 a b c d = Z.lor (Z.shiftl a 24) (Z.lor (Z.shiftl b 16) (Z.lor (Z.shiftl c 8) d)).
Proof.
  unfold is_byte. intros. rewrite !shl_mul by lia.
  rewrite (lor_add c d 8) by (pows; lia).
  rewrite (lor_add b _ 16) by (pows; lia). rewrite (lor_add a _ 24) by (change (2 ^ 24) with 16777216; pows; lia).
  unfold pack4. change (2 ^ 24) with 16777216. pows. lia.
Qed.

Lemma byte_high a n : is_byte a -> 8 <= n -> Z.testbit a n = false.
Proof.
  unfold is_byte. intros H Hn. rewrite <- (Z.mod_small a (2 ^ 8)) by (pows; lia).
  apply Z.mod_pow2_bits_high. lia.
Qed.

Lemma swap_pack a b c d : is_byte a -> is_byte b -> is_byte c -> is_byte d ->
  swap_bytes (pack4 a b c d) = pack4 d c b a.
Proof.
  intros Ha Hb Hc Hd. apply (bits_ext 32).
  - apply swap_range, pack4_range; assumption.
  - apply pack4_range; assumption.
  - rewrite !pack4_lor by assumption. unfold swap_bytes, w32.
    each_bit; bitstep; rewrite ?(byte_high a), ?(byte_high b), ?(byte_high c), ?(byte_high d) by (assumption || lia);
    cbn [andb orb]; rewrite ?orb_false_r; reflexivity.
Qed.

Lemma v4_to_uint_pack le a b c d : is_byte a -> is_byte b -> is_byte c -> is_byte d ->
  v4_to_uint le [a; b; c; d] = Ret (if le then pack4 a b c d else pack4 d c b a).
Proof.
  intros Ha Hb Hc Hd. unfold v4_to_uint.
  change (rd [a; b; c; d] 0) with (Ret a). change (rd [a; b; c; d] 1) with (Ret b).
  change (rd [a; b; c; d] 2) with (Ret c). change (rd [a; b; c; d] 3) with (Ret d). cbn [bind].
  assert (E : Z.lor (Z.lor (Z.lor (w32 (Z.shiftl d 24)) (w32 (Z.shiftl c 16))) (w32 (Z.shiftl b 8))) a = pack4 d c b a).
  { rewrite pack4_lor by assumption. unfold is_byte, w32 in *. rewrite !Z.mod_small.
    - rewrite !Z.lor_assoc. reflexivity.
    - rewrite shl_mul by lia. pows. lia.
    - rewrite shl_mul by lia. pows. lia.
    - rewrite shl_mul by lia. change (2 ^ 24) with 16777216. pows. lia. }
  rewrite E. destruct le; [|reflexivity]. rewrite swap_pack by assumption. reflexivity.
Qed.

Lemma land_255 x : Z.land x 255 = x mod 256.
Proof. change 255 with (Z.ones 8). apply Z.land_ones. lia. Qed.
Lemma w8_mod x : w8 (x mod 256) = x mod 256.
Proof. unfold w8. pows. apply Z.mod_mod. lia. Qed.

Lemma pack4_bytes a b c d : is_byte a -> is_byte b -> is_byte c -> is_byte d ->
  v4_from_uint false (pack4 a b c d) = [d; c; b; a].
Proof.
  unfold is_byte. intros Ha Hb Hc Hd. unfold v4_from_uint. rewrite !land_255, !w8_mod, !shr_div by lia.
  unfold pack4. change (2 ^ 24) with 16777216. pows. repeat f_equal; lia.
Qed.

Lemma unpack4 n : 0 <= n < 2 ^ 32 -> exists a b c d, is_byte a /\ is_byte b /\ is_byte c /\ is_byte d /\ n = pack4 a b c d.
Proof.
  intros H. exists (n / 16777216), (n / 65536 mod 256), (n / 256 mod 256), (n mod 256).
  unfold is_byte, pack4. pows. repeat split; lia.
Qed.

Lemma v4_from_uint_pack le a b c d : is_byte a -> is_byte b -> is_byte c -> is_byte d ->
  v4_from_uint le (pack4 a b c d) = if le then [a; b; c; d] else [d; c; b; a].
Proof.
  intros Ha Hb Hc Hd. destruct le; [|apply pack4_bytes; assumption].
  change (v4_from_uint true (pack4 a b c d)) with (v4_from_uint false (swap_bytes (pack4 a b c d))).
  rewrite swap_pack, pack4_bytes by assumption. reflexivity.
Qed.

Lemma bytes4 bs : bytes_ok V4 bs -> exists a b c d, bs = [a; b; c; d] /\ is_byte a /\ is_byte b /\ is_byte c /\ is_byte d.
Proof.
  intros [Hl HF]. destruct (list4 bs) as (a & b & c & d & ->); [unfold zlen; rewrite Hl; reflexivity|].
  inversion HF as [|? ? Ha HF1]; subst. inversion HF1 as [|? ? Hb HF2]; subst.
  inversion HF2 as [|? ? Hc HF3]; subst. inversion HF3 as [|? ? Hd _]; subst.
  exists a, b, c, d. auto.
Qed.
Lemma bytes4_ok a b c d : is_byte a -> is_byte b -> is_byte c -> is_byte d -> bytes_ok V4 [a; b; c; d].
Proof. intros. split; [reflexivity|]. repeat constructor; unfold is_byte in *; lia. Qed.

Lemma v4_to_uint_ok bs : bytes_ok V4 bs -> v4_to_uint true bs = Ret (be_value bs).
Proof.
  intros H. destruct (bytes4 bs H) as (a & b & c & d & -> & Ha & Hb & Hc & Hd).
  rewrite v4_to_uint_pack, be_value4 by assumption. reflexivity.
Qed.
Lemma v4_from_uint_ok n : 0 <= n < 2 ^ 32 ->
  bytes_ok V4 (v4_from_uint true n) /\ be_value (v4_from_uint true n) = n.
Proof.
  intros H. destruct (unpack4 n H) as (a & b & c & d & Ha & Hb & Hc & Hd & ->).
  rewrite v4_from_uint_pack, be_value4 by assumption. split; [|reflexivity]. apply bytes4_ok; assumption.
Qed.
Lemma v4_from_to bs : bytes_ok V4 bs -> v4_from_uint true (be_value bs) = bs.
Proof.
  intros H. destruct (bytes4 bs H) as (a & b & c & d & -> & Ha & Hb & Hc & Hd).
  rewrite be_value4, v4_from_uint_pack by assumption. reflexivity.
Qed.
Lemma be_value_range v bs : bytes_ok v bs -> 0 <= be_value bs < 2 ^ width v.
Proof.
  intros [Hl HF]. unfold be_value.
  replace (2 ^ width v) with (256 ^ zlen bs) by (unfold zlen; rewrite Hl; destruct v; reflexivity).
  apply horner_range; [lia|]. eapply Forall_impl; [|exact HF]. unfold is_byte. intros; lia.
Qed.
Lemma be_value_inj v a b : bytes_ok v a -> bytes_ok v b -> be_value a = be_value b -> a = b.
Proof.
  intros [La Fa] [Lb Fb]. rewrite <- Lb in La. clear Lb v. revert b Fb La. unfold be_value.
  induction a as [|x a IH] using rev_ind; intros b Fb La E.
  - destruct b; [reflexivity|discriminate].
  - destruct b as [|y b _] using rev_ind; [rewrite app_length in La; cbn in La; lia|].
    rewrite !app_length in La. cbn in La. apply Forall_app in Fa as [Fa Fx]. apply Forall_app in Fb as [Fb Fy].
    inversion Fx; inversion Fy; subst. unfold is_byte in *. rewrite !horner_app in E.
    f_equal; [apply IH; auto; lia|f_equal; lia].
Qed.

Lemma v4_reverse_pointer_ok le a b c d : is_byte a -> is_byte b -> is_byte c -> is_byte d ->
  v4_reverse_pointer le [a; b; c; d] = Ret (dec d ++ 46 :: dec c ++ 46 :: dec b ++ 46 :: dec a ++ in_addr_arpa).
Proof.
  intros Ha Hb Hc Hd. unfold v4_reverse_pointer. rewrite v4_to_uint_pack by assumption. cbn [bind].
  replace (v4_from_uint le (swap_bytes (if le then pack4 a b c d else pack4 d c b a))) with [d; c; b; a].
  2:{ destruct le; rewrite swap_pack, v4_from_uint_pack by assumption; reflexivity. }
  rewrite v4_to_string_ok by (unfold is_byte in *; assumption). cbn [bind]. f_equal.
  repeat (rewrite <- app_assoc; cbn [app]). reflexivity.
Qed.
