(** Text and integral conversions of the 128-bit integer. *)
From Verif Require Import Base Uint128Model SpecInt SpecText Tac TextProofs Uint128Proofs Uint128Div Uint128Div2.

Lemma digit_render r d : 1 < r <= 16 -> 0 <= d < r ->
  digit_char r (if d <? 10 then 48 + d else 87 + d) d.
Proof. intros Hr Hd. unfold digit_char. destruct (Z.ltb_spec d 10); lia. Qed.

Lemma ostream_loop_ok r : 1 < r <= 16 -> forall fuel v acc, 0 <= v < r ^ Z.of_nat fuel -> (0 < fuel)%nat ->
  exists s, ostream_loop fuel r v acc = s ++ acc /\ numeral r s v.
Proof.
  intros Hr. induction fuel as [|k IH]; intros v acc Hv Hf; [lia|]. cbn [ostream_loop].
  rewrite Nat2Z.inj_succ, Z.pow_succ_r in Hv by lia.
  pose proof (Z.mod_pos_bound v r ltac:(lia)) as Hm. pose proof (Z.div_mod v r ltac:(lia)) as Ed.
  pose proof (digit_render r (v mod r) Hr Hm) as Hd.
  set (c := if v mod r <? 10 then _ else _) in *. clearbody c.
  destruct (Z.eqb_spec (v / r) 0) as [E|E].
  - exists [c]. split; [reflexivity|]. replace v with (v mod r) at 1 by nia. apply numeral_digit, Hd.
  - assert (0 <= v / r < r ^ Z.of_nat k).
    { split; [apply Z.div_pos; lia|]. apply Z.div_lt_upper_bound; lia. }
    assert (k <> 0)%nat. { intros ->. change (r ^ Z.of_nat 0) with 1 in *. lia. }
    destruct (IH (v / r) (c :: acc)) as (s & Es & Hs); [assumption|lia|].
    exists (s ++ [c]). split; [rewrite Es, <- app_assoc; reflexivity|].
    rewrite Ed at 1. replace (r * (v / r) + v mod r) with (v / r * r + v mod r) by lia.
    apply numeral_snoc; try assumption; lia.
Qed.

Lemma ostream_u64_ok r v : 1 < r <= 16 -> 0 <= v < 2 ^ 64 -> numeral r (ostream_u64 r v) v.
Proof.
  intros Hr Hv. unfold ostream_u64.
  destruct (ostream_loop_ok r Hr 64 v []) as (s & E & H).
  - split; [lia|]. assert (2 ^ Z.of_nat 64 <= r ^ Z.of_nat 64) by (apply Z.pow_le_mono_l; lia).
    change (2 ^ Z.of_nat 64) with (2 ^ 64) in *. lia.
  - lia.
  - rewrite E, app_nil_r. exact H.
Qed.

Lemma of_i64_small r : 0 <= r < 2 ^ 63 -> wf128 (u128_of_i64 r) /\ to_Z (u128_of_i64 r) = r.
Proof.
  intros H. split; [apply of_i64_wf|]. rewrite of_i64_ok by (pows; lia).
  apply Z.mod_small. pows. lia.
Qed.

Lemma radix_loop_ok r dig : 1 < r <= 16 ->
  (forall d, 0 <= d < r -> exists c, dig d = Ret [c] /\ digit_char r c d) ->
  forall fuel v acc, wf128 v -> to_Z v < r ^ Z.of_nat (S fuel) ->
  exists s, radix_loop (S fuel) r dig v acc = Ret (s ++ rev acc) /\ numeral r s (to_Z v).
Proof.
  intros Hr Hdig. induction fuel as [|k IH]; intros v acc Hv Hf;
    (destruct (of_i64_small r ltac:(pows; lia)) as [Hrw Hrv];
     destruct (div_ok v (u128_of_i64 r) Hv Hrw ltac:(lia)) as (q & Eq & Hqw & Hqv);
     rewrite Hrv in Hqv;
     pose proof (to_Z_range v Hv) as Hvr;
     pose proof (Z.mod_pos_bound (to_Z v) r ltac:(lia)) as Hm;
     pose proof (Z.div_mod (to_Z v) r ltac:(lia)) as Ed;
     assert (Er : to_Z (u128_sub v (u128_mul q (u128_of_i64 r))) = to_Z v mod r)
       by (rewrite sub_ok, mul_ok, Hqv, Hrv by auto using mul_wf; rewrite Zminus_mod_idemp_r;
           rewrite (Z.mul_comm _ r), <- Z.mod_eq by lia; apply Z.mod_small; pows; lia);
     assert (El : lo (u128_sub v (u128_mul q (u128_of_i64 r))) = to_Z v mod r)
       by (destruct (sub_wf v (u128_mul q (u128_of_i64 r))) as [Hu Hl]; unfold to_Z in Er at 1; pows; lia);
     destruct (Hdig (to_Z v mod r) Hm) as (c & Ec & Hc)).
  - cbn [radix_loop]. rewrite Eq. cbn [bind]. rewrite El, Ec. cbn [bind].
    rewrite bool_ok by assumption. rewrite Hqv.
    change (Z.of_nat 1) with 1 in Hf. rewrite Z.pow_1_r in Hf.
    rewrite Z.div_small by lia. cbn [Z.eqb negb].
    exists [c]. rewrite rev_app_distr. split; [reflexivity|].
    rewrite <- (Z.mod_small (to_Z v) r) by lia. apply numeral_digit. exact Hc.
  - change (radix_loop (S (S k)) r dig v acc) with
      (q <- u128_div v (u128_of_i64 r) ;;
       d <- dig (lo (u128_sub v (u128_mul q (u128_of_i64 r)))) ;;
       if u128_bool q then radix_loop (S k) r dig q (acc ++ d) else Ret (rev (acc ++ d))).
    rewrite Eq. cbn [bind]. rewrite El, Ec. cbn [bind]. rewrite bool_ok by assumption.
    destruct (Z.eqb_spec (to_Z q) 0) as [E0|E0]; cbn [negb].
    + exists [c]. rewrite rev_app_distr. split; [reflexivity|].
      replace (to_Z v) with (to_Z v mod r) by nia. apply numeral_digit. exact Hc.
    + destruct (IH q (acc ++ [c]) Hqw) as (s & Es & Hs).
      { rewrite Hqv. rewrite (Nat2Z.inj_succ (S k)), Z.pow_succ_r in Hf by lia. apply Z.div_lt_upper_bound; lia. }
      rewrite Es, rev_app_distr. exists (s ++ [c]). split; [rewrite <- app_assoc; reflexivity|].
      rewrite Ed. replace (r * (to_Z v / r) + to_Z v mod r) with (to_Z q * r + to_Z v mod r) by (rewrite Hqv; lia).
      apply numeral_snoc; try assumption; try lia. pose proof (to_Z_range q Hqw). lia.
Qed.

Lemma to_string_ok f a : wf128 a ->
  exists s, u128_to_string f a = Ret s /\ numeral (ufmt_radix f) s (to_Z a).
Proof.
  intros Ha. unfold u128_to_string. destruct (Z.eqb_spec (up a) 0) as [E|E].
  - eexists. split; [reflexivity|]. replace (to_Z a) with (lo a) by (unfold to_Z; rewrite E; lia).
    destruct Ha as [_ Hl]. destruct f; apply ostream_u64_ok; cbn; try lia; assumption.
  - pose proof (to_Z_range a Ha) as Hr.
    assert (Hsmall : forall r d, 1 < r <= 10 -> 0 <= d < r -> exists c, Ret (ostream_u64 10 d) = Ret [c] /\ digit_char r c d).
    { intros r d Hr1 Hd. exists (48 + d). split.
      - assert (C : In d (map Z.of_nat (seq 0 10))).
        { replace d with (Z.of_nat (Z.to_nat d)) by lia. apply in_map, in_seq. lia. }
        cbn in C. repeat (destruct C as [<-|C]; [reflexivity|]). contradiction.
      - unfold digit_char. lia. }
    destruct f.
    + destruct (radix_loop_ok 10 (fun r => Ret (ostream_u64 10 r)) ltac:(lia) ltac:(intros; apply Hsmall; lia) 43 a [] Ha) as (s & Es & Hs).
      { change (10 ^ Z.of_nat 44) with 100000000000000000000000000000000000000000000. pows. lia. }
      exists s. rewrite Es. cbn [rev]. rewrite app_nil_r. split; [reflexivity|exact Hs].
    + destruct (radix_loop_ok 8 (fun r => Ret (ostream_u64 10 r)) ltac:(lia) ltac:(intros; apply Hsmall; lia) 43 a [] Ha) as (s & Es & Hs).
      { change (8 ^ Z.of_nat 44) with (2 ^ 132). assert (2 ^ 128 < 2 ^ 132) by reflexivity. lia. }
      exists s. rewrite Es. cbn [rev]. rewrite app_nil_r. split; [reflexivity|exact Hs].
    + destruct (radix_loop_ok 16 (fun r => c <- rd hex_digits r ;; Ret [c]) ltac:(lia)) with (fuel := 43%nat) (v := a) (acc := @nil Z) as (s & Es & Hs).
      { intros d Hd.
        assert (C : In d (map Z.of_nat (seq 0 16))).
        { replace d with (Z.of_nat (Z.to_nat d)) by lia. apply in_map, in_seq. lia. }
        cbn in C. repeat (destruct C as [<-|C]; [eexists; split; [reflexivity|unfold digit_char; lia]|]). contradiction. }
      { exact Ha. }
      { change (16 ^ Z.of_nat 44) with (2 ^ 176). assert (2 ^ 128 < 2 ^ 176) by reflexivity. lia. }
      exists s. rewrite Es. cbn [rev]. rewrite app_nil_r. split; [reflexivity|exact Hs].
Qed.

(** *** Reading *)
(** Upper-case hexadecimal digits are accepted as well. *)
Definition digit_read (f : ufmt) (c d : Z) : Prop :=
  digit_char (ufmt_radix f) c d \/ (f = UHex /\ 10 <= d <= 15 /\ c = 65 + (d - 10)).

Lemma digit_value_ok f c d : c <> 0 -> (digit_value f c = Some d <-> digit_read f c d).
Proof.
  intros Hc. unfold digit_read, digit_char.
  destruct f; cbn [digit_value ufmt_radix].
  - destruct (Z.ltb_spec c 48), (Z.gtb_spec c 57); cbn [orb]; (split; [intros E|intros [E|(E & _)]]);
      try discriminate; try (injection E as <-; left; lia); try lia; f_equal; lia.
  - destruct (Z.ltb_spec c 48), (Z.gtb_spec c 55); cbn [orb]; (split; [intros E|intros [E|(E & _)]]);
      try discriminate; try (injection E as <-; left; lia); try lia; f_equal; lia.
  - destruct (Z.geb_spec c 48), (Z.leb_spec c 57); cbn [andb];
    destruct (Z.geb_spec c 65), (Z.leb_spec c 70); cbn [andb];
    destruct (Z.geb_spec c 97), (Z.leb_spec c 102); cbn [andb]; (split; [intros E|intros [E|(_ & E)]]);
      try lia; try discriminate; try (injection E as <-; left; lia);
      try (injection E as <-; right; split; [reflexivity|lia]); f_equal; lia.
Qed.

Lemma digit_read_range f c d : digit_read f c d -> 0 <= d < 16.
Proof. unfold digit_read, digit_char. destruct f; cbn; lia. Qed.

Lemma str_loop_ok f : forall s r, Forall (fun c => c <> 0) s -> wf128 r ->
  forall v, str_loop f (chars s) r = Some v <->
    exists ds, Forall2 (digit_read f) s ds /\ v = of_Z (horner (ufmt_radix f) (to_Z r) ds).
Proof.
  induction s as [|c s IH]; intros r Hn Hr v.
  - cbn. split.
    + intros E. injection E as <-. exists []. split; [constructor|]. cbn. symmetry. apply of_to_Z, Hr.
    + intros (ds & H & ->). inversion H; subst. cbn. f_equal. symmetry. apply of_to_Z, Hr.
  - inversion Hn as [|? ? Hc Hs]; subst. cbn [chars map str_loop].
    destruct (Z.eqb_spec c 0); [contradiction|].
    destruct (digit_value f c) as [d|] eqn:Ed.
    + apply digit_value_ok in Ed; [|assumption].
      pose proof (digit_read_range f c d Ed) as Hd.
      assert (Hfr : 1 < ufmt_radix f <= 16) by (destruct f; cbn; lia).
      destruct (of_i64_small d ltac:(pows; lia)) as [Hdw Hdv].
      destruct (of_i64_small (ufmt_radix f) ltac:(pows; lia)) as [Hrw Hrv].
      set (r' := u128_add _ _).
      assert (Hr' : wf128 r') by apply add_wf.
      assert (Ev : to_Z r' = (to_Z r * ufmt_radix f + d) mod 2 ^ 128).
      { subst r'. rewrite add_ok, mul_ok, Hrv, Hdv by auto using mul_wf. rewrite Z.add_mod_idemp_l by lia. reflexivity. }
      assert (Hmod : forall ds, of_Z (horner (ufmt_radix f) (to_Z r') ds) = of_Z (horner (ufmt_radix f) (to_Z r) (d :: ds))).
      { intros ds. cbn [horner]. rewrite Ev. generalize (to_Z r * ufmt_radix f + d). clear - Hfr.
        intros x. assert (E : horner (ufmt_radix f) (x mod 2 ^ 128) ds mod 2 ^ 128 = horner (ufmt_radix f) x ds mod 2 ^ 128).
        { rewrite (horner_acc _ ds (x mod _)), (horner_acc _ ds x) by lia.
          rewrite Z.add_mod, Z.mul_mod_idemp_l, <- Z.add_mod by lia. reflexivity. }
        apply to_Z_inj; [apply of_Z_wf..|]. rewrite !to_of_Z. exact E. }
      rewrite (IH r' Hs Hr' v). split.
      * intros (ds & H & ->). exists (d :: ds). split; [constructor; assumption|]. apply Hmod.
      * intros (ds & H & ->). inversion H as [|? d' ? ds' Hd' Hds']; subst.
        assert (d' = d). { apply digit_value_ok in Ed, Hd'; try assumption. congruence. } subst d'.
        exists ds'. split; [assumption|]. symmetry. apply Hmod.
    + split; [discriminate|]. intros (ds & H & _). inversion H as [|? d ? ? Hd]; subst.
      apply digit_value_ok in Hd; [congruence|assumption].
Qed.

Lemma from_string_ok f s : Forall (fun c => c <> 0) s -> forall v,
  u128_from_string f (chars s) = Some v <->
  exists ds, Forall2 (digit_read f) s ds /\ v = of_Z (horner (ufmt_radix f) 0 ds).
Proof.
  intros Hs v. unfold u128_from_string. rewrite str_loop_ok; [|assumption|apply of_i64_wf].
  reflexivity.
Qed.

Lemma digits_of_nonzero r s ds : digits_of r s ds -> Forall (fun c => c <> 0) s.
Proof. induction 1 as [|c d s ds H]; constructor; [unfold digit_char in H; lia|assumption]. Qed.

Lemma text_round_trip f a : wf128 a ->
  exists s, u128_to_string f a = Ret s /\ u128_from_string f (chars s) = Some a.
Proof.
  intros Ha. destruct (to_string_ok f a Ha) as (s & E & ds & H1 & H2 & H3 & H4).
  exists s. split; [exact E|]. apply from_string_ok; [eapply digits_of_nonzero; eassumption|].
  exists ds. split.
  - eapply Forall2_impl; [|exact H1]. intros c d H. left. exact H.
  - rewrite H4. symmetry. apply of_to_Z, Ha.
Qed.

Lemma from_string_numeral f s v : numeral (ufmt_radix f) s v -> v < 2 ^ 128 ->
  exists a, u128_from_string f (chars s) = Some a /\ wf128 a /\ to_Z a = v.
Proof.
  intros (ds & H1 & H2 & H3 & H4) Hv. exists (of_Z v).
  assert (Hfr : 1 < ufmt_radix f) by (destruct f; cbn; lia).
  assert (0 <= v) by (rewrite <- H4; apply horner_range; [assumption|eapply digits_of_range; eassumption]).
  split; [|split; [apply of_Z_wf|rewrite to_of_Z; apply Z.mod_small; lia]].
  apply from_string_ok; [eapply digits_of_nonzero; eassumption|].
  exists ds. split; [eapply Forall2_impl; [|exact H1]; intros c d H'; left; exact H'|congruence].
Qed.

(** *** Integral conversions *)
Lemma to_signed_ok n a : 0 < n <= 64 -> wf128 a ->
  - 2 ^ (n - 1) <= u128_to_signed n a < 2 ^ (n - 1) /\
  (u128_to_signed n a) mod 2 ^ n = (to_Z a) mod 2 ^ n.
Proof.
  intros Hn Ha. unfold u128_to_signed, to_signed.
  assert (E : (lo a) mod 2 ^ n = to_Z a mod 2 ^ n) by (apply (to_unsigned_ok n a); lia || assumption).
  assert (0 < 2 ^ (n - 1)) by (apply pow2_pos; lia).
  assert (En : 2 ^ n = 2 * 2 ^ (n - 1)) by (rewrite <- Z.pow_succ_r by lia; f_equal; lia).
  pose proof (Z.mod_pos_bound (lo a) (2 ^ n) ltac:(lia)).
  destruct (Z.ltb_spec (lo a mod 2 ^ n) (2 ^ (n - 1))).
  - split; [lia|]. rewrite Z.mod_mod by lia. exact E.
  - split; [lia|]. rewrite <- (Z.mod_add (lo a mod 2 ^ n - 2 ^ n) 1) by lia.
    replace (lo a mod 2 ^ n - 2 ^ n + 1 * 2 ^ n) with (lo a mod 2 ^ n) by lia. rewrite Z.mod_mod by lia. exact E.
Qed.

Lemma int_round_trip n x : 0 < n <= 64 ->
  (- 2 ^ (n - 1) <= x < 2 ^ (n - 1) -> u128_to_signed n (u128_of_i64 x) = x) /\
  (0 <= x < 2 ^ n -> u128_to_unsigned n (u128_of_u64 x) = x).
Proof.
  intros Hn. split; intros Hx.
  - assert (2 ^ (n - 1) <= 2 ^ 63) by (apply Z.pow_le_mono_r; lia).
    destruct (to_signed_ok n (u128_of_i64 x) Hn (of_i64_wf x)) as [Hr E].
    rewrite of_i64_ok in E by lia.
    assert (En : 2 ^ n = 2 * 2 ^ (n - 1)) by (rewrite <- Z.pow_succ_r by lia; f_equal; lia).
    assert (E2 : (x mod 2 ^ 128) mod 2 ^ n = x mod 2 ^ n).
    { replace 128 with (n + (128 - n)) by lia. rewrite pow2_split by lia.
      assert (0 < 2 ^ n) by (apply pow2_pos; lia). assert (0 < 2 ^ (128 - n)) by (apply pow2_pos; lia).
      rewrite Z.rem_mul_r by lia. rewrite (Z.mul_comm (2 ^ n)), Z.mod_add, Z.mod_mod by lia. reflexivity. }
    rewrite E2 in E. set (y := u128_to_signed n (u128_of_i64 x)) in *. clearbody y.
    assert (0 < 2 ^ (n - 1)) by (apply pow2_pos; lia). set (h := 2 ^ (n - 1)) in *. clearbody h.
    rewrite En in E.
    assert (E3 : y + h = x + h).
    { rewrite <- (Z.mod_small (y + h) (2 * h)), <- (Z.mod_small (x + h) (2 * h)) by lia.
      rewrite <- Z.add_mod_idemp_l, E, Z.add_mod_idemp_l by lia. reflexivity. }
    lia.
  - rewrite to_unsigned_ok, of_u64_ok by lia. apply Z.mod_small. lia.
Qed.

(** from_string has no overflow detection, accepts no digits at all, and stops
    at a NUL. *)
Lemma from_string_bad :
  u128_from_string UDec (chars []) = Some (mk128 0 0) /\
  (exists s, numeral 10 s (2 ^ 128) /\ u128_from_string UDec (chars s) = Some (mk128 0 0)) /\
  u128_from_string UDec (chars [49; 0; 120]) = Some (mk128 0 1).
Proof.
  split; [reflexivity|split; [|reflexivity]].
  set (ds := [3;4;0;2;8;2;3;6;6;9;2;0;9;3;8;4;6;3;4;6;3;3;7;4;6;0;7;4;3;1;7;6;8;2;1;1;4;5;6]).
  exists (map (fun d => 48 + d) ds). split.
  - exists ds. repeat split; try discriminate.
    subst ds. cbn [map]. repeat (constructor; [unfold digit_char; lia|]). constructor.
  - reflexivity.
Qed.
