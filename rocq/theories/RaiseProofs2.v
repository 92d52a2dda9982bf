(** What a message shows of a text. *)
From Coq Require Import String.
From Verif Require Import Base Tac UnicodeModel BitProofs SpecStr SpecText StrProofs Utf8Proofs TextProofs SpecInt Uint128Model Uint128Text
  AddressModel NetworkModel AnyModel CodeModel StreamModel SpecStream ErrorModel SpecError RaiseProofs.

Lemma land_fc00 x k m : 0 <= m < 1024 -> 0 <= k < 64 -> x = k * 1024 + m -> Z.land x 0xFC00 = k * 1024.
Proof.
  intros Hm Hk ->. change 0xFC00 with (Z.shiftl (Z.ones 6) 10). apply Z.bits_inj'. intros n Hn.
  rewrite Z.land_spec. rewrite Z.shiftl_spec by lia. change 1024 with (2 ^ 10) in *. rewrite <- Z.shiftl_mul_pow2 by lia.
  rewrite Z.shiftl_spec by lia.
  destruct (Z.ltb_spec n 10).
  - rewrite (Z.testbit_neg_r (Z.ones 6)), (Z.testbit_neg_r k) by lia. apply andb_false_r.
  - replace (Z.testbit (Z.shiftl k 10 + m) n) with (Z.testbit k (n - 10)).
    2:{ replace n with ((n - 10) + 10) at 2 by lia. rewrite <- Z.shiftr_spec by lia. f_equal.
        rewrite Z.shiftr_div_pow2, Z.shiftl_mul_pow2 by lia. apply (Z.div_unique _ _ _ m); lia. }
    destruct (Z.ltb_spec (n - 10) 6).
    + rewrite Z.ones_spec_low by lia. apply andb_true_r.
    + rewrite Z.ones_spec_high by lia. rewrite andb_false_r. symmetry.
      rewrite <- (Z.mod_small k (2 ^ 6)) by (change (2 ^ 6) with 64; lia). apply Z.mod_pow2_bits_high. lia.
Qed.
Lemma land_3ff x k m : 0 <= m < 1024 -> x = k * 1024 + m -> Z.land x 0x3FF = m.
Proof.
  intros Hm ->. change 0x3FF with (Z.ones 10). rewrite Z.land_ones by lia. change (2 ^ 10) with 1024.
  symmetry. apply (Z.mod_unique _ _ k); lia.
Qed.

Lemma utf16_enc p c r : scalar c -> let s := p ++ enc TChar16 c ++ r in
  utf16_next s (zlen s) (zlen p) = Ret (seen TChar16 c, zlen p + zlen (enc TChar16 c)).
Proof.
  intros [H1 H2]. cbn zeta. unfold utf16_next, seen, enc. destruct (Z.ltb_spec c 0x10000).
  - cbn [app]. rewrite rd_mid by reflexivity. cbn [bind].
    destruct (qr c 1024) as [E R]; [lia|]. revert E R. generalize (quot c 1024) (remd c 1024). intros k m E R.
    rewrite (land_fc00 c k m) by lia. destruct (Z.eqb_spec (k * 1024) 0xD800); [exfalso; lia|]. cbn [bind negb].
    destruct (Z.gtb_spec c 127); destruct (Z.ltb_spec c 128); try lia; reflexivity.
  - fold (quot (c - 0x10000) 1024) (remd (c - 0x10000) 1024).
    destruct (qr (c - 0x10000) 1024) as [E R]; [lia|]. revert E R. generalize (quot (c - 0x10000) 1024) (remd (c - 0x10000) 1024). intros k m E R.
    cbn [app]. rewrite rd_mid by reflexivity. cbn [bind].
    assert (K : exists k0 k1, k = k0 + k1 /\ 0 <= k < 1024) by (exists 0, k; lia). destruct K as (_ & _ & _ & K).
    rewrite (land_fc00 _ 54 k) by lia. change (54 * 1024 =? 0xD800) with true. cbn iota.
    destruct (Z.geb_spec (zlen p + 1) (zlen (p ++ 0xD800 + k :: 0xDC00 + m :: r))) as [G|G].
    { exfalso. revert G. unfold zlen. rewrite app_length. cbn [Datatypes.length]. lia. }
    replace (p ++ 0xD800 + k :: 0xDC00 + m :: r) with ((p ++ [0xD800 + k]) ++ 0xDC00 + m :: r) by (rewrite <- app_assoc; reflexivity).
    rewrite rd_mid by (unfold zlen; rewrite app_length; cbn [Datatypes.length]; lia). cbn [bind].
    rewrite (land_fc00 _ 55 m) by lia. change (55 * 1024 =? 0xDC00) with true. cbn iota. cbn [bind negb].
    rewrite (land_3ff _ 54 k), (land_3ff _ 55 m) by lia. rewrite shl_mul by lia.
    rewrite (lor_add k m 10) by (change (2 ^ 10) with 1024; lia). change (2 ^ 10) with 1024.
    replace (k * 1024 + m + 0x10000) with c by lia. unfold w32. rewrite Z.mod_small by (change (2 ^ 32) with 4294967296; lia).
    destruct (Z.gtb_spec c 127); [|lia]. destruct (Z.ltb_spec c 128); [lia|].
    do 2 f_equal. unfold zlen. cbn. lia.
Qed.

Lemma enc_units T c : symbol_ok T c -> Forall (unit_ok T) (enc T c).
Proof.
  intros H. destruct T; cbn [symbol_ok] in H.
  - constructor; [apply H|constructor].
  - apply enc8_units. exact H.
  - destruct H as [H1 H2]. unfold enc, unit_ok, is_u16. change (2 ^ 16) with 65536. destruct (Z.ltb_spec c 0x10000); [constructor; [lia|constructor]|].
    fold (quot (c - 0x10000) 1024) (remd (c - 0x10000) 1024).
    destruct (qr (c - 0x10000) 1024) as [E R]; [lia|]. revert E R. generalize (quot (c - 0x10000) 1024) (remd (c - 0x10000) 1024). intros.
    repeat constructor; lia.
  - destruct H. constructor; [|constructor]. cbn [unit_ok]. unfold is_u32. change (2 ^ 32) with 4294967296. lia.
  - destruct H. constructor; [|constructor]. cbn [unit_ok]. change (2 ^ 31) with 2147483648. lia.
Qed.
Lemma encode_units T cs : Forall (symbol_ok T) cs -> Forall (unit_ok T) (encode T cs).
Proof. induction 1; cbn [encode flat_map]; [constructor|]. apply Forall_app. split; [apply enc_units; assumption|assumption]. Qed.

Lemma read_enc T p c r : symbol_ok T c -> Forall (unit_ok T) p -> Forall (unit_ok T) r -> let s := p ++ enc T c ++ r in
  reader_of T s (zlen s) (zlen p) = Ret (seen T c, zlen p + zlen (enc T c)).
Proof.
  intros H Hp Hr. cbn zeta. assert (U : forall (r : list Z), scalar c -> utf32_next (p ++ c :: r) (zlen (p ++ c :: r)) (zlen p) = Ret (if c <? 128 then Ch c else Bad unexpected_symbol c, zlen p + 1)).
  { intros r0 [H1 _]. unfold utf32_next. rewrite rd_mid by reflexivity. cbn [bind]. unfold w32.
    rewrite Z.mod_small by (change (2 ^ 32) with 4294967296; lia).
    destruct (Z.gtb_spec c 127); destruct (Z.ltb_spec c 128); try lia; reflexivity. }
  destruct T; cbn [reader_of symbol_ok unit_ok] in *.
  - unfold char_next. cbn [enc app]. rewrite rd_mid by reflexivity. reflexivity.
  - rewrite utf8_next_ok.
    + replace (Z.to_nat (zlen p)) with (Datatypes.length p) by (unfold zlen; lia).
      replace (skipn (Datatypes.length p) (p ++ enc TChar8 c ++ r)) with (enc TChar8 c ++ r).
      2:{ rewrite skipn_app, skipn_all, Nat.sub_diag. reflexivity. }
      rewrite next8_enc by exact H. reflexivity.
    + rewrite !Forall_app. repeat split; auto. apply enc8_units. exact H.
    + pose proof (enc_len TChar8 c) as L. unfold zlen in *. rewrite !app_length. lia.
  - apply utf16_enc. exact H.
  - cbn [enc app]. apply U. exact H.
  - cbn [enc app]. apply U. exact H.
Qed.

(** The rest of a symbol is missing: what follows is a dot. *)
Definition dots : list Z := [46; 46; 46; 0].
Lemma read_cut T p c a b : symbol_ok T c -> Forall (unit_ok T) p -> enc T c = a ++ b -> a <> [] -> b <> [] -> let s := p ++ a ++ dots in
  exists n, reader_of T s (zlen s) (zlen p) = Ret (Bad wrong_encoding_sequence 0, n).
Proof.
  intros H Hp E Ha Hb. cbn zeta. pose proof (enc_units T c H) as HU.
  assert (One : forall x, [x] = a ++ b -> False).
  { intros x E1. destruct a as [|y a]; [congruence|]. injection E1 as _ E1. destruct a; [|discriminate]. destruct b; [congruence|discriminate]. }
  destruct T; cbn [enc] in E; try (exfalso; eapply One; exact E); cbn [symbol_ok reader_of] in *.
  - change (enc TChar8 c = a ++ b) in E. rewrite E in HU. apply Forall_app in HU. destruct HU as [HU _]. cbn [unit_ok] in *.
    rewrite utf8_next_ok.
    2:{ rewrite !Forall_app. split; [exact Hp|]. split; [exact HU|]. unfold dots, is_u8. repeat constructor; lia. }
    2:{ unfold zlen, dots. rewrite !app_length. cbn [Datatypes.length]. lia. }
    replace (Z.to_nat (zlen p)) with (Datatypes.length p) by (unfold zlen; lia).
    replace (skipn (Datatypes.length p) (p ++ a ++ dots)) with (a ++ dots).
    2:{ rewrite skipn_app, skipn_all, Nat.sub_diag. reflexivity. }
    assert (G : fst (next8 (a ++ dots)) = Bad wrong_encoding_sequence 0).
    2:{ destruct (next8 (a ++ dots)) as [t n]. cbn [fst] in G. subst t. eexists. reflexivity. }
    destruct H as [H _]. rewrite enc8_eq in E by lia.
    destruct (qr c 64) as [E1 R1]; [lia|]. destruct (qr (quot c 64) 64) as [E2 R2]; [lia|]. destruct (qr (quot (quot c 64) 64) 64) as [E3 R3]; [lia|].
    revert E E1 R1 E2 R2 E3 R3. generalize (remd c 64) (remd (quot c 64) 64) (remd (quot (quot c 64) 64) 64).
    generalize (quot (quot (quot c 64) 64) 64). generalize (quot (quot c 64) 64). generalize (quot c 64). intros q1 q2 q3 r1 r2 r3 E E1 R1 E2 R2 E3 R3.
    clear HU. destruct (Z.ltb_spec c 0x80); [exfalso; eapply One; exact E|].
    assert (T46 : trail 46 = (0, false)) by reflexivity.
    destruct (Z.ltb_spec c 0x800).
    { assert (C : cp (0xC0 + q1) = Some (q1, 2)).
      { unfold cp. rewrite (proj2 (Z.ltb_ge (0xC0 + q1) 0x80)), (proj2 (Z.ltb_ge (0xC0 + q1) 0xC0)), (proj2 (Z.ltb_lt (0xC0 + q1) 0xE0)) by lia. do 2 f_equal. lia. }
      destruct a as [|x0 [|x1 a]]; [congruence| |].
      - replace x0 with (0xC0 + q1) in * by (cbn [app] in E; congruence). clear E. cbn [app dots next8 nth_error]. rewrite C. reflexivity.
      - exfalso. apply (f_equal (@Datatypes.length Z)) in E. rewrite app_length in E. cbn [Datatypes.length] in E. destruct b; [congruence|cbn [Datatypes.length] in E; lia]. }
    destruct (Z.ltb_spec c 0x10000).
    { assert (C : cp (0xE0 + q2) = Some (q2, 3)).
      { unfold cp. rewrite (proj2 (Z.ltb_ge (0xE0 + q2) 0x80)), (proj2 (Z.ltb_ge (0xE0 + q2) 0xC0)), (proj2 (Z.ltb_ge (0xE0 + q2) 0xE0)), (proj2 (Z.ltb_lt (0xE0 + q2) 0xF0)) by lia.
        do 2 f_equal. lia. }
      destruct a as [|x0 [|x1 [|x2 a]]]; [congruence| | |].
      - replace x0 with (0xE0 + q2) in * by (cbn [app] in E; congruence). clear E. cbn [app dots next8 nth_error]. rewrite C. reflexivity.
      - replace x0 with (0xE0 + q2) in * by (cbn [app] in E; congruence). replace x1 with (0x80 + r2) in * by (cbn [app] in E; congruence). clear E. cbn [app dots next8 nth_error tr]. rewrite C, T46, trail_byte by lia. reflexivity.
      - exfalso. apply (f_equal (@Datatypes.length Z)) in E. rewrite app_length in E. cbn [Datatypes.length] in E. destruct b; [congruence|cbn [Datatypes.length] in E; lia]. }
    assert (C : cp (0xF0 + q3) = Some (q3, 4)).
    { unfold cp. rewrite (proj2 (Z.ltb_ge (0xF0 + q3) 0x80)), (proj2 (Z.ltb_ge (0xF0 + q3) 0xC0)), (proj2 (Z.ltb_ge (0xF0 + q3) 0xE0)), (proj2 (Z.ltb_ge (0xF0 + q3) 0xF0)),
        (proj2 (Z.ltb_lt (0xF0 + q3) 0xF8)) by lia. do 2 f_equal. lia. }
    destruct a as [|x0 [|x1 [|x2 [|x3 a]]]]; [congruence| | | |].
    + replace x0 with (0xF0 + q3) in * by (cbn [app] in E; congruence). clear E. cbn [app dots next8 nth_error]. rewrite C. reflexivity.
    + replace x0 with (0xF0 + q3) in * by (cbn [app] in E; congruence). replace x1 with (0x80 + r3) in * by (cbn [app] in E; congruence). clear E. cbn [app dots next8 nth_error tr]. rewrite C, T46, trail_byte by lia. reflexivity.
    + replace x0 with (0xF0 + q3) in * by (cbn [app] in E; congruence). replace x1 with (0x80 + r3) in * by (cbn [app] in E; congruence). replace x2 with (0x80 + r2) in * by (cbn [app] in E; congruence). clear E. cbn [app dots next8 nth_error tr]. rewrite C, T46, !trail_byte by lia. reflexivity.
    + exfalso. apply (f_equal (@Datatypes.length Z)) in E. rewrite app_length in E. cbn [Datatypes.length] in E. destruct b; [congruence|cbn [Datatypes.length] in E; lia].
  - destruct H as [H1 H2]. destruct (Z.ltb_spec c 0x10000); [exfalso; eapply One; exact E|].
    destruct a as [|x0 [|x1 a]]; [congruence| |].
    2:{ exfalso. apply (f_equal (@Datatypes.length Z)) in E. rewrite app_length in E. cbn [Datatypes.length] in E. destruct b; [congruence|cbn [Datatypes.length] in E; lia]. }
    assert (E' : x0 = 0xD800 + quot (c - 0x10000) 1024) by (unfold quot; cbn [app] in E; congruence). clear E. rename E' into E.
    destruct (qr (c - 0x10000) 1024) as [E0 R]; [lia|]. revert E E0 R. generalize (quot (c - 0x10000) 1024) (remd (c - 0x10000) 1024). intros k m E E0 R.
    unfold utf16_next, dots. cbn [app]. rewrite rd_mid by reflexivity. cbn [bind].
    rewrite (land_fc00 _ 54 k) by lia. change (54 * 1024 =? 0xD800) with true. cbn iota.
    destruct (Z.geb_spec (zlen p + 1) (zlen (p ++ x0 :: [46; 46; 46; 0]))) as [G|G].
    { exfalso. revert G. unfold zlen. rewrite app_length. cbn [Datatypes.length]. lia. }
    replace (p ++ x0 :: [46; 46; 46; 0]) with ((p ++ [x0]) ++ 46 :: [46; 46; 0]) by (rewrite <- app_assoc; reflexivity).
    rewrite (rd_mid (p ++ [x0]) [46; 46; 0] 46) by (unfold zlen; rewrite app_length; cbn [Datatypes.length]; lia). cbn [bind].
    change (Z.land 46 0xFC00 =? 0xDC00) with false. cbn iota. cbn [bind negb]. eexists. reflexivity.
Qed.
