(** Proofs about single steps of the character readers. *)
From Verif Require Import Base Tac UnicodeModel V4Proofs BufProofs SpecStr StrProofs Utf8Proofs UnicodeLemmas SpecAny CodeModel StreamModel SpecStream LiteralModel SpecLiteral SpecNoThrow ErrorModel SpecError RaiseProofs RaiseProofs2 RaiseProofs3 SpecDecode.

(** *** Only what is before the end pointer matters *)
Lemma nth_first {A} : forall (s : list A) n i, (i < n)%nat -> nth_error (firstn n s) i = nth_error s i.
Proof. induction s as [|x s IH]; intros [|n] [|i] H; cbn; try reflexivity; try lia. apply IH. lia. Qed.
Lemma rd_first {A} (s : list A) e i : 0 <= i < e -> rd (firstn (Z.to_nat e) s) i = rd s i.
Proof. intros H. unfold rd. replace (i <? 0) with false by lia. rewrite nth_first by lia. reflexivity. Qed.
Lemma first_len {A} (s : list A) e : 0 <= e <= zlen s -> zlen (firstn (Z.to_nat e) s) = e.
Proof. intros H. unfold zlen in *. rewrite firstn_length. lia. Qed.
Lemma trailing_first s e it : 0 <= it -> utf8_trailing (firstn (Z.to_nat e) s) e it = utf8_trailing s e it.
Proof. intros H. unfold utf8_trailing. destruct (Z.geb_spec (it + 1) e); [reflexivity|]. rewrite rd_first by lia. reflexivity. Qed.
Lemma trailing_pos s e it t c i : utf8_trailing s e it = Ret (t, c, i) -> i = it + 1.
Proof. unfold utf8_trailing. destruct (it + 1 >=? e); [congruence|]. destruct (rd s (it + 1)); cbn [bind]; [|discriminate..]. destruct (_ =? _); congruence. Qed.
Lemma reader_first T s e it : 0 <= it < e -> reader_of T (firstn (Z.to_nat e) s) e it = reader_of T s e it.
Proof.
  intros H. destruct T; cbn [reader_of].
  - unfold char_next. rewrite rd_first by lia. reflexivity.
  - unfold utf8_next. rewrite rd_first by lia. destruct (rd s it) as [b| |]; cbn [bind]; [|reflexivity..]. f_equal.
    destruct (utf8_code_point b) as [[v n]|]; [|reflexivity]. destruct (n =? 1); [reflexivity|].
    rewrite trailing_first by lia. destruct (utf8_trailing s e it) as [[[t1 c1] i1]| |] eqn:E1; cbn [bind]; [|reflexivity..]. apply trailing_pos in E1.
    rewrite trailing_first by lia. destruct (utf8_trailing s e i1) as [[[t2 c2] i2]| |] eqn:E2; cbn [bind]; [|reflexivity..]. apply trailing_pos in E2.
    rewrite trailing_first by lia. reflexivity.
  - unfold utf16_next. rewrite rd_first by lia. destruct (rd s it) as [b| |]; cbn [bind]; [|reflexivity..]. f_equal.
    destruct (_ =? _); [|reflexivity]. destruct (Z.geb_spec (it + 1) e); [reflexivity|]. rewrite rd_first by lia. reflexivity.
  - unfold utf32_next. rewrite rd_first by lia. reflexivity.
  - unfold utf32_next. rewrite rd_first by lia. reflexivity.
Qed.
Lemma reader_local T s t e it : 0 <= it < e -> firstn (Z.to_nat e) s = firstn (Z.to_nat e) t -> reader_of T s e it = reader_of T t e it.
Proof. intros H E. rewrite <- (reader_first T s), <- (reader_first T t), E by exact H. reflexivity. Qed.

(** *** Decoding *)
Lemma zero_enc T : enc T 0 = [0]. Proof. destruct T; reflexivity. Qed.
Lemma zero_step T p r : Forall (unit_ok T) p -> Forall (unit_ok T) r -> reader_of T (p ++ 0 :: r) (zlen (p ++ 0 :: r)) (zlen p) = Ret (read_as 0, zlen p + zlen [0]).
Proof.
  intros Hp Hr. destruct T; cbn [reader_of unit_ok] in *.
  - unfold char_next. rewrite rd_mid by reflexivity. reflexivity.
  - rewrite utf8_next_ok.
    + replace (Z.to_nat (zlen p)) with (Datatypes.length p) by (unfold zlen; lia). rewrite skipn_app, skipn_all, Nat.sub_diag. reflexivity.
    + apply Forall_app. split; [exact Hp|]. constructor; [unfold is_u8; lia|exact Hr].
    + unfold zlen. rewrite app_length. cbn [Datatypes.length]. lia.
  - unfold utf16_next. rewrite rd_mid by reflexivity. reflexivity.
  - unfold utf32_next. rewrite rd_mid by reflexivity. reflexivity.
  - unfold utf32_next. rewrite rd_mid by reflexivity. reflexivity.
Qed.
Lemma step_full T p c r : T <> TChar -> code_point c -> Forall (unit_ok T) p -> Forall (unit_ok T) r -> let s := p ++ enc T c ++ r in
  reader_of T s (zlen s) (zlen p) = Ret (read_as c, zlen p + zlen (enc T c)).
Proof.
  intros HT Hc Hp Hr. cbv zeta. destruct Hc as [->|Hc].
  - rewrite zero_enc. cbn [app]. apply zero_step; assumption.
  - rewrite (read_enc T p c r); [|destruct T; [congruence|exact Hc..]|exact Hp|exact Hr]. unfold seen, read_as. destruct T; [congruence|reflexivity..].
Qed.
Lemma step_decode T p c r e : T <> TChar -> code_point c -> Forall (unit_ok T) p -> Forall (unit_ok T) r -> zlen (p ++ enc T c) <= e <= zlen (p ++ enc T c ++ r) ->
  reader_of T (p ++ enc T c ++ r) e (zlen p) = Ret (read_as c, zlen p + zlen (enc T c)).
Proof.
  intros HT Hc Hp Hr He. assert (L : 1 <= zlen (enc T c)) by apply enc_len. rewrite zlen_app in He. assert (0 <= zlen p) by (unfold zlen; lia).
  rewrite <- reader_first by lia. pose (r' := firstn (Z.to_nat e - length (p ++ enc T c)) r).
  assert (E : firstn (Z.to_nat e) (p ++ enc T c ++ r) = p ++ enc T c ++ r').
  { rewrite !app_assoc. rewrite firstn_app. rewrite firstn_all2; [reflexivity|]. rewrite app_length. unfold zlen in *. lia. }
  rewrite E. replace e with (zlen (p ++ enc T c ++ r')) at 1 by (rewrite <- E; apply first_len; rewrite zlen_app in *; lia).
  apply step_full; auto. unfold r'. rewrite Forall_forall in *. intros x Hx. apply Hr. rewrite <- (firstn_skipn (Z.to_nat e - length (p ++ enc T c)) r). apply in_or_app. auto.
Qed.
Lemma code_units T c : T <> TChar -> code_point c -> Forall (unit_ok T) (enc T c).
Proof.
  intros HT [->|H]; [rewrite zero_enc; repeat constructor; destruct T; [congruence|..]; cbn [unit_ok]; unfold is_u8, is_u16, is_u32; lia|].
  apply enc_units. destruct T; [congruence|exact H..].
Qed.
Lemma tokens_at T : T <> TChar -> forall cs p k, Forall code_point cs -> Forall (unit_ok T) p -> (length (encode T cs) <= k)%nat ->
  tokens_from k (reader_of T) (p ++ encode T cs) (zlen p) = Ret (map read_as cs).
Proof.
  intros HT. induction cs as [|c cs IH]; intros p k Hcs Hp Hk.
  - cbn [encode flat_map map]. rewrite app_nil_r. destruct k; cbn [tokens_from]; rewrite Z.ltb_irrefl; reflexivity.
  - inversion Hcs as [|? ? Hc Hcs']; subst. cbn [encode flat_map map] in *. fold (encode T cs) in *. pose proof (enc_len T c) as L. rewrite app_length in Hk.
    destruct k as [|k]; [unfold zlen in L; lia|]. cbn [tokens_from]. replace (zlen p <? zlen (p ++ enc T c ++ encode T cs)) with true by (rewrite !zlen_app; unfold zlen in *; lia).
    assert (U : Forall (unit_ok T) (encode T cs)).
    { clear - HT Hcs'. induction Hcs' as [|x l Hx _ IH]; cbn [encode flat_map]; [constructor|]. apply Forall_app. split; [apply code_units; assumption|exact IH]. }
    rewrite (step_full T p c (encode T cs)) by assumption. cbn [bind].
    replace (p ++ enc T c ++ encode T cs) with ((p ++ enc T c) ++ encode T cs) by (rewrite app_assoc; reflexivity). rewrite <- zlen_app.
    rewrite IH; [reflexivity|exact Hcs'| |unfold zlen in L; lia]. apply Forall_app. split; [exact Hp|apply code_units; assumption].
Qed.
Lemma tokens_decode T cs : T <> TChar -> Forall code_point cs -> tokens (reader_of T) (encode T cs) = Ret (map read_as cs).
Proof. intros HT H. apply (tokens_at T HT cs [] _ H); [constructor|reflexivity]. Qed.
Lemma same_outcome T T' k strict cs : T <> TChar -> T' <> TChar -> Forall code_point cs -> string_of T k strict (encode T cs) = string_of T' k strict (encode T' cs).
Proof.
  intros HT HT' H. unfold string_of, addr_string, net_string, any_string, anet_string. rewrite !tokens_decode by assumption. destruct k; reflexivity.
Qed.
Lemma same_code T T' k strict cs code : T <> TChar -> T' <> TChar -> Forall code_point cs -> coded_of T k strict (encode T cs) code = coded_of T' k strict (encode T' cs) code.
Proof. intros HT HT' H. unfold coded_of. rewrite !tokens_decode by assumption. reflexivity. Qed.
Lemma same_ascii T k strict cs : Forall is_ascii cs -> encode T cs = cs /\ string_of T k strict cs = string_of TChar k strict cs.
Proof.
  intros H. assert (E : encode T cs = cs).
  { clear k strict. induction H as [|c cs Hc _ IH]; [reflexivity|]. unfold is_ascii in Hc. cbn [encode flat_map]. fold (encode T cs). rewrite IH. unfold enc. destruct T; try reflexivity.
    - replace (c <? 0x80) with true by lia. reflexivity.
    - replace (c <? 0x10000) with true by lia. reflexivity. }
  split; [exact E|]. assert (K : forall c, is_ascii c -> code_point c /\ read_as c = Ch c).
  { unfold is_ascii, code_point, scalar, read_as. intros c Hc. replace (c <? 128) with true by lia. split; [lia|reflexivity]. }
  assert (D : T <> TChar -> tokens (reader_of T) cs = tokens (reader_of TChar) cs).
  { intros HT. cbn [reader_of]. rewrite char_tokens. rewrite <- E at 1. rewrite tokens_decode; [|exact HT|eapply Forall_impl; [|exact H]; intros c Hc; apply K; exact Hc].
    f_equal. unfold chars. apply map_ext_in. intros c Hc. apply K. rewrite Forall_forall in H. apply H. exact Hc. }
  unfold string_of, addr_string, net_string, any_string, anet_string. destruct T; [reflexivity|rewrite D by discriminate; reflexivity..].
Qed.

(** *** How far the iterator moves *)
Definition cut8 (b : Z) (r : list Z) : Prop := match lead8 b with None => True | Some n => 1 < n /\ match nth_error r (Z.to_nat (n - 2)) with Some t => ~ cont t | None => True end end.
Lemma tr_false o : snd (tr o) = false <-> match o with Some t => ~ cont t | None => True end.
Proof. destruct o as [t|]; [|cbn; tauto]. unfold tr, trail, cont. destruct ((0x80 <=? t) && (t <? 0xC0)) eqn:E; cbn [snd]; split; intros; try discriminate; try reflexivity; lia. Qed.
Lemma next8_what b r : snd (next8 (b :: r)) = span TChar8 b /\ (fst (next8 (b :: r)) = Bad wrong_encoding_sequence 0 <-> cut8 b r).
Proof.
  assert (F : forall v (ok : bool), (if negb ok then Bad wrong_encoding_sequence 0 else if v >? 127 then Bad unexpected_symbol v else Ch v) = Bad wrong_encoding_sequence 0 <-> ok = false).
  { intros v [|]; cbn [negb]; [|tauto]. destruct (v >? 127); split; intros; discriminate. }
  unfold next8, cp, cut8, span, lead8. destruct (b <? 0x80); [cbn [Z.eqb Pos.eqb fst snd]; split; [reflexivity|rewrite F; split; [discriminate|lia]]|].
  destruct (b <? 0xC0); [cbn [fst snd]; split; [reflexivity|rewrite F; tauto]|].
  destruct (b <? 0xE0); [|destruct (b <? 0xF0); [|destruct (b <? 0xF8)]]; cbn [Z.eqb Pos.eqb].
  - rewrite <- tr_false. change (Z.to_nat (2 - 2)) with 0%nat. destruct (tr (nth_error r 0)) as [t c]. cbn [fst snd]. split; [reflexivity|rewrite F; split; [intros K; split; [lia|exact K]|tauto]].
  - rewrite <- tr_false. change (Z.to_nat (3 - 2)) with 1%nat. destruct (tr (nth_error r 0)) as [t1 c1], (tr (nth_error r 1)) as [t c]. cbn [fst snd]. split; [reflexivity|rewrite F; split; [intros K; split; [lia|exact K]|tauto]].
  - rewrite <- tr_false. change (Z.to_nat (4 - 2)) with 2%nat. destruct (tr (nth_error r 0)) as [t1 c1], (tr (nth_error r 1)) as [t2 c2], (tr (nth_error r 2)) as [t c]. cbn [fst snd]. split; [reflexivity|rewrite F; split; [intros K; split; [lia|exact K]|tauto]].
  - cbn [fst snd]. split; [reflexivity|rewrite F; tauto].
Qed.

Lemma span_range T u : 1 <= span T u <= 4.
Proof.
  unfold span, lead8. destruct T; try lia.
  - destruct (u <? 0x80), (u <? 0xC0), (u <? 0xE0), (u <? 0xF0), (u <? 0xF8); lia.
  - destruct ((0xD800 <=? u) && (u <? 0xDC00)); lia.
Qed.
Lemma kilo u : is_u16 u -> exists k m, 0 <= m < 1024 /\ 0 <= k < 64 /\ u = k * 1024 + m.
Proof. unfold is_u16. change (2 ^ 16) with 65536. intros H. exists (u / 1024), (u mod 1024). pose proof (Z.mod_pos_bound u 1024 ltac:(lia)). pose proof (Z.div_mod u 1024 ltac:(lia)). lia. Qed.
Lemma high_land u : is_u16 u -> (Z.land u 0xFC00 =? 0xD800) = ((0xD800 <=? u) && (u <? 0xDC00)).
Proof. intros H. destruct (kilo u H) as (k & m & Hm & Hk & E). rewrite (land_fc00 u k m Hm Hk E). clear H. lia. Qed.
Lemma low_land u : is_u16 u -> (Z.land u 0xFC00 =? 0xDC00) = ((0xDC00 <=? u) && (u <? 0xE000)).
Proof. intros H. destruct (kilo u H) as (k & m & Hm & Hk & E). rewrite (land_fc00 u k m Hm Hk E). clear H. lia. Qed.
Lemma nth_units (P : Z -> Prop) s i u : Forall P s -> nth_error s i = Some u -> P u.
Proof. intros H E. rewrite Forall_forall in H. apply H. eapply nth_error_In. exact E. Qed.
Lemma rd_nth (s : list Z) i u : 0 <= i -> nth_error s (Z.to_nat i) = Some u -> rd s i = Ret u.
Proof. intros H E. unfold rd. replace (i <? 0) with false by lia. rewrite E. reflexivity. Qed.

Lemma reader_step T s e it u : Forall (unit_ok T) s -> 0 <= it < e -> e <= zlen s -> nth_error s (Z.to_nat it) = Some u ->
  exists t, reader_of T s e it = Ret (t, it + span T u) /\ (t = Bad wrong_encoding_sequence 0 <-> broken T s e it u).
Proof.
  intros Hs Hit He Hu. assert (R : rd s it = Ret u) by (apply rd_nth; [lia|exact Hu]). pose proof (nth_units _ _ _ _ Hs Hu) as Ou.
  assert (U32 : exists t, utf32_next s e it = Ret (t, it + 1) /\ (t = Bad wrong_encoding_sequence 0 <-> False)).
  { unfold utf32_next. rewrite R. cbn [bind]. destruct (w32 u >? 127); eexists; (split; [reflexivity|]); split; intros K; (discriminate || contradiction). }
  destruct T; cbn [reader_of broken]; [| | |exact U32..].
  - unfold char_next. rewrite R. cbn [bind]. eexists. split; [reflexivity|]. split; intros K; (discriminate || contradiction).
  - pose proof (reader_first TChar8 s e it Hit) as RF. cbn [reader_of] in RF. rewrite <- RF. clear RF. assert (L : zlen (firstn (Z.to_nat e) s) = e) by (apply first_len; lia).
    replace (utf8_next (firstn (Z.to_nat e) s) e it) with (utf8_next (firstn (Z.to_nat e) s) (zlen (firstn (Z.to_nat e) s)) it) by (rewrite L; reflexivity).
    assert (Fs : Forall is_u8 (firstn (Z.to_nat e) s)) by (rewrite Forall_forall in *; intros x Hx; apply Hs; rewrite <- (firstn_skipn (Z.to_nat e) s); apply in_or_app; auto).
    rewrite utf8_next_ok by (auto; rewrite L; lia). set (f := firstn (Z.to_nat e) s) in *.
    assert (Hf : nth_error f (Z.to_nat it) = Some u) by (unfold f; rewrite nth_first by lia; exact Hu).
    rewrite (skipn_nth f _ u Hf). destruct (next8_what u (skipn (S (Z.to_nat it)) f)) as [N W].
    destruct (next8 (u :: skipn (S (Z.to_nat it)) f)) as [t n]. cbn [fst snd] in *. subst n. exists t. split; [reflexivity|]. rewrite W. unfold cut8. pose proof (span_range TChar8 u) as Sp. unfold span in Sp.
    destruct (lead8 u) as [n|]; [|tauto]. rewrite skipn_nth_error. unfold unit_at. destruct (Z.ltb_spec 1 n); [|split; intros [K _]; lia].
    replace (S (Z.to_nat it) + Z.to_nat (n - 2))%nat with (Z.to_nat (it + n - 1)) by lia. destruct (Z.ltb_spec (it + n - 1) e).
    + unfold f. rewrite nth_first by lia. tauto.
    + replace (nth_error f (Z.to_nat (it + n - 1))) with (@None Z); [tauto|]. symmetry. apply nth_error_None. unfold zlen in *. lia.
  - unfold utf16_next. rewrite R. cbn [bind]. cbn [unit_ok] in *. rewrite high_land by exact Ou. unfold span, high. destruct ((0xD800 <=? u) && (u <? 0xDC00)) eqn:Eh.
    + unfold unit_at. destruct (Z.geb_spec (it + 1) e) as [G|G]; cbn [bind negb].
      * replace (it + 1 <? e) with false by lia. eexists. split; [do 2 f_equal; lia|]. split; [intros _; split; [lia|exact I]|reflexivity].
      * replace (it + 1 <? e) with true by lia. destruct (nth_error s (Z.to_nat (it + 1))) as [w|] eqn:Ew.
        2:{ exfalso. apply nth_error_None in Ew. unfold zlen in *. lia. }
        rewrite (rd_nth s _ w) by (lia || exact Ew). cbn [bind]. rewrite low_land by exact (nth_units _ _ _ _ Hs Ew). unfold low. destruct ((0xDC00 <=? w) && (w <? 0xE000)) eqn:El; cbn [bind negb].
        -- assert (It : it + 1 + 1 = it + 2) by lia. rewrite It. destruct (_ >? 127); eexists; (split; [reflexivity|]); split; intros K; try discriminate; exfalso; lia.
        -- eexists. split; [do 2 f_equal; lia|]. split; [intros _; split; [lia|lia]|reflexivity].
    + cbn [bind negb]. destruct (u >? 127); eexists; (split; [reflexivity|]); split; intros K; try discriminate; exfalso; lia.
Qed.
Lemma broken_long T s e it u : e < it + span T u -> broken T s e it u \/ it + 1 > e.
Proof.
  intros H. destruct (Z.gtb_spec (it + 1) e); [right; lia|left]. unfold span, broken, unit_at in *. destruct T; try (exfalso; lia).
  - destruct (lead8 u) as [n|]; [|exact I]. split; [lia|]. replace (it + n - 1 <? e) with false by lia. exact I.
  - unfold high. destruct ((0xD800 <=? u) && (u <? 0xDC00)) eqn:E; [|exfalso; lia]. split; [lia|]. replace (it + 1 <? e) with false by lia. exact I.
Qed.
Lemma reader_range T s e it t it' : Forall (unit_ok T) s -> 0 <= it < e -> e <= zlen s -> reader_of T s e it = Ret (t, it') ->
  it < it' <= e + 3 /\ (e < it' -> t = Bad wrong_encoding_sequence 0).
Proof.
  intros Hs Hit He E. destruct (nth_error s (Z.to_nat it)) as [u|] eqn:Eu; [|exfalso; apply nth_error_None in Eu; unfold zlen in *; lia].
  destruct (reader_step T s e it u Hs Hit He Eu) as (t0 & E0 & W). rewrite E in E0. assert (t0 = t /\ it' = it + span T u) as [-> ->] by (split; congruence). pose proof (span_range T u) as R. split; [lia|].
  intros K. apply W. destruct (broken_long T s e it u K); [assumption|lia].
Qed.
Lemma reader_beyond T s e it u t it' : Forall (unit_ok T) s -> 0 <= it < e -> e <= zlen s -> nth_error s (Z.to_nat it) = Some u -> reader_of T s e it = Ret (t, it') -> (e < it' <-> e < it + span T u).
Proof. intros Hs Hit He Eu E. destruct (reader_step T s e it u Hs Hit He Eu) as (t0 & E0 & W). rewrite E in E0. assert (it' = it + span T u) as -> by congruence. tauto. Qed.
Lemma reader_overshoots : (exists s, Forall is_u8 s /\ utf8_next s (zlen s) 0 = Ret (Bad wrong_encoding_sequence 0, zlen s + 3)) /\
  (exists s, Forall is_u16 s /\ utf16_next s (zlen s) 0 = Ret (Bad wrong_encoding_sequence 0, zlen s + 1)).
Proof.
  split; [exists [0xF0]|exists [0xD800]]; (split; [repeat constructor; unfold is_u8, is_u16; lia|vm_compute; reflexivity]).
Qed.
Lemma lone_low : exists s, Forall is_u16 s /\ utf16_next s (zlen s) 0 = Ret (Bad unexpected_symbol 0xDC00, 1).
Proof. exists [0xDC00]. split; [repeat constructor; unfold is_u16; lia|vm_compute; reflexivity]. Qed.
