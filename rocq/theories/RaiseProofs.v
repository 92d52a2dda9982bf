(** Printing text in messages. *)
From Coq Require Import String.
From Verif Require Import Base Tac UnicodeModel BitProofs SpecStr SpecText StrProofs Utf8Proofs TextProofs SpecInt Uint128Model Uint128Text
  AddressModel NetworkModel AnyModel CodeModel StreamModel SpecStream ErrorModel SpecError.

(** ** Symbol names *)
Lemma lit_open : lit "{U+" = [123; 85; 43]. Proof. reflexivity. Qed.
Lemma lit_close : lit "}" = [125]. Proof. reflexivity. Qed.
Lemma name_ok v : 0 <= v < 2 ^ 32 -> code_name v (print_symbol_code v).
Proof.
  intros H. unfold code_name, print_symbol_code. rewrite lit_open, lit_close. unfold w32. rewrite Z.mod_small by exact H.
  exists (Z.to_nat (4 - zlen (ostream_u64 16 v))), (ostream_u64 16 v). split; [reflexivity|]. split; [|lia].
  apply ostream_u64_ok; [lia|]. split; [lia|]. apply Z.lt_trans with (2 ^ 32); [lia|reflexivity].
Qed.

(** ** The readers are defined and advance *)
Definition step_fine (next : reader) (s : list Z) (it : Z) : Prop :=
  exists t it', next s (zlen s) it = Ret (t, it') /\ it < it' /\ match t with Bad _ v => 0 <= v < 2 ^ 32 | Ch _ => True end.
Lemma next8_bound r e v n : Forall is_u8 r -> next8 r = (Bad e v, n) -> 0 <= v < 2 ^ 32.
Proof.
  intros H E. destruct r as [|b r]; [injection E as _ <- _; lia|]. inversion H as [|? ? Hb _]. subst. unfold is_u8 in Hb.
  assert (F : forall (x : Z) (ok : bool) m, (if negb ok then Bad wrong_encoding_sequence 0 else if x >? 127 then Bad unexpected_symbol x else Ch x, m) = (Bad e v, n) ->
    0 <= x < 2 ^ 32 -> 0 <= v < 2 ^ 32).
  { intros x ok m. destruct ok; cbn [negb]; [destruct (x >? 127)|]; intros [= _ <- _]; lia. }
  unfold next8, cp in E.
  pose proof (tr_range (nth_error r 0)) as R0. pose proof (tr_range (nth_error r 1)) as R1. pose proof (tr_range (nth_error r 2)) as R2.
  destruct (tr (nth_error r 0)) as [t0 k0], (tr (nth_error r 1)) as [t1 k1], (tr (nth_error r 2)) as [t2 k2]. cbn [fst] in R0, R1, R2.
  change (2 ^ 32) with 4294967296 in *.
  destruct (Z.ltb_spec b 0x80); [apply F in E; [exact E|lia]|].
  destruct (Z.ltb_spec b 0xC0); [apply (F 0 false) in E; [exact E|lia]|].
  destruct (Z.ltb_spec b 0xE0); [apply F in E; [exact E|lia]|].
  destruct (Z.ltb_spec b 0xF0); [apply F in E; [exact E|lia]|].
  destruct (Z.ltb_spec b 0xF8); [apply F in E; [exact E|lia]|].
  apply (F 0 false) in E; [exact E|lia].
Qed.
Lemma utf16_fine s it : Forall is_u16 s -> 0 <= it < zlen s -> step_fine utf16_next s it.
Proof.
  intros Hs Hit. unfold step_fine, utf16_next. destruct (rd_some s it) as (u & E & _); [lia|]. rewrite E. cbn [bind].
  pose proof (rd_ok _ _ _ _ Hs E) as Hu. unfold is_u16 in Hu. change (2 ^ 16) with 65536 in Hu. change (2 ^ 32) with 4294967296.
  destruct (Z.land u 0xFC00 =? 0xD800).
  - destruct (Z.geb_spec (it + 1) (zlen s)); [cbn [bind negb]; eexists _, _; split; [reflexivity|]; split; [lia|]; cbn iota; lia|].
    destruct (rd_some s (it + 1)) as (u2 & E2 & _); [lia|]. rewrite E2. cbn [bind].
    destruct (Z.land u2 0xFC00 =? 0xDC00); cbn [bind negb].
    + match goal with |- context [w32 ?x] => pose proof (Z.mod_pos_bound x (2 ^ 32) eq_refl) as B; fold (w32 x) in B; destruct (w32 x >? 127) end;
        eexists _, _; (split; [reflexivity|]); (split; [lia|]); [exact B|exact I].
    + eexists _, _. split; [reflexivity|]. split; [lia|]. cbn iota. lia.
  - cbn [bind negb]. destruct (u >? 127); eexists _, _; (split; [reflexivity|]); (split; [lia|]); [lia|exact I].
Qed.
Lemma reader_fine T s it : Forall (unit_ok T) s -> 0 <= it < zlen s -> step_fine (reader_of T) s it.
Proof.
  intros Hs Hit. assert (U32 : step_fine utf32_next s it).
  { unfold step_fine, utf32_next. destruct (rd_some s it) as (u & E & _); [lia|]. rewrite E. cbn [bind].
    pose proof (Z.mod_pos_bound u (2 ^ 32) eq_refl) as B. fold (w32 u) in B.
    destruct (w32 u >? 127); eexists _, _; (split; [reflexivity|]); (split; [lia|]); [exact B|exact I]. }
  destruct T; cbn [reader_of unit_ok] in *; [| |apply utf16_fine; assumption|exact U32|exact U32].
  - unfold step_fine, char_next. destruct (rd_some s it) as (u & E & _); [lia|]. rewrite E. cbn [bind].
    eexists _, _. split; [reflexivity|]. split; [lia|exact I].
  - unfold step_fine. rewrite utf8_next_ok by assumption.
    assert (N : skipn (Z.to_nat it) s <> []).
    { intros E. apply (f_equal (@List.length Z)) in E. rewrite skipn_length in E. cbn in E. unfold zlen in *. lia. }
    assert (F : Forall is_u8 (skipn (Z.to_nat it) s)).
    { rewrite <- (firstn_skipn (Z.to_nat it) s) in Hs. apply Forall_app in Hs. apply Hs. }
    pose proof (next8_pos _ N) as P. destruct (next8 (skipn (Z.to_nat it) s)) as [t n] eqn:E. cbn [snd] in P.
    eexists _, _. split; [reflexivity|]. split; [lia|]. destruct t; [exact I|]. eapply next8_bound; eassumption.
Qed.
Lemma print_loop_defined T s : Forall (unit_ok T) s -> forall k it, 0 <= it -> (Z.to_nat (zlen s - it) <= k)%nat ->
  exists t, print_loop k (reader_of T) s it = Ret t.
Proof.
  intros Hs. induction k as [|k IH]; intros it Hit Hk; cbn [print_loop]; (destruct (Z.ltb_spec it (zlen s)); [|eexists; reflexivity]); [lia|].
  destruct (reader_fine T s it Hs ltac:(lia)) as (t & it' & E & Hlt & _). rewrite E. cbn [bind].
  destruct (IH it' ltac:(lia) ltac:(lia)) as (r & Er). rewrite Er. cbn [bind].
  destruct t as [c|e v]; [destruct (c =? 0)|destruct (v =? 0)]; eexists; reflexivity.
Qed.
Lemma print_array_defined T s : Forall (unit_ok T) s -> exists t, print_array T s = Ret t.
Proof. intros H. apply print_loop_defined; [exact H|lia|unfold zlen; lia]. Qed.

(** ** Reading one encoded symbol *)
Definition seen (T : chtype) (c : Z) : tok := if match T with TChar => true | _ => c <? 128 end then Ch c else Bad unexpected_symbol c.
Lemma enc_len T c : 1 <= zlen (enc T c) <= 4.
Proof. unfold enc. destruct T; unfold zlen; repeat (destruct (_ <? _)); cbn; lia. Qed.

Definition quot (a b : Z) := a / b.
Definition remd (a b : Z) := a mod b.
Lemma qr a b : 0 < b -> a = b * quot a b + remd a b /\ 0 <= remd a b < b.
Proof. intros H. unfold quot, remd. split; [apply Z.div_mod; lia|apply Z.mod_pos_bound; lia]. Qed.
Lemma enc8_eq c : 0 <= c -> enc TChar8 c =
  if c <? 0x80 then [c]
  else if c <? 0x800 then [0xC0 + quot c 64; 0x80 + remd c 64]
  else if c <? 0x10000 then [0xE0 + quot (quot c 64) 64; 0x80 + remd (quot c 64) 64; 0x80 + remd c 64]
  else [0xF0 + quot (quot (quot c 64) 64) 64; 0x80 + remd (quot (quot c 64) 64) 64; 0x80 + remd (quot c 64) 64; 0x80 + remd c 64].
Proof.
  intros H. unfold enc, quot, remd. rewrite !Z.div_div by lia. reflexivity.
Qed.
Lemma trail_byte t : 0 <= t < 64 -> trail (0x80 + t) = (t, true).
Proof. intros H. rewrite cont_trail by (unfold cont; lia). f_equal. lia. Qed.
Lemma enc8_units c : scalar c -> Forall is_u8 (enc TChar8 c).
Proof.
  intros [H _]. rewrite enc8_eq by lia. unfold is_u8.
  destruct (qr c 64) as [E1 R1]; [lia|]. destruct (qr (quot c 64) 64) as [E2 R2]; [lia|]. destruct (qr (quot (quot c 64) 64) 64) as [E3 R3]; [lia|].
  revert E1 R1 E2 R2 E3 R3. generalize (remd c 64) (remd (quot c 64) 64) (remd (quot (quot c 64) 64) 64).
  generalize (quot (quot (quot c 64) 64) 64). generalize (quot (quot c 64) 64). generalize (quot c 64). intros.
  destruct (Z.ltb_spec c 0x80); [constructor; [lia|constructor]|].
  destruct (Z.ltb_spec c 0x800); [repeat constructor; lia|].
  destruct (Z.ltb_spec c 0x10000); repeat constructor; lia.
Qed.
Lemma next8_enc c r : scalar c -> next8 (enc TChar8 c ++ r) = (seen TChar8 c, zlen (enc TChar8 c)).
Proof.
  intros [H _]. rewrite enc8_eq by lia. unfold seen.
  destruct (qr c 64) as [E1 R1]; [lia|]. destruct (qr (quot c 64) 64) as [E2 R2]; [lia|]. destruct (qr (quot (quot c 64) 64) 64) as [E3 R3]; [lia|].
  revert E1 R1 E2 R2 E3 R3. generalize (remd c 64) (remd (quot c 64) 64) (remd (quot (quot c 64) 64) 64).
  generalize (quot (quot (quot c 64) 64) 64). generalize (quot (quot c 64) 64). generalize (quot c 64). intros q1 q2 q3 r1 r2 r3 E1 R1 E2 R2 E3 R3.
  destruct (Z.ltb_spec c 0x80).
  { cbn [app next8]. unfold cp. rewrite (proj2 (Z.ltb_lt c 0x80)) by lia. change (1 =? 1) with true. cbn [negb].
    destruct (Z.gtb_spec c 127); [lia|]. reflexivity. }
  destruct (Z.ltb_spec c 0x800).
  { cbn [app next8 nth_error tr]. rewrite trail_byte by lia. unfold cp.
    rewrite (proj2 (Z.ltb_ge (0xC0 + q1) 0x80)), (proj2 (Z.ltb_ge (0xC0 + q1) 0xC0)), (proj2 (Z.ltb_lt (0xC0 + q1) 0xE0)) by lia.
    change (2 =? 1) with false. change (2 =? 2) with true. cbn [negb]. replace ((0xC0 + q1 - 0xC0) * 64 + r1) with c by lia.
    destruct (Z.gtb_spec c 127); [|lia]. reflexivity. }
  destruct (Z.ltb_spec c 0x10000).
  { cbn [app next8 nth_error tr]. rewrite !trail_byte by lia. unfold cp.
    rewrite (proj2 (Z.ltb_ge (0xE0 + q2) 0x80)), (proj2 (Z.ltb_ge (0xE0 + q2) 0xC0)), (proj2 (Z.ltb_ge (0xE0 + q2) 0xE0)), (proj2 (Z.ltb_lt (0xE0 + q2) 0xF0)) by lia.
    change (3 =? 1) with false. change (3 =? 2) with false. change (3 =? 3) with true. cbn [negb].
    replace (((0xE0 + q2 - 0xE0) * 64 + r2) * 64 + r1) with c by lia.
    destruct (Z.gtb_spec c 127); [|lia]. reflexivity. }
  cbn [app next8 nth_error tr]. rewrite !trail_byte by lia. unfold cp.
  rewrite (proj2 (Z.ltb_ge (0xF0 + q3) 0x80)), (proj2 (Z.ltb_ge (0xF0 + q3) 0xC0)), (proj2 (Z.ltb_ge (0xF0 + q3) 0xE0)), (proj2 (Z.ltb_ge (0xF0 + q3) 0xF0)),
    (proj2 (Z.ltb_lt (0xF0 + q3) 0xF8)) by lia.
  change (4 =? 1) with false. change (4 =? 2) with false. change (4 =? 3) with false. cbn [negb].
  replace ((((0xF0 + q3 - 0xF0) * 64 + r3) * 64 + r2) * 64 + r1) with c by lia.
  destruct (Z.gtb_spec c 127); [|lia]. reflexivity.
Qed.
