(** The IPv4 formatter, integer form and reverse pointer. *)
From Verif Require Import Base Tac SpecText TextProofs V4Model SpecV4 V4Proofs BufProofs.

(** Decimal text of a byte, by number of digits. *)
Definition dec (b : Z) : list Z :=
  if b <? 10 then [b + 48]
  else if b <? 100 then [b / 10 + 48; b mod 10 + 48]
  else [b / 100 + 48; b / 10 mod 10 + 48; b mod 10 + 48].

Lemma dec_octet b : 0 <= b <= 255 -> octet_text (dec b) b.
Proof.
  intros H. split; [|lia]. apply numeral10_iff. unfold dec, dval.
  destruct (Z.ltb_spec b 10); [|destruct (Z.ltb_spec b 100)].
  all: repeat split; try discriminate.
  all: try (repeat constructor; unfold is_dec_digit; lia).
  all: cbn [map horner hd]; unfold zlen; cbn [length]; lia.
Qed.
Lemma dec_len b : 1 <= zlen (dec b) <= 3.
Proof. unfold dec. destruct (b <? 10); [|destruct (b <? 100)]; cbn; lia. Qed.

Lemma byte_to_string_ok b x0 x1 x2 x3 : 0 <= b <= 255 ->
  exists rest, byte_to_string b [x0; x1; x2; x3] = Ret (dec b ++ rest, zlen (dec b)) /\ zlen (dec b ++ rest) = 4.
Proof.
  intros H. unfold byte_to_string, dec.
  destruct (Z.ltb_spec b 10); [|destruct (Z.ltb_spec b 100)].
  - exists [0; x2; x3]. split; [|reflexivity]. cbn [byte_digits]. change (wr [x0; x1; x2; x3] 0 ?v) with (Ret [v; x1; x2; x3]).
    cbn [bind]. rewrite Z.div_small, Z.mod_small by lia. reflexivity.
  - exists [0; x3]. split; [|reflexivity]. cbn [byte_digits]. change (wr [x0; x1; x2; x3] 0 ?v) with (Ret [v; x1; x2; x3]).
    cbn [bind]. destruct (Z.eqb_spec (b / 10) 0); [lia|]. cbn [negb].
    change (wr [?y; x1; x2; x3] (0 + 1) ?v) with (Ret [y; v; x2; x3]). cbn [bind].
    destruct (Z.eqb_spec (b / 10 / 10) 0); [|lia]. cbn [negb].
    rewrite (Z.mod_small (b / 10)) by lia.
    remember (b mod 10) as m. remember (b / 10) as q. reflexivity.
  - exists [0]. split; [|reflexivity]. cbn [byte_digits]. change (wr [x0; x1; x2; x3] 0 ?v) with (Ret [v; x1; x2; x3]).
    cbn [bind]. destruct (Z.eqb_spec (b / 10) 0); [lia|]. cbn [negb].
    change (wr [?y; x1; x2; x3] (0 + 1) ?v) with (Ret [y; v; x2; x3]). cbn [bind].
    destruct (Z.eqb_spec (b / 10 / 10) 0); [lia|]. cbn [negb].
    change (wr [?y; ?z; x2; x3] (0 + 1 + 1) ?v) with (Ret [y; z; v; x3]). cbn [bind].
    destruct (Z.eqb_spec (b / 10 / 10 / 10) 0); [|lia]. cbn [negb].
    replace (b / 10 / 10 mod 10) with (b / 100) by lia.
    remember (b mod 10) as m. remember (b / 10 mod 10) as q. remember (b / 100) as r.
    reflexivity.
Qed.

Lemma list4 {A} (l : list A) : zlen l = 4 -> exists a b c d, l = [a; b; c; d].
Proof.
  unfold zlen. destruct l as [|a [|b [|c [|d [|]]]]]; cbn [length]; try lia. intros _. eauto 8.
Qed.

Lemma chars_step b bs pre0 buffer pre k n : 0 <= b <= 255 -> zlen buffer = 4 -> zlen pre + 5 <= n ->
  exists buffer', zlen buffer' = 4 /\
  v4_chars_loop (S k) (zlen pre0) (pre0 ++ b :: bs) buffer (buf n pre) (zlen pre) =
  let pre' := pre ++ dec b ++ (if zlen pre0 <? 3 then [46] else []) in
  v4_chars_loop k (zlen pre0 + 1) (pre0 ++ b :: bs) buffer' (buf n pre') (zlen pre').
Proof.
  intros Hb Hl Hn. destruct (list4 buffer Hl) as (x0 & x1 & x2 & x3 & ->).
  destruct (byte_to_string_ok b x0 x1 x2 x3 Hb) as (rest & E & Hr). exists (dec b ++ rest). split; [assumption|].
  cbn [v4_chars_loop]. rewrite rd_mid by reflexivity. cbn [bind]. rewrite E. cbn [bind].
  pose proof (dec_len b). rewrite to_nat_zlen.
  change (dec b ++ rest) with ([] ++ dec b ++ rest) at 1. rewrite (copy_chars_buf (dec b) [] rest n pre 0 (zlen pre)) by (auto; lia). cbn [bind].
  destruct (zlen pre0 <? 3).
  - rewrite wr_buf by (autorewrite with zl; lia). cbn [bind]. rewrite <- app_assoc. autorewrite with zl. f_equal. lia.
  - cbn [bind]. rewrite app_nil_r. autorewrite with zl. reflexivity.
Qed.

Lemma v4_to_string_ok a b c d : 0 <= a <= 255 -> 0 <= b <= 255 -> 0 <= c <= 255 -> 0 <= d <= 255 ->
  v4_to_string [a; b; c; d] = Ret (dec a ++ 46 :: dec b ++ 46 :: dec c ++ 46 :: dec d).
Proof.
  intros Ha Hb Hc Hd. unfold v4_to_string, v4_to_chars. change (repeat 0 16) with (buf 16 []).
  pose proof (dec_len a). pose proof (dec_len b). pose proof (dec_len c). pose proof (dec_len d).
  destruct (chars_step a [b; c; d] [] [0; 0; 0; 0] [] 3 16) as (b1 & L1 & E1); try reflexivity; try (cbn; lia).
  change (zlen (@nil Z)) with 0 in E1. cbn [app] in E1. rewrite E1. clear E1. cbn [Z.ltb Z.compare].
  set (p1 := dec a ++ [46]). assert (zlen p1 <= 4) by (unfold p1; autorewrite with zl; lia).
  destruct (chars_step b [c; d] [a] b1 p1 2 16) as (b2 & L2 & E2); try assumption; try lia.
  change (zlen [a]) with 1 in E2. cbn [app] in E2. change (0 + 1) with 1. cbn zeta. rewrite E2. clear E2. cbn [Z.ltb Z.compare Pos.compare Pos.compare_cont].
  set (p2 := p1 ++ dec b ++ [46]). assert (zlen p2 <= 8) by (unfold p2; autorewrite with zl; lia).
  destruct (chars_step c [d] [a; b] b2 p2 1 16) as (b3 & L3 & E3); try assumption; try lia.
  change (zlen [a; b]) with 2 in E3. cbn [app] in E3. change (1 + 1) with 2. cbn zeta. rewrite E3. clear E3. cbn [Z.ltb Z.compare Pos.compare Pos.compare_cont].
  set (p3 := p2 ++ dec c ++ [46]). assert (zlen p3 <= 12) by (unfold p3; autorewrite with zl; lia).
  (* last byte: no room reserved for a dot *)
  destruct (list4 b3 L3) as (x0 & x1 & x2 & x3 & ->).
  destruct (byte_to_string_ok d x0 x1 x2 x3 Hd) as (rest & E & Hr).
  change (2 + 1) with 3. cbn zeta. cbn [v4_chars_loop]. change (rd [a; b; c; d] 3) with (Ret d). cbn [bind]. rewrite E. cbn [bind].
  rewrite to_nat_zlen.
  change (dec d ++ rest) with ([] ++ dec d ++ rest) at 1. rewrite (copy_chars_buf (dec d) [] rest 16 p3 0 (zlen p3)) by (auto; lia). cbn [bind Z.ltb Z.compare Pos.compare Pos.compare_cont].
  rewrite wr_buf by (autorewrite with zl; lia). cbn [bind].
  assert (L : zlen (p3 ++ dec d) <= 15) by (autorewrite with zl; lia).
  rewrite zlen_buf by (revert L; autorewrite with zl; lia).
  destruct (Z.leb_spec (zlen p3 + zlen (dec d)) 16); [|lia]. f_equal.
  replace (Z.to_nat (zlen p3 + zlen (dec d))) with (length (p3 ++ dec d)) by (unfold zlen; rewrite app_length; lia).
  unfold buf. rewrite <- app_assoc, firstn_app, firstn_all, Nat.sub_diag. cbn [firstn]. rewrite app_nil_r.
  unfold p3, p2, p1. rewrite <- !app_assoc. reflexivity.
Qed.

Lemma dotted_quad_unique s s' bs : dotted_quad s bs -> dotted_quad s' bs -> s = s'.
Proof.
  intros (sa & sb & sc & sd & a & b & c & d & [Ha _] & [Hb _] & [Hc _] & [Hd _] & -> & ->)
         (sa' & sb' & sc' & sd' & a' & b' & c' & d' & [Ha' _] & [Hb' _] & [Hc' _] & [Hd' _] & -> & E).
  inversion E; subst.
  rewrite (numeral_unique 10 sa sa' a'), (numeral_unique 10 sb sb' b'), (numeral_unique 10 sc sc' c'),
    (numeral_unique 10 sd sd' d') by (auto; lia). reflexivity.
Qed.

Lemma dotted_quad_bytes s bs : dotted_quad s bs -> zlen bs = 4 /\ Forall (fun x => 0 <= x <= 255) bs.
Proof.
  intros (sa & sb & sc & sd & a & b & c & d & Ha & Hb & Hc & Hd & -> & ->). split; [reflexivity|].
  apply octet_cur_ok in Ha, Hb, Hc, Hd. repeat constructor; tauto.
Qed.

(** Format of a four-byte address. *)
Lemma v4_format bs : zlen bs = 4 -> Forall (fun x => 0 <= x <= 255) bs ->
  exists s, v4_to_string bs = Ret s /\ dotted_quad s bs /\ zlen s <= 15.
Proof.
  intros Hl HF. destruct (list4 bs Hl) as (a & b & c & d & ->).
  inversion HF as [|? ? Ha HF1]; subst. inversion HF1 as [|? ? Hb HF2]; subst.
  inversion HF2 as [|? ? Hc HF3]; subst. inversion HF3 as [|? ? Hd _]; subst.
  rewrite v4_to_string_ok by assumption. eexists; split; [reflexivity|]. split.
  - exists (dec a), (dec b), (dec c), (dec d), a, b, c, d. repeat (split; [apply dec_octet; assumption|]). split; reflexivity.
  - pose proof (dec_len a); pose proof (dec_len b); pose proof (dec_len c); pose proof (dec_len d).
    autorewrite with zl. lia.
Qed.

Lemma v4_round_trip bs : zlen bs = 4 -> Forall (fun x => 0 <= x <= 255) bs ->
  exists s, v4_to_string bs = Ret s /\ v4_from_string (chars s) = Ret bs.
Proof.
  intros Hl HF. destruct (v4_format bs Hl HF) as (s & E & Hq & _). exists s. split; [assumption|].
  apply v4_accepts. assumption.
Qed.
Lemma v4_round_trip_text s bs : v4_from_string (chars s) = Ret bs -> v4_to_string bs = Ret s.
Proof.
  intros H. apply v4_accept_iff in H. destruct (dotted_quad_bytes _ _ H) as [Hl HF].
  destruct (v4_format bs Hl HF) as (s' & E & Hq & _). rewrite E. f_equal. eapply dotted_quad_unique; eassumption.
Qed.
