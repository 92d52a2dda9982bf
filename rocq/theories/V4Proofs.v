(** The IPv4 parser against its specification. *)
From Verif Require Import Base Tac SpecText TextProofs V4Model SpecV4.

Definition dval (s : list Z) : Z := horner 10 0 (map (fun c => c - 48) s).

Lemma digits10_iff s ds : digits_of 10 s ds <-> Forall is_dec_digit s /\ ds = map (fun c => c - 48) s.
Proof.
  revert ds. induction s as [|c s IH]; intros ds; split.
  - intros H; inversion H; subst. split; [constructor|reflexivity].
  - intros [_ ->]. constructor.
  - intros H; inversion H as [|? d ? ds' Hc Hs]; subst. apply IH in Hs as [H1 ->].
    unfold digit_char in Hc. split; [constructor; [unfold is_dec_digit; lia|assumption]|].
    cbn [map]. f_equal. lia.
  - intros [H ->]. inversion H; subst. cbn [map]. constructor; [unfold digit_char, is_dec_digit in *; lia|].
    apply IH. split; auto.
Qed.

Lemma numeral10_iff s v : numeral 10 s v <->
  s <> [] /\ Forall is_dec_digit s /\ (hd 0 s = 48 -> zlen s = 1) /\ v = dval s.
Proof.
  unfold numeral. split.
  - intros (ds & H & Hn & Hc & <-). apply digits10_iff in H as [Hd ->].
    destruct s as [|c s]; [cbn in Hn; congruence|].
    repeat split; [discriminate|assumption|].
    cbn in *. rewrite map_length in Hc. intros E. unfold zlen. cbn [length]. lia.
  - intros (Hn & Hd & Hc & ->). exists (map (fun c => c - 48) s). repeat split.
    + apply digits10_iff; auto.
    + destruct s; [congruence|discriminate].
    + destruct s as [|c s]; [congruence|]. unfold zlen in Hc. cbn in *. rewrite map_length. lia.
Qed.

Lemma dval_snoc s c : dval (s ++ [c]) = dval s * 10 + (c - 48).
Proof. unfold dval. rewrite map_app. cbn [map]. apply horner_app. Qed.

Lemma dval_range s : Forall is_dec_digit s -> zlen s <= 3 -> 0 <= dval s <= 999.
Proof.
  intros Hd Hl.
  assert (R : 0 <= dval s < 10 ^ zlen s).
  { unfold dval. replace (zlen s) with (zlen (map (fun c => c - 48) s)) by (unfold zlen; rewrite map_length; reflexivity).
    apply horner_range; [lia|]. apply Forall_map. eapply Forall_impl; [|exact Hd].
    unfold is_dec_digit. intros; cbn; lia. }
  assert (10 ^ zlen s <= 10 ^ 3) by (apply Z.pow_le_mono_r; lia). lia.
Qed.

(** The digits of the current octet. *)
Definition cur_ok (s : list Z) : Prop :=
  Forall is_dec_digit s /\ zlen s <= 3 /\ (hd 0 s = 48 -> zlen s = 1).

Lemma cur_ok_nil : cur_ok []. Proof. repeat split; cbn; [constructor|lia|lia]. Qed.
Lemma cur_ok_start s : cur_ok s <-> octet_start s.
Proof.
  unfold octet_start. split.
  - intros (H1 & H2 & H3). destruct s as [|c s]; [left; reflexivity|right].
    split; [|assumption]. exists (dval (c :: s)). apply numeral10_iff. repeat split; auto. discriminate.
  - intros [->|[[v H] Hl]]; [apply cur_ok_nil|].
    apply numeral10_iff in H as (H1 & H2 & H3 & _). repeat split; auto.
Qed.
Lemma cur_ok_numeral s : cur_ok s -> s <> [] -> numeral 10 s (dval s).
Proof. intros (H1 & H2 & H3) Hn. apply numeral10_iff. auto. Qed.
Lemma numeral_cur_ok s v : numeral 10 s v -> zlen s <= 3 -> cur_ok s /\ v = dval s /\ s <> [].
Proof. intros H Hl. apply numeral10_iff in H as (H1 & H2 & H3 & H4). repeat split; auto. Qed.
Lemma octet_cur_ok s x : octet_text s x -> cur_ok s /\ x = dval s /\ s <> [] /\ 0 <= x <= 255.
Proof.
  intros [H Hx]. pose proof (numeral_nonneg 10 s x ltac:(lia) H).
  apply numeral10_iff in H as (H1 & H2 & H3 & H4).
  assert (Hl : zlen s <= 3).
  { destruct (Z.le_gt_cases (zlen s) 3) as [|Hg]; [assumption|exfalso].
    destruct s as [|c s]; [congruence|]. inversion H2; subst. cbn [hd] in H3. rewrite zlen_cons in *.
    assert (c <> 48) by (intros ->; lia). unfold is_dec_digit in *.
    revert H Hx. unfold dval. cbn [map horner]. rewrite horner_acc by lia. intros.
    assert (R : 0 <= horner 10 0 (map (fun c => c - 48) s)).
    { apply horner_range; [lia|]. apply Forall_map. eapply Forall_impl; [|eassumption]. intros; cbn in *; lia. }
    assert (10 ^ 3 <= 10 ^ zlen (map (fun c => c - 48) s)).
    { apply Z.pow_le_mono_r; [lia|]. unfold zlen in *. rewrite map_length. lia. }
    nia. }
  repeat split; auto.
Qed.

(** State of the loop after the octets [octs] and the digits [cur]. *)
Definition st (ts : list tok) (octs cur : list Z) (fs : Z) : res (list Z) :=
  v4_parse_loop ts (octs ++ repeat 0 (4 - length octs)) (match cur with [] => fs | c :: _ => c end)
    (zlen cur) (dval cur) (zlen octs).

Lemma int32_small x : 0 <= x < 100000 -> int32 x = Ret x.
Proof.
  intros. unfold int32. pows. destruct ((_ <=? _) && _) eqn:E; [reflexivity|lia].
Qed.

Lemma st_digit c ts octs cur fs : cur_ok cur -> zlen octs < 4 -> is_dec_digit c ->
  st (Ch c :: ts) octs cur fs =
    if (0 <? zlen cur) && (hd 0 cur =? 48) then Err leading_0_are_not_permitted (zlen octs)
    else if zlen cur =? 3 then Err octet_more_3_characters (zlen octs)
    else st ts octs (cur ++ [c]) fs.
Proof.
  intros (H1 & H2 & H3) Ho Hc. unfold st at 1. cbn [v4_parse_loop]. unfold is_dec_digit in Hc.
  pose proof (dval_range cur H1 H2). pose proof (zlen_nonneg cur).
  destruct (Z.geb_spec (zlen octs) 4); [lia|].
  destruct (Z.geb_spec c 48), (Z.leb_spec c 57); try lia. cbn [andb].
  rewrite (Z.gtb_ltb (zlen cur) 0).
  assert (E : (0 <? zlen cur) && (match cur with [] => fs | x :: _ => x end =? 48) = (0 <? zlen cur) && (hd 0 cur =? 48)).
  { destruct cur; reflexivity. }
  rewrite E. destruct ((0 <? zlen cur) && (hd 0 cur =? 48)) eqn:EZ; [reflexivity|].
  rewrite !int32_small by lia. cbn [bind].
  destruct (Z.eqb_spec (zlen cur) 3) as [E3|E3].
  - rewrite E3. reflexivity.
  - destruct (Z.gtb_spec (zlen cur + 1) 3); [lia|]. unfold st. rewrite dval_snoc. autorewrite with zl.
    destruct cur as [|x cur]; [reflexivity|].
    cbn [app]. destruct (Z.eqb_spec (zlen (x :: cur)) 0) as [E0|_]; [autorewrite with zl in E0; pose proof (zlen_nonneg cur); lia|].
    reflexivity.
Qed.

Lemma land255 x : 0 <= x <= 255 -> Z.land x 255 = x.
Proof. intros. change 255 with (Z.ones 8). rewrite Z.land_ones by lia. apply Z.mod_small. pows. lia. Qed.

Lemma st_wr octs x : zlen octs < 4 ->
  wr (octs ++ repeat 0 (4 - length octs)) (zlen octs) x = Ret ((octs ++ [x]) ++ repeat 0 (4 - length (octs ++ [x]))).
Proof.
  intros H. unfold zlen in H. rewrite app_length. cbn [length].
  replace (4 - length octs)%nat with (S (4 - (length octs + 1)))%nat by lia. cbn [repeat].
  rewrite wr_mid by reflexivity. rewrite <- app_assoc. reflexivity.
Qed.

Lemma st_dot ts octs cur fs : cur_ok cur -> zlen octs < 4 ->
  exists fs', st (Ch 46 :: ts) octs cur fs =
    if zlen cur =? 0 then Err empty_octet (zlen octs)
    else if dval cur >? 255 then Err octet_exceeded_255 (zlen octs)
    else st ts (octs ++ [dval cur]) [] fs'.
Proof.
  intros (H1 & H2 & H3) Ho. exists (match cur with [] => fs | c :: _ => c end).
  unfold st at 1. cbn [v4_parse_loop]. pose proof (dval_range cur H1 H2). pose proof (zlen_nonneg cur).
  destruct (Z.geb_spec (zlen octs) 4); [lia|]. cbn [andb Z.geb Z.leb Z.compare Pos.compare Pos.compare_cont Z.eqb Pos.eqb].
  destruct (Z.eqb_spec (zlen cur) 0) as [E0|E0].
  - rewrite E0. reflexivity.
  - destruct (Z.gtb_spec (zlen cur) 0); [|lia].
    destruct (Z.gtb_spec (dval cur) 255); [reflexivity|].
    rewrite land255, st_wr by lia. cbn [bind]. unfold st. autorewrite with zl.
    change (dval []) with 0. unfold w32. rewrite Z.mod_small by (pose proof (zlen_nonneg octs); pows; lia).
    reflexivity.
Qed.

(** Feeding the digits of an octet. *)
Lemma cur_ok_prefix cur c s : cur_ok (cur ++ c :: s) ->
  cur_ok cur /\ is_dec_digit c /\ (0 <? zlen cur) && (hd 0 cur =? 48) = false /\ zlen cur <> 3 /\ zlen cur < 3.
Proof.
  intros (H1 & H2 & H3). apply Forall_app in H1 as [H1 H1']. inversion H1'; subst.
  autorewrite with zl in *. pose proof (zlen_nonneg s). pose proof (zlen_nonneg cur).
  destruct cur as [|x cur].
  - split; [apply cur_ok_nil|]. split; [assumption|]. cbn. lia.
  - cbn [app hd] in H3. autorewrite with zl in *.
    assert (x <> 48) by (intros ->; pose proof (zlen_nonneg cur); lia).
    split; [split; [assumption|]; cbn [hd]; autorewrite with zl; lia|]. split; [assumption|].
    cbn [hd]. autorewrite with zl. lia.
Qed.

Lemma st_digits : forall s cur ts octs fs, cur_ok (cur ++ s) -> zlen octs < 4 ->
  st (chars s ++ ts) octs cur fs = st ts octs (cur ++ s) fs.
Proof.
  induction s as [|c s IH]; intros cur ts octs fs H Ho; cbn [chars map app].
  - rewrite app_nil_r. reflexivity.
  - destruct (cur_ok_prefix _ _ _ H) as (H1 & H2 & H3 & H4 & _).
    change (map Ch s) with (chars s). rewrite st_digit, H3 by assumption.
    destruct (Z.eqb_spec (zlen cur) 3); [contradiction|]. rewrite IH; rewrite <- ?app_assoc; auto.
Qed.

Lemma chars_app a b : chars (a ++ b) = chars a ++ chars b.
Proof. apply map_app. Qed.

Lemma st_octet s x ts octs fs : octet_text s x -> zlen octs < 4 ->
  exists fs', st (chars s ++ Ch 46 :: ts) octs [] fs = st ts (octs ++ [x]) [] fs'.
Proof.
  intros H Ho. destruct (octet_cur_ok s x H) as (H1 & -> & H2 & H3).
  destruct (st_dot ts octs s fs H1 Ho) as [fs' E]. exists fs'.
  rewrite st_digits by assumption. cbn [app]. rewrite E.
  destruct (Z.eqb_spec (zlen s) 0); [destruct s; [congruence|autorewrite with zl in *; pose proof (zlen_nonneg s); lia]|].
  destruct (Z.gtb_spec (dval s) 255); [lia|]. reflexivity.
Qed.

Lemma v4_start ts : ts <> [] -> v4_from_string ts = st ts [] [] 0.
Proof. destruct ts; [congruence|reflexivity]. Qed.

Lemma octets_prefix_nonneg p k : octets_prefix p k -> 0 <= k.
Proof. induction 1; lia. Qed.

Lemma st_prefix p k : octets_prefix p k -> k <= 4 -> forall ts,
  exists octs fs, zlen octs = k /\ st (chars p ++ ts) [] [] 0 = st ts octs [] fs.
Proof.
  induction 1 as [|p k s x H IH Hs]; intros Hk ts.
  - exists [], 0. split; reflexivity.
  - destruct (IH ltac:(lia) (chars (s ++ [46]) ++ ts)) as (octs & fs & Hl & E).
    destruct (st_octet s x ts octs fs Hs ltac:(lia)) as [fs' E'].
    exists (octs ++ [x]), fs'. autorewrite with zl. split; [lia|]. rewrite <- E'.
    rewrite (chars_app s) in E. rewrite (chars_app p), (chars_app s), <- !app_assoc. rewrite <- app_assoc in E. exact E.
Qed.

(** Soundness: the specification of outcomes determines the result. *)
Lemma v4_accepts s bs : dotted_quad s bs -> v4_from_string (chars s) = Ret bs.
Proof.
  intros (sa & sb & sc & sd & a & b & c & d & Ha & Hb & Hc & Hd & -> & ->).
  rewrite v4_start.
  2:{ destruct (octet_cur_ok _ _ Ha) as (_ & _ & Hn & _). destruct sa; [congruence|discriminate]. }
  rewrite !chars_app. change (chars (46 :: ?l)) with (Ch 46 :: chars l). 
  rewrite !(chars_app). cbn [chars map]. fold (chars sb). 
  change (map Ch ?x) with (chars x).
  repeat match goal with |- context [chars (?x ++ ?y)] => rewrite (chars_app x y) end.
  destruct (st_octet sa a (chars sb ++ Ch 46 :: chars sc ++ Ch 46 :: chars sd) [] 0 Ha) as [f1 E1]; [cbn; lia|].
  destruct (st_octet sb b (chars sc ++ Ch 46 :: chars sd) [a] f1 Hb) as [f2 E2]; [cbn; lia|].
  destruct (st_octet sc c (chars sd) [a; b] f2 Hc) as [f3 E3]; [cbn; lia|].
  etransitivity; [exact E1|]. etransitivity; [exact E2|]. etransitivity; [exact E3|].
  destruct (octet_cur_ok _ _ Hd) as (Hk & -> & Hn & Hr).
  rewrite <- (app_nil_r (chars sd)), st_digits by (auto; cbn; lia). cbn [app].
  unfold st. cbn [v4_parse_loop]. change (zlen [a; b; c]) with 3. cbn [Z.eqb Pos.eqb negb].
  destruct (Z.eqb_spec (zlen sd) 0); [destruct sd; [congruence|autorewrite with zl in *; pose proof (zlen_nonneg sd); lia]|].
  destruct (Z.gtb_spec (dval sd) 255); [lia|]. rewrite land255 by lia. reflexivity.
Qed.

Lemma zlen_0 {A} (l : list A) : zlen l = 0 -> l = [].
Proof. destruct l; [reflexivity|]. autorewrite with zl. pose proof (zlen_nonneg l). lia. Qed.

Lemma st_end octs cur fs :
  st [] octs cur fs =
    if negb (zlen octs =? 3) then Err expected_4_octets (zlen octs)
    else if zlen cur =? 0 then Err empty_octet (zlen octs)
    else if dval cur >? 255 then Err octet_exceeded_255 (zlen octs)
    else wr (octs ++ repeat 0 (4 - length octs)) (zlen octs) (Z.land (dval cur) 255).
Proof. reflexivity. Qed.

Lemma v4_rejects ts e k : v4_error ts e k -> v4_from_string ts = Err e k.
Proof.
  intros H. destruct H.
  - reflexivity.
  - rewrite v4_start by (destruct (chars (p ++ s)); discriminate).
    rewrite chars_app, <- app_assoc.
    destruct (st_prefix p k H ltac:(lia) (chars s ++ Bad e v :: rest)) as (octs & fs & Hl & ->).
    apply cur_ok_start in H0. destruct H1 as [H1|[H1 ->]].
    + rewrite st_digits by (auto; lia). reflexivity.
    + reflexivity.
  - rewrite v4_start by (destruct (chars p); discriminate).
    destruct (st_prefix p 4 H ltac:(lia) (Ch c :: rest)) as (octs & fs & Hl & ->).
    unfold st. cbn [v4_parse_loop]. rewrite Hl. reflexivity.
  - rewrite v4_start by (destruct (p ++ s); [congruence|discriminate]).
    rewrite chars_app. destruct (st_prefix p k H ltac:(lia) (chars s)) as (octs & fs & Hl & ->).
    apply cur_ok_start in H0. destruct H1 as [H1|[H1 ->]].
    + rewrite <- (app_nil_r (chars s)), st_digits by (auto; lia). rewrite st_end, Hl.
      destruct (Z.eqb_spec k 3); [lia|reflexivity].
    + subst k. cbn [chars map]. rewrite st_end, Hl. reflexivity.
  - destruct p as [|x p]; [exfalso; inversion H as [|p k s x H1 H2 E]; destruct p; [destruct s|]; discriminate|].
    rewrite v4_start by discriminate. rewrite <- (app_nil_r (chars _)).
    destruct (st_prefix _ 3 H ltac:(lia) []) as (octs & fs & Hl & ->).
    rewrite st_end, Hl. reflexivity.
  - destruct (numeral_cur_ok s v H0 H1) as (K & -> & Hn).
    rewrite v4_start by (destruct p, s; try congruence; discriminate).
    rewrite chars_app. destruct (st_prefix p 3 H ltac:(lia) (chars s)) as (octs & fs & Hl & ->).
    rewrite <- (app_nil_r (chars s)), st_digits by (auto; lia). rewrite st_end, Hl. cbn [app negb Z.eqb Pos.eqb].
    destruct (Z.eqb_spec (zlen s) 0) as [E|]; [apply zlen_0 in E; congruence|].
    destruct (Z.gtb_spec (dval s) 255); [reflexivity|lia].
  - rewrite v4_start by (destruct (chars (p ++ [48])); discriminate).
    rewrite chars_app, <- app_assoc.
    destruct (st_prefix p k H ltac:(lia) (chars [48] ++ Ch c :: rest)) as (octs & fs & Hl & ->).
    assert (K : cur_ok ([] ++ [48])).
    { repeat split; cbn; try lia. constructor; [unfold is_dec_digit; lia|constructor]. }
    rewrite st_digits by (auto; lia). rewrite st_digit by (auto; lia). rewrite Hl. reflexivity.
  - destruct (numeral_cur_ok s v H1 ltac:(lia)) as (K & -> & Hn).
    rewrite v4_start by (destruct (chars (p ++ s)); discriminate).
    rewrite chars_app, <- app_assoc.
    destruct (st_prefix p k H ltac:(lia) (chars s ++ Ch c :: rest)) as (octs & fs & Hl & ->).
    rewrite st_digits by (auto; lia). cbn [app]. rewrite st_digit by (auto; lia). rewrite Hl, H2.
    destruct K as (_ & _ & K). destruct (Z.eqb_spec (hd 0 s) 48) as [E|]; [specialize (K E); lia|].
    rewrite andb_comm. reflexivity.
  - rewrite v4_start by (destruct (chars p); discriminate).
    destruct (st_prefix p k H ltac:(lia) (Ch 46 :: rest)) as (octs & fs & Hl & ->).
    destruct (st_dot rest octs [] fs cur_ok_nil ltac:(lia)) as [fs' ->]. rewrite Hl. reflexivity.
  - destruct (numeral_cur_ok s v H1 H2) as (K & -> & Hn).
    rewrite v4_start by (destruct (chars (p ++ s)); discriminate).
    rewrite chars_app, <- app_assoc.
    destruct (st_prefix p k H ltac:(lia) (chars s ++ Ch 46 :: rest)) as (octs & fs & Hl & ->).
    rewrite st_digits by (auto; lia). cbn [app].
    destruct (st_dot rest octs s fs K ltac:(lia)) as [fs' ->]. rewrite Hl.
    destruct (Z.eqb_spec (zlen s) 0) as [E|]; [apply zlen_0 in E; congruence|].
    destruct (Z.gtb_spec (dval s) 255); [reflexivity|lia].
  - rewrite v4_start by (destruct (chars (p ++ s)); discriminate).
    rewrite chars_app, <- app_assoc. apply cur_ok_start in H1.
    destruct (st_prefix p k H ltac:(lia) (chars s ++ Ch c :: rest)) as (octs & fs & Hl & ->).
    rewrite st_digits by (auto; lia). cbn [app]. unfold st. cbn [v4_parse_loop]. rewrite Hl.
    unfold is_dec_digit in H2.
    destruct (Z.geb_spec k 4); [lia|]. destruct (Z.geb_spec c 48), (Z.leb_spec c 57), (Z.eqb_spec c 46); try lia; reflexivity.
Qed.

(** Completeness: every outcome is specified. *)
Definition octets_join (octs : list Z) (p : list Z) : Prop :=
  exists texts, Forall2 octet_text texts octs /\ p = concat (map (fun s => s ++ [46]) texts).
Lemma octets_join_prefix octs : forall p, octets_join octs p -> octets_prefix p (zlen octs).
Proof.
  induction octs as [|x octs IH] using rev_ind; intros p (texts & HF & ->).
  - inversion HF; subst. constructor.
  - apply Forall2_app_inv_r in HF as (t1 & t2 & F1 & F2 & ->). inversion F2 as [|s ? ? ? Hs Hn]; subst. inversion Hn; subst.
    rewrite map_app, concat_app. cbn [map concat]. rewrite app_nil_r. autorewrite with zl.
    replace (zlen octs + (0 + 1)) with (zlen octs + 1) by lia.
    econstructor; [|exact Hs]. apply IH. exists t1. split; auto.
Qed.
Lemma octets_join_snoc octs p s x : octets_join octs p -> octet_text s x -> octets_join (octs ++ [x]) (p ++ s ++ [46]).
Proof.
  intros (texts & HF & ->) Hs. exists (texts ++ [s]). split.
  - apply Forall2_app; [assumption|]. constructor; [assumption|constructor].
  - rewrite map_app, concat_app. cbn. rewrite app_nil_r. reflexivity.
Qed.

Lemma quad_of_join octs p s x : octets_join octs p -> zlen octs = 3 -> octet_text s x ->
  dotted_quad (p ++ s) (octs ++ [x]).
Proof.
  intros (texts & HF & ->) Hl Hs. unfold zlen in Hl.
  destruct octs as [|a [|b [|c [|? ?]]]]; cbn in Hl; try lia.
  inversion HF as [|sa ? t1 ? Ha HF1]; subst. inversion HF1 as [|sb ? t2 ? Hb HF2]; subst.
  inversion HF2 as [|sc ? t3 ? Hc HF3]; subst. inversion HF3; subst.
  exists sa, sb, sc, s, a, b, c, x. repeat (split; [assumption|]). split; [|reflexivity].
  cbn [map concat]. rewrite <- !app_assoc. reflexivity.
Qed.

Lemma st_outcome : forall ts octs cur fs p, octets_join octs p -> zlen octs <= 4 -> cur_ok cur ->
  (zlen octs = 4 -> cur = []) -> p ++ cur <> [] \/ ts <> [] ->
  (exists bs s, st ts octs cur fs = Ret bs /\ ts = chars s /\ dotted_quad (p ++ cur ++ s) bs) \/
  (exists e k, st ts octs cur fs = Err e k /\ v4_error (chars (p ++ cur) ++ ts) e k).
Proof.
  induction ts as [|t ts IH]; intros octs cur fs p Hp Ho Hc H4 Hne.
  - pose proof (octets_join_prefix _ _ Hp) as Hpre. rewrite app_nil_r. rewrite st_end.
    destruct (Z.eqb_spec (zlen octs) 3) as [E3|E3]; cbn [negb].
    + destruct (Z.eqb_spec (zlen cur) 0) as [E0|E0].
      * right. do 2 eexists. split; [reflexivity|]. apply zlen_0 in E0. subst. rewrite app_nil_r. rewrite E3 in *. constructor. assumption.
      * assert (Hn : cur <> []) by (intros ->; cbn in E0; lia).
        pose proof (cur_ok_numeral cur Hc Hn) as Hnum. destruct Hc as (K1 & K2 & K3).
        pose proof (dval_range cur K1 K2).
        destruct (Z.gtb_spec (dval cur) 255) as [|].
        -- right. do 2 eexists. split; [reflexivity|]. rewrite E3 in *. econstructor; eauto. lia.
        -- left. rewrite land255, st_wr by lia. eexists _, []. split; [reflexivity|]. split; [reflexivity|].
           rewrite app_nil_r. rewrite app_length. unfold zlen in E3. cbn [length].
           replace (4 - (length octs + 1))%nat with 0%nat by lia. cbn [repeat]. rewrite app_nil_r.
           apply quad_of_join; auto. split; [assumption|lia].
    + right. do 2 eexists. split; [reflexivity|]. apply ve_few; auto.
      * apply cur_ok_start; assumption.
      * destruct (Z.eq_dec (zlen octs) 4); [right; auto|left; lia].
      * destruct Hne as [|]; congruence.
  - pose proof (octets_join_prefix _ _ Hp) as Hpre. destruct t as [c|e v].
    2:{ right. exists e, v. split; [reflexivity|]. apply ve_encoding with (zlen octs); auto.
        - apply cur_ok_start; assumption.
        - destruct (Z.eq_dec (zlen octs) 4); [right; auto|left; lia]. }
    destruct (Z.eq_dec (zlen octs) 4) as [E4|E4].
    { right. rewrite (H4 E4). do 2 eexists. split; [unfold st; cbn [v4_parse_loop]; rewrite E4; reflexivity|].
      rewrite app_nil_r. rewrite E4 in *. constructor. assumption. }
    destruct (Z.le_gt_cases 48 c) as [Ha|Ha]; [destruct (Z.le_gt_cases c 57) as [Hb|Hb]|].
    + assert (Hd : is_dec_digit c) by (unfold is_dec_digit; lia).
      rewrite st_digit by (auto; lia). pose proof Hc as (K1 & K2 & K3).
      destruct ((0 <? zlen cur) && (hd 0 cur =? 48)) eqn:E0.
      * right. do 2 eexists. split; [reflexivity|].
        destruct cur as [|x cur]; [discriminate|]. cbn [hd] in *. assert (x = 48) by lia. subst x.
        specialize (K3 eq_refl). autorewrite with zl in K3. assert (cur = []) by (apply zlen_0; lia). subst.
        apply ve_leading_zero; auto. lia.
      * destruct (Z.eqb_spec (zlen cur) 3) as [E3|E3].
        -- right. do 2 eexists. split; [reflexivity|].
           eapply ve_long; eauto; [lia|]. apply cur_ok_numeral; auto. intros ->. cbn in E3. lia.
        -- assert (K : cur_ok (cur ++ [c])).
           { repeat split; [apply Forall_app; auto|autorewrite with zl; lia|]. intros E.
             destruct cur as [|x cur]; [reflexivity|]. cbn [app hd] in *. autorewrite with zl in *. pose proof (zlen_nonneg cur). lia. }
           destruct (IH octs (cur ++ [c]) fs p Hp Ho K ltac:(lia)) as [(bs & s & E & Es & Hq)|(e & k & E & He)].
           { left. destruct p, cur; discriminate. }
           ++ left. exists bs, (c :: s). split; [exact E|]. split; [cbn; f_equal; exact Es|].
              replace (p ++ cur ++ c :: s) with (p ++ (cur ++ [c]) ++ s); [exact Hq|].
              rewrite <- !app_assoc. reflexivity.
           ++ right. exists e, k. split; [exact E|].
              replace (chars (p ++ cur) ++ Ch c :: ts) with (chars (p ++ cur ++ [c]) ++ ts); [exact He|].
              rewrite !chars_app, <- !app_assoc. reflexivity.
    + right. exists octet_has_invalid_symbol, (zlen octs). split.
      * unfold st. cbn [v4_parse_loop]. destruct (Z.geb_spec (zlen octs) 4); [lia|].
        destruct (Z.geb_spec c 48), (Z.leb_spec c 57), (Z.eqb_spec c 46); try lia; reflexivity.
      * apply ve_symbol; auto; [lia|apply cur_ok_start; assumption|unfold is_dec_digit; lia|lia].
    + destruct (Z.eq_dec c 46) as [->|Hd].
      * destruct (st_dot ts octs cur fs Hc ltac:(lia)) as [fs' E]. rewrite E.
        destruct (Z.eqb_spec (zlen cur) 0) as [E0|E0].
        -- right. do 2 eexists. split; [reflexivity|]. apply zlen_0 in E0. subst. rewrite app_nil_r. constructor; auto; lia.
        -- assert (Hn : cur <> []) by (intros ->; cbn in E0; lia).
           pose proof (cur_ok_numeral cur Hc Hn) as Hnum. pose proof Hc as (K1 & K2 & K3).
           pose proof (dval_range cur K1 K2).
           destruct (Z.gtb_spec (dval cur) 255).
           ++ right. do 2 eexists. split; [reflexivity|]. econstructor; eauto; lia.
           ++ assert (Ht : octet_text cur (dval cur)) by (split; [assumption|lia]).
              destruct (IH (octs ++ [dval cur]) [] fs' (p ++ cur ++ [46])) as [(bs & s & E' & Es & Hq)|(e & k & E' & He)].
              { apply octets_join_snoc; auto. }
              { autorewrite with zl. lia. } { apply cur_ok_nil. } { reflexivity. }
              { left. destruct p, cur; discriminate. }
              ** left. exists bs, (46 :: s). split; [exact E'|]. split; [cbn; f_equal; exact Es|].
                 replace (p ++ cur ++ 46 :: s) with ((p ++ cur ++ [46]) ++ [] ++ s); [exact Hq|].
                 rewrite <- !app_assoc. reflexivity.
              ** right. exists e, k. split; [exact E'|].
                 replace (chars (p ++ cur) ++ Ch 46 :: ts) with (chars ((p ++ cur ++ [46]) ++ []) ++ ts); [exact He|].
                 rewrite !chars_app, <- !app_assoc. reflexivity.
      * right. exists octet_has_invalid_symbol, (zlen octs). split.
        -- unfold st. cbn [v4_parse_loop]. destruct (Z.geb_spec (zlen octs) 4); [lia|].
           destruct (Z.geb_spec c 48), (Z.leb_spec c 57), (Z.eqb_spec c 46); try lia; reflexivity.
        -- apply ve_symbol; auto; [lia|apply cur_ok_start; assumption|unfold is_dec_digit; lia].
Qed.

Lemma v4_outcome ts :
  (exists bs s, v4_from_string ts = Ret bs /\ ts = chars s /\ dotted_quad s bs) \/
  (exists e k, v4_from_string ts = Err e k /\ v4_error ts e k).
Proof.
  destruct ts as [|t ts]; [right; do 2 eexists; split; [reflexivity|constructor]|].
  rewrite v4_start by discriminate.
  apply (st_outcome (t :: ts) [] [] 0 []); try (cbn; lia).
  - exists []. split; [constructor|reflexivity].
  - apply cur_ok_nil.
  - right. discriminate.
Qed.

Lemma chars_inj a b : chars a = chars b -> a = b.
Proof. revert b. induction a; intros [|y b] H; inversion H; f_equal; auto. Qed.

Lemma v4_accept_iff s bs : v4_from_string (chars s) = Ret bs <-> dotted_quad s bs.
Proof.
  split; [|apply v4_accepts].
  intros H. destruct (v4_outcome (chars s)) as [(bs' & s' & E & Es & Hq)|(e & k & E & _)]; [|congruence].
  apply chars_inj in Es. subst. congruence.
Qed.
Lemma v4_reject_iff ts e k : v4_from_string ts = Err e k <-> v4_error ts e k.
Proof.
  split; [|apply v4_rejects].
  intros H. destruct (v4_outcome ts) as [(bs' & s' & E & _ & _)|(e' & k' & E & He)]; congruence.
Qed.
Lemma v4_accept_tokens ts bs : v4_from_string ts = Ret bs <-> exists s, ts = chars s /\ dotted_quad s bs.
Proof.
  split.
  - intros H. destruct (v4_outcome ts) as [(bs' & s' & E & -> & Hq)|(e & k & E & _)]; [|congruence].
    exists s'. split; [reflexivity|congruence].
  - intros (s & -> & H). apply v4_accepts. assumption.
Qed.
Lemma v4_defined ts : is_defined (v4_from_string ts).
Proof. destruct (v4_outcome ts) as [(? & ? & -> & _)|(? & ? & -> & _)]; exact I. Qed.
