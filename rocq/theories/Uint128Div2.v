(** Correctness of the 128-bit division, second part: the main loop. *)
From Verif Require Import Base Uint128Model SpecInt Tac Uint128Proofs Uint128Div.

Local Notation B := 4294967296.

(** Data computed before the loop: shift and leading divisor digits. *)
Record divisor_ok (rdig : list Z) (s dh dl : Z) : Prop := {
  do_digits : digits rdig;
  do_len : (1 <= length rdig <= 4)%nat;
  do_s : 0 <= s < 32;
  do_dh : 0 < dh < B;
  do_dl : 0 <= dl < B;
  do_D : dh * B + dl = top3 rdig * 2 ^ s / B;
  do_norm : B * B <= 2 * (dh * B + dl);
  do_pos : 0 < dval rdig }.

Lemma carry_digit d e k n : 0 <= d < n -> k * n <= d + e * n < (k + 1) * n -> e = k.
Proof. nia. Qed.

Lemma div_step_ok rdig rext s dh dl ls low win top bpre bpost :
  divisor_ok rdig s dh dl ->
  digits low -> digits win -> digits top -> length win = length rdig ->
  let rs := zlen rdig in
  let i := zlen low + rs in
  let t := hd 0 top in
  i <= ls -> (i < ls -> top <> []) -> (i = ls -> t = 0) ->
  zlen bpre = zlen low ->
  let R := dval rdig in
  let W := dval win + B ^ rs * t in
  W < B * R ->
  exists win',
    div_step ls rs s dh dl i (low ++ win ++ top) (rdig ++ rext) (bpre ++ 0 :: bpost)
    = Ret (low ++ win' ++ (if i <? ls then 0 :: tl top else top), bpre ++ W / R :: bpost)
    /\ digits win' /\ length win' = length rdig /\ dval win' = W mod R /\ 0 <= W / R < B.
Proof.
  intros Hdo Hlow Hwin Htop Hlen rs i t Hi Htop1 Htop2 Hb R W HW.
  destruct Hdo as [Hrd Hrl Hs Hdh Hdl HD Hnorm Hpos].
  assert (Ht : 0 <= t < B).
  { subst t. destruct top as [|x top']; cbn [hd]; [lia|]. inversion Htop; assumption. }
  assert (Hne : win <> []) by (destruct win; [cbn [length] in Hlen; lia|discriminate]).
  assert (Hrs : 1 <= rs <= 4) by (subst rs; unfold zlen; lia).
  pose proof (zlen_nonneg low) as Hlow0.
  unfold div_step. cbv zeta.
  (* t *)
  replace (if i <? ls then rd (low ++ win ++ top) i else Ret 0) with (@Ret Z t).
  2:{ destruct (Z.ltb_spec i ls).
      - destruct top as [|x top']; [exfalso; apply Htop1; [lia|reflexivity]|].
        rewrite app_assoc, rd_mid; [reflexivity|]. subst i rs. rewrite zlen_app. unfold zlen. lia.
      - rewrite Htop2 by lia. reflexivity. }
  cbn [bind].
  (* leading digits *)
  destruct (top_reads (low ++ win) top) as (l1 & vl & vn & R1 & R2 & R3 & ET & H1 & H2 & H3).
  { destruct low; [exact Hne|discriminate]. }
  { apply Forall_app. split; assumption. }
  assert (Ei : zlen (low ++ win) = i).
  { subst i rs. rewrite zlen_app. unfold zlen. lia. }
  rewrite Ei, <- app_assoc in R1, R2, R3.
  rewrite R1. cbn [bind]. rewrite R2. cbn [bind]. rewrite R3. cbn [bind].
  (* the exact quotient digit *)
  set (q := W / R). assert (HW0 : 0 <= W).
  { subst W. pose proof (dval_range win Hwin). pose proof (Z.pow_nonneg B rs ltac:(lia)). nia. }
  assert (Hq : 0 <= q < B).
  { subst q. split; [apply Z.div_pos; assumption|]. apply Z.div_lt_upper_bound; lia. }
  assert (HqW : q * R <= W < (q + 1) * R).
  { subst q. pose proof (Z.div_mod W R ltac:(lia)). pose proof (Z.mod_pos_bound W R Hpos). lia. }
  pose proof (leading_bounds low win rdig t s q Hlow Hwin Hrd Hlen Hne ltac:(lia) Hs ltac:(lia) ltac:(lia) HqW) as [LB1 LB2].
  rewrite <- HD in LB1, LB2. rewrite ET in LB1, LB2.
  replace (t * B * B * B + (l1 * B * B + vl * B + vn)) with ((t * B + l1) * B * B + vl * B + vn) in LB1, LB2 by lia.
  set (V := (((t * B + l1) * B * B + vl * B + vn) * 2 ^ s / B)) in *.
  set (D := dh * B + dl) in *.
  assert (Hx : Z.lor (w64 (Z.shiftl t 32)) l1 = t * B + l1).
  { rewrite shl_mul by lia. unfold w64. rewrite Z.mod_small by (pows; lia). apply lor_add; [lia|pows; lia]. }
  rewrite Hx.
  assert (Hp : 0 < 2 ^ s) by (apply pow2_pos; lia).
  assert (HVB : V < B * B * B).
  { assert (D + 1 <= B * B) by (subst D; lia). nia. }
  assert (HV0 : 0 <= V) by (subst V; apply Z.div_pos; [|lia]; apply Z.mul_nonneg_nonneg; lia).
  assert (Hx2 : (t * B + l1) * 2 ^ s < B * B).
  { assert ((t * B + l1) * 2 ^ s * B <= V).
    { subst V. apply Z.div_le_lower_bound; [lia|]. nia. }
    nia. }
  assert (Enorm : exists vh vl',
    (if s >? 0 then
       h <- shl64 (t * B + l1) s ;;
       h' <- shr32 vl (32 - s) ;;
       l <- shl32 vl s ;;
       l' <- shr32 vn (32 - s) ;; Ret (Z.lor h h', Z.lor l l')
     else Ret (t * B + l1, vl)) = Ret (vh, vl') /\ vh * B + vl' = V /\ 0 <= vh /\ 0 <= vl' < B).
  { destruct (Z.gtb_spec s 0).
    - unfold shl64, shr32, shl32.
      destruct ((0 <=? s) && (s <? 64)) eqn:C1; [|lia].
      destruct ((0 <=? s) && (s <? 32)) eqn:C2; [|lia].
      destruct ((0 <=? 32 - s) && (32 - s <? 32)) eqn:C3; [|lia]. cbn [bind].
      rewrite norm_hi, norm_lo by lia.
      eexists _, _. split; [reflexivity|]. split; [apply norm_both; lia|].
      split; [|lia]. apply Z.div_pos; [apply Z.mul_nonneg_nonneg; lia|lia].
    - assert (s = 0) by lia. eexists _, _. split; [reflexivity|].
      subst V. subst s. change (2 ^ 0) with 1. lia. }
  destruct Enorm as (vh & vl' & -> & EV & Hvh & Hvl'). cbn [bind].
  assert (Evh : vh = V / B) by lia. assert (Edh : dh = D / B) by (subst D; lia).
  unfold udiv. destruct (Z.eqb_spec dh 0); [lia|]. cbn [bind].
  assert (Eclamp : (if vh / dh >? 4294967295 then 4294967295 else vh / dh) = Z.min (vh / dh) (B - 1)).
  { destruct (Z.gtb_spec (vh / dh) 4294967295); lia. }
  rewrite Eclamp.
  assert (Hm0 : 0 <= Z.min (vh / dh) (B - 1) < B).
  { assert (0 <= vh / dh) by (apply Z.div_pos; lia). lia. }
  destruct (guess_loop_ok 3 (Z.min (vh / dh) (B - 1)) vh vl' dh dl) as (r & EG & Hr1 & Hr2 & Hr3);
    try lia.
  { change (Z.of_nat 3) with 3.
    exact (qhat_fuel _ _ vh vl' dh dl eq_refl eq_refl Hvh Hvl' ltac:(lia) Hdl Hnorm). }
  rewrite EG. cbn [bind]. fold D in Hr2, Hr3. rewrite EV in Hr2, Hr3.
  assert (Hr : q <= r <= q + 1).
  { apply (qhat_ok q R W V D vh dh r); try assumption; try lia; reflexivity. }
  (* subtraction *)
  replace (i - rs) with (zlen low) by (subst i; lia).
  assert (EXIT : forall win' d, d = q -> digits win' ->
     (bits <- (if zlen low <? ls - rs + 1 then wr (bpre ++ 0 :: bpost) (zlen low) (w32 d) else Ret (bpre ++ 0 :: bpost)) ;;
      lft <- (if i <? ls then wr (low ++ win' ++ top) i 0 else Ret (low ++ win' ++ top)) ;;
      Ret (lft, bits)) =
     (bits <- Ret (bpre ++ q :: bpost) ;;
      lft <- (if i <? ls then wr (low ++ win' ++ top) i 0 else Ret (low ++ win' ++ top)) ;;
      Ret (lft, bits))).
  { intros win' d -> _. destruct (Z.ltb_spec (zlen low) (ls - rs + 1)); [|lia].
    rewrite wr_mid by lia. unfold w32. rewrite Z.mod_small by (pows; lia). reflexivity. }
  assert (EXIT2 : forall win', length win' = length rdig ->
      (if i <? ls then wr (low ++ win' ++ top) i 0 else Ret (low ++ win' ++ top))
      = Ret (low ++ win' ++ (if i <? ls then 0 :: tl top else top))).
  { intros win' Hl'. destruct (Z.ltb_spec i ls); [|reflexivity].
    destruct top as [|x top']; [exfalso; apply Htop1; [lia|reflexivity]|].
    rewrite app_assoc, wr_mid; [rewrite <- app_assoc; reflexivity|].
    subst i rs. rewrite zlen_app. unfold zlen. lia. }
  pose proof (dval_range win Hwin) as Hwr. pose proof (dval_range rdig Hrd) as Hrr.
  assert (Ezl : zlen win = rs) by (subst rs; unfold zlen; lia). rewrite Ezl in Hwr.
  fold rs in Hrr.
  assert (HBr : 0 < B ^ rs) by (apply Z.pow_pos_nonneg; lia).
  set (Bn := B ^ rs) in *.
  destruct (Z.gtb_spec r 0) as [Hr0|Hr0].
  - unfold assert at 1. destruct (Z.geb_spec (ls - zlen low) rs); [|lia]. cbn [bind].
    replace (Z.to_nat rs) with (length rdig) by (subst rs; unfold zlen; lia).
    destruct (sub_divisor_ok r (zlen low) rdig 0 [] rext low win top 0) as (w1 & c1 & ES & Hw1 & Hlw1 & Hc1 & Hv1);
      try lia; try assumption; try reflexivity.
    cbn [app] in ES. rewrite ES. cbn [bind]. fold rs in Hv1. fold Bn in Hv1. fold R in Hv1.
    pose proof (dval_range w1 Hw1) as Hw1r. replace (zlen w1) with rs in Hw1r by (subst rs; unfold zlen; lia).
    fold Bn in Hw1r.
    assert (EW1 : dval w1 + (t - c1) * Bn = W - r * R) by (subst W; rewrite Hv1; ring).
    destruct (Z.eq_dec r q) as [->|Hrq].
    + assert (c1 = t).
      { pose proof (carry_digit (dval w1) (t - c1) 0 Bn Hw1r). rewrite EW1 in *. lia. }
      subst c1. rewrite Z.eqb_refl. cbn [negb bind].
      rewrite (EXIT w1 q eq_refl Hw1). cbn [bind]. rewrite EXIT2 by assumption. cbn [bind].
      exists w1. split; [reflexivity|]. repeat split; try assumption; try lia.
    + assert (Er : r = q + 1) by lia. subst r.
      assert (c1 = t + 1).
      { pose proof (carry_digit (dval w1) (t - c1) (-1) Bn Hw1r). rewrite EW1 in *. lia. }
      subst c1.
      destruct (Z.eqb_spec (t + 1) t); [lia|]. cbn [negb].
      unfold assert at 1. unfold w32 at 1. rewrite Z.mod_small by (pows; lia). rewrite Z.eqb_refl. cbn [bind].
      destruct (add_divisor_ok (zlen low) rdig 0 [] rext low w1 top 0) as (w2 & c2 & EA & Hw2 & Hlw2 & Hc2 & Hv2);
        try lia; try assumption; try reflexivity.
      cbn [app] in EA. rewrite EA. cbn [bind]. fold rs in Hv2. fold Bn in Hv2. fold R in Hv2.
      pose proof (dval_range w2 Hw2) as Hw2r. replace (zlen w2) with rs in Hw2r by (subst rs; unfold zlen; lia).
      fold Bn in Hw2r.
      assert (c2 = 1).
      { pose proof (carry_digit (dval w2) (c2 - 1) 0 Bn Hw2r) as HC.
        replace (dval w2 + (c2 - 1) * Bn) with (W - q * R) in HC by lia. lia. }
      subst c2. unfold assert. cbn [Z.eqb Pos.eqb bind].
      assert (Ew : w64 (q + 1 - 1) = q) by (unfold w64; rewrite Z.mod_small; pows; lia).
      rewrite (EXIT w2 _ Ew Hw2). cbn [bind]. rewrite EXIT2 by assumption. cbn [bind].
      exists w2. split; [reflexivity|]. repeat split; try assumption; try lia.
  - assert (r = 0) by lia. assert (q = 0) by lia. subst r. cbn [bind].
    rewrite (EXIT win 0 ltac:(lia) Hwin). cbn [bind]. rewrite EXIT2 by assumption. cbn [bind].
    exists win. split; [reflexivity|]. repeat split; try assumption; try lia.
    assert (HWR : W < R) by lia. rewrite Z.mod_small by lia.
    subst W. assert (Et : t = 0) by (clear - HBr Ht Hwr Hrr HWR; subst R; nia).
    rewrite Et. lia.
Qed.

Lemma div_loop_ok rdig rext s dh dl ls : divisor_ok rdig s dh dl ->
  forall k low win top bpost,
  length low = k ->
  digits low -> digits win -> digits top -> digits bpost -> length win = length rdig ->
  let rs := zlen rdig in
  let i := zlen low + rs in
  let t := hd 0 top in
  i <= ls -> (i < ls -> top <> []) -> (i = ls -> t = 0) ->
  let R := dval rdig in
  dval win + B ^ rs * t < B * R ->
  exists b,
    div_loop (S k) ls rs s dh dl i (low ++ win ++ top) (rdig ++ rext) (repeat 0 (S k) ++ bpost)
    = Ret b
    /\ digits b /\ length b = (S k + length bpost)%nat
    /\ dval b = (dval (low ++ win) + B ^ i * t) / R + B ^ (zlen low + 1) * dval bpost.
Proof.
  intros Hdo. induction k as [|k IH]; intros low win top bpost Hk Hlow Hwin Htop Hbp Hlen rs i t Hi Ht1 Ht2 R HW.
  - destruct low; [|discriminate]. change (repeat 0 1 ++ bpost) with ([] ++ 0 :: bpost).
    destruct (div_step_ok rdig rext s dh dl ls [] win top [] bpost) as (win' & ES & Hw' & Hlw' & Hv' & Hq);
      try assumption; try reflexivity.
    cbn [div_loop]. fold rs i in ES. rewrite ES. cbn [bind].
    eexists. split; [reflexivity|]. split; [|split].
    + constructor; assumption.
    + cbn [app length]. lia.
    + cbn [app dval]. change (zlen []) with 0. replace i with rs by (subst i; change (zlen []) with 0; lia). reflexivity.
  - destruct (exists_last (l := low)) as (low' & x & ->); [intros ->; discriminate|].
    rewrite app_length in Hk. cbn [length] in Hk.
    apply Forall_app in Hlow as [Hlow' Hx]. inversion Hx as [|? ? Hx' _]; subst.
    replace (repeat 0 (S (S k)) ++ bpost) with (repeat 0 (S k) ++ 0 :: bpost).
    2:{ replace (repeat 0 (S (S k))) with (repeat 0 (S k) ++ [0]).
        - rewrite <- app_assoc. reflexivity.
        - change [0] with (repeat 0 1). rewrite <- repeat_app. f_equal. lia. }
    destruct (div_step_ok rdig rext s dh dl ls (low' ++ [x]) win top (repeat 0 (S k)) bpost)
      as (win' & ES & Hw' & Hlw' & Hv' & Hq); try assumption; try reflexivity.
    { apply Forall_app; split; assumption. }
    { unfold zlen. rewrite repeat_length, app_length. cbn [length]. lia. }
    fold rs i t R in ES, Hv', Hq.
    set (W := dval win + B ^ rs * t) in *. set (q := W / R) in *.
    change (div_loop (S (S k)) ls rs s dh dl i ((low' ++ [x]) ++ win ++ top) (rdig ++ rext) (repeat 0 (S k) ++ 0 :: bpost))
      with ('(lft, bits) <- div_step ls rs s dh dl i ((low' ++ [x]) ++ win ++ top) (rdig ++ rext) (repeat 0 (S k) ++ 0 :: bpost) ;;
            div_loop (S k) ls rs s dh dl (i - 1) lft (rdig ++ rext) bits).
    rewrite ES. cbn [bind].
    set (top' := if i <? ls then 0 :: tl top else top).
    assert (Htop' : digits top').
    { subst top'. destruct (i <? ls); [|assumption]. constructor; [lia|]. destruct top; [constructor|]. inversion Htop; assumption. }
    (* shift the window by one digit *)
    assert (Hwne : win' <> []).
    { pose proof (do_len _ _ _ _ Hdo). destruct win'; [cbn [length] in Hlw'; lia|discriminate]. }
    destruct (exists_last (l := x :: win') ltac:(discriminate)) as (w2 & t2 & E2).
    assert (Hd2 : digits (w2 ++ [t2])) by (rewrite <- E2; constructor; assumption).
    apply Forall_app in Hd2 as [Hw2 Ht2']. inversion Ht2' as [|? ? Ht2r _]; subst.
    assert (Hlw2 : length w2 = length rdig).
    { apply (f_equal (@length Z)) in E2. rewrite app_length in E2. cbn [length] in E2. lia. }
    assert (EL : (low' ++ [x]) ++ win' ++ top' = low' ++ w2 ++ (t2 :: top')).
    { rewrite <- app_assoc. cbn [app]. change (x :: win' ++ top') with ((x :: win') ++ top').
      rewrite E2, <- app_assoc. reflexivity. }
    rewrite EL.
    assert (Ei : i - 1 = zlen low' + rs) by (subst i; autorewrite with zl; lia).
    rewrite Ei.
    assert (EX : x + B * dval win' = dval w2 + B ^ rs * t2).
    { change (x + B * dval win') with (dval (x :: win')). rewrite E2, dval_app. cbn [dval].
      replace (zlen w2) with rs by (subst rs; unfold zlen; lia). lia. }
    assert (HRpos : 0 < R) by apply Hdo.
    pose proof (Z.mod_pos_bound W R HRpos) as HWR.
    destruct (IH low' w2 (t2 :: top') (q :: bpost)) as (b & EB & Hb & Hlb & Hvb); try assumption.
    { lia. }
    { constructor; assumption. }
    { constructor; assumption. }
    { fold rs. lia. }
    { intros _. discriminate. }
    { fold rs. lia. }
    { cbn [hd]. fold rs R. rewrite <- EX, Hv'. lia. }
    fold rs in EB. rewrite EB.
    exists b. split; [reflexivity|]. split; [assumption|]. split; [cbn [length] in *; lia|].
    rewrite Hvb. cbn [hd dval]. fold rs. fold R.
    replace (B ^ (zlen (low' ++ [x]) + 1)) with (B * B ^ (zlen low' + 1)).
    2:{ autorewrite with zl. replace (zlen low' + (0 + 1) + 1) with (1 + (zlen low' + 1)) by lia.
        rewrite (Z.pow_add_r B 1) by (pose proof (zlen_nonneg low'); lia). reflexivity. }
    assert (E3 : dval (low' ++ w2) + B ^ (zlen low' + rs) * t2 = dval low' + B ^ zlen low' * (x + B * dval win')).
    { rewrite dval_app, Z.pow_add_r by (unfold rs; pose proof (zlen_nonneg low'); pose proof (zlen_nonneg rdig); lia).
      rewrite EX. ring. }
    assert (E4 : dval ((low' ++ [x]) ++ win) + B ^ i * t = dval low' + B ^ zlen low' * (x + B * W)).
    { rewrite !dval_app. replace i with (zlen low' + 1 + rs) by lia. autorewrite with zl. cbn [dval].
      rewrite !Z.pow_add_r by (unfold rs; pose proof (zlen_nonneg low'); pose proof (zlen_nonneg rdig); lia).
      subst W. change (B ^ 1) with B. change (B ^ 0) with 1. ring. }
    rewrite E3, E4, Hv'.
    assert (E5 : dval low' + B ^ zlen low' * (x + B * W)
               = (dval low' + B ^ zlen low' * (x + B * (W mod R))) + (B ^ (zlen low' + 1) * q) * R).
    { pose proof (Z.div_mod W R ltac:(lia)) as E. fold q in E. rewrite E at 1.
      rewrite Z.pow_add_r by (pose proof (zlen_nonneg low'); lia). change (B ^ 1) with B. ring. }
    rewrite E5, Z.div_add by lia. ring.
Qed.

Lemma limbs_split a : wf128 a -> 0 < to_Z a ->
  let n := 4 - lzc128 a / 32 in
  exists d z, limbs a = d ++ z /\ zlen d = n /\ (length d + length z = 4)%nat /\ digits d /\ digits z
    /\ dval d = to_Z a /\ Forall (fun x => x = 0) z /\ 0 < last d 0.
Proof.
  intros Ha Hp. cbv zeta. destruct (lzc128_ok a Ha Hp) as [Hn Hr]. cbv zeta in *.
  set (n := 4 - lzc128 a / 32) in *. destruct (limbs_dval a Ha) as [Hv Hd].
  unfold limbs in *. set (d0 := w32 (lo a)) in *. set (d1 := w32 (Z.shiftr (lo a) 32)) in *.
  set (d2 := w32 (up a)) in *. set (d3 := w32 (Z.shiftr (up a) 32)) in *.
  cbn [dval] in Hv. clearbody d0 d1 d2 d3 n.
  inversion Hd as [|? ? H0 Hd0]; subst. inversion Hd0 as [|? ? H1 Hd1]; subst.
  inversion Hd1 as [|? ? H2 Hd2]; subst. inversion Hd2 as [|? ? H3 _]; subst. clear Hd Hd0 Hd1 Hd2.
  assert (C : n = 1 \/ n = 2 \/ n = 3 \/ n = 4) by lia.
  destruct C as [C|[C|[C|C]]]; rewrite C in *.
  - change (B ^ (1 - 1)) with 1 in Hr. change (B ^ 1) with B in Hr.
    exists [d0], [d1; d2; d3]. repeat split; try (repeat constructor; lia); cbn [dval last]; lia.
  - change (B ^ (2 - 1)) with B in Hr. change (B ^ 2) with (B * B) in Hr.
    exists [d0; d1], [d2; d3]. repeat split; try (repeat constructor; lia); cbn [dval last]; lia.
  - change (B ^ (3 - 1)) with (B * B) in Hr. change (B ^ 3) with (B * B * B) in Hr.
    exists [d0; d1; d2], [d3]. repeat split; try (repeat constructor; lia); cbn [dval last]; lia.
  - change (B ^ (4 - 1)) with (B * B * B) in Hr. change (B ^ 4) with (B * B * B * B) in Hr.
    exists [d0; d1; d2; d3], []. repeat split; try (repeat constructor; lia); cbn [dval last]; lia.
Qed.

Lemma last_top3 l l1 vl vn : l <> [] -> top3 l = l1 * B * B + vl * B + vn -> digits l ->
  0 <= l1 < B -> 0 <= vl < B -> 0 <= vn < B -> last l 0 = l1.
Proof.
  intros Hne E Hd H1 H2 H3. destruct (exists_last Hne) as (l' & x & ->). rewrite last_last.
  unfold top3 in E. rewrite rev_app_distr in E. cbn [rev app] in E.
  apply Forall_app in Hd as [Hd Hx]. inversion Hx as [|? ? Hx' _]; subst.
  assert (Hr : digits (rev l')) by (apply Forall_rev; exact Hd).
  destruct (rev l') as [|a [|b r]]; repeat (match goal with H : digits (_ :: _) |- _ => inversion H; clear H; subst
             | H : Forall _ (_ :: _) |- _ => inversion H; clear H; subst end); lia.
Qed.

Lemma divide_slow_ok a b : wf128 a -> wf128 b -> 0 < to_Z b -> to_Z b < to_Z a ->
  exists q, divide_slow a b = Ret q /\ wf128 q /\ to_Z q = to_Z a / to_Z b.
Proof.
  intros Ha Hb Hpb Hlt.
  destruct (lzc128_ok a Ha ltac:(lia)) as [Hna Hra]. destruct (lzc128_ok b Hb Hpb) as [Hnb Hrb].
  destruct (limbs_split a Ha ltac:(lia)) as (A & zA & EA & HlA & HlA4 & HdA & HzA & HvA & Hz0 & HlastA).
  destruct (limbs_split b Hb Hpb) as (R & zR & ER & HlR & HlR4 & HdR & HzR & HvR & _ & HlastR).
  cbv zeta in *. unfold divide_slow. cbv zeta.
  set (ls := 4 - lzc128 a / 32) in *. set (rs := 4 - lzc128 b / 32) in *.
  assert (Hle : rs <= ls).
  { destruct (Z.le_gt_cases rs ls); [assumption|exfalso].
    assert (B ^ ls <= B ^ (rs - 1)) by (apply Z.pow_le_mono_r; lia). lia. }
  rewrite EA, ER. unfold assert.
  destruct (Z.geb_spec ls 1); [|lia]. destruct (Z.geb_spec rs 1); [|lia]. destruct (Z.geb_spec ls rs); [|lia].
  cbn [bind].
  assert (HneR : R <> []) by (intros ->; change (zlen []) with 0 in HlR; lia).
  destruct (top_reads R zR HneR HdR) as (l1 & vl & vn & R1 & R2 & R3 & ET & H1' & H2' & H3').
  rewrite HlR in R1, R2, R3. rewrite R1. cbn [bind]. rewrite R2. cbn [bind]. rewrite R3. cbn [bind].
  assert (El1 : last R 0 = l1) by (eapply last_top3; eassumption). rewrite El1 in HlastR.
  destruct (lzc32_ok l1 ltac:(lia)) as (Hs & Hn1 & Hn2). set (s := lzc32 l1) in *.
  assert (Hp : 0 < 2 ^ s) by (apply pow2_pos; lia).
  assert (Enorm : exists dh dl,
    (if s >? 0 then
       h <- shl32 l1 s ;;
       h' <- shr32 vl (32 - s) ;;
       l <- shl32 vl s ;;
       l' <- shr32 vn (32 - s) ;; Ret (Z.lor h h', Z.lor l l')
     else Ret (l1, vl)) = Ret (dh, dl) /\ divisor_ok R s dh dl).
  { destruct (Z.gtb_spec s 0).
    - unfold shr32, shl32.
      destruct ((0 <=? s) && (s <? 32)) eqn:C2; [|lia].
      destruct ((0 <=? 32 - s) && (32 - s <? 32)) eqn:C3; [|lia]. cbn [bind].
      replace (w32 (Z.shiftl l1 s)) with (w64 (Z.shiftl l1 s)).
      2:{ rewrite shl_mul by lia. unfold w64, w32. rewrite !Z.mod_small; [reflexivity|pows; nia|pows; nia]. }
      rewrite norm_hi, norm_lo by (try lia; nia).
      eexists _, _. split; [reflexivity|].
      pose proof (norm_both l1 vl vn s Hs ltac:(lia) ltac:(nia) H2' H3') as HN. rewrite <- ET in HN.
      assert (Hdhr : l1 * 2 ^ s <= (l1 * B + vl) * 2 ^ s / B) by (apply Z.div_le_lower_bound; nia).
      constructor; try assumption; try lia.
      + unfold zlen in HlR. lia.
      + split; [lia|]. apply Z.div_lt_upper_bound; [lia|].
        (* normalised top digit stays below B *)
        assert (EB : B = 2 ^ s * 2 ^ (32 - s)) by (rewrite <- pow2_split by lia; replace (s + (32 - s)) with 32 by lia; reflexivity).
        assert (0 < 2 ^ (32 - s)) by (apply pow2_pos; lia).
        assert (l1 + 1 <= 2 ^ (32 - s)) by nia. nia.
    - assert (Es : s = 0) by lia. eexists _, _. split; [reflexivity|].
      rewrite Es in *. change (2 ^ 0) with 1 in *.
      constructor; try assumption; try lia.
      unfold zlen in HlR. lia. }
  destruct Enorm as (dh & dl & -> & Hdo). cbn [bind].
  (* initial window *)
  set (k := (Z.to_nat (ls - rs))).
  assert (Esplit : exists low win, A = low ++ win /\ length low = k /\ length win = length R).
  { exists (firstn k A), (skipn k A). rewrite firstn_skipn. split; [reflexivity|].
    rewrite firstn_length, skipn_length. unfold zlen in *. lia. }
  destruct Esplit as (low & win & EAs & Hlk & Hlw).
  assert (Hdlw : digits low /\ digits win) by (rewrite EAs in HdA; apply Forall_app in HdA; exact HdA).
  destruct Hdlw as [Hdl Hdw].
  replace (Z.to_nat (ls - rs + 1)) with (S k) by lia.
  assert (Eig : ls = zlen low + zlen R) by (unfold zlen in *; lia).
  assert (Ht0 : hd 0 zA = 0) by (destruct zA as [|z zA']; [reflexivity|]; inversion Hz0; assumption).
  assert (HneW : win <> []) by (intros ->; destruct R; [congruence|discriminate]).
  destruct (div_loop_ok R zR s dh dl ls Hdo k low win zA (repeat 0 (3 - k))) as (bb & EL & Hbb & Hlbb & Hvbb);
    try assumption.
  { clear. induction (3 - k)%nat; cbn; constructor; [lia|assumption]. }
  { lia. } { lia. } { intros _. exact Ht0. }
  { rewrite Ht0, Z.mul_0_r, Z.add_0_r.
    pose proof (dval_range win Hdw) as Hw. unfold zlen in Hw. rewrite Hlw in Hw.
    assert (B ^ (rs - 1) <= dval R) by (rewrite HvR; lia).
    replace (Z.of_nat (length R)) with (1 + (rs - 1)) in Hw by (unfold zlen in HlR; lia).
    rewrite Z.pow_add_r in Hw by lia. change (B ^ 1) with B in Hw. nia. }
  rewrite EAs, <- app_assoc.
  replace [0; 0; 0; 0] with (repeat 0 (S k) ++ repeat 0 (3 - k)).
  2:{ rewrite <- repeat_app. assert (k <= 3)%nat by lia. replace (S k + (3 - k))%nat with 4%nat by lia. reflexivity. }
  rewrite <- Eig, HlR in EL. rewrite EL. cbn [bind].
  rewrite Ht0, Z.mul_0_r, Z.add_0_r in Hvbb. rewrite <- EAs, HvA, HvR in Hvbb.
  assert (Ez : dval (repeat 0 (3 - k)) = 0) by (clear; induction (3 - k)%nat as [|n IHn]; cbn [repeat dval]; lia).
  rewrite Ez, Z.mul_0_r, Z.add_0_r in Hvbb. rewrite repeat_length in Hlbb.
  replace (S k + (3 - k))%nat with 4%nat in Hlbb by lia.
  destruct bb as [|b0 [|b1 [|b2 [|b3 [|? ?]]]]]; try discriminate Hlbb.
  change (rd [b0; b1; b2; b3] 0) with (@Ret Z b0). change (rd [b0; b1; b2; b3] 1) with (@Ret Z b1).
  change (rd [b0; b1; b2; b3] 2) with (@Ret Z b2). change (rd [b0; b1; b2; b3] 3) with (@Ret Z b3).
  cbn [bind]. eexists. split; [reflexivity|].
  inversion Hbb as [|? ? Q0 Hbb0]; subst. inversion Hbb0 as [|? ? Q1 Hbb1]; subst.
  inversion Hbb1 as [|? ? Q2 Hbb2]; subst. inversion Hbb2 as [|? ? Q3 _]; subst.
  assert (Elor : forall x y, 0 <= x < B -> 0 <= y < B -> Z.lor (w64 (Z.shiftl x 32)) y = x * B + y).
  { intros x y Hx Hy. rewrite shl_mul by lia. unfold w64. rewrite Z.mod_small by (pows; lia).
    apply lor_add; [lia|pows; lia]. }
  rewrite !Elor by assumption.
  unfold wf128, to_Z; cbn [up lo]. cbn [dval] in Hvbb. fold (to_Z a). fold (to_Z b).
  split; [split; pows; lia|]. rewrite <- Hvbb. pows. lia.
Qed.

Lemma div_ok a b : wf128 a -> wf128 b -> to_Z b <> 0 ->
  exists q, u128_div a b = Ret q /\ wf128 q /\ to_Z q = to_Z a / to_Z b.
Proof.
  intros Ha Hb Hb0. pose proof (to_Z_range a Ha). pose proof (to_Z_range b Hb).
  assert (TAIL : exists q,
    (if u128_geb b a then Ret (if u128_eqb b a then u128_of_i64 1 else u128_of_i64 0) else divide_slow a b) = Ret q
    /\ wf128 q /\ to_Z q = to_Z a / to_Z b).
  { rewrite geb_ok, eqb_ok by assumption.
    destruct (Z.geb_spec (to_Z b) (to_Z a)).
    - eexists. split; [reflexivity|].
      destruct (Z.eqb_spec (to_Z b) (to_Z a)) as [E|E].
      + split; [apply of_i64_wf|]. rewrite E, Z.div_same by lia. reflexivity.
      + split; [apply of_i64_wf|]. rewrite Z.div_small by lia. reflexivity.
    - apply divide_slow_ok; try assumption; lia. }
  unfold u128_div. destruct (Z.eqb_spec (up b) 0) as [E0|E0]; [|exact TAIL].
  destruct (Z.eqb_spec (lo b) 0) as [E1|E1]; [exfalso; apply Hb0; unfold to_Z; rewrite E0, E1; reflexivity|].
  destruct (Z.eqb_spec (up a) 0) as [E2|E2]; [|exact TAIL].
  unfold udiv. destruct (Z.eqb_spec (lo b) 0); [contradiction|]. cbn [bind].
  eexists. split; [reflexivity|]. destruct Ha as [_ Hla]. destruct Hb as [_ Hlb].
  split.
  - apply of_u64_wf. split; [apply Z.div_pos; lia|]. apply Z.div_lt_upper_bound; [lia|]. pows. nia.
  - rewrite of_u64_ok. unfold to_Z. rewrite E0, E2. f_equal; lia.
Qed.

Lemma div_zero a b : wf128 b -> to_Z b = 0 -> u128_div a b = Ret (mk128 0 0).
Proof.
  intros [Hu Hl] E. unfold to_Z in E. unfold u128_div.
  assert (up b = 0) as -> by (pows; lia). assert (lo b = 0) as -> by (pows; lia). reflexivity.
Qed.

Lemma mod_ok a b : wf128 a -> wf128 b -> to_Z b <> 0 ->
  exists r, u128_mod a b = Ret r /\ wf128 r /\ to_Z r = to_Z a mod to_Z b.
Proof.
  intros Ha Hb Hb0. destruct (div_ok a b Ha Hb Hb0) as (q & E & Hq & Hv).
  unfold u128_mod. rewrite E. cbn [bind]. eexists. split; [reflexivity|]. split; [apply sub_wf|].
  rewrite sub_ok, mul_ok, Hv by auto using mul_wf.
  pose proof (to_Z_range a Ha). pose proof (to_Z_range b Hb).
  rewrite Zminus_mod_idemp_r. rewrite (Z.mul_comm _ (to_Z b)), <- Z.mod_eq by lia.
  apply Z.mod_small. pose proof (Z.mod_pos_bound (to_Z a) (to_Z b) ltac:(lia)). lia.
Qed.

Lemma mod_zero a b : wf128 a -> wf128 b -> to_Z b = 0 -> exists r, u128_mod a b = Ret r /\ to_Z r = to_Z a.
Proof.
  intros Ha Hb E. unfold u128_mod. rewrite div_zero by assumption. cbn [bind].
  eexists. split; [reflexivity|].
  assert (H0 : wf128 (mk128 0 0)) by (unfold wf128; cbn; lia).
  rewrite sub_ok, mul_ok by auto using mul_wf. rewrite E, Z.mul_0_r, Z.mod_0_l, Z.sub_0_r by lia.
  apply Z.mod_small. apply to_Z_range. assumption.
Qed.
