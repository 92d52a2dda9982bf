(** Correctness of the 128-bit division (Knuth's algorithm D in base 2^32). *)
From Verif Require Import Base Uint128Model SpecInt Tac Uint128Proofs.

Local Notation B := 4294967296.

(** Value of a little-endian list of base-2^32 digits. *)
Fixpoint dval (l : list Z) : Z :=
  match l with [] => 0 | x :: l' => x + B * dval l' end.
Definition digits (l : list Z) : Prop := Forall (fun x => 0 <= x < B) l.

Lemma dval_app a b : dval (a ++ b) = dval a + B ^ zlen a * dval b.
Proof.
  induction a as [|x a IH]; [cbn [app dval]; change (zlen (@nil Z)) with 0; lia|].
  cbn [app dval]. rewrite IH. unfold zlen. cbn [length]. rewrite Nat2Z.inj_succ, Z.pow_succ_r by lia. lia.
Qed.
Lemma dval_range l : digits l -> 0 <= dval l < B ^ zlen l.
Proof.
  induction 1 as [|x l Hx Hl IH]; [cbn; lia|].
  cbn [dval]. unfold zlen in *. cbn [length]. rewrite Nat2Z.inj_succ, Z.pow_succ_r by lia. nia.
Qed.

(** ** The two digit loops *)
Lemma sub_digit c r q l : 0 <= c < B -> 0 <= r < B -> 0 <= q < B -> 0 <= l < B ->
  let p := w64 (c + w64 (r * q)) in
  let c1 := Z.shiftr p 32 in
  let c' := if l <? w32 p then w64 (c1 + 1) else c1 in
  0 <= c' < B /\ 0 <= w32 (l - w32 p) < B /\ w32 (l - w32 p) = l - c - r * q + B * c'.
Proof.
  intros Hc Hr Hq Hl. cbv zeta. rewrite shr_div by lia. unfold w64, w32.
  pose proof (mul_bound r q Hr Hq) as Hm. unfold B32 in Hm.
  generalize dependent (r * q). intros m Hm.
  pows. rewrite (Z.mod_small m) by lia. rewrite (Z.mod_small (c + m)) by lia.
  destruct (Z.ltb_spec l ((c + m) mod B)); [|lia].
  rewrite (Z.mod_small ((c + m) / B + 1)) by lia. lia.
Qed.

Lemma sub_divisor_ok q n r : forall i rpre rpost pre w post c,
  0 <= q < B -> 0 <= c < B -> digits r -> digits w -> length w = length r ->
  zlen rpre = i -> zlen pre = n + i ->
  exists w' c',
    sub_divisor (length r) i n (pre ++ w ++ post) (rpre ++ r ++ rpost) q c = Ret (pre ++ w' ++ post, c')
    /\ digits w' /\ length w' = length r /\ 0 <= c' < B
    /\ dval w' = dval w - c - q * dval r + c' * B ^ zlen r.
Proof.
  induction r as [|x r IH]; intros i rpre rpost pre w post c Hq Hc Hr Hw Hlen Hi Hn.
  { destruct w; [|discriminate]. cbn [length sub_divisor]. exists [], c.
    unfold w32. rewrite Z.mod_small by (pows; lia). repeat split; try constructor; try lia. cbn. lia. }
  destruct w as [|y w]; [discriminate|]. inversion Hr; inversion Hw; subst.
  cbn [length sub_divisor]. cbn [app].
  rewrite rd_mid by reflexivity. cbn [bind].
  rewrite rd_mid by lia. cbn [bind]. rewrite wr_mid by lia. cbn [bind].
  pose proof (sub_digit c x q y ltac:(lia) ltac:(lia) ltac:(lia) ltac:(lia)) as (Hc' & Hy' & E).
  cbv zeta in *.
  set (c1 := if y <? _ then _ else _) in *. set (y' := w32 (y - _)) in *.
  destruct (IH (zlen rpre + 1) (rpre ++ [x]) rpost (pre ++ [y']) w post c1) as (w' & c' & E' & Hw' & Hl' & Hc'' & Hv);
    try assumption; try (autorewrite with zl; lia).
  { cbn [length] in Hlen. lia. }
  rewrite <- !app_assoc in E'. cbn [app] in E'. rewrite E'.
  exists (y' :: w'), c'. repeat split; try lia; try (constructor; assumption).
  { cbn [length]. lia. }
  cbn [dval]. rewrite Hv, E. autorewrite with zl. rewrite Z.pow_add_r by (pose proof (zlen_nonneg r); lia). lia.
Qed.

Lemma add_divisor_ok n r : forall i rpre rpost pre w post c,
  0 <= c <= 1 -> digits r -> digits w -> length w = length r ->
  zlen rpre = i -> zlen pre = n + i ->
  exists w' c',
    add_divisor (length r) i n (pre ++ w ++ post) (rpre ++ r ++ rpost) c = Ret (pre ++ w' ++ post, c')
    /\ digits w' /\ length w' = length r /\ 0 <= c' <= 1
    /\ dval w' = dval w + c + dval r - c' * B ^ zlen r.
Proof.
  induction r as [|x r IH]; intros i rpre rpost pre w post c Hc Hr Hw Hlen Hi Hn.
  { destruct w; [|discriminate]. cbn [length add_divisor]. exists [], c.
    unfold w32. rewrite Z.mod_small by (pows; lia). repeat split; try constructor; try lia. cbn. lia. }
  destruct w as [|y w]; [discriminate|]. inversion Hr; inversion Hw; subst.
  cbn [length add_divisor]. cbn [app].
  rewrite rd_mid by lia. cbn [bind]. rewrite rd_mid by reflexivity. cbn [bind].
  rewrite wr_mid by lia. cbn [bind]. rewrite shr_div by lia.
  set (d := w64 (w64 (y + c) + x)).
  assert (Ed : d = y + c + x) by (unfold d, w64; pows; lia).
  assert (Hy' : 0 <= w32 d < B) by (unfold w32; pows; lia).
  assert (E : w32 d = y + c + x - B * (d / 2 ^ 32)) by (unfold w32; pows; lia).
  assert (Hc' : 0 <= d / 2 ^ 32 <= 1) by (pows; lia).
  set (c1 := d / 2 ^ 32) in *. set (y' := w32 d) in *.
  destruct (IH (zlen rpre + 1) (rpre ++ [x]) rpost (pre ++ [y']) w post c1) as (w' & c' & E' & Hw' & Hl' & Hc'' & Hv);
    try assumption; try (autorewrite with zl; lia).
  { cbn [length] in Hlen. lia. }
  rewrite <- !app_assoc in E'. cbn [app] in E'. rewrite E'.
  exists (y' :: w'), c'. repeat split; try lia; try (constructor; assumption).
  { cbn [length]. lia. }
  cbn [dval]. rewrite Hv, E. autorewrite with zl. rewrite Z.pow_add_r by (pose proof (zlen_nonneg r); lia). lia.
Qed.

(** ** Leading zeros *)
Lemma lzc_loop_ok k : forall top v i,
  0 <= i -> i + Z.of_nat k = top + 1 -> 0 < v < 2 ^ (top + 1 - i) ->
  let s := lzc_loop k top v i in
  i <= s <= top /\ 2 ^ (top - s) <= v < 2 ^ (top - s + 1).
Proof.
  induction k as [|k IH]; intros top v i Hi Hk Hv.
  { replace (top + 1 - i) with 0 in Hv by lia. cbn in Hv. lia. }
  cbn [lzc_loop]. destruct (Z.testbit v (top - i)) eqn:Hb.
  - split; [lia|]. split.
    + destruct (Z.lt_ge_cases v (2 ^ (top - i))) as [Hlt|]; [|assumption].
      rewrite Z.bits_above_log2 in Hb; [discriminate|lia|].
      apply Z.log2_lt_pow2; lia.
    + replace (top - i + 1) with (top + 1 - i) by lia. lia.
  - assert (Hlt : v < 2 ^ (top - i)).
    { destruct (Z.lt_ge_cases v (2 ^ (top - i))) as [|Hge]; [assumption|exfalso].
      assert (Z.log2 v = top - i).
      { apply Z.log2_unique; [lia|]. replace (Z.succ (top - i)) with (top + 1 - i) by lia. lia. }
      rewrite <- H, Z.bit_log2 in Hb by lia. discriminate. }
    specialize (IH top v (i + 1)). replace (top + 1 - (i + 1)) with (top - i) in IH by lia.
    specialize (IH ltac:(lia) ltac:(lia) ltac:(lia)). cbv zeta in IH. lia.
Qed.

Lemma lzc32_ok v : 0 < v < B -> 0 <= lzc32 v < 32 /\ B <= 2 * (v * 2 ^ lzc32 v) /\ v * 2 ^ lzc32 v < B.
Proof.
  intros Hv. unfold lzc32. destruct (Z.eqb_spec v 0); [lia|].
  pose proof (lzc_loop_ok 32 31 v 0 ltac:(lia) ltac:(lia) ltac:(cbn; lia)) as [H1 [H2 H3]].
  cbv zeta in *. set (s := lzc_loop 32 31 v 0) in *.
  assert (E : B = 2 ^ (31 - s + 1) * 2 ^ s) by (rewrite <- pow2_split by lia; replace (31 - s + 1 + s) with 32 by lia; reflexivity).
  assert (E2 : 2 ^ (31 - s + 1) = 2 * 2 ^ (31 - s)) by (rewrite pow2_split by lia; lia).
  assert (0 < 2 ^ s) by (apply pow2_pos; lia).
  split; [lia|]. rewrite E2 in *. split; nia.
Qed.

Lemma limbs_dval a : wf128 a -> dval (limbs a) = to_Z a /\ digits (limbs a).
Proof.
  intros [Hu Hl]. unfold limbs, to_Z, w32. rewrite !shr_div by lia. cbn [dval]. split; [pows; lia|].
  unfold digits. repeat constructor; pows; lia.
Qed.

Lemma lzc128_ok a : wf128 a -> 0 < to_Z a ->
  let n := 4 - lzc128 a / 32 in 1 <= n <= 4 /\ B ^ (n - 1) <= to_Z a < B ^ n.
Proof.
  intros [Hu Hl] Hp. unfold to_Z in *. cbv zeta. unfold lzc128.
  assert (HS : forall v, 0 < v < 2 ^ 64 -> let s := lzc_loop 64 63 v 0 in
     (0 <= s < 32 /\ B <= v) \/ (32 <= s <= 63 /\ v < B)).
  { intros v Hv. pose proof (lzc_loop_ok 64 63 v 0 ltac:(lia) ltac:(lia) ltac:(cbn; lia)) as [H1 [H2 H3]].
    cbv zeta in *. set (s := lzc_loop 64 63 v 0) in *.
    destruct (Z.lt_ge_cases s 32); [left|right]; (split; [lia|]).
    - apply Z.le_trans with (2 ^ (63 - s)); [|lia]. change B with (2 ^ 32). apply Z.pow_le_mono_r; lia.
    - apply Z.lt_le_trans with (2 ^ (63 - s + 1)); [lia|]. change B with (2 ^ 32). apply Z.pow_le_mono_r; lia. }
  destruct (Z.eqb_spec (up a) 0) as [E|E]; cbn [negb].
  - destruct (Z.eqb_spec (lo a) 0) as [E'|E']; cbn [negb]; [lia|].
    destruct (HS (lo a) ltac:(lia)) as [[H1 H2]|[H1 H2]].
    + replace (4 - (64 + lzc_loop 64 63 (lo a) 0) / 32) with 2 by lia. split; [lia|]. pows.
      change (B ^ (2 - 1)) with B. change (B ^ 2) with 18446744073709551616. lia.
    + replace (4 - (64 + lzc_loop 64 63 (lo a) 0) / 32) with 1 by lia. split; [lia|].
      change (B ^ (1 - 1)) with 1. change (B ^ 1) with B. pows. lia.
  - destruct (HS (up a) ltac:(lia)) as [[H1 H2]|[H1 H2]].
    + replace (4 - lzc_loop 64 63 (up a) 0 / 32) with 4 by lia. split; [lia|]. pows.
      change (B ^ (4 - 1)) with 79228162514264337593543950336.
      change (B ^ 4) with 340282366920938463463374607431768211456. lia.
    + replace (4 - lzc_loop 64 63 (up a) 0 / 32) with 3 by lia. split; [lia|]. pows.
      change (B ^ (3 - 1)) with 18446744073709551616.
      change (B ^ 3) with 79228162514264337593543950336. lia.
Qed.

(** ** Normalisation: the top digits after the shift *)
Lemma norm_hi x y s : 0 <= s < 32 -> 0 <= x -> x * 2 ^ s < B * B -> 0 <= y < B ->
  Z.lor (w64 (Z.shiftl x s)) (Z.shiftr y (32 - s)) = (x * B + y) * 2 ^ s / B.
Proof.
  intros Hs Hx Hx2 Hy. rewrite shl_mul, shr_div by lia.
  assert (Hp : 0 < 2 ^ s) by (apply pow2_pos; lia).
  assert (Hq : 0 < 2 ^ (32 - s)) by (apply pow2_pos; lia).
  assert (EB : B = 2 ^ s * 2 ^ (32 - s)) by (rewrite <- pow2_split by lia; replace (s + (32 - s)) with 32 by lia; reflexivity).
  unfold w64. rewrite Z.mod_small by (pows; nia).
  rewrite lor_add; [|lia|].
  2:{ split; [apply Z.div_pos; lia|]. apply Z.div_lt_upper_bound; lia. }
  set (p := 2 ^ s) in *. set (q := 2 ^ (32 - s)) in *.
  rewrite Z.mul_add_distr_r. replace (x * B * p) with (x * p * B) by ring.
  rewrite Z.add_comm, (Z.add_comm (x * p * B)), Z.div_add by lia.
  f_equal. rewrite EB, (Z.mul_comm p q). rewrite Z.div_mul_cancel_r by lia. reflexivity.
Qed.

Lemma norm_lo y z s : 0 <= s < 32 -> 0 <= y < B -> 0 <= z < B ->
  Z.lor (w32 (Z.shiftl y s)) (Z.shiftr z (32 - s)) = ((y * B + z) * 2 ^ s / B) mod B.
Proof.
  intros Hs Hy Hz. rewrite shl_mul, shr_div by lia.
  assert (Hp : 0 < 2 ^ s) by (apply pow2_pos; lia).
  assert (Hq : 0 < 2 ^ (32 - s)) by (apply pow2_pos; lia).
  assert (EB : B = 2 ^ s * 2 ^ (32 - s)) by (rewrite <- pow2_split by lia; replace (s + (32 - s)) with 32 by lia; reflexivity).
  unfold w32. change (2 ^ 32) with B.
  assert (E1 : (y * 2 ^ s) mod B = (y mod 2 ^ (32 - s)) * 2 ^ s).
  { rewrite EB. apply mod_mul_split; lia. }
  assert (Hzq : 0 <= z / 2 ^ (32 - s) < 2 ^ s).
  { split; [apply Z.div_pos; lia|]. apply Z.div_lt_upper_bound; lia. }
  rewrite E1, lor_add by lia. rewrite <- E1.
  set (p := 2 ^ s) in *. set (q := 2 ^ (32 - s)) in *.
  rewrite Z.mul_add_distr_r. replace (y * B * p) with (y * p * B) by ring.
  rewrite Z.add_comm, (Z.add_comm (y * p * B)), Z.div_add by lia.
  replace (z * p / B) with (z / q).
  2:{ rewrite EB, (Z.mul_comm p q), Z.div_mul_cancel_r by lia. reflexivity. }
  rewrite <- (Z.add_mod_idemp_r (z / q)) by lia.
  assert (Hm : 0 <= y mod q < q) by (apply Z.mod_pos_bound; lia).
  rewrite E1. clear E1. generalize dependent (y mod q). intros m Hm.
  generalize dependent (z / q). intros k Hk. clearbody p q. clear Hy Hz.
  assert (m * p <= (q - 1) * p) by nia.
  rewrite Z.mod_small; lia.
Qed.

Lemma norm_both x y z s : 0 <= s < 32 -> 0 <= x -> x * 2 ^ s < B * B -> 0 <= y < B -> 0 <= z < B ->
  (x * B + y) * 2 ^ s / B * B + ((y * B + z) * 2 ^ s / B) mod B = (x * B * B + y * B + z) * 2 ^ s / B.
Proof.
  intros Hs Hx Hx2 Hy Hz.
  assert (Hp : 0 < 2 ^ s) by (apply pow2_pos; lia). set (p := 2 ^ s) in *.
  replace ((x * B * B + y * B + z) * p) with ((y * B + z) * p + (x * p * B) * B) by ring.
  rewrite Z.div_add by lia.
  replace ((x * B + y) * p) with (y * p + x * p * B) by ring.
  rewrite Z.div_add by lia.
  set (K := (y * B + z) * p / B).
  assert (E : y * p / B = K / B).
  { subst K. rewrite Z.div_div by lia.
    assert (EB : B = p * 2 ^ (32 - s)).
    { subst p. rewrite <- pow2_split by lia. replace (s + (32 - s)) with 32 by lia. reflexivity. }
    assert (Hq : 0 < 2 ^ (32 - s)) by (apply pow2_pos; lia). set (q := 2 ^ (32 - s)) in *.
    rewrite <- Z.div_div by lia.
    replace ((y * B + z) * p / B) with (z * p / B + y * p).
    2:{ replace ((y * B + z) * p) with (z * p + y * p * B) by ring. rewrite Z.div_add by lia. reflexivity. }
    replace (z * p / B) with (z / q).
    2:{ rewrite EB, (Z.mul_comm p q), Z.div_mul_cancel_r by lia. reflexivity. }
    assert (Hzq : 0 <= z / q < p).
    { split; [apply Z.div_pos; lia|]. apply Z.div_lt_upper_bound; lia. }
    rewrite EB. rewrite <- !Z.div_div by lia.
    replace (z / q + y * p) with (z / q + y * p) by lia.
    rewrite Z.div_add by lia. rewrite (Z.div_small (z / q)) by lia.
    rewrite Z.div_mul by lia. reflexivity. }
  rewrite E. pose proof (Z.div_mod K B ltac:(lia)). lia.
Qed.

(** ** The quotient digit estimate *)
Lemma guess_ok q vh vl dh dl : 0 <= q < B -> 0 <= vh -> 0 <= vl < B -> 0 <= dh < B -> 0 <= dl < B ->
  guess_too_big q vh vl dh dl = (vh * B + vl <? q * (dh * B + dl)).
Proof.
  intros Hq Hvh Hvl Hdh Hdl. unfold guess_too_big. cbv zeta.
  rewrite !shr_div by lia. unfold w64, w32. pows.
  pose proof (mul_bound dh q Hdh Hq) as H1. pose proof (mul_bound dl q Hdl Hq) as H2. unfold B32 in *.
  replace (q * (dh * B + dl)) with ((dh * q) * B + dl * q) by ring.
  generalize dependent (dh * q). intros x H1. generalize dependent (dl * q). intros y H2.
  rewrite (Z.mod_small x), (Z.mod_small y) by lia. rewrite (Z.mod_small (x + y / B)) by lia.
  rewrite !Z.gtb_ltb. lia.
Qed.

(** Result of the correction loop: the largest digit not above the start
    whose product with the two leading divisor digits fits. *)
Lemma guess_loop_ok fuel : forall d vh vl dh dl,
  0 <= d < B -> 0 <= vh -> 0 <= vl < B -> 0 <= dh < B -> 0 <= dl < B -> 0 < dh ->
  (d - Z.of_nat fuel <= 0 \/ (d - Z.of_nat fuel) * (dh * B + dl) <= vh * B + vl) ->
  exists r, guess_loop fuel d vh vl dh dl = Ret r /\ 0 <= r <= d
    /\ r * (dh * B + dl) <= vh * B + vl
    /\ (r = d \/ vh * B + vl < (r + 1) * (dh * B + dl)).
Proof.
  induction fuel as [|fuel IH]; intros d vh vl dh dl Hd Hvh Hvl Hdh Hdl Hdh0 Hf.
  - cbn [guess_loop]. unfold assert. destruct (Z.leb_spec d 4294967295); [|lia]. cbn [bind].
    rewrite guess_ok by lia.
    destruct (Z.ltb_spec (vh * B + vl) (d * (dh * B + dl))).
    { exfalso. destruct Hf; nia. }
    exists d. repeat split; try lia.
  - cbn [guess_loop]. unfold assert at 1. destruct (Z.leb_spec d 4294967295); [|lia]. cbn [bind].
    rewrite guess_ok by lia.
    destruct (Z.ltb_spec (vh * B + vl) (d * (dh * B + dl))) as [Hlt|Hge].
    + assert (0 < d) by nia.
      assert (Ew : w64 (d - 1) = d - 1) by (unfold w64; apply Z.mod_small; pows; lia). rewrite Ew.
      destruct (IH (d - 1) vh vl dh dl) as (r & E & Hr & Hr1 & Hr2); try lia.
      exists r. split; [exact E|]. split; [lia|]. split; [exact Hr1|]. right.
      destruct Hr2 as [->|]; [|assumption]. replace (d - 1 + 1) with d by lia. exact Hlt.
    + exists d. repeat split; try lia.
Qed.

(** Estimate of one quotient digit from the leading digits (Knuth's theorem B,
    three dividend digits by two divisor digits). *)
Lemma qhat_ok q R W V D vh dh r :
  0 < R -> 0 <= W -> q = W / R -> q < B ->
  0 < D -> B * B <= 2 * D ->
  q * D <= V ->                        (* never underestimates *)
  V < (q + 1) * (D + 1) ->             (* leading digits of both *)
  vh = V / B -> dh = D / B -> 0 <= V ->
  0 <= r -> r <= Z.min (vh / dh) (B - 1) ->
  r * D <= V -> (r = Z.min (vh / dh) (B - 1) \/ V < (r + 1) * D) ->
  q <= r <= q + 1.
Proof.
  intros HR HW Hq HqB HD HDB Hlow Hup Hvh Hdh HV Hr0 Hr1 Hr2 Hr3.
  assert (Hq0 : 0 <= q) by (subst q; apply Z.div_pos; lia).
  assert (Hdh0 : 0 < dh) by (subst dh; apply Z.div_str_pos; lia).
  split.
  - destruct Hr3 as [->|Hr3]; [|nia].
    apply Z.min_glb; [|lia].
    apply Z.div_le_lower_bound; [lia|]. subst vh dh. apply Z.div_le_lower_bound; [lia|].
    assert (D / B * B <= D) by lia. nia.
  - assert (V < (q + 2) * D) by nia. nia.
Qed.

Lemma qhat_fuel D V vh vl dh dl : D = dh * B + dl -> V = vh * B + vl ->
  0 <= vh -> 0 <= vl < B -> 0 < dh -> 0 <= dl < B -> B * B <= 2 * D ->
  (Z.min (vh / dh) (B - 1) - 3 <= 0 \/ (Z.min (vh / dh) (B - 1) - 3) * D <= V).
Proof.
  intros ED EV Hvh Hvl Hdh Hdl HDB. right.
  set (m := Z.min (vh / dh) (B - 1)).
  assert (Hm : m * dh <= vh).
  { assert (m <= vh / dh) by lia. pose proof (Z.mul_div_le vh dh Hdh). nia. }
  assert (m <= B - 1) by lia. assert (0 <= m) by (pose proof (Z.div_pos vh dh Hvh Hdh); lia).
  nia.
Qed.

(** ** Leading digits *)
Definition top3 (l : list Z) : Z :=
  match rev l with
  | x :: y :: z :: _ => x * B * B + y * B + z
  | [x; y] => x * B * B + y * B
  | [x] => x * B * B
  | [] => 0
  end.

Lemma top_reads l post : l <> [] -> digits l ->
  exists l1 vl vn,
    rd (l ++ post) (zlen l - 1) = Ret l1
    /\ (if zlen l >? 1 then rd (l ++ post) (zlen l - 2) else Ret 0) = Ret vl
    /\ (if zlen l >? 2 then rd (l ++ post) (zlen l - 3) else Ret 0) = Ret vn
    /\ top3 l = l1 * B * B + vl * B + vn
    /\ 0 <= l1 < B /\ 0 <= vl < B /\ 0 <= vn < B.
Proof.
  intros Hne Hd. destruct (exists_last Hne) as (l' & x & ->).
  apply Forall_app in Hd as [Hd Hx]. inversion Hx as [|? ? Hx' _]; subst.
  unfold top3. rewrite rev_app_distr. cbn [rev app]. autorewrite with zl.
  pose proof (zlen_nonneg l').
  replace (zlen l' + (0 + 1) - 1) with (zlen l') by lia. rewrite <- app_assoc. cbn [app].
  rewrite rd_mid by reflexivity. exists x.
  destruct l' as [|y0 l0].
  { cbn. exists 0, 0. repeat split; try lia. }
  destruct (exists_last (l := y0 :: l0) ltac:(discriminate)) as (l2 & y & E). rewrite E in *. clear E y0 l0 Hne.
  apply Forall_app in Hd as [Hd Hy]. inversion Hy as [|? ? Hy' _]; subst.
  rewrite rev_app_distr. cbn [rev app]. autorewrite with zl in *. pose proof (zlen_nonneg l2).
  destruct (Z.gtb_spec (zlen l2 + (0 + 1) + (0 + 1)) 1); [|lia].
  rewrite <- !app_assoc. cbn [app]. rewrite rd_mid by lia. exists y.
  destruct l2 as [|z0 l0].
  { cbn. exists 0. repeat split; try lia. }
  destruct (exists_last (l := z0 :: l0) ltac:(discriminate)) as (l3 & z & E). rewrite E in *. clear E z0 l0.
  apply Forall_app in Hd as [Hd Hz]. inversion Hz as [|? ? Hz' _]; subst.
  rewrite rev_app_distr. cbn [rev app]. autorewrite with zl in *. pose proof (zlen_nonneg l3).
  destruct (Z.gtb_spec (zlen l3 + (0 + 1) + (0 + 1) + (0 + 1)) 2); [|lia].
  rewrite <- !app_assoc. cbn [app]. rewrite rd_mid by lia. exists z.
  repeat split; try lia.
Qed.

Lemma top3_range l : digits l -> 0 <= top3 l < B * B * B.
Proof.
  intros Hd. destruct l as [|x l]; [cbn; lia|].
  destruct (top_reads (x :: l) [] ltac:(discriminate) Hd) as (a & b & c & _ & _ & _ & -> & Ha & Hb & Hc). lia.
Qed.

Lemma top3_app low win : digits low -> win <> [] ->
  match win with
  | [w0] => exists e, 0 <= e < B * B /\ top3 (low ++ win) = w0 * B * B + e
  | [w0; w1] => exists e, 0 <= e < B /\ top3 (low ++ win) = w1 * B * B + w0 * B + e
  | [w0; w1; w2] => top3 (low ++ win) = w2 * B * B + w1 * B + w0
  | [w0; w1; w2; w3] => top3 (low ++ win) = w3 * B * B + w2 * B + w1
  | _ => True
  end.
Proof.
  intros Hd Hne.
  destruct win as [|w0 [|w1 [|w2 [|w3 [|? ?]]]]]; try exact I.
  - unfold top3. rewrite rev_app_distr. cbn [rev app].
    assert (Hr : digits (rev low)) by (apply Forall_rev; exact Hd).
    destruct (rev low) as [|a [|b r]]; [exists 0|exists (a * B)|exists (a * B + b)];
    repeat (match goal with H : digits (_ :: _) |- _ => inversion H; clear H; subst
             | H : Forall _ (_ :: _) |- _ => inversion H; clear H; subst end); lia.
  - unfold top3. rewrite rev_app_distr. cbn [rev app].
    assert (Hr : digits (rev low)) by (apply Forall_rev; exact Hd).
    destruct (rev low) as [|a r]; [exists 0|exists a];
    repeat (match goal with H : digits (_ :: _) |- _ => inversion H; clear H; subst end); lia.
  - unfold top3. rewrite rev_app_distr. reflexivity.
  - unfold top3. rewrite rev_app_distr. reflexivity.
Qed.

(** Bounds linking the leading digits to the exact quotient digit [q]. *)
Lemma floor_scale x p k : 0 < p -> 0 < k -> (p | k) -> forall d, x * p < (d + 1) * k -> (x + 1) * p <= (d + 1) * k.
Proof. intros Hp Hk [j ->] d H. assert (x < (d + 1) * j) by nia. nia. Qed.

Lemma leading_bounds low win rdig t s q :
  digits low -> digits win -> digits rdig -> length win = length rdig -> win <> [] ->
  (length rdig <= 4)%nat -> 0 <= s < 32 -> 0 <= t ->
  let R := dval rdig in
  let W := dval win + B ^ zlen rdig * t in
  let V := (t * B * B * B + top3 (low ++ win)) * 2 ^ s / B in
  let D := top3 rdig * 2 ^ s / B in
  0 <= q -> q * R <= W < (q + 1) * R ->
  q * D <= V /\ V < (q + 1) * (D + 1).
Proof.
  intros Hlow Hwin Hr Hlen Hne H4 Hs Ht.
  assert (Hp : 0 < 2 ^ s) by (apply pow2_pos; lia).
  assert (Hdiv : (2 ^ s | B)).
  { exists (2 ^ (32 - s)). change B with (2 ^ 32). rewrite <- pow2_split by lia. f_equal. lia. }
  pose proof (top3_app low win Hlow Hne) as HX.
  pose proof (top3_app [] rdig ltac:(constructor) ltac:(destruct rdig; [destruct win; [congruence|discriminate]|discriminate])) as HY.
  cbn [app] in HY. set (p := 2 ^ s) in *. clearbody p.
  assert (FL : forall x, x / B * B <= x < (x / B + 1) * B) by (intros; lia).
  destruct win as [|w0 [|w1 [|w2 [|w3 [|? ?]]]]]; destruct rdig as [|r0 [|r1 [|r2 [|r3 [|? ?]]]]];
    try discriminate; try congruence; try (cbn [length] in H4; lia).
  - destruct HX as (e & He & ->). unfold top3. cbn [rev app]. cbn [dval]. change (B ^ zlen [r0]) with B.
    cbv zeta. intros Hq [Hq1 Hq2].
    set (V := (t * B * B * B + (w0 * B * B + e)) * p / B).
    assert (HV : V * B <= (t * B * B * B + (w0 * B * B + e)) * p < (V + 1) * B) by apply FL.
    replace (r0 * B * B * p / B) with (r0 * B * p).
    2:{ replace (r0 * B * B * p) with (r0 * B * p * B) by ring. rewrite Z.div_mul; lia. }
    clearbody V. clear FL.
    assert (L : V * B < (t * B + w0 + 1) * p * B * B).
    { apply Z.le_lt_trans with ((t * B * B * B + (w0 * B * B + e)) * p); [lia|]. nia. }
    assert (L2 : (t * B + w0 + 1) * p <= (q + 1) * r0 * p) by nia.
    assert (L3 : q * r0 * p <= (t * B + w0) * p) by nia.
    assert (L4 : (t * B + w0) * p * B * B < (V + 1) * B) by nia.
    clear HV Hq1 Hq2 Hdiv. split; nia.
  - destruct HX as (e & He & ->). destruct HY as (e' & He' & HY).
    assert (He0 : e' = 0) by (unfold top3 in HY; cbn [rev app] in HY; lia). subst e'. rewrite HY. clear HY He'.
    cbn [dval]. change (B ^ zlen [r0; r1]) with (B * B).
    cbv zeta. intros Hq [Hq1 Hq2].
    set (V := (t * B * B * B + (w1 * B * B + w0 * B + e)) * p / B).
    assert (HV : V * B <= (t * B * B * B + (w1 * B * B + w0 * B + e)) * p < (V + 1) * B) by apply FL.
    replace ((r1 * B * B + r0 * B + 0) * p / B) with ((r1 * B + r0) * p).
    2:{ replace ((r1 * B * B + r0 * B + 0) * p) with ((r1 * B + r0) * p * B) by ring. rewrite Z.div_mul; lia. }
    clearbody V. clear FL.
    set (W := w0 + B * (w1 + B * 0) + B * B * t) in *.
    assert (EW : t * B * B * B + (w1 * B * B + w0 * B + e) = W * B + e) by (subst W; lia).
    rewrite EW in HV. clear EW. set (R := r0 + B * (r1 + B * 0)) in *.
    replace (r1 * B + r0) with R by (subst R; lia). clearbody W R.
    assert (L : V * B < (W + 1) * p * B) by nia.
    assert (L2 : (W + 1) * p <= (q + 1) * R * p) by nia.
    assert (L3 : q * R * p <= W * p) by nia.
    assert (L4 : W * p * B < (V + 1) * B) by nia.
    clear HV Hq1 Hq2 Hdiv. split; nia.
  - rewrite HX, HY. cbn [dval]. change (B ^ zlen [r0; r1; r2]) with (B * B * B).
    cbv zeta. intros Hq [Hq1 Hq2].
    replace (t * B * B * B + (w2 * B * B + w1 * B + w0)) with (w0 + B * (w1 + B * (w2 + B * 0)) + B * B * B * t) by lia.
    replace (r2 * B * B + r1 * B + r0) with (r0 + B * (r1 + B * (r2 + B * 0))) by lia.
    set (W := w0 + _ + _) in *. set (R := r0 + _) in *. clearbody W R.
    pose proof (FL (W * p)) as HV. pose proof (FL (R * p)) as HD.
    set (V := W * p / B) in *. set (D := R * p / B) in *. clearbody V D. clear FL.
    assert (L2 : W * p < (q + 1) * (R * p)) by nia.
    assert (L3 : q * (R * p) <= W * p) by nia.
    set (Rp := R * p) in *. set (Wp := W * p) in *. clearbody Rp Wp. clear Hq1 Hq2 Hdiv.
    split; nia.
  - rewrite HX, HY. cbn [dval]. change (B ^ zlen [r0; r1; r2; r3]) with (B * B * B * B).
    cbv zeta. intros Hq [Hq1 Hq2].
    replace (t * B * B * B + (w3 * B * B + w2 * B + w1)) with (w1 + B * (w2 + B * (w3 + B * t))) by lia.
    replace (r3 * B * B + r2 * B + r1) with (r1 + B * (r2 + B * (r3 + B * 0))) by lia.
    replace (w0 + B * (w1 + B * (w2 + B * (w3 + B * 0))) + B * B * B * B * t)
      with (w0 + B * (w1 + B * (w2 + B * (w3 + B * t)))) in * by lia.
    inversion Hwin as [|? ? Hw0 _]; subst. inversion Hr as [|? ? Hr0 _]; subst.
    set (X := w1 + _) in *. set (Y := r1 + _) in *. clearbody X Y.
    pose proof (FL (X * p)) as HV. pose proof (FL (Y * p)) as HD.
    set (V := X * p / B) in *. set (D := Y * p / B) in *. clearbody V D. clear FL.
    assert (HD' : (Y + 1) * p <= (D + 1) * B) by (apply floor_scale; [lia|lia|assumption|lia]).
    assert (L1 : q * Y <= X) by nia.
    assert (L2 : X < (q + 1) * (Y + 1)) by nia.
    clear Hq1 Hq2 Hdiv Hw0 Hr0.
    assert (L3 : q * (Y * p) <= X * p) by nia.
    assert (L4 : X * p < (q + 1) * ((Y + 1) * p)) by nia.
    set (Xp := X * p) in *. set (Yp := Y * p) in *. set (Y1 := (Y + 1) * p) in *. clearbody Xp Yp Y1.
    split; nia.
Qed.
