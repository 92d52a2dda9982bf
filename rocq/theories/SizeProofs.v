(** Hosts with another size_t: parsing. *)
From Verif Require Import Base Tac SpecText TextProofs UnicodeModel FixedStringModel V4Model V6Model Uint128Model SpecV4 SpecV6 SpecAddr SpecStr SpecOrder
  V4Proofs V4Lemmas BitProofs BufProofs StrProofs FixedStringProofs V6Proofs V6Full AddressModel NetworkModel IterModel AnyModel SpecNet MaskProofs NetProofs NetProofs2 NetText NetText2 NetText3
  CodeProofs2 SpecLoose LooseProofs SpecNetErr NetErrProofs SizeModel SpecSize.

Lemma wsize_small w x : 0 <= w -> 0 <= x < 2 ^ 32 -> 32 <= w -> wsize w x = x.
Proof.
  intros W H K. unfold wsize. apply Z.mod_small. pose proof (Z.pow_le_mono_r 2 32 w ltac:(lia) K). lia.
Qed.
Lemma w64_tiny x : 0 <= x < 2 ^ 32 -> w64 x = x.
Proof. intros H. unfold w64. apply Z.mod_small. lia. Qed.
Lemma size_tiny w x : size_bits w -> 0 <= x < 2 ^ 32 -> wsize w x = w64 x.
Proof. intros [W _] H. rewrite wsize_small, w64_tiny by (try exact H; lia). reflexivity. Qed.

(** *** Addresses *)
Lemma bound_z w parts pc : size_bits w -> 3 <= pc <= 9 -> get_parts_bound_z w parts pc = get_parts_bound parts pc.
Proof.
  intros W P. unfold get_parts_bound_z, get_parts_bound. cbv zeta.
  destruct (skip_loop (Z.to_nat (pc - 1 - 1)) 1 parts pc 0) as [s| |] eqn:S; cbn [bind]; try reflexivity.
  apply skip_range in S. destruct (Z.eqb_spec s 0) as [_|N]; cbn [negb]; [reflexivity|].
  assert (Hs : 1 <= s <= pc - 2) by lia. clear S.
  rewrite !(size_tiny w (pc - s - 1)), !(size_tiny w (s - 1)) by (try exact W; lia). rewrite !(w64_tiny (pc - s - 1)), !(w64_tiny (s - 1)) by lia.
  assert (F : forall hi lo, 0 <= hi <= 8 -> 0 <= lo <= 8 -> hi + lo <= 8 ->
     (if wsize w (8 - wsize w (hi + lo)) <? 1 then Err expected_at_most_7_other_parts_with_double_colon pc else Ret (hi, lo, wsize w (8 - wsize w (hi + lo)))) =
     (if w64 (8 - w64 (hi + lo)) <? 1 then Err expected_at_most_7_other_parts_with_double_colon pc else Ret (hi, lo, w64 (8 - w64 (hi + lo))))).
  { intros hi lo H1 H2 H3. rewrite (size_tiny w (hi + lo)), (w64_tiny (hi + lo)), (size_tiny w) by (try exact W; lia). reflexivity. }
  destruct (part_empty parts 0) as [[]| |]; cbn [bind]; try reflexivity.
  - destruct (Z.eqb_spec (s - 1) 0) as [E|]; cbn [negb bind]; [|reflexivity].
    destruct (part_empty parts (pc - 1)) as [[]| |]; cbn [bind]; try reflexivity.
    + rewrite (size_tiny w (pc - s - 1 - 1)), (w64_tiny (pc - s - 1 - 1)) by (try exact W; lia).
      destruct (Z.eqb_spec (pc - s - 1 - 1) 0); cbn [negb bind]; [|reflexivity]. apply F; lia.
    + apply F; lia.
  - destruct (part_empty parts (pc - 1)) as [[]| |]; cbn [bind]; try reflexivity.
    + rewrite (size_tiny w (pc - s - 1 - 1)), (w64_tiny (pc - s - 1 - 1)) by (try exact W; lia).
      destruct (Z.eqb_spec (pc - s - 1 - 1) 0); cbn [negb bind]; [|reflexivity]. apply F; lia.
    + apply F; lia.
Qed.
Lemma bound_range parts pc hi lo sk : 3 <= pc <= 9 -> get_parts_bound parts pc = Ret (hi, lo, sk) -> 0 <= hi <= 9 /\ 0 <= sk <= 8.
Proof.
  intros P. unfold get_parts_bound. cbv zeta.
  destruct (skip_loop (Z.to_nat (pc - 1 - 1)) 1 parts pc 0) as [s| |] eqn:S; cbn [bind]; try discriminate.
  apply skip_range in S. destruct (Z.eqb_spec s 0) as [_|N]; cbn [negb].
  { destruct (negb (pc =? 8)); [discriminate|]. destruct (part_empty parts 0) as [[]| |]; cbn [bind]; try discriminate.
    destruct (part_empty parts (pc - 1)) as [[]| |]; cbn [bind]; try discriminate. intros E. injection E as <- <- <-. lia. }
  assert (Hs : 1 <= s <= pc - 2) by lia. clear S. rewrite !(w64_tiny (pc - s - 1)), !(w64_tiny (s - 1)) by lia.
  assert (F : forall h l, 0 <= h <= 8 -> 0 <= l <= 8 -> h + l <= 8 ->
     (if w64 (8 - w64 (h + l)) <? 1 then Err expected_at_most_7_other_parts_with_double_colon pc else Ret (h, l, w64 (8 - w64 (h + l)))) = Ret (hi, lo, sk) -> 0 <= hi <= 9 /\ 0 <= sk <= 8).
  { intros h l H1 H2 H3. rewrite (w64_tiny (h + l)), w64_tiny by lia. assert (0 <= 8 - (h + l) <= 8) as K by lia. revert K. generalize (8 - (h + l)). intros k K. destruct (k <? 1); [discriminate|]. intros E. injection E as <- <- <-. lia. }
  destruct (part_empty parts 0) as [[]| |]; cbn [bind]; try discriminate.
  - destruct (Z.eqb_spec (s - 1) 0) as [E|]; cbn [negb bind]; [|discriminate].
    destruct (part_empty parts (pc - 1)) as [[]| |]; cbn [bind]; try discriminate.
    + rewrite (w64_tiny (pc - s - 1 - 1)) by lia. destruct (Z.eqb_spec (pc - s - 1 - 1) 0); cbn [negb bind]; [|discriminate]. apply F; lia.
    + apply F; lia.
  - destruct (part_empty parts (pc - 1)) as [[]| |]; cbn [bind]; try discriminate.
    + rewrite (w64_tiny (pc - s - 1 - 1)) by lia. destruct (Z.eqb_spec (pc - s - 1 - 1) 0); cbn [negb bind]; [|discriminate]. apply F; lia.
    + apply F; lia.
Qed.
Lemma parts_loop_index : forall k i parts pc index r index' r', parts_loop k i parts pc index r = Ret (index', r') -> index' = index + 2 * Z.of_nat k.
Proof.
  induction k as [|k IH]; intros i parts pc index r index' r'; cbn [parts_loop]; [intros E; injection E as <- _; lia|].
  destruct (rd parts i); cbn [bind]; try discriminate. destruct (parse_part _ _); cbn [bind]; try discriminate.
  destruct (wr _ _ _); cbn [bind]; try discriminate. destruct (wr _ _ _); cbn [bind]; try discriminate. intros E. apply IH in E. lia.
Qed.
Lemma parse_parts_same w parts pc hi lo sk : size_bits w -> 0 <= hi <= 9 -> 0 <= sk <= 8 -> parse_parts_z w parts pc hi lo sk = parse_parts parts pc hi lo sk.
Proof.
  intros W H S. unfold parse_parts_z, parse_parts. destruct (parts_loop (Z.to_nat hi) 0 parts pc 0 (repeat 0 16)) as [[index r]| |] eqn:E; cbn [bind]; try reflexivity.
  apply parts_loop_index in E. rewrite Z.shiftl_mul_pow2 by lia. change (2 ^ 1) with 2.
  rewrite (size_tiny w (sk * 2)), (w64_tiny (sk * 2)), (size_tiny w) by (try exact W; lia). reflexivity.
Qed.
Lemma from_string_z w le ts : size_bits w -> v6_from_string_z w le ts = v6_from_string le ts.
Proof.
  intros W. unfold v6_from_string_z, v6_from_string. destruct ts as [|t ts]; [reflexivity|].
  destruct (split_scope_id _) as [[e sc]| |]; cbn [bind]; try reflexivity.
  destruct (split_parts le _) as [[parts pc]| |] eqn:S; cbn [bind]; try reflexivity. apply split_parts_count in S.
  rewrite bound_z by assumption. destruct (get_parts_bound parts pc) as [[[hi lo] sk]| |] eqn:B; cbn [bind]; try reflexivity.
  apply bound_range in B as [H K]; [|exact S]. rewrite parse_parts_same by assumption. reflexivity.
Qed.
Lemma addr_z w v ts : size_bits w -> addr_parse_z w v ts = addr_parse v ts.
Proof. intros W. destruct v; [reflexivity|]. unfold addr_parse_z, addr_parse. rewrite from_string_z by exact W. reflexivity. Qed.
Lemma array_z w v data : size_bits w -> addr_parse_array_z w v data = addr_parse_array v data.
Proof.
  intros W. unfold addr_parse_array_z, addr_parse_array. destruct (fs_make _ _ _) as [f| |]; cbn [bind]; try reflexivity. apply addr_z. exact W.
Qed.
Lemma any_addr_z w ts : size_bits w -> any_parse_z w ts = any_parse ts.
Proof.
  intros W. unfold any_parse_z, any_parse, addr_parse_code_z, addr_parse_code. rewrite !addr_z by exact W. reflexivity.
Qed.

(** *** Masks *)
Lemma popcount_range : forall k x c r, 0 <= c -> popcount_loop k x c = Ret r -> 0 <= r.
Proof.
  induction k as [|k IH]; intros x c r C; cbn [popcount_loop]; destruct (x =? 0); try discriminate; try (intros E; injection E as <-; lia).
  intros E. apply IH in E; [exact E|]. pose proof (Z.land_nonneg x 1). lia.
Qed.
Lemma count_range x c : count_righthand_zero_bits x 32 = Ret c -> 0 <= c <= 32.
Proof.
  unfold count_righthand_zero_bits. destruct (x =? 0); [intros E; injection E as <-; lia|].
  destruct (popcount_loop _ _ _) as [r| |] eqn:P; cbn [bind]; try discriminate. apply popcount_range in P; [|lia].
  intros E. injection E as <-. destruct (Z.ltb_spec 32 r); lia.
Qed.
Lemma shl_big x n : 32 <= n -> shl32 x n = UB BadShift.
Proof. intros H. unfold shl32. destruct (Z.ltb_spec n 32); [lia|]. rewrite andb_false_r. reflexivity. Qed.
Lemma shift_z w p : size_bits w -> 0 <= p <= 32 -> shl32 1 (wsize w (p - 1)) = shl32 1 (w64 (p - 1)).
Proof.
  intros W P. destruct (Z.eq_dec p 0) as [->|N]; [|rewrite size_tiny by (try exact W; lia); reflexivity].
  unfold wsize. replace ((0 - 1) mod 2 ^ w) with (2 ^ w - 1).
  2:{ apply (Z.mod_unique _ _ (-1)); [left|lia]. pose proof (Z.pow_pos_nonneg 2 w ltac:(lia) ltac:(unfold size_bits in W; lia)). lia. }
  assert (32 <= 2 ^ w - 1). { pose proof (Z.pow_le_mono_r 2 32 w ltac:(lia) (proj1 W)). lia. }
  rewrite shl_big by assumption. symmetry. apply shl_big. vm_compute. discriminate.
Qed.
Lemma prefix_z w ip : size_bits w -> prefix_from_ip_z w ip = prefix_from_ip_uint32 ip.
Proof.
  intros W. unfold prefix_from_ip_z, prefix_from_ip_uint32. destruct (count_righthand_zero_bits ip 32) as [c| |] eqn:C; cbn [bind]; try reflexivity.
  apply count_range in C. cbv zeta. rewrite (size_tiny w (32 - c)) by (try exact W; lia). rewrite (w64_tiny (32 - c)) by lia.
  destruct (if negb (c =? 32) then shr32 ip c else Ret 0) as [l| |]; cbn [bind]; try reflexivity. rewrite shift_z by (try exact W; lia). reflexivity.
Qed.
Lemma wsize_step w a c : wsize w (wsize w (wsize w a * 10) + (c - 48)) = wsize w (a * 10 + (c - 48)).
Proof. unfold wsize. rewrite Zplus_mod_idemp_l, <- (Zplus_mod_idemp_l (a mod _ * 10)), Zmult_mod_idemp_l, Zplus_mod_idemp_l. reflexivity. Qed.
Lemma digits_all_z w : forall m acc, Forall is_dec_digit m ->
  netmask_digits_z w (chars m) (wsize w acc) = Ret (true, wsize w (horner 10 acc (map (fun c => c - 48) m))) /\
  v6_netmask_digits_z w (chars m) (wsize w acc) = Ret (wsize w (horner 10 acc (map (fun c => c - 48) m))).
Proof.
  induction m as [|c m IH]; intros acc H; [split; reflexivity|]. inversion H as [|? ? Hc Hm]. subst.
  apply dec_digit_b in Hc. cbn [chars map netmask_digits_z v6_netmask_digits_z horner]. rewrite Hc.
  rewrite wsize_step. apply IH. exact Hm.
Qed.
Lemma number_z w v m x : size_bits w -> dec_text m x -> parse_netmask_z w v (chars m) =
  if x mod 2 ^ w >? width v then Err invalid_netmask 0 else '(mm, p) <- (b <- match v with V4 => v4_from_prefix true (x mod 2 ^ w) | V6 => v6_from_prefix (x mod 2 ^ w) end ;; Ret (b, x mod 2 ^ w)) ;; Ret (mk_addr mm [], p).
Proof.
  intros W D. apply dec_text_iff in D as (N & F & ->). destruct (digits_all_z w m 0 F) as [D4 D6].
  change (horner 10 0 (map (fun c => c - 48) m)) with (dval m) in *.
  assert (E0 : wsize w 0 = 0) by (unfold wsize; apply Z.mod_0_l; pose proof (Z.pow_pos_nonneg 2 w ltac:(lia) ltac:(unfold size_bits in W; lia)); lia).
  rewrite E0 in D4, D6. unfold parse_netmask_z. destruct v.
  - unfold v4_parse_netmask_z. rewrite D4. cbn [bind width]. unfold wsize at 1 2. destruct (dval m mod 2 ^ w >? 32); cbn [bind]; [reflexivity|].
    destruct m; [contradiction|]. reflexivity.
  - unfold v6_parse_netmask_z. rewrite D6. cbn [bind width]. unfold wsize. destruct (dval m mod 2 ^ w >? 128); cbn [bind]; [reflexivity|].
    destruct m; [contradiction|]. reflexivity.
Qed.
Lemma digits_z_other w : forall ts acc acc', (forall m, ts = chars m -> ~ Forall is_dec_digit m) ->
  (match netmask_digits_z w ts acc, netmask_digits ts acc' with Ret (false, _), Ret (false, _) => True | Err e x, Err e' x' => e = e' /\ x = x' | _, _ => False end) /\
  v6_netmask_digits_z w ts acc = v6_netmask_digits ts acc' /\ (forall p, v6_netmask_digits ts acc' <> Ret p).
Proof.
  induction ts as [|[c|e x] ts IH]; intros acc acc' N; cbn [netmask_digits_z netmask_digits v6_netmask_digits_z v6_netmask_digits].
  - destruct (N [] eq_refl). constructor.
  - destruct ((c >=? 48) && (c <=? 57)) eqn:E; [|repeat split; discriminate]. apply IH. intros m -> F. apply (N (c :: m) eq_refl).
    constructor; [apply dec_digit_b; exact E|exact F].
  - repeat split; discriminate.
Qed.
Lemma mask_other w v ts : size_bits w -> (forall m x, ts = chars m -> ~ dec_text m x) -> parse_netmask_z w v ts = parse_netmask v ts.
Proof.
  intros W N. destruct ts as [|t ts].
  { destruct v; reflexivity. }
  set (l := t :: ts) in *. assert (Nil : l <> []) by discriminate.
  destruct (digits_z_other w l 0 0) as (D4 & D6 & D6').
  { intros m E F. apply (N m (dval m) E). apply dec_text_iff. split; [|auto]. intros ->. unfold l in E. discriminate. }
  unfold parse_netmask_z, parse_netmask. destruct v.
  - unfold v4_parse_netmask_z, v4_parse_netmask.
    destruct (netmask_digits_z w l 0) as [[[] p]|e x|u], (netmask_digits l 0) as [[[] p']|e' x'|u']; try contradiction; cbn [bind]; [|destruct D4 as [-> ->]; reflexivity].
    destruct (v4_from_string l) as [b| |]; cbn [bind]; try reflexivity. destruct (v4_to_uint true b) as [ip| |]; cbn [bind]; try reflexivity.
    rewrite !prefix_z by exact W. reflexivity.
  - unfold v6_parse_netmask_z, v6_parse_netmask. rewrite D6. reflexivity.
Qed.
Lemma size64 w x : size_bits w -> (x mod 2 ^ w) mod 2 ^ 64 = x mod 2 ^ w.
Proof.
  intros W. apply Z.mod_small. pose proof (Z.pow_pos_nonneg 2 w ltac:(lia) ltac:(unfold size_bits in W; lia)).
  pose proof (Z.pow_le_mono_r 2 w 64 ltac:(lia) (proj2 W)). pose proof (Z.mod_pos_bound x (2 ^ w) ltac:(lia)). lia.
Qed.
(** At 64 bits it is the other model. *)
Lemma digits_64 : forall ts acc, netmask_digits_z 64 ts acc = netmask_digits ts acc /\ v6_netmask_digits_z 64 ts acc = v6_netmask_digits ts acc.
Proof.
  induction ts as [|[c|e x] ts IH]; intros acc; cbn [netmask_digits_z netmask_digits v6_netmask_digits_z v6_netmask_digits]; [split; reflexivity| |split; reflexivity].
  destruct ((c >=? 48) && (c <=? 57)); [|split; reflexivity]. apply IH.
Qed.
Lemma mask_64 v ts : parse_netmask_z 64 v ts = parse_netmask v ts.
Proof.
  unfold parse_netmask_z, parse_netmask. destruct v.
  - unfold v4_parse_netmask_z, v4_parse_netmask. rewrite (proj1 (digits_64 ts 0)). reflexivity.
  - unfold v6_parse_netmask_z, v6_parse_netmask. rewrite (proj2 (digits_64 ts 0)). reflexivity.
Qed.
Lemma mask_number w v m x m' : size_bits w -> dec_text m x -> dec_text m' (x mod 2 ^ w) -> parse_netmask_z w v (chars m) = parse_netmask v (chars m').
Proof.
  intros W D D'. rewrite (number_z w v m x W D), <- mask_64. rewrite (number_z 64 v m' _ ltac:(unfold size_bits; lia) D'), size64 by exact W. reflexivity.
Qed.
Lemma mask_value_number v m x : dec_text m x -> mask_value v (chars m) = 0.
Proof.
  intros D. destruct v; [|reflexivity]. apply dec_text_iff in D as (_ & F & _). unfold mask_value. change 0 with (w64 0) at 1. rewrite (proj1 (digits_all m 0 F)). reflexivity.
Qed.

(** *** Networks *)
Lemma split_cases v ts : (exists a, net_split (L v) ts (repeat 0 (Z.to_nat (L v + 1))) 0 false [] = Ret (a, [])) \/
  (exists e x, net_split (L v) ts (repeat 0 (Z.to_nat (L v + 1))) 0 false [] = Err e x) \/
  (exists r m, ts = chars (r ++ 47 :: m) /\ before_slash v r /\ ~ In 47 m /\ m <> []).
Proof.
  assert (P : forall pre r, ~ In 47 pre -> net_split (L v) (chars pre ++ r) (repeat 0 (Z.to_nat (L v + 1))) 0 false [] =
    if zlen pre <=? L v then net_split (L v) r (buf (L v + 1) pre) (zlen pre) false [] else Ret (buf (L v + 1) (firstn (Z.to_nat (L v + 1)) pre), [])).
  { intros pre r N. pose proof (L_pos v) as HL. rewrite buf_nil. change 0 with (zlen (@nil Z)) at 1. rewrite (split_prefix (L v) HL) by (auto; cbn; lia). reflexivity. }
  destruct (shapes v ts) as [(r & -> & B)|[(r & rest & -> & N & H)|[(r & m & E)|[(r & -> & B)|[(r & e & x & rest & -> & B)|[(r & m & e & x & rest & -> & B & N)|(r & m & rest & -> & B)]]]]]].
  - left. apply before_L in B as (N & E & H). rewrite <- (app_nil_r (chars r)), P, E by exact N. eexists. reflexivity.
  - left. rewrite P by exact N. destruct (Z.leb_spec (zlen r) (L v)); [lia|]. eexists. reflexivity.
  - right. right. exists r, m. exact E.
  - right. left. apply before_L in B as (N & E & H). rewrite chars_app, P, E by exact N. eexists _, _. reflexivity.
  - right. left. apply before_L in B as (N & E & H). rewrite P, E by exact N. eexists _, _. reflexivity.
  - right. left. apply before_L in B as (N' & E & H). rewrite chars_mid, P, E by exact N'. cbn [net_split]. cbn [Z.eqb Pos.eqb andb].
    destruct (zlen (chars m ++ Bad e x :: rest) =? 0); [eexists _, _; reflexivity|]. cbn [bind negb]. destruct (Z.gtb_spec (zlen r) (L v)); [lia|].
    rewrite suffix_skip by assumption. eexists _, _. reflexivity.
  - right. left. apply before_L in B as (N' & E & H). rewrite chars_mid, P, E by exact N'. cbn [net_split]. cbn [Z.eqb Pos.eqb andb].
    destruct (zlen (chars m ++ Ch 47 :: rest) =? 0); [eexists _, _; reflexivity|]. cbn [bind negb]. destruct (Z.gtb_spec (zlen r) (L v)); [lia|].
    rewrite suffix_slash by assumption. eexists _, _. reflexivity.
Qed.
Lemma split_slash v r m : before_slash v r -> ~ In 47 m -> m <> [] ->
  net_split (L v) (chars (r ++ 47 :: m)) (repeat 0 (Z.to_nat (L v + 1))) 0 false [] = Ret (buf (L v + 1) r, chars m).
Proof.
  intros B Nm Hm. apply before_L in B as (N & E & H). pose proof (L_pos v) as HL. rewrite chars_app, buf_nil. change 0 with (zlen (@nil Z)) at 1.
  rewrite (split_prefix (L v) HL) by (auto; cbn; lia). change (zlen (@nil Z) + zlen r) with (zlen r). rewrite E. cbn [app].
  change (chars (47 :: m)) with (Ch 47 :: chars m). cbn [net_split]. cbn [Z.eqb Pos.eqb andb].
  destruct (Z.eqb_spec (zlen (chars m)) 0) as [Z0|_]; [destruct m; [contradiction|unfold zlen in Z0; cbn in Z0; lia]|].
  cbn [bind negb]. destruct (Z.gtb_spec (zlen r) (L v)); [lia|].
  rewrite <- (app_nil_r (chars m)) at 1. rewrite suffix_skip by assumption. reflexivity.
Qed.
Lemma dec_no_slash m x : dec_text m x -> m <> [] /\ ~ In 47 m.
Proof.
  intros D. apply dec_text_iff in D as (N & F & _). split; [exact N|]. intros K. rewrite Forall_forall in F. apply F in K. unfold is_dec_digit in K. lia.
Qed.
Lemma res_z w v ts ts' strict : size_bits w -> read_as w v ts ts' -> net_parse_res_z w v ts strict = net_parse_res v ts' strict.
Proof.
  intros W R. unfold net_parse_res_z, net_parse_res. fold (L v). destruct R as [r m x m' B D D'|ts H].
  - destruct (dec_no_slash m x D), (dec_no_slash m' _ D'). rewrite !split_slash by assumption. cbn [bind].
    rewrite (mask_number w v m x m' W D D'), (mask_value_number v m x D), (mask_value_number v m' _ D'), array_z by exact W. reflexivity.
  - destruct (split_cases v ts) as [(a & E)|[(e & x & E)|(r & m & -> & B & N & M)]].
    + rewrite E. cbn [bind]. rewrite array_z by exact W. rewrite mask_other; [reflexivity|exact W|]. intros [|c m] x E' D; [destruct (dec_no_slash _ _ D); contradiction|discriminate].
    + rewrite E. reflexivity.
    + rewrite split_slash by assumption. cbn [bind]. rewrite array_z by exact W. rewrite mask_other; [reflexivity|exact W|]. intros m' x E' D. apply chars_inj in E'. subst m'. exact (H r m x eq_refl B D).
Qed.
Lemma net_z w v ts ts' strict : size_bits w -> read_as w v ts ts' -> net_parse_z w v ts strict = net_parse v ts' strict.
Proof. intros W R. unfold net_parse_z, net_parse. rewrite (res_z w v ts ts' strict W R). reflexivity. Qed.
Lemma net_code_z w v ts ts' code strict : size_bits w -> read_as w v ts ts' -> net_parse_code_z w v ts code strict = net_parse_code v ts' code strict.
Proof. intros W R. unfold net_parse_code_z, net_parse_code. rewrite (res_z w v ts ts' strict W R). reflexivity. Qed.
Lemma numeral_exists x : 0 <= x -> exists m, dec_text m x.
Proof.
  intros H. revert x H. apply Zlt_0_ind. intros x IH H.
  destruct (Z.lt_ge_cases x 10) as [L|G].
  - exists [48 + x]. apply dec_text_iff. split; [discriminate|]. split; [constructor; [unfold is_dec_digit; lia|constructor]|].
    unfold dval. cbn [map horner]. lia.
  - destruct (IH (x / 10)) as (m & D); [lia|]. apply dec_text_iff in D as (N & F & E). exists (m ++ [48 + x mod 10]). apply dec_text_iff.
    split; [destruct m; discriminate|]. split; [apply Forall_app; split; [exact F|constructor; [unfold is_dec_digit; lia|constructor]]|].
    unfold dval in *. rewrite map_app. cbn [map]. rewrite horner_app, <- E. lia.
Qed.
Lemma split_cases' v ts : (exists r m x, ts = chars (r ++ 47 :: m) /\ before_slash v r /\ dec_text m x) \/
  (forall r m x, ts = chars (r ++ 47 :: m) -> before_slash v r -> ~ dec_text m x).
Proof.
  destruct (split_cases v ts) as [(a & E)|[(e & x & E)|(r & m & -> & B & N & M)]].
  - right. intros r m x -> B D. destruct (dec_no_slash m x D). rewrite split_slash in E by assumption. injection E as _ E. destruct m; [contradiction|discriminate].
  - right. intros r m y -> B D. destruct (dec_no_slash m y D). rewrite split_slash in E by assumption. discriminate.
  - destruct (digits_dec m) as [F|F].
    + left. exists r, m, (dval m). split; [reflexivity|]. split; [exact B|]. apply dec_text_iff. auto.
    + right. intros r' m' x E B' D. apply chars_inj in E. destruct (dec_no_slash m' x D). apply (sep_unique 47) in E as [-> ->]; [|apply B|apply B'].
      apply F. apply dec_text_iff in D as (_ & D & _). exact D.
Qed.
Lemma read_as_total w v ts : 0 <= w -> exists ts', read_as w v ts ts'.
Proof.
  intros W. destruct (split_cases' v ts) as [(r & m & x & -> & B & D)|H].
  - destruct (numeral_exists (x mod 2 ^ w)) as (m' & D'); [apply Z.mod_pos_bound, Z.pow_pos_nonneg; lia|]. eexists. eapply ra_number; eassumption.
  - exists ts. apply ra_other. exact H.
Qed.

(** *** Which texts are networks *)
Lemma small_read w v ts : small_number w ts -> read_as w v ts ts.
Proof.
  intros S. destruct (split_cases' v ts) as [(r & m & x & -> & B & D)|H]; [|apply ra_other; exact H].
  eapply ra_number; [exact B|exact D|]. rewrite Z.mod_small; [exact D|]. split; [exact (dec_text_nonneg m x D)|exact (S r m x eq_refl D)].
Qed.
Lemma small_same w v ts strict : size_bits w -> small_number w ts -> net_parse_z w v ts strict = net_parse v ts strict.
Proof. intros W S. apply net_z; [exact W|]. apply small_read. exact S. Qed.
Lemma net_64 v ts strict : net_parse_z 64 v ts strict = net_parse v ts strict.
Proof.
  unfold net_parse_z, net_parse, net_parse_res_z, net_parse_res. destruct (net_split _ _ _ _ _ _) as [[a m]| |]; cbn [bind]; try reflexivity.
  rewrite mask_64. rewrite array_z by (unfold size_bits; lia). reflexivity.
Qed.
Lemma loose_z_number w v m x p : size_bits w -> dec_text m x -> (loose_mask_z w v m p <-> p = x mod 2 ^ w /\ p <= width v).
Proof.
  intros W D. split.
  - intros [(y & D' & E)|(_ & q & Q & _)].
    + apply dec_text_iff in D as (_ & _ & ->). apply dec_text_iff in D' as (_ & _ & ->). exact E.
    + exfalso. apply dec_text_iff in D as (_ & F & _). exact (quad_not_digits m q Q F).
  - intros E. left. exists x. split; [exact D|exact E].
Qed.
Lemma loose_z_other w v m p : (forall x, ~ dec_text m x) -> (loose_mask_z w v m p <-> loose_mask v m p).
Proof.
  intros N. split; (intros [(y & D & _)|Q]; [destruct (N y D)|right; exact Q]).
Qed.
Lemma loose_64 v m p : loose_mask v m p <-> loose_mask_z 64 v m p. Proof. reflexivity. Qed.
Lemma In_first (c : Z) n r m : ~ In c (firstn n (r ++ c :: m)) -> (n <= length r)%nat.
Proof.
  intros H. destruct (Nat.le_gt_cases n (length r)) as [|K]; [assumption|]. exfalso. apply H. rewrite firstn_app. apply in_app_iff. right.
  replace (n - length r)%nat with (S (n - length r - 1)) by lia. left. reflexivity.
Qed.
Lemma loose_read w v s s' : size_bits w -> read_as w v (chars s) (chars s') -> forall t p, net_loose_z w v s t p <-> net_loose v s' t p.
Proof.
  intros W R t p. remember (chars s) as ts eqn:E1. remember (chars s') as ts' eqn:E2. destruct R as [r m x m' B D D'|ts H].
  - apply chars_inj in E1, E2. subst s s'. destruct B as [N H]. unfold net_loose_z, net_loose.
    assert (K : forall q, In 47 (firstn (Z.to_nat (longest_address v + 1)) (r ++ 47 :: q))).
    { intros q. destruct (in_dec Z.eq_dec 47 (firstn (Z.to_nat (longest_address v + 1)) (r ++ 47 :: q))) as [|K]; [assumption|].
      apply In_first in K. unfold zlen in H. exfalso. clear - K H. destruct v; cbn [longest_address] in *; lia. }
    assert (M : loose_mask_z w v m p <-> loose_mask v m' p).
    { rewrite (loose_z_number w v m x p W D), loose_64, (loose_z_number 64 v m' _ p ltac:(unfold size_bits; lia) D'), size64 by exact W. reflexivity. }
    split; (intros [(C & _)|(r' & q & E & N' & H' & Bn & Lm)]; [destruct (C (K _))|right]; apply (sep_unique 47) in E as [<- <-]; [|assumption..]).
    + exists r, m'. repeat (split; [assumption||reflexivity|]). apply M. exact Lm.
    + exists r, m. repeat (split; [assumption||reflexivity|]). apply M. exact Lm.
  - subst ts. apply chars_inj in E2. subst s'. unfold net_loose_z, net_loose.
    split; (intros [C|(r & m & -> & N & Hr & Bn & Lm)]; [left; exact C|right; exists r, m; repeat (split; [assumption||reflexivity|])]).
    + apply (loose_z_other w); [|exact Lm]. intros x. apply (H r m x eq_refl). split; assumption.
    + apply (loose_z_other w); [|exact Lm]. intros x. apply (H r m x eq_refl). split; assumption.
Qed.
Lemma dec_chars m x : dec_text m x -> Forall is_char m.
Proof. intros D. apply dec_text_iff in D as (_ & F & _). eapply Forall_impl; [|exact F]. intros c. unfold is_dec_digit, is_char. lia. Qed.
Lemma read_text w v s ts' : size_bits w -> Forall is_char s -> read_as w v (chars s) ts' -> exists s', ts' = chars s' /\ Forall is_char s'.
Proof.
  intros W F R. remember (chars s) as ts eqn:E1. destruct R as [r m x m' B D D'|ts H].
  - apply chars_inj in E1. subst s. eexists. split; [reflexivity|]. apply Forall_app in F as [F1 F2]. inversion F2. apply Forall_app. split; [exact F1|].
    constructor; [assumption|]. eapply dec_chars. exact D'.
  - subst ts. exists s. auto.
Qed.
Lemma net_exact_z w v s strict n : size_bits w -> Forall is_char s ->
  (net_parse_z w v (chars s) strict = Ret n <->
   exists t p a, net_loose_z w v s t p /\ addr_parse v (chars t) = Ret a /\ from_address v a p strict = Ret n).
Proof.
  intros W F. destruct (read_as_total w v (chars s)) as (ts' & R); [unfold size_bits in W; lia|]. destruct (read_text w v s ts' W F R) as (s' & -> & F').
  rewrite (net_z w v _ _ strict W R), (net_exact v s' strict n F'). pose proof (loose_read w v s s' W R) as L.
  split; intros (t & p & a & H & K); exists t, p, a; (split; [apply L; exact H|exact K]).
Qed.
Lemma net_undefined_z w v s strict u : size_bits w -> Forall is_char s ->
  (net_parse_z w v (chars s) strict = UB u <->
   u = BadShift /\ v = V4 /\ exists r m, s = r ++ 47 :: m /\ ~ In 47 r /\ zlen r <= 15 /\ dotted_quad m [0; 0; 0; 0]).
Proof.
  intros W F. destruct (read_as_total w v (chars s)) as (ts' & R); [unfold size_bits in W; lia|]. destruct (read_text w v s ts' W F R) as (s' & -> & F').
  rewrite (net_z w v _ _ strict W R), (net_undefined_exact v s' strict u F'). remember (chars s) as ts eqn:E1. remember (chars s') as ts' eqn:E2.
  destruct R as [r m x m' B D D'|ts H].
  - apply chars_inj in E1, E2. subst s s'. destruct B as [N H].
    split; (intros (_ & _ & r' & q & E & N' & H' & Q); apply (sep_unique 47) in E as [<- <-]; [|assumption..]; exfalso).
    + apply dec_text_iff in D' as (_ & G & _). exact (quad_not_digits _ _ Q G).
    + apply dec_text_iff in D as (_ & G & _). exact (quad_not_digits _ _ Q G).
  - subst ts. apply chars_inj in E2. subst s'. reflexivity.
Qed.
Lemma net_errors_z w v ts strict e x : size_bits w -> Forall tok_char ts -> Forall ErrProofs.tok_real ts ->
  (net_parse_z w v ts strict = Err e x <-> exists ts', read_as w v ts ts' /\ net_error v strict ts' e x).
Proof.
  intros W F G. assert (P : forall ts', read_as w v ts ts' -> (net_parse v ts' strict = Err e x <-> net_error v strict ts' e x)).
  { intros ts' R. apply net_error_exact; destruct R as [r m y m' B D D'|ts H]; try assumption.
    - apply toks_of. apply toks_chars' in F. apply Forall_app in F as [F1 F2]. inversion F2. apply Forall_app. split; [exact F1|]. constructor; [assumption|]. eapply dec_chars. exact D'.
    - apply ErrProofs.chars_real. }
  split.
  - intros E. destruct (read_as_total w v ts) as (ts' & R); [unfold size_bits in W; lia|]. exists ts'. split; [exact R|]. apply (P ts' R). rewrite <- (net_z w v ts ts' strict W R). exact E.
  - intros (ts' & R & E). rewrite (net_z w v ts ts' strict W R). apply (P ts' R). exact E.
Qed.
(** Between two widths there is always a text with different readings. *)
Lemma widths_differ w w' : size_bits w -> size_bits w' -> w < w' -> exists m, Forall is_char m /\
  (forall v r strict, before_slash v r -> net_parse_z w v (chars (r ++ 47 :: m)) strict = net_parse_z w v (chars (r ++ [47; 56])) strict) /\
  (forall v r strict, before_slash v r -> net_parse_z w' v (chars (r ++ 47 :: m)) strict = Err invalid_netmask 0).
Proof.
  intros W W' H. pose proof (Z.pow_lt_mono_r 2 w w' ltac:(lia) ltac:(unfold size_bits in W'; lia) H) as P.
  pose proof (Z.pow_le_mono_r 2 32 w ltac:(lia) (proj1 W)) as Q. assert (R : 2 ^ w' = 2 ^ (w' - w) * 2 ^ w) by (rewrite <- Z.pow_add_r by (unfold size_bits in *; lia); f_equal; lia).
  assert (P2 : 2 <= 2 ^ (w' - w)) by (change 2 with (2 ^ 1) at 1; apply Z.pow_le_mono_r; lia).
  destruct (numeral_exists (2 ^ w + 8)) as (m & D); [lia|]. exists m. split; [eapply dec_chars; exact D|].
  assert (D8 : dec_text [56] 8) by (apply dec_text_iff; split; [discriminate|]; split; [constructor; [unfold is_dec_digit; lia|constructor]|reflexivity]).
  assert (E : (2 ^ w + 8) mod 2 ^ w = 8) by (symmetry; apply (Z.mod_unique _ _ 1); [left; lia|lia]).
  split; intros v r strict B.
  - rewrite (net_z w v _ (chars (r ++ 47 :: [56])) strict W (ra_number w v r m _ [56] B D ltac:(rewrite E; exact D8))).
    symmetry. apply small_same; [exact W|]. intros r' m' x Er Dx. apply chars_inj in Er. apply dec_no_slash in Dx as K. destruct K as [K1 K2].
    assert (Ks : r = r' /\ [56] = m').
    { clear - Er B K1 K2. destruct B as [B _]. 
      destruct (in_dec Z.eq_dec 47 r') as [I|I]; [|apply (sep_unique 47) in Er; assumption]. exfalso.
      apply (f_equal (@rev Z)) in Er. rewrite !rev_app_distr in Er. cbn [rev app] in Er. rewrite <- app_assoc in Er. cbn [app] in Er.
      change (rev r) with ([] ++ rev r) in Er. assert (U : [56] = rev m' /\ rev r = rev r').
      { apply (sep_unique 47); [exact Er|cbn; intuition discriminate|]. intros J. apply in_rev in J. contradiction. }
      destruct U as [_ U]. apply (f_equal (@rev Z)) in U. rewrite !rev_involutive in U. subst r'. contradiction. }
    destruct Ks as [_ <-]. apply dec_text_iff in Dx as (_ & _ & ->). change (dval [56]) with 8. lia.
  - assert (Hr : (2 ^ w + 8) mod 2 ^ w' = 2 ^ w + 8) by (apply Z.mod_small; nia).
    destruct (dec_no_slash m _ D) as [N1 N2].
    unfold net_parse_z, net_parse_res_z. fold (L v). rewrite split_slash by assumption. cbn [bind].
    rewrite (number_z w' v m _ W' D), Hr. destruct (Z.gtb_spec (2 ^ w + 8) (width v)) as [_|K]; [reflexivity|]. exfalso. clear - K Q. destruct v; cbn [width] in K; lia.
Qed.

(** *** Version-erased networks *)
Lemma any_net_z w ts ts' strict : size_bits w -> read_as w V6 ts ts' -> anet_parse_z w ts strict = anet_parse ts' strict.
Proof.
  intros W R. assert (E4 : net_parse_res_z w V4 ts strict = net_parse_res V4 ts' strict).
  { destruct R as [r m x m' B D D'|ts H].
    - destruct (Z_le_gt_dec (zlen r) 15) as [K|K].
      + apply res_z; [exact W|]. eapply ra_number; [split; [apply B|exact K]|exact D|exact D'].
      + assert (Hl : forall q strict, net_parse_res V4 (chars (r ++ 47 :: q)) strict = finish V4 r [] strict).
        { intros q st. rewrite chars_app. apply res_long; [apply B|]. change (L V4) with 15. lia. }
        rewrite Hl, <- (Hl m). apply res_z; [exact W|]. apply ra_other. intros r' q y E [N K'] Dy. apply chars_inj in E.
        apply (sep_unique 47) in E as [<- _]; [|apply B|exact N]. cbn [longest_address] in K'. lia.
    - apply res_z; [exact W|]. apply ra_other. intros r m x E [N K]. apply (H r m x E). split; [exact N|]. cbn [longest_address] in *. lia. }
  unfold anet_parse_z, anet_parse, net_parse_code_z, net_parse_code. rewrite E4, (net_z w V6 ts ts' strict W R). reflexivity.
Qed.
Lemma any_small_same w ts strict : size_bits w -> small_number w ts -> anet_parse_z w ts strict = anet_parse ts strict.
Proof. intros W S. apply any_net_z; [exact W|]. apply small_read. exact S. Qed.
