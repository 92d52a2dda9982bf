(** Texts on a big-endian host. *)
From Verif Require Import Base Tac TextProofs UnicodeModel FixedStringModel V4Model V6Model Uint128Model SpecInt Uint128Proofs Uint128Div2
  SpecText SpecAddr SpecStr SpecV4 SpecV6 StrProofs V4Proofs BufProofs BitProofs FixedStringProofs V4Lemmas V6Proofs V6Parse V6Grammar V6Full V6Lemmas
  AddressModel SpecOrder AddressProofs NetworkModel SpecNet NetProofs NetProofs2 NetProofs3 NetLemmas IterModel SpecAny HostModel SpecEndian EndianProofs.

Lemma lxor_lt a b n : 0 <= n -> 0 <= a < 2 ^ n -> 0 <= b < 2 ^ n -> 0 <= Z.lxor a b < 2 ^ n.
Proof.
  intros Hn Ha Hb. split; [apply Z.lxor_nonneg; lia|].
  assert (K : Z.lxor a b = Z.lxor a b mod 2 ^ n); [|rewrite K; apply Z.mod_pos_bound; lia].
  apply Z.bits_inj'. intros k Hk. destruct (Z.ltb_spec k n).
  - rewrite Z.mod_pow2_bits_low by lia. reflexivity.
  - rewrite Z.mod_pow2_bits_high by lia. rewrite Z.lxor_spec.
    rewrite <- (Z.mod_small a (2 ^ n)), <- (Z.mod_small b (2 ^ n)) by lia.
    rewrite !Z.mod_pow2_bits_high by lia. reflexivity.
Qed.
Lemma be_from4 x : 0 <= x < 2 ^ 32 -> v4_from_uint false x = rev (v4_from_uint true x).
Proof. intros H. destruct (unpack4 x H) as (a & b & c & d & A & B & C & D & ->). rewrite !v4_from_uint_pack by assumption. reflexivity. Qed.
Lemma shr32_range x n y : 0 <= x < 2 ^ 32 -> shr32 x n = Ret y -> 0 <= y < 2 ^ 32.
Proof.
  intros H. unfold shr32. destruct (_ && _) eqn:E; [|discriminate]. intros K. injection K as <-. rewrite Z.shiftr_div_pow2 by lia.
  assert (0 < 2 ^ n) by (apply Z.pow_pos_nonneg; lia). split; [apply Z.div_pos; lia|]. apply Z.div_lt_upper_bound; [lia|]. nia.
Qed.
Lemma be_prefix_any p : v4_from_prefix false p = rmap (@rev Z) (v4_from_prefix true p).
Proof.
  unfold v4_from_prefix. destruct (negb (p =? 0)); [|reflexivity].
  destruct (shr32 v4_all_ones (p - 1)) as [x| |] eqn:E1; cbn [bind]; try reflexivity. apply shr32_range in E1; [|unfold v4_all_ones; lia].
  destruct (shr32 x 1) as [y| |] eqn:E2; cbn [bind]; try reflexivity. apply shr32_range in E2; [|exact E1]. cbn [rmap]. f_equal. apply be_from4.
  pose proof (lxor_lt v4_all_ones y 32) as L. unfold v4_all_ones in *. lia.
Qed.
Definition mirrored (x : addr * Z) : addr * Z := (mirror_addr V4 (fst x), snd x).
Lemma be_mask_digits ts p : netmask_digits ts 0 = Ret (true, p) -> parse_netmask_h false V4 ts = rmap mirrored (parse_netmask V4 ts).
Proof.
  intros E. unfold parse_netmask_h, parse_netmask, v4_parse_netmask. rewrite E. cbn [bind]. destruct (p >? 32); [reflexivity|]. cbn [bind].
  rewrite be_prefix_any. destruct (v4_from_prefix true _); reflexivity.
Qed.
Lemma dot_not_value : forall s n, In 46 s -> exists k, netmask_digits (chars s) n = Ret (false, k).
Proof.
  induction s as [|c s IH]; intros n H; [destruct H|]; destruct H as [H|H]; cbn [chars map netmask_digits]; change (map Ch s) with (chars s).
  - subst c. cbn. eauto.
  - destruct ((c >=? 48) && (c <=? 57)); [apply IH; assumption|eauto].
Qed.
Lemma quad_dot s q : dotted_quad s q -> In 46 s.
Proof. intros (a & b & c & d & x & y & z & w & _ & _ & _ & _ & -> & _). apply in_app_iff. right. left. reflexivity. Qed.
Lemma be_mask_dotted s t q : dotted_quad s q -> dotted_quad t (rev q) ->
  parse_netmask_h false V4 (chars s) = rmap mirrored (parse_netmask V4 (chars t)).
Proof.
  intros Hs Ht. pose proof (quad_dot s q Hs) as Ds. pose proof (quad_dot t _ Ht) as Dt.
  destruct (dot_not_value s 0 Ds) as (k & Ek). destruct (dot_not_value t 0 Dt) as (k' & Ek').
  destruct (dotted_bytes _ _ Hs) as (a & b & c & d & -> & A & B & C & D). cbn [rev app] in Ht.
  apply v4_accept_iff in Hs, Ht. unfold parse_netmask_h, parse_netmask, v4_parse_netmask. rewrite Ek, Ek'. cbn [bind]. rewrite Hs, Ht.
  rewrite !v4_to_uint_pack by assumption. cbn [bind].
  destruct s as [|c0 s]; [destruct Ds|]. destruct t as [|c1 t]; [destruct Dt|]. cbn [chars map].
  set (r := match prefix_from_ip_uint32 (pack4 d c b a) with Err _ _ => _ | r => r end).
  destruct r as [p| |]; cbn [bind]; try reflexivity. rewrite be_prefix_any. destruct (v4_from_prefix true p); reflexivity.
Qed.

(** *** The dotted quad at the end of an IPv6 text *)
Definition addr_h (le : bool) (s : list Z) : res (list Z) :=
  '(parts, parts_count) <- split_parts le (chars s) ;;
  '(hi, lo, skipped) <- get_parts_bound parts parts_count ;;
  parse_parts parts parts_count hi lo skipped.
Definition both (a b x y : Z) : list (list Z) := [hex4 (a * 256 + b); hex4 (x * 256 + y)].
Lemma split_rel s :
  (split_parts false (chars s) = split_parts true (chars s) /\
   forall r, split_parts true (chars s) = Ret r -> exists d c, scan s [] [] = Some (d, c) /\ existsb (fun x => x =? 46) c = false) \/
  (exists d c a b x y, scan s [] [] = Some (d, c) /\ existsb (fun x => x =? 46) c = true /\ is_byte a /\ is_byte b /\ is_byte x /\ is_byte y /\
     (1 <= length d <= 6)%nat /\
     split_parts true (chars s) = Ret ((map cut d ++ both a b x y) ++ repeat [] (9 - length (map cut d ++ both a b x y)), zlen (map cut d ++ both a b x y)) /\
     split_parts false (chars s) = Ret ((map cut d ++ both y x b a) ++ repeat [] (9 - length (map cut d ++ both a b x y)), zlen (map cut d ++ both a b x y))).
Proof.
  unfold split_parts.
  pose proof (split_loop_sim s [] [] (repeat (repeat 0 5) 9) (repeat 0 17) 0 false arr_ok_init last_ok_init ltac:(cbn; lia)) as H.
  change (zlen (@nil (list Z))) with 0 in H. change (zlen (@nil Z)) with 0 in H.
  destruct (scan s [] []) as [[d c]|] eqn:ES.
  2:{ destruct H as (e & v & ->). left. cbn [bind]. split; [reflexivity|intros r K; discriminate K]. }
  destruct (scan_bound s [] [] d c ES ltac:(cbn; lia) ltac:(cbn; lia)) as [Hc _].
  destruct H as (p & l & -> & HA & HL & Hd). cbn [bind].
  destruct (Z.gtb_spec (zlen d) 8) as [G|G].
  { left. split; [reflexivity|]. intros r. destruct (rd p 0); cbn [bind]; [|discriminate..]. destruct (rd _ 0); cbn [bind]; [|discriminate..]. destruct (rd p 1); cbn [bind]; [|discriminate..].
    destruct (rd _ 0); cbn [bind]; [|discriminate..]. destruct (rd l 0); cbn [bind]; [|discriminate..].
    destruct (_ && _); [discriminate|]. destruct (_ =? 0); discriminate. }
  rewrite to_nat_zlen. destruct HL as [Ll [j EL]].
  rewrite (has_dot_ok c 0 [] (0 :: j) l) by (assumption || reflexivity). cbn [bind].
  destruct (existsb (fun c => c =? 46) c) eqn:Edot.
  2:{ left. split; [reflexivity|]. intros r _. exists d, c. auto. }
  destruct (Z.geb_spec (zlen d + 1) 8) as [G8|G8]; [left; split; [reflexivity|intros r K; discriminate K]|].
  rewrite (v4_parse_array_ok l c (conj Ll (ex_intro _ j EL)) ltac:(unfold zlen in Hc; lia)).
  destruct (v4_from_string (chars (cut c))) as [bs|e v|u] eqn:EV; [|left; split; [reflexivity|intros r K; discriminate K]..].
  apply v4_accept_iff, dotted_bytes in EV. destruct EV as (a & b & x & y & -> & Ba & Bb & Bx & By).
  rewrite !v4_to_uint_pack by assumption. cbn [bind].
  destruct (quad_hextets a b x y Ba Bb Bx By) as [-> ->]. destruct (quad_hextets y x b a By Bx Bb Ba) as [-> ->].
  assert (length d <= 6)%nat by (unfold zlen in *; lia).
  assert (K : forall a b x y, is_byte a -> is_byte b -> is_byte x -> is_byte y ->
    ('(parts, parts_count) <-
      (p0 <- rd p (zlen d) ;; p0 <- to_hex (a * 256 + b) p0 ;; parts <- wr p (zlen d) p0 ;;
       let parts_count := zlen d + 1 in
       p0 <- rd parts parts_count ;; p0 <- to_hex (x * 256 + y) p0 ;; parts <- wr parts parts_count p0 ;; Ret (parts, parts_count + 1)) ;;
     if parts_count <? 3 then Err least_3_parts parts_count else fs <- make_parts parts ;; Ret (fs, parts_count)) =
    if zlen d + 2 <? 3 then Err least_3_parts (zlen d + 2) else
    Ret ((map cut d ++ both a b x y) ++ repeat [] (9 - length (map cut d ++ both a b x y)), zlen (map cut d ++ both a b x y))).
  { clear - HA Hd H. intros a b x y Ba Bb Bx By.
    assert (0 <= a * 256 + b < 65536 /\ 0 <= x * 256 + y < 65536) as [V1 V2] by (unfold is_byte in *; lia).
    destruct (put_hex_ok p d _ HA ltac:(lia) V1) as (q & -> & E & p' & E' & HA'). cbn [bind].
    rewrite E. cbn [bind]. rewrite E'. cbn [bind]. clear E E' q.
    replace (zlen d + 1) with (zlen (d ++ [hex4 (a * 256 + b)])) by (autorewrite with zl; lia). cbv zeta.
    destruct (put_hex_ok p' _ _ HA' ltac:(rewrite app_length; cbn [length]; lia) V2) as (q & -> & E & p'' & E' & HA''). cbn [bind].
    rewrite E. cbn [bind]. rewrite E'. cbn [bind]. clear E E' q.
    rewrite <- app_assoc in HA''. cbn [app] in HA''.
    replace (zlen (d ++ [hex4 (a * 256 + b)]) + 1) with (zlen d + 2) by (autorewrite with zl; lia).
    destruct (zlen d + 2 <? 3); [reflexivity|].
    rewrite (make_parts_ok p'' _ HA'') by (rewrite app_length; cbn [length]; lia). cbn [bind]. rewrite map_app. cbn [map].
    rewrite (proj2 (holds_hex _ V1)), (proj2 (holds_hex _ V2)). unfold both. do 2 f_equal.
    - rewrite !app_length, map_length. cbn [length]. reflexivity.
    - autorewrite with zl. unfold zlen. rewrite map_length. cbn [length]. lia. }
  pose proof (K a b x y Ba Bb Bx By) as K1. pose proof (K y x b a By Bx Bb Ba) as K2. clear K.
  cbv zeta in K1, K2 |- *. rewrite K1, K2. destruct (Z.ltb_spec (zlen d + 2) 3) as [L|L].
  { left. split; [reflexivity|intros r K; discriminate K]. }
  right. exists d, c, a, b, x, y. do 6 (split; [assumption || reflexivity|]). split; [unfold zlen in L; lia|]. split; [reflexivity|].
  unfold both. rewrite !app_length. unfold zlen. rewrite !app_length. reflexivity.
Qed.
