(** The IPv6 formatter. *)
From Verif Require Import Base Tac SpecText TextProofs UnicodeModel FixedStringModel V4Model Uint128Model V6Model ConfigModel
  SpecV4 SpecV6 SpecAddr SpecStr V4Proofs BufProofs BitProofs StrProofs FixedStringProofs V6Proofs V6Parse V6Grammar V6Full.

(** Sixteen bytes are eight groups. *)
Lemma bytes16 bs : bytes_ok V6 bs -> exists gs, length gs = 8%nat /\ Forall is_group gs /\ bs = group_bytes gs.
Proof.
  intros [Hl HF]. cbn in Hl.
  do 16 (destruct bs as [|? bs]; [discriminate|]). destruct bs; [|discriminate].
  repeat match goal with H : Forall is_byte (_ :: _) |- _ => inversion H; clear H; subst end.
  match goal with |- context [?a0 :: ?a1 :: ?a2 :: ?a3 :: ?a4 :: ?a5 :: ?a6 :: ?a7 :: ?a8 :: ?a9 :: ?a10 :: ?a11 :: ?a12 :: ?a13 :: ?a14 :: ?a15 :: []] =>
    exists [a0 * 256 + a1; a2 * 256 + a3; a4 * 256 + a5; a6 * 256 + a7; a8 * 256 + a9; a10 * 256 + a11; a12 * 256 + a13; a14 * 256 + a15] end.
  assert (D : forall x y, is_byte x -> is_byte y -> is_group (x * 256 + y) /\ (x * 256 + y) / 256 = x /\ (x * 256 + y) mod 256 = y).
  { unfold is_byte, is_group. intros. lia. }
  split; [reflexivity|]. split; [repeat (apply Forall_cons; [apply D; assumption|]); constructor|].
  cbn [group_bytes flat_map app].
  repeat match goal with |- ?x :: ?y :: ?r = _ => rewrite (proj1 (proj2 (D x y ltac:(assumption) ltac:(assumption)))), (proj2 (proj2 (D x y ltac:(assumption) ltac:(assumption)))); f_equal; f_equal end.
Qed.

Lemma group_bytes_ok gs : length gs = 8%nat -> Forall is_group gs -> bytes_ok V6 (group_bytes gs).
Proof.
  intros H F. split.
  - pose proof (zlen_group_bytes gs) as E. unfold zlen in E. cbn. lia.
  - clear H. induction F as [|g gs Hg _ IH]; [constructor|]. change (group_bytes (g :: gs)) with (g / 256 :: g mod 256 :: group_bytes gs).
    unfold is_group, is_byte in *. constructor; [lia|]. constructor; [lia|assumption].
Qed.
Lemma group_bytes_inj a b : group_bytes a = group_bytes b -> Forall is_group a -> Forall is_group b -> a = b.
Proof.
  revert b. induction a as [|x a IH]; intros [|y b] E Ha Hb; try discriminate; [reflexivity|].
  change (group_bytes (?g :: ?gs)) with (g / 256 :: g mod 256 :: group_bytes gs) in E.
  inversion Ha; inversion Hb; subst. injection E as E1 E2 E3. unfold is_group in *. f_equal; [lia|auto].
Qed.

(** ** Hextets *)
Definition e5 : list Z := repeat 0 5.
Lemma hextets_sim : forall gs done bs pre, bs = pre ++ group_bytes gs -> zlen pre = 2 * zlen done -> Forall is_group gs ->
  hextets_loop (length gs) (zlen done) bs (done ++ repeat e5 (length gs)) = Ret (done ++ map (fun g => hex4 g ++ [0]) gs).
Proof.
  induction gs as [|g gs IH]; intros done bs pre -> Hp HF; cbn [length hextets_loop repeat map]; [reflexivity|].
  inversion HF as [|? ? Hg HF']; subst. unfold is_group in Hg.
  change (group_bytes (g :: gs)) with (g / 256 :: g mod 256 :: group_bytes gs).
  rewrite rd_mid by lia. cbn [bind].
  replace (pre ++ g / 256 :: g mod 256 :: group_bytes gs) with ((pre ++ [g / 256]) ++ g mod 256 :: group_bytes gs) by (rewrite <- app_assoc; reflexivity).
  rewrite rd_mid by (autorewrite with zl; lia). cbn [bind].
  replace (w16 (Z.lor (Z.shiftl (g / 256) 8) (g mod 256))) with g.
  2:{ rewrite shl_mul by lia. rewrite (lor_add _ _ 8) by (pows; lia). unfold w16. rewrite Z.mod_small by (pows; lia). pows. lia. }
  rewrite rd_mid by reflexivity. cbn [bind]. change e5 with [0; 0; 0; 0; 0] at 1. rewrite to_hex_ok by lia. cbn [bind].
  rewrite wr_mid by reflexivity. cbn [bind].
  replace (done ++ (hex4 g ++ [0]) :: repeat e5 (length gs)) with ((done ++ [hex4 g ++ [0]]) ++ repeat e5 (length gs)) by (rewrite <- app_assoc; reflexivity).
  replace (zlen done + 1) with (zlen (done ++ [hex4 g ++ [0]])) by (autorewrite with zl; lia).
  rewrite (IH (done ++ [hex4 g ++ [0]]) _ (pre ++ [g / 256; g mod 256])).
  - rewrite <- app_assoc. reflexivity.
  - rewrite <- !app_assoc. reflexivity.
  - autorewrite with zl. lia.
  - assumption.
Qed.
Lemma hextets_ok gs : length gs = 8%nat -> Forall is_group gs ->
  hextets_loop 8 0 (group_bytes gs) (repeat (repeat 0 5) 8) = Ret (map (fun g => hex4 g ++ [0]) gs).
Proof. intros L F. pose proof (hextets_sim gs [] (group_bytes gs) [] eq_refl eq_refl F) as H. rewrite L in H. exact H. Qed.

(** Without leading zeros. *)
Definition hexmin (v : Z) : list Z :=
  if v <? 16 then [hexc v]
  else if v <? 256 then [hexc (v / 16); hexc (v mod 16)]
  else if v <? 4096 then [hexc (v / 256); hexc (v / 16 mod 16); hexc (v mod 16)]
  else hex4 v.

Lemma hexc_48 d : 0 <= d < 16 -> (hexc d =? 48) = (d =? 0).
Proof. unfold hexc. intros. destruct (Z.ltb_spec d 10); lia. Qed.

Lemma strip_ok v : is_group v -> strip_loop 3 (hex4 v ++ [0]) = Ret (hexmin v ++ repeat 0 (5 - length (hexmin v))).
Proof.
  unfold is_group. intros H. unfold hexmin, hex4. cbn [app].
  assert (S1 : forall a b c d k, strip_loop (S k) [a; b; c; d; 0] = if negb (a =? 48) then Ret [a; b; c; d; 0] else strip_loop k [b; c; d; 0; 0]) by reflexivity.
  rewrite S1, hexc_48 by lia. 
  destruct (Z.eqb_spec (v / 4096) 0) as [E3|E3]; cbn [negb].
  2:{ destruct (Z.ltb_spec v 16); [lia|]. destruct (Z.ltb_spec v 256); [lia|]. destruct (Z.ltb_spec v 4096); [lia|]. reflexivity. }
  rewrite S1, hexc_48 by lia. destruct (Z.eqb_spec (v / 256 mod 16) 0) as [E2|E2]; cbn [negb].
  2:{ destruct (Z.ltb_spec v 16); [lia|]. destruct (Z.ltb_spec v 256); [lia|]. destruct (Z.ltb_spec v 4096); [|lia].
      replace (v / 256 mod 16) with (v / 256) by lia. reflexivity. }
  rewrite S1, hexc_48 by lia. destruct (Z.eqb_spec (v / 16 mod 16) 0) as [E1|E1]; cbn [negb].
  2:{ destruct (Z.ltb_spec v 16); [lia|]. destruct (Z.ltb_spec v 256); [|lia].
      replace (v / 16 mod 16) with (v / 16) by lia. reflexivity. }
  destruct (Z.ltb_spec v 16); [|lia]. replace (v mod 16) with v by lia. reflexivity.
Qed.

(** A table entry holding a NUL-free string of at most four characters. *)
Definition entry (h p : list Z) : Prop := length h = 5%nat /\ no_nul p /\ exists r, h = p ++ 0 :: r.

Lemma strip_all_ok : forall gs done, Forall is_group gs ->
  strip_all (length gs) (zlen done) (done ++ map (fun g => hex4 g ++ [0]) gs) =
  Ret (done ++ map (fun g => hexmin g ++ repeat 0 (5 - length (hexmin g))) gs).
Proof.
  induction gs as [|g gs IH]; intros done HF; cbn [length strip_all map]; [reflexivity|].
  inversion HF as [|? ? Hg HF']; subst.
  rewrite rd_mid by reflexivity. cbn [bind]. rewrite strip_ok by assumption. cbn [bind]. rewrite wr_mid by reflexivity. cbn [bind].
  set (x := hexmin g ++ _). replace (done ++ x :: map (fun g => hex4 g ++ [0]) gs) with ((done ++ [x]) ++ map (fun g => hex4 g ++ [0]) gs) by (rewrite <- app_assoc; reflexivity).
  replace (zlen done + 1) with (zlen (done ++ [x])) by (autorewrite with zl; lia).
  rewrite IH by assumption. rewrite <- app_assoc. reflexivity.
Qed.

Lemma hexmin_len v : (1 <= length (hexmin v) <= 4)%nat.
Proof. unfold hexmin. destruct (v <? 16), (v <? 256), (v <? 4096); cbn; lia. Qed.
Lemma hexmin_chars v : is_group v -> Forall (fun c => exists d, 0 <= d < 16 /\ c = hexc d) (hexmin v).
Proof.
  unfold is_group. intros H. unfold hexmin, hex4.
  destruct (Z.ltb_spec v 16), (Z.ltb_spec v 256), (Z.ltb_spec v 4096); repeat constructor; eexists; (split; [|reflexivity]); lia.
Qed.
Lemma hexmin_nul v : is_group v -> no_nul (hexmin v).
Proof. intros H C. apply hexmin_chars in H. rewrite Forall_forall in H. destruct (H 0 C) as (d & Hd & E). symmetry in E. apply hexc_not0 in E; assumption. Qed.
Lemma hex4_nul v : is_group v -> no_nul (hex4 v).
Proof. intros H. unfold no_nul. rewrite <- (proj2 (holds_hex v H)). apply cut_no0. Qed.

Lemma entry_hex4 g : is_group g -> entry (hex4 g ++ [0]) (hex4 g).
Proof. intros H. split; [reflexivity|]. split; [apply hex4_nul; assumption|]. exists []. reflexivity. Qed.
Lemma entry_hexmin g : is_group g -> entry (hexmin g ++ repeat 0 (5 - length (hexmin g))) (hexmin g).
Proof.
  intros H. pose proof (hexmin_len g). split; [rewrite app_length, repeat_length; lia|]. split; [apply hexmin_nul; assumption|].
  destruct (5 - length (hexmin g))%nat eqn:E; [lia|]. eexists. reflexivity.
Qed.
Lemma entry_len h p : entry h p -> (length p <= 4)%nat.
Proof. intros (L & _ & r & ->). rewrite app_length in L. cbn [length] in L. lia. Qed.

(** ** Writing *)
Lemma put_hextet_ok K : forall p x r k pre, no_nul p -> zlen pre + zlen p <= K -> (length p <= k)%nat ->
  put_hextet k (zlen x) (x ++ p ++ 0 :: r) (buf K pre) (zlen pre) = Ret (buf K (pre ++ p), zlen (pre ++ p)).
Proof.
  induction p as [|c p IH]; intros x r k pre Hn Hl Hk.
  - destruct k; cbn [put_hextet app]; rewrite rd_mid by reflexivity; cbn [bind]; change (0 =? 0) with true; cbn iota; rewrite app_nil_r; reflexivity.
  - destruct k as [|k]; [cbn in Hk; lia|]. cbn [put_hextet app]. rewrite rd_mid by reflexivity. cbn [bind].
    destruct (Z.eqb_spec c 0) as [->|]; [exfalso; apply Hn; left; reflexivity|].
    autorewrite with zl in Hl. pose proof (zlen_nonneg p).
    rewrite wr_buf by lia. cbn [bind].
    replace (x ++ c :: p ++ 0 :: r) with ((x ++ [c]) ++ p ++ 0 :: r) by (rewrite <- app_assoc; reflexivity).
    replace (zlen x + 1) with (zlen (x ++ [c])) by (autorewrite with zl; lia).
    replace (zlen pre + 1) with (zlen (pre ++ [c])) by (autorewrite with zl; lia).
    rewrite IH; [rewrite <- app_assoc; reflexivity|intros C; apply Hn; right; assumption|autorewrite with zl; lia|cbn in Hk; lia].
Qed.
Lemma put_entry K h p pre : entry h p -> zlen pre + zlen p <= K ->
  put_hextet 5 0 h (buf K pre) (zlen pre) = Ret (buf K (pre ++ p), zlen (pre ++ p)).
Proof.
  intros HE Hl. pose proof (entry_len _ _ HE). destruct HE as (_ & Hn & r & ->).
  apply (put_hextet_ok K p [] r 5 pre); [assumption..|lia].
Qed.

Lemma flat_len d : Forall (fun p => (length p <= 4)%nat) d -> zlen (flat d) <= 5 * zlen d.
Proof.
  induction 1 as [|p d Hp _ IH]; [cbn; lia|]. change (flat (p :: d)) with ((p ++ [58]) ++ flat d).
  autorewrite with zl. unfold zlen in *. lia.
Qed.
Lemma put_hextets_ok K : forall es hs post x pre, Forall2 entry hs es -> zlen pre + 5 * zlen es <= K ->
  put_hextets (length es) (zlen x) (x ++ hs ++ post) (buf K pre) (zlen pre) = Ret (buf K (pre ++ flat es), zlen (pre ++ flat es)).
Proof.
  induction es as [|p es IH]; intros hs post x pre HF Hl.
  - cbn. rewrite app_nil_r. reflexivity.
  - inversion HF as [|h ? hs' ? HE HF']; subst. cbn [length put_hextets app]. rewrite rd_mid by reflexivity. cbn [bind].
    pose proof (entry_len _ _ HE). autorewrite with zl in Hl. pose proof (zlen_nonneg es).
    rewrite (put_entry K h p) by (assumption || unfold zlen in *; lia). cbn [bind].
    rewrite wr_buf by (autorewrite with zl; unfold zlen in *; lia). cbn [bind].
    replace (x ++ h :: hs' ++ post) with ((x ++ [h]) ++ hs' ++ post) by (rewrite <- app_assoc; reflexivity).
    replace (zlen x + 1) with (zlen (x ++ [h])) by (autorewrite with zl; lia).
    replace (zlen (pre ++ p) + 1) with (zlen ((pre ++ p) ++ [58])) by (autorewrite with zl; lia).
    rewrite IH by (assumption || autorewrite with zl; unfold zlen in *; lia).
    change (flat (p :: es)) with ((p ++ [58]) ++ flat es). rewrite <- !app_assoc. reflexivity.
Qed.

Definition opt (b : bool) : list Z := if b then [58] else [].
Lemma put_ok K b pre : zlen pre < K -> put b 58 (buf K pre) (zlen pre) = Ret (buf K (pre ++ opt b), zlen (pre ++ opt b)).
Proof.
  intros H. unfold put, opt. destruct b; [|rewrite app_nil_r; reflexivity].
  rewrite wr_buf by lia. cbn [bind]. autorewrite with zl. do 2 f_equal.
Qed.

(** The tail of ip_to_chars from a table holding the strings [es]. *)
Definition emit (K : Z) (hextets : list (list Z)) (count : Z) (dc_start dc_end : bool) (scope_id : list Z) : res (list Z * Z) :=
  '(result, offset) <- put dc_start 58 (repeat 0 (Z.to_nat K)) 0 ;;
  '(result, offset) <- put_hextets (Z.to_nat (count - 1)) 0 hextets result offset ;;
  h <- rd hextets (count - 1) ;;
  '(result, offset) <- put_hextet 5 0 h result offset ;;
  '(result, offset) <- put dc_end 58 result offset ;;
  '(result, offset) <-
    (if negb (zlen scope_id =? 0) then
       result <- wr result offset 37 ;;
       copy_chars (length scope_id) 0 scope_id result (offset + 1)
     else Ret (result, offset)) ;;
  result <- wr result offset 0 ;;
  Ret (result, offset).

Lemma emit_ok K hs es post count bs be scope :
  Forall2 entry hs es -> es <> [] -> count = zlen es -> 5 * zlen es + zlen (opt bs) + zlen (opt be) <= 41 -> zlen scope + 42 <= K ->
  let text := opt bs ++ join es ++ opt be ++ scope_suffix scope in
  emit K (hs ++ post) count bs be scope = Ret (buf K (text ++ [0]), zlen text) /\ zlen text <= K - 1.
Proof.
  intros HF Hne -> Hl Hsc. destruct es as [|p es _] using rev_ind; [contradiction|].
  destruct hs as [|h hs _] using rev_ind; [apply Forall2_length in HF; rewrite app_length in HF; cbn in HF; lia|].
  apply Forall2_app_inv_l in HF as (e1 & e2 & F1 & F2 & E). inversion F2 as [|? p' ? e2' HE F2' ]; subst.
  inversion F2'; subst. apply app_inj_tail in E as [-> ->].
  rewrite join_flat. intros text. autorewrite with zl in Hl.
  assert (L4 : Forall (fun q => (length q <= 4)%nat) e1).
  { clear -F1. induction F1 as [|? ? ? ? H]; constructor; [eapply entry_len; eassumption|assumption]. }
  pose proof (flat_len e1 L4) as Lf. pose proof (entry_len _ _ HE) as Lp. pose proof (zlen_nonneg e1).
  assert (zlen text <= K - 1) as Lt.
  { unfold text. autorewrite with zl. assert (zlen (scope_suffix scope) <= zlen scope + 1).
    { destruct scope; [cbn; lia|]. cbn [scope_suffix]. autorewrite with zl in *. lia. }
    unfold zlen in *. lia. }
  split; [|assumption]. unfold emit.
  replace (Z.to_nat (zlen (e1 ++ [p']) - 1)) with (length e1) by (unfold zlen; rewrite app_length; cbn [length]; lia).
  replace (zlen (e1 ++ [p']) - 1) with (zlen hs) by (apply Forall2_length in F1; unfold zlen; rewrite app_length; cbn [length]; lia).
  replace (repeat 0 (Z.to_nat K)) with (buf K []) by (unfold buf; cbn [app length]; rewrite Nat.sub_0_r; reflexivity). change (put bs 58 (buf K []) 0) with (put bs 58 (buf K []) (zlen (@nil Z))).
  assert (Lo : forall b, 0 <= zlen (opt b) <= 1) by (intros []; cbn; lia).
  pose proof (Lo bs). pose proof (Lo be).
  pose proof (zlen_nonneg scope).
  rewrite put_ok by (change (zlen (@nil Z)) with 0; lia). cbn [bind app].
  replace ((hs ++ [h]) ++ post) with (hs ++ h :: post) by (rewrite <- app_assoc; reflexivity).
  pose proof (put_hextets_ok K e1 hs (h :: post) [] (opt bs) F1 ltac:(lia)) as P1. cbn [app] in P1. change (zlen (@nil (list Z))) with 0 in P1.
  rewrite P1. cbn [bind]. rewrite rd_mid by reflexivity. cbn [bind].
  rewrite (put_entry K h p') by (assumption || autorewrite with zl; unfold zlen in *; lia). cbn [bind].
  rewrite put_ok by (autorewrite with zl; unfold zlen in *; lia). cbn [bind].
  set (pre := ((opt bs ++ flat e1) ++ p') ++ opt be).
  assert (text = pre ++ scope_suffix scope) as Et by (unfold text, pre; rewrite <- !app_assoc; reflexivity).
  rewrite Et in *. clearbody pre. clear Et text.
  destruct scope as [|c sc].
  - cbn [scope_suffix]. rewrite app_nil_r in *. change (negb (zlen (@nil Z) =? 0)) with false. cbn iota. cbn [bind].
    rewrite wr_buf by lia. reflexivity.
  - assert (negb (zlen (c :: sc) =? 0) = true) as -> by (autorewrite with zl; pose proof (zlen_nonneg sc); lia).
    cbn [scope_suffix] in *. set (scope := c :: sc) in *. autorewrite with zl in Lt. pose proof (zlen_nonneg scope).
    rewrite wr_buf by lia. cbn [bind].
    pose proof (copy_chars_buf scope [] [] K (pre ++ [37]) 0 (zlen pre + 1) eq_refl) as Cc.
    rewrite app_nil_r in Cc. cbn [app] in Cc. rewrite Cc by (autorewrite with zl; lia). cbn [bind].
    rewrite wr_buf by (autorewrite with zl; lia). cbn [bind].
    replace (zlen (pre ++ [37]) + zlen scope) with (zlen (pre ++ 37 :: scope)) by (autorewrite with zl; lia).
    rewrite <- !app_assoc. reflexivity.
Qed.

(** ** The longest run of zero groups *)
Fixpoint run_abs (m : list bool) (i best_len best_start len start : Z) : Z * Z :=
  match m with
  | [] => (best_len, best_start)
  | z :: m' =>
      if z then
        let len := len + 1 in
        let start := if start =? -1 then i else start in
        if len >? best_len then run_abs m' (i + 1) len start len start
        else run_abs m' (i + 1) best_len best_start len start
      else run_abs m' (i + 1) best_len best_start 0 (-1)
  end.

Lemma hexmin_zero g : is_group g -> exists c r, hexmin g ++ repeat 0 (5 - length (hexmin g)) = c :: r /\ (c =? 48) = (g =? 0).
Proof.
  unfold is_group. intros H. unfold hexmin, hex4.
  destruct (Z.ltb_spec g 16); [|destruct (Z.ltb_spec g 256); [|destruct (Z.ltb_spec g 4096)]];
    (do 2 eexists; split; [reflexivity|]); rewrite hexc_48 by lia; lia.
Qed.
Definition min_entry (g : Z) : list Z := hexmin g ++ repeat 0 (5 - length (hexmin g)).

Lemma run_loop_sim : forall gs x i bl bs l s, Forall is_group gs -> i = zlen x ->
  run_loop (length gs) i (x ++ map min_entry gs) bl bs l s = Ret (run_abs (map (fun g => g =? 0) gs) i bl bs l s).
Proof.
  induction gs as [|g gs IH]; intros x i bl bs l s HF ->; cbn [length run_loop map run_abs]; [reflexivity|].
  inversion HF as [|? ? Hg HF']; subst. rewrite rd_mid by reflexivity. cbn [bind].
  destruct (hexmin_zero g Hg) as (c & r & E & Ec). fold (min_entry g) in E. rewrite E.
  change (rd (c :: r) 0) with (Ret c). cbn [bind]. rewrite Ec, <- E.
  replace (x ++ min_entry g :: map min_entry gs) with ((x ++ [min_entry g]) ++ map min_entry gs) by (rewrite <- app_assoc; reflexivity).
  assert (zlen x + 1 = zlen (x ++ [min_entry g])) as Ez by (autorewrite with zl; lia).
  cbv zeta. destruct (g =? 0); [|apply IH; assumption]. destruct (l + 1 >? bl); apply IH; assumption.
Qed.

(** Checked on all 256 patterns: no run of two, or the leftmost longest run. *)
Definition seg (m : list bool) (i n : nat) : bool := (i + n <=? 8)%nat && forallb (fun b => b) (firstn n (skipn i m)).
Definition best_okb (m : list bool) : bool :=
  let '(bl, bs) := run_abs m 0 0 (-1) 0 (-1) in
  let k := Z.to_nat bl in let j := Z.to_nat bs in
  if bl >? 1 then
    (0 <=? bs) && (bl <=? 8) && seg m j k &&
    forallb (fun i => forallb (fun n => negb (seg m i n) || ((n <? k)%nat || (n =? k)%nat && (j <=? i)%nat)) (seq 0 9)) (seq 0 9)
  else forallb (fun i => forallb (fun n => negb (seg m i n) || (n <=? 1)%nat) (seq 0 9)) (seq 0 9).
Fixpoint masks (n : nat) : list (list bool) :=
  match n with O => [[]] | S n' => map (cons true) (masks n') ++ map (cons false) (masks n') end.
Lemma in_masks m : In m (masks (length m)).
Proof. induction m as [|b m IH]; [left; reflexivity|]. cbn. apply in_app_iff. destruct b; [left|right]; apply in_map; assumption. Qed.
Lemma best_all : forallb best_okb (masks 8) = true.
Proof. vm_compute. reflexivity. Qed.

Lemma seg_true m i n : length m = 8%nat -> seg m i n = true ->
  exists a b, m = a ++ repeat true n ++ b /\ length a = i.
Proof.
  intros L H. unfold seg in H. apply andb_true_iff in H as [H1 H2]. apply Nat.leb_le in H1.
  exists (firstn i m), (skipn n (skipn i m)). split.
  - rewrite <- (firstn_skipn i m) at 1. f_equal. rewrite <- (firstn_skipn n (skipn i m)) at 1. f_equal.
    rewrite forallb_forall in H2. assert (length (firstn n (skipn i m)) = n) as Ln by (rewrite firstn_length, skipn_length; lia).
    revert Ln H2. generalize (firstn n (skipn i m)). clear. induction n as [|n IH]; intros [|b l] Ln H; try discriminate; [reflexivity|].
    cbn [repeat]. f_equal; [apply H; left; reflexivity|]. apply IH; [cbn in Ln; lia|]. intros x Hx. apply H. right. assumption.
  - rewrite firstn_length. lia.
Qed.
Lemma seg_of m a n b : m = a ++ repeat true n ++ b -> length m = 8%nat -> seg m (length a) n = true.
Proof.
  intros -> L. rewrite !app_length, repeat_length in L. unfold seg. apply andb_true_iff. split; [apply Nat.leb_le; lia|].
  rewrite skipn_app, skipn_all, Nat.sub_diag. cbn [skipn app]. rewrite firstn_app, repeat_length, Nat.sub_diag. cbn [firstn]. rewrite app_nil_r.
  rewrite firstn_all2 by (rewrite repeat_length; lia). clear. induction n; [reflexivity|assumption].
Qed.

Lemma zero_mask_repeat n : map (fun g => g =? 0) (repeat 0 n) = repeat true n.
Proof. induction n; [reflexivity|]. cbn. f_equal. assumption. Qed.
Lemma zero_mask_inv : forall gs a n b, map (fun g => g =? 0) gs = a ++ repeat true n ++ b ->
  exists ga gb, gs = ga ++ repeat 0 n ++ gb /\ length ga = length a /\ length gb = length b.
Proof.
  intros gs a n b E.
  assert (T : forall (gs : list Z) (x y : list bool), map (fun g => g =? 0) gs = x ++ y -> exists gx gy, gs = gx ++ gy /\ map (fun g => g =? 0) gx = x /\ map (fun g => g =? 0) gy = y).
  { clear. intros gs x. revert gs. induction x as [|u x IH]; intros gs y E; [exists [], gs; auto|].
    destruct gs as [|g gs]; [discriminate|]. cbn in E. injection E as <- E. destruct (IH gs y E) as (gx & gy & -> & <- & <-).
    exists (g :: gx), gy. auto. }
  apply T in E as (ga & gr & -> & <- & E). apply T in E as (gz & gb & -> & E & <-).
  exists ga, gb. split; [|rewrite !map_length; auto]. do 2 f_equal. clear -E. revert gz E.
  induction n as [|n IH]; intros [|g gz] E; try discriminate; [reflexivity|]. cbn in E. injection E as Eg E.
  cbn. f_equal; [lia|auto].
Qed.

Lemma best_spec gs bl bs : length gs = 8%nat -> run_abs (map (fun g => g =? 0) gs) 0 0 (-1) 0 (-1) = (bl, bs) ->
  (bl <= 1 /\ forall a n b, gs = a ++ repeat 0 n ++ b -> (n <= 1)%nat) \/
  (exists a n b, gs = a ++ repeat 0 n ++ b /\ (2 <= n)%nat /\ bl = Z.of_nat n /\ bs = zlen a /\
     forall a' n' b', gs = a' ++ repeat 0 n' ++ b' -> (n' <= n)%nat /\ (n' = n -> (length a <= length a')%nat)).
Proof.
  intros L E. set (m := map (fun g => g =? 0) gs) in *.
  assert (Lm : length m = 8%nat) by (unfold m; rewrite map_length; assumption).
  pose proof (in_masks m) as I. rewrite Lm in I.
  pose proof best_all as B. rewrite forallb_forall in B. apply B in I. unfold best_okb in I. rewrite E in I. clear B E.
  assert (Sg : forall a n b, gs = a ++ repeat 0 n ++ b -> seg m (length a) n = true /\ (length a < 9)%nat /\ (n < 9)%nat).
  { intros a n b Eg. split.
    - rewrite <- (map_length (fun g => g =? 0) a). apply (seg_of m _ n (map (fun g => g =? 0) b)); [|assumption].
      unfold m. rewrite Eg, !map_app, zero_mask_repeat. reflexivity.
    - rewrite Eg, !app_length, repeat_length in L. lia. }
  destruct (Z.gtb_spec bl 1) as [G|G].
  - right. apply andb_true_iff in I as [I HA]. apply andb_true_iff in I as [I HS]. apply andb_true_iff in I as [I1 I2].
    apply Z.leb_le in I1, I2. destruct (seg_true m _ _ Lm HS) as (ma & mb & Em & Ea).
    destruct (zero_mask_inv gs ma _ mb Em) as (a & b & Eg & La & Lb).
    exists a, (Z.to_nat bl), b. split; [assumption|]. split; [lia|]. split; [lia|]. split; [unfold zlen; lia|].
    intros a' n' b' Eg'. destruct (Sg a' n' b' Eg') as (S' & La' & Ln').
    rewrite forallb_forall in HA. specialize (HA (length a') ltac:(apply in_seq; lia)).
    rewrite forallb_forall in HA. specialize (HA n' ltac:(apply in_seq; lia)). rewrite S' in HA. cbn [negb orb] in HA.
    rewrite La, Ea. lia.
  - left. split; [lia|]. intros a n b Eg. destruct (Sg a n b Eg) as (S' & La' & Ln').
    rewrite forallb_forall in I. specialize (I (length a) ltac:(apply in_seq; lia)).
    rewrite forallb_forall in I. specialize (I n ltac:(apply in_seq; lia)). rewrite S' in I. cbn [negb orb] in I. lia.
Qed.

(** ** Compression *)
Definition blank_shift (hextets : list (list Z)) (i n : Z) : res (list (list Z)) :=
  h <- rd hextets i ;; h <- wr h 0 0 ;; hextets <- wr hextets i h ;; shift_loop 8 i n hextets.
Definition four (h : list Z) : Prop := exists a b c d, h = [a; b; c; d; 0].

Lemma shift_ok hs i n : length hs = 8%nat -> Forall four hs -> (2 <= n)%nat -> (i + n <= 8)%nat ->
  exists r post, blank_shift hs (Z.of_nat i) (Z.of_nat n) = Ret (firstn i hs ++ (0 :: r) :: skipn (i + n) hs ++ post) /\ length r = 4%nat.
Proof.
  intros L F Hn Hi. do 8 (destruct hs as [|? hs]; [discriminate|]). destruct hs; [|discriminate].
  repeat match goal with H : Forall four (_ :: _) |- _ => inversion H; clear H; subst end.
  repeat match goal with H : four _ |- _ => destruct H as (? & ? & ? & ? & ->) end.
  assert (Hc : In (i, n) (flat_map (fun i => map (pair i) (filter (fun n => (i + n <=? 8)%nat) (seq 2 7))) (seq 0 8))).
  { apply in_flat_map. exists i. split; [apply in_seq; lia|]. apply in_map. apply filter_In. split; [apply in_seq; lia|apply Nat.leb_le; lia]. }
  cbv [flat_map seq map filter Nat.leb Nat.add app In] in Hc.
  repeat (destruct Hc as [Hc|Hc]; [injection Hc as <- <-; do 2 eexists; (split; [reflexivity|reflexivity])|]). contradiction.
Qed.

Lemma min_entry_four g : four (min_entry g).
Proof.
  unfold min_entry, hexmin, hex4. destruct (g <? 16), (g <? 256), (g <? 4096); repeat eexists.
Qed.
Lemma min_entries gs : Forall is_group gs -> Forall2 entry (map min_entry gs) (map hexmin gs).
Proof. induction 1; cbn [map]; constructor; [apply entry_hexmin; assumption|assumption]. Qed.
Lemma full_entries gs : Forall is_group gs -> Forall2 entry (map (fun g => hex4 g ++ [0]) gs) (map hex4 gs).
Proof. induction 1; cbn [map]; constructor; [apply entry_hex4; assumption|assumption]. Qed.

(** The text written in each format. *)
Definition fmt_text (fmt : format) (gs t : list Z) : Prop :=
  match fmt with
  | full => t = join (map hex4 gs)
  | compact => t = join (map hexmin gs)
  | compressed =>
      (t = join (map hexmin gs) /\ forall a n b, gs = a ++ repeat 0 n ++ b -> (n <= 1)%nat) \/
      (exists a n b, gs = a ++ repeat 0 n ++ b /\ (2 <= n)%nat /\
        (forall a' n' b', gs = a' ++ repeat 0 n' ++ b' -> (n' <= n)%nat /\ (n' = n -> (length a <= length a')%nat)) /\
        t = join (map hexmin a) ++ [58; 58] ++ join (map hexmin b))
  end.

Lemma v6_to_chars_c_ok g gs scope fmt : length gs = 8%nat -> Forall is_group gs -> zlen scope <= c_max g ->
  exists t, fmt_text fmt gs t /\
    v6_to_chars_c g (group_bytes gs) scope fmt = Ret (buf (41 + c_max g + 1) ((t ++ scope_suffix scope) ++ [0]), zlen (t ++ scope_suffix scope)) /\
    zlen (t ++ scope_suffix scope) <= 41 + c_max g.
Proof.
  intros L HF Hs'. assert (zlen scope + 42 <= 41 + c_max g + 1) as Hs by lia. unfold v6_to_chars_c. rewrite hextets_ok by assumption. cbn [bind].
  assert (Strip : strip_all 8 0 (map (fun g => hex4 g ++ [0]) gs) = Ret (map min_entry gs)).
  { pose proof (strip_all_ok gs [] HF) as S. rewrite L in S. exact S. }
  assert (L5 : forall f : Z -> list Z, zlen (map f gs) = 8) by (intros; unfold zlen; rewrite map_length, L; reflexivity).
  assert (Ne : forall f : Z -> list Z, map f gs <> []) by (intros f C; apply (f_equal (@length _)) in C; rewrite map_length, L in C; discriminate).
  destruct fmt; cbn [fmt_text].
  - (* full *) cbn [bind].
    exists (join (map hex4 gs)). split; [reflexivity|].
    pose proof (emit_ok (41 + c_max g + 1) _ _ [] 8 false false scope (full_entries gs HF) (Ne _) ltac:(rewrite L5; reflexivity) ltac:(rewrite L5; cbn; lia) Hs) as E.
    cbv zeta in E. cbn [opt app] in E. rewrite app_nil_r in E. replace (41 + c_max g + 1 - 1) with (41 + c_max g) in E by lia; exact E.
  - (* compact *) rewrite Strip. cbn [bind].
    exists (join (map hexmin gs)). split; [reflexivity|].
    pose proof (emit_ok (41 + c_max g + 1) _ _ [] 8 false false scope (min_entries gs HF) (Ne _) ltac:(rewrite L5; reflexivity) ltac:(rewrite L5; cbn; lia) Hs) as E.
    cbv zeta in E. cbn [opt app] in E. rewrite app_nil_r in E. replace (41 + c_max g + 1 - 1) with (41 + c_max g) in E by lia; exact E.
  - (* compressed *) rewrite Strip. cbn [bind]. unfold compress.
    pose proof (run_loop_sim gs [] 0 0 (-1) 0 (-1) HF eq_refl) as R. rewrite L in R. cbn [app] in R. rewrite R. cbn [bind]. clear R.
    destruct (run_abs (map (fun g => g =? 0) gs) 0 0 (-1) 0 (-1)) as [bl bs] eqn:ER.
    destruct (best_spec gs bl bs L ER) as [[Hbl Hno]|(a & n & b & Eg & Hn & -> & -> & Hbest)].
    + destruct (Z.gtb_spec bl 1); [lia|]. cbn [bind]. exists (join (map hexmin gs)). split; [left; auto|].
      pose proof (emit_ok (41 + c_max g + 1) _ _ [] 8 false false scope (min_entries gs HF) (Ne _) ltac:(rewrite L5; reflexivity) ltac:(rewrite L5; cbn; lia) Hs) as E.
      cbv zeta in E. cbn [opt app] in E. rewrite app_nil_r in E. replace (41 + c_max g + 1 - 1) with (41 + c_max g) in E by lia; exact E.
    + destruct (Z.gtb_spec (Z.of_nat n) 1); [|lia].
      assert (Lab : (length a + n + length b = 8)%nat) by (rewrite Eg, !app_length, repeat_length in L; lia).
      destruct (shift_ok (map min_entry gs) (length a) n) as (r & post & Sh & Lr);
        [rewrite map_length; assumption|apply Forall_map, Forall_forall; intros; apply min_entry_four|assumption|lia|].
      unfold blank_shift in Sh. change (Z.of_nat (length a)) with (zlen a) in Sh.
      destruct (rd (map min_entry gs) (zlen a)) as [h| |]; try discriminate Sh. cbn [bind] in Sh |- *.
      destruct (wr h 0 0) as [h'| |]; try discriminate Sh. cbn [bind] in Sh |- *.
      destruct (wr (map min_entry gs) (zlen a) h') as [hs| |]; try discriminate Sh. cbn [bind] in Sh |- *.
      rewrite Sh. cbn [bind]. clear Sh.
      exists (join (map hexmin a) ++ [58; 58] ++ join (map hexmin b)). split; [right; exists a, n, b; auto|].
      assert (Fn : firstn (length a) (map min_entry gs) = map min_entry a).
      { rewrite Eg, map_app, firstn_app, firstn_all2 by (rewrite map_length; lia). rewrite map_length, Nat.sub_diag. apply app_nil_r. }
      assert (Sn : skipn (length a + n) (map min_entry gs) = map min_entry b).
      { rewrite Eg, app_assoc, map_app, skipn_app, skipn_all2 by (rewrite map_length, app_length, repeat_length; lia).
        rewrite map_length, app_length, repeat_length, Nat.sub_diag. reflexivity. }
      rewrite Fn, Sn. clear Fn Sn.
      assert (is_a : Forall is_group a /\ Forall is_group b).
      { rewrite Eg in HF. apply Forall_app in HF as [? HF]. apply Forall_app in HF as [_ ?]. auto. }
      destruct is_a as [Fa Fb].
      set (es := map hexmin a ++ [] :: map hexmin b).
      assert (Fe : Forall2 entry (map min_entry a ++ (0 :: r) :: map min_entry b) es).
      { apply Forall2_app; [apply min_entries; assumption|]. constructor; [|apply min_entries; assumption].
        split; [cbn; lia|]. split; [intros []|]. exists r. reflexivity. }
      assert (Lz : zlen es = 8 - (Z.of_nat n - 1)).
      { unfold es, zlen. rewrite app_length. cbn [length]. rewrite !map_length. lia. }
      replace (map min_entry a ++ (0 :: r) :: map min_entry b ++ post) with
        ((map min_entry a ++ (0 :: r) :: map min_entry b) ++ post) by (rewrite <- app_assoc; reflexivity).
      assert (Lo : forall x, zlen (opt x) <= 1) by (intros []; cbn; lia).
      pose proof (Lo (zlen a =? 0)). pose proof (Lo (zlen a + Z.of_nat n =? 8)).
      pose proof (emit_ok (41 + c_max g + 1) _ _ post (8 - (Z.of_nat n - 1)) (zlen a =? 0) (zlen a + Z.of_nat n =? 8) scope Fe
        ltac:(unfold es; destruct a; discriminate) (eq_sym Lz) ltac:(lia) Hs) as E. cbv zeta in E.
      replace ((join (map hexmin a) ++ [58; 58] ++ join (map hexmin b)) ++ scope_suffix scope)
        with (opt (zlen a =? 0) ++ join es ++ opt (zlen a + Z.of_nat n =? 8) ++ scope_suffix scope); [replace (41 + c_max g + 1 - 1) with (41 + c_max g) in E by lia; exact E|].
      rewrite !app_assoc. f_equal. unfold es.
      destruct a as [|x a]; destruct b as [|y b]; cbn [map app length] in *.
      * assert (n = 8)%nat as -> by lia. reflexivity.
      * change (zlen (@nil Z) =? 0) with true. destruct (Z.eqb_spec (zlen (@nil Z) + Z.of_nat n) 8) as [C|C]; [cbn in C; lia|].
        rewrite (join_cons []) by discriminate. cbn [opt app]. rewrite !app_nil_r. reflexivity.
      * assert (zlen (x :: a) =? 0 = false) as -> by (unfold zlen; cbn [length]; lia).
        assert (zlen (x :: a) + Z.of_nat n =? 8 = true) as -> by (unfold zlen; cbn [length]; lia).
        change (hexmin x :: map hexmin a ++ [[]]) with ((hexmin x :: map hexmin a) ++ [[]]).
        rewrite join_app by discriminate. cbn [opt join app]. rewrite <- !app_assoc. reflexivity.
      * assert (zlen (x :: a) =? 0 = false) as -> by (unfold zlen; cbn [length]; lia).
        assert (zlen (x :: a) + Z.of_nat n =? 8 = false) as -> by (unfold zlen; cbn [length]; lia).
        change (hexmin x :: map hexmin a ++ [] :: hexmin y :: map hexmin b) with ((hexmin x :: map hexmin a) ++ [] :: hexmin y :: map hexmin b).
        rewrite join_app by discriminate. rewrite (join_cons []) by discriminate. cbn [opt app]. rewrite !app_nil_r, <- !app_assoc. reflexivity.
Qed.

Lemma v6_to_chars_ok gs scope fmt : length gs = 8%nat -> Forall is_group gs -> zlen scope <= 16 ->
  exists t, fmt_text fmt gs t /\
    v6_to_chars (group_bytes gs) scope fmt = Ret (buf 58 ((t ++ scope_suffix scope) ++ [0]), zlen (t ++ scope_suffix scope)) /\
    zlen (t ++ scope_suffix scope) <= 57.
Proof. exact (v6_to_chars_c_ok default_config gs scope fmt). Qed.

Lemma v6_to_string_ok gs scope fmt : length gs = 8%nat -> Forall is_group gs -> zlen scope <= 16 ->
  exists t, fmt_text fmt gs t /\ v6_to_string (group_bytes gs) scope fmt = Ret (t ++ scope_suffix scope).
Proof.
  intros L HF Hs. destruct (v6_to_chars_ok gs scope fmt L HF Hs) as (t & Ht & E & Hl). exists t. split; [assumption|].
  unfold v6_to_string. rewrite E. cbn [bind]. set (x := t ++ scope_suffix scope) in *.
  rewrite zlen_buf by (autorewrite with zl; lia). destruct (Z.leb_spec (zlen x) 58); [|lia].
  rewrite to_nat_zlen. f_equal. unfold buf. rewrite <- app_assoc, firstn_app, firstn_all, Nat.sub_diag. apply app_nil_r.
Qed.

(** ** Against the specification of the formats *)
Lemma hexc_digit d : 0 <= d < 16 -> digit_char 16 (hexc d) d.
Proof. intros H. unfold digit_char, hexc. destruct (Z.ltb_spec d 10); lia. Qed.
Lemma hexmin_numeral v : is_group v -> numeral 16 (hexmin v) v.
Proof.
  unfold is_group. intros H. unfold hexmin, numeral.
  destruct (Z.ltb_spec v 16); [|destruct (Z.ltb_spec v 256); [|destruct (Z.ltb_spec v 4096)]].
  - exists [v]. split; [constructor; [apply hexc_digit; lia|constructor]|]. split; [discriminate|]. split; [reflexivity|cbn; lia].
  - exists [v / 16; v mod 16]. split; [repeat (apply Forall2_cons; [apply hexc_digit; lia|]); apply Forall2_nil|].
    split; [discriminate|]. cbn [hd horner]. split; lia.
  - exists [v / 256; v / 16 mod 16; v mod 16]. split; [repeat (apply Forall2_cons; [apply hexc_digit; lia|]); apply Forall2_nil|].
    split; [discriminate|]. cbn [hd horner]. split; lia.
  - exists [v / 4096; v / 256 mod 16; v / 16 mod 16; v mod 16]. split; [repeat (apply Forall2_cons; [apply hexc_digit; lia|]); apply Forall2_nil|].
    split; [discriminate|]. cbn [hd horner]. split; lia.
Qed.
Lemma hex4_padded v : is_group v -> padded_group (hex4 v) v.
Proof.
  unfold is_group. intros H. exists [v / 4096; v / 256 mod 16; v / 16 mod 16; v mod 16].
  split; [repeat (apply Forall2_cons; [apply hexc_digit; lia|]); apply Forall2_nil|]. split; [reflexivity|cbn [horner]; lia].
Qed.
Lemma map_forall2 (f : Z -> list Z) (R : list Z -> Z -> Prop) gs : (forall g, is_group g -> R (f g) g) -> Forall is_group gs -> Forall2 R (map f gs) gs.
Proof. intros H. induction 1; constructor; auto. Qed.

Lemma fmt_spec fmt gs t : Forall is_group gs -> fmt_text fmt gs t -> text_in fmt gs t.
Proof.
  intros HF. destruct fmt; cbn [fmt_text text_in].
  - intros ->. exists (map hex4 gs). split; [apply map_forall2; [exact hex4_padded|assumption]|reflexivity].
  - intros ->. exists (map hexmin gs). split; [apply map_forall2; [exact hexmin_numeral|assumption]|reflexivity].
  - intros [[-> H]|(a & n & b & E & Hn & Hb & ->)].
    + left. split; [|assumption]. exists (map hexmin gs). split; [apply map_forall2; [exact hexmin_numeral|assumption]|reflexivity].
    + right. exists a, n, b, (join (map hexmin a)), (join (map hexmin b)). split; [assumption|]. split; [assumption|]. split; [assumption|].
      rewrite E in HF. apply Forall_app in HF as [Fa HF]. apply Forall_app in HF as [_ Fb].
      split; [|split; [|reflexivity]]; eexists; (split; [apply map_forall2; [exact hexmin_numeral|eassumption]|reflexivity]).
Qed.

Lemma digits_hex s ds : digits_of 16 s ds -> Forall2 hex_char s ds.
Proof. apply Forall2_impl. unfold digit_char, hex_char. intros; lia. Qed.
Lemma hexmin_group v : is_group v -> hex_group (hexmin v) v.
Proof.
  intros H. pose proof (hexmin_len v). destruct (hexmin_numeral v H) as (ds & Hd & _ & _ & E).
  split; [unfold zlen; lia|]. exists ds. split; [apply digits_hex; assumption|symmetry; assumption].
Qed.

Lemma fmt_v6_text fmt gs t : length gs = 8%nat -> Forall is_group gs -> fmt_text fmt gs t -> v6_text t gs /\ ~ In 46 t.
Proof.
  intros L HF Ht.
  assert (G : forall f l, (forall g, is_group g -> hex_group (f g) g) -> Forall is_group l -> groups_text (join (map f l)) l /\ ~ In 46 (join (map f l))).
  { intros f l Hf Hl. pose proof (map_forall2 f hex_group l Hf Hl) as F. split; [eexists; split; [exact F|reflexivity]|].
    assert (Forall (fun c => c <> 46) (join (map f l))) as A.
    { apply join_chars; [lia|]. clear -F. induction F as [|p v ts vs H _ IH]; constructor; [|assumption].
      apply hex_group_chars in H. eapply Forall_impl; [|exact H]. intros; cbn in *; lia. }
    intros C. rewrite Forall_forall in A. apply A in C. contradiction. }
  assert (G4 : forall g, is_group g -> hex_group (hex4 g) g) by (intros g Hg; apply hex4_group; exact Hg).
  destruct fmt; cbn [fmt_text] in Ht.
  - subst. destruct (G hex4 gs G4 HF). split; [|assumption]. split; [assumption|left; left; assumption].
  - subst. destruct (G hexmin gs hexmin_group HF). split; [|assumption]. split; [assumption|left; left; assumption].
  - destruct Ht as [[-> _]|(a & n & b & E & Hn & _ & ->)].
    + destruct (G hexmin gs hexmin_group HF). split; [|assumption]. split; [assumption|left; left; assumption].
    + rewrite E in HF. apply Forall_app in HF as [Fa HF]. apply Forall_app in HF as [_ Fb].
      destruct (G hexmin a hexmin_group Fa). destruct (G hexmin b hexmin_group Fb). split.
      * split; [assumption|]. right. exists (join (map hexmin a)), (join (map hexmin b)), a, n, b.
        split; [assumption|]. split; [left; assumption|]. split; [lia|]. auto.
      * rewrite !in_app_iff. cbn [In]. intuition lia.
Qed.

Lemma long_quad_dot s : long_quad s -> In 46 s.
Proof.
  intros (ts & vs & q & a & b & c & d & _ & _ & Hq & ->). apply quad_chars in Hq as (_ & _ & Hq).
  rewrite join_flat. apply in_app_iff. right. apply in_app_iff. right. assumption.
Qed.

Lemma v6_round_trip gs scope fmt s : length gs = 8%nat -> Forall is_group gs -> storable scope ->
  v6_to_string (group_bytes gs) scope fmt = Ret s -> v6_from_string true (chars s) = Ret (group_bytes gs, scope).
Proof.
  intros L HF Hst E.
  assert (zlen scope <= 16) as Hl by (destruct Hst as [->|[[H _] _]]; [cbn; lia|lia]).
  destruct (v6_to_string_ok gs scope fmt L HF Hl) as (t & Ht & E'). rewrite E in E'. injection E' as ->.
  destruct (fmt_v6_text fmt gs t L HF Ht) as [Hv H46].
  assert (Nt : no_nul t) by (unfold no_nul; eapply text_not; [eassumption|unfold addr_char; lia]).
  apply v6_accept_raw.
  assert (Hr : raw t gs). { apply raw_iff; [assumption|]. split; [assumption|]. intros C. apply long_quad_dot in C. contradiction. }
  destruct Hst as [->|[Hsc Hn]].
  - left. cbn [scope_suffix]. rewrite app_nil_r. split; [eapply text_not; [eassumption|unfold addr_char; lia]|]. split; [reflexivity|].
    exists gs. auto.
  - right. destruct scope as [|c scope]; [destruct Hsc as [C _]; cbn in C; lia|]. exists t, (c :: scope). split; [reflexivity|].
    split; [eapply text_not; [eassumption|unfold addr_char; lia]|]. split; [apply scope_okb_iff; assumption|].
    split; [symmetry; apply cut_id; assumption|]. exists gs. auto.
Qed.
