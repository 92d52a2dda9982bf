(** The errors of the IPv6 parser: splitting. *)
From Verif Require Import Base Tac SpecText TextProofs UnicodeModel FixedStringModel V4Model Uint128Model V6Model
  SpecV4 SpecV6 SpecV6Err SpecAddr SpecStr V4Proofs BufProofs BitProofs StrProofs FixedStringProofs V6Proofs V6Parse V6Grammar V6Full.

(** Two adjacent colons among those already passed. *)
Definition gapb (done : list (list Z)) : bool := existsb (fun p => zlen p =? 0) (tl done).
Definition nilb {A} (l : list A) : bool := match l with [] => true | _ => false end.

Fixpoint scanR (s : list Z) (done : list (list Z)) (cur : list Z) : res (list (list Z) * list Z) :=
  match s with
  | [] => Ret (done, cur)
  | c :: s' =>
      if zlen done >? 8 then
        Err (if gapb done || ((c =? 58) && nilb cur) then expected_at_most_7_other_parts_with_double_colon
             else most_8_colons_permitted) (zlen done)
      else if c =? 58 then if zlen cur >? 4 then Err part_is_more_4_chars (zlen done) else scanR s' (done ++ [cur]) []
      else if zlen cur >? 15 then Err part_is_more_4_chars (zlen done) else scanR s' done (cur ++ [c])
  end.

(** The state of the "::" detection. *)
Definition dc_ok (done : list (list Z)) (cur : list Z) (prev : Z) (dc : bool) : Prop :=
  dc = gapb done /\ (prev = 58 <-> done <> [] /\ cur = []).

Lemma gapb_snoc done cur : done <> [] -> gapb (done ++ [cur]) = gapb done || (zlen cur =? 0).
Proof.
  intros H. destruct done as [|d done]; [contradiction|]. unfold gapb. cbn [app tl]. rewrite existsb_app. cbn [existsb].
  rewrite orb_false_r. reflexivity.
Qed.
Lemma nilb_zlen {A} (l : list A) : nilb l = (zlen l =? 0).
Proof. destruct l; [reflexivity|]. symmetry. apply Z.eqb_neq. autorewrite with zl. pose proof (zlen_nonneg l). lia. Qed.

Lemma dc_step done cur prev dc c : dc_ok done cur prev dc ->
  (if negb dc && (c =? 58) && (prev =? 58) then true else dc) = gapb done || ((c =? 58) && nilb cur && negb (nilb done)).
Proof.
  intros [-> H]. destruct (gapb done); [reflexivity|]. cbn [negb andb orb].
  destruct (c =? 58); [|reflexivity]. cbn [andb]. destruct (Z.eqb_spec prev 58) as [E|E].
  - apply H in E as [N ->]. destruct done; [contradiction|reflexivity].
  - destruct cur; [|reflexivity]. destruct done; [reflexivity|]. exfalso. apply E, H. split; [discriminate|reflexivity].
Qed.

Lemma split_loopR : forall s done cur parts last prev dc,
  arr_ok parts done -> last_ok last cur -> (length done <= 9)%nat -> dc_ok done cur prev dc ->
  match scanR s done cur with
  | Ret (d, c) => exists p l, split_loop (chars s) parts last (zlen done) (zlen cur) prev dc = Ret (p, l, zlen d, zlen c)
                     /\ arr_ok p d /\ last_ok l c /\ (length d <= 9)%nat
  | Err e v => split_loop (chars s) parts last (zlen done) (zlen cur) prev dc = Err e v
  | UB _ => False
  end.
Proof.
  induction s as [|c s IH]; intros done cur parts last prev dc HA HL Hd HD; cbn [scanR chars map split_loop].
  - exists parts, last. auto.
  - change (map Ch s) with (chars s). cbv zeta. rewrite (dc_step done cur prev dc c HD).
    destruct (Z.gtb_spec (zlen done) 8) as [G|G].
    { destruct done; [cbn in G; lia|]. cbn [nilb negb]. rewrite andb_true_r. reflexivity. }
    destruct HD as [Edc Hp].
    destruct (Z.eqb_spec c 58) as [->|N58]; cbn [negb].
    + destruct (Z.gtb_spec (zlen cur) 4); [reflexivity|]. unfold zlen in *.
      destruct (copy_part_ok parts last done cur HA HL ltac:(lia) ltac:(lia)) as (parts' & E & HA').
      unfold zlen in E. rewrite E. cbn [bind].
      destruct HL as [L [j ->]].
      assert (exists l', wr (cur ++ 0 :: j) 0 0 = Ret l' /\ last_ok l' []) as (l' & -> & HL').
      { destruct cur as [|x cur]; cbn [app].
        - exists (0 :: j). split; [reflexivity|]. split; [assumption|]. exists j. reflexivity.
        - exists (0 :: cur ++ 0 :: j). split; [apply (wr_mid [] _ x); reflexivity|]. split; [assumption|]. eexists. reflexivity. }
      cbn [bind]. specialize (IH (done ++ [cur]) [] parts' l' 58 (gapb done || true && nilb cur && negb (nilb done)) HA' HL').
      rewrite app_length in IH. cbn [length] in IH.
      replace (w32 (Z.of_nat (length done) + 1)) with (Z.of_nat (length done + 1))
        by (unfold w32; rewrite Z.mod_small; lia).
      apply IH; [lia|]. split.
      * cbn [andb]. destruct done as [|d done]; [cbn [nilb negb]; rewrite andb_false_r; reflexivity|].
        rewrite gapb_snoc by discriminate. cbn [nilb negb]. rewrite andb_true_r, nilb_zlen. reflexivity.
      * split; [intros _; split; [destruct done; discriminate|reflexivity]|reflexivity].
    + destruct (Z.gtb_spec (zlen cur) 15); [reflexivity|].
      destruct HL as [L [j ->]]. rewrite wr_mid by reflexivity. cbn [bind].
      assert (exists x j', j = x :: j') as (x & j' & ->).
      { destruct j; [|eauto]. rewrite app_length in L. unfold zlen in *. cbn in L. lia. }
      replace (cur ++ c :: x :: j') with ((cur ++ [c]) ++ x :: j') by (rewrite <- app_assoc; reflexivity).
      replace (zlen cur + 1) with (zlen (cur ++ [c])) by (autorewrite with zl; lia).
      rewrite wr_mid by reflexivity. cbn [bind]. apply IH; [assumption| |assumption|].
      * split; [|eauto]. rewrite <- L, !app_length. cbn [length]. lia.
      * cbn [andb]. rewrite orb_false_r. split; [reflexivity|]. split; [intros ->; contradiction|].
        intros [_ C]. destruct cur; discriminate.
Qed.

(** The same, field by field. *)
Fixpoint scanF (done : list (list Z)) (f : list Z) (fs : list (list Z)) : res (list (list Z) * list Z) :=
  match fs with
  | [] =>
      if zlen done >? 8 then
        if zlen f =? 0 then Ret (done, [])
        else Err (if gapb done then expected_at_most_7_other_parts_with_double_colon else most_8_colons_permitted) (zlen done)
      else if zlen f >? 16 then Err part_is_more_4_chars (zlen done) else Ret (done, f)
  | g :: fs' =>
      if zlen done >? 8 then
        Err (if gapb done || (zlen f =? 0) then expected_at_most_7_other_parts_with_double_colon else most_8_colons_permitted) (zlen done)
      else if zlen f >? 4 then Err part_is_more_4_chars (zlen done)
      else scanF (done ++ [f]) g fs'
  end.

Lemma scanR_many c s done cur : zlen done > 8 -> scanR (c :: s) done cur =
  Err (if gapb done || ((c =? 58) && nilb cur) then expected_at_most_7_other_parts_with_double_colon
       else most_8_colons_permitted) (zlen done).
Proof. intros H. cbn [scanR]. destruct (Z.gtb_spec (zlen done) 8); [reflexivity|lia]. Qed.

(** Reading a field. *)
Lemma scanR_field : forall f done cur s, ~ In 58 f -> zlen done <= 8 -> zlen cur <= 16 ->
  scanR (f ++ s) done cur =
  if zlen cur + zlen f >? 16 then Err part_is_more_4_chars (zlen done) else scanR s done (cur ++ f).
Proof.
  induction f as [|c f IH]; intros done cur s H Hd Hc; cbn [app].
  - rewrite app_nil_r. change (zlen (@nil Z)) with 0. destruct (Z.gtb_spec (zlen cur + 0) 16); [lia|reflexivity].
  - cbn [scanR]. destruct (Z.gtb_spec (zlen done) 8); [lia|].
    destruct (Z.eqb_spec c 58) as [->|_]; [exfalso; apply H; left; reflexivity|].
    pose proof (zlen_nonneg f). autorewrite with zl.
    destruct (Z.gtb_spec (zlen cur) 15).
    + destruct (Z.gtb_spec (zlen cur + (zlen f + 1)) 16); [reflexivity|lia].
    + rewrite IH by first [assumption | intros C; apply H; right; exact C | autorewrite with zl; lia].
      rewrite <- app_assoc. cbn [app]. autorewrite with zl.
      replace (zlen cur + (0 + 1) + zlen f) with (zlen cur + (zlen f + 1)) by lia. reflexivity.
Qed.

Lemma scanR_F : forall fs f done, Forall (fun f => ~ In 58 f) (f :: fs) -> zlen done <= 9 ->
  scanR (join (f :: fs)) done [] = scanF done f fs.
Proof.
  induction fs as [|g fs IH]; intros f done HF Hd; inversion HF as [|? ? Hf HF']; subst; clear HF.
  - cbn [join scanF]. destruct (Z.gtb_spec (zlen done) 8).
    + destruct f as [|c f]; [reflexivity|]. rewrite scanR_many by lia.
      assert (E : (zlen (c :: f) =? 0) = false) by (apply Z.eqb_neq; autorewrite with zl; pose proof (zlen_nonneg f); lia).
      rewrite E. destruct (Z.eqb_spec c 58) as [->|_]; [exfalso; apply Hf; left; reflexivity|]. cbn [andb].
      rewrite orb_false_r. reflexivity.
    + rewrite <- (app_nil_r f) at 1. rewrite scanR_field by (assumption || (cbn; lia)).
      change (zlen (@nil Z)) with 0. rewrite Z.add_0_l. cbn [app scanR]. reflexivity.
  - rewrite join_cons by discriminate. cbn [scanF]. destruct (Z.gtb_spec (zlen done) 8).
    + destruct f as [|c f]; cbn [app]; rewrite scanR_many by lia.
      * reflexivity.
      * assert (E : (zlen (c :: f) =? 0) = false) by (apply Z.eqb_neq; autorewrite with zl; pose proof (zlen_nonneg f); lia).
        rewrite E. destruct (Z.eqb_spec c 58) as [->|_]; [exfalso; apply Hf; left; reflexivity|]. cbn [andb]. reflexivity.
    + rewrite scanR_field by (assumption || (cbn; lia)).
      change (zlen (@nil Z)) with 0. rewrite Z.add_0_l. cbn [app].
      destruct (Z.gtb_spec (zlen f) 16); [destruct (Z.gtb_spec (zlen f) 4); [reflexivity|lia]|].
      cbn [scanR]. destruct (Z.gtb_spec (zlen done) 8); [lia|]. change (58 =? 58) with true. cbn iota.
      destruct (zlen f >? 4); [reflexivity|]. apply IH; [assumption|]. autorewrite with zl. lia.
Qed.

(** The parts, or the error. *)
Definition lastR (d : list (list Z)) (c : list Z) : res (list (list Z)) :=
  if existsb (fun c => c =? 46) c then
    if zlen d + 1 >=? 8 then Err most_8_colons_permitted (zlen d)
    else match v4_from_string (chars (cut c)) with
         | Ret [a; b; x; y] => Ret (d ++ [hex4 (a * 256 + b); hex4 (x * 256 + y)])
         | Err e _ => Err e (zlen d)
         | _ => UB AssertFailed
         end
  else if zlen c >? 4 then Err part_is_more_4_chars (zlen d) else Ret (d ++ [c]).
Definition partsR (f : list Z) (fs : list (list Z)) : res (list (list Z)) :=
  '(d, c) <- scanF [] f fs ;;
  if zlen d >? 8 then
    if (zlen (nth 0 d []) =? 0) && negb (zlen (nth 1 d []) =? 0)
    then Err leading_colon_only_permitted_as_part_of_double_colon (zlen d)
    else Err trailing_colon_only_permitted_as_part_of_double_colon (zlen d)
  else
    ps <- lastR d c ;;
    if zlen ps <? 3 then Err least_3_parts (zlen ps) else Ret ps.

Lemma holds_hd b p x r : ~ In 0 p -> b = x :: r -> holds b p -> (x =? 0) = (zlen p =? 0).
Proof.
  intros N -> [_ [_ (s' & E & H)]]. rewrite cut_id in * by assumption. destruct p as [|c p].
  - destruct H as [H|[_ [q ->]]]; [discriminate|]. injection E as -> _. reflexivity.
  - injection E as -> _. destruct (Z.eqb_spec c 0) as [->|_]; [exfalso; apply N; left; reflexivity|].
    symmetry. apply Z.eqb_neq. autorewrite with zl. pose proof (zlen_nonneg p). lia.
Qed.

Lemma scanF_shape : forall fs f done d c, scanF done f fs = Ret (d, c) -> zlen done <= 9 ->
  done ++ f :: fs = d ++ [c] /\ zlen d <= 9 /\ zlen c <= 16 /\ (zlen d > 8 -> c = []) /\ exists m, d = done ++ m /\ Forall short m.
Proof.
  induction fs as [|g fs IH]; intros f done d c E Hd; cbn [scanF] in E.
  - destruct (Z.gtb_spec (zlen done) 8).
    + destruct (zlen f =? 0) eqn:E0; [|discriminate]. apply zlen0_nil in E0. subst f. injection E as <- <-.
      split; [reflexivity|]. split; [assumption|]. split; [cbn; lia|]. split; [reflexivity|]. exists []. rewrite app_nil_r. auto.
    + destruct (Z.gtb_spec (zlen f) 16); [discriminate|]. injection E as <- <-.
      split; [reflexivity|]. split; [assumption|]. split; [lia|]. split; [lia|]. exists []. rewrite app_nil_r. auto.
  - destruct (Z.gtb_spec (zlen done) 8); [discriminate|]. destruct (Z.gtb_spec (zlen f) 4); [discriminate|].
    apply IH in E; [|autorewrite with zl; lia]. destruct E as (E & H1 & H2 & H3 & m & -> & Hm).
    rewrite <- !app_assoc in *. cbn [app] in *. split; [assumption|]. split; [assumption|]. split; [assumption|]. split; [assumption|].
    exists (f :: m). split; [reflexivity|]. constructor; [unfold short; lia|assumption].
Qed.

Lemma join_in ps p x : In p ps -> In x p -> In x (join ps).
Proof.
  induction ps as [|q ps IH]; [intros []|]. intros I J. destruct ps as [|r ps].
  - destruct I as [->|[]]. exact J.
  - rewrite join_cons by discriminate. apply in_or_app. destruct I as [->|I]; [left; exact J|right; right; apply IH; assumption].
Qed.

Lemma split_partsR f fs : Forall (fun f => ~ In 58 f) (f :: fs) -> Forall (fun f => ~ In 0 f) (f :: fs) ->
  match partsR f fs with
  | Ret ps => split_parts true (chars (join (f :: fs))) = Ret (ps ++ repeat [] (9 - length ps), zlen ps) /\ 3 <= zlen ps <= 9
  | Err e v => split_parts true (chars (join (f :: fs))) = Err e v
  | UB _ => False
  end.
Proof.
  intros H58 H0. unfold split_parts, partsR. set (s := join (f :: fs)).
  pose proof (split_loopR s [] [] (repeat (repeat 0 5) 9) (repeat 0 17) 0 false arr_ok_init last_ok_init ltac:(cbn; lia)) as H.
  change (zlen (@nil (list Z))) with 0 in H. change (zlen (@nil Z)) with 0 in H.
  assert (D0 : dc_ok [] [] 0 false).
  { split; [reflexivity|]. split; [discriminate|]. intros [C _]. destruct (C eq_refl). }
  specialize (H D0). unfold s in H. rewrite scanR_F in H by (assumption || (cbn; lia)). fold s in H.
  destruct (scanF [] f fs) as [[d c]|e v|] eqn:ES; [|rewrite H; reflexivity|contradiction]. cbn [bind].
  destruct (scanF_shape fs f [] d c ES ltac:(cbn; lia)) as (Efs & Hd9 & Hc & Hcn & _). cbn [app] in Efs.
  assert (N0 : forall p, In p (d ++ [c]) -> ~ In 0 p) by (rewrite <- Efs; apply Forall_forall; exact H0).
  destruct H as (p & l & -> & HA & HL & Hd). cbn [bind].
  destruct (Z.gtb_spec (zlen d) 8) as [G|G].
  - assert (length d = 9%nat) as L9 by (unfold zlen in G; lia).
    destruct HA as (bs & -> & HF). pose proof (Forall2_length _ _ _ HF) as E. rewrite L9 in *.
    rewrite (Hcn ltac:(lia)) in HL. destruct HL as [Ll [j ->]].
    destruct bs as [|b0 [|b1 bs]]; try discriminate E.
    inversion HF as [|? d0 ? d' Hh0 HF1]; subst. inversion HF1 as [|? d1 ? ? Hh1 _]; subst.
    destruct Hh0 as [Le0 Hh0]. destruct Hh1 as [Le1 Hh1].
    destruct b0 as [|x0 b0]; [discriminate|]. destruct b1 as [|x1 b1]; [discriminate|].
    change (rd (((x0 :: b0) :: (x1 :: b1) :: bs) ++ ?r) 0) with (@Ret (list Z) (x0 :: b0)). cbn [bind].
    change (rd (x0 :: b0) 0) with (Ret x0). cbn [bind].
    change (rd (((x0 :: b0) :: (x1 :: b1) :: bs) ++ ?r) 1) with (@Ret (list Z) (x1 :: b1)). cbn [bind].
    change (rd (x1 :: b1) 0) with (Ret x1). cbn [bind].
    change (rd ([] ++ 0 :: j) 0) with (Ret 0). cbn [bind nth].
    rewrite (holds_hd _ d0 x0 b0) by (first [reflexivity | apply N0; left; reflexivity | split; assumption]).
    rewrite (holds_hd _ d1 x1 b1) by (first [reflexivity | apply N0; right; left; reflexivity | split; assumption]).
    destruct ((zlen d0 =? 0) && negb (zlen d1 =? 0)); reflexivity.
  - rewrite to_nat_zlen. destruct HL as [Ll [j EL]].
    rewrite (has_dot_ok c 0 [] (0 :: j) l) by (assumption || reflexivity). cbn [bind].
    unfold lastR. destruct (existsb (fun c => c =? 46) c).
    + destruct (Z.geb_spec (zlen d + 1) 8) as [G8|G8]; [reflexivity|].
      rewrite (v4_parse_array_ok l c (conj Ll (ex_intro _ j EL)) ltac:(unfold zlen in Hc; lia)).
      pose proof (v4_defined (chars (cut c))) as HD.
      destruct (v4_from_string (chars (cut c))) as [bs|e v|u] eqn:EV; [|reflexivity|contradiction].
      apply v4_accept_iff, dotted_bytes in EV. destruct EV as (a & b & x & y & -> & Ba & Bb & Bx & By).
      rewrite v4_to_uint_pack by assumption. cbn [bind].
      destruct (quad_hextets a b x y Ba Bb Bx By) as [-> ->].
      assert (0 <= a * 256 + b < 65536 /\ 0 <= x * 256 + y < 65536) as [V1 V2] by (unfold is_byte in *; lia).
      assert (length d <= 6)%nat by (unfold zlen in *; lia).
      destruct (put_hex_ok p d _ HA ltac:(lia) V1) as (q & -> & E & p' & E' & HA'). cbn [bind].
      rewrite E. cbn [bind]. rewrite E'. cbn [bind]. clear E E' q.
      replace (zlen d + 1) with (zlen (d ++ [hex4 (a * 256 + b)])) by (autorewrite with zl; lia).
      destruct (put_hex_ok p' _ _ HA' ltac:(rewrite app_length; cbn [length]; lia) V2) as (q & -> & E & p'' & E' & HA''). cbn [bind].
      rewrite E. cbn [bind]. rewrite E'. cbn [bind]. clear E E' q.
      rewrite <- app_assoc in HA''. cbn [app] in HA''.
      replace (zlen (d ++ [hex4 (a * 256 + b)]) + 1) with (zlen (d ++ [hex4 (a * 256 + b); hex4 (x * 256 + y)]))
        by (autorewrite with zl; lia).
      assert (Ecut : map cut (d ++ [hex4 (a * 256 + b); hex4 (x * 256 + y)]) = d ++ [hex4 (a * 256 + b); hex4 (x * 256 + y)]).
      { rewrite map_app. cbn [map]. destruct (holds_hex _ V1) as [_ ->]. destruct (holds_hex _ V2) as [_ ->]. f_equal.
        rewrite <- (map_id d) at 2. apply map_ext_in. intros q I. apply cut_id, N0, in_or_app. left. exact I. }
      set (ps := d ++ [_; _]) in *.
      assert (length ps <= 9)%nat by (unfold ps; rewrite app_length; cbn [length]; lia).
      destruct (Z.ltb_spec (zlen ps) 3); [reflexivity|].
      rewrite (make_parts_ok p'' ps) by assumption. cbn [bind]. rewrite Ecut.
      unfold zlen in *. split; [reflexivity|lia].
    + destruct (Z.gtb_spec (zlen c) 4); [reflexivity|].
      destruct (copy_part_ok p l d c HA ltac:(split; eauto) ltac:(unfold zlen in *; lia) ltac:(unfold zlen in *; lia)) as (p' & -> & HA').
      cbn [bind]. replace (zlen d + 1) with (zlen (d ++ [c])) by (autorewrite with zl; lia).
      assert (Ecut : map cut (d ++ [c]) = d ++ [c]).
      { rewrite <- (map_id (d ++ [c])) at 2. apply map_ext_in. intros q I. apply cut_id, N0. exact I. }
      set (ps := d ++ [c]) in *.
      assert (length ps <= 9)%nat by (unfold ps; rewrite app_length; cbn [length]; unfold zlen in *; lia).
      destruct (Z.ltb_spec (zlen ps) 3); [reflexivity|].
      rewrite (make_parts_ok p' ps) by assumption. cbn [bind]. rewrite Ecut.
      unfold zlen in *. split; [reflexivity|lia].
Qed.

(** The bounds check. *)
Definition boundR (a : list Z) (m : list (list Z)) (b : list Z) : res (Z * Z * Z) :=
  let n := zlen m + 2 in
  match abs_skip m 1 0 with
  | None => Err most_one_double_colon_permitted n
  | Some skip =>
      if skip =? 0 then
        if negb (zlen m =? 6) then Err exactly_8_parts_expected_without_double_colon n
        else if zlen a =? 0 then Err leading_colon_only_permitted_as_part_of_double_colon n
        else if zlen b =? 0 then Err trailing_colon_only_permitted_as_part_of_double_colon n
        else Ret (8, 0, 0)
      else
        let hi := if zlen a =? 0 then skip - 1 else skip in
        let lo := if zlen b =? 0 then zlen m + 2 - skip - 2 else zlen m + 2 - skip - 1 in
        if (zlen a =? 0) && negb (hi =? 0) then Err leading_colon_only_permitted_as_part_of_double_colon n
        else if (zlen b =? 0) && negb (lo =? 0) then Err trailing_colon_only_permitted_as_part_of_double_colon n
        else if 8 - (hi + lo) <? 1 then Err expected_at_most_7_other_parts_with_double_colon n
        else Ret (hi, lo, 8 - (hi + lo))
  end.
Lemma skip_loopR : forall inner pre post i n skip arr, arr = pre ++ inner ++ post -> i = zlen pre ->
  skip_loop (length inner) i arr n skip =
  match abs_skip inner i skip with Some k => Ret k | None => Err most_one_double_colon_permitted n end.
Proof.
  induction inner as [|p r IH]; intros pre post i n skip arr -> ->; cbn [length skip_loop abs_skip app]; [reflexivity|].
  rewrite part_empty_mid by reflexivity. cbn [bind].
  assert (A : forall sk, skip_loop (length r) (zlen pre + 1) (pre ++ p :: r ++ post) n sk =
    match abs_skip r (zlen pre + 1) sk with Some k => Ret k | None => Err most_one_double_colon_permitted n end).
  { intros sk. apply (IH (pre ++ [p]) post); [rewrite <- app_assoc; reflexivity|autorewrite with zl; lia]. }
  destruct (zlen p =? 0); [|apply A]. destruct (negb (skip =? 0)); [reflexivity|apply A].
Qed.
Lemma boundR_ok a m b rest : 1 <= zlen m <= 7 -> get_parts_bound (a :: m ++ b :: rest) (zlen m + 2) = boundR a m b.
Proof.
  intros Hm. unfold get_parts_bound, boundR.
  replace (Z.to_nat (zlen m + 2 - 1 - 1)) with (length m) by (unfold zlen; lia).
  rewrite (skip_loopR m [a] (b :: rest) 1 (zlen m + 2) 0 (a :: m ++ b :: rest) eq_refl eq_refl).
  destruct (abs_skip m 1 0) as [skip|] eqn:Es; [|reflexivity]. cbn [bind].
  assert (0 <= skip <= zlen m) as Hs.
  { apply abs_skip_inv in Es; [|lia]. destruct Es as [[-> _]|(x & y & -> & _ & _ & -> & _)]; [lia|].
    autorewrite with zl. pose proof (zlen_nonneg x). pose proof (zlen_nonneg y). lia. }
  assert (E0 : part_empty (a :: m ++ b :: rest) 0 = Ret (zlen a =? 0)) by (apply (part_empty_mid []); reflexivity).
  assert (E1 : part_empty (a :: m ++ b :: rest) (zlen m + 2 - 1) = Ret (zlen b =? 0)).
  { apply (part_empty_mid (a :: m)). autorewrite with zl. lia. }
  destruct (Z.eqb_spec skip 0) as [->|Ns]; cbn [negb].
  - destruct (Z.eqb_spec (zlen m) 6) as [E6|E6]; destruct (Z.eqb_spec (zlen m + 2) 8); try lia; cbn [negb]; [|reflexivity].
    rewrite E0. cbn [bind]. destruct (zlen a =? 0); [reflexivity|].
    rewrite E1. cbn [bind]. destruct (zlen b =? 0); [reflexivity|]. do 3 f_equal. lia.
  - rewrite E0. cbn [bind]. rewrite (w64_small (zlen m + 2 - skip - 1)) by lia.
    rewrite (w64_small (skip - 1)) by lia. rewrite (w64_small (zlen m + 2 - skip - 1 - 1)) by lia.
    rewrite E1.
    assert (F : forall hi lo, 0 <= hi <= 100 -> 0 <= lo <= 100 -> hi + lo <= 8 ->
      (if w64 (8 - w64 (hi + lo)) <? 1
       then Err expected_at_most_7_other_parts_with_double_colon (zlen m + 2)
       else Ret (hi, lo, w64 (8 - w64 (hi + lo)))) =
      (if 8 - (hi + lo) <? 1 then Err expected_at_most_7_other_parts_with_double_colon (zlen m + 2)
       else Ret (hi, lo, 8 - (hi + lo)))).
    { intros hi lo H1 H2 H3. rewrite (w64_small (hi + lo)), w64_small by lia. reflexivity. }
    destruct (zlen a =? 0); cbn [bind andb].
    + destruct (Z.eqb_spec (skip - 1) 0) as [Eh|Eh]; cbn [negb bind]; [|reflexivity].
      destruct (zlen b =? 0); cbn [bind andb].
      * replace (zlen m + 2 - skip - 1 - 1) with (zlen m + 2 - skip - 2) by lia.
        destruct (Z.eqb_spec (zlen m + 2 - skip - 2) 0) as [El|El]; cbn [negb bind]; [|reflexivity].
        apply F; lia.
      * apply F; lia.
    + destruct (zlen b =? 0); cbn [bind andb].
      * replace (zlen m + 2 - skip - 1 - 1) with (zlen m + 2 - skip - 2) by lia.
        destruct (Z.eqb_spec (zlen m + 2 - skip - 2) 0) as [El|El]; cbn [negb bind]; [|reflexivity].
        apply F; lia.
      * apply F; lia.
Qed.
