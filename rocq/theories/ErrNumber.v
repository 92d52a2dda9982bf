(** The numbers in the errors of network texts. *)
From Verif Require Import Base Tac SpecText TextProofs UnicodeModel FixedStringModel V4Model Uint128Model V6Model AddressModel NetworkModel
  SpecV4 SpecV6 SpecV6Err SpecAddr SpecStr SpecError V4Proofs BufProofs BitProofs StrProofs FixedStringProofs V6Proofs V6Parse V6Grammar V6Full
  V6Format V6Lemmas V4Lemmas NetProofs NetProofs2 MaskProofs NetText.

(** Errors whose message names no place. *)
Definition unnum {A} (r : res A) : Prop := match r with Err e _ => ~ numbered e | _ => True end.
Lemma unnum_bind {A B} (m : res A) (k : A -> res B) : unnum m -> (forall a, m = Ret a -> unnum (k a)) -> unnum (bind m k).
Proof. destruct m; cbn; auto. Qed.
Lemma unnum_rd {A} (a : list A) i : unnum (rd a i).
Proof. unfold rd. destruct (_ <? _); [exact I|]. destruct (nth_error _ _); exact I. Qed.
Lemma unnum_wr {A} (a : list A) i x : unnum (wr a i x).
Proof. unfold wr. destruct (_ <? _); [exact I|]. destruct (upd _ _ _); exact I. Qed.
Lemma unnum_assert b : unnum (assert b).
Proof. destruct b; exact I. Qed.
Ltac un :=
  repeat first
    [ exact I
    | exact (fun C => C)
    | assumption
    | apply unnum_rd | apply unnum_wr | apply unnum_assert
    | apply unnum_bind; [|intros ? _]
    | match goal with
      | |- context [match ?x with _ => _ end] => destruct x
      | IH : context [unnum _] |- unnum _ => apply IH
      end ].
Lemma split_unnum M : forall s a sym h nm, unnum (net_split M (chars s) a sym h nm).
Proof.
  induction s as [|c s IH]; intros a sym h nm; cbn [chars map net_split]; [exact I|]. change (map Ch s) with (chars s).
  destruct ((c =? 47) && h); [exact (fun C => C)|]. destruct ((c =? 47) && (zlen (chars s) =? 0)); [exact (fun C => C)|].
  apply unnum_bind; [un|]. intros [a' s'] _. destruct (s' >? M); [exact I|]. apply IH.
Qed.
Lemma uint_unnum le b : unnum (v4_to_uint le b).
Proof. unfold v4_to_uint. un. Qed.
Lemma prefix_ip_unnum x : unnum (prefix_from_ip_uint32 x).
Proof.
  unfold prefix_from_ip_uint32, count_righthand_zero_bits. apply unnum_bind.
  - destruct (x =? 0); [exact I|]. apply unnum_bind; [|intros ? _; exact I]. generalize 0. generalize (Z.land (w32 (Z.lnot x)) (w32 (x - 1))).
    generalize 32%nat. induction n as [|n IH]; intros y z; cbn [popcount_loop]; destruct (y =? 0); try exact I. apply IH.
  - intros t _. unfold shr32, shl32. un.
Qed.
Lemma v4_prefix_unnum le p : unnum (v4_from_prefix le p).
Proof. unfold v4_from_prefix, shr32. un. Qed.
Lemma v6_prefix_unnum p : unnum (v6_from_prefix p).
Proof.
  unfold v6_from_prefix. apply unnum_bind.
  - generalize (repeat 0 16). generalize 0. generalize (Z.to_nat (Z.min (Z.shiftr p 3) 17)).
    induction n as [|n IH]; intros i l; cbn [prefix_ones]; [exact I|]. apply unnum_bind; [apply unnum_wr|]. intros ? _. apply IH.
  - intros b _. un.
Qed.
Lemma mask_unnum v s : unnum (parse_netmask v (chars s)).
Proof.
  unfold parse_netmask. apply unnum_bind; [|intros [? ?] _; exact I]. destruct v.
  - unfold v4_parse_netmask. apply unnum_bind.
    + generalize 0. induction s as [|c s IH]; intros p; cbn [chars map netmask_digits]; [exact I|]. destruct (_ && _); [apply IH|exact I].
    + intros [b p] _. apply unnum_bind.
      * destruct b; [un|]. destruct (v4_from_string (chars s)); [|exact (fun C => C)|exact I]. apply unnum_bind; [apply uint_unnum|]. intros ip _.
        pose proof (prefix_ip_unnum ip) as P. destruct (prefix_from_ip_uint32 ip); [exact I| |exact I].
        pose proof (prefix_ip_unnum (Z.lxor ip v4_all_ones)) as P2. destruct (prefix_from_ip_uint32 (Z.lxor ip v4_all_ones)); [exact I|exact P2|exact I].
      * intros q _. apply unnum_bind; [apply v4_prefix_unnum|]. intros ? _. exact I.
  - unfold v6_parse_netmask. apply unnum_bind.
    + generalize 0. induction s as [|c s IH]; intros p; cbn [chars map v6_netmask_digits]; [exact I|]. destruct (_ && _); [apply IH|exact (fun C => C)].
    + intros p _. destruct (p >? 128); [exact (fun C => C)|]. apply unnum_bind; [apply v6_prefix_unnum|]. intros ? _. exact I.
Qed.
Lemma strict_unnum v a m s : unnum (strict_netmask v a m s).
Proof.
  unfold strict_netmask. destruct v.
  - unfold v4_strict_netmask. apply unnum_bind; [|intros ? _; exact I]. apply unnum_bind; [apply uint_unnum|]. intros ? _.
    apply unnum_bind; [apply uint_unnum|]. intros ? _. un.
  - apply unnum_bind; [|intros [? ?] _; exact I]. unfold v6_strict_netmask.
    apply unnum_bind; [|intros b _; un]. generalize (repeat 0 16). generalize 0. generalize 16%nat.
    induction n as [|n IH]; intros i l; cbn [and_loop]; un.
Qed.

Lemma finish_number v pre m strict e x : numbered e -> finish v pre (chars m) strict = Err e x ->
  (exists i, addr_parse v (chars (text_of v pre)) = Err e i) /\ x = mask_value v (chars m) /\ exists r, parse_netmask v (chars m) = Ret r.
Proof.
  intros N. unfold finish. pose proof (mask_unnum v m) as M. destruct (parse_netmask v (chars m)) as [[nm p]|e' x'|]; cbn [bind]; [| |discriminate].
  2:{ intros [= -> ->]. contradiction. }
  destruct (addr_parse v (chars (text_of v pre))) as [a|e' i|]; cbn [bind with_value]; [| |discriminate].
  - pose proof (strict_unnum v a nm strict) as S. destruct (strict_netmask v a nm strict) as [a'|e' i|]; cbn [bind with_value]; try discriminate.
    intros [= -> _]. contradiction.
  - intros [= -> <-]. eauto.
Qed.

Lemma digits_bool : forall m p, exists b q, netmask_digits (chars m) p = Ret (b, q) /\ (In 46 m -> b = false).
Proof.
  induction m as [|c m IH]; intros p; cbn [chars map netmask_digits]; [exists true, p; split; [reflexivity|intros []]|].
  change (map Ch m) with (chars m). destruct ((c >=? 48) && (c <=? 57)) eqn:E.
  - destruct (IH (w64 (w64 (p * 10) + (c - 48)))) as (b & q & -> & H). exists b, q. split; [reflexivity|].
    intros [->|I]; [discriminate E|auto].
  - exists false, p. auto.
Qed.
Lemma mask_value_quad v m r : parse_netmask v (chars m) = Ret r ->
  (mask_value v (chars m) = 3 /\ v = V4 /\ exists bs, dotted_quad m bs) \/ (mask_value v (chars m) = 0 /\ (v = V4 -> forall bs, ~ dotted_quad m bs)).
Proof.
  intros E. unfold mask_value. destruct v; [|right; split; [reflexivity|discriminate]].
  destruct (digits_bool m 0) as (b & q & Ed & Hd). rewrite Ed. destruct b.
  - right. split; [reflexivity|]. intros _ bs Q. destruct (quad_chars m bs Q) as (_ & _ & I). specialize (Hd I). discriminate.
  - left. split; [reflexivity|]. split; [reflexivity|]. unfold parse_netmask, v4_parse_netmask in E. rewrite Ed in E. cbn [bind] in E.
    destruct (v4_from_string (chars m)) as [bs|e i|] eqn:Ev; cbn [bind] in E; try discriminate. exists bs. apply v4_accept_iff. exact Ev.
Qed.

Lemma text_plain v p : no_nul p -> text_of v p = firstn (Z.to_nat (max_string_len v)) p.
Proof. intros N. unfold text_of, L. apply cut_id. intros C. apply N. revert C. generalize (Z.to_nat (max_string_len v)). clear. induction p as [|c p IH]; intros [|n]; cbn; try tauto.
  intros [->|C]; [left; reflexivity|right; eapply IH; exact C]. Qed.
Lemma slash_unique (p m p' m' : list Z) : p ++ 47 :: m = p' ++ 47 :: m' -> ~ In 47 p -> ~ In 47 p' -> p = p' /\ m = m'.
Proof. apply sep_unique. Qed.

(** The number is 3 when the mask is a dotted quad and 0 otherwise, whatever
    is wrong with the address. *)
Lemma net_number v s strict e x : no_nul s -> numbered e -> net_parse v (chars s) strict = Err e x ->
  exists p rest i, s = p ++ rest /\ ~ In 47 p /\ addr_parse v (chars (firstn (Z.to_nat (max_string_len v)) p)) = Err e i /\
    ((x = 3 /\ v = V4 /\ dotted_mask_text p s) \/ (x = 0 /\ ~ (v = V4 /\ zlen p <= max_string_len v /\ dotted_mask_text p s))).
Proof.
  intros N0 Ne E. assert (R : net_parse_res v (chars s) strict = Err e x).
  { rewrite parse_of_res in E. destruct (net_parse_res v (chars s) strict) as [n|e' x'|]; try discriminate. unfold raise_if in E.
    destruct e'; try discriminate; exact E. }
  clear E. destruct (net_parse_split v (chars s) strict) as [(p & r & Es & Np & Lp & F)|[(p & Es & Np & Lp & F)|[(p & m & Es & Np & Nm & Nn & Lp & F)|[(e' & x' & F) H]]]].
  - rewrite F in R. destruct (finish_number v p [] strict e x Ne R) as ((i & Ai) & -> & _).
    assert (exists r', s = p ++ r') as (r' & Es').
    { unfold chars in Es. apply map_eq_app in Es as (l1 & l2 & -> & E1 & _). exists l2. f_equal.
      clear -E1. revert p E1. induction l1 as [|c l1 IH]; intros [|d p] E1; try discriminate; [reflexivity|]. injection E1 as <- E1. f_equal. apply IH. exact E1. }
    assert (Nn : no_nul p) by (intros C; apply N0; rewrite Es'; apply in_or_app; left; exact C).
    rewrite text_plain in Ai by exact Nn. exists p, r', i. split; [exact Es'|]. split; [exact Np|]. split; [exact Ai|].
    right. split; [destruct v; reflexivity|]. unfold L in Lp. lia.
  - apply chars_inj in Es. subst s. rewrite F in R. destruct (finish_number v p [] strict e x Ne R) as ((i & Ai) & -> & _).
    rewrite text_plain in Ai by exact N0. exists p, [], i. rewrite app_nil_r. split; [reflexivity|]. split; [exact Np|]. split; [exact Ai|].
    right. split; [destruct v; reflexivity|]. intros (_ & _ & m & bs & C & _). apply (f_equal (@length Z)) in C. rewrite app_length in C. cbn in C. lia.
  - apply chars_inj in Es. subst s. rewrite F in R. destruct (finish_number v p m strict e x Ne R) as ((i & Ai) & -> & r & Er).
    assert (Nn' : no_nul p) by (intros C; apply N0, in_or_app; left; exact C).
    rewrite text_plain in Ai by exact Nn'. exists p, (47 :: m), i. split; [reflexivity|]. split; [exact Np|]. split; [exact Ai|].
    destruct (mask_value_quad v m r Er) as [(E3 & -> & bs & Q)|(E0 & NQ)].
    + left. split; [exact E3|]. split; [reflexivity|]. exists m, bs. auto.
    + right. split; [exact E0|]. intros (-> & _ & m' & bs & C & _ & Q). apply app_inv_head in C. injection C as <-. exact (NQ eq_refl bs Q).
  - exfalso. rewrite F in R. injection R as -> ->. destruct H as (p & r & Es & Np & Lp & H).
    assert (Er : exists m, s = p ++ 47 :: m /\ (m = [] \/ In 47 m)).
    { destruct H as [(e' & x' & r' & ->)|(r' & -> & Hm)].
      - exfalso. assert (I : In (Bad e' x') (chars s)) by (rewrite Es; apply in_or_app; right; left; reflexivity).
        unfold chars in I. apply in_map_iff in I as (c & C & _). discriminate.
      - unfold chars in Es. apply map_eq_app in Es as (l1 & l2 & -> & E1 & E2). destruct l2 as [|c l2]; [discriminate|]. injection E2 as -> E2.
        apply chars_inj in E1. subst l1. exists l2. split; [reflexivity|]. apply Hm. symmetry. exact E2. }
    destruct Er as (m & -> & Hm).
    pose proof (split_unnum (L v) (p ++ 47 :: m) (buf (L v + 1) []) 0 false []) as S.
    assert (K : exists e' x', net_split (L v) (chars (p ++ 47 :: m)) (buf (L v + 1) []) 0 false [] = Err e' x').
    { rewrite chars_app. pose proof (L_pos v) as HL. change 0 with (zlen (@nil Z)) at 1. rewrite (split_prefix (L v) HL) by (auto; cbn; lia).
      cbn [app]. change (zlen (@nil Z)) with 0. rewrite Z.add_0_l. destruct (Z.leb_spec (zlen p) (L v)); [|lia].
      cbn [chars map net_split]. change (map Ch m) with (chars m). change (47 =? 47) with true. cbn [andb].
      destruct (zlen (chars m) =? 0) eqn:Ez; [eauto|]. cbn [negb bind]. destruct (Z.gtb_spec (zlen p) (L v)); [lia|].
      destruct Hm as [->|Hm]; [discriminate Ez|].
      destruct (split_suffix (L v) (chars m) (buf (L v + 1) p) (zlen p) (chars m) Lp) as [(m' & Em & Nm & _)|[_ G]]; [|exact G].
      apply chars_inj in Em. subst m'. contradiction. }
    destruct K as (e' & x' & K). rewrite K in S. unfold net_parse_res in F. fold (L v) in F. rewrite buf_nil in F. rewrite K in F. cbn [bind] in F.
    injection F as -> ->. contradiction.
Qed.
