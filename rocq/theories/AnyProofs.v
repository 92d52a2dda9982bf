(** Version-erased parsing, queries and order. *)
From Verif Require Import Base Tac UnicodeModel FixedStringModel V4Model V6Model Uint128Model SpecInt Uint128Proofs SpecText SpecAddr SpecStr SpecV4 SpecV6
  StrProofs V4Proofs V4Lemmas V6Lemmas V6Proofs V6Full MaskProofs AddressModel SpecOrder AddressProofs NetworkModel IterModel ClassifyModel SpecNet NetProofs NetProofs2 NetProofs3
  NetLemmas NetText NetText2 NetText3 ErrProofs AnyModel SpecAny.

(** *** No text is accepted by both parsers *)
Definition hexc (c : Z) : Prop := exists d, hex_char c d.
Lemma hexc_not c : hexc c -> c <> 46 /\ c <> 58 /\ c <> 37 /\ c <> 47.
Proof. intros (d & [[? ?]|[? [?|?]]]); lia. Qed.
Definition head_sep (c : Z) (s : list Z) : Prop := exists p r, s = p ++ c :: r /\ Forall hexc p.
Lemma digit_hexc c d : digit_char 10 c d -> hexc c.
Proof. intros (? & [[? ?]|[? ?]]); exists d; left; lia. Qed.
Lemma digits_hexc s ds : digits_of 10 s ds -> Forall hexc s.
Proof. intros H. induction H; constructor; eauto using digit_hexc. Qed.
Lemma quad_head s bs : dotted_quad s bs -> head_sep 46 s.
Proof.
  intros (sa & sb & sc & sd & a & b & c & d & Ha & _ & _ & _ & -> & _). exists sa. eexists. split; [reflexivity|].
  destruct Ha as [(ds & H & _) _]. exact (digits_hexc _ _ H).
Qed.
Lemma group_hexc s v : hex_group s v -> Forall hexc s.
Proof. intros (_ & ds & H & _). induction H; constructor; eauto. exists y. assumption. Qed.
Lemma join_head t u ts : Forall hexc t -> head_sep 58 (join (t :: u :: ts)).
Proof. intros H. exists t, (join (u :: ts)). auto. Qed.
Lemma head_app c s r : head_sep c s -> head_sep c (s ++ r).
Proof. intros (p & q & -> & H). exists p, (q ++ r). split; [rewrite <- app_assoc; reflexivity|exact H]. Qed.
Lemma groups_head s vs r : groups_text s vs -> head_sep 58 (s ++ 58 :: r).
Proof.
  intros (ts & H & ->). destruct ts as [|t [|u ts]].
  - exists [], r. split; [reflexivity|constructor].
  - exists t, r. split; [reflexivity|]. inversion H; subst. eapply group_hexc; eassumption.
  - apply head_app, join_head. inversion H; subst. eapply group_hexc; eassumption.
Qed.
Lemma len2 {A B} (P : A -> B -> Prop) a b : Forall2 P a b -> length a = length b.
Proof. intros H. induction H; cbn; congruence. Qed.
Lemma tail_head s vs : length vs = 8%nat -> tail_text s vs -> head_sep 58 s.
Proof.
  intros L [(ts & H & ->)|(ts & vs' & q & a & b & c & d & H & _ & -> & ->)].
  - apply len2 in H as E. destruct ts as [|t [|u ts]]; try (cbn in *; lia). apply join_head. inversion H; subst. eapply group_hexc; eassumption.
  - apply len2 in H as E. rewrite app_length in L. destruct ts as [|t [|u ts]]; try (cbn in *; lia). cbn [app]. apply join_head.
    inversion H; subst. eapply group_hexc; eassumption.
Qed.
Lemma v6_head s gs : v6_text s gs -> head_sep 58 s.
Proof.
  intros (L & [H|(h & l & hv & n & lv & Hh & _ & _ & -> & _)]); [eapply tail_head; eassumption|].
  apply (groups_head h hv (58 :: l)). exact Hh.
Qed.
Lemma scoped_head s gs t : v6_scoped s gs t -> head_sep 58 s.
Proof. intros [[H _]|(a & -> & H & _)]; [eapply v6_head; eassumption|]. apply head_app. eapply v6_head; eassumption. Qed.
Lemma heads_differ s s' (r r' : list tok) : head_sep 46 s -> head_sep 58 s' -> chars s ++ r = chars s' ++ r' -> False.
Proof.
  intros (p & q & -> & H) (p' & q' & -> & H'). revert p' H'. induction H as [|c p Hc H IH]; intros p' H' E.
  - destruct p' as [|c' p']; cbn in E; injection E as E _; [discriminate|]. subst. inversion H' as [|? ? K _]; subst. apply hexc_not in K. lia.
  - destruct p' as [|c' p']; cbn in E; injection E as Ec E.
    + subst. apply hexc_not in Hc. lia.
    + inversion H' as [|? ? _ K]; subst. exact (IH p' K E).
Qed.
Lemma v4_tokens ts a : addr_parse V4 ts = Ret a -> exists s, ts = chars s /\ dotted_quad s (a_bytes a) /\ a_scope a = [].
Proof.
  cbn [addr_parse]. destruct (v4_from_string ts) as [b| |] eqn:E; try discriminate. intros H. apply ret_inj in H. subst a.
  destruct (v4_outcome ts) as [(bs & s & E' & -> & Hq)|(e & k & E' & _)]; [|congruence]. rewrite E in E'. apply ret_inj in E'. subst bs. eauto.
Qed.
Lemma quad_no_nul s bs : dotted_quad s bs -> no_nul s.
Proof. intros H K. apply v4_accept_iff in H. exact (v4_nul s bs K H). Qed.
Lemma v6_tokens s a : no_nul s -> addr_parse V6 (chars s) = Ret a ->
  exists gs, v6_scoped s gs (a_scope a) /\ a_bytes a = group_bytes gs /\ ~ refused s.
Proof.
  intros N. cbn [addr_parse]. destruct (v6_from_string true (chars s)) as [[b t]| |] eqn:E; try discriminate. intros H. apply ret_inj in H. subst a.
  apply v6_accept_iff in E; assumption.
Qed.
Lemma addr_disjoint ts a b : addr_parse V4 ts = Ret a -> addr_parse V6 ts <> Ret b.
Proof.
  intros H4 H6. apply v4_tokens in H4 as (s & -> & Q & _). apply v6_tokens in H6 as (gs & S6 & _); [|eapply quad_no_nul; eassumption].
  eapply (heads_differ s s [] []); [eapply quad_head; eassumption|eapply scoped_head; eassumption|reflexivity].
Qed.

(** *** Networks *)
Lemma text_prefix v pre : exists r, pre = text_of v pre ++ r.
Proof.
  unfold text_of. destruct (cut_split (firstn (Z.to_nat (L v)) pre)) as [K|[r K]].
  - rewrite K. exists (skipn (Z.to_nat (L v)) pre). symmetry. apply firstn_skipn.
  - exists (0 :: r ++ skipn (Z.to_nat (L v)) pre). rewrite <- (firstn_skipn (Z.to_nat (L v)) pre) at 1. rewrite K at 1. rewrite <- app_assoc. reflexivity.
Qed.
Lemma finish_addr v pre m strict n : finish v pre m strict = Ret n -> exists a, addr_parse v (chars (text_of v pre)) = Ret a.
Proof.
  unfold finish. destruct (parse_netmask v m) as [[nm q]| |]; try discriminate. cbn [bind].
  destruct (addr_parse v (chars (text_of v pre))) as [x| |]; try discriminate. eauto.
Qed.
Lemma chars_app' a b : chars (a ++ b) = chars a ++ chars b. Proof. apply map_app. Qed.
Lemma net_res_prefix v ts strict n : net_parse_res v ts strict = Ret n ->
  exists t r a, ts = chars t ++ r /\ no_nul t /\ addr_parse v (chars t) = Ret a.
Proof.
  assert (G : forall pre r m, ts = chars pre ++ r -> finish v pre m strict = Ret n -> exists t r a, ts = chars t ++ r /\ no_nul t /\ addr_parse v (chars t) = Ret a).
  { intros pre r m -> H. apply finish_addr in H as [a H]. destruct (text_prefix v pre) as [q E]. exists (text_of v pre), (chars q ++ r), a.
    split; [rewrite E at 1; rewrite chars_app', <- app_assoc; reflexivity|]. split; [apply cut_no0|exact H]. }
  intros H. destruct (net_parse_split v ts strict) as [(pre & r & Et & _ & _ & E)|[(pre & Et & _ & _ & E)|[(pre & m & Et & _ & _ & _ & _ & E)|[(e & x & E) _]]]];
    rewrite E in H; try discriminate.
  - exact (G pre r [] Et H).
  - apply (G pre [] []); [rewrite app_nil_r; exact Et|exact H].
  - apply (G pre (chars (47 :: m)) (chars m)); [rewrite Et, chars_app'; reflexivity|exact H].
Qed.
Lemma net_res_disjoint ts st st' a b : net_parse_res V4 ts st = Ret a -> net_parse_res V6 ts st' <> Ret b.
Proof.
  intros H4 H6. apply net_res_prefix in H4 as (t & r & x & E & N & H4). apply net_res_prefix in H6 as (t' & r' & x' & E' & N' & H6).
  apply v4_tokens in H4 as (s & Es & Q & _). apply chars_inj in Es. subst s. apply v6_tokens in H6 as (gs & S6 & _); [|exact N'].
  eapply (heads_differ t t' r r'); [eapply quad_head; eassumption|eapply scoped_head; eassumption|congruence].
Qed.
Lemma genuine_real ts : Forall tok_genuine ts -> Forall tok_real ts. Proof. exact (fun H => H). Qed.
Lemma addr_parse_real v ts : Forall tok_real ts -> real (addr_parse v ts).
Proof.
  intros H. destruct v; cbn [addr_parse]; apply real_bind.
  - apply v4_real. exact H.
  - intros b _. exact I.
  - apply v6_real. exact H.
  - intros [b t] _. exact I.
Qed.

Lemma ec_no e : ec_eqb e no_error = true <-> e = no_error.
Proof. destruct e; cbn; split; congruence. Qed.
Lemma ec_no_false e : e <> no_error -> ec_eqb e no_error = false.
Proof. destruct e; cbn; congruence. Qed.
(** *** Parsing addresses *)
Lemma any_parse_eq ts : Forall tok_genuine ts ->
  any_parse ts = match addr_parse V4 ts with Ret a => Ret (mk_aa V4 a) | _ => rmap (mk_aa V6) (addr_parse V6 ts) end.
Proof.
  intros G. pose proof (addr_parse_real V4 ts G) as R. pose proof (addr_parse_defined V4 ts) as D. unfold any_parse, addr_parse_code.
  destruct (addr_parse V4 ts) as [a|e x|u]; cbn [bind].
  - reflexivity.
  - rewrite ec_no_false by exact R. destruct (addr_parse V6 ts); reflexivity.
  - destruct D.
Qed.
Lemma any_parse_spec ts : Forall tok_genuine ts ->
  (forall a, any_parse ts = Ret (mk_aa V4 a) <-> addr_parse V4 ts = Ret a) /\
  (forall a, any_parse ts = Ret (mk_aa V6 a) <-> addr_parse V6 ts = Ret a) /\
  (forall e x, any_parse ts = Err e x <-> addr_parse V6 ts = Err e x /\ exists e' x', addr_parse V4 ts = Err e' x') /\
  is_defined (any_parse ts).
Proof.
  intros G. rewrite any_parse_eq by exact G. pose proof (addr_parse_defined V4 ts) as D4. pose proof (addr_parse_defined V6 ts) as D6.
  pose proof (addr_disjoint ts) as X. destruct (addr_parse V4 ts) as [a4|e4 x4|u4]; [| |destruct D4].
  - split; [intros a; split; intros K; apply ret_inj in K; congruence|]. split.
    + intros a. split; [intros K; apply ret_inj in K; congruence|]. intros K. destruct (X a4 a eq_refl K).
    + split; [|exact I]. intros e x. split; [discriminate|]. intros (_ & ? & ? & ?). discriminate.
  - destruct (addr_parse V6 ts) as [a6|e6 x6|u6]; cbn [rmap]; [| |destruct D6].
    + split; [intros a; split; intros K; [apply ret_inj in K|]; congruence|]. split; [intros a; split; intros K; apply ret_inj in K; congruence|].
      split; [|exact I]. intros e x. split; [discriminate|]. intros (? & _). discriminate.
    + split; [intros a; split; discriminate|]. split; [intros a; split; discriminate|]. split; [|exact I].
      intros e x. split; [intros [= <- <-]; eauto|]. intros ([= <- <-] & _). reflexivity.
Qed.
Lemma any_parse_code_spec ts code : Forall tok_genuine ts ->
  any_parse_code ts code = match any_parse ts with Ret x => Ret (x, no_error) | Err e _ => Ret (aa_default, e) | UB u => UB u end.
Proof.
  intros G. rewrite any_parse_eq by exact G. unfold any_parse_code, addr_parse_code. pose proof (addr_parse_real V4 ts G) as R4. pose proof (addr_parse_real V6 ts G) as R6.
  pose proof (addr_parse_defined V4 ts) as D4.
  destruct (addr_parse V4 ts) as [a|e x|u]; cbn [bind]; [reflexivity| |destruct D4].
  rewrite ec_no_false by exact R4. destruct (addr_parse V6 ts) as [b|e' x'|u']; cbn [bind rmap]; try reflexivity. rewrite ec_no_false by exact R6. reflexivity.
Qed.
Lemma genuine_chars s : Forall tok_genuine (chars s). Proof. apply chars_real. Qed.
Lemma any_language s x : no_nul s -> (any_parse (chars s) = Ret x <-> any_text s x).
Proof.
  intros N. destruct (any_parse_spec (chars s) (genuine_chars s)) as (P4 & P6 & _). destruct x as [[|] [b t]]; unfold any_text; cbn [aa_ver aa_addr a_bytes a_scope].
  - rewrite P4. cbn [addr_parse]. split.
    + destruct (v4_from_string (chars s)) as [b'| |] eqn:E; try discriminate. intros K. injection K as -> <-. left. apply v4_accept_iff in E. auto.
    + intros [(_ & Q & ->)|(? & _)]; [|discriminate]. apply v4_accept_iff in Q. rewrite Q. reflexivity.
  - rewrite P6. cbn [addr_parse]. split.
    + destruct (v6_from_string true (chars s)) as [[b' t']| |] eqn:E; try discriminate. intros K. injection K as -> ->. right.
      apply v6_accept_iff in E; [|exact N]. destruct E as (gs & A & B & C). eauto.
    + intros [(? & _)|(_ & R & gs & A & B)]; [discriminate|].
      assert (E : v6_from_string true (chars s) = Ret (b, t)) by (apply v6_accept_iff; eauto). rewrite E. reflexivity.
Qed.

(** *** Parsing networks *)
Lemma in_longer {A} (x : A) a b a' c : a ++ x :: b = a' ++ c -> (length a < length a')%nat -> In x a'.
Proof.
  intros E H. apply (nth_error_In a' (length a)). rewrite <- (nth_error_app1 a' c) by exact H. rewrite <- E.
  rewrite nth_error_app2 by lia. rewrite Nat.sub_diag. reflexivity.
Qed.
Lemma net_v4_ub ts st u : Forall tok_char ts -> net_parse_res V4 ts st = UB u ->
  exists pre m, ts = chars (pre ++ 47 :: m) /\ ~ In 47 pre /\ ~ In 47 m /\ zlen pre <= L V4 /\ dotted_quad m [0;0;0;0].
Proof.
  intros C H.
  assert (G : forall pre m, Forall is_char pre -> finish V4 pre m st = UB u -> exists m', m = chars m' /\ dotted_quad m' [0;0;0;0]).
  { intros pre m Cp K. destruct (finish_spec V4 pre m st Cp) as [(p & a & _ & _ & _ & _ & E)|[(e & x & E & _)|(_ & _ & m' & E)]].
    - rewrite E in K. destruct (_ =? 0); [discriminate|]. destruct st; discriminate.
    - congruence.
    - eauto. }
  assert (N0 : forall m', [] = chars m' -> ~ dotted_quad m' [0;0;0;0]).
  { intros [|? ?] E Q; [|discriminate]. apply quad_head in Q as ([|? ?] & r & E' & _); discriminate. }
  destruct (net_parse_split V4 ts st) as [(pre & r & -> & _ & _ & E)|[(pre & -> & _ & _ & E)|[(pre & m & -> & Np & Nm & _ & Lp & E)|[(e & x & E) _]]]]; rewrite E in H; try discriminate.
  - apply tok_chars in C. destruct (G _ _ C H) as (m' & E0 & Q). destruct (N0 m' E0 Q).
  - rewrite <- (app_nil_r (chars pre)) in C. apply tok_chars in C. destruct (G _ _ C H) as (m' & E0 & Q). destruct (N0 m' E0 Q).
  - rewrite chars_app' in C. apply tok_chars in C. destruct (G _ _ C H) as (m' & E0 & Q). apply chars_inj in E0. subst m'. exists pre, m. auto.
Qed.
Lemma chars_slash a r b : chars a ++ r = chars b -> exists c, b = a ++ c /\ r = chars c.
Proof.
  revert b. induction a as [|x a IH]; intros b E; [exists b; auto|]. destruct b as [|y b]; [discriminate|]. cbn in E. injection E as <- E.
  destruct (IH b E) as (c & -> & ->). exists c. auto.
Qed.
Lemma net_v6_masked pre m st n : Forall is_char pre -> ~ In 47 pre -> ~ In 47 m -> zlen pre <= L V6 -> net_parse_res V6 (chars (pre ++ 47 :: m)) st = Ret n ->
  m <> [] /\ exists p, mask_accepted V6 (chars m) p.
Proof.
  intros C Np Nm Hl H. destruct (net_parse_split V6 (chars (pre ++ 47 :: m)) st) as [(pre' & r & Et & N' & K & E)|[(pre' & Et & N' & _ & E)|[(pre' & m' & Et & N' & M' & Ne & _ & E)|[(e & x & E) _]]]]; rewrite E in H; try discriminate.
  - exfalso. symmetry in Et. apply chars_slash in Et as (c & Et & _). apply N'. apply (in_longer 47 pre m pre' c Et). unfold zlen in *. lia.
  - apply chars_inj in Et. destruct N'. rewrite <- Et. apply in_app_iff. right. left. reflexivity.
  - apply chars_inj in Et. apply sep_unique in Et as [<- <-]; auto. split; [exact Ne|]. destruct (finish_success V6 pre (chars m) st n C H) as (p & a & M & _). eauto.
Qed.
Lemma net_ub_v6 ts st st' u n : Forall tok_char ts -> net_parse_res V4 ts st = UB u -> net_parse_res V6 ts st' <> Ret n.
Proof.
  intros C H H6. destruct (net_v4_ub ts st u C H) as (pre & m & -> & Np & Nm & Lp & Q). rewrite chars_app' in C. apply tok_chars in C.
  apply net_v6_masked in H6 as (Ne & p & M); auto; [|unfold L, max_string_len in *; lia].
  destruct M as [[E _]|[(m' & x & E & D & _)|(K & _)]]; [destruct m; [contradiction|discriminate]| |discriminate].
  apply chars_inj in E. subst m'. apply dec_text_iff in D as (_ & D & _). exact (quad_not_digits _ _ Q D).
Qed.
Lemma anet_parse_spec ts st : Forall tok_genuine ts -> Forall tok_char ts ->
  (forall n, anet_parse ts st = Ret (mk_an V4 n) <-> net_parse V4 ts st = Ret n) /\
  (forall n, anet_parse ts st = Ret (mk_an V6 n) <-> net_parse V6 ts st = Ret n) /\
  (forall e x, anet_parse ts st = Err e x <-> net_parse V6 ts st = Err e x /\ exists e' x', net_parse V4 ts st = Err e' x') /\
  (forall u, anet_parse ts st = UB u <-> net_parse V4 ts st = UB u).
Proof.
  intros G C. rewrite !net_parse_is_res by exact G. pose proof (net_parse_real V4 ts st G) as R. pose proof (fun a b => net_res_disjoint ts st st a b) as X.
  pose proof (fun u n => net_ub_v6 ts st st u n C) as Y. assert (D6 : is_defined (net_parse_res V6 ts st)).
  { destruct (net_parse_res V6 ts st) as [| |u] eqn:E; try exact I. apply net_parse_ub in E; [|exact C]. destruct E as (_ & E & _). discriminate. }
  unfold anet_parse, net_parse_code. rewrite net_parse_is_res by exact G.
  destruct (net_parse_res V4 ts st) as [n4|e4 x4|u4]; cbn [bind]; cycle 1.
  - rewrite ec_no_false by exact R. destruct (net_parse_res V6 ts st) as [n6|e6 x6|u6]; cbn [bind]; [| |destruct D6].
    + split; [intros n; split; congruence|]. split; [intros n; split; intros K; apply ret_inj in K; congruence|]. split; [intros e x; split; [discriminate|intros (? & _); discriminate]|]. intros u. split; discriminate.
    + split; [intros n; split; discriminate|]. split; [intros n; split; discriminate|]. split; [intros e x; split; [intros [= <- <-]; eauto|intros ([= <- <-] & _); reflexivity]|]. intros u. split; discriminate.
  - split; [intros n; split; discriminate|]. split; [intros n; split; [discriminate|]; intros K; destruct (Y u4 n eq_refl K)|].
    split; [intros e x; split; [discriminate|intros (_ & ? & ? & ?); discriminate]|]. intros u. split; congruence.
  - change (ec_eqb no_error no_error) with true. cbv iota. split; [intros n; split; intros K; apply ret_inj in K; congruence|]. split.
    + intros n. split; [intros K; apply ret_inj in K; congruence|]. intros K. destruct (X n4 n eq_refl K).
    + split; [intros e x; split; [discriminate|intros (_ & ? & ? & ?); discriminate]|]. intros u. split; discriminate.
Qed.
Lemma anet_parse_code_spec ts code st : Forall tok_genuine ts ->
  anet_parse_code ts code st = match anet_parse ts st with Ret x => Ret (x, no_error) | Err e _ => Ret (an_default, e) | UB u => UB u end.
Proof.
  intros G. unfold anet_parse, anet_parse_code, net_parse_code. rewrite net_parse_is_res by exact G. pose proof (net_parse_real V4 ts st G) as R4. pose proof (net_parse_real V6 ts st G) as R6.
  destruct (net_parse_res V4 ts st) as [n|e x|u]; cbn [bind]; [reflexivity| |reflexivity].
  rewrite ec_no_false by exact R4. destruct (net_parse_res V6 ts st) as [b|e' x'|u']; cbn [bind]; try reflexivity. rewrite ec_no_false by exact R6. reflexivity.
Qed.

(** *** Conversions *)
Lemma low32 x : 0 <= x < 2 ^ 128 -> u32_of_u128 x = x mod 2 ^ 32.
Proof. intros H. unfold u32_of_u128. rewrite to_unsigned_ok by lia. rewrite to_of_Z, (Z.mod_small x) by exact H. reflexivity. Qed.
Lemma wide32 x : u128_of_u32 x = x. Proof. apply of_u64_ok. Qed.
Lemma any_uint128 x : wf_any x -> any_to_uint128 x = Ret (val (aa_addr x)).
Proof. destruct x as [[|] a]; intros W; unfold any_to_uint128; cbn [aa_ver aa_addr ver_eqb ver_num Z.eqb Pos.eqb]; rewrite to_uint_val by exact W; cbn [bind]; rewrite ?wide32; reflexivity. Qed.
Lemma any_uint32 x : wf_any x -> any_to_uint32 x = Ret (val (aa_addr x) mod 2 ^ 32).
Proof.
  destruct x as [[|] a]; intros W; unfold any_to_uint32; cbn [aa_ver aa_addr ver_eqb ver_num Z.eqb Pos.eqb]; rewrite to_uint_val by exact W; cbn [bind].
  - rewrite Z.mod_small by exact (val_range V4 a W). reflexivity.
  - rewrite low32 by exact (val_range V6 a W). reflexivity.
Qed.

(** *** Order *)
Lemma any_eqb_ok x y : wf_any x -> wf_any y -> exists r, any_eqb x y = Ret r /\ (r = true <-> x = y).
Proof.
  destruct x as [[|] a], y as [[|] b]; unfold wf_any, wf_anet; cbn [aa_ver aa_addr an_ver an_net]; intros Wx Wy; unfold any_eqb; cbn [aa_ver aa_addr ver_eqb ver_num Z.eqb Pos.eqb negb].
  2,3: exists false; split; [reflexivity|]; split; discriminate.
  all: destruct (addr_eqb_ok _ a b Wx Wy) as (r & -> & H); exists r; split; [reflexivity|]; rewrite H; split; [intros ->; reflexivity|intros K; injection K; auto].
Qed.
Lemma any_cmp_ok x y : wf_any x -> wf_any y ->
  exists c, any_cmp x y = Ret c /\ match c with Eq => x = y | Lt => any_before x y | Gt => any_before y x end.
Proof.
  destruct x as [[|] a], y as [[|] b]; unfold wf_any, wf_anet; cbn [aa_ver aa_addr an_ver an_net]; intros Wx Wy; unfold any_cmp, any_before; cbn [aa_ver aa_addr ver_num Z.compare Pos.compare Pos.compare_cont ver_eqb Z.eqb Pos.eqb].
  2: exists Lt; split; [reflexivity|]; left; auto.
  2: exists Gt; split; [reflexivity|]; left; auto.
  all: destruct (addr_cmp_ok _ a b Wx Wy) as (c & -> & H); exists c; split; [reflexivity|]; destruct c; [congruence|right; auto|right; auto].
Qed.
Lemma any_irrefl x : ~ any_before x x.
Proof. intros [[? ?]|[_ H]]; [congruence|exact (before_irrefl _ H)]. Qed.
Lemma any_trans x y z : any_before x y -> any_before y z -> any_before x z.
Proof.
  intros [[A B]|[A B]] [[C D]|[C D]]; [congruence|left; split; congruence|left; split; congruence|right]. split; [congruence|]. exact (before_trans _ _ _ B D).
Qed.
Lemma any_total x y : wf_any x -> wf_any y -> any_before x y \/ x = y \/ any_before y x.
Proof. intros Wx Wy. destruct (any_cmp_ok x y Wx Wy) as (c & _ & H). destruct c; auto. Qed.
Lemma any_ops20 x y : wf_any x -> wf_any y ->
  exists lt gt le ge, any_lt true x y = Ret lt /\ any_gt true x y = Ret gt /\ any_le true x y = Ret le /\ any_ge true x y = Ret ge /\
    (lt = true <-> any_before x y) /\ (gt = true <-> any_before y x) /\
    (le = true <-> any_before x y \/ x = y) /\ (ge = true <-> any_before y x \/ x = y).
Proof.
  intros Wx Wy. destruct (any_cmp_ok x y Wx Wy) as (c & E & H). unfold any_lt, any_gt, any_le, any_ge. rewrite E. cbn [bind]. do 4 eexists.
  do 4 (split; [reflexivity|]). pose proof (any_irrefl x) as I1. pose proof (any_irrefl y) as I2. pose proof (any_trans x y x) as T.
  destruct c; [subst y| |].
  - repeat split; intros K; try discriminate; auto; destruct K; tauto.
  - repeat split; intros K; try discriminate; auto; try tauto. destruct K as [K| ->]; tauto.
  - repeat split; intros K; try discriminate; auto; try tauto. destruct K as [K| ->]; tauto.
Qed.
Lemma any_ops17 x y : wf_any x -> wf_any y -> a_scope (aa_addr x) = a_scope (aa_addr y) ->
  any_lt false x y = any_lt true x y /\ any_gt false x y = any_gt true x y /\
  any_le false x y = any_le true x y /\ any_ge false x y = any_ge true x y.
Proof.
  destruct x as [[|] a], y as [[|] b]; unfold wf_any, wf_anet; cbn [aa_ver aa_addr an_ver an_net]; intros Wx Wy E; try (repeat split; reflexivity);
    destruct (op_cpp17 _ a b Wx Wy E) as (A & B & C & D); split; [exact A|split; [exact B|split; [exact C|exact D]]|exact A|split; [exact B|split; [exact C|exact D]]].
Qed.
Lemma anet_eqb_ok x y : wf_anet x -> wf_anet y -> exists r, anet_eqb x y = Ret r /\ (r = true <-> x = y).
Proof.
  destruct x as [[|] a], y as [[|] b]; unfold wf_any, wf_anet; cbn [aa_ver aa_addr an_ver an_net]; intros Wx Wy; unfold anet_eqb; cbn [an_ver an_net ver_eqb ver_num Z.eqb Pos.eqb negb].
  2,3: exists false; split; [reflexivity|]; split; discriminate.
  all: destruct (net_eqb_ok _ a b Wx Wy) as (r & -> & H); exists r; split; [reflexivity|]; rewrite H; split; [intros ->; reflexivity|intros K; injection K; auto].
Qed.
Lemma anet_cmp_ok x y : wf_anet x -> wf_anet y ->
  exists c, anet_cmp x y = Ret c /\ match c with Eq => x = y | Lt => anet_before x y | Gt => anet_before y x end.
Proof.
  destruct x as [[|] a], y as [[|] b]; unfold wf_any, wf_anet; cbn [aa_ver aa_addr an_ver an_net]; intros Wx Wy; unfold anet_cmp, anet_before; cbn [an_ver an_net ver_num Z.compare Pos.compare Pos.compare_cont ver_eqb Z.eqb Pos.eqb].
  2: exists Lt; split; [reflexivity|]; left; auto.
  2: exists Gt; split; [reflexivity|]; left; auto.
  all: destruct (net_cmp_ok _ a b Wx Wy) as (c & -> & H); exists c; split; [reflexivity|]; destruct c; [congruence|right; auto|right; auto].
Qed.
Lemma anet_ltb_ok x y : wf_anet x -> wf_anet y -> a_scope (n_addr (an_net x)) = a_scope (n_addr (an_net y)) ->
  exists r, anet_ltb x y = Ret r /\ (r = true <-> anet_before x y).
Proof.
  destruct x as [[|] a], y as [[|] b]; unfold wf_any, wf_anet; cbn [aa_ver aa_addr an_ver an_net]; intros Wx Wy E; unfold anet_ltb, anet_before; cbn [an_ver an_net ver_num Z.ltb Z.gtb Z.compare Pos.compare Pos.compare_cont ver_eqb Z.eqb Pos.eqb].
  2: exists true; split; [reflexivity|]; tauto.
  2: exists false; split; [reflexivity|]; split; [discriminate|]; intros [[? ?]|[? ?]]; discriminate.
  all: destruct (net_ltb_ok _ a b Wx Wy E) as (r & -> & H); exists r; split; [reflexivity|]; rewrite H; split; [intros K; right; auto|intros [[? ?]|[_ K]]; [discriminate|exact K]].
Qed.

(** *** Membership *)
Lemma anet_contains_ok x a : wf_anet x -> wf_any a -> (anet_contains x a = true <-> any_member x a).
Proof.
  destruct x as [[|] n], a as [[|] a]; unfold wf_any, wf_anet; cbn [aa_ver aa_addr an_ver an_net]; intros W Wa; unfold anet_contains, any_member; cbn [an_ver an_net aa_ver aa_addr ver_eqb ver_num Z.eqb Pos.eqb].
  2,3: split; [discriminate|intros [? _]; discriminate].
  all: rewrite (contains_spec _ n a W Wa); tauto.
Qed.
Lemma addr_of_any v x : 0 <= x < 2 ^ width v -> wf_any (mk_aa v (addr_of v x)) /\ val (addr_of v x) = x.
Proof. intros H. split; [apply addr_of_wf|apply addr_of_val]; exact H. Qed.
Lemma member_range v n x : wf_net v n -> in_net v n x -> 0 <= x < 2 ^ width v.
Proof. intros W H. pose proof (net_top v n W). unfold in_net in H. lia. Qed.
Lemma anet_overlaps_ok x y : wf_anet x -> wf_anet y -> (anet_overlaps x y = true <-> exists a, wf_any a /\ any_member x a /\ any_member y a).
Proof.
  destruct x as [v n], y as [w m]; unfold wf_anet, anet_overlaps, any_member; cbn [an_ver an_net]. intros Wn Wm.
  destruct v, w; cbn [ver_eqb ver_num Z.eqb Pos.eqb].
  2,3: split; [discriminate|]; intros (a & _ & [E _] & [E' _]); congruence.
  - rewrite (overlaps_spec V4) by assumption. split.
    + intros (x & A & B). destruct (addr_of_any V4 x (member_range _ _ _ Wn A)) as [W E]. exists (mk_aa V4 (addr_of V4 x)). cbn [aa_ver aa_addr]. rewrite E. auto.
    + intros (a & _ & [_ A] & [_ B]). eauto.
  - rewrite (overlaps_spec V6) by assumption. split.
    + intros (x & A & B). destruct (addr_of_any V6 x (member_range _ _ _ Wn A)) as [W E]. exists (mk_aa V6 (addr_of V6 x)). cbn [aa_ver aa_addr]. rewrite E. auto.
    + intros (a & _ & [_ A] & [_ B]). eauto.
Qed.
Lemma anet_subnet_ok sp x y : wf_anet x -> wf_anet y -> unscoped (an_net x) -> unscoped (an_net y) ->
  exists r, anet_subnet_of sp x y = Ret r /\ anet_supernet_of sp y x = Ret r /\ (r = true <-> forall a, any_member x a -> any_member y a).
Proof.
  destruct x as [v n], y as [w m]; unfold wf_anet, anet_subnet_of, anet_supernet_of, any_member; cbn [an_ver an_net]. intros Wn Wm Un Um.
  assert (D : v <> w -> ~ forall a : aaddr, v = aa_ver a /\ in_net v n (val (aa_addr a)) -> w = aa_ver a /\ in_net w m (val (aa_addr a))).
  { intros Hd K. pose proof (net_top v n Wn) as T. assert (R : in_net v n (first n)) by (unfold in_net; lia).
    destruct (addr_of_any v (first n) (member_range _ _ _ Wn R)) as [_ E]. destruct (K (mk_aa v (addr_of v (first n)))) as [K' _]; [cbn [aa_ver aa_addr]; rewrite E; auto|].
    cbn in K'. congruence. }
  assert (S0 : forall u, v = u -> w = u -> (subset u n m <-> forall a : aaddr, v = aa_ver a /\ in_net v n (val (aa_addr a)) -> w = aa_ver a /\ in_net w m (val (aa_addr a)))).
  { intros u <- Ew. subst w. split.
    - intros K a [E H]. split; [exact E|]. apply K. exact H.
    - intros K x Hx. destruct (addr_of_any v x (member_range _ _ _ Wn Hx)) as [_ E]. destruct (K (mk_aa v (addr_of v x))) as [_ K']; [cbn [aa_ver aa_addr]; rewrite E; auto|].
      cbn [aa_addr] in K'. rewrite E in K'. exact K'. }
  destruct v, w; unfold anet_is_v4; cbn [an_ver ver_eqb ver_num Z.eqb Pos.eqb].
  2,3: exists false; split; [reflexivity|]; split; [reflexivity|]; split; [discriminate|]; intros K; destruct D; [discriminate|exact K].
  - destruct (subnet_spec sp V4 n m Wn Wm Un Um) as (r & -> & -> & H). exists r. split; [reflexivity|]. split; [reflexivity|]. rewrite H. apply S0; reflexivity.
  - destruct (subnet_spec sp V6 n m Wn Wm Un Um) as (r & -> & -> & H). exists r. split; [reflexivity|]. split; [reflexivity|]. rewrite H. apply S0; reflexivity.
Qed.

(** *** Round trip *)
Lemma any_round_trip x fmt : wf_any x -> exists s, any_to_string x fmt = Ret s /\ any_parse (chars s) = Ret x.
Proof.
  destruct x as [[|] [b t]]; intros [B S0]; unfold any_to_string; cbn [aa_ver aa_addr ver_eqb ver_num Z.eqb Pos.eqb addr_to_string a_bytes a_scope] in *.
  - destruct (v4_round_trip_ok b B) as (s & -> & E). exists s. split; [reflexivity|]. destruct (any_parse_spec (chars s) (genuine_chars s)) as (P & _). apply P.
    cbn [addr_parse]. rewrite E. subst t. reflexivity.
  - destruct (v6_round_trip_ok b t fmt B (proj1 S0)) as (s & -> & E). exists s. split; [reflexivity|]. destruct (any_parse_spec (chars s) (genuine_chars s)) as (_ & P & _). apply P.
    cbn [addr_parse]. rewrite E. reflexivity.
Qed.
