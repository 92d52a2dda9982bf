(** The complete languages of the IPv6, mask and network parsers. *)
From Verif Require Import Base Tac SpecText TextProofs UnicodeModel FixedStringModel V4Model V6Model Uint128Model SpecV4 SpecV6 SpecAddr SpecStr SpecOrder
  V4Proofs BufProofs StrProofs FixedStringProofs V6Proofs V6Parse V6Grammar V6Full V6Lemmas AddressModel NetworkModel SpecNet MaskProofs NetProofs NetProofs2 NetText NetText2 NetText3 ErrProofs SpecLoose.

Lemma before_cut s : before_nul s (cut s).
Proof. split; [apply cut_no0|]. destruct (cut_split s) as [E|E]; [left; congruence|right; exact E]. Qed.
Lemma before_is s t : before_nul s t -> t = cut s.
Proof.
  intros [N [->|[r ->]]]; [symmetry; apply cut_id; exact N|]. induction t as [|c t IH]; [reflexivity|].
  cbn. destruct (Z.eqb_spec c 0); [destruct N; left; assumption|]. f_equal. apply IH. intros K. apply N. right. exact K.
Qed.
Lemma before_iff s t : before_nul s t <-> t = cut s.
Proof. split; [apply before_is|intros ->; apply before_cut]. Qed.
Lemma before_map ps ps' : Forall2 before_nul ps ps' <-> ps' = map cut ps.
Proof.
  split.
  - induction 1 as [|p p' ps ps' H _ IH]; [reflexivity|]. cbn. apply before_is in H. congruence.
  - intros ->. induction ps; constructor; [apply before_cut|assumption].
Qed.
Lemma in_cut c s : In c (cut s) -> In c s.
Proof. induction s as [|x s IH]; cbn; [auto|]. destruct (x =? 0); cbn; [tauto|]. intros [H|H]; auto. Qed.
Lemma cut_cut s : cut (cut s) = cut s.
Proof. apply cut_id, cut_no0. Qed.
Lemma cut_zlen s : zlen (cut s) <= zlen s.
Proof. unfold zlen. pose proof (cut_len s). lia. Qed.
Lemma flat_no_nul ps q : no_nul (join (map cut ps ++ [cut q])).
Proof.
  rewrite join_flat. unfold no_nul. rewrite in_app_iff. intros [H|H]; [|exact (cut_no0 _ H)].
  unfold flat in H. apply in_flat_map in H as (p & Hp & H). apply in_map_iff in Hp as (p0 & <- & _).
  apply in_app_iff in H as [H|[H|[]]]; [exact (cut_no0 _ H)|discriminate].
Qed.
Lemma dot_in p : existsb (fun c => c =? 46) p = true <-> In 46 p.
Proof.
  rewrite existsb_exists. split; [intros (x & I & E); apply Z.eqb_eq in E; subst; exact I|intros I; exists 46; auto].
Qed.
Lemma no_dot_bad q b : ~ In 46 q -> v4_from_string (chars q) <> Ret b.
Proof. intros N H. apply v4_accept_iff in H. apply N. apply (quad_chars q b H). Qed.
(** The scan of the cut pieces. *)
Lemma cut_pieces d : Forall piece d -> Forall piece (map cut d).
Proof.
  induction 1 as [|p d [A B] _ IH]; constructor; [|exact IH]. split; [intros K; apply A, in_cut, K|]. pose proof (cut_zlen p). lia.
Qed.
Lemma abs_parts_cut d c : Forall piece d -> ~ In 58 c -> zlen c <= 16 ->
  (~ In 46 c /\ zlen c <= 4) \/ In 46 (cut c) -> (length d <= 8)%nat ->
  abs_parts (flat (map cut d) ++ cut c) = abs_parts (flat d ++ c).
Proof.
  intros Hd Hc H16 Hdot Hl. unfold abs_parts. rewrite (scan_complete d c) by assumption.
  rewrite (scan_complete (map cut d) (cut c)); [|apply cut_pieces; exact Hd|intros K; apply Hc, in_cut, K|rewrite map_length; exact Hl|pose proof (cut_zlen c); lia].
  assert (Em : zlen (map cut d) = zlen d) by (unfold zlen; rewrite map_length; reflexivity). rewrite Em.
  destruct (zlen d >? 8); [reflexivity|]. unfold abs_last. rewrite Em, cut_cut.
  assert (Ed : existsb (fun x => x =? 46) (cut c) = existsb (fun x => x =? 46) c).
  { destruct Hdot as [[N _]|I].
    - rewrite !no_dot; [reflexivity|exact N|]. intros K. apply N, in_cut, K.
    - transitivity true; [apply dot_in; exact I|symmetry; apply dot_in, in_cut, I]. }
  rewrite Ed. destruct (existsb (fun x => x =? 46) c) eqn:E46.
  - destruct (zlen d + 1 >=? 8); [reflexivity|]. destruct (v4_from_string (chars (cut c))) as [[|a [|b [|x [|y [|z r]]]]]| |]; try reflexivity.
    unfold zlen. rewrite !app_length, map_length. destruct (_ <? 3); [reflexivity|]. rewrite !map_app, map_map. do 2 f_equal. apply map_ext, cut_cut.
  - destruct Hdot as [[N H4]|I]; [|apply in_cut, dot_in in I; congruence]. pose proof (cut_zlen c).
    destruct (Z.gtb_spec (zlen c) 4); [lia|]. destruct (Z.gtb_spec (zlen (cut c)) 4); [lia|].
    unfold zlen. rewrite !app_length, map_length. cbn [length]. destruct (_ <? 3); [reflexivity|]. rewrite !map_app, map_map. cbn [map]. rewrite cut_cut.
    do 2 f_equal. apply map_ext, cut_cut.
Qed.
Lemma abs_parts_last d c ps : Forall piece d -> ~ In 58 c -> zlen c <= 16 -> (length d <= 8)%nat -> abs_parts (flat d ++ c) = Some ps ->
  (~ In 46 c /\ zlen c <= 4) \/ In 46 (cut c).
Proof.
  intros Hd Hc H16 Hl. unfold abs_parts. rewrite (scan_complete d c) by assumption.
  destruct (zlen d >? 8); [discriminate|]. unfold abs_last. destruct (existsb (fun x => x =? 46) c) eqn:E46.
  - intros H. right. destruct (in_dec Z.eq_dec 46 (cut c)) as [I|N]; [exact I|]. exfalso.
    destruct (zlen d + 1 >=? 8); [discriminate|]. pose proof (no_dot_bad (cut c)) as B.
    destruct (v4_from_string (chars (cut c))) as [b| |]; [|discriminate..]. exact (B b N eq_refl).
  - intros H. left. split; [intros I; apply dot_in in I; congruence|]. destruct (Z.gtb_spec (zlen c) 4); [discriminate|lia].
Qed.
Lemma scan_pieces s d c : scan s [] [] = Some (d, c) -> s = flat d ++ c /\ Forall piece d /\ ~ In 58 c /\ zlen c <= 16.
Proof.
  intros E. destruct (scan_bound s [] [] d c E ltac:(cbn; lia) ltac:(cbn; lia)) as [Hc _].
  apply scan_sound in E; [|constructor|intros []]. destruct E as (E & Hd & H58). cbn in E. auto.
Qed.
Lemma text_pieces ps q gs : Forall piece ps -> ~ In 58 q -> v6_text (join (ps ++ [q])) gs -> ~ long_quad (join (ps ++ [q])) -> (length ps <= 8)%nat.
Proof.
  intros Hp Hq T N. apply text_raw in T; [|exact N]. destruct T as (x & h & l & sk & E & _). unfold abs_parts in E.
  destruct (scan (join (ps ++ [q])) [] []) as [[d c]|] eqn:Es; [|discriminate]. destruct (scan_pieces _ _ _ Es) as (Ej & Hd & Hc & _).
  rewrite join_flat in Ej.
  assert (G : forall d1 c1 d2 c2, Forall piece d1 -> Forall piece d2 -> ~ In 58 c1 -> ~ In 58 c2 -> flat d1 ++ c1 = flat d2 ++ c2 -> d1 = d2).
  { clear. induction d1 as [|p d1 IH]; intros c1 [|p2 d2] c2 H1 H2 N1 N2 E; [reflexivity| | |].
    - exfalso. cbn in E. apply N1. rewrite E. rewrite <- !app_assoc. apply in_app_iff. right. left. reflexivity.
    - exfalso. cbn in E. apply N2. rewrite <- E. rewrite <- !app_assoc. apply in_app_iff. right. left. reflexivity.
    - change (flat (p :: d1)) with ((p ++ [58]) ++ flat d1) in E. change (flat (p2 :: d2)) with ((p2 ++ [58]) ++ flat d2) in E.
      rewrite <- !app_assoc in E. cbn [app] in E. inversion H1 as [|? ? [A1 _] B1]; subst. inversion H2 as [|? ? [A2 _] B2]; subst.
      apply (sep_unique 58) in E as [-> E]; [|assumption..]. f_equal. exact (IH c1 d2 c2 B1 B2 N1 N2 E). }
  rewrite (G _ _ _ _ Hp Hd Hq Hc Ej). destruct (Z.gtb_spec (zlen d) 8); [discriminate|]. unfold zlen in *. lia.
Qed.
Lemma raw_loose s gs : raw s gs <-> v6_loose s gs.
Proof.
  split.
  - intros R. pose proof R as (x & h & l & sk & E & Sh & G). unfold abs_parts in E.
    destruct (scan s [] []) as [[d c]|] eqn:Es; [|discriminate]. destruct (scan_pieces _ _ _ Es) as (Ej & Hd & Hc & H16).
    assert (Hl : (length d <= 8)%nat) by (destruct (Z.gtb_spec (zlen d) 8); [discriminate|unfold zlen in *; lia]).
    assert (E' : abs_parts (flat d ++ c) = Some x) by (rewrite <- Ej; unfold abs_parts; rewrite Es; exact E).
    pose proof (abs_parts_last d c x Hd Hc H16 Hl E') as Hdot.
    assert (R' : raw (join (map cut d ++ [cut c])) gs).
    { exists x, h, l, sk. split; [|auto]. rewrite join_flat, abs_parts_cut; assumption. }
    apply raw_iff in R' as [T N]; [|apply flat_no_nul].
    exists d, c, (map cut d), (cut c). rewrite join_flat. split; [exact Ej|]. split; [exact Hd|]. split; [exact Hc|].
    split; [apply before_map; reflexivity|]. split; [apply before_cut|]. split; [tauto|]. split; [exact T|exact N].
  - intros (d & c & d' & c' & -> & Hd & Hc & Bd & Bc & Hdot & T & N). apply before_map in Bd. apply before_is in Bc. subst d' c'.
    assert (H16 : zlen c <= 16) by lia.
    assert (Hl : (length d <= 8)%nat).
    { rewrite <- (map_length cut d). eapply text_pieces; [apply cut_pieces; exact Hd| |exact T|exact N]. intros K. apply Hc, in_cut, K. }
    assert (R : raw (join (map cut d ++ [cut c])) gs) by (apply raw_iff; [apply flat_no_nul|auto]).
    destruct R as (x & h & l & sk & E & Sh & G). exists x, h, l, sk. split; [|auto]. rewrite join_flat in *.
    rewrite <- abs_parts_cut; [exact E|exact Hd|exact Hc|exact H16|tauto|exact Hl].
Qed.
Lemma scope_okb_loose u : scope_okb u = true <-> zlen u <= 16 /\ Forall scope_char u /\ cut u <> [].
Proof.
  unfold scope_okb. rewrite !andb_true_iff, forallb_forall, Forall_forall.
  assert (A : negb (hd 0 u =? 0) = true <-> cut u <> []).
  { destruct u as [|c u]; cbn; [split; [discriminate|intros K; destruct K; reflexivity]|].
    destruct (Z.eqb_spec c 0); cbn; split; try discriminate; auto; intros K; destruct K; reflexivity. }
  rewrite A. split.
  - intros [[F H] N]. split; [lia|]. split; [|exact N]. intros x Hx. apply F in Hx. apply scope_char_iff.
    destruct (is_invalid_scope_id_symbol x); [discriminate|reflexivity].
  - intros (H & F & N). split; [split|exact N]; [|lia]. intros x Hx. apply F, scope_char_iff in Hx. rewrite Hx. reflexivity.
Qed.
Lemma v6_exact s b t : v6_from_string true (chars s) = Ret (b, t) <-> exists gs, v6_loose_scoped s gs t /\ b = group_bytes gs.
Proof.
  rewrite v6_accept_raw. split.
  - intros [(H & -> & gs & R & ->)|(a & u & -> & H & Hu & -> & gs & R & ->)]; apply raw_loose in R; exists gs; (split; [|reflexivity]).
    + left. auto.
    + right. exists a, u. apply scope_okb_loose in Hu as (L & F & N). do 5 (split; [auto|]). split; [apply before_cut|exact N].
  - intros (gs & [(H & R & ->)|(a & u & -> & H & R & L & F & B & N)] & ->); apply raw_loose in R; [left|right].
    + split; [exact H|]. split; [reflexivity|]. eauto.
    + apply before_is in B. subst t. exists a, u. split; [reflexivity|]. split; [exact H|]. split; [apply scope_okb_loose; auto|].
      split; [reflexivity|]. eauto.
Qed.
Lemma scope_exact s t : v6_set_scope (zlen s) (chars s) = Ret t <-> zlen s <= 16 /\ Forall scope_char s /\ before_nul s t.
Proof. rewrite set_scope_iff, before_iff. tauto. Qed.

(** *** Masks *)
Lemma mask_loose v m p : m <> [] -> (mask_accepted v (chars m) p <-> loose_mask v m p).
Proof.
  intros N. unfold mask_accepted, loose_mask. split.
  - intros [[E _]|[(m' & x & E & D & P)|(-> & m' & q & E & Q)]].
    + destruct m; [contradiction|discriminate].
    + apply chars_inj in E. subst m'. left. eauto.
    + apply chars_inj in E. subst m'. right. eauto.
  - intros [(x & D & P)|(-> & q & Q)]; right; [left|right]; [exists m, x; auto|]. split; [reflexivity|]. exists m, q. tauto.
Qed.
Lemma mask_not_undefined v ts p : mask_undefined v ts -> ~ mask_accepted v ts p.
Proof.
  intros (-> & q & -> & Q) M.
  destruct M as [[K _]|[(m' & x' & K & D' & _)|(_ & m' & q' & K & Q' & B)]].
  - destruct q; [|discriminate]. destruct Q as ([|? ?] & ? & ? & ? & ? & ? & ? & ? & _ & _ & _ & _ & K' & _); discriminate.
  - apply chars_inj in K. subst m'. apply dec_text_iff in D' as (_ & D' & _). exact (quad_not_digits _ _ Q D').
  - apply chars_inj in K. subst m'. apply v4_accept_iff in Q, Q'. rewrite Q in Q'. apply ret_inj in Q'. subst q'.
    change (be_value [0; 0; 0; 0]) with 0 in B. destruct B as [[B1 B2]|[B1 B2]].
    + pose proof (Z.pow_lt_mono_r 2 (32 - p) 32 ltac:(lia) ltac:(lia) ltac:(lia)). lia.
    + pose proof (Z.pow_lt_mono_r 2 0 (32 - p) ltac:(lia) ltac:(lia) ltac:(lia)). change (2 ^ 0) with 1 in *. lia.
Qed.
Lemma mask_exact v m p : m <> [] ->
  ((exists a, parse_netmask v (chars m) = Ret (a, p)) <-> loose_mask v m p) /\
  (forall a, parse_netmask v (chars m) = Ret (a, p) -> wf_addr v a /\ a_scope a = [] /\ val a = 2 ^ width v - 2 ^ (width v - p)).
Proof.
  intros N. rewrite <- mask_loose by exact N.
  destruct (parse_netmask_spec v (chars m)) as [(p0 & Hp & E & U)|[(e & x & E & Na & _)|(E & K)]]; rewrite E.
  - split.
    + rewrite <- U. split; [intros [a H]; apply ret_inj in H; congruence|intros ->; eauto].
    + intros a H. apply ret_inj in H. injection H as <- <-. split; [apply mask_of_wf; exact Hp|].
      split; [apply mask_of_scope; exact Hp|apply mask_of_val; exact Hp].
  - split; [|discriminate]. split; [intros [a H]; discriminate|]. intros K. destruct (Na p K).
  - split; [|discriminate]. split; [intros [a H]; discriminate|]. intros M. exfalso. clear E. revert M. apply mask_not_undefined. exact K.
Qed.

Lemma mask_undefined_exact v m u : parse_netmask v (chars m) = UB u <-> u = BadShift /\ v = V4 /\ dotted_quad m [0; 0; 0; 0].
Proof.
  assert (E : mask_undefined v (chars m) <-> v = V4 /\ dotted_quad m [0; 0; 0; 0]).
  { unfold mask_undefined. split.
    - intros (-> & m' & E & Q). apply chars_inj in E. subst. auto.
    - intros (-> & Q). eauto. }
  destruct (parse_netmask_spec v (chars m)) as [(p0 & Hp & K & U)|[(e & x & K & Na & Nu)|(K & Hu)]]; rewrite K.
  - split; [discriminate|]. intros (_ & H). apply E in H. destruct (mask_not_undefined v (chars m) p0 H). apply U. reflexivity.
  - split; [discriminate|]. intros (_ & H). apply E in H. contradiction.
  - split; [intros [= <-]; split; [reflexivity|apply E; exact Hu]|intros [-> _]; reflexivity].
Qed.

(** *** Networks *)
Lemma In_firstn (c : Z) n l : In c (firstn n l) -> In c l.
Proof. intros H. rewrite <- (firstn_skipn n l). apply in_app_iff. left. exact H. Qed.
Lemma longest_L v : longest_address v = L v. Proof. destruct v; reflexivity. Qed.
Lemma mask_none v p : mask_accepted v [] p <-> p = width v.
Proof.
  split; [|intros ->; left; auto]. intros [[_ H]|[(m & x & E & [N _] & _)|(_ & m & q & E & Q & _)]]; [exact H| |].
  - destruct m; [contradiction|discriminate].
  - destruct m; [|discriminate]. apply quad_chars in Q as (_ & _ & []).
Qed.
Lemma mask_nonempty v m p : loose_mask v m p -> m <> [] /\ ~ In 47 m.
Proof.
  intros M. assert (N : m <> []).
  { intros ->. destruct M as [(x & [N _] & _)|(_ & q & Q & _)]; [contradiction|]. apply quad_chars in Q as (_ & _ & []). }
  split; [exact N|]. apply (mask_no_slash v m p), mask_loose; assumption.
Qed.
Lemma net_slash v r m strict : ~ In 47 r -> ~ In 47 m -> m <> [] -> zlen r <= L v ->
  net_parse_res v (chars (r ++ 47 :: m)) strict = finish v r (chars m) strict.
Proof.
  intros Nr Nm Hm Hl.
  destruct (net_parse_split v (chars (r ++ 47 :: m)) strict) as [(pre & r' & E & Ns & Ln & R)|[(pre & E & Ns & Ln & R)|[(pre & m' & E & Ns & Nm' & Hm' & Ln & R)|[_ (pre & r' & E & Ns & Ln & Hr)]]]].
  - exfalso. apply chars_prefix in E as (r2 & E & ->). pose proof (slash_fits v r m Nr Hl pre r2 E Ns). change (match v with V4 => 15 | V6 => 57 end) with (L v) in *. lia.
  - exfalso. apply chars_inj in E. apply Ns. rewrite <- E. apply in_app_iff. right. left. reflexivity.
  - apply chars_inj in E. apply (sep_unique 47) in E as [-> ->]; [|assumption..]. exact R.
  - exfalso. apply chars_prefix in E as (r2 & E & ->). destruct Hr as [(e & x & r3 & K)|(r3 & K & F)]; [destruct r2; discriminate|].
    destruct r2 as [|c r2]; [discriminate|]. injection K as -> <-. apply (sep_unique 47) in E as [-> ->]; [|assumption..].
    destruct (F r2 eq_refl) as [K|K]; contradiction.
Qed.
Lemma char_sub (P : Z -> Prop) a b : Forall P (a ++ b) -> Forall P a.
Proof. intros H. apply Forall_app in H. tauto. Qed.
Lemma net_exact v s strict n : Forall is_char s ->
  (net_parse v (chars s) strict = Ret n <->
   exists t p a, net_loose v s t p /\ addr_parse v (chars t) = Ret a /\ from_address v a p strict = Ret n).
Proof.
  intros C. rewrite net_parse_is_res by apply chars_real. unfold net_loose. rewrite longest_L. split.
  - intros H.
    destruct (in_dec Z.eq_dec 47 (firstn (Z.to_nat (L v + 1)) s)) as [I|N].
    + destruct (net_parse_split v (chars s) strict) as [(pre & r & E & Ns & Ln & R)|[(pre & E & Ns & Ln & R)|[(pre & m & E & Ns & Nm & Hm & Ln & R)|[(e & x & R) _]]]]; rewrite R in H; [| | |discriminate].
      * exfalso. apply chars_prefix in E as (r' & -> & ->). rewrite firstn_app in I. unfold zlen in Ln.
        replace (Z.to_nat (L v + 1) - length pre)%nat with O in I by lia. rewrite firstn_O, app_nil_r in I.
        apply Ns. eapply In_firstn. exact I.
      * exfalso. apply chars_inj in E. subst. apply Ns. eapply In_firstn. exact I.
      * apply chars_inj in E. subst s. destruct (finish_success v pre (chars m) strict n (char_sub _ _ _ C) H) as (p & a & M & A & F).
        apply mask_loose in M; [|exact Hm]. exists (cut pre), p, a. split; [right|].
        -- exists pre, m. auto 6 using before_cut.
        -- split; [|exact F]. rewrite <- A. unfold text_of. rewrite firstn_all2 by (unfold zlen in Ln; lia). reflexivity.
    + rewrite net_reads in H by exact N. destruct (finish_success v s [] strict n C H) as (p & a & M & A & F). apply mask_none in M. subst p.
      exists (text_of v s), (width v), a. split; [left|auto]. split; [exact N|]. split; [apply before_cut|reflexivity].
  - intros (t & p & a & [(N & B & ->)|(r & m & -> & Nr & Hl & B & M)] & A & F); apply before_is in B; subst t.
    + rewrite net_reads by exact N. apply (finish_ret v s [] strict (width v) a n); [exact C|apply mask_none; reflexivity|exact A|exact F].
    + destruct (mask_nonempty v m p M) as [Hm Nm]. rewrite net_slash by assumption. 
      apply (finish_ret v r (chars m) strict p a n); [exact (char_sub _ _ _ C)|apply mask_loose; assumption| |exact F]. rewrite <- A. unfold text_of.
      rewrite firstn_all2 by (unfold zlen in Hl; lia). reflexivity.
Qed.
Lemma net_undefined_exact v s strict u : Forall is_char s ->
  (net_parse v (chars s) strict = UB u <->
   u = BadShift /\ v = V4 /\ exists r m, s = r ++ 47 :: m /\ ~ In 47 r /\ zlen r <= 15 /\ dotted_quad m [0; 0; 0; 0]).
Proof.
  intros C. rewrite net_parse_is_res by apply chars_real. split.
  - intros H.
    assert (Z0 : forall pre, Forall is_char pre -> finish v pre [] strict <> UB u).
    { intros pre Cp K. destruct (finish_spec v pre [] strict Cp) as [(p & a & _ & _ & _ & _ & K')|[(e & x & K' & _)|[_ (_ & q & E & Q)]]].
      - rewrite K' in K. destruct (_ =? 0); [discriminate|]. destruct strict; discriminate.
      - congruence.
      - destruct q; [apply quad_chars in Q as (_ & _ & [])|discriminate]. }
    destruct (net_parse_split v (chars s) strict) as [(pre & r & E & Ns & Ln & R)|[(pre & E & Ns & Ln & R)|[(pre & m & E & Ns & Nm & Hm & Ln & R)|[(e & x & R) _]]]]; rewrite R in H; [| | |discriminate].
    + apply chars_prefix in E as (r' & -> & ->). destruct (Z0 pre (char_sub _ _ _ C) H).
    + apply chars_inj in E. subst. destruct (Z0 pre C H).
    + apply chars_inj in E. subst s. destruct (finish_spec v pre (chars m) strict (char_sub _ _ _ C)) as [(p & a & _ & _ & _ & _ & K)|[(e & x & K & _)|[K (-> & m' & E & Q)]]]; rewrite K in H.
      * destruct (_ =? 0); [discriminate|]. destruct strict; discriminate.
      * discriminate.
      * injection H as <-. apply chars_inj in E. subst m'. split; [reflexivity|]. split; [reflexivity|]. exists pre, m. auto.
  - intros (-> & -> & r & m & -> & Nr & Hl & Q). rewrite net_slash; [|exact Nr| |intros ->; apply quad_chars in Q as (_ & _ & [])|exact Hl].
    2:{ intros I. apply quad_chars in Q as [Q _]. rewrite Forall_forall in Q. apply Q in I. unfold is_dec_digit in I. lia. }
    destruct (finish_spec V4 r (chars m) strict (char_sub _ _ _ C)) as [(p & a & _ & M & _)|[(e & x & _ & N & _)|[K _]]]; [| |exact K].
    + exfalso. revert M. apply mask_not_undefined. split; [reflexivity|]. eauto.
    + exfalso. apply N. split; [reflexivity|]. eauto.
Qed.
