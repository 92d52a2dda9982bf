(** The errors of network texts. *)
From Verif Require Import Base Tac SpecText TextProofs UnicodeModel FixedStringModel V4Model V6Model Uint128Model SpecV4 SpecV6 SpecAddr SpecStr SpecOrder
  V4Proofs V4Lemmas BitProofs BufProofs StrProofs FixedStringProofs V6Proofs V6Parse V6Grammar V6Full V6Lemmas AddressModel NetworkModel SpecNet MaskProofs NetProofs NetProofs2 NetText NetText2 NetText3 ErrProofs SpecLoose LooseProofs
  SpecV6Err V6ErrLemmas ErrNumber SpecNetErr.

(** *** Splitting *)
Lemma res_prefix v pre r strict : ~ In 47 pre -> net_parse_res v (chars pre ++ r) strict =
  '(address, mask_tokens) <- (if zlen pre <=? L v then net_split (L v) r (buf (L v + 1) pre) (zlen pre) false []
                              else Ret (buf (L v + 1) (firstn (Z.to_nat (L v + 1)) pre), [])) ;;
  '(netmask, prefixlen) <- parse_netmask v mask_tokens ;;
  a <- with_value (mask_value v mask_tokens) (addr_parse_array v address) ;;
  a <- with_value (mask_value v mask_tokens) (strict_netmask v a netmask strict) ;; Ret (mk_net a netmask prefixlen).
Proof.
  intros N. pose proof (L_pos v) as HL. unfold net_parse_res. fold (L v). rewrite buf_nil. change 0 with (zlen (@nil Z)) at 1.
  rewrite (split_prefix (L v) HL) by (auto; cbn; lia). cbn [app]. reflexivity.
Qed.
Lemma suffix_skip M : forall m r a sym nm, ~ In 47 m -> sym <= M -> net_split M (chars m ++ r) a sym true nm = net_split M r a sym true nm.
Proof.
  induction m as [|c m IH]; intros r a sym nm N H; [reflexivity|]. cbn [chars map app net_split].
  destruct (Z.eqb_spec c 47) as [->|_]; [destruct N; left; reflexivity|]. cbn [andb negb bind]. destruct (Z.gtb_spec sym M); [lia|].
  apply IH; [|exact H]. intros K. apply N. right. exact K.
Qed.
Lemma suffix_slash M : forall m r a sym nm, sym <= M -> net_split M (chars m ++ Ch 47 :: r) a sym true nm = Err only_one_slash_permitted 0.
Proof.
  induction m as [|c m IH]; intros r a sym nm H; [reflexivity|]. cbn [chars map app net_split].
  destruct (Z.eqb_spec c 47) as [->|_]; [reflexivity|]. cbn [andb negb bind]. destruct (Z.gtb_spec sym M); [lia|]. apply IH. exact H.
Qed.
Lemma before_L v r : before_slash v r -> ~ In 47 r /\ (zlen r <=? L v) = true /\ zlen r <= L v.
Proof. unfold before_slash. rewrite longest_L. intros [N H]. split; [exact N|]. split; [apply Z.leb_le; exact H|exact H]. Qed.
Lemma res_bad v r e x rest strict : before_slash v r -> net_parse_res v (chars r ++ Bad e x :: rest) strict = Err e x.
Proof. intros B. apply before_L in B as (N & E & _). rewrite res_prefix, E by exact N. reflexivity. Qed.
Lemma res_open v r ts strict : before_slash v r -> ts <> [] -> net_parse_res v (chars r ++ Ch 47 :: ts) strict =
  '(address, mask_tokens) <- net_split (L v) ts (buf (L v + 1) r) (zlen r) true ts ;;
  '(netmask, prefixlen) <- parse_netmask v mask_tokens ;;
  a <- with_value (mask_value v mask_tokens) (addr_parse_array v address) ;;
  a <- with_value (mask_value v mask_tokens) (strict_netmask v a netmask strict) ;; Ret (mk_net a netmask prefixlen).
Proof.
  intros B T. apply before_L in B as (N & E & H). rewrite res_prefix, E by exact N. cbn [net_split]. cbn [Z.eqb Pos.eqb andb].
  destruct (Z.eqb_spec (zlen ts) 0) as [Z0|_]; [destruct ts; [contradiction|unfold zlen in Z0; cbn [length] in Z0; lia]|].
  cbn [bind negb]. destruct (Z.gtb_spec (zlen r) (L v)); [lia|]. reflexivity.
Qed.
Lemma chars_mid r m ts : chars (r ++ 47 :: m) ++ ts = chars r ++ Ch 47 :: (chars m ++ ts).
Proof. rewrite chars_app, <- app_assoc. reflexivity. Qed.
Lemma res_bad_mask v r m e x rest strict : before_slash v r -> ~ In 47 m -> net_parse_res v (chars (r ++ 47 :: m) ++ Bad e x :: rest) strict = Err e x.
Proof.
  intros B N. rewrite chars_mid, res_open by (try exact B; destruct m; discriminate). apply before_L in B as (_ & _ & H).
  rewrite suffix_skip by assumption. reflexivity.
Qed.
Lemma res_slashes v r m rest strict : before_slash v r -> net_parse_res v (chars (r ++ 47 :: m) ++ Ch 47 :: rest) strict = Err only_one_slash_permitted 0.
Proof.
  intros B. rewrite chars_mid, res_open by (try exact B; destruct m; discriminate). apply before_L in B as (_ & _ & H).
  rewrite suffix_slash by assumption. reflexivity.
Qed.
Lemma res_no_mask v r strict : before_slash v r -> net_parse_res v (chars (r ++ [47])) strict = Err empty_netmask 0.
Proof. intros B. apply before_L in B as (N & E & _). rewrite chars_app, res_prefix, E by exact N. reflexivity. Qed.
Lemma res_mask v r m strict : before_slash v r -> ~ In 47 m -> m <> [] -> net_parse_res v (chars (r ++ 47 :: m)) strict = finish v r (chars m) strict.
Proof. intros [N H] Nm Hm. rewrite longest_L in H. apply net_slash; assumption. Qed.
Lemma res_alone v r strict : before_slash v r -> net_parse_res v (chars r) strict = finish v r [] strict.
Proof.
  intros B. apply before_L in B as (N & E & H). rewrite <- (app_nil_r (chars r)), res_prefix, E by exact N. cbn [net_split bind]. unfold finish.
  destruct (parse_netmask v []) as [[nm p]|e x|u]; cbn [bind]; try reflexivity. rewrite parse_buf by lia. reflexivity.
Qed.
Lemma res_long v r rest strict : ~ In 47 r -> L v < zlen r -> net_parse_res v (chars r ++ rest) strict = finish v r [] strict.
Proof.
  intros N H. rewrite res_prefix by exact N. destruct (Z.leb_spec (zlen r) (L v)); [lia|]. cbn [bind]. unfold finish.
  destruct (parse_netmask v []) as [[nm p]|e x|u]; cbn [bind]; try reflexivity.
  rewrite parse_buf, text_firstn by (unfold zlen; rewrite firstn_length; pose proof (L_pos v); lia). reflexivity.
Qed.
(** Every sequence of symbols has one of these shapes. *)
Lemma shapes v ts :
  (exists r, ts = chars r /\ before_slash v r) \/ (exists r rest, ts = chars r ++ rest /\ ~ In 47 r /\ zlen r = L v + 1) \/
  (exists r m, ts = chars (r ++ 47 :: m) /\ before_slash v r /\ ~ In 47 m /\ m <> []) \/
  (exists r, ts = chars (r ++ [47]) /\ before_slash v r) \/
  (exists r e x rest, ts = chars r ++ Bad e x :: rest /\ before_slash v r) \/
  (exists r m e x rest, ts = chars (r ++ 47 :: m) ++ Bad e x :: rest /\ before_slash v r /\ ~ In 47 m) \/
  (exists r m rest, ts = chars (r ++ 47 :: m) ++ Ch 47 :: rest /\ before_slash v r).
Proof.
  destruct (toks_slash ts) as (r & q & -> & N & H). unfold before_slash. rewrite !longest_L.
  destruct (Z_le_gt_dec (zlen r) (L v)) as [Hl|Hl].
  2:{ right. left. exists (firstn (Z.to_nat (L v + 1)) r), (chars (skipn (Z.to_nat (L v + 1)) r) ++ q).
      pose proof (L_pos v). split; [rewrite app_assoc, <- chars_app, firstn_skipn; reflexivity|]. split.
      - intros K. apply N. eapply In_firstn. exact K.
      - unfold zlen in *. rewrite firstn_length. lia. }
  destruct H as [->|[(e & x & q' & ->)|(q' & ->)]].
  - left. exists r. rewrite app_nil_r. auto.
  - do 4 right. left. exists r, e, x, q'. auto.
  - destruct (toks_slash q') as (m & q & -> & Nm & H). destruct H as [->|[(e & x & q' & ->)|(q' & ->)]].
    + rewrite app_nil_r. destruct m as [|c m].
      * do 3 right. left. exists r. rewrite chars_app. auto.
      * do 2 right. left. exists r, (c :: m). rewrite chars_app. repeat split; auto. discriminate.
    + do 5 right. left. exists r, m, e, x, q'. rewrite chars_mid. auto.
    + do 6 right. exists r, m, q'. rewrite chars_mid. auto.
Qed.

(** *** Masks *)
Lemma not_digits4 : forall m acc, ~ Forall is_dec_digit m -> exists k, netmask_digits (chars m) acc = Ret (false, k).
Proof.
  induction m as [|c m IH]; intros acc N; [destruct N; constructor|]. cbn [chars map netmask_digits].
  destruct ((c >=? 48) && (c <=? 57)) eqn:E; [|eauto]. apply IH. intros K. apply N. constructor; [apply dec_digit_b; exact E|exact K].
Qed.
Lemma not_digits6 : forall m acc, ~ Forall is_dec_digit m -> v6_netmask_digits (chars m) acc = Err invalid_netmask 0.
Proof.
  induction m as [|c m IH]; intros acc N; [destruct N; constructor|]. cbn [chars map v6_netmask_digits].
  destruct ((c >=? 48) && (c <=? 57)) eqn:E; [|reflexivity]. apply IH. intros K. apply N. constructor; [apply dec_digit_b; exact E|exact K].
Qed.
Lemma digits_dec m : {Forall is_dec_digit m} + {~ Forall is_dec_digit m}.
Proof.
  apply Forall_dec. intros c. unfold is_dec_digit. destruct (Z_le_dec 48 c), (Z_le_dec c 57); [left; lia|right; lia..].
Qed.
Lemma zero_pow p : 0 <= p <= 32 -> 2 ^ 32 - 2 ^ (32 - p) = 0 -> p = 0.
Proof. intros H E. destruct (Z.eq_dec p 0); [assumption|]. pose proof (Z.pow_lt_mono_r 2 (32 - p) 32). lia. Qed.
Lemma mask_error_sound v m e x : m <> [] -> mask_error v m e x -> parse_netmask v (chars m) = Err e x.
Proof.
  intros Hm H. destruct H as [v m y D G|m N|m e i N Q|m q Q G].
  - apply dec_text_iff in D as (_ & D & ->). destruct (digits_all m 0 D) as [E4 E6]. change (w64 0) with 0 in E4, E6. fold (dval m) in E4, E6.
    destruct v; unfold parse_netmask; cbn [width] in G.
    + unfold v4_parse_netmask. rewrite E4. cbn [bind]. unfold w64. destruct (Z.gtb_spec (dval m mod 2 ^ 64) 32); [reflexivity|lia].
    + unfold v6_parse_netmask. rewrite E6. cbn [bind]. unfold w64. destruct (Z.gtb_spec (dval m mod 2 ^ 64) 128); [reflexivity|lia].
  - unfold parse_netmask, v6_parse_netmask. rewrite not_digits6 by exact N. reflexivity.
  - unfold parse_netmask, v4_parse_netmask. destruct (not_digits4 m 0 N) as [k ->]. cbn [bind]. apply v4_reject_iff in Q. rewrite Q. reflexivity.
  - unfold parse_netmask, v4_parse_netmask. destruct (not_digits4 m 0) as [k ->]; [intros D; exact (quad_not_digits _ _ Q D)|]. cbn [bind].
    pose proof (dotted_quad_ok m q Q) as Bq. pose proof (be_value_range V4 q Bq) as Rq. cbn [width] in Rq.
    apply v4_accept_iff in Q. rewrite Q, v4_to_uint_ok by exact Bq. cbn [bind].
    assert (NZ : be_value q <> 0) by (destruct (G 0 ltac:(lia)) as [_ K]; exact K).
    destruct (dotted_mask (be_value q) ltac:(lia)) as [(p & _ & Hp)|[-> _]]; [|reflexivity].
    exfalso. destruct (proj1 (Hp p) eq_refl) as [[H1 H2]|[H1 H2]]; [destruct (G p ltac:(lia)); contradiction|destruct (G (32 - p) ltac:(lia)); contradiction].
Qed.
(** A mask is accepted, undefined or has an error. *)
Lemma mask_cases v m : m <> [] -> (exists p, loose_mask v m p) \/ (v = V4 /\ dotted_quad m [0; 0; 0; 0]) \/ exists e x, mask_error v m e x.
Proof.
  intros Hm. destruct (digits_dec m) as [D|D].
  - assert (T : dec_text m (dval m)) by (apply dec_text_iff; auto). destruct (Z_le_gt_dec (dval m mod 2 ^ 64) (width v)) as [H|H].
    + left. exists (dval m mod 2 ^ 64). left. eauto.
    + right. right. exists invalid_netmask, 0. eapply me_number; [exact T|lia].
  - destruct v; [|right; right; exists invalid_netmask, 0; apply me_symbol; exact D].
    destruct (v4_outcome (chars m)) as [(q & s & _ & E & Q)|(e & k & _ & E)].
    2:{ right. right. exists invalid_netmask, k. eapply me_quad; [exact D|exact E]. }
    apply chars_inj in E. subst s. pose proof (dotted_quad_ok m q Q) as Bq. pose proof (be_value_range V4 q Bq) as Rq. cbn [width] in Rq.
    destruct (Z.eq_dec (be_value q) 0) as [Z0|NZ].
    { right. left. split; [reflexivity|]. rewrite (zero_quad q) in Q by (try apply Bq; exact Z0). exact Q. }
    destruct (dotted_mask (be_value q) ltac:(lia)) as [(p & _ & Hp)|[_ Hp]].
    + left. exists p. right. split; [reflexivity|]. exists q. split; [exact Q|]. exact (proj1 (Hp p) eq_refl).
    + right. right. exists netmask_pattern_mixes_zeroes_and_ones, 3. eapply me_mixed; [exact Q|]. intros p Hr. split; intros K.
      * destruct (Z.eq_dec p 0) as [->|]; [apply NZ; rewrite K; reflexivity|]. apply Hp. exists p. left. split; [lia|exact K].
      * destruct (Z.eq_dec p 0) as [->|]; [apply NZ; rewrite K; reflexivity|]. destruct (Z.eq_dec p 32) as [->|].
        -- apply Hp. exists 32. left. split; [lia|]. rewrite K. reflexivity.
        -- apply Hp. exists (32 - p). right. split; [lia|]. rewrite K. do 2 f_equal. lia.
Qed.
Lemma mask_error_exact v m e x : m <> [] -> (parse_netmask v (chars m) = Err e x <-> mask_error v m e x).
Proof.
  intros Hm. split; [|apply mask_error_sound; exact Hm]. intros E. destruct (mask_cases v m Hm) as [(p & M)|[U|(e' & x' & M)]].
  - apply (proj1 (mask_exact v m p Hm)) in M as [a M]. congruence.
  - pose proof (proj2 (mask_undefined_exact v m BadShift) (conj eq_refl U)). congruence.
  - pose proof (mask_error_sound v m e' x' Hm M) as E'. rewrite E in E'. injection E' as -> ->. exact M.
Qed.

(** *** Addresses *)
Lemma addr_error_exact v t e i : no_nul t -> (addr_parse v (chars t) = Err e i <-> addr_error v t e i).
Proof.
  intros N. destruct v; cbn [addr_parse addr_error].
  - rewrite <- v4_reject_iff. destruct (v4_from_string (chars t)); cbn [bind]; split; congruence.
  - rewrite <- V6ErrLemmas.v6_exact by exact N. destruct (v6_from_string true (chars t)) as [[b s]| |]; cbn [bind]; split; congruence.
Qed.
Lemma addr_denotes_exact v t x : no_nul t -> (addr_denotes v t x <-> exists a, addr_parse v (chars t) = Ret a /\ val a = x).
Proof.
  intros N. destruct v; cbn [addr_parse addr_denotes].
  - split.
    + intros (bs & Q & ->). apply v4_accept_iff in Q. rewrite Q. cbn [bind]. eexists. split; reflexivity.
    + intros (a & H & <-). destruct (v4_from_string (chars t)) as [b| |] eqn:E; try discriminate. apply ret_inj in H. subst a. exists b.
      split; [apply v4_accept_iff; exact E|reflexivity].
  - split.
    + intros (gs & sc & S & R & ->). destruct (proj2 (v6_accepts_iff t N) (conj (ex_intro _ gs (ex_intro _ sc S)) R)) as (b & u & E).
      rewrite E. cbn [bind]. eexists. split; [reflexivity|]. unfold val. cbn [a_bytes]. destruct (v6_value t b u N E) as (gs' & S' & -> & _).
      destruct (v6_denotes_one t gs sc gs' u N R S S') as [-> _]. reflexivity.
    + intros (a & H & <-). destruct (v6_from_string true (chars t)) as [[b u]| |] eqn:E; try discriminate. cbn [bind] in H. apply ret_inj in H. subst a.
      destruct (v6_value t b u N E) as (gs & S & -> & _). exists gs, u. split; [exact S|].
      split; [|reflexivity]. apply (proj1 (v6_accepts_iff t N)). eauto.
Qed.

(** *** After splitting *)
Lemma mask_value_nil v : mask_value v [] = 0. Proof. destruct v; reflexivity. Qed.
Lemma dec_no_dot m : Forall is_dec_digit m -> ~ In 46 m.
Proof. intros D I. rewrite Forall_forall in D. apply D in I. unfold is_dec_digit in I. lia. Qed.
Lemma mask_value_loose v m p : loose_mask v m p -> mask_value v (chars m) = if in_dec Z.eq_dec 46 m then 3 else 0.
Proof.
  intros [(x & D & _)|(-> & q & Q & _)].
  - apply dec_text_iff in D as (_ & D & _). destruct (in_dec Z.eq_dec 46 m) as [I|_]; [destruct (dec_no_dot m D I)|].
    destruct v; [|reflexivity]. unfold mask_value. destruct (digits_all m 0 D) as [E _]. change (w64 0) with 0 in E. rewrite E. reflexivity.
  - destruct (in_dec Z.eq_dec 46 m) as [_|N]; [|destruct N; apply (quad_chars m q Q)].
    unfold mask_value. destruct (not_digits4 m 0) as [k ->]; [|reflexivity]. intros D. exact (quad_not_digits _ _ Q D).
Qed.
Lemma finish_err v r m strict p : Forall is_char r -> mask_accepted v m p -> forall e x, finish v r m strict = Err e x <->
  x = mask_value v m /\
  ((exists i, addr_error v (text_of v r) e i) \/ (exists y, addr_denotes v (text_of v r) y /\ y mod 2 ^ (width v - p) <> 0 /\ strict = true /\ e = has_host_bits_set)).
Proof.
  intros C M e x. assert (N : no_nul (text_of v r)) by apply cut_no0.
  setoid_rewrite <- addr_error_exact; [|exact N]. setoid_rewrite addr_denotes_exact; [|exact N].
  destruct (parse_netmask_spec v m) as [(p0 & Hp & E & U)|[(e0 & x0 & _ & Na & _)|(_ & K)]].
  2:{ destruct (Na p M). } 2:{ destruct (mask_not_undefined v m p K M). }
  apply U in M. subst p0. unfold finish. rewrite E. cbn [bind]. pose proof (addr_parse_defined v (chars (text_of v r))) as D.
  destruct (addr_parse v (chars (text_of v r))) as [a|e' i|u] eqn:A; cbn [bind with_value]; [| |destruct D].
  - assert (Wa : wf_addr v a) by (eapply addr_parse_wf; [exact N|apply forall_cut_firstn; exact C|exact A]).
    rewrite strict_netmask_spec by assumption. destruct (Z.eqb_spec (val a mod 2 ^ (width v - p)) 0) as [Z0|NZ]; [|destruct strict]; cbn [bind with_value].
    + split; [discriminate|]. intros (_ & [(i & K)|(y & (a' & K & <-) & NZ & _)]); [discriminate|]. apply ret_inj in K. subst a'. contradiction.
    + split; [intros [= <- <-]; split; [reflexivity|]; right; exists (val a); eauto 6|]. intros (-> & [(i & K)|(y & _ & _ & _ & ->)]); [discriminate|reflexivity].
    + split; [discriminate|]. intros (_ & [(i & K)|(y & _ & _ & K & _)]); discriminate.
  - split; [intros [= <- <-]; split; [reflexivity|]; left; eauto|]. intros (-> & [(i' & [= -> ->])|(y & (a & K & _) & _)]); [reflexivity|discriminate].
Qed.
Lemma text_short v r : before_slash v r -> text_of v r = cut r.
Proof. intros B. apply before_L in B as (_ & _ & H). unfold text_of. rewrite firstn_all2 by (unfold zlen in H; lia). reflexivity. Qed.
Lemma toks_chars r ts : Forall tok_char (chars r ++ ts) -> Forall is_char r.
Proof. intros H. apply Forall_app in H as [H _]. clear ts. induction r as [|c r IH]; [constructor|]. inversion H. subst. constructor; auto. Qed.

Lemma toks_chars' r : Forall tok_char (chars r) -> Forall is_char r.
Proof. intros H. apply (toks_chars r []). rewrite app_nil_r. exact H. Qed.
Lemma full_mask v y : ~ (y mod 2 ^ (width v - width v) <> 0).
Proof. rewrite Z.sub_diag. change (2 ^ 0) with 1. rewrite Z.mod_1_r. lia. Qed.
Lemma parts_value v ts t p n strict e x : Forall tok_char ts -> net_parts v ts t p n ->
  (net_parse_res v ts strict = Err e x <-> x = n /\
   ((exists i, addr_error v t e i) \/ (exists y, addr_denotes v t y /\ y mod 2 ^ (width v - p) <> 0 /\ strict = true /\ e = has_host_bits_set))).
Proof.
  intros C P. destruct P as [r t B T|r rest t N H T|r m t p B T M D|r m t p B T M D]; apply before_is in T; subst t.
  - rewrite res_alone by exact B. rewrite (finish_err v r [] strict (width v)) by (try exact (toks_chars' r C); apply mask_none; reflexivity).
    rewrite mask_value_nil, text_short by exact B. reflexivity.
  - rewrite longest_L in *. rewrite res_long by (try exact N; lia).
    rewrite (finish_err v r [] strict (width v)) by (try exact (toks_chars r rest C); apply mask_none; reflexivity). rewrite mask_value_nil. reflexivity.
  - destruct (mask_nonempty v m p M) as [Hm Nm]. rewrite res_mask by assumption. apply toks_chars', Forall_app in C as [C _].
    rewrite (finish_err v r (chars m) strict p) by (try exact C; apply mask_loose; assumption).
    rewrite (mask_value_loose v m p M), text_short by exact B. destruct (in_dec Z.eq_dec 46 m); [contradiction|reflexivity].
  - destruct (mask_nonempty v m p M) as [Hm Nm]. rewrite res_mask by assumption. apply toks_chars', Forall_app in C as [C _].
    rewrite (finish_err v r (chars m) strict p) by (try exact C; apply mask_loose; assumption).
    rewrite (mask_value_loose v m p M), text_short by exact B. destruct (in_dec Z.eq_dec 46 m); [reflexivity|contradiction].
Qed.

Lemma res_error_exact v ts strict e x : Forall tok_char ts -> (net_parse_res v ts strict = Err e x <-> net_error v strict ts e x).
Proof.
  intros C. split.
  - assert (P : forall t p n, net_parts v ts t p n -> net_parse_res v ts strict = Err e x -> net_error v strict ts e x).
    { intros t p n P H. apply (parts_value v ts t p n strict e x C P) in H as (-> & [(i & A)|(y & D & Y & S & ->)]).
      - eapply ne_address; eassumption.
      - eapply ne_host_bits; eassumption. }
    destruct (shapes v ts) as [(r & -> & B)|[(r & rest & -> & N & H)|[(r & m & -> & B & N & Hm)|[(r & -> & B)|[(r & e' & x' & rest & -> & B)|[(r & m & e' & x' & rest & -> & B & N)|(r & m & rest & -> & B)]]]]]].
    + eapply P, np_alone; [exact B|apply before_cut].
    + eapply P, np_long; [exact N|rewrite longest_L; exact H|apply before_cut].
    + intros H. destruct (mask_cases v m Hm) as [(p & M)|[(-> & U)|(e' & x' & M)]].
      * destruct (in_dec Z.eq_dec 46 m) as [I|I].
        -- exact (P _ _ _ (np_dotted v r m (cut r) p B (before_cut r) M I) H).
        -- exact (P _ _ _ (np_number v r m (cut r) p B (before_cut r) M I) H).
      * exfalso. rewrite res_mask in H by assumption. unfold finish in H.
        rewrite (proj2 (mask_undefined_exact V4 m BadShift) (conj eq_refl (conj eq_refl U))) in H. discriminate.
      * rewrite res_mask in H by assumption. unfold finish in H. rewrite (mask_error_sound v m e' x' Hm M) in H. cbn [bind] in H.
        injection H as -> ->. apply ne_mask; assumption.
    + rewrite res_no_mask by exact B. intros [= <- <-]. apply ne_no_mask. exact B.
    + rewrite res_bad by exact B. intros [= <- <-]. apply ne_encoding. exact B.
    + rewrite res_bad_mask by assumption. intros [= <- <-]. apply ne_encoding_mask; assumption.
    + rewrite res_slashes by exact B. intros [= <- <-]. apply ne_slashes. exact B.
  - intros H. destruct H as [r e x rest B|r m e x rest B N|r m rest B|r B|r m e x B N M Hm|ts t p n e i P A|ts t p n y P D Y S].
    + apply res_bad. exact B.
    + apply res_bad_mask; assumption.
    + apply res_slashes. exact B.
    + apply res_no_mask. exact B.
    + rewrite res_mask by assumption. unfold finish. rewrite (mask_error_sound v m e x Hm M). reflexivity.
    + apply (parts_value v ts t p n strict e n C P). eauto.
    + apply (parts_value v ts t p n strict has_host_bits_set n C P). eauto 8.
Qed.

Lemma net_error_exact v ts strict e x : Forall tok_char ts -> Forall tok_real ts -> (net_parse v ts strict = Err e x <-> net_error v strict ts e x).
Proof. intros C R. rewrite net_parse_is_res by exact R. apply res_error_exact. exact C. Qed.
Lemma net_error_unique v ts strict e x e' x' : Forall tok_char ts -> net_error v strict ts e x -> net_error v strict ts e' x' -> e = e' /\ x = x'.
Proof. intros C H H'. apply res_error_exact in H, H'; [|exact C..]. rewrite H in H'. injection H' as -> ->. auto. Qed.

(** *** Consequences *)
Lemma chars_no_bad t : forall p e x rest, chars t = p ++ Bad e x :: rest -> False.
Proof. induction t as [|c t IH]; intros [|[c'|e' x'] p] e x rest E; try discriminate. injection E as _ E. exact (IH _ _ _ _ E). Qed.
Lemma v4_error_code t e i : v4_error (chars t) e i -> e <> has_host_bits_set.
Proof. intros H. remember (chars t) as ts eqn:E. destruct H; try discriminate. symmetry in E. destruct (chars_no_bad _ _ _ _ _ E). Qed.
Lemma v6_defect_code fs e x : v6_defect fs e x -> e <> has_host_bits_set.
Proof.
  intros H. destruct H as [| | | | | |p f e i _ _ _ _ _ E|ps e _ D]; try discriminate.
  - exact (v4_error_code _ _ _ E).
  - destruct D; discriminate.
Qed.
Lemma addr_error_code v t e i : addr_error v t e i -> e <> has_host_bits_set.
Proof.
  destruct v; cbn [addr_error]; [apply v4_error_code|].
  intros H. destruct H as [|s fs e x _ _ _ D|a t e _ D|a t fs e x _ _ _ D]; [discriminate|exact (v6_defect_code _ _ _ D)|destruct D; discriminate|exact (v6_defect_code _ _ _ D)].
Qed.
Lemma host_bits_loose v s x : Forall is_char s -> net_parse v (chars s) true = Err has_host_bits_set x -> exists n, net_parse v (chars s) false = Ret n.
Proof.
  intros C H. assert (K : Forall tok_char (chars s)) by (clear -C; induction C; constructor; auto).
  rewrite net_parse_is_res in * by apply chars_real. apply res_error_exact in H; [|exact K].
  remember (chars s) as ts eqn:E. remember has_host_bits_set as e eqn:Ee. remember true as st eqn:Es.
  assert (P : forall t p n y, net_parts v ts t p n -> addr_denotes v t y -> exists n', net_parse_res v ts false = Ret n').
  { intros t p n y P D. destruct (net_parse_res v ts false) as [n'|e' x'|u] eqn:R; [eauto| |].
    - exfalso. apply (parts_value v ts t p n false e' x' K P) in R as (_ & [(i & A)|(y' & _ & _ & S & _)]); [|discriminate].
      assert (N : no_nul t) by (destruct P as [? ? ? B|? ? ? ? ? B|? ? ? ? ? B|? ? ? ? ? B]; exact (proj1 B)).
      apply addr_error_exact in A; [|exact N]. apply addr_denotes_exact in D as (a & D & _); [|exact N]. congruence.
    - exfalso. rewrite E in R. rewrite <- net_parse_is_res in R by apply chars_real. apply net_undefined_exact in R as (-> & -> & r & m & -> & Nr & Hr & Q); [|exact C].
      assert (Nm : forall q, loose_mask V4 m q -> False).
      { intros q M. destruct (mask_nonempty _ _ _ M) as [Hm _]. apply (proj1 (mask_exact V4 m q Hm)) in M as [a M].
        rewrite (proj2 (mask_undefined_exact V4 m BadShift)) in M by auto. discriminate. }
      assert (X : forall r1 m1, ~ In 47 r1 -> chars (r ++ 47 :: m) = chars (r1 ++ 47 :: m1) -> m1 = m).
      { clear -Nr. intros r1 m1 N1 E. apply chars_inj in E. revert r1 N1 E. induction r as [|c r IH]; intros [|c1 r1] N1 E.
        - injection E as ->. reflexivity.
        - injection E as <- _. destruct N1. left. reflexivity.
        - injection E as -> _. destruct Nr. left. reflexivity.
        - injection E as _ E. apply (IH (fun K => Nr (or_intror K)) r1); [|exact E]. intros I. apply N1. right. exact I. }
      destruct P as [r1 t B _|r1 rest t N1 H1 _|r1 m1 t p B _ M _|r1 m1 t p B _ M _].
      + apply chars_inj in E. subst r1. destruct B as [B _]. apply B, in_app_iff. right. left. reflexivity.
      + change (longest_address V4) with 15 in H1. apply (f_equal (fun l => nth_error l (length r))) in E. rewrite nth_error_app1 in E.
        2:{ unfold chars. rewrite map_length. unfold zlen in *. lia. }
        unfold chars in E. rewrite !nth_error_map in E. rewrite (nth_error_app2 r) in E by lia. rewrite Nat.sub_diag in E. cbn [nth_error option_map] in E.
        destruct (nth_error r1 (length r)) as [c|] eqn:Ec; [|discriminate]. cbn in E. injection E as ->. apply N1. eapply nth_error_In. exact Ec.
      + symmetry in E. apply X in E; [|exact (proj1 B)]. subst m1. exact (Nm p M).
      + symmetry in E. apply X in E; [|exact (proj1 B)]. subst m1. exact (Nm p M). }
  destruct H as [r e x rest B|r m e x rest B N|r m rest B|r B|r m e x B N M Hm|ts t p n e i P' A|ts t p n y P' D Y S]; try discriminate.
  - symmetry in E. destruct (chars_no_bad _ _ _ _ _ E).
  - symmetry in E. destruct (chars_no_bad _ _ _ _ _ E).
  - exfalso. subst e. remember has_host_bits_set as e eqn:Ee. destruct M; discriminate.
  - destruct (addr_error_code _ _ _ _ A Ee).
  - eauto.
Qed.

(** *** Either version *)
From Verif Require Import AnyModel SpecAny AnyProofs.
Lemma any_error_exact t e i : no_nul t -> (any_parse (chars t) = Err e i <-> v6_error t e i /\ exists e' i', v4_error (chars t) e' i').
Proof.
  intros N. destruct (any_parse_spec (chars t) (chars_real t)) as (_ & _ & H & _). rewrite H, (addr_error_exact V6) by exact N. cbn [addr_error].
  setoid_rewrite (fun e' i' => addr_error_exact V4 t e' i' N). reflexivity.
Qed.
Lemma any_net_error_exact ts st e x : Forall tok_char ts -> Forall tok_real ts ->
  (anet_parse ts st = Err e x <-> net_error V6 st ts e x /\ exists e' x', net_error V4 st ts e' x').
Proof.
  intros C R. destruct (anet_parse_spec ts st R C) as (_ & _ & H & _). rewrite H, net_error_exact by assumption.
  setoid_rewrite (fun e' i' => net_error_exact V4 ts st e' i' C R). reflexivity.
Qed.
Lemma toks_of s : Forall is_char s -> Forall tok_char (chars s).
Proof. intros C. induction C; constructor; auto. Qed.
(** What the strict parser accepts the other one accepts too. *)
Lemma strict_relaxed v s n : Forall is_char s -> net_parse v (chars s) true = Ret n -> exists n', net_parse v (chars s) false = Ret n'.
Proof.
  intros C H. destruct (net_parse v (chars s) false) as [n'|e x|u] eqn:E; [eauto| |].
  - exfalso. apply net_error_exact in E; [|apply toks_of; exact C|apply chars_real]. assert (T : net_error v true (chars s) e x).
    { destruct E as [r e x rest B|r m e x rest B N|r m rest B|r B|r m e x B N M Hm|ts t p n' e i P A|ts t p n' y P D Y S]; [econstructor; eassumption..|discriminate]. }
    apply net_error_exact in T; [congruence|apply toks_of; exact C|apply chars_real].
  - exfalso. apply net_undefined_exact in E; [|exact C]. apply (net_undefined_exact v s true u C) in E. congruence.
Qed.
(** Host bits of an IPv4 network are not reported. *)
Lemma any_host_bits s x : Forall is_char s -> net_parse V4 (chars s) true = Err has_host_bits_set x ->
  exists e y, anet_parse (chars s) true = Err e y /\ e <> has_host_bits_set.
Proof.
  intros C H. pose proof (toks_of s C) as K. destruct (anet_parse_spec (chars s) true (chars_real s) K) as (_ & _ & HE & _).
  destruct (anet_parse_spec (chars s) false (chars_real s) K) as (G4 & G6 & _ & _).
  destruct (host_bits_loose V4 s x C H) as [n4 A4]. apply G4 in A4.
  assert (N6 : forall n6, net_parse V6 (chars s) false = Ret n6 -> False) by (intros n6 A6; apply G6 in A6; congruence).
  destruct (net_parse V6 (chars s) true) as [n6|e y|u] eqn:E.
  - destruct (strict_relaxed V6 s n6 C E) as [n' A6]. destruct (N6 _ A6).
  - exists e, y. split; [apply HE; eauto|]. intros ->. destruct (host_bits_loose V6 s y C E) as [n' A6]. destruct (N6 _ A6).
  - apply net_undefined_exact in E as (_ & ? & _); [discriminate|exact C].
Qed.
