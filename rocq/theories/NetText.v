(** Parsing and printing of networks. *)
From Verif Require Import Base Tac TextProofs UnicodeModel FixedStringModel V4Model V6Model Uint128Model SpecInt Uint128Proofs Uint128Div2
  SpecText SpecAddr SpecStr SpecV4 SpecV6 StrProofs V4Proofs BufProofs BitProofs FixedStringProofs V4Lemmas V6Proofs V6Full V6Format V6Lemmas
  AddressModel SpecOrder AddressProofs NetworkModel SpecNet NetProofs NetProofs2 NetProofs3 MaskProofs.

(** *** Splitting at '/' *)
Definition L v := max_string_len v.
Lemma L_pos v : 0 < L v. Proof. destruct v; reflexivity. Qed.
Lemma split_prefix M : 0 < M -> forall pre ts a, ~ In 47 pre -> zlen a <= M ->
  net_split M (chars pre ++ ts) (buf (M + 1) a) (zlen a) false [] =
    if zlen a + zlen pre <=? M then net_split M ts (buf (M + 1) (a ++ pre)) (zlen (a ++ pre)) false []
    else Ret (buf (M + 1) (firstn (Z.to_nat (M + 1)) (a ++ pre)), []).
Proof.
  intros HM. induction pre as [|c pre IH]; intros ts a N La.
  - rewrite !app_nil_r. change (chars [] ++ ts) with ts. change (zlen (@nil Z)) with 0. destruct (Z.leb_spec (zlen a + 0) M); [reflexivity|lia].
  - assert (Nc : c <> 47) by (intros ->; apply N; left; reflexivity). assert (Np : ~ In 47 pre) by (intros K; apply N; right; exact K).
    cbn [chars map app net_split]. destruct (Z.eqb_spec c 47); [contradiction|]. cbn [andb negb].
    rewrite wr_buf by lia. cbn [bind]. rewrite zlen_cons.
    replace (a ++ c :: pre) with ((a ++ [c]) ++ pre) by (rewrite <- app_assoc; reflexivity).
    assert (Z1 : zlen (a ++ [c]) = zlen a + 1) by (rewrite zlen_app; reflexivity).
    destruct (Z.gtb_spec (zlen a + 1) M) as [G|G].
    + pose proof (zlen_nonneg pre). destruct (Z.leb_spec (zlen a + (zlen pre + 1)) M); [lia|].
      rewrite firstn_app. rewrite firstn_all2 by (unfold zlen in *; lia).
      replace (Z.to_nat (M + 1) - length (a ++ [c]))%nat with 0%nat by (unfold zlen in *; lia). cbn [firstn]. rewrite app_nil_r. reflexivity.
    + rewrite <- Z1. change (map Ch pre) with (chars pre). rewrite IH by (try assumption; lia). rewrite Z1.
      replace (zlen a + 1 + zlen pre) with (zlen a + (zlen pre + 1)) by lia. reflexivity.
Qed.
Lemma split_suffix M : forall ts a sym nm, sym <= M ->
  (exists m, ts = chars m /\ ~ In 47 m /\ net_split M ts a sym true nm = Ret (a, nm)) \/
  ((forall m, ts = chars m -> In 47 m) /\ exists e x, net_split M ts a sym true nm = Err e x).
Proof.
  induction ts as [|[c|e x] ts IH]; intros a sym nm H.
  - left. exists []. split; [reflexivity|]. split; [intros []|reflexivity].
  - cbn [net_split]. destruct (Z.eqb_spec c 47) as [->|Nc]; cbn [andb negb].
    + right. split; [|eauto]. intros [|c m] E; [discriminate|]. injection E as <- _. left. reflexivity.
    + cbn [bind]. destruct (Z.gtb_spec sym M); [lia|]. destruct (IH a sym nm H) as [(m & -> & Nm & E)|[K E]].
      * left. exists (c :: m). split; [reflexivity|]. split; [intros [?|?]; [congruence|contradiction]|exact E].
      * right. split; [|exact E]. intros [|c' m] E'; [discriminate|]. injection E' as _ E'. right. apply K. exact E'.
  - right. split; [intros [|? ?] E; discriminate|]. cbn [net_split]. eauto.
Qed.
(** Every token list: text without '/', and then the end, a '/' or an undecodable symbol. *)
Lemma toks_slash : forall ts, exists pre r, ts = chars pre ++ r /\ ~ In 47 pre /\
  (r = [] \/ (exists e x r', r = Bad e x :: r') \/ exists r', r = Ch 47 :: r').
Proof.
  induction ts as [|[c|e x] ts (pre & r & -> & N & H)].
  - exists [], []. repeat split; auto.
  - destruct (Z.eq_dec c 47) as [->|Nc].
    + exists [], (Ch 47 :: chars pre ++ r). split; [reflexivity|]. split; [intros []|]. right. right. eauto.
    + exists (c :: pre), r. split; [reflexivity|]. split; [intros [?|?]; [congruence|contradiction]|exact H].
  - exists [], (Bad e x :: chars pre ++ r). split; [reflexivity|]. split; [intros []|]. right. left. eauto.
Qed.

(** *** The address part *)
Definition text_of (v : ver) (pre : list Z) : list Z := cut (firstn (Z.to_nat (L v)) pre).
Lemma cut_app a b : In 0 a -> cut (a ++ b) = cut a.
Proof.
  induction a as [|c a IH]; intros H; [destruct H|]. cbn. destruct (Z.eqb_spec c 0); [reflexivity|]. f_equal. apply IH.
  destruct H; [contradiction|assumption].
Qed.
Lemma c_string_firstn n data : (n <= length data)%nat -> c_string n data (cut (firstn n data)).
Proof.
  intros H. split; [apply cut_no0|]. assert (E : data = firstn n data ++ skipn n data) by (symmetry; apply firstn_skipn).
  assert (Ln : length (firstn n data) = n) by (rewrite firstn_length; lia).
  destruct (cut_split (firstn n data)) as [K|[r K]].
  - exists (skipn n data). rewrite K. auto.
  - exists (0 :: r ++ skipn n data). split; [rewrite E at 1; rewrite K at 1; rewrite <- app_assoc; reflexivity|]. right.
    apply (f_equal (@length Z)) in K. rewrite app_length in K. cbn in K. split; [lia|eauto].
Qed.
Lemma cut_buf n pre k : cut (firstn n (pre ++ repeat 0 k)) = cut (firstn n pre).
Proof.
  rewrite firstn_app. destruct (in_dec Z.eq_dec 0 (firstn n pre)) as [H|H]; [apply cut_app; exact H|].
  destruct (firstn (n - length pre) (repeat 0 k)) as [|c r] eqn:E; [rewrite app_nil_r; reflexivity|].
  assert (c = 0) as ->.
  { destruct k; [rewrite firstn_nil in E; discriminate|]. destruct (n - length pre)%nat; [discriminate|]. cbn in E. congruence. }
  rewrite (cut_id (firstn n pre)) by exact H. clear E. revert H. generalize (firstn n pre). induction l as [|x l IH]; intros H; [reflexivity|].
  cbn. destruct (Z.eqb_spec x 0); [subst; exfalso; apply H; left; reflexivity|]. f_equal. apply IH. intros K. apply H. right. exact K.
Qed.
Lemma parse_buf v pre : zlen pre <= L v + 1 ->
  addr_parse_array v (buf (L v + 1) pre) = addr_parse v (chars (text_of v pre)).
Proof.
  intros H. unfold addr_parse_array. fold (L v). pose proof (L_pos v).
  assert (G : (Z.to_nat (L v) <= length (buf (L v + 1) pre))%nat).
  { pose proof (zlen_buf (L v + 1) pre H). unfold zlen in *. lia. }
  destruct (fs_make_cut _ _ _ G (c_string_firstn _ _ G)) as (f & -> & Ef). cbn [bind]. rewrite Ef. unfold text_of, buf. rewrite cut_buf. reflexivity.
Qed.
Lemma text_firstn v pre : text_of v (firstn (Z.to_nat (L v + 1)) pre) = text_of v pre.
Proof. unfold text_of. rewrite firstn_firstn. do 2 f_equal. lia. Qed.

(** *** The whole parser *)
(** After splitting: mask, address, strictness. *)
Definition finish (v : ver) (a : list Z) (m : list tok) (strict : bool) : res net :=
  '(netmask, prefixlen) <- parse_netmask v m ;;
  a <- with_value (mask_value v m) (addr_parse v (chars (text_of v a))) ;;
  a <- with_value (mask_value v m) (strict_netmask v a netmask strict) ;;
  Ret (mk_net a netmask prefixlen).
Lemma net_parse_split v ts strict :
  (exists pre r, ts = chars pre ++ r /\ ~ In 47 pre /\ L v < zlen pre /\ net_parse_res v ts strict = finish v pre [] strict) \/
  (exists pre, ts = chars pre /\ ~ In 47 pre /\ zlen pre <= L v /\ net_parse_res v ts strict = finish v pre [] strict) \/
  (exists pre m, ts = chars (pre ++ 47 :: m) /\ ~ In 47 pre /\ ~ In 47 m /\ m <> [] /\ zlen pre <= L v /\
     net_parse_res v ts strict = finish v pre (chars m) strict) \/
  ((exists e x, net_parse_res v ts strict = Err e x) /\ exists pre r, ts = chars pre ++ r /\ ~ In 47 pre /\ zlen pre <= L v /\
     ((exists e x r', r = Bad e x :: r') \/ exists r', r = Ch 47 :: r' /\ forall m, r' = chars m -> m = [] \/ In 47 m)).
Proof.
  destruct (toks_slash ts) as (pre & r & -> & N & H). pose proof (L_pos v) as HL.
  assert (E : net_parse_res v (chars pre ++ r) strict =
    '(address, mask_tokens) <- (if zlen pre <=? L v then net_split (L v) r (buf (L v + 1) pre) (zlen pre) false []
                                else Ret (buf (L v + 1) (firstn (Z.to_nat (L v + 1)) pre), [])) ;;
    '(netmask, prefixlen) <- parse_netmask v mask_tokens ;;
    a <- with_value (mask_value v mask_tokens) (addr_parse_array v address) ;;
    a <- with_value (mask_value v mask_tokens) (strict_netmask v a netmask strict) ;; Ret (mk_net a netmask prefixlen)).
  { unfold net_parse_res. fold (L v). rewrite buf_nil. change 0 with (zlen (@nil Z)) at 1. rewrite (split_prefix (L v) HL) by (auto; cbn; lia).
    cbn [app]. reflexivity. }
  rewrite E. destruct (Z.leb_spec (zlen pre) (L v)) as [Hl|Hl].
  2:{ left. exists pre, r. split; [reflexivity|]. split; [exact N|]. split; [lia|]. cbn [bind]. unfold finish.
      destruct (parse_netmask v []) as [[nm p]|e x|u]; cbn [bind]; try reflexivity.
      rewrite parse_buf, text_firstn by (unfold zlen; rewrite firstn_length; lia). reflexivity. }
  right. destruct H as [->|[(e & x & r' & ->)|(r' & ->)]].
  - left. exists pre. split; [apply app_nil_r|]. split; [exact N|]. split; [exact Hl|]. cbn [net_split bind]. unfold finish.
    destruct (parse_netmask v []) as [[nm p]|e x|u]; cbn [bind]; try reflexivity. rewrite parse_buf by lia. reflexivity.
  - right. right. split; [cbn [net_split bind]; eauto|]. exists pre, (Bad e x :: r'). repeat split; auto. left. eauto.
  - cbn [net_split]. cbn [Z.eqb Pos.eqb andb]. destruct (Z.eqb_spec (zlen r') 0) as [Z0|Z0].
    { right. right. split; [cbn [bind]; eauto|]. exists pre, (Ch 47 :: r'). repeat split; auto. right. exists r'. split; [reflexivity|].
      intros m ->. left. destruct m; [reflexivity|]. unfold zlen in Z0. discriminate. }
    cbn [bind negb]. destruct (Z.gtb_spec (zlen pre) (L v)); [lia|].
    destruct (split_suffix (L v) r' (buf (L v + 1) pre) (zlen pre) r' Hl) as [(m & -> & Nm & ->)|[K (e & x & ->)]].
    + right. left. exists pre, m. split; [rewrite chars_app; reflexivity|]. split; [exact N|]. split; [exact Nm|].
      split; [intros ->; apply Z0; reflexivity|]. split; [exact Hl|]. cbn [bind]. unfold finish.
      destruct (parse_netmask v (chars m)) as [[nm p]|e x|u]; cbn [bind]; try reflexivity. rewrite parse_buf by lia. reflexivity.
    + right. right. split; [cbn [bind]; eauto|]. exists pre, (Ch 47 :: r'). repeat split; auto. right. exists r'. split; [reflexivity|].
      intros m Em. right. apply K. exact Em.
Qed.

(** Parsed addresses are well formed. *)
Definition tok_char (t : tok) : Prop := match t with Ch c => is_char c | Bad _ _ => True end.
Lemma forall_cut_firstn P n s : Forall P s -> Forall P (cut (firstn n s)).
Proof. intros H. apply cut_forall, Forall_firstn'. exact H. Qed.
Lemma addr_parse_wf v s a : no_nul s -> Forall is_char s -> addr_parse v (chars s) = Ret a -> wf_addr v a.
Proof.
  intros N C H. destruct v; cbn [addr_parse] in H.
  - destruct (v4_from_string (chars s)) as [b| |] eqn:E; try discriminate. apply ret_inj in H. subst a.
    apply v4_accept_iff in E. split; [exact (dotted_quad_ok s b E)|reflexivity].
  - destruct (v6_from_string true (chars s)) as [[b t]| |] eqn:E; try discriminate. apply ret_inj in H. subst a.
    destruct (v6_parsed_ok s b t N E) as [Hb Ht]. split; [exact Hb|]. split; [exact Ht|]. cbn [a_scope].
    apply v6_accept_raw in E as [(_ & -> & _)|(a & u & -> & _ & _ & -> & _)]; [constructor|].
    apply cut_forall. apply Forall_app in C as [_ C]. inversion C. assumption.
Qed.
Lemma addr_parse_defined v ts : is_defined (addr_parse v ts).
Proof.
  destruct v; cbn [addr_parse].
  - pose proof (v4_defined ts). destruct (v4_from_string ts); auto.
  - pose proof (v6_defined ts). destruct (v6_from_string true ts) as [[? ?]| |]; auto.
Qed.
Lemma finish_spec v pre m strict : Forall is_char pre ->
  (exists p a, 0 <= p <= width v /\ mask_accepted v m p /\ addr_parse v (chars (text_of v pre)) = Ret a /\ wf_addr v a /\
     finish v pre m strict = (if val a mod 2 ^ (width v - p) =? 0 then Ret (net_of v a p)
        else if strict then Err has_host_bits_set (mask_value v m) else Ret (net_of v (addr_of v (clear v (val a) p)) p))) \/
  (exists e x, finish v pre m strict = Err e x /\ ~ mask_undefined v m /\
     forall p a, mask_accepted v m p -> addr_parse v (chars (text_of v pre)) <> Ret a) \/
  (finish v pre m strict = UB BadShift /\ mask_undefined v m).
Proof.
  intros C. unfold finish.
  destruct (parse_netmask_spec v m) as [(p & Hp & -> & Up)|[(e & x & -> & Na & Nu)|(-> & Hu)]]; cbn [bind].
  - pose proof (addr_parse_defined v (chars (text_of v pre))) as D.
    destruct (addr_parse v (chars (text_of v pre))) as [a|e x|u] eqn:E; cbn [bind with_value]; [|right; left|destruct D].
    + left. exists p, a. split; [exact Hp|]. split; [apply Up; reflexivity|]. split; [reflexivity|].
      assert (Wa : wf_addr v a).
      { eapply addr_parse_wf; [apply cut_no0|apply forall_cut_firstn; exact C|exact E]. }
      split; [exact Wa|]. rewrite strict_netmask_spec by assumption. destruct (_ =? 0); [reflexivity|]. destruct strict; reflexivity.
    + exists e, (mask_value v m). split; [reflexivity|]. split; [|discriminate].
      intros (-> & q & -> & Q). assert (M : mask_accepted V4 (chars q) p) by (apply Up; reflexivity).
      destruct M as [[K _]|[(m' & x' & K & D' & _)|(_ & m' & q' & K & Q' & B)]].
      * destruct q; [|discriminate]. destruct Q as ([|? ?] & ? & ? & ? & ? & ? & ? & ? & _ & _ & _ & _ & K' & _); discriminate.
      * apply chars_inj in K. subst m'. apply dec_text_iff in D' as (_ & D' & _). exact (quad_not_digits _ _ Q D').
      * apply chars_inj in K. subst m'. apply v4_accept_iff in Q, Q'. rewrite Q in Q'. apply ret_inj in Q'. subst q'.
        change (be_value [0; 0; 0; 0]) with 0 in B. destruct B as [[B1 B2]|[B1 B2]].
        -- pose proof (Z.pow_lt_mono_r 2 (32 - p) 32 ltac:(lia) ltac:(lia) ltac:(lia)). lia.
        -- pose proof (Z.pow_lt_mono_r 2 0 (32 - p) ltac:(lia) ltac:(lia) ltac:(lia)). change (2 ^ 0) with 1 in *. lia.
  - right. left. exists e, x. split; [reflexivity|]. split; [exact Nu|]. intros p a M. destruct (Na p M).
  - right. right. auto.
Qed.
Lemma net_clear_wf v a p : 0 <= p <= width v -> wf_addr v a -> wf_net v (net_of v (addr_of v (clear v (val a) p)) p).
Proof.
  intros Hp Wa. destruct (clear_range v (val a) p Hp (val_range v a Wa)) as [Rc Ec].
  apply net_of_wf; [exact Hp|apply addr_of_wf; exact Rc|]. rewrite addr_of_val by exact Rc. exact Ec.
Qed.
Lemma finish_wf v pre m strict n : Forall is_char pre -> finish v pre m strict = Ret n -> wf_net v n.
Proof.
  intros C H. destruct (finish_spec v pre m strict C) as [(p & a & Hp & _ & _ & Wa & E)|[(e & x & E & _)|[E _]]]; rewrite E in H; try discriminate.
  destruct (Z.eqb_spec (val a mod 2 ^ (width v - p)) 0).
  - apply ret_inj in H. subst n. apply net_of_wf; assumption.
  - destruct strict; [discriminate|]. apply ret_inj in H. subst n. apply net_clear_wf; assumption.
Qed.
Lemma tok_chars pre r : Forall tok_char (chars pre ++ r) -> Forall is_char pre.
Proof. intros H. apply Forall_app in H as [H _]. unfold chars in H. rewrite Forall_map in H. exact H. Qed.
Lemma res_wf v ts strict n : Forall tok_char ts -> net_parse_res v ts strict = Ret n -> wf_net v n.
Proof.
  intros C H. destruct (net_parse_split v ts strict) as [(pre & r & -> & _ & _ & E)|[(pre & -> & _ & _ & E)|[(pre & m & -> & _ & _ & _ & _ & E)|[(e & x & E) _]]]];
    rewrite E in H; try discriminate.
  - apply tok_chars in C. exact (finish_wf _ _ _ _ _ C H).
  - rewrite <- (app_nil_r (chars pre)) in C. apply tok_chars in C. exact (finish_wf _ _ _ _ _ C H).
  - rewrite chars_app in C. apply tok_chars in C. exact (finish_wf _ _ _ _ _ C H).
Qed.
Lemma parse_of_res v ts strict : net_parse v ts strict = match net_parse_res v ts strict with Err e x => raise_if (net_default v) e x | r => r end.
Proof. reflexivity. Qed.
