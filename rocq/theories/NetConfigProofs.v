(** Networks under every setting of the scope-id macros: parsing and printing. *)
From Verif Require Import Base Tac TextProofs UnicodeModel FixedStringModel V4Model V6Model Uint128Model SpecInt Uint128Proofs Uint128Div2
  SpecText SpecAddr SpecStr SpecV4 SpecV6 StrProofs V4Proofs BufProofs BitProofs FixedStringProofs V4Lemmas V6Proofs V6Parse V6Grammar V6Full V6Format V6Lemmas
  AddressModel SpecOrder AddressProofs NetworkModel SpecNet NetProofs NetProofs2 NetProofs3 MaskProofs ErrProofs NetText NetText2 NetText3
  SpecLoose LooseProofs AnyModel ConfigModel SpecConfig ConfigProofs NetConfigModel SpecNetConfig.

Lemma max_len_pos g : cfg_ok g -> 0 < max_len_c g. Proof. unfold cfg_ok, max_len_c. lia. Qed.

(** *** Errors are real *)
Lemma split_scope_loop_c_real g : forall ts pos e sc s i, Forall tok_real ts -> real (split_scope_loop_c g ts pos e sc s i).
Proof. induction ts as [|[c|e x] ts IH]; intros pos en sc s i H; cbn [split_scope_loop_c]; rl. Qed.
Lemma v6_c_real g ts : Forall tok_real ts -> real (v6_from_string_c g true ts).
Proof.
  intros H. unfold v6_from_string_c. destruct ts as [|t ts]; [discriminate|]. apply real_bind.
  - unfold split_scope_id_c. apply real_bind; [apply split_scope_loop_c_real; exact H|]. intros ? _. rl.
  - intros [e s] _. apply real_bind; [apply split_parts_real, firstn_real; exact H|]. intros [ps pc] _.
    apply real_bind; [apply bound_real|]. intros [[hi lo] sk] _. apply real_bind.
    + unfold parse_parts. apply real_bind; [apply parts_loop_real|]. intros [ix r] _. apply real_bind; [apply real_assert|]. intros _ _.
      apply real_bind; [apply parts_loop_real|]. intros [? ?] _. exact I.
    + intros b _. destruct (c_max g >? 0); [|exact I]. apply real_bind; [apply real_rd|]. intros s0 _. destruct (negb (s0 =? 0)); [|exact I].
      apply real_bind; [apply fs_make_real|]. intros ? _. exact I.
Qed.
Lemma addr_c_real g ts : Forall tok_real ts -> real (addr_parse_c g ts).
Proof. intros H. unfold addr_parse_c. apply real_bind; [apply v6_c_real; exact H|]. intros [? ?] _. exact I. Qed.
Lemma array_c_real g d : real (addr_parse_array_c g d).
Proof. unfold addr_parse_array_c. apply real_bind; [apply fs_make_real|]. intros f _. apply addr_c_real, chars_real. Qed.
Lemma net_c_real g ts strict : Forall tok_real ts -> real (net_parse_res_c g ts strict).
Proof.
  intros H. unfold net_parse_res_c. apply real_bind; [apply net_split_real; exact H|]. intros [a m] E.
  apply real_bind; [apply parse_netmask_real; apply split_mask_real in E; [exact E|exact H|constructor]|]. intros [nm p] _.
  apply real_bind; [pose proof (array_c_real g a) as A; destruct (addr_parse_array_c g a); auto|]. intros ad _.
  apply real_bind; [pose proof (strict_real V6 ad nm strict) as A; destruct (strict_netmask V6 ad nm strict); auto|]. intros ? _. exact I.
Qed.
Lemma net_c_is_res g ts strict : Forall tok_real ts -> net_parse_c g ts strict = net_parse_res_c g ts strict.
Proof.
  intros H. pose proof (net_c_real g ts strict H) as R. unfold net_parse_c. destruct (net_parse_res_c g ts strict) as [|e x|]; try reflexivity.
  unfold raise_if, ec_eqb. cbn in R. destruct (ec_eq_dec e no_error); [contradiction|reflexivity].
Qed.

(** *** The address part *)
Definition text_c (g : config) (pre : list Z) : list Z := cut (firstn (Z.to_nat (max_len_c g)) pre).
Lemma array_c g data : (Z.to_nat (max_len_c g) <= length data)%nat ->
  addr_parse_array_c g data = addr_parse_c g (chars (text_c g data)).
Proof.
  intros G. unfold addr_parse_array_c. destruct (fs_make_cut _ _ _ G (c_string_firstn _ _ G)) as (f & -> & Ef). cbn [bind]. rewrite Ef. reflexivity.
Qed.
Lemma parse_buf_c g pre : cfg_ok g -> zlen pre <= max_len_c g + 1 ->
  addr_parse_array_c g (buf (max_len_c g + 1) pre) = addr_parse_c g (chars (text_c g pre)).
Proof.
  intros Hg H. pose proof (max_len_pos g Hg). rewrite array_c.
  - unfold text_c, buf. rewrite cut_buf. reflexivity.
  - pose proof (zlen_buf (max_len_c g + 1) pre H). unfold zlen in *. lia.
Qed.
Lemma text_c_firstn g pre : cfg_ok g -> text_c g (firstn (Z.to_nat (max_len_c g + 1)) pre) = text_c g pre.
Proof. intros Hg. pose proof (max_len_pos g Hg). unfold text_c. rewrite firstn_firstn. do 2 f_equal. lia. Qed.

Lemma literal_c g s : cfg_ok g -> zlen s <= max_len_c g -> addr_literal_c g s = addr_parse_c g (chars (cut s)).
Proof.
  intros Hg H. pose proof (max_len_pos g Hg). unfold addr_literal_c. destruct (Z.gtb_spec (zlen s) (max_len_c g)); [lia|]. rewrite array_c.
  - unfold text_c. rewrite cut_buf, firstn_all2 by (unfold zlen in H; lia). reflexivity.
  - rewrite app_length, repeat_length. unfold zlen in *. lia.
Qed.
Lemma literal_c_long g s : max_len_c g < zlen s -> addr_literal_c g s = Err string_is_too_long 0.
Proof. intros H. unfold addr_literal_c. destruct (Z.gtb_spec (zlen s) (max_len_c g)); [reflexivity|lia]. Qed.

(** *** The whole parser *)
Definition finish_c (g : config) (a : list Z) (m : list tok) (strict : bool) : res net :=
  '(netmask, prefixlen) <- parse_netmask V6 m ;;
  a <- with_value (mask_value V6 m) (addr_parse_c g (chars (text_c g a))) ;;
  a <- with_value (mask_value V6 m) (strict_netmask V6 a netmask strict) ;;
  Ret (mk_net a netmask prefixlen).
Lemma net_c_split g ts strict : cfg_ok g ->
  (exists pre r, ts = chars pre ++ r /\ ~ In 47 pre /\ max_len_c g < zlen pre /\ net_parse_res_c g ts strict = finish_c g pre [] strict) \/
  (exists pre, ts = chars pre /\ ~ In 47 pre /\ zlen pre <= max_len_c g /\ net_parse_res_c g ts strict = finish_c g pre [] strict) \/
  (exists pre m, ts = chars (pre ++ 47 :: m) /\ ~ In 47 pre /\ ~ In 47 m /\ m <> [] /\ zlen pre <= max_len_c g /\
     net_parse_res_c g ts strict = finish_c g pre (chars m) strict) \/
  ((exists e x, net_parse_res_c g ts strict = Err e x) /\ exists pre r, ts = chars pre ++ r /\ ~ In 47 pre /\ zlen pre <= max_len_c g /\
     ((exists e x r', r = Bad e x :: r') \/ exists r', r = Ch 47 :: r' /\ forall m, r' = chars m -> m = [] \/ In 47 m)).
Proof.
  intros Hg. destruct (toks_slash ts) as (pre & r & -> & N & H). pose proof (max_len_pos g Hg) as HL.
  assert (E : net_parse_res_c g (chars pre ++ r) strict =
    '(address, mask_tokens) <- (if zlen pre <=? max_len_c g then net_split (max_len_c g) r (buf (max_len_c g + 1) pre) (zlen pre) false []
                                else Ret (buf (max_len_c g + 1) (firstn (Z.to_nat (max_len_c g + 1)) pre), [])) ;;
    '(netmask, prefixlen) <- parse_netmask V6 mask_tokens ;;
    a <- with_value (mask_value V6 mask_tokens) (addr_parse_array_c g address) ;;
    a <- with_value (mask_value V6 mask_tokens) (strict_netmask V6 a netmask strict) ;; Ret (mk_net a netmask prefixlen)).
  { unfold net_parse_res_c. rewrite buf_nil. change 0 with (zlen (@nil Z)) at 1. rewrite (split_prefix (max_len_c g) HL) by (auto; change (zlen (@nil Z)) with 0; lia).
    cbn [app]. reflexivity. }
  rewrite E. destruct (Z.leb_spec (zlen pre) (max_len_c g)) as [Hl|Hl].
  2:{ left. exists pre, r. split; [reflexivity|]. split; [exact N|]. split; [lia|]. cbn [bind]. unfold finish_c.
      destruct (parse_netmask V6 []) as [[nm p]|e x|u]; cbn [bind]; try reflexivity.
      rewrite parse_buf_c, text_c_firstn by (try exact Hg; unfold zlen; rewrite firstn_length; lia). reflexivity. }
  right. destruct H as [->|[(e & x & r' & ->)|(r' & ->)]].
  - left. exists pre. split; [apply app_nil_r|]. split; [exact N|]. split; [exact Hl|]. cbn [net_split bind]. unfold finish_c.
    destruct (parse_netmask V6 []) as [[nm p]|e x|u]; cbn [bind]; try reflexivity. rewrite parse_buf_c by (try exact Hg; lia). reflexivity.
  - right. right. split; [cbn [net_split bind]; eauto|]. exists pre, (Bad e x :: r'). repeat split; auto. left. eauto.
  - cbn [net_split]. cbn [Z.eqb Pos.eqb andb]. destruct (Z.eqb_spec (zlen r') 0) as [Z0|Z0].
    { right. right. split; [cbn [bind]; eauto|]. exists pre, (Ch 47 :: r'). repeat split; auto. right. exists r'. split; [reflexivity|].
      intros m ->. left. destruct m; [reflexivity|]. unfold zlen in Z0. discriminate. }
    cbn [bind negb]. destruct (Z.gtb_spec (zlen pre) (max_len_c g)); [lia|].
    destruct (split_suffix (max_len_c g) r' (buf (max_len_c g + 1) pre) (zlen pre) r' Hl) as [(m & -> & Nm & ->)|[K (e & x & ->)]].
    + right. left. exists pre, m. split; [rewrite chars_app; reflexivity|]. split; [exact N|]. split; [exact Nm|].
      split; [intros ->; apply Z0; reflexivity|]. split; [exact Hl|]. cbn [bind]. unfold finish_c.
      destruct (parse_netmask V6 (chars m)) as [[nm p]|e x|u]; cbn [bind]; try reflexivity. rewrite parse_buf_c by (try exact Hg; lia). reflexivity.
    + right. right. split; [cbn [bind]; eauto|]. exists pre, (Ch 47 :: r'). repeat split; auto. right. exists r'. split; [reflexivity|].
      intros m Em. right. apply K. exact Em.
Qed.

(** Parsed addresses. *)
Lemma addr_c_ok g s a : cfg_ok g -> no_nul s -> addr_parse_c g (chars s) = Ret a ->
  bytes_ok V6 (a_bytes a) /\ scope_id_of (c_max g) (c_spaces g) (a_scope a) /\ (Forall is_char s -> Forall is_char (a_scope a)).
Proof.
  intros Hg N H. unfold addr_parse_c in H. destruct (v6_from_string_c g true (chars s)) as [[b t]| |] eqn:E; try discriminate.
  cbn [bind] in H. apply ret_inj in H. subst a. cbn [a_bytes a_scope]. split; [|split; [exact (c_parsed g s b t Hg E)|]].
  - apply c_exact in E as (gs & L & ->); [|exact Hg].
    assert (K : exists x, no_nul x /\ ~ In 37 x /\ v6_loose x gs).
    { destruct L as [(N37 & R & _)|(x & u & -> & N37 & R & _)]; [exists s; auto|]. exists x. split; [|auto].
      intros K. apply N. apply in_app_iff. left. exact K. }
    destruct K as (x & Nx & N37 & R). refine (proj1 (v6_parsed_ok x (group_bytes gs) [] Nx _)). apply v6_exact. exists gs. split; [left; auto|reflexivity].
  - apply c_exact in E as (gs & [(_ & _ & ->)|(x & u & -> & _ & _ & _ & _ & B & _)] & _); [intros _; constructor| |exact Hg].
    intros C. apply Forall_app in C as [_ C]. inversion C as [|? ? _ C']. subst. apply before_is in B. subst t. apply cut_forall. exact C'.
Qed.
Lemma addr_c_defined g ts : cfg_ok g -> is_defined (addr_parse_c g ts).
Proof. intros Hg. unfold addr_parse_c. pose proof (c_defined g ts Hg). destruct (v6_from_string_c g true ts) as [[? ?]| |]; auto. Qed.

(** The strictness check with any scope id. *)
Lemma strict_scope b s p strict : 0 <= p <= 128 -> bytes_ok V6 b ->
  strict_netmask V6 (mk_addr b s) (mask_of V6 p) strict =
    if be_value b mod 2 ^ (128 - p) =? 0 then Ret (mk_addr b s)
    else if strict then Err has_host_bits_set 0 else Ret (addr_of V6 (clear V6 (be_value b) p)).
Proof.
  intros Hp Hb. assert (W : wf_addr V6 (mk_addr b [])) by (split; [exact Hb|split; [left; reflexivity|constructor]]).
  pose proof (strict_netmask_spec V6 (mk_addr b []) p strict Hp W) as E. unfold val in E. cbn [a_bytes width] in E.
  unfold strict_netmask, v6_strict_netmask in *. cbn [a_bytes a_scope] in *.
  destruct (and_loop 16 0 b (a_bytes (mask_of V6 p)) (repeat 0 16)) as [c|e x|u]; cbn [bind] in *.
  - destruct (list_eqb c b) eqn:Q; cbn [negb bind] in *.
    + destruct (Z.eqb_spec (be_value b mod 2 ^ (128 - p)) 0) as [Z0|Z0]; [reflexivity|]. destruct strict; [discriminate|]. exfalso.
      apply Z0. apply ret_inj in E. destruct (clear_range V6 (be_value b) p Hp (val_range V6 _ W)) as [R C]. cbn [width] in C.
      pose proof (addr_of_val V6 _ R) as V. rewrite <- E in V. unfold val in V. cbn [a_bytes] in V. rewrite V at 1. exact C.
    + destruct (_ =? 0); [|exact E]. exfalso. destruct strict; [discriminate|]. cbn [bind] in E. apply ret_inj in E. injection E as E. subst c.
      assert (list_eqb b b = true) by (apply list_eqb_eq; reflexivity). congruence.
  - destruct (_ =? 0); [discriminate|]. destruct strict; [congruence|discriminate].
  - destruct (_ =? 0); [discriminate|]. destruct strict; discriminate.
Qed.
Lemma mask_unique n m : bytes_ok V6 (a_bytes n) -> a_scope n = [] -> val n = val m -> bytes_ok V6 (a_bytes m) -> a_scope m = [] -> n = m.
Proof.
  intros B S E B' S'. apply (addr_eq V6); [..|congruence]; [| |exact E]; (split; [assumption|]); (split; [left; assumption|]); rewrite ?S, ?S'; constructor.
Qed.
Lemma clear6 a p : clear V6 a p = a - a mod 2 ^ (128 - p).
Proof. unfold clear. cbn [width]. reflexivity. Qed.
Lemma mk_net_inj a m p a' m' p' : mk_net a m p = mk_net a' m' p' -> a = a' /\ m = m' /\ p = p'.
Proof. intros H. split; [exact (f_equal n_addr H)|]. split; [exact (f_equal n_mask H)|exact (f_equal n_prefix H)]. Qed.
(** The network of an address and a prefix length. *)
Definition made (b s : list Z) (p : Z) : net :=
  mk_net (if be_value b mod 2 ^ (128 - p) =? 0 then mk_addr b s else addr_of V6 (clear V6 (be_value b) p)) (mask_of V6 p) p.
Lemma made_ok b s p : 0 <= p <= 128 -> bytes_ok V6 b -> network_of (mk_addr b s) p false (made b s p).
Proof.
  intros Hp Hb. assert (Rb : 0 <= be_value b < 2 ^ width V6) by (apply be_value_range; exact Hb).
  pose proof (mask_of_wf V6 p Hp) as [Wm _]. pose proof (mask_of_scope V6 p Hp) as Sm. pose proof (mask_of_val V6 p Hp) as Vm. cbn [width] in Vm.
  destruct (clear_range V6 (be_value b) p Hp Rb) as [Rc _]. rewrite clear6 in Rc.
  unfold made, network_of. rewrite clear6. unfold val at 1 2 3. cbn [a_bytes a_scope n_addr n_mask n_prefix]. split; [discriminate|]. split; [reflexivity|].
  assert (X : forall q : bool, (q = true -> be_value b mod 2 ^ (128 - p) = 0) ->
    bytes_ok V6 (a_bytes (if q then mk_addr b s else addr_of V6 (be_value b - be_value b mod 2 ^ (128 - p)))) /\
    val (if q then mk_addr b s else addr_of V6 (be_value b - be_value b mod 2 ^ (128 - p))) = be_value b - be_value b mod 2 ^ (128 - p) /\
    a_scope (if q then mk_addr b s else addr_of V6 (be_value b - be_value b mod 2 ^ (128 - p))) = (if q then s else [])).
  { intros [|] Q.
    - split; [exact Hb|]. split; [|reflexivity]. rewrite Q by reflexivity. rewrite Z.sub_0_r. reflexivity.
    - split; [apply (addr_of_wf V6 _ Rc)|]. split; [apply (addr_of_val V6 _ Rc)|apply (addr_of_scope V6 _ Rc)]. }
  destruct (X (be_value b mod 2 ^ (128 - p) =? 0) (proj1 (Z.eqb_eq _ _))) as (X1 & X2 & X3).
  split; [exact X1|]. split; [exact X2|]. split; [exact X3|]. split; [exact Wm|]. split; [exact Sm|exact Vm].
Qed.
Lemma network_unique a p x y : network_of a p false x -> network_of a p false y -> x = y.
Proof.
  intros (_ & P & B & V & S & Bm & Sm & Vm) (_ & P' & B' & V' & S' & Bm' & Sm' & Vm'). destruct x as [ax mx px], y as [ay my py].
  cbn [n_addr n_mask n_prefix] in *. rewrite <- V' in V. rewrite <- S' in S. rewrite <- Vm' in Vm.
  f_equal; [|apply mask_unique; assumption|congruence]. apply addr_ext; [|exact S]. eapply be_value_inj; [exact B|exact B'|exact V].
Qed.
Lemma network_strict a p strict x : network_of a p strict x <-> (strict = true -> val a mod 2 ^ (128 - p) = 0) /\ network_of a p false x.
Proof. unfold network_of. split; [intros [S H]|intros [S [_ H]]]; split; auto; split; [discriminate|exact H]. Qed.
Lemma network_made b s p strict x : 0 <= p <= 128 -> bytes_ok V6 b ->
  (network_of (mk_addr b s) p strict x <-> (strict = true -> be_value b mod 2 ^ (128 - p) = 0) /\ x = made b s p).
Proof.
  intros Hp Hb. rewrite network_strict. pose proof (made_ok b s p Hp Hb) as M. split; intros [S H]; (split; [exact S|]).
  - exact (network_unique _ _ _ _ H M).
  - rewrite H. exact M.
Qed.
(** What the second half of the parser does. *)
Lemma finish_c_iff g pre m strict n : cfg_ok g ->
  finish_c g pre m strict = Ret n <->
  exists p a, 0 <= p <= 128 /\ mask_accepted V6 m p /\ addr_parse_c g (chars (text_c g pre)) = Ret a /\ network_of a p strict n.
Proof.
  intros Hg. unfold finish_c.
  assert (Bok : forall a, addr_parse_c g (chars (text_c g pre)) = Ret a -> bytes_ok V6 (a_bytes a)).
  { intros a A. eapply addr_c_ok; [exact Hg|apply cut_no0|exact A]. }
  destruct (parse_netmask_spec V6 m) as [(p & Hp & -> & Up)|[(e & x & -> & Na & Nu)|(-> & (K & _))]]; cbn [bind]; [| |discriminate].
  2:{ split; [discriminate|]. intros (p & a & _ & M & _). destruct (Na p M). }
  destruct (addr_parse_c g (chars (text_c g pre))) as [a|e x|u] eqn:E; cbn [bind with_value].
  2,3: split; [discriminate|]; intros (p' & a' & _ & _ & K & _); discriminate.
  specialize (Bok a eq_refl). destruct a as [b s]. cbn [a_bytes] in Bok. rewrite strict_scope by assumption.
  pose proof (fun x => network_made b s p strict x Hp Bok) as Iff. unfold made in Iff. revert Iff. clear - Hp Up.
  generalize (addr_of V6 (clear V6 (be_value b) p)) (mask_of V6 p) (be_value b mod 2 ^ (128 - p)). intros c k h Iff. split.
  - intros H. exists p, (mk_addr b s). split; [exact Hp|]. split; [apply Up; reflexivity|]. split; [reflexivity|]. apply Iff.
    destruct (Z.eqb_spec h 0) as [Z0|Z0]; cbn [with_value bind] in H.
    + apply ret_inj in H. auto.
    + destruct strict; [discriminate|]. cbn [with_value bind] in H. apply ret_inj in H. split; [discriminate|auto].
  - intros (p' & a' & _ & M & A & H). apply Up in M. subst p'. apply ret_inj in A. subst a'. apply Iff in H as [S ->].
    destruct (Z.eqb_spec h 0) as [Z0|Z0]; [reflexivity|]. destruct strict; [exfalso; auto|reflexivity].
Qed.
Lemma finish_c_defined g pre m strict : cfg_ok g -> is_defined (finish_c g pre m strict).
Proof.
  intros Hg. unfold finish_c.
  destruct (parse_netmask_spec V6 m) as [(p & Hp & -> & _)|[(e & x & -> & _)|(-> & (K & _))]]; cbn [bind]; [|exact I|discriminate].
  pose proof (addr_c_defined g (chars (text_c g pre)) Hg) as D. destruct (addr_parse_c g (chars (text_c g pre))) as [a|e x|u] eqn:E; cbn [bind with_value]; [|exact I|exact D].
  destruct a as [b s]. rewrite strict_scope; [|exact Hp|eapply addr_c_ok in E; [apply E|exact Hg|apply cut_no0]].
  destruct (_ =? 0); [exact I|]. destruct strict; exact I.
Qed.
Lemma net_c_defined g ts strict : cfg_ok g -> is_defined (net_parse_c g ts strict).
Proof.
  intros Hg. assert (D : is_defined (net_parse_res_c g ts strict)).
  { destruct (net_c_split g ts strict Hg) as [(pre & r & _ & _ & _ & ->)|[(pre & _ & _ & _ & ->)|[(pre & m & _ & _ & _ & _ & _ & ->)|[(e & x & ->) _]]]];
      [apply finish_c_defined; exact Hg..|exact I]. }
  unfold net_parse_c. destruct (net_parse_res_c g ts strict); [exact I| |exact D]. unfold raise_if. destruct (ec_eqb e no_error); exact I.
Qed.

(** *** Exactly which texts are accepted *)
Lemma slash_c_fits (M : Z) t m : ~ In 47 t -> zlen t <= M -> forall pre r, t ++ 47 :: m = pre ++ r -> ~ In 47 pre -> zlen pre <= M.
Proof.
  intros N H pre r E Np. assert (zlen pre <= zlen t); [|lia].
  clear H. revert pre E Np. induction t as [|c t IH]; intros [|x pre] E Np; try (unfold zlen; cbn [length]; lia).
  - injection E as E0 _. exfalso. apply Np. left. symmetry. exact E0.
  - injection E as _ E. rewrite !zlen_cons. assert (zlen pre <= zlen t); [|lia].
    apply IH; [intros K; apply N; right; exact K|exact E|intros K; apply Np; right; exact K].
Qed.
Lemma net_c_slash g r m strict : cfg_ok g -> ~ In 47 r -> ~ In 47 m -> m <> [] -> zlen r <= max_len_c g ->
  net_parse_res_c g (chars (r ++ 47 :: m)) strict = finish_c g r (chars m) strict.
Proof.
  intros Hg Nr Nm Hm Hl.
  destruct (net_c_split g (chars (r ++ 47 :: m)) strict Hg) as [(pre & r' & E & Ns & Ln & R)|[(pre & E & Ns & Ln & R)|[(pre & m' & E & Ns & Nm' & Hm' & Ln & R)|[_ (pre & r' & E & Ns & Ln & Hr)]]]].
  - exfalso. apply chars_prefix in E as (r2 & E & ->). pose proof (slash_c_fits _ r m Nr Hl pre r2 E Ns). lia.
  - exfalso. apply chars_inj in E. apply Ns. rewrite <- E. apply in_app_iff. right. left. reflexivity.
  - apply chars_inj in E. apply (sep_unique 47) in E as [-> ->]; [|assumption..]. exact R.
  - exfalso. apply chars_prefix in E as (r2 & E & ->). destruct Hr as [(e & x & r3 & K)|(r3 & K & F)]; [destruct r2; discriminate|].
    destruct r2 as [|c r2]; [discriminate|]. injection K as -> <-. apply (sep_unique 47) in E as [-> ->]; [|assumption..].
    destruct (F r2 eq_refl) as [K|K]; contradiction.
Qed.
Lemma finish_c_text g pre pre' m strict : text_c g pre = text_c g pre' -> finish_c g pre m strict = finish_c g pre' m strict.
Proof. intros E. unfold finish_c. rewrite E. reflexivity. Qed.
Lemma net_c_reads g s strict : cfg_ok g -> ~ In 47 (firstn (Z.to_nat (max_len_c g + 1)) s) -> net_parse_res_c g (chars s) strict = finish_c g s [] strict.
Proof.
  intros Hg N. pose proof (max_len_pos g Hg). destruct (net_c_split g (chars s) strict Hg) as [(pre & r & E & Ns & Ln & R)|[(pre & E & Ns & Ln & R)|[(pre & m & E & Ns & Nm & Hm & Ln & R)|[(e & x & R) (pre & r & E & Ns & Ln & Hr)]]]]; rewrite R.
  - apply chars_prefix in E as (r' & -> & ->). apply finish_c_text. unfold text_c. f_equal. rewrite firstn_app.
    replace (Z.to_nat (max_len_c g) - length pre)%nat with O by (unfold zlen in Ln; lia). rewrite firstn_O, app_nil_r. reflexivity.
  - apply chars_inj in E. subst. reflexivity.
  - apply chars_inj in E. subst. exfalso. apply N. apply in_firstn. unfold zlen in Ln. lia.
  - exfalso. apply chars_prefix in E as (r' & -> & ->). destruct Hr as [(e' & y & r2 & K)|(r2 & K & _)]; [destruct r'; discriminate|].
    destruct r' as [|c r']; [discriminate|]. injection K as -> _. apply N. apply in_firstn. unfold zlen in Ln. lia.
Qed.
Lemma mask_range m p : m <> [] -> loose_mask V6 m p -> 0 <= p <= 128.
Proof.
  intros N M. apply mask_loose in M; [|exact N].
  destruct (parse_netmask_spec V6 (chars m)) as [(p0 & Hp & _ & U)|[(e & x & _ & Na & _)|(_ & (K & _))]]; [|destruct (Na p M)|discriminate].
  apply U in M. subst. exact Hp.
Qed.
Lemma net_c_exact g s strict n : cfg_ok g ->
  net_parse_c g (chars s) strict = Ret n <->
  exists t p b sc, net_loose_for (41 + c_max g) s t p /\ v6_from_string_c g true (chars t) = Ret (b, sc) /\ network_of (mk_addr b sc) p strict n.
Proof.
  intros Hg. rewrite net_c_is_res by apply chars_real. unfold net_loose_for. fold (max_len_c g). pose proof (max_len_pos g Hg) as Hm0.
  assert (PA : forall t a, addr_parse_c g (chars t) = Ret a <-> exists b sc, a = mk_addr b sc /\ v6_from_string_c g true (chars t) = Ret (b, sc)).
  { intros t a. unfold addr_parse_c. destruct (v6_from_string_c g true (chars t)) as [[b sc]|e x|u]; cbn [bind].
    - split; [intros H; apply ret_inj in H; eauto|]. intros (b' & sc' & -> & H). apply ret_inj in H. congruence.
    - split; [discriminate|]. intros (b' & sc' & _ & H). discriminate.
    - split; [discriminate|]. intros (b' & sc' & _ & H). discriminate. }
  split.
  - intros H. destruct (in_dec Z.eq_dec 47 (firstn (Z.to_nat (max_len_c g + 1)) s)) as [J|N].
    + destruct (net_c_split g (chars s) strict Hg) as [(pre & r & E & Ns & Ln & R)|[(pre & E & Ns & Ln & R)|[(pre & m & E & Ns & Nm & Hm & Ln & R)|[(e & x & R) _]]]]; rewrite R in H; [| | |discriminate].
      * exfalso. apply chars_prefix in E as (r' & -> & ->). rewrite firstn_app in J. unfold zlen in Ln.
        replace (Z.to_nat (max_len_c g + 1) - length pre)%nat with O in J by lia. rewrite firstn_O, app_nil_r in J.
        apply Ns. eapply In_firstn. exact J.
      * exfalso. apply chars_inj in E. subst. apply Ns. eapply In_firstn. exact J.
      * apply chars_inj in E. subst s. apply finish_c_iff in H as (p & a & Hp & M & A & F); [|exact Hg]. apply mask_loose in M; [|exact Hm].
        apply PA in A as (b & sc & -> & A). exists (cut pre), p, b, sc. split; [right|].
        -- exists pre, m. auto 6 using before_cut.
        -- split; [|exact F]. rewrite <- A. unfold text_c. rewrite firstn_all2 by (unfold zlen in Ln; lia). reflexivity.
    + rewrite net_c_reads in H by assumption. apply finish_c_iff in H as (p & a & Hp & M & A & F); [|exact Hg]. apply mask_none in M. subst p.
      apply PA in A as (b & sc & -> & A). exists (text_c g s), 128, b, sc. split; [left|auto]. split; [exact N|]. split; [apply before_cut|reflexivity].
  - intros (t & p & b & sc & [(N & B & ->)|(r & m & -> & Nr & Hl & B & M)] & A & F); apply before_is in B; subst t.
    + rewrite net_c_reads by assumption. apply finish_c_iff; [exact Hg|]. exists 128, (mk_addr b sc). split; [lia|]. split; [apply mask_none; reflexivity|].
      split; [apply PA; eauto|exact F].
    + destruct (mask_nonempty V6 m p M) as [Hm Nm]. rewrite net_c_slash by assumption. apply finish_c_iff; [exact Hg|]. exists p, (mk_addr b sc).
      split; [exact (mask_range m p Hm M)|]. split; [apply mask_loose; assumption|]. split; [|exact F]. apply PA. exists b, sc. split; [reflexivity|].
      rewrite <- A. unfold text_c. rewrite firstn_all2 by (unfold zlen in Hl; lia). reflexivity.
Qed.
