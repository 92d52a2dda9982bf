(** Addresses and networks under every setting of the scope-id macros: round
    trip, comparison, hashing, literals. *)
From Verif Require Import Base Tac TextProofs UnicodeModel FixedStringModel V4Model V6Model Uint128Model SpecInt Uint128Proofs Uint128Div2
  SpecText SpecAddr SpecStr SpecV4 SpecV6 StrProofs V4Proofs BufProofs BitProofs FixedStringProofs V4Lemmas V6Proofs V6Parse V6Grammar V6Full V6Format V6Lemmas
  AddressModel SpecOrder AddressProofs NetworkModel SpecNet NetProofs NetProofs2 NetProofs3 MaskProofs ErrProofs NetText NetText2 NetText3
  SpecLoose LooseProofs AnyModel SpecAny AnyProofs SpecExact ConfigModel SpecConfig ConfigProofs NetConfigModel SpecNetConfig NetConfigProofs.

(** *** Round trip *)
Lemma of_off g s : c_max g = 0 -> scope_id_of (c_max g) (c_spaces g) s -> s = [].
Proof. intros E [L _]. destruct s; [reflexivity|]. rewrite zlen_cons in L. pose proof (zlen_nonneg s). lia. Qed.
Lemma to_string_c g a fmt : cfg_ok g -> addr_for (c_max g) (c_spaces g) a -> addr_to_string_c g a fmt = v6_to_string_c g (a_bytes a) (a_scope a) fmt.
Proof.
  intros Hg (_ & S & _). unfold addr_to_string_c. destruct (Z.gtb_spec (c_max g) 0); [reflexivity|].
  rewrite (of_off g (a_scope a)); [reflexivity| |exact S]. unfold cfg_ok in Hg. lia.
Qed.
Lemma addr_c_text g a fmt : cfg_ok g -> addr_for (c_max g) (c_spaces g) a ->
  exists s, addr_to_string_c g a fmt = Ret s /\ no_nul s /\ ~ In 47 s /\ zlen s <= 41 + c_max g /\
    v6_from_string_c g true (chars s) = Ret (a_bytes a, a_scope a).
Proof.
  intros Hg Ha. rewrite to_string_c by assumption. destruct Ha as (Hb & Hs & _).
  destruct (c_round_trip g _ _ fmt Hg Hb Hs) as (s & E & P). exists s. split; [exact E|].
  destruct (bytes16 (a_bytes a) Hb) as (gs & L8 & HF & Eb). rewrite Eb in E, P |- *.
  destruct (c_to_string g gs (a_scope a) fmt L8 HF (proj1 Hs)) as (x & T & E' & Hl). rewrite E in E'. apply ret_inj in E'. subst s. destruct (fmt_v6_text fmt gs x L8 HF T) as [Hv _]. destruct (addr_chars_ok x (text_chars x gs Hv)) as (_ & N & S47).
  destruct Hs as (_ & Nt & Ft).
  assert (X : no_nul (scope_suffix (a_scope a)) /\ ~ In 47 (scope_suffix (a_scope a))).
  { destruct (a_scope a) as [|c t]; [split; intros []|]. cbn [scope_suffix]. split.
    - intros [K|K]; [discriminate|exact (Nt K)].
    - intros [K|K]; [discriminate|]. rewrite Forall_forall in Ft. apply Ft in K. unfold scope_char_of in K. lia. }
  destruct X as [X1 X2]. split; [intros K; apply in_app_iff in K as [K|K]; [exact (N K)|exact (X1 K)]|].
  split; [intros K; apply in_app_iff in K; tauto|]. split; [exact Hl|exact P].
Qed.
Lemma net_c_round_trip g n fmt strict : cfg_ok g -> net_for (c_max g) (c_spaces g) n ->
  exists s, net_to_string_c g n fmt = Ret s /\ net_parse_c g (chars s) strict = Ret n.
Proof.
  intros Hg (Ha & Bm & Sm & Hp & Vm & Va). destruct (addr_c_text g (n_addr n) fmt Hg Ha) as (t & E & N & N47 & Hl & P).
  destruct (prefix_digits V6 (n_prefix n) Hp) as (d & Ed & Hd). apply numeral_dec in Hd. exists (t ++ 47 :: d).
  split; [unfold net_to_string_c; rewrite E, Ed; reflexivity|]. apply net_c_exact; [exact Hg|].
  exists t, (n_prefix n), (a_bytes (n_addr n)), (a_scope (n_addr n)). split; [right|split; [exact P|]].
  - exists t, d. split; [reflexivity|]. split; [exact N47|]. split; [exact Hl|]. split; [split; [exact N|left; reflexivity]|].
    left. exists (n_prefix n). split; [exact Hd|]. rewrite Z.mod_small by lia. split; [reflexivity|]. cbn [width]. lia.
  - destruct Ha as (Hb & _). assert (K : mk_addr (a_bytes (n_addr n)) (a_scope (n_addr n)) = n_addr n) by (apply addr_ext; reflexivity).
    rewrite K. unfold network_of. rewrite Va, Z.sub_0_r. change (0 =? 0) with true. cbv iota.
    split; [reflexivity|]. split; [reflexivity|]. split; [exact Hb|]. split; [reflexivity|]. split; [reflexivity|]. auto.
Qed.

(** *** Unscoped texts are short *)
Lemma quad_short s bs : dotted_quad s bs -> zlen s <= 15.
Proof. intros H. apply (quad_chars s bs H). Qed.
Lemma mask_functional m p p' : loose_mask V6 m p -> loose_mask V6 m p' -> p' = p.
Proof.
  intros M M'. destruct (mask_nonempty V6 m p M) as [Hm _]. apply mask_loose in M, M'; [|exact Hm..].
  destruct (parse_netmask_spec V6 (chars m)) as [(p0 & _ & _ & U)|[(e & x & _ & Na & _)|(_ & (K & _))]]; [|destruct (Na p M)|discriminate].
  apply U in M, M'. congruence.
Qed.
Lemma join_len : forall ts vs, Forall2 hex_group ts vs -> zlen (join ts) <= Z.max 0 (5 * zlen vs - 1).
Proof.
  induction 1 as [|t v ts vs [L _] F IH]; [cbn; lia|]. rewrite zlen_cons. destruct ts as [|t' ts].
  - inversion F. subst. cbn [join]. change (zlen (@nil Z)) with 0. lia.
  - change (join (t :: t' :: ts)) with (t ++ 58 :: join (t' :: ts)). rewrite zlen_app, zlen_cons.
    inversion F as [|? v' ? vs' ? F']. subst. rewrite zlen_cons in *. pose proof (zlen_nonneg vs'). lia.
Qed.
Lemma join_snoc_len : forall ts vs q, Forall2 hex_group ts vs -> zlen (join (ts ++ [q])) <= 5 * zlen vs + zlen q.
Proof.
  induction ts as [|t ts IH]; intros vs q F; inversion F as [|? v ? vs' [L _] F']; subst; cbn [app].
  - cbn [join]. change (zlen (@nil Z)) with 0. lia.
  - rewrite zlen_cons. specialize (IH _ q F'). destruct (ts ++ [q]) as [|t' r] eqn:E; [destruct ts; discriminate|].
    change (join (t :: t' :: r)) with (t ++ 58 :: join (t' :: r)). rewrite zlen_app, zlen_cons. lia.
Qed.
Lemma tail_len s vs : tail_text s vs -> zlen s <= 5 * zlen vs + 5.
Proof.
  intros [(ts & F & ->)|(ts & vs' & q & a & b & c & d & F & Q & -> & ->)].
  - pose proof (join_len ts vs F). pose proof (zlen_nonneg vs). lia.
  - pose proof (join_snoc_len ts vs' q F). apply quad_short in Q. rewrite zlen_app. change (zlen [a * 256 + b; c * 256 + d]) with 2. lia.
Qed.
Lemma v6_text_len s gs : v6_text s gs -> zlen s <= 45.
Proof.
  intros [L [T|(h & l & hv & n & lv & (ts & F & ->) & T & Hn & -> & ->)]]; apply tail_len in T.
  - unfold zlen in *. lia.
  - pose proof (join_len ts hv F). rewrite !app_length, repeat_length in L. rewrite !zlen_app. change (zlen [58; 58]) with 2.
    unfold zlen in *. lia.
Qed.
Lemma net_c_unscoped g t m b sc p strict n : cfg_ok g -> 4 <= c_max g -> no_nul t -> ~ In 37 t ->
  v6_from_string_c g true (chars t) = Ret (b, sc) -> loose_mask V6 m p ->
  (net_parse_c g (chars (t ++ 47 :: m)) strict = Ret n <-> network_of (mk_addr b []) p strict n).
Proof.
  intros Hg H4 N N37 P M. pose proof P as P0. apply c_exact in P as (gs & [(_ & R & ->)|(a & u & -> & _)] & ->); [| |exact Hg].
  2:{ destruct N37. apply in_app_iff. right. left. reflexivity. }
  apply raw_loose, raw_iff in R as [T _]; [|exact N]. pose proof (v6_text_len t gs T) as Lt.
  assert (N47 : ~ In 47 t) by (eapply text_not; [exact T|unfold addr_char; lia]).
  rewrite net_c_exact by exact Hg. split.
  - intros (t' & p' & b' & sc' & [(K & _)|(r & m' & E & Nr & _ & B & M')] & P' & W).
    + destruct K. apply in_firstn. unfold zlen in Lt. lia.
    + apply (sep_unique 47) in E as [<- <-]; [|assumption..]. apply before_is in B. subst t'. rewrite (cut_id t N) in P'. rewrite P0 in P'. injection P' as <- <-.
      rewrite <- (mask_functional m p p' M M'). exact W.
  - intros W. exists t, p, (group_bytes gs), []. split; [right|auto]. exists t, m. split; [reflexivity|]. split; [exact N47|]. split; [lia|].
    split; [split; [exact N|left; reflexivity]|exact M].
Qed.

(** *** Comparison *)
Lemma for_len g a : addr_for (c_max g) (c_spaces g) a -> zlen (a_scope a) <= c_max g.
Proof. intros (_ & [L _] & _). exact L. Qed.
Lemma scope_fs_c_wf g t : zlen t <= c_max g -> wf_fs (Z.to_nat (c_max g)) (scope_fs_c g t) /\ fs_chars (scope_fs_c g t) = t.
Proof.
  intros H. unfold zlen in H. split.
  - split; cbn [fs_data fs_length scope_fs_c]; [rewrite app_length, repeat_length; lia|unfold zlen; lia].
  - unfold fs_chars, scope_fs_c, zlen. cbn [fs_data fs_length]. rewrite Nat2Z.id, firstn_app, Nat.sub_diag, firstn_all, firstn_O.
    apply app_nil_r.
Qed.
Lemma scope_cmp_c g a b : addr_for (c_max g) (c_spaces g) a -> addr_for (c_max g) (c_spaces g) b ->
  exists c, fs_compare (scope_fs_c g (a_scope a)) (scope_fs_c g (a_scope b)) = Ret c /\ sgn_spec c (a_scope a) (a_scope b).
Proof.
  intros Ha Hb. destruct (scope_fs_c_wf g _ (for_len g a Ha)) as [W E]. destruct (scope_fs_c_wf g _ (for_len g b Hb)) as [W' E'].
  destruct Ha as (_ & _ & Ca), Hb as (_ & _ & Cb).
  destruct (fs_compare_ok _ _ _ _ W W') as (c & H & HS); rewrite ?E, ?E' in *; eauto.
Qed.
Lemma scopes_off g a b : c_max g <= 0 -> addr_for (c_max g) (c_spaces g) a -> addr_for (c_max g) (c_spaces g) b -> a_scope a = a_scope b.
Proof.
  intros H Ha Hb. apply for_len in Ha, Hb. assert (Z : forall t : list Z, zlen t <= 0 -> t = []).
  { intros [|c t] K; [reflexivity|]. rewrite zlen_cons in K. pose proof (zlen_nonneg t). lia. }
  rewrite (Z (a_scope a)), (Z (a_scope b)) by lia. reflexivity.
Qed.
Lemma for_cmp n sp a b : addr_for n sp a -> addr_for n sp b -> bytes_cmp (a_bytes a) (a_bytes b) = (val a ?= val b).
Proof. intros ([La Ba] & _) ([Lb Bb] & _). apply bytes_cmp_ok; auto; congruence. Qed.
Lemma for_inj n sp a b : addr_for n sp a -> addr_for n sp b -> val a = val b -> a_bytes a = a_bytes b.
Proof. intros (H & _) (H' & _) E. eapply be_value_inj; eassumption. Qed.

Lemma addr_cmp_c_ok g a b : addr_for (c_max g) (c_spaces g) a -> addr_for (c_max g) (c_spaces g) b ->
  exists c, addr_cmp_c g a b = Ret c /\ match c with Eq => a = b | Lt => addr_before a b | Gt => addr_before b a end.
Proof.
  intros Ha Hb. unfold addr_cmp_c. rewrite (for_cmp _ _ a b Ha Hb). pose proof (for_inj _ _ a b Ha Hb) as Inj. destruct (Z.gtb_spec (c_max g) 0) as [G|G].
  - destruct (Z.compare_spec (val a) (val b)) as [E|E|E].
    + destruct (scope_cmp_c g a b Ha Hb) as (c & -> & HS). cbn [bind]. eexists. split; [reflexivity|].
      destruct HS as [[-> HS]|[[Hc HS]|[Hc HS]]].
      * cbn. apply addr_ext; auto.
      * destruct (Z.ltb_spec c 0); [|lia]. right. auto.
      * destruct (Z.ltb_spec c 0); [lia|]. destruct (Z.eqb_spec c 0); [lia|]. right. auto.
    + eexists. split; [reflexivity|]. left. exact E.
    + eexists. split; [reflexivity|]. left. exact E.
  - pose proof (scopes_off g a b G Ha Hb). eexists. split; [reflexivity|]. destruct (Z.compare_spec (val a) (val b)) as [E|E|E].
    + apply addr_ext; auto.
    + left. exact E.
    + left. exact E.
Qed.
Lemma addr_eqb_c_ok g a b : addr_for (c_max g) (c_spaces g) a -> addr_for (c_max g) (c_spaces g) b ->
  exists r, addr_eqb_c g a b = Ret r /\ (r = true <-> a = b).
Proof.
  intros Ha Hb. unfold addr_eqb_c. destruct (list_eqb _ _) eqn:E.
  - apply list_eqb_eq in E. destruct (Z.gtb_spec (c_max g) 0) as [G|G].
    + destruct (scope_cmp_c g a b Ha Hb) as (c & -> & HS). cbn [bind]. eexists. split; [reflexivity|].
      rewrite Z.eqb_eq. apply sgn_eq in HS. rewrite HS. split; [intros; apply addr_ext; assumption|intros ->; reflexivity].
    + exists true. split; [reflexivity|]. split; [|reflexivity]. intros _. apply addr_ext; [exact E|]. exact (scopes_off g a b G Ha Hb).
  - eexists. split; [reflexivity|]. split; [discriminate|]. intros ->.
    assert (list_eqb (a_bytes b) (a_bytes b) = true) by (apply list_eqb_eq; reflexivity). congruence.
Qed.
(** The operator written before C++20, exactly. *)
Lemma addr_ltb_c_ok g a b : addr_for (c_max g) (c_spaces g) a -> addr_for (c_max g) (c_spaces g) b ->
  exists r, addr_ltb_c g a b = Ret r /\ (r = true <-> either_before a b).
Proof.
  intros Ha Hb. unfold addr_ltb_c, either_before. rewrite bytes_ltb_cmp, (for_cmp _ _ a b Ha Hb). destruct (Z.gtb_spec (c_max g) 0) as [G|G].
  - destruct (scope_cmp_c g a b Ha Hb) as (c & -> & HS). cbn [bind].
    assert (Hc : c <? 0 = true <-> lex_lt (a_scope a) (a_scope b)).
    { rewrite Z.ltb_lt. destruct HS as [[-> HS]|[[Hc HS]|[Hc HS]]].
      - split; [lia|]. rewrite HS. intros K. exfalso. exact (lex_irrefl _ K).
      - tauto.
      - split; [lia|]. intros K. exfalso. exact (lex_irrefl _ (lex_trans _ _ _ K HS)). }
    destruct (Z.compare_spec (val a) (val b)) as [E|E|E]; (eexists; split; [reflexivity|]); rewrite ?Hc; intuition lia.
  - rewrite (scopes_off g a b G Ha Hb). eexists. split; [reflexivity|]. pose proof (lex_irrefl (a_scope b)) as L.
    destruct (Z.compare_spec (val a) (val b)) as [E|E|E]; (split; [intros K; try discriminate; auto|intros [K|K]; [try lia; reflexivity|contradiction]]).
Qed.
Lemma addr_ltb_off g a b : c_max g = 0 -> addr_for (c_max g) (c_spaces g) a -> addr_for (c_max g) (c_spaces g) b ->
  exists r, addr_ltb_c g a b = Ret r /\ (r = true <-> addr_before a b).
Proof.
  intros G Ha Hb. destruct (addr_ltb_c_ok g a b Ha Hb) as (r & E & H). exists r. split; [exact E|]. rewrite H. unfold either_before, addr_before.
  rewrite (scopes_off g a b ltac:(lia) Ha Hb). pose proof (lex_irrefl (a_scope b)). tauto.
Qed.
Lemma addr_ltb_wrong g : 0 < c_max g -> exists a b, addr_for (c_max g) (c_spaces g) a /\ addr_for (c_max g) (c_spaces g) b /\
  addr_ltb_c g a b = Ret true /\ addr_ltb_c g b a = Ret true.
Proof.
  intros G. assert (W : forall x c, 0 <= x < 256 -> 97 <= c <= 98 -> addr_for (c_max g) (c_spaces g) (mk_addr (repeat 0 15 ++ [x]) [c])).
  { intros x c Hx Hc. split; [|split; [split; [|split]|]]; cbn [a_bytes a_scope].
    - split; [reflexivity|]. cbn [repeat app]. repeat (constructor; [unfold is_byte; lia|]). constructor.
    - change (zlen [c]) with 1. lia.
    - intros [K|[]]. lia.
    - constructor; [unfold scope_char_of; lia|constructor].
    - constructor; [unfold is_char; lia|constructor]. }
  exists (mk_addr (repeat 0 15 ++ [1]) [98]), (mk_addr (repeat 0 15 ++ [2]) [97]).
  assert (Wa := W 1 98 ltac:(lia) ltac:(lia)). assert (Wb := W 2 97 ltac:(lia) ltac:(lia)). clear W. do 2 (split; [assumption|]).
  destruct (addr_ltb_c_ok g _ _ Wa Wb) as (r & -> & H). destruct (addr_ltb_c_ok g _ _ Wb Wa) as (r' & -> & H').
  assert (r = true) as -> by (apply H; left; vm_compute; reflexivity).
  assert (r' = true) as -> by (apply H'; right; exists []; right; exists 97, 98, [], []; cbn [a_scope app]; repeat split; lia). auto.
Qed.
