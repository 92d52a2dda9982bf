(** Addresses and networks under every setting of the scope-id macros: swap,
    hash, networks, the default setting, ip_address, short buffers. *)
From Coq Require Import String.
From Verif Require Import Base Tac TextProofs UnicodeModel FixedStringModel V4Model V6Model Uint128Model SpecInt Uint128Proofs Uint128Div2
  SpecText SpecAddr SpecStr SpecV4 SpecV6 StrProofs V4Proofs BufProofs BitProofs FixedStringProofs V4Lemmas V6Proofs V6Parse V6Grammar V6Full V6Format V6Lemmas
  AddressModel SpecOrder AddressProofs NetworkModel SpecNet NetProofs NetProofs2 NetProofs3 MaskProofs ErrProofs NetText NetText2 NetText3
  SpecLoose LooseProofs AnyModel SpecAny AnyProofs SpecExact HashProofs ConfigModel SpecConfig ConfigProofs NetConfigModel SpecNetConfig NetConfigProofs NetConfigProofs2 NetWitness.
Close Scope string_scope.

(** *** Swap and hash *)
Lemma swap_c g a b : addr_for (c_max g) (c_spaces g) a -> addr_for (c_max g) (c_spaces g) b -> addr_swap_c g a b = Ret (b, a).
Proof.
  intros Ha Hb. unfold addr_swap_c. destruct (Z.gtb_spec (c_max g) 0) as [G|G].
  - destruct (scope_fs_c_wf g _ (for_len g a Ha)) as [W E]. destruct (scope_fs_c_wf g _ (for_len g b Hb)) as [W' E'].
    destruct (fs_swap_ok _ _ _ W W') as (f & f' & -> & _ & _ & E1 & E2). cbn [bind]. rewrite E1, E2, E, E'. destruct a, b. reflexivity.
  - pose proof (scopes_off g a b G Ha Hb) as E. destruct a as [ba sa], b as [bb sb]. cbn [a_scope a_bytes] in *. subst. reflexivity.
Qed.
(** The value does not depend on the setting. *)
Lemma hash_c_on g is64 a : 0 < c_max g -> addr_for (c_max g) (c_spaces g) a ->
  addr_hash_c g is64 a = Ret (calc_hash is64 (fold_left (fstep is64) (a_scope a) (fbasis is64)) (a_bytes a)).
Proof.
  intros G Ha. unfold addr_hash_c. destruct (Z.gtb_spec (c_max g) 0); [|lia]. destruct (scope_fs_c_wf g _ (for_len g a Ha)) as [W E].
  destruct (Z.to_nat (c_max g)) as [|n] eqn:En; [lia|]. rewrite (fs_hash_fold n _ _ W), E. reflexivity.
Qed.
Lemma hash_c_same g g' is64 a : 0 < c_max g -> 0 < c_max g' -> addr_for (c_max g) (c_spaces g) a -> addr_for (c_max g') (c_spaces g') a ->
  exists h, addr_hash_c g is64 a = Ret h /\ addr_hash_c g' is64 a = Ret h.
Proof. intros G G' H H'. rewrite (hash_c_on g is64 a G H), (hash_c_on g' is64 a G' H'). eauto. Qed.
Lemma hash_c_off g is64 a : c_max g = 0 -> addr_hash_c g is64 a = Ret (calc_hash is64 0 (a_bytes a)).
Proof. intros G. unfold addr_hash_c. rewrite G. reflexivity. Qed.
Lemma hash_c_defined g is64 a : cfg_ok g -> addr_for (c_max g) (c_spaces g) a -> exists h, addr_hash_c g is64 a = Ret h.
Proof.
  intros Hg Ha. unfold cfg_ok in Hg. destruct (Z.eq_dec (c_max g) 0) as [G|G]; [rewrite hash_c_off by exact G; eauto|].
  rewrite hash_c_on by (auto; lia). eauto.
Qed.
(** Leaving the scope ids out changes the hash of every address. *)
Lemma hash_c_differs : exists g a, c_max g = 16 /\ addr_for 0 true a /\ addr_hash_c (mk_cfg 0 true) true a <> addr_hash_c g true a.
Proof.
  exists (mk_cfg 16 true), (mk_addr (repeat 0 16) []). split; [reflexivity|]. split.
  - split; [|split; [split; [|split]|]]; cbn [a_bytes a_scope]; try constructor; try (repeat constructor; unfold is_byte; lia).
    intros H. discriminate. intros [].
  - vm_compute. discriminate.
Qed.

(** *** Networks *)
Lemma mask_for g n : cfg_ok g -> net_for (c_max g) (c_spaces g) n -> addr_for (c_max g) (c_spaces g) (n_mask n).
Proof.
  intros Hg (_ & B & S & _). split; [exact B|]. rewrite S. split; [|constructor]. split; [change (zlen (@nil Z)) with 0; unfold cfg_ok in Hg; lia|].
  split; [intros []|constructor].
Qed.
Definition bare (n : net) : net := mk_net (mk_addr (a_bytes (n_addr n)) []) (n_mask n) (n_prefix n).
Lemma bare_wf m sp n : net_for m sp n -> wf_net V6 (bare n).
Proof.
  intros ((Hb & _) & B & S & P & V & A). unfold wf_net, bare, wf_addr. cbn [n_addr n_mask n_prefix a_bytes a_scope].
  assert (K : storable []) by (left; reflexivity).
  rewrite S. split; [split; [exact Hb|split; [exact K|constructor]]|]. split; [split; [exact B|split; [exact K|constructor]]|]. split; [reflexivity|].
  split; [exact P|]. split; [exact V|exact A].
Qed.
Lemma masks_for m sp a b : net_for m sp a -> net_for m sp b ->
  (addr_before (n_mask a) (n_mask b) <-> n_prefix a < n_prefix b) /\ (n_mask a = n_mask b <-> n_prefix a = n_prefix b).
Proof. intros Ha Hb. exact (mask_cmp V6 (bare a) (bare b) (bare_wf _ _ _ Ha) (bare_wf _ _ _ Hb)). Qed.
Lemma net_for_eq m sp a b : net_for m sp a -> net_for m sp b -> (a = b <-> n_addr a = n_addr b /\ n_mask a = n_mask b).
Proof.
  intros Ha Hb. split; [intros ->; auto|]. intros [E1 E2]. destruct (masks_for m sp a b Ha Hb) as [_ K].
  pose proof (proj1 K E2) as E3. destruct a, b. cbn in *. subst. reflexivity.
Qed.
Lemma net_cmp_c_ok g a b : cfg_ok g -> net_for (c_max g) (c_spaces g) a -> net_for (c_max g) (c_spaces g) b ->
  exists c, net_cmp_c g a b = Ret c /\ match c with Eq => a = b | Lt => net_before a b | Gt => net_before b a end.
Proof.
  intros Hg Wa Wb. unfold net_cmp_c, net_before. destruct (masks_for _ _ a b Wa Wb) as [L _]. destruct (masks_for _ _ b a Wb Wa) as [G _].
  pose proof (net_for_eq _ _ a b Wa Wb) as Q.
  destruct (addr_cmp_c_ok g _ _ (proj1 Wa) (proj1 Wb)) as (c & -> & H). cbn [bind]. destruct c.
  - destruct (addr_cmp_c_ok g _ _ (mask_for g a Hg Wa) (mask_for g b Hg Wb)) as (c & -> & H'). exists c. split; [reflexivity|].
    destruct c; rewrite ?Q, <- ?L, <- ?G; auto.
  - eexists. split; [reflexivity|]. cbv beta iota. auto.
  - eexists. split; [reflexivity|]. cbv beta iota. auto.
Qed.
Lemma net_eqb_c_ok g a b : cfg_ok g -> net_for (c_max g) (c_spaces g) a -> net_for (c_max g) (c_spaces g) b ->
  exists r, net_eqb_c g a b = Ret r /\ (r = true <-> a = b).
Proof.
  intros Hg Wa Wb. unfold net_eqb_c. pose proof (net_for_eq _ _ a b Wa Wb) as Q.
  destruct (addr_eqb_c_ok g _ _ (proj1 Wa) (proj1 Wb)) as (r & -> & H). cbn [bind]. destruct r.
  - destruct (addr_eqb_c_ok g _ _ (mask_for g a Hg Wa) (mask_for g b Hg Wb)) as (r & -> & H'). exists r. split; [reflexivity|]. rewrite H', Q. tauto.
  - exists false. split; [reflexivity|]. split; [discriminate|]. intros K. apply Q in K as [K _]. apply H in K. discriminate.
Qed.
Lemma net_ltb_c_ok g a b : cfg_ok g -> net_for (c_max g) (c_spaces g) a -> net_for (c_max g) (c_spaces g) b ->
  exists r, net_ltb_c g a b = Ret r /\ (r = true <-> net_either_before a b).
Proof.
  intros Hg Wa Wb. unfold net_ltb_c, net_either_before. destruct (masks_for _ _ a b Wa Wb) as [M M'].
  destruct (addr_eqb_c_ok g _ _ (proj1 Wa) (proj1 Wb)) as (r & -> & H). cbn [bind]. destruct r; cbn [negb].
  - assert (Ea : n_addr a = n_addr b) by (apply H; reflexivity).
    assert (I : ~ either_before (n_addr a) (n_addr b)).
    { rewrite Ea. intros [K|K]; [lia|exact (lex_irrefl _ K)]. }
    destruct (addr_eqb_c_ok g _ _ (mask_for g a Hg Wa) (mask_for g b Hg Wb)) as (r & -> & H'). cbn [bind]. destruct r; cbn [negb].
    + exists false. split; [reflexivity|]. split; [discriminate|]. pose proof (proj1 H' eq_refl) as E. apply M' in E. intros [K|[_ K]]; [contradiction|lia].
    + destruct (addr_ltb_c_ok g _ _ (mask_for g a Hg Wa) (mask_for g b Hg Wb)) as (r & -> & Hr). exists r. split; [reflexivity|].
      rewrite Hr, <- M. unfold either_before, addr_before in *. destruct Wa as (_ & _ & Sa & _), Wb as (_ & _ & Sb & _). rewrite Sa, Sb.
      pose proof (lex_irrefl []). tauto.
  - destruct (addr_ltb_c_ok g _ _ (proj1 Wa) (proj1 Wb)) as (r & -> & Hr). exists r. split; [reflexivity|]. rewrite Hr.
    assert (n_addr a <> n_addr b) by (intros K; apply H in K; discriminate). tauto.
Qed.
Lemma net_hash_c_ok g is64 n : cfg_ok g -> net_for (c_max g) (c_spaces g) n ->
  exists h m, addr_hash_c g is64 (n_addr n) = Ret h /\ addr_hash_c g is64 (n_mask n) = Ret m /\ net_hash_c g is64 n = Ret (calc_hash is64 h [m]).
Proof.
  intros Hg Wn. destruct (hash_c_defined g is64 _ Hg (proj1 Wn)) as (h & E). destruct (hash_c_defined g is64 _ Hg (mask_for g n Hg Wn)) as (m & E').
  exists h, m. split; [exact E|]. split; [exact E'|]. unfold net_hash_c. rewrite E, E'. reflexivity.
Qed.

(** *** Parsed networks *)
Lemma net_c_parsed g s strict n : cfg_ok g -> Forall is_char s -> net_parse_c g (chars s) strict = Ret n -> net_for (c_max g) (c_spaces g) n.
Proof.
  intros Hg C H. apply net_c_exact in H as (t & p & b & sc & L & E & W); [|exact Hg].
  assert (T : no_nul t /\ Forall is_char t /\ 0 <= p <= 128).
  { destruct L as [(_ & B & ->)|(r & m & -> & _ & _ & B & M)].
    - split; [exact (proj1 B)|]. pose proof (before_is _ _ B) as ->. split; [|lia]. apply cut_forall.
      rewrite <- (firstn_skipn (Z.to_nat (41 + c_max g)) s) in C. apply Forall_app in C. apply C.
    - split; [exact (proj1 B)|]. pose proof (before_is _ _ B) as ->. apply Forall_app in C as [C _]. split; [apply cut_forall; exact C|].
      destruct (mask_nonempty V6 m p M) as [Hm _]. exact (mask_range m p Hm M). }
  destruct T as (N & Ct & P).
  destruct (addr_c_ok g t (mk_addr b sc) Hg N) as (Hb & Hs & Hc); [unfold addr_parse_c; rewrite E; reflexivity|].
  specialize (Hc Ct). cbn [a_bytes a_scope] in *. destruct W as (_ & Ep & Bn & Vn & Sn & Bm & Sm & Vm). rewrite <- Ep in *.
  assert (Q : 0 < 2 ^ (128 - n_prefix n)) by (apply Z.pow_pos_nonneg; lia).
  split; [|split; [exact Bm|split; [exact Sm|split; [exact P|split; [exact Vm|]]]]].
  - split; [exact Bn|]. rewrite Sn. destruct (_ =? 0); [auto|]. split; [|constructor]. split; [change (zlen (@nil Z)) with 0; unfold cfg_ok in Hg; lia|].
    split; [intros []|constructor].
  - rewrite Vn. clear - Q. rewrite Zminus_mod_idemp_r, Z.sub_diag. apply Z.mod_0_l. lia.
Qed.
Lemma addr_c_parsed g s a : cfg_ok g -> no_nul s -> Forall is_char s -> addr_parse_c g (chars s) = Ret a -> addr_for (c_max g) (c_spaces g) a.
Proof. intros Hg N C H. destruct (addr_c_ok g s a Hg N H) as (B & S & K). split; auto. Qed.

(** *** Literals *)
Lemma literal_c_exact g s : cfg_ok g ->
  (41 + c_max g < zlen s -> addr_literal_c g s = Err string_is_too_long 0) /\
  (zlen s <= 41 + c_max g -> forall t, before_nul s t -> addr_literal_c g s = addr_parse_c g (chars t)).
Proof.
  intros Hg. split; [exact (literal_c_long g s)|]. intros H t B. apply before_is in B. subst t. exact (literal_c g s Hg H).
Qed.

(** *** ip_address *)
Lemma c_percent_no g s a : cfg_ok g -> ~ In 37 s -> addr_parse_c g (chars s) = Ret a -> addr_parse V6 (chars s) = Ret a.
Proof.
  intros Hg N. unfold addr_parse_c, addr_parse. rewrite <- default_parse. pose proof (c_plain g s Hg N) as H.
  assert (D : cfg_ok default_config) by (unfold cfg_ok; cbn; lia). pose proof (c_plain _ s D N) as H'.
  destruct (v6_addr s); cbn [outcome] in H, H'; [rewrite H, H'; auto|destruct H as (? & ? & ->); discriminate..].
Qed.
Lemma any_c_spec g ts : cfg_ok g -> Forall tok_genuine ts ->
  (forall a, any_parse_c g ts = Ret (mk_aa V4 a) <-> addr_parse V4 ts = Ret a) /\
  (forall a, any_parse_c g ts = Ret (mk_aa V6 a) <-> addr_parse_c g ts = Ret a) /\
  (forall e x, any_parse_c g ts = Err e x <-> addr_parse_c g ts = Err e x /\ exists e' x', addr_parse V4 ts = Err e' x') /\
  is_defined (any_parse_c g ts).
Proof.
  intros Hg Gt. pose proof (addr_parse_real V4 ts Gt) as R. pose proof (addr_parse_defined V4 ts) as D4. pose proof (addr_c_defined g ts Hg) as D6.
  assert (J : forall a b, addr_parse V4 ts = Ret a -> addr_parse_c g ts <> Ret b).
  { intros a b H4 H6. pose proof H4 as H4'. apply v4_tokens in H4' as (s & -> & Q & _).
    apply c_percent_no in H6; [|exact Hg|exact (quad_not _ _ 37 Q ltac:(lia))]. exact (addr_disjoint _ _ _ H4 H6). }
  unfold any_parse_c, addr_parse_code. destruct (addr_parse V4 ts) as [a|e x|u]; cbn [bind]; [| |destruct D4].
  - change (ec_eqb no_error no_error) with true. cbv iota. split; [intros b; split; congruence|]. split; [intros b; split; [discriminate|intros K; destruct (J a b eq_refl K)]|].
    split; [|exact I]. intros e x. split; [discriminate|]. intros (_ & e' & x' & K). discriminate.
  - rewrite ec_no_false by exact R. destruct (addr_parse_c g ts) as [b|e' x'|u]; cbn [bind]; [| |destruct D6].
    + split; [split; discriminate|]. split; [intros b'; split; intros K; injection K as ->; reflexivity|]. split; [|exact I].
      intros e' x'. split; [discriminate|intros [K _]; discriminate].
    + split; [split; discriminate|]. split; [split; discriminate|]. split; [|exact I]. intros e2 x2. split; [intros K; injection K as -> ->; eauto|intros [K _]; injection K as -> ->; reflexivity].
Qed.

(** *** The default setting *)
Lemma default_addr : (forall ts, addr_parse_c default_config ts = addr_parse V6 ts) /\
  (forall s, addr_literal_c default_config s = addr_literal V6 s) /\
  (forall ts, any_parse_c default_config ts = any_parse ts) /\
  (forall a fmt, addr_to_string_c default_config a fmt = addr_to_string V6 a fmt) /\
  (forall a b, addr_swap_c default_config a b = addr_swap a b) /\
  (forall is64 a, addr_hash_c default_config is64 a = addr_hash is64 V6 a) /\
  (forall a b, addr_eqb_c default_config a b = addr_eqb V6 a b) /\
  (forall a b, addr_ltb_c default_config a b = addr_ltb V6 a b) /\
  (forall a b, addr_cmp_c default_config a b = addr_cmp V6 a b).
Proof.
  assert (P : forall ts, addr_parse_c default_config ts = addr_parse V6 ts) by (intros ts; unfold addr_parse_c, addr_parse; rewrite default_parse; reflexivity).
  assert (S : forall s, scope_fs_c default_config s = scope_fs s) by reflexivity.
  split; [exact P|]. split; [|split; [|split; [|split; [|split; [|split; [|split]]]]]].
  - intros s. unfold addr_literal_c, addr_literal, addr_parse_array_c, addr_parse_array. change (max_len_c default_config) with 57. change (max_string_len V6) with 57.
    destruct (zlen s >? 57); [reflexivity|]. destruct (fs_make _ _ _); cbn [bind]; rewrite ?P; reflexivity.
  - intros ts. unfold any_parse_c, any_parse. rewrite P. reflexivity.
  - intros a fmt. unfold addr_to_string_c, addr_to_string. rewrite default_text. reflexivity.
  - reflexivity.
  - reflexivity.
  - intros a b. unfold addr_eqb_c, addr_eqb. destruct (list_eqb _ _); reflexivity.
  - reflexivity.
  - reflexivity.
Qed.
Lemma default_net : (forall ts strict, net_parse_c default_config ts strict = net_parse V6 ts strict) /\
  (forall n fmt, net_to_string_c default_config n fmt = net_to_string V6 n fmt) /\
  (forall a b, net_eqb_c default_config a b = net_eqb V6 a b) /\ (forall a b, net_cmp_c default_config a b = net_cmp V6 a b) /\
  (forall a b, net_ltb_c default_config a b = net_ltb V6 a b) /\ (forall is64 n, net_hash_c default_config is64 n = net_hash is64 V6 n).
Proof.
  destruct default_addr as (P & _ & _ & T & _ & H & E & L & C).
  split; [|split; [|split; [|split; [|split]]]].
  - intros ts strict. unfold net_parse_c, net_parse, net_parse_res_c, net_parse_res, addr_parse_array_c, addr_parse_array.
    change (max_len_c default_config) with 57. change (max_string_len V6) with 57.
    destruct (net_split 57 ts _ 0 false []) as [[address mask]| |]; cbn [bind]; try reflexivity.
    destruct (parse_netmask V6 mask) as [[m p]| |]; cbn [bind]; try reflexivity.
    destruct (fs_make _ _ address); cbn [bind]; rewrite ?P; reflexivity.
  - intros n fmt. unfold net_to_string_c, net_to_string. rewrite T. reflexivity.
  - intros a b. unfold net_eqb_c, net_eqb. rewrite !E. reflexivity.
  - intros a b. unfold net_cmp_c, net_cmp. rewrite !C. reflexivity.
  - intros a b. unfold net_ltb_c, net_ltb. rewrite !E, !L. reflexivity.
  - intros is64 n. unfold net_hash_c, net_hash. rewrite !H. reflexivity.
Qed.

(** *** Short scope ids: address texts without scope id that do not fit *)
Definition wide_quad (n : Z) : list Z :=
  if n =? 0 then str "1.25.255.255" else if n =? 1 then str "11.25.255.255" else if n =? 2 then str "111.25.255.255" else str "111.125.255.255".
Definition wide_text (n : Z) : list Z := str "0000:0000:0000:0000:0000:ffff:" ++ wide_quad n.
Lemma net_c_misread g : 0 <= c_max g < 4 -> exists t gs n, v6_text t gs /\ no_nul t /\ addr_parse_c g (chars t) = Ret (mk_addr (group_bytes gs) []) /\
  loose_mask V6 (str "96") 96 /\ val (mk_addr (group_bytes gs) []) mod 2 ^ (128 - 96) <> 0 /\
  (forall strict, net_parse_c g (chars (t ++ 47 :: str "96")) strict = Ret n) /\ n_prefix n = 128 /\ a_bytes (n_addr n) <> group_bytes gs.
Proof.
  intros Hg. destruct g as [k sp]. cbn [c_max] in Hg.
  set (t := wide_text k).
  assert (X : exists b, v6_from_string_c (mk_cfg k sp) true (chars t) = Ret (b, []) /\ no_nul t /\ ~ In 37 t /\ be_value b mod 2 ^ (128 - 96) <> 0 /\
    exists n, (forall strict, net_parse_c (mk_cfg k sp) (chars (t ++ 47 :: str "96")) strict = Ret n) /\ n_prefix n = 128 /\ a_bytes (n_addr n) <> b).
  { subst t. assert (D : k = 0 \/ k = 1 \/ k = 2 \/ k = 3) by lia.
    set (b := match v6_from_string_c (mk_cfg k true) true (chars (wide_text k)) with Ret (b, _) => b | _ => [] end).
    exists b. subst b. assert (N : forall c, existsb (Z.eqb c) (wide_text k) = false -> ~ In c (wide_text k)).
    { intros c E K. assert (existsb (Z.eqb c) (wide_text k) = true); [|congruence]. apply existsb_exists. exists c. split; [exact K|apply Z.eqb_refl]. }
    destruct D as [->|[->|[->| ->]]]; (split; [destruct sp; vm_compute; reflexivity|]; split; [apply N; vm_compute; reflexivity|];
      split; [apply N; vm_compute; reflexivity|]; split; [vm_compute; discriminate|]; clear N).
    1: set (k := 0). 2: set (k := 1). 3: set (k := 2). 4: set (k := 3).
    all: exists (match net_parse_c (mk_cfg k true) (chars (wide_text k ++ 47 :: str "96")) true with Ret n => n | _ => mk_net (mk_addr [] []) (mk_addr [] []) 0 end); subst k.
    all: split; [intros []; destruct sp; vm_compute; reflexivity|]; split; [vm_compute; reflexivity|vm_compute; discriminate]. }
  clearbody t. destruct X as (b & E & N & N37 & V & n & H & Hp & Hd).
  assert (C : cfg_ok (mk_cfg k sp)) by (unfold cfg_ok; cbn [c_max]; lia). pose proof E as E0.
  apply c_exact in E as (gs & [(_ & R & _)|(a & u & -> & _)] & ->); [| |exact C].
  2:{ destruct N37. apply in_app_iff. right. left. reflexivity. }
  apply raw_loose, raw_iff in R as [T _]; [|exact N]. exists t, gs, n. split; [exact T|]. split; [exact N|].
  split; [unfold addr_parse_c; rewrite E0; reflexivity|]. split; [|auto].
  left. exists 96. split; [|split; [reflexivity|cbn [width]; lia]].
  destruct (prefix_digits V6 96 ltac:(cbn; lia)) as (d & Ed & Hd'). vm_compute in Ed. injection Ed as <-. apply numeral_dec in Hd'. exact Hd'.
Qed.

(** *** For the examples *)
Lemma chars_by s : forallb (fun c => (0 <? c) && (c <? 128)) s = true -> no_nul s /\ Forall is_char s.
Proof.
  intros F. rewrite forallb_forall in F. split; [intros K; apply F in K; discriminate|].
  apply Forall_forall. intros c K. apply F in K. unfold is_char. lia.
Qed.
Lemma for_by m sp a s : addr_literal_c (mk_cfg m sp) s = Ret a -> 0 <= m <= 64 -> zlen s <= 41 + m ->
  forallb (fun c => (0 <? c) && (c <? 128)) s = true -> addr_for m sp a.
Proof.
  intros E Hm L F. assert (C : cfg_ok (mk_cfg m sp)) by exact Hm. destruct (chars_by s F) as [N K].
  rewrite (proj2 (literal_c_exact _ s C) L s) in E by (split; [exact N|left; reflexivity]).
  exact (addr_c_parsed (mk_cfg m sp) s a C N K E).
Qed.
Definition net_from (g : config) (s : list Z) : net :=
  match net_parse_c g (chars s) true with Ret n => n | _ => mk_net (mk_addr [] []) (mk_addr [] []) 0 end.
Lemma net_from_ok g s : cfg_ok g -> match net_parse_c g (chars s) true with Ret _ => true | _ => false end = true ->
  forallb (fun c => (0 <? c) && (c <? 128)) s = true -> net_parse_c g (chars s) true = Ret (net_from g s) /\ net_for (c_max g) (c_spaces g) (net_from g s).
Proof.
  intros C K F. unfold net_from. destruct (net_parse_c g (chars s) true) as [n| |] eqn:E; try discriminate. split; [reflexivity|].
  exact (net_c_parsed g s true n C (proj2 (chars_by s F)) E).
Qed.
