(** ip_address and ip_network under every setting of the scope-id macros. *)
From Coq Require Import String.
From Verif Require Import Base Tac TextProofs UnicodeModel FixedStringModel V4Model V6Model Uint128Model SpecInt Uint128Proofs Uint128Div2 Uint128OpsModel
  SpecText SpecAddr SpecStr SpecV4 SpecV6 StrProofs V4Proofs BufProofs BitProofs FixedStringProofs V4Lemmas V6Proofs V6Parse V6Grammar V6Full V6Format V6Lemmas
  AddressModel SpecOrder AddressProofs NetworkModel SpecNet NetProofs NetProofs2 NetProofs3 MaskProofs ErrProofs NetText NetText2 NetText3
  SpecLoose LooseProofs SpecExact HashProofs IterModel AnyModel SpecAny AnyProofs ExactProofs RelModel SpecRel RelProofs
  ConfigModel SpecConfig ConfigProofs NetConfigModel SpecNetConfig NetConfigProofs NetConfigProofs2 NetConfigProofs3
  StreamModel SpecStream MacroModel SpecMacro MacroProofs3 NetOpsConfigModel SpecNetOpsConfig NetOpsConfigProofs NetOpsConfigProofs2 AnyConfigModel SpecAnyConfig.
Close Scope string_scope.

(** *** Comparisons *)
Lemma any_eqb_for g x y : any_for (c_max g) (c_spaces g) x -> any_for (c_max g) (c_spaces g) y -> exists r, any_eqb_c g x y = Ret r /\ (r = true <-> x = y).
Proof.
  destruct x as [[|] a], y as [[|] b]; unfold any_for; cbn [aa_ver aa_addr]; intros Wx Wy; unfold any_eqb_c; cbn [aa_ver aa_addr ver_eqb ver_num Z.eqb Pos.eqb negb].
  2,3: exists false; split; [reflexivity|]; split; discriminate.
  - destruct (addr_eqb_ok _ a b Wx Wy) as (r & -> & H); exists r; split; [reflexivity|]; rewrite H; split; [intros ->; reflexivity|intros K; injection K; auto].
  - destruct (addr_eqb_c_ok g a b Wx Wy) as (r & -> & H); exists r; split; [reflexivity|]; rewrite H; split; [intros ->; reflexivity|intros K; injection K; auto].
Qed.
Lemma any_cmp_for g x y : any_for (c_max g) (c_spaces g) x -> any_for (c_max g) (c_spaces g) y ->
  exists c, any_cmp_c g x y = Ret c /\ match c with Eq => x = y | Lt => any_before x y | Gt => any_before y x end.
Proof.
  destruct x as [[|] a], y as [[|] b]; unfold any_for; cbn [aa_ver aa_addr]; intros Wx Wy; unfold any_cmp_c, any_before; cbn [aa_ver aa_addr ver_num Z.compare Pos.compare Pos.compare_cont ver_eqb Z.eqb Pos.eqb].
  2: exists Lt; split; [reflexivity|]; left; auto.
  2: exists Gt; split; [reflexivity|]; left; auto.
  - destruct (addr_cmp_ok _ a b Wx Wy) as (c & -> & H); exists c; split; [reflexivity|]; destruct c; [congruence|right; auto|right; auto].
  - destruct (addr_cmp_c_ok g a b Wx Wy) as (c & -> & H); exists c; split; [reflexivity|]; destruct c; [congruence|right; auto|right; auto].
Qed.
Lemma any_ltb_for g x y : any_for (c_max g) (c_spaces g) x -> any_for (c_max g) (c_spaces g) y ->
  exists r, any_ltb_c g x y = Ret r /\ (r = true <-> any_either_before x y).
Proof.
  destruct x as [[|] a], y as [[|] b]; unfold any_for; cbn [aa_ver aa_addr]; intros Wx Wy; unfold any_ltb_c, any_either_before; cbn [aa_ver aa_addr ver_num Z.ltb Z.gtb Z.compare Pos.compare Pos.compare_cont ver_eqb Z.eqb Pos.eqb].
  2: exists true; split; [reflexivity|]; tauto.
  2: exists false; split; [reflexivity|]; split; [discriminate|]; intros [[? ?]|[? ?]]; discriminate.
  - destruct (less_exact _ a b Wx Wy) as (r & -> & H); exists r; split; [reflexivity|]; rewrite H; split; [intros K; right; auto|intros [[? ?]|[_ K]]; [discriminate|exact K]].
  - destruct (addr_ltb_c_ok g a b Wx Wy) as (r & -> & H); exists r; split; [reflexivity|]; rewrite H; split; [intros K; right; auto|intros [[? ?]|[_ K]]; [discriminate|exact K]].
Qed.
Lemma anet_eqb_for g x y : cfg_ok g -> anet_for (c_max g) (c_spaces g) x -> anet_for (c_max g) (c_spaces g) y -> exists r, anet_eqb_c g x y = Ret r /\ (r = true <-> x = y).
Proof.
  intros C. destruct x as [[|] a], y as [[|] b]; unfold anet_for; cbn [an_ver an_net]; intros Wx Wy; unfold anet_eqb_c; cbn [an_ver an_net ver_eqb ver_num Z.eqb Pos.eqb negb].
  2,3: exists false; split; [reflexivity|]; split; discriminate.
  - destruct (net_eqb_ok _ a b Wx Wy) as (r & -> & H); exists r; split; [reflexivity|]; rewrite H; split; [intros ->; reflexivity|intros K; injection K; auto].
  - destruct (net_eqb_c_ok g a b C Wx Wy) as (r & -> & H); exists r; split; [reflexivity|]; rewrite H; split; [intros ->; reflexivity|intros K; injection K; auto].
Qed.
Lemma anet_cmp_for g x y : cfg_ok g -> anet_for (c_max g) (c_spaces g) x -> anet_for (c_max g) (c_spaces g) y ->
  exists c, anet_cmp_c g x y = Ret c /\ match c with Eq => x = y | Lt => anet_before x y | Gt => anet_before y x end.
Proof.
  intros C. destruct x as [[|] a], y as [[|] b]; unfold anet_for; cbn [an_ver an_net]; intros Wx Wy; unfold anet_cmp_c, anet_before; cbn [an_ver an_net ver_num Z.compare Pos.compare Pos.compare_cont ver_eqb Z.eqb Pos.eqb].
  2: exists Lt; split; [reflexivity|]; left; auto.
  2: exists Gt; split; [reflexivity|]; left; auto.
  - destruct (net_cmp_ok _ a b Wx Wy) as (c & -> & H); exists c; split; [reflexivity|]; destruct c; [congruence|right; auto|right; auto].
  - destruct (net_cmp_c_ok g a b C Wx Wy) as (c & -> & H); exists c; split; [reflexivity|]; destruct c; [congruence|right; auto|right; auto].
Qed.
Lemma anet_ltb_for g x y : cfg_ok g -> anet_for (c_max g) (c_spaces g) x -> anet_for (c_max g) (c_spaces g) y ->
  exists r, anet_ltb_c g x y = Ret r /\ (r = true <-> anet_either_before x y).
Proof.
  intros C. destruct x as [[|] a], y as [[|] b]; unfold anet_for; cbn [an_ver an_net]; intros Wx Wy; unfold anet_ltb_c, anet_either_before; cbn [an_ver an_net ver_num Z.ltb Z.gtb Z.compare Pos.compare Pos.compare_cont ver_eqb Z.eqb Pos.eqb].
  2: exists true; split; [reflexivity|]; tauto.
  2: exists false; split; [reflexivity|]; split; [discriminate|]; intros [[? ?]|[? ?]]; discriminate.
  - destruct (net_less_exact _ a b Wx Wy) as (r & -> & H); exists r; split; [reflexivity|]; rewrite H; split; [intros K; right; auto|intros [[? ?]|[_ K]]; [discriminate|exact K]].
  - destruct (net_ltb_c_ok g a b C Wx Wy) as (r & -> & H); exists r; split; [reflexivity|]; rewrite H; split; [intros K; right; auto|intros [[? ?]|[_ K]]; [discriminate|exact K]].
Qed.
(** The orders. *)
Lemma order_addr g : strict_order (addr_for (c_max g) (c_spaces g)) eq addr_before.
Proof.
  split; [|split; [|split]].
  - intros a b _ _ H ->. exact (before_irrefl _ H).
  - intros a b _ _ H K. exact (before_irrefl _ (before_trans _ _ _ H K)).
  - intros a b c _ _ _. apply before_trans.
  - intros a b Wa Wb. destruct (addr_cmp_c_ok g a b Wa Wb) as (c & _ & H). destruct c; auto.
Qed.
Lemma order_net g : cfg_ok g -> strict_order (net_for (c_max g) (c_spaces g)) eq net_before.
Proof.
  intros C. split; [|split; [|split]].
  - intros a b _ _ H ->. exact (net_before_irrefl _ H).
  - intros a b _ _ H K. exact (net_before_irrefl _ (net_before_trans _ _ _ H K)).
  - intros a b c _ _ _. apply net_before_trans.
  - intros a b Wa Wb. destruct (net_cmp_c_ok g a b C Wa Wb) as (c & _ & H). destruct c; auto.
Qed.
Lemma order_any g : strict_order (any_for (c_max g) (c_spaces g)) eq any_before.
Proof.
  split; [|split; [|split]].
  - intros a b _ _ H ->. exact (any_irrefl _ H).
  - intros a b _ _ H K. exact (any_irrefl _ (any_trans _ _ _ H K)).
  - intros a b c _ _ _. apply any_trans.
  - intros a b Wa Wb. destruct (any_cmp_for g a b Wa Wb) as (c & _ & H). destruct c; auto.
Qed.
Lemma order_anet g : cfg_ok g -> strict_order (anet_for (c_max g) (c_spaces g)) eq anet_before.
Proof.
  intros C. split; [|split; [|split]].
  - intros a b _ _ H ->. exact (anet_irrefl _ H).
  - intros a b _ _ H K. exact (anet_irrefl _ (anet_trans _ _ _ H K)).
  - intros a b c _ _ _. apply anet_trans.
  - intros a b Wa Wb. destruct (anet_cmp_for g a b C Wa Wb) as (c & _ & H). destruct c; auto.
Qed.
Lemma addr_ops_for g op a b : addr_for (c_max g) (c_spaces g) a -> addr_for (c_max g) (c_spaces g) b ->
  decides (rel_op (addr_rels_c g) true op a b) (in_order eq addr_before op a b) /\ decides (rel_op (addr_rels_c g) false op a b) (from_less eq either_before op a b).
Proof.
  intros Wa Wb. split.
  - apply (rel_cpp20 _ (addr_for (c_max g) (c_spaces g))); auto using order_addr; [apply addr_eqb_c_ok|apply addr_cmp_c_ok]; assumption.
  - apply (rel_older _ eq either_before); [apply addr_eqb_c_ok|apply addr_ltb_c_ok|apply addr_ltb_c_ok]; assumption.
Qed.
Lemma net_ops_for g op a b : cfg_ok g -> net_for (c_max g) (c_spaces g) a -> net_for (c_max g) (c_spaces g) b ->
  decides (rel_op (net_rels_c g) true op a b) (in_order eq net_before op a b) /\ decides (rel_op (net_rels_c g) false op a b) (from_less eq net_either_before op a b).
Proof.
  intros C Wa Wb. split.
  - apply (rel_cpp20 _ (net_for (c_max g) (c_spaces g))); auto using order_net; [apply net_eqb_c_ok|apply net_cmp_c_ok]; assumption.
  - apply (rel_older _ eq net_either_before); [apply net_eqb_c_ok|apply net_ltb_c_ok|apply net_ltb_c_ok]; assumption.
Qed.
Lemma any_ops_for g op a b : any_for (c_max g) (c_spaces g) a -> any_for (c_max g) (c_spaces g) b ->
  decides (rel_op (any_rels_c g) true op a b) (in_order eq any_before op a b) /\ decides (rel_op (any_rels_c g) false op a b) (from_less eq any_either_before op a b).
Proof.
  intros Wa Wb. split.
  - apply (rel_cpp20 _ (any_for (c_max g) (c_spaces g))); auto using order_any; [apply any_eqb_for|apply any_cmp_for]; assumption.
  - apply (rel_older _ eq any_either_before); [apply any_eqb_for|apply any_ltb_for|apply any_ltb_for]; assumption.
Qed.
Lemma anet_ops_for g op a b : cfg_ok g -> anet_for (c_max g) (c_spaces g) a -> anet_for (c_max g) (c_spaces g) b ->
  decides (rel_op (anet_rels_c g) true op a b) (in_order eq anet_before op a b) /\ decides (rel_op (anet_rels_c g) false op a b) (from_less eq anet_either_before op a b).
Proof.
  intros C Wa Wb. split.
  - apply (rel_cpp20 _ (anet_for (c_max g) (c_spaces g))); auto using order_anet; [apply anet_eqb_for|apply anet_cmp_for]; assumption.
  - apply (rel_older _ eq anet_either_before); [apply anet_eqb_for|apply anet_ltb_for|apply anet_ltb_for]; assumption.
Qed.

(** *** Forwarding *)
Lemma any_forward_c g v a is64 fmt : let x := mk_aa v a in
  any_hash_c g is64 x = match v with V4 => addr_hash is64 V4 a | V6 => addr_hash_c g is64 a end /\
  any_to_string_c g x fmt = match v with V4 => addr_to_string V4 a fmt | V6 => addr_to_string_c g a fmt end.
Proof. destruct v; split; reflexivity. Qed.
Lemma anet_forward_c g v n is64 fmt : let x := mk_an v n in
  anet_hash_c g is64 x = match v with V4 => net_hash is64 V4 n | V6 => net_hash_c g is64 n end /\
  anet_to_string_c g x fmt = match v with V4 => net_to_string V4 n fmt | V6 => net_to_string_c g n fmt end.
Proof. destruct v; split; reflexivity. Qed.
Lemma any_hash_for g is64 x : cfg_ok g -> any_for (c_max g) (c_spaces g) x -> exists h, any_hash_c g is64 x = Ret h.
Proof.
  intros C. destruct x as [[|] a]; unfold any_for, any_hash_c; cbn [aa_ver aa_addr ver_eqb ver_num Z.eqb Pos.eqb]; intros W.
  - apply addr_hash_defined. exact W.
  - apply hash_c_defined; assumption.
Qed.

(** *** Texts *)
Lemma v6_head_c g t b sc : cfg_ok g -> no_nul t -> v6_from_string_c g true (chars t) = Ret (b, sc) -> head_sep 58 t.
Proof.
  intros C N H. apply c_exact in H as (gs & [(_ & R & _)|(a & u & -> & _ & R & _)] & _); [| |exact C].
  - apply raw_loose, raw_iff in R as [T _]; [|exact N]. exact (v6_head _ _ T).
  - apply raw_loose, raw_iff in R as [T _]; [|intros K; apply N, in_app_iff; left; exact K]. apply head_app. exact (v6_head _ _ T).
Qed.
Lemma net_prefix_c g s strict n : cfg_ok g -> net_parse_c g (chars s) strict = Ret n -> exists t r, s = t ++ r /\ head_sep 58 t.
Proof.
  intros C H. apply net_c_exact in H as (t & p & b & sc & L & E & _); [|exact C].
  assert (B : exists q, before_nul q t /\ exists r, s = q ++ r).
  { destruct L as [(_ & B & _)|(q & m & -> & _ & _ & B & _)]; [|exists q; split; [exact B|eauto]].
    exists (firstn (Z.to_nat (41 + c_max g)) s). split; [exact B|]. exists (skipn (Z.to_nat (41 + c_max g)) s). symmetry. apply firstn_skipn. }
  destruct B as (q & (N & Q) & r & ->). pose proof (v6_head_c g t b sc C N E) as K.
  destruct Q as [->|(q' & ->)]; [exists t, r; auto|]. exists t, (0 :: q' ++ r). split; [rewrite <- app_assoc; reflexivity|exact K].
Qed.
Lemma net_disjoint_c g s st st' a b : cfg_ok g -> net_parse V4 (chars s) st = Ret a -> net_parse_c g (chars s) st' <> Ret b.
Proof.
  intros C H4 H6. rewrite net_parse_is_res in H4 by apply genuine_chars. apply net_res_prefix in H4 as (t & r & x & E & N & H4).
  apply net_prefix_c in H6 as (t' & r' & -> & H6); [|exact C]. apply v4_tokens in H4 as (q & Es & Q & _). apply chars_inj in Es. subst q.
  rewrite chars_app' in E. eapply (heads_differ t t' r (chars r')); [eapply quad_head; eassumption|exact H6|congruence].
Qed.
Lemma net_ub_c g s st st' u n : cfg_ok g -> Forall is_char s -> net_parse V4 (chars s) st = UB u -> net_parse_c g (chars s) st' <> Ret n.
Proof.
  intros C Hc H H6. rewrite net_parse_is_res in H by apply genuine_chars. apply net_v4_ub in H as (pre & m & E & Np & Nm & Lp & Q); [|apply Forall_map; exact Hc].
  apply chars_inj in E. subst s. apply net_c_exact in H6 as (t & p & b & sc & Lo & _); [|exact C].
  destruct Lo as [(K & _)|(r & m' & E & Nr & _ & _ & M)].
  - apply K. rewrite firstn_app. apply in_app_iff. right. unfold L, max_string_len in Lp. cbn in Lp.
    destruct (Z.to_nat (41 + c_max g + 1) - List.length pre)%nat eqn:D; [unfold cfg_ok, zlen in *; lia|]. left. reflexivity.
  - apply sep_unique in E as [-> ->]; auto. destruct M as [(x & D & _)|(K & _)]; [|discriminate]. apply dec_text_iff in D as (_ & D & _). exact (quad_not_digits _ _ Q D).
Qed.
Lemma anet_text_c b s strict : cfg_ok (b_cfg b) -> Forall is_char s -> let r := b_string_of (in_bytes (throwing b)) TChar KAnyNet strict s in
  (forall n, r = Ret (OAnyNet (mk_an V4 n)) <-> net_parse V4 (chars s) strict = Ret n) /\
  (forall n, r = Ret (OAnyNet (mk_an V6 n)) <-> net_parse_c (b_cfg b) (chars s) strict = Ret n) /\
  (forall e x, r = Err e x <-> net_parse_c (b_cfg b) (chars s) strict = Err e x /\ exists e' x', net_parse V4 (chars s) strict = Err e' x') /\
  (forall u, r = UB u <-> net_parse V4 (chars s) strict = UB u).
Proof.
  intros C H r. subst r. rewrite plain_strings. cbn [read_by]. set (g := b_cfg b) in *. clearbody g.
  pose proof (fun a c => net_disjoint_c g s strict strict a c C) as X. pose proof (fun u n => net_ub_c g s strict strict u n C H) as Y.
  pose proof (net_c_defined g (chars s) strict C) as D.
  destruct (net_parse V4 (chars s) strict) as [n4|e4 x4|u4]; [| |].
  - split; [intros n; split; intros K; apply ret_inj in K; congruence|]. split; [intros n; split; [intros K; apply ret_inj in K; congruence|intros K; destruct (X n4 n eq_refl K)]|].
    split; [intros e x; split; [discriminate|intros (_ & ? & ? & ?); discriminate]|]. intros u. split; discriminate.
  - destruct (net_parse_c g (chars s) strict) as [n6|e6 x6|u6]; cbn [rmap]; [| |destruct D].
    + split; [intros n; split; [intros K; apply ret_inj in K; congruence|discriminate]|]. split; [intros n; split; intros K; apply ret_inj in K; congruence|].
      split; [intros e x; split; [discriminate|intros (? & _); discriminate]|]. intros u. split; discriminate.
    + split; [intros n; split; discriminate|]. split; [intros n; split; discriminate|]. split; [|intros u; split; discriminate].
      intros e x. split; [intros [= <- <-]; eauto|intros ([= <- <-] & _); reflexivity].
  - split; [intros n; split; discriminate|]. split; [intros n; split; [discriminate|]; intros K; destruct (Y u4 n eq_refl K)|].
    split; [intros e x; split; [discriminate|intros (_ & ? & ? & ?); discriminate]|]. intros u. split; congruence.
Qed.
Lemma any_round_trip_c g x fmt : cfg_ok g -> any_for (c_max g) (c_spaces g) x -> exists s, any_to_string_c g x fmt = Ret s /\ any_parse_c g (chars s) = Ret x.
Proof.
  intros C. destruct x as [[|] a]; unfold any_for, any_to_string_c; cbn [aa_ver aa_addr ver_eqb ver_num Z.eqb Pos.eqb]; intros W.
  - destruct (addr_text_ok V4 a fmt W) as (s & E & _ & _ & _ & _ & P). exists s. split; [exact E|]. apply (any_c_spec g (chars s) C (genuine_chars s)). exact P.
  - destruct (addr_c_text g a fmt C W) as (s & E & _ & _ & _ & P). exists s. split; [exact E|]. apply (any_c_spec g (chars s) C (genuine_chars s)).
    unfold addr_parse_c. rewrite P. destruct a; reflexivity.
Qed.
