(** ip_network under every setting of the scope-id macros: inclusion, hosts,
    subnets, address_exclude, and the default setting. *)
From Coq Require Import String.
From Verif Require Import Base Tac TextProofs UnicodeModel FixedStringModel V4Model V6Model Uint128Model SpecInt Uint128Proofs Uint128Div2 Uint128OpsModel
  SpecText SpecAddr SpecStr SpecV4 SpecV6 StrProofs V4Proofs BufProofs BitProofs FixedStringProofs V4Lemmas V6Proofs V6Parse V6Grammar V6Full V6Format V6Lemmas
  AddressModel SpecOrder AddressProofs NetworkModel SpecNet NetProofs NetProofs2 NetProofs3 MaskProofs ErrProofs
  SpecLoose LooseProofs SpecExact HashProofs IterModel AnyModel SpecAny AnyProofs ExactProofs RelModel SpecRel RelProofs
  ConfigModel SpecConfig ConfigProofs NetConfigModel SpecNetConfig NetConfigProofs NetConfigProofs2 NetConfigProofs3
  MacroModel StreamModel NetOpsConfigModel SpecNetOpsConfig NetOpsConfigProofs NetOpsConfigProofs2 AnyConfigModel SpecAnyConfig AnyConfigProofs.
Close Scope string_scope.

Lemma anet_hash_for g is64 x : cfg_ok g -> anet_for (c_max g) (c_spaces g) x -> exists h, anet_hash_c g is64 x = Ret h.
Proof.
  intros C. destruct x as [[|] n]; unfold anet_for, anet_hash_c, anet_is_v4; cbn [an_ver an_net ver_eqb ver_num Z.eqb Pos.eqb]; intros W.
  - unfold net_hash. destruct (addr_hash_defined is64 V4 _ (proj1 W)) as (h & ->). destruct (addr_hash_defined is64 V4 _ (proj1 (proj2 W))) as (m & ->). cbn [bind]. eauto.
  - destruct (net_hash_c_ok g is64 n C W) as (h & m & _ & _ & ->). eauto.
Qed.

(** *** Inclusion *)
Lemma bare_an g x : anet_for (c_max g) (c_spaces g) x -> wf_anet (anet_without x).
Proof.
  destruct x as [[|] n]; unfold anet_for, wf_anet; cbn [an_ver an_net anet_without]; intros W; [|exact (bare_wf _ _ n W)].
  rewrite (without_same n); [exact W|]. exact (proj2 (proj1 W)).
Qed.
Lemma member_without x a : any_member (anet_without x) a <-> any_member x a. Proof. destruct x; reflexivity. Qed.
Lemma anet_subnet_for g sp x y : anet_for (c_max g) (c_spaces g) x -> anet_for (c_max g) (c_spaces g) y ->
  exists r, anet_subnet_of_c g sp x y = Ret r /\ anet_supernet_of_c g sp y x = Ret r /\
    (r = true <-> (forall a, any_member x a -> any_member y a) /\ scopes_allow sp (an_net x) (an_net y)).
Proof.
  intros Wx Wy. pose proof (bare_an g x Wx) as Bx. pose proof (bare_an g y Wy) as By.
  destruct x as [[|] n], y as [[|] m]; unfold anet_for in *; cbn [an_ver an_net] in *.
  - exact (anet_subnet_exact sp (mk_an V4 n) (mk_an V4 m) Wx Wy).
  - destruct (anet_subnet_exact sp _ _ Bx By) as (r & E & F & H). cbn in E. apply ret_inj in E. subst r. exists false. split; [reflexivity|]. split; [reflexivity|].
    split; [discriminate|]. intros [K _]. exfalso.
    assert (T : in_net V4 n (first n)) by (pose proof (net_top V4 n Wx); unfold in_net; lia). destruct (addr_of_any V4 (first n) (member_range _ _ _ Wx T)) as [_ E].
    destruct (K (mk_aa V4 (addr_of V4 (first n)))) as [K' _]; [split; [reflexivity|cbn [an_net an_ver aa_addr]; rewrite E; exact T]|discriminate].
  - exists false. split; [reflexivity|]. split; [reflexivity|]. split; [discriminate|]. intros [K _]. exfalso.
    unfold wf_anet, anet_without in Bx. cbn [an_ver an_net] in Bx.
    assert (T : in_net V6 n (first n)) by (pose proof (net_top V6 _ Bx) as P; change (first (without_scope n)) with (first n) in P; change (size V6 (without_scope n)) with (size V6 n) in P; unfold in_net; lia).
    destruct (addr_of_any V6 (first n) (member_range _ _ _ Bx T)) as [_ E].
    destruct (K (mk_aa V6 (addr_of V6 (first n)))) as [K' _]; [split; [reflexivity|cbn [an_net an_ver aa_addr]; rewrite E; exact T]|discriminate].
  - unfold anet_subnet_of_c, anet_supernet_of_c, anet_is_v4; cbn [an_ver an_net ver_eqb ver_num Z.eqb Pos.eqb].
    destruct (subnet_for g sp n m Wx Wy) as (r & -> & -> & H). exists r. split; [reflexivity|]. split; [reflexivity|]. rewrite H.
    pose proof (anet_member_subset V6 (without_scope n) m Bx) as Q. unfold any_member in Q. cbn [an_ver an_net] in Q.
    assert (Q' : subset V6 n m <-> forall a, any_member (mk_an V6 n) a -> any_member (mk_an V6 m) a) by exact Q. rewrite Q'. reflexivity.
Qed.

(** *** Sequences *)
Lemma v4_without n : wf_net V4 n -> mk_an V4 (without_scope n) = mk_an V4 n.
Proof. intros W. rewrite without_same; [reflexivity|]. exact (proj2 (proj1 W)). Qed.
(** Operations that do not compare. *)
Definition same_but {I E} (o o' : iops I E) : Prop :=
  o_get o = o_get o' /\ o_add o = o_add o' /\ o_sub o = o_sub o' /\ o_at o = o_at o' /\ o_udiff o = o_udiff o' /\ o_diff o = o_diff o' /\ o_base o = o_base o' /\ o_reverse o = o_reverse o'.
Lemma host_but g : same_but (host_ops_c g) host_ops. Proof. repeat split. Qed.
Lemma net_but g : same_but (net_ops_c g) net_ops. Proof. repeat split. Qed.
Definition plain_hi (a : aiter ait aaddr) : Prop := ai_ver a = V6 -> plain_ait (ai_it a).
Definition plain_si (a : aiter nit anet) : Prop := ai_ver a = V6 -> plain_nit (ai_it a).
Lemma ait_cmp_plain g a b : plain_ait a -> plain_ait b -> ait_cmp_c g a b = ait_cmp V6 a b.
Proof. intros A B. unfold ait_cmp_c, ait_cmp. rewrite cmp_plain by assumption. reflexivity. Qed.
Lemma ait_ltb_plain g a b : plain_ait a -> plain_ait b -> ait_ltb_c g a b = ait_ltb V6 a b.
Proof. intros A B. unfold ait_ltb_c, ait_ltb. rewrite ltb_plain by assumption. reflexivity. Qed.
Lemma net_cmp_plain g a b : plain a -> plain b -> net_cmp_c g a b = net_cmp V6 a b.
Proof. intros [A A'] [B B']. unfold net_cmp_c, net_cmp. rewrite !cmp_plain by assumption. reflexivity. Qed.
Lemma net_ltb_plain g a b : plain a -> plain b -> net_ltb_c g a b = net_ltb V6 a b.
Proof. intros [A A'] [B B']. unfold net_ltb_c, net_ltb. rewrite !ltb_plain, !eqb_plain by assumption. reflexivity. Qed.
Lemma nit_cmp_plain g a b : plain_nit a -> plain_nit b -> nit_cmp_c g a b = nit_cmp V6 a b.
Proof. intros [A _] [B _]. unfold nit_cmp_c, nit_cmp. rewrite net_cmp_plain by assumption. reflexivity. Qed.
Lemma nit_ltb_plain g a b : plain_nit a -> plain_nit b -> nit_ltb_c g a b = nit_ltb V6 a b.
Proof. intros [A _] [B _]. unfold nit_ltb_c, nit_ltb. rewrite net_ltb_plain by assumption. reflexivity. Qed.
Lemma hi_rels g sp op a b : plain_hi a -> plain_hi b -> rel_op (aiter_rels (host_ops_c g)) sp op a b = rel_op (aiter_rels host_ops) sp op a b.
Proof.
  destruct a as [[|] a ca], b as [[|] b cb]; unfold plain_hi; cbn [ai_ver ai_it]; intros A B; try (destruct op, sp; reflexivity).
  specialize (A eq_refl). specialize (B eq_refl).
  assert (E : forall x y, plain_ait x -> plain_ait y -> aiter_eqb (host_ops_c g) (mk_ai V6 x ca) (mk_ai V6 y cb) = aiter_eqb host_ops (mk_ai V6 x ca) (mk_ai V6 y cb)) by (intros; apply ait_eqb_plain; assumption).
  assert (M : aiter_cmp (host_ops_c g) (mk_ai V6 a ca) (mk_ai V6 b cb) = aiter_cmp host_ops (mk_ai V6 a ca) (mk_ai V6 b cb)) by (apply ait_cmp_plain; assumption).
  assert (L : aiter_ltb (host_ops_c g) (mk_ai V6 a ca) (mk_ai V6 b cb) = aiter_ltb host_ops (mk_ai V6 a ca) (mk_ai V6 b cb)) by (apply ait_ltb_plain; assumption).
  assert (L' : aiter_ltb (host_ops_c g) (mk_ai V6 b cb) (mk_ai V6 a ca) = aiter_ltb host_ops (mk_ai V6 b cb) (mk_ai V6 a ca)) by (apply ait_ltb_plain; assumption).
  destruct op, sp; cbn [rel_op aiter_rels r_eqb r_cmp r_ltb]; rewrite ?E, ?M, ?L, ?L' by assumption; reflexivity.
Qed.
Lemma si_rels g sp op a b : plain_si a -> plain_si b -> rel_op (aiter_rels (net_ops_c g)) sp op a b = rel_op (aiter_rels net_ops) sp op a b.
Proof.
  destruct a as [[|] a ca], b as [[|] b cb]; unfold plain_si; cbn [ai_ver ai_it]; intros A B; try (destruct op, sp; reflexivity).
  specialize (A eq_refl). specialize (B eq_refl).
  assert (E : aiter_eqb (net_ops_c g) (mk_ai V6 a ca) (mk_ai V6 b cb) = aiter_eqb net_ops (mk_ai V6 a ca) (mk_ai V6 b cb)) by (apply nit_eqb_plain; assumption).
  assert (M : aiter_cmp (net_ops_c g) (mk_ai V6 a ca) (mk_ai V6 b cb) = aiter_cmp net_ops (mk_ai V6 a ca) (mk_ai V6 b cb)) by (apply nit_cmp_plain; assumption).
  assert (L : aiter_ltb (net_ops_c g) (mk_ai V6 a ca) (mk_ai V6 b cb) = aiter_ltb net_ops (mk_ai V6 a ca) (mk_ai V6 b cb)) by (apply nit_ltb_plain; assumption).
  assert (L' : aiter_ltb (net_ops_c g) (mk_ai V6 b cb) (mk_ai V6 a ca) = aiter_ltb net_ops (mk_ai V6 b cb) (mk_ai V6 a ca)) by (apply nit_ltb_plain; assumption).
  destruct op, sp; cbn [rel_op aiter_rels r_eqb r_cmp r_ltb]; rewrite ?E, ?M, ?L, ?L'; reflexivity.
Qed.
Lemma hi_add a n b : plain_hi a -> aiter_add host_ops a n = Ret b -> plain_hi b.
Proof.
  unfold plain_hi, aiter_add. destruct a as [[|] a ca]; cbn [ai_ver ai_it ver_eqb ver_num Z.eqb Pos.eqb]; intros A.
  - generalize (u32_of_u128 n). clear n. intros n. destruct (o_add host_ops V4 a n); [|discriminate..]. intros H. apply ret_inj in H. subst b. discriminate.
  - change (o_add host_ops V6) with (ait_add V6). destruct (ait_add V6 a n) as [x| |] eqn:X; [|discriminate..]. intros H. apply ret_inj in H. subst b. intros _. exact (ait_add_plain _ _ _ (A eq_refl) X).
Qed.
Lemma hi_sub a n b : plain_hi a -> aiter_sub host_ops a n = Ret b -> plain_hi b.
Proof.
  unfold plain_hi, aiter_sub. destruct a as [[|] a ca]; cbn [ai_ver ai_it ver_eqb ver_num Z.eqb Pos.eqb]; intros A.
  - generalize (u32_of_u128 n). clear n. intros n. destruct (o_sub host_ops V4 a n); [|discriminate..]. intros H. apply ret_inj in H. subst b. discriminate.
  - change (o_sub host_ops V6) with (ait_sub V6). destruct (ait_sub V6 a n) as [x| |] eqn:X; [|discriminate..]. intros H. apply ret_inj in H. subst b. intros _. exact (ait_sub_plain _ _ _ (A eq_refl) X).
Qed.
Lemma hi_rev a b : aiter_reverse host_ops a = Ret b -> plain_hi b.
Proof.
  unfold plain_hi, aiter_reverse. destruct a as [[|] a ca]; cbn [ai_ver ai_it ver_eqb ver_num Z.eqb Pos.eqb].
  - destruct (o_reverse host_ops V4 a); [|discriminate..]. intros H. apply ret_inj in H. subst b. discriminate.
  - destruct (o_reverse host_ops V6 a) as [x| |] eqn:X; [|discriminate..]. intros H. apply ret_inj in H. subst b. intros _. exact (ait_rev_plain _ _ X).
Qed.
Lemma si_add a n b : plain_si a -> aiter_add net_ops a n = Ret b -> plain_si b.
Proof.
  unfold plain_si, aiter_add. destruct a as [[|] a ca]; cbn [ai_ver ai_it ver_eqb ver_num Z.eqb Pos.eqb]; intros A.
  - generalize (u32_of_u128 n). clear n. intros n. destruct (o_add net_ops V4 a n); [|discriminate..]. intros H. apply ret_inj in H. subst b. discriminate.
  - change (o_add net_ops V6) with (nit_add V6). destruct (nit_add V6 a n) as [x| |] eqn:X; [|discriminate..]. intros H. apply ret_inj in H. subst b. intros _. exact (nit_add_plain _ _ _ (A eq_refl) X).
Qed.
Lemma si_sub a n b : plain_si a -> aiter_sub net_ops a n = Ret b -> plain_si b.
Proof.
  unfold plain_si, aiter_sub. destruct a as [[|] a ca]; cbn [ai_ver ai_it ver_eqb ver_num Z.eqb Pos.eqb]; intros A.
  - generalize (u32_of_u128 n). clear n. intros n. destruct (o_sub net_ops V4 a n); [|discriminate..]. intros H. apply ret_inj in H. subst b. discriminate.
  - change (o_sub net_ops V6) with (nit_sub V6). destruct (nit_sub V6 a n) as [x| |] eqn:X; [|discriminate..]. intros H. apply ret_inj in H. subst b. intros _. exact (nit_sub_plain _ _ _ (A eq_refl) X).
Qed.
Lemma si_rev a b : aiter_reverse net_ops a = Ret b -> plain_si b.
Proof.
  unfold plain_si, aiter_reverse. destruct a as [[|] a ca]; cbn [ai_ver ai_it ver_eqb ver_num Z.eqb Pos.eqb].
  - destruct (o_reverse net_ops V4 a); [|discriminate..]. intros H. apply ret_inj in H. subst b. discriminate.
  - destruct (o_reverse net_ops V6 a) as [x| |] eqn:X; [|discriminate..]. intros H. apply ret_inj in H. subst b. intros _. exact (nit_rev_plain _ _ X).
Qed.
Lemma hi_eqb g a b : plain_hi a -> plain_hi b -> aiter_eqb (host_ops_c g) a b = aiter_eqb host_ops a b. Proof. exact (hi_rels g true CEq a b). Qed.
Lemma si_eqb g a b : plain_si a -> plain_si b -> aiter_eqb (net_ops_c g) a b = aiter_eqb net_ops a b. Proof. exact (si_rels g true CEq a b). Qed.
Lemma any_hosts_same g sp x : anet_for (c_max g) (c_spaces g) x -> any_hosts_c g sp x = any_hosts sp (anet_without x).
Proof.
  destruct x as [[|] n]; unfold anet_for, anet_without; cbn [an_ver an_net]; intros W.
  - rewrite v4_without by exact W. reflexivity.
  - unfold any_hosts_c, any_hosts, anet_is_v4. cbn [an_ver an_net ver_eqb ver_num Z.eqb Pos.eqb]. rewrite hosts_same. reflexivity.
Qed.
Lemma any_hosts_plain sp x s : any_hosts sp x = Ret s -> plain_hi (q_begin s) /\ plain_hi (q_end s).
Proof.
  destruct x as [[|] n]; unfold any_hosts, anet_is_v4; cbn [an_ver an_net ver_eqb ver_num Z.eqb Pos.eqb].
  - destruct (hosts sp V4 n); [|discriminate..]. intros H. apply ret_inj in H. subst s. split; discriminate.
  - destruct (hosts sp V6 n) as [h| |] eqn:Q; [|discriminate..]. intros H. apply ret_inj in H. subst s. destruct (hosts_plain _ _ _ Q). split; intros _; assumption.
Qed.
Lemma any_hosts_all g sp x : anet_for (c_max g) (c_spaces g) x -> any_hosts_c g sp x = any_hosts sp (anet_without x) /\
  forall s, any_hosts_c g sp x = Ret s -> aseq_empty (host_ops_c g) s = aseq_empty host_ops s /\
    (forall k, aseq_walk (host_ops_c g) k (q_begin s) (q_end s) = aseq_walk host_ops k (q_begin s) (q_end s)) /\
    (forall b e, aseq_rbegin host_ops s = Ret b -> aseq_rend host_ops s = Ret e -> forall k, aseq_rwalk (host_ops_c g) k b e = aseq_rwalk host_ops k b e) /\
    (forall cpp20 op i j a b, aiter_add host_ops (q_begin s) i = Ret a -> aiter_add host_ops (q_begin s) j = Ret b ->
      rel_op (aiter_rels (host_ops_c g)) cpp20 op a b = rel_op (aiter_rels host_ops) cpp20 op a b).
Proof.
  intros W. split; [apply any_hosts_same; exact W|]. intros s H. rewrite any_hosts_same in H by exact W. destruct (any_hosts_plain _ _ _ H) as [B E].
  split; [apply hi_eqb; assumption|].
  split; [intros k; apply (walk_same _ _ _ _ _ plain_hi); try assumption; [apply hi_eqb|reflexivity|intros a b P; apply hi_add; exact P]|].
  split; [intros b e Hb He k; apply (walk_same _ _ _ _ _ plain_hi); [apply hi_eqb|reflexivity|intros x0 y P; apply hi_sub; exact P|eapply hi_rev; exact Hb|eapply hi_rev; exact He]|].
  intros cpp20 op i j a b Ha Hb. apply hi_rels; [exact (hi_add _ _ _ B Ha)|exact (hi_add _ _ _ B Hb)].
Qed.
Lemma any_subnets_code_same g sp x code d np : cfg_ok g -> anet_for (c_max g) (c_spaces g) x -> any_subnets_code_c g sp x code d np = any_subnets_code sp (anet_without x) code d np.
Proof.
  intros C. destruct x as [[|] n]; unfold anet_for, anet_without; cbn [an_ver an_net]; intros W.
  - rewrite v4_without by exact W. reflexivity.
  - unfold any_subnets_code_c, any_subnets_code, anet_is_v4. cbn [an_ver an_net ver_eqb ver_num Z.eqb Pos.eqb]. rewrite subnets_code_same by assumption. reflexivity.
Qed.
Lemma any_subnets_same g sp x d np : cfg_ok g -> anet_for (c_max g) (c_spaces g) x -> any_subnets_c g sp x d np = any_subnets sp (anet_without x) d np.
Proof.
  intros C. destruct x as [[|] n]; unfold anet_for, anet_without; cbn [an_ver an_net]; intros W.
  - rewrite v4_without by exact W. reflexivity.
  - unfold any_subnets_c, any_subnets, anet_is_v4. cbn [an_ver an_net ver_eqb ver_num Z.eqb Pos.eqb]. rewrite subnets_same by assumption. reflexivity.
Qed.
Lemma any_subnets_plain sp x d np s : any_subnets sp (anet_without x) d np = Ret s -> plain_si (q_begin s) /\ plain_si (q_end s).
Proof.
  destruct x as [[|] n]; unfold anet_without, any_subnets, anet_is_v4; cbn [an_ver an_net ver_eqb ver_num Z.eqb Pos.eqb].
  - destruct (subnets sp V4 _ d np); [|discriminate..]. intros H. apply ret_inj in H. subst s. split; discriminate.
  - destruct (subnets sp V6 _ d np) as [h| |] eqn:Q; [|discriminate..]. intros H. apply ret_inj in H. subst s. destruct (subnets_plain _ _ _ _ _ Q). split; intros _; assumption.
Qed.
Lemma any_subnets_all g sp x d np : cfg_ok g -> anet_for (c_max g) (c_spaces g) x ->
  any_subnets_c g sp x d np = any_subnets sp (anet_without x) d np /\
  (forall code, any_subnets_code_c g sp x code d np = any_subnets_code sp (anet_without x) code d np) /\
  forall s, any_subnets_c g sp x d np = Ret s -> aseq_empty (net_ops_c g) s = aseq_empty net_ops s /\
    (forall k, aseq_walk (net_ops_c g) k (q_begin s) (q_end s) = aseq_walk net_ops k (q_begin s) (q_end s)) /\
    (forall b e, aseq_rbegin net_ops s = Ret b -> aseq_rend net_ops s = Ret e -> forall k, aseq_rwalk (net_ops_c g) k b e = aseq_rwalk net_ops k b e) /\
    (forall cpp20 op i j a b, aiter_add net_ops (q_begin s) i = Ret a -> aiter_add net_ops (q_begin s) j = Ret b ->
      rel_op (aiter_rels (net_ops_c g)) cpp20 op a b = rel_op (aiter_rels net_ops) cpp20 op a b).
Proof.
  intros C W. split; [apply any_subnets_same; assumption|]. split; [intros; apply any_subnets_code_same; assumption|].
  intros s H. rewrite any_subnets_same in H by assumption. destruct (any_subnets_plain _ _ _ _ _ H) as [B E].
  split; [apply si_eqb; assumption|].
  split; [intros k; apply (walk_same _ _ _ _ _ plain_si); try assumption; [apply si_eqb|reflexivity|intros a b P; apply si_add; exact P]|].
  split; [intros b e Hb He k; apply (walk_same _ _ _ _ _ plain_si); [apply si_eqb|reflexivity|intros x0 y P; apply si_sub; exact P|eapply si_rev; exact Hb|eapply si_rev; exact He]|].
  intros cpp20 op i j a b Ha Hb. apply si_rels; [exact (si_add _ _ _ B Ha)|exact (si_add _ _ _ B Hb)].
Qed.
(** What does not compare is the same function. *)
Lemma seq_same g : (forall s, aseq_size (host_ops_c g) s = aseq_size host_ops s) /\ (forall s n, aseq_at (host_ops_c g) s n = aseq_at host_ops s n) /\
  (forall s, aseq_back (host_ops_c g) s = aseq_back host_ops s) /\ (forall s, aseq_rbegin (host_ops_c g) s = aseq_rbegin host_ops s) /\
  (forall s, aseq_rend (host_ops_c g) s = aseq_rend host_ops s) /\ (forall a n, aiter_add (host_ops_c g) a n = aiter_add host_ops a n) /\
  (forall a n, aiter_sub (host_ops_c g) a n = aiter_sub host_ops a n) /\ (forall a n, aiter_at (host_ops_c g) a n = aiter_at host_ops a n) /\
  (forall a b, aiter_diff (host_ops_c g) a b = aiter_diff host_ops a b) /\
  (forall s, aseq_size (net_ops_c g) s = aseq_size net_ops s) /\ (forall s n, aseq_at (net_ops_c g) s n = aseq_at net_ops s n) /\
  (forall s, aseq_back (net_ops_c g) s = aseq_back net_ops s) /\ (forall s, aseq_rbegin (net_ops_c g) s = aseq_rbegin net_ops s) /\
  (forall s, aseq_rend (net_ops_c g) s = aseq_rend net_ops s) /\ (forall a n, aiter_add (net_ops_c g) a n = aiter_add net_ops a n) /\
  (forall a n, aiter_sub (net_ops_c g) a n = aiter_sub net_ops a n) /\ (forall a n, aiter_at (net_ops_c g) a n = aiter_at net_ops a n) /\
  (forall a b, aiter_diff (net_ops_c g) a b = aiter_diff net_ops a b).
Proof. repeat split. Qed.

(** *** address_exclude *)
Definition plain_an (x : anet) : Prop := an_ver x = V6 -> plain (an_net x).
Lemma an_eqb g x y : plain_an x -> plain_an y -> anet_eqb_c g x y = anet_eqb x y.
Proof.
  destruct x as [[|] a], y as [[|] b]; unfold plain_an; cbn [an_ver an_net]; intros A B; try reflexivity.
  exact (net_eqb_plain g a b (A eq_refl) (B eq_refl)).
Qed.
Lemma an_subnet g sp x y : plain_an x -> plain_an y -> anet_subnet_of_c g sp x y = anet_subnet_of sp x y.
Proof.
  destruct x as [[|] a], y as [[|] b]; unfold plain_an; cbn [an_ver an_net]; intros A B; try reflexivity.
  exact (subnet_plain g sp a b (A eq_refl) (B eq_refl)).
Qed.
Lemma an_halves g sp x : plain_an x -> any_halves_c g sp x = any_halves sp x.
Proof.
  destruct x as [[|] n]; unfold plain_an; cbn [an_ver an_net]; intros A; [reflexivity|].
  specialize (A eq_refl). pose proof (halves_same g sp n A) as H. unfold halves_c, halves in H. unfold any_halves_c, any_halves, any_subnets_c, any_subnets, anet_is_v4.
  cbn [an_ver an_net ver_eqb ver_num Z.eqb Pos.eqb].
  assert (S : subnets_c g sp n 1 None = subnets sp V6 n 1 None).
  { destruct A as [P _]. unfold subnets_c, subnets, subnets_code_c, subnets_code.
    assert (R : remove_scope_c g (n_addr n) = Ret (mk_addr (a_bytes (n_addr n)) [])).
    { unfold remove_scope_c, v6_set_scope_c. rewrite P. destruct (Z.gtb_spec (c_max g) 0) as [G|G].
      - destruct (Z.gtb_spec 0 (c_max g)); [lia|]. cbn [set_scope_loop_c bind].
        destruct (Z.to_nat (c_max g)) as [|k] eqn:E; [lia|]. replace (Z.to_nat (c_max g + 1)) with (S (S k)) by lia. reflexivity.
      - reflexivity. }
    rewrite R. change (remove_scope V6 (n_addr n)) with (@Ret addr (mk_addr (a_bytes (n_addr n)) [])). cbn [bind width]. rewrite single_same.
    destruct (n_prefix n =? 128); [reflexivity|]. rewrite make_same. reflexivity. }
  rewrite S. reflexivity.
Qed.
Lemma an_halves_plain sp x a b : plain_an x -> any_halves sp x = Ret (a, b) -> plain_an a /\ plain_an b.
Proof.
  intros P. unfold any_halves. assert (X : any_subnets sp x 1 None = any_subnets sp (anet_without x) 1 None \/ an_ver x = V4).
  { destruct x as [[|] n]; [right; reflexivity|left]. unfold plain_an in P. cbn [an_ver an_net] in P. destruct (P eq_refl) as [Q _]. unfold anet_without. cbn [an_ver an_net]. rewrite (without_same n Q). reflexivity. }
  destruct (any_subnets sp x 1 None) as [s| |] eqn:S; [|discriminate..]. cbn [bind].
  assert (B : plain_si (q_begin s)).
  { destruct X as [X|X]; [apply (any_subnets_plain sp x 1 None); congruence|]. destruct x as [[|] n]; [|discriminate]. unfold any_subnets, anet_is_v4 in S.
    cbn [an_ver an_net ver_eqb ver_num Z.eqb Pos.eqb] in S. destruct (subnets sp V4 n 1 None); [|discriminate..]. apply ret_inj in S. subst s. discriminate. }
  assert (C : forall i c, aiter_add net_ops (q_begin s) i = Ret c -> plain_an (ai_cur c)).
  { intros i c H. pose proof (si_add _ _ _ B H) as Q. revert H. unfold aiter_add. destruct (q_begin s) as [[|] it cu]; cbn [ai_ver ai_it ver_eqb ver_num Z.eqb Pos.eqb].
    - destruct (o_add net_ops V4 it _); [|discriminate..]. intros H. apply ret_inj in H. subst c. discriminate.
    - destruct (o_add net_ops V6 it i) as [z| |]; [|discriminate..]. intros H. apply ret_inj in H. subst c. intros _. apply (Q eq_refl). }
  unfold aseq_at. destruct (aiter_add net_ops (q_begin s) 0) as [u| |] eqn:U; [|discriminate..]. destruct (aiter_add net_ops (q_begin s) 1) as [w| |] eqn:V; [|discriminate..].
  cbn [bind]. intros H. apply ret_inj in H. injection H as <- <-. split; eapply C; eassumption.
Qed.
Definition plain_axit (x : axit) : Prop := plain_an (ax_other x) /\ plain_an (ax_s1 x) /\ plain_an (ax_s2 x) /\ plain_an (ax_current x).
Lemma axit_default_plain : plain_axit axit_default. Proof. repeat split; discriminate. Qed.
Lemma axit_same g sp x : plain_axit x -> axit_next_c g sp x = axit_next sp x.
Proof. intros (O & P1 & P2 & Q). unfold axit_next_c, axit_next. rewrite !an_eqb, !an_subnet, !an_halves by assumption. reflexivity. Qed.
Lemma axit_plain sp x y : plain_axit x -> axit_next sp x = Ret y -> plain_axit y.
Proof.
  intros (O & P1 & P2 & Q). unfold axit_next. intros H.
  repeat match type of H with
  | Ret _ = Ret _ => apply ret_inj in H; subst y
  | UB _ = Ret _ => discriminate H
  | Err _ _ = Ret _ => discriminate H
  | (if ?c then _ else _) = _ => destruct c
  | (let '(a, b) := ?c in _) = _ => destruct c
  | bind ?r _ = Ret _ => destruct r eqn:?; cbn [bind] in H
  end; try exact axit_default_plain;
  try (match goal with E : any_halves _ ?n = Ret (_, _), P : plain_an ?n |- _ => destruct (an_halves_plain _ _ _ _ P E) end);
  (split; [|split; [|split]]); assumption.
Qed.
Lemma axit_eqb_plain g a b : plain_axit a -> plain_axit b -> axit_eqb_c g a b = axit_eqb a b.
Proof. intros (_ & _ & _ & A) (_ & _ & _ & B). apply an_eqb; assumption. Qed.
Lemma axit_make_same g sp n o : plain_an n -> plain_an o -> axit_make_c g sp n o = axit_make sp n o.
Proof.
  intros N O. unfold axit_make_c, axit_make. rewrite an_halves by assumption. destruct (any_halves sp n) as [[a b]| |] eqn:H; cbn [bind]; try reflexivity.
  apply axit_same. destruct (an_halves_plain _ _ _ _ N H). split; [|split; [|split]]; assumption.
Qed.
Lemma axit_make_plain sp n o x : plain_an n -> plain_an o -> axit_make sp n o = Ret x -> plain_axit x.
Proof.
  intros N O. unfold axit_make. destruct (any_halves sp n) as [[a b]| |] eqn:H; cbn [bind]; try discriminate.
  apply axit_plain. destruct (an_halves_plain _ _ _ _ N H). split; [|split; [|split]]; assumption.
Qed.
Lemma clear_c g x : cfg_ok g -> anet_for (c_max g) (c_spaces g) x -> any_clear_scope_c g (anet_address x) = any_clear_scope (anet_address (anet_without x)).
Proof.
  intros C. destruct x as [[|] n]; unfold anet_for, anet_without; cbn [an_ver an_net]; intros W; [rewrite v4_without by exact W; reflexivity|].
  unfold any_clear_scope_c, any_clear_scope, anet_address. cbn. rewrite remove_c by (try assumption; apply W). reflexivity.
Qed.
Lemma clear_plain x a : any_clear_scope (anet_address (anet_without x)) = Ret a -> aa_ver a = V6 -> a_scope (aa_addr a) = [].
Proof. destruct x as [[|] n]; cbn; intros H; apply ret_inj in H; subst a; [discriminate|reflexivity]. Qed.
Lemma made_plain a p strict x : (aa_ver a = V6 -> a_scope (aa_addr a) = []) -> anet_from_address a p strict = Ret x -> plain_an x.
Proof.
  destruct a as [[|] a]; cbn [aa_ver aa_addr]; intros A; unfold anet_from_address; cbn [aa_ver aa_addr ver_eqb ver_num Z.eqb Pos.eqb].
  - destruct (from_address V4 a p strict); [|discriminate..]. intros H. apply ret_inj in H. subst x. discriminate.
  - destruct (from_address V6 a p strict) as [n| |] eqn:F; [|discriminate..]. intros H. apply ret_inj in H. subst x. intros _. exact (from_address_plain _ _ _ _ (A eq_refl) F).
Qed.
Lemma any_exclude_code_same g sp x o code : cfg_ok g -> anet_for (c_max g) (c_spaces g) x -> anet_for (c_max g) (c_spaces g) o ->
  any_exclude_code_c g sp x o code = any_exclude_code sp (anet_without x) (anet_without o) code.
Proof.
  intros C X O. unfold any_exclude_code_c, any_exclude_code. rewrite !clear_c by assumption.
  change (an_ver (anet_without x)) with (an_ver x). change (an_ver (anet_without o)) with (an_ver o). destruct (negb _); [reflexivity|].
  destruct (any_clear_scope (anet_address (anet_without x))) as [a| |] eqn:A; cbn [bind]; try reflexivity.
  destruct (any_clear_scope (anet_address (anet_without o))) as [b| |] eqn:B; cbn [bind]; try reflexivity.
  change (anet_prefixlen (anet_without x)) with (anet_prefixlen x). change (anet_prefixlen (anet_without o)) with (anet_prefixlen o).
  destruct (anet_from_address a _ true) as [l| |] eqn:L; cbn [bind]; try reflexivity.
  destruct (anet_from_address b _ true) as [r| |] eqn:R; cbn [bind]; try reflexivity.
  assert (Pl : plain_an l) by exact (made_plain _ _ _ _ (clear_plain x a A) L). assert (Pr : plain_an r) by exact (made_plain _ _ _ _ (clear_plain o b B) R).
  rewrite an_subnet, an_eqb, axit_make_same by assumption. reflexivity.
Qed.
Lemma any_exclude_same g sp x o : cfg_ok g -> anet_for (c_max g) (c_spaces g) x -> anet_for (c_max g) (c_spaces g) o ->
  any_exclude_c g sp x o = any_exclude sp (anet_without x) (anet_without o).
Proof. intros C X O. unfold any_exclude_c, any_exclude. rewrite any_exclude_code_same by assumption. reflexivity. Qed.
Lemma any_exclude_plain sp x o s : any_exclude sp (anet_without x) (anet_without o) = Ret s -> plain_axit (ae_begin s) /\ plain_axit (ae_end s).
Proof.
  unfold any_exclude, any_exclude_code. destruct (negb _); cbn [bind]; [discriminate|].
  destruct (any_clear_scope (anet_address (anet_without x))) as [a| |] eqn:A; cbn [bind]; try discriminate.
  destruct (any_clear_scope (anet_address (anet_without o))) as [b| |] eqn:B; cbn [bind]; try discriminate.
  destruct (anet_from_address a _ true) as [l| |] eqn:L; cbn [bind]; try discriminate.
  destruct (anet_from_address b _ true) as [r| |] eqn:R; cbn [bind]; try discriminate.
  assert (Pl : plain_an l) by exact (made_plain _ _ _ _ (clear_plain x a A) L). assert (Pr : plain_an r) by exact (made_plain _ _ _ _ (clear_plain o b B) R).
  destruct (anet_subnet_of sp r l) as [[|]| |]; cbn [bind negb]; try discriminate.
  destruct (anet_eqb l r) as [[|]| |]; cbn [bind]; try discriminate.
  - intros H. apply ret_inj in H. subst s. split; exact axit_default_plain.
  - destruct (axit_make sp l r) as [z| |] eqn:Z0; cbn [bind]; try discriminate. intros H. apply ret_inj in H. subst s.
    split; [exact (axit_make_plain _ _ _ _ Pl Pr Z0)|exact axit_default_plain].
Qed.
Lemma any_exclude_all g sp x o : cfg_ok g -> anet_for (c_max g) (c_spaces g) x -> anet_for (c_max g) (c_spaces g) o ->
  any_exclude_c g sp x o = any_exclude sp (anet_without x) (anet_without o) /\
  (forall code, any_exclude_code_c g sp x o code = any_exclude_code sp (anet_without x) (anet_without o) code) /\
  forall s, any_exclude_c g sp x o = Ret s -> forall k, aexclude_walk_c g sp k (ae_begin s) (ae_end s) = aexclude_walk sp k (ae_begin s) (ae_end s).
Proof.
  intros C X O. split; [apply any_exclude_same; assumption|]. split; [intros; apply any_exclude_code_same; assumption|].
  intros s H k. rewrite any_exclude_same in H by assumption. destruct (any_exclude_plain _ _ _ _ H).
  apply (walk_same _ _ _ _ _ plain_axit); try assumption; [apply axit_eqb_plain|apply axit_same|apply axit_plain].
Qed.

(** *** The default setting *)
Lemma any_default : (forall is64 x, any_hash_c default_config is64 x = any_hash is64 x) /\ (forall x fmt, any_to_string_c default_config x fmt = any_to_string x fmt) /\
  (forall sp op x y, rel_op (any_rels_c default_config) sp op x y = rel_op any_rels sp op x y) /\
  (forall is64 x, anet_hash_c default_config is64 x = anet_hash is64 x) /\ (forall x fmt, anet_to_string_c default_config x fmt = anet_to_string x fmt) /\
  (forall sp op x y, rel_op (anet_rels_c default_config) sp op x y = rel_op anet_rels sp op x y) /\
  (forall sp x y, anet_subnet_of_c default_config sp x y = anet_subnet_of sp x y) /\ (forall sp x y, anet_supernet_of_c default_config sp x y = anet_supernet_of sp x y) /\
  (forall sp x, any_hosts_c default_config sp x = any_hosts sp x) /\ (forall k a b, aseq_walk (host_ops_c default_config) k a b = aseq_walk host_ops k a b) /\
  (forall sp x code d np, any_subnets_code_c default_config sp x code d np = any_subnets_code sp x code d np) /\
  (forall k a b, aseq_walk (net_ops_c default_config) k a b = aseq_walk net_ops k a b) /\
  (forall sp x o code, any_exclude_code_c default_config sp x o code = any_exclude_code sp x o code) /\
  (forall sp k a b, aexclude_walk_c default_config sp k a b = aexclude_walk sp k a b).
Proof. repeat split; reflexivity. Qed.
