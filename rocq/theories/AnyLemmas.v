(** Version-erased objects: queries, sequences and witnesses. *)
From Coq Require Import String.
From Verif Require Import Base Tac UnicodeModel FixedStringModel V4Model V6Model Uint128Model SpecInt Uint128Proofs SpecAddr SpecOrder AddressModel
  AddressProofs NetworkModel IterModel ClassifyModel SpecNet SpecIter NetProofs NetProofs2 NetProofs3 NetLemmas NetWitness IterProofs IterProofs2 IterProofs3 IterProofs5
  IterLemmas AnyModel SpecAny AnyProofs AnyIter.

(** *** Queries *)
Lemma address_queries v a is64 fmt : let x := mk_aa v a in
  any_is_multicast x = is_multicast v a /\ any_is_private x = is_private v a /\ any_is_global x = is_global v a /\ any_is_reserved x = is_reserved v a /\
  any_is_loopback x = is_loopback v a /\ any_is_link_local x = is_link_local v a /\ any_is_unspecified x = is_unspecified a /\
  any_is_site_local x = (match v with V4 => false | V6 => v6_is_site_local a end) /\
  any_size x = Z.of_nat (nbytes v) /\ any_hash is64 x = addr_hash is64 v a /\ any_to_string x fmt = addr_to_string v a fmt /\
  any_reverse_pointer x = (match v with V4 => v4_reverse_pointer true (a_bytes a) | V6 => v6_reverse_pointer (a_bytes a) end) /\
  any_ipv4_mapped x = (match v with V4 => Ret None | V6 => v6_ipv4_mapped (a_bytes a) end) /\
  any_sixtofour x = (match v with V4 => Ret None | V6 => v6_sixtofour (a_bytes a) end) /\
  any_teredo x = (match v with V4 => Ret None | V6 => v6_teredo (a_bytes a) end) /\
  any_scope x = (match v with V4 => [] | V6 => a_scope a end) /\
  aa_v4 x = (match v with V4 => Some a | V6 => None end) /\ aa_v6 x = (match v with V4 => None | V6 => Some a end).
Proof. destruct v; repeat (apply conj); reflexivity. Qed.
Lemma network_queries v n is64 fmt : let x := mk_an v n in
  anet_prefixlen x = n_prefix n /\ anet_address x = mk_aa v (n_addr n) /\ anet_broadcast x = mk_aa v (broadcast n) /\ anet_netmask x = mk_aa v (n_mask n) /\ anet_hostmask x = mk_aa v (hostmask n) /\
  anet_is_multicast x = net_is_multicast v n /\ anet_is_private x = net_is_private v n /\ anet_is_global x = net_is_global v n /\ anet_is_reserved x = net_is_reserved v n /\
  anet_is_loopback x = net_is_loopback v n /\ anet_is_link_local x = net_is_link_local v n /\ anet_is_unspecified x = net_is_unspecified n /\
  anet_is_site_local x = (match v with V4 => false | V6 => v6_net_is_site_local n end) /\
  anet_hash is64 x = net_hash is64 v n /\ anet_count x = addresses_count v n /\ anet_to_string x fmt = net_to_string v n fmt.
Proof.
  cbv zeta. assert (C : anet_count (mk_an v n) = addresses_count v n).
  { unfold anet_count. destruct v; [|reflexivity]. cbn [anet_is_v4 an_ver an_net ver_eqb ver_num Z.eqb Pos.eqb]. change (anet_is_v4 (mk_an V4 n)) with true. cbv iota.
    destruct (addresses_count V4 n); cbn [bind]; rewrite ?wide32; reflexivity. }
  destruct v; repeat (apply conj); exact C || reflexivity.
Qed.
Lemma network_makers v n a code p strict d np :
  anet_from_address (mk_aa v a) p strict = rmap (mk_an v) (from_address v a p strict) /\
  anet_from_address_code (mk_aa v a) code p strict = rmap (fun r => (mk_an v (fst r), snd r)) (from_address_code v a code p strict) /\
  anet_supernet (mk_an v n) d np = rmap (mk_an v) (supernet v n d np) /\
  anet_supernet_code (mk_an v n) code d np = rmap (fun r => (mk_an v (fst r), snd r)) (supernet_code v n code d np).
Proof.
  destruct v; (split; [unfold anet_from_address; cbn; match goal with |- context [from_address ?v ?a ?p ?s] => destruct (from_address v a p s) end; reflexivity|]);
    (split; [unfold anet_from_address_code; cbn; match goal with |- context [from_address_code ?v ?a ?c ?p ?s] => destruct (from_address_code v a c p s) as [[? ?]| |] end; reflexivity|]);
    (split; [unfold anet_supernet; cbn; match goal with |- context [supernet ?v ?a ?c ?p] => destruct (supernet v a c p) end; reflexivity|]);
    (unfold anet_supernet_code; cbn; match goal with |- context [supernet_code ?v ?a ?c ?p ?s] => destruct (supernet_code v a c p s) as [[? ?]| |] end; reflexivity).
Qed.
Lemma hash_same is64 x y : wf_any x -> wf_any y -> any_eqb x y = Ret true -> any_hash is64 x = any_hash is64 y.
Proof. intros Wx Wy E. destruct (any_eqb_ok x y Wx Wy) as (r & E' & H). rewrite E in E'. apply ret_inj in E'. subst r. rewrite (proj1 H eq_refl). reflexivity. Qed.
Lemma any_hash_eq is64 x y : wf_any x -> wf_any y -> any_eqb x y = Ret true -> exists h, any_hash is64 x = Ret h /\ any_hash is64 y = Ret h.
Proof.
  intros Wx Wy E. rewrite <- (hash_same is64 x y Wx Wy E). clear E Wy y.
  assert (H : exists h, any_hash is64 x = Ret h).
  { destruct x as [[|] a]; unfold any_hash; cbn; apply (addr_hash_defined is64 _ a Wx). }
  destruct H as [h H]. exists h. auto.
Qed.
Lemma anet_hash_eq is64 x y : wf_anet x -> wf_anet y -> anet_eqb x y = Ret true -> exists h, anet_hash is64 x = Ret h /\ anet_hash is64 y = Ret h.
Proof.
  intros Wx Wy E. destruct (anet_eqb_ok x y Wx Wy) as (r & E' & H). rewrite E in E'. apply ret_inj in E'. subst r.
  rewrite <- (proj1 H eq_refl). clear E H Wy y.
  destruct x as [[|] n]; unfold anet_hash; cbn [an_ver an_net anet_is_v4 ver_eqb];
    [destruct (net_eqb_ok V4 n n Wx Wx) as (r & F & H)|destruct (net_eqb_ok V6 n n Wx Wx) as (r & F & H)];
    rewrite (proj2 H eq_refl) in F; destruct (net_hash_eq is64 _ n n Wx Wx F) as (h & A & _); exists h; split; exact A.
Qed.
Lemma swap_any x y : any_swap x y = (y, x). Proof. reflexivity. Qed.

(** *** Iterators *)
Lemma iterators_mirror {I E} (o : iops I E) v a b n : is_i64 n ->
  aiter_plus o (aiter_make o v a) n = rmap (aiter_make o v) (o_add o v a (u_of_i64 v n)) /\
  aiter_minus o (aiter_make o v a) n = rmap (aiter_make o v) (o_sub o v a (u_of_i64 v n)) /\
  aiter_index o (aiter_make o v a) n = o_at o v a (u_of_i64 v n) /\
  aiter_next o (aiter_make o v a) = rmap (aiter_make o v) (o_add o v a 1) /\
  aiter_prev o (aiter_make o v a) = rmap (aiter_make o v) (o_sub o v a 1) /\
  aiter_diff o (aiter_make o v a) (aiter_make o v b) = o_diff o v a b /\
  aiter_eqb o (aiter_make o v a) (aiter_make o v b) = o_eqb o v a b /\
  aiter_cmp o (aiter_make o v a) (aiter_make o v b) = o_cmp o v a b /\
  aiter_ltb o (aiter_make o v a) (aiter_make o v b) = o_ltb o v a b /\
  aiter_base o (aiter_make o v a) = rmap (aiter_make o v) (o_base o v a) /\
  ai_cur (aiter_make o v a) = o_get o v a.
Proof.
  intros H. split; [apply aplus; exact H|]. split; [apply aminus; exact H|]. split; [apply aindex; exact H|]. split; [apply anext|]. split; [apply aprev|].
  split; [apply adiff|]. split; [apply aeqb|]. split; [apply acmp|]. split; [apply altb|]. split; [apply abase|reflexivity].
Qed.
Lemma host_mirror v a b n : is_i64 n -> let mk := aiter_make host_ops v in
  aiter_plus host_ops (mk a) n = rmap mk (ait_plus v a n) /\ aiter_minus host_ops (mk a) n = rmap mk (ait_minus v a n) /\ aiter_index host_ops (mk a) n = rmap (mk_aa v) (ait_index v a n) /\
  aiter_diff host_ops (mk a) (mk b) = ait_diff v a b /\ aiter_eqb host_ops (mk a) (mk b) = ait_eqb v a b /\ aiter_cmp host_ops (mk a) (mk b) = ait_cmp v a b /\ aiter_ltb host_ops (mk a) (mk b) = ait_ltb v a b /\
  ai_cur (mk a) = mk_aa v (it_current a).
Proof.
  cbv zeta. intros H. destruct (iterators_mirror host_ops v a b n H) as (P & M & X & _ & _ & D & E & C & L & _ & G). rewrite P, M, X, D, E, C, L, G. cbn [host_ops o_add o_sub o_at o_diff o_eqb o_cmp o_ltb o_get].
  repeat split.
Qed.
Lemma subnet_mirror v a b n : is_i64 n -> let mk := aiter_make net_ops v in
  aiter_plus net_ops (mk a) n = rmap mk (nit_plus v a n) /\ aiter_minus net_ops (mk a) n = rmap mk (nit_minus v a n) /\ aiter_index net_ops (mk a) n = rmap (mk_an v) (nit_index v a n) /\
  aiter_diff net_ops (mk a) (mk b) = nit_diff v a b /\ aiter_eqb net_ops (mk a) (mk b) = nit_eqb v a b /\ aiter_cmp net_ops (mk a) (mk b) = nit_cmp v a b /\ aiter_ltb net_ops (mk a) (mk b) = nit_ltb v a b /\
  ai_cur (mk a) = mk_an v (ni_current a).
Proof.
  cbv zeta. intros H. destruct (iterators_mirror net_ops v a b n H) as (P & M & X & _ & _ & D & E & C & L & _ & G). rewrite P, M, X, D, E, C, L, G. cbn [net_ops o_add o_sub o_at o_diff o_eqb o_cmp o_ltb o_get].
  repeat split.
Qed.
(** *** Sequences *)
Lemma hosts_fail sp v n : (forall e x, hosts sp v n = Err e x -> any_hosts sp (mk_an v n) = Err e x) /\ (forall u, hosts sp v n = UB u -> any_hosts sp (mk_an v n) = UB u).
Proof. split; intros; rewrite any_hosts_eq, H; reflexivity. Qed.
Lemma subnets_fail sp v n d np : (forall e x, subnets sp v n d np = Err e x -> any_subnets sp (mk_an v n) d np = Err e x) /\ (forall u, subnets sp v n d np = UB u -> any_subnets sp (mk_an v n) d np = UB u).
Proof. split; intros; rewrite any_subnets_eq, H; reflexivity. Qed.
Lemma subnets_size sp v n d np q s s' : wf_net v n -> args_ok d np -> asked v n d np q -> defined v n q -> 0 < n_prefix n -> subnets sp v n d np = Ret s -> any_subnets sp (mk_an v n) d np = Ret s' ->
  aseq_size net_ops s' = Ret (s_size s).
Proof.
  intros W Ha Hq Hd P Hs H'. rewrite any_subnets_eq, Hs in H'. apply ret_inj in H'. subst s'. pose proof (asked_range v n d np q W Hq).
  rewrite (any_subnets_size sp v n d np q s W Ha Hq Hd ltac:(lia) Hs). destruct (Z.eqb_spec (n_prefix n) 0); [lia|reflexivity].
Qed.
Lemma subnets_size_zero sp v n d np q s : wf_net v n -> args_ok d np -> asked v n d np q -> defined v n q -> 0 < q -> n_prefix n = 0 -> any_subnets sp (mk_an v n) d np = Ret s -> aseq_size net_ops s = Ret 0.
Proof.
  intros W Ha Hq Hd Q P H. rewrite any_subnets_eq in H. destruct (subnets sp v n d np) as [s0| |] eqn:Hs; cbn [rmap] in H; try discriminate. apply ret_inj in H. subst s.
  rewrite (any_subnets_size sp v n d np q s0 W Ha Hq Hd Q Hs). rewrite P. reflexivity.
Qed.
Lemma subnets_size_bad : exists v n d s s', wf_net v n /\ subnets true v n d None = Ret s /\ any_subnets true (mk_an v n) d None = Ret s' /\ s_size s = 4 /\ aseq_size net_ops s' = Ret 0 /\
  aseq_walk net_ops 4 (q_begin s') (q_end s') = Ret (map (fun t => mk_an v (net_at v t)) ["0.0.0.0/2"; "64.0.0.0/2"; "128.0.0.0/2"; "192.0.0.0/2"])%string.
Proof. exists V4, (net_at V4 "0.0.0.0/0"), 2. eexists _, _. split; [wfn|]. calc. Qed.
(** After an error the sequence holds default iterators of step 0. *)
Lemma subnets_error_size : exists v n d s code s', wf_net v n /\ subnets_code true v n no_error d None = Ret (s, code) /\ s_size s = 0 /\
  any_subnets_code true (mk_an v n) no_error d None = Ret (s', code) /\ code = invalid_prefixlen_diff /\ aseq_size net_ops s' = UB DivByZero.
Proof. exists V4, (net_at V4 "10.0.0.0/8"), 30. eexists _, _, _. split; [wfn|]. calc. Qed.
Lemma iter_lt_bad : exists a b, aiter_cmp host_ops a b = Ret Lt /\ aiter_ltb host_ops a b = Ret false /\ aiter_ltb host_ops b a = Ret false.
Proof.
  exists (aiter_make host_ops V4 (mk_ait (addr_default V4) 0 0)), (aiter_make host_ops V6 (mk_ait (addr_default V6) 0 0)). calc.
Qed.
(** *** address_exclude *)
Lemma any_partition sp v n o code : wf_net v n -> wf_net v o -> subset v o n -> n_prefix n < n_prefix o -> (v = V4 -> ~ is_one v o) ->
  exists s l, any_exclude_code sp (mk_an v n) (mk_an v o) code = Ret (s, no_error) /\
    aexclude_walk sp (Z.to_nat (n_prefix o - n_prefix n)) (ae_begin s) (ae_end s) = Ret (map (mk_an v) l) /\
    Z.of_nat (length l) = n_prefix o - n_prefix n /\
    (forall i, (i < length l)%nat -> exists m, nth_error l i = Some m /\ wf_net v m /\ n_prefix m = n_prefix n + 1 + Z.of_nat i /\ disjoint v m o) /\
    (forall i j a b, (i < j)%nat -> nth_error l i = Some a -> nth_error l j = Some b -> disjoint v a b) /\
    (forall x, in_net v n x <-> in_net v o x \/ exists m, In m l /\ in_net v m x).
Proof.
  intros Wn Wo Hs Hp H1. destruct (any_exclude_list sp v n o code Wn Wo Hs Hp H1) as (s & l & E & Ew & Len & Li & _). exists s, l. split; [exact E|]. split; [exact Ew|]. split; [exact Len|].
  split; [|split].
  - intros i Hi. destruct (Li i Hi) as (m & Em & Wm & _ & Pm & D & _). exists m. auto.
  - intros i j a b Hij Ha Hb. exact (listed_disjoint v n o l i j a b Wn Wo Li Len Hij Ha Hb).
  - intros x. exact (listed_cover v n o l x Wn Wo Hs Li Len).
Qed.
Lemma partition_v6 sp n o code : wf_net V6 n -> wf_net V6 o -> subset V6 o n -> n_prefix n < n_prefix o ->
  exists s l, any_exclude_code sp (mk_an V6 n) (mk_an V6 o) code = Ret (s, no_error) /\
    aexclude_walk sp (Z.to_nat (n_prefix o - n_prefix n)) (ae_begin s) (ae_end s) = Ret (map (mk_an V6) l) /\
    Z.of_nat (length l) = n_prefix o - n_prefix n /\
    (forall i, (i < length l)%nat -> exists m, nth_error l i = Some m /\ wf_net V6 m /\ n_prefix m = n_prefix n + 1 + Z.of_nat i /\ disjoint V6 m o) /\
    (forall i j a b, (i < j)%nat -> nth_error l i = Some a -> nth_error l j = Some b -> disjoint V6 a b) /\
    (forall x, in_net V6 n x <-> in_net V6 o x \/ exists m, In m l /\ in_net V6 m x).
Proof. intros Wn Wo Hs Hp. apply (any_partition sp V6 n o code Wn Wo Hs Hp). discriminate. Qed.
Lemma mirror_bad : exists n o s s', wf_net V6 n /\ wf_net V6 o /\ address_exclude true V6 n o = Ret s /\ any_exclude true (mk_an V6 n) (mk_an V6 o) = Ret s' /\
  exclude_walk true V6 1 (e_begin s) (e_end s) = Ret [] /\ aexclude_walk true 1 (ae_begin s') (ae_end s') = Ret [mk_an V6 (net_at V6 "::/128")].
Proof. exists (net_at V6 "::/127"), (net_at V6 "::1/128"). eexists _, _. split; [wfn|]. split; [wfn|]. calc. Qed.
Lemma any_one_bad : exists n o s, wf_net V4 n /\ wf_net V4 o /\ subset V4 o n /\ n_prefix o = n_prefix n + 1 /\
  any_exclude true (mk_an V4 n) (mk_an V4 o) = Ret s /\ aexclude_walk true 1 (ae_begin s) (ae_end s) = Ret [].
Proof.
  exists (net_at V4 "0.0.0.0/31"), (net_at V4 "0.0.0.1/32"). eexists. split; [wfn|]. split; [wfn|]. split; [|calc].
  intros x. unfold in_net. change (first (net_at V4 "0.0.0.0/31")) with 0. change (first (net_at V4 "0.0.0.1/32")) with 1. change (size V4 (net_at V4 "0.0.0.0/31")) with 2. change (size V4 (net_at V4 "0.0.0.1/32")) with 1. lia.
Qed.
Lemma any_exclude_versions sp x y code : an_ver x <> an_ver y -> any_exclude_code sp x y code = Ret (aexclude_default, invalid_version) /\ any_exclude sp x y = Err invalid_version 0.
Proof. destruct x as [[|] n], y as [[|] m]; cbn [an_ver]; intros H; try congruence; split; reflexivity. Qed.
Lemma any_bytes v src count : 0 <= count <= zlen src ->
  any_from_bytes src count v = Ret (mk_aa v (mk_addr (firstn (nbytes v) (firstn (Z.to_nat count) src ++ repeat 0 (nbytes v))) [])).
Proof. intros H. unfold any_from_bytes. destruct v; cbn [ver_eqb ver_num Z.eqb Pos.eqb]; rewrite from_bytes_ok by exact H; reflexivity. Qed.
