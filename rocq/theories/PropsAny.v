(** Property theorems C49 and C50: version-erased addresses, networks and
    sequences.  [mk_aa v a] and [mk_an v n] are the version-erased forms of the
    address [a] and the network [n] of version [v]. *)
From Coq Require Import String.
From Verif Require Import Base UnicodeModel FixedStringModel V4Model V6Model Uint128Model SpecInt SpecStr SpecV4 SpecV6 SpecAddr SpecOrder AddressModel NetworkModel IterModel ClassifyModel
  SpecNet SpecIter NetText NetWitness IterLemmas AnyModel SpecAny AnyProofs AnyIter AnyLemmas.

(** ** C49: addresses and networks *)
(** No text is an IPv4 and an IPv6 address. *)
Theorem C49_disjoint : forall ts a b, addr_parse V4 ts = Ret a -> addr_parse V6 ts <> Ret b.
Proof. exact addr_disjoint. Qed.
Print Assumptions C49_disjoint.
(** Nor an IPv4 and an IPv6 network, whatever the strictness. *)
Theorem C49_networks_disjoint : forall ts st st' a b, net_parse_res V4 ts st = Ret a -> net_parse_res V6 ts st' <> Ret b.
Proof. exact net_res_disjoint. Qed.
Print Assumptions C49_networks_disjoint.
(** parse: the result of the parser that accepts; the error is that of the IPv6 parser. *)
Theorem C49_parse : forall ts, Forall tok_genuine ts ->
  (forall a, any_parse ts = Ret (mk_aa V4 a) <-> addr_parse V4 ts = Ret a) /\
  (forall a, any_parse ts = Ret (mk_aa V6 a) <-> addr_parse V6 ts = Ret a) /\
  (forall e x, any_parse ts = Err e x <-> addr_parse V6 ts = Err e x /\ exists e' x', addr_parse V4 ts = Err e' x') /\
  is_defined (any_parse ts).
Proof. exact any_parse_spec. Qed.
Print Assumptions C49_parse.
Theorem C49_parse_code : forall ts code, Forall tok_genuine ts ->
  any_parse_code ts code = match any_parse ts with Ret x => Ret (x, no_error) | Err e _ => Ret (aa_default, e) | UB u => UB u end.
Proof. exact any_parse_code_spec. Qed.
Print Assumptions C49_parse_code.
(** The language of ip_address::parse. *)
Theorem C49_language : forall s x, no_nul s -> (any_parse (chars s) = Ret x <-> any_text s x).
Proof. exact any_language. Qed.
Print Assumptions C49_language.
(** ip_network::parse; the undefined behaviour is that of the IPv4 parser (mask 0.0.0.0, C26). *)
Theorem C49_network_parse : forall ts st, Forall tok_genuine ts -> Forall tok_char ts ->
  (forall n, anet_parse ts st = Ret (mk_an V4 n) <-> net_parse V4 ts st = Ret n) /\
  (forall n, anet_parse ts st = Ret (mk_an V6 n) <-> net_parse V6 ts st = Ret n) /\
  (forall e x, anet_parse ts st = Err e x <-> net_parse V6 ts st = Err e x /\ exists e' x', net_parse V4 ts st = Err e' x') /\
  (forall u, anet_parse ts st = UB u <-> net_parse V4 ts st = UB u).
Proof. exact anet_parse_spec. Qed.
Print Assumptions C49_network_parse.
Theorem C49_network_parse_code : forall ts code st, Forall tok_genuine ts ->
  anet_parse_code ts code st = match anet_parse ts st with Ret x => Ret (x, no_error) | Err e _ => Ret (an_default, e) | UB u => UB u end.
Proof. exact anet_parse_code_spec. Qed.
Print Assumptions C49_network_parse_code.
Theorem C49_round_trip : forall x fmt, wf_any x -> exists s, any_to_string x fmt = Ret s /\ any_parse (chars s) = Ret x.
Proof. exact any_round_trip. Qed.
Print Assumptions C49_round_trip.
Example C49_parse_ex : any_parse (chars (str "192.0.2.1")) = Ret (mk_aa V4 (addr_at V4 "192.0.2.1")) /\
  addr_at V4 "192.0.2.1" = mk_addr [192; 0; 2; 1] [] /\
  any_parse (chars (str "2001:db8::1%eth0")) = Ret (mk_aa V6 (mk_addr [32; 1; 13; 184; 0; 0; 0; 0; 0; 0; 0; 0; 0; 0; 0; 1] (str "eth0"))) /\
  any_parse (chars (str "1.2.3.4%a")) = Err least_3_parts 2 /\
  anet_parse (chars (str "10.0.0.0/8")) true = Ret (mk_an V4 (net_at V4 "10.0.0.0/8")) /\
  anet_parse (chars (str "2001:db8::/32")) true = Ret (mk_an V6 (net_at V6 "2001:db8::/32")).
Proof. calc. Qed.
(** Every query is the query of the underlying address. *)
Theorem C49_address_queries : forall v a is64 fmt, let x := mk_aa v a in
  any_is_multicast x = is_multicast v a /\ any_is_private x = is_private v a /\ any_is_global x = is_global v a /\ any_is_reserved x = is_reserved v a /\
  any_is_loopback x = is_loopback v a /\ any_is_link_local x = is_link_local v a /\ any_is_unspecified x = is_unspecified a /\
  any_is_site_local x = (match v with V4 => false | V6 => v6_is_site_local a end) /\
  any_size x = Z.of_nat (nbytes v) /\ any_hash is64 x = addr_hash is64 v a /\ any_to_string x fmt = addr_to_string v a fmt /\
  any_reverse_pointer x = (match v with V4 => v4_reverse_pointer true (a_bytes a) | V6 => v6_reverse_pointer (a_bytes a) end) /\
  any_ipv4_mapped x = (match v with V4 => Ret None | V6 => v6_ipv4_mapped (a_bytes a) end) /\
  any_sixtofour x = (match v with V4 => Ret None | V6 => v6_sixtofour (a_bytes a) end) /\
  any_teredo x = (match v with V4 => Ret None | V6 => v6_teredo (a_bytes a) end) /\
  any_scope x = (match v with V4 => [] | V6 => a_scope a end) /\
  aa_v4 x = (match v with V4 => Some a | V6 => None end) /\ aa_v6 x = (match v with V4 => None | V6 => Some a end).
Proof. exact address_queries. Qed.
Print Assumptions C49_address_queries.
(** The integer forms: the number of the address, cut to 32 bits by to_uint32. *)
Theorem C55_any : forall v src count, 0 <= count <= zlen src ->
  any_from_bytes src count v = Ret (mk_aa v (mk_addr (firstn (nbytes v) (firstn (Z.to_nat count) src ++ repeat 0 (nbytes v))) [])).
Proof. exact any_bytes. Qed.
Print Assumptions C55_any.
Example C55_any_ex : any_from_bytes [1; 2; 3] 2 V4 = Ret (mk_aa V4 (mk_addr [1; 2; 0; 0] [])).
Proof. reflexivity. Qed.
Theorem C49_to_uint32 : forall x, wf_any x -> any_to_uint32 x = Ret (val (aa_addr x) mod 2 ^ 32).
Proof. exact any_uint32. Qed.
Print Assumptions C49_to_uint32.
Theorem C49_to_uint128 : forall x, wf_any x -> any_to_uint128 x = Ret (val (aa_addr x)).
Proof. exact any_uint128. Qed.
Print Assumptions C49_to_uint128.
Theorem C49_network_queries : forall v n is64 fmt, let x := mk_an v n in
  anet_prefixlen x = n_prefix n /\ anet_address x = mk_aa v (n_addr n) /\ anet_broadcast x = mk_aa v (broadcast n) /\ anet_netmask x = mk_aa v (n_mask n) /\ anet_hostmask x = mk_aa v (hostmask n) /\
  anet_is_multicast x = net_is_multicast v n /\ anet_is_private x = net_is_private v n /\ anet_is_global x = net_is_global v n /\ anet_is_reserved x = net_is_reserved v n /\
  anet_is_loopback x = net_is_loopback v n /\ anet_is_link_local x = net_is_link_local v n /\ anet_is_unspecified x = net_is_unspecified n /\
  anet_is_site_local x = (match v with V4 => false | V6 => v6_net_is_site_local n end) /\
  anet_hash is64 x = net_hash is64 v n /\ anet_count x = addresses_count v n /\ anet_to_string x fmt = net_to_string v n fmt.
Proof. exact network_queries. Qed.
Print Assumptions C49_network_queries.
(** from_address and supernet, throwing and with an error code. *)
Theorem C49_makers : forall v n a code p strict d np, anet_from_address (mk_aa v a) p strict = rmap (mk_an v) (from_address v a p strict) /\
  anet_from_address_code (mk_aa v a) code p strict = rmap (fun r => (mk_an v (fst r), snd r)) (from_address_code v a code p strict) /\
  anet_supernet (mk_an v n) d np = rmap (mk_an v) (supernet v n d np) /\
  anet_supernet_code (mk_an v n) code d np = rmap (fun r => (mk_an v (fst r), snd r)) (supernet_code v n code d np).
Proof. exact network_makers. Qed.
Print Assumptions C49_makers.
(** Different versions are never equal. *)
Theorem C49_equal : forall x y, wf_any x -> wf_any y -> exists r, any_eqb x y = Ret r /\ (r = true <-> x = y).
Proof. exact any_eqb_ok. Qed.
Print Assumptions C49_equal.
(** IPv4 orders before IPv6. *)
Theorem C49_three_way : forall x y, wf_any x -> wf_any y ->
  exists c, any_cmp x y = Ret c /\ match c with Eq => x = y | Lt => any_before x y | Gt => any_before y x end.
Proof. exact any_cmp_ok. Qed.
Print Assumptions C49_three_way.
Theorem C49_irreflexive : forall x, ~ any_before x x.
Proof. exact any_irrefl. Qed.
Print Assumptions C49_irreflexive.
Theorem C49_transitive : forall x y z, any_before x y -> any_before y z -> any_before x z.
Proof. exact any_trans. Qed.
Print Assumptions C49_transitive.
Theorem C49_total : forall x y, wf_any x -> wf_any y -> any_before x y \/ x = y \/ any_before y x.
Proof. exact any_total. Qed.
Print Assumptions C49_total.
(** The operators derived from <=>. *)
Theorem C49_operators : forall x y, wf_any x -> wf_any y ->
  exists lt gt le ge, any_lt true x y = Ret lt /\ any_gt true x y = Ret gt /\ any_le true x y = Ret le /\ any_ge true x y = Ret ge /\
    (lt = true <-> any_before x y) /\ (gt = true <-> any_before y x) /\
    (le = true <-> any_before x y \/ x = y) /\ (ge = true <-> any_before y x \/ x = y).
Proof. exact any_ops20. Qed.
Print Assumptions C49_operators.
(** Those written out for older standards, for equal scope ids (they ignore the scope id, see C15). *)
Theorem C49_older_operators_partial : forall x y, wf_any x -> wf_any y -> a_scope (aa_addr x) = a_scope (aa_addr y) ->
  any_lt false x y = any_lt true x y /\ any_gt false x y = any_gt true x y /\
  any_le false x y = any_le true x y /\ any_ge false x y = any_ge true x y.
Proof. exact any_ops17. Qed.
Print Assumptions C49_older_operators_partial.
Theorem C49_hash : forall is64 x y, wf_any x -> wf_any y -> any_eqb x y = Ret true -> any_hash is64 x = any_hash is64 y.
Proof. exact hash_same. Qed.
Print Assumptions C49_hash.
(** ** C16: hashes of version-erased objects *)
Theorem C16_any_address : forall is64 x y, wf_any x -> wf_any y -> any_eqb x y = Ret true -> exists h, any_hash is64 x = Ret h /\ any_hash is64 y = Ret h.
Proof. exact any_hash_eq. Qed.
Print Assumptions C16_any_address.
Theorem C16_any_network : forall is64 x y, wf_anet x -> wf_anet y -> anet_eqb x y = Ret true -> exists h, anet_hash is64 x = Ret h /\ anet_hash is64 y = Ret h.
Proof. exact anet_hash_eq. Qed.
Print Assumptions C16_any_network.
Example C16_any_ex : let x := mk_an V6 (net_at V6 "fe80::%a/64") in let y := mk_an V6 (net_at V6 "fe80:0::%a/64") in
  wf_anet x /\ anet_eqb x y = Ret true /\ anet_hash true x <> anet_hash true (mk_an V6 (net_at V6 "fe80::%a/65")) /\
  let a := mk_aa V4 (addr_at V4 "10.0.0.1") in wf_any a /\ any_eqb a a = Ret true /\ any_hash false a <> any_hash false (mk_aa V4 (addr_at V4 "10.0.0.2")).
Proof.
  cbv zeta. split; [apply net_at_wf; vm_compute; reflexivity|]. split; [vm_compute; reflexivity|]. split; [vm_compute; discriminate|].
  split; [apply addr_at_wf; vm_compute; reflexivity|]. split; [vm_compute; reflexivity|]. vm_compute; discriminate.
Qed.
Theorem C49_swap : forall x y, any_swap x y = (y, x).
Proof. exact swap_any. Qed.
Print Assumptions C49_swap.
Theorem C49_network_equal : forall x y, wf_anet x -> wf_anet y -> exists r, anet_eqb x y = Ret r /\ (r = true <-> x = y).
Proof. exact anet_eqb_ok. Qed.
Print Assumptions C49_network_equal.
Theorem C49_network_three_way : forall x y, wf_anet x -> wf_anet y ->
  exists c, anet_cmp x y = Ret c /\ match c with Eq => x = y | Lt => anet_before x y | Gt => anet_before y x end.
Proof. exact anet_cmp_ok. Qed.
Print Assumptions C49_network_three_way.
(** The < of older standards, for equal scope ids. *)
Theorem C49_network_less_partial : forall x y, wf_anet x -> wf_anet y -> a_scope (n_addr (an_net x)) = a_scope (n_addr (an_net y)) ->
  exists r, anet_ltb x y = Ret r /\ (r = true <-> anet_before x y).
Proof. exact anet_ltb_ok. Qed.
Print Assumptions C49_network_less_partial.
(** Membership: never across versions. *)
Theorem C49_contains : forall x a, wf_anet x -> wf_any a -> (anet_contains x a = true <-> any_member x a).
Proof. exact anet_contains_ok. Qed.
Print Assumptions C49_contains.
Theorem C49_overlaps : forall x y, wf_anet x -> wf_anet y -> (anet_overlaps x y = true <-> exists a, wf_any a /\ any_member x a /\ any_member y a).
Proof. exact anet_overlaps_ok. Qed.
Print Assumptions C49_overlaps.
(** For networks without scope id, as C23. *)
Theorem C49_subnet_partial : forall sp x y, wf_anet x -> wf_anet y -> unscoped (an_net x) -> unscoped (an_net y) ->
  exists r, anet_subnet_of sp x y = Ret r /\ anet_supernet_of sp y x = Ret r /\ (r = true <-> forall a, any_member x a -> any_member y a).
Proof. exact anet_subnet_ok. Qed.
Print Assumptions C49_subnet_partial.
Example C49_ex : wf_any (mk_aa V4 (addr_at V4 "255.255.255.255")) /\ wf_any (mk_aa V6 (addr_at V6 "::1")) /\
  any_cmp (mk_aa V4 (addr_at V4 "255.255.255.255")) (mk_aa V6 (addr_at V6 "::1")) = Ret Lt /\
  any_eqb (mk_aa V4 (addr_at V4 "0.0.0.1")) (mk_aa V6 (addr_at V6 "::1")) = Ret false /\
  any_to_uint32 (mk_aa V6 (addr_at V6 "1::2:3")) = Ret 131075 /\
  anet_contains (mk_an V6 (net_at V6 "::/0")) (mk_aa V4 (addr_at V4 "10.0.0.1")) = false /\
  anet_contains (mk_an V4 (net_at V4 "10.0.0.0/8")) (mk_aa V4 (addr_at V4 "10.0.0.1")) = true /\
  anet_subnet_of true (mk_an V4 (net_at V4 "10.1.0.0/16")) (mk_an V4 (net_at V4 "10.0.0.0/8")) = Ret true.
Proof. split; [apply addr_at_wf; reflexivity|]. split; [apply addr_at_wf; reflexivity|]. calc. Qed.

(** ** C50: sequences *)
(** hosts(): the loop, the reverse loop, size, at, front, back, empty.  at() reads the lower 32 bits of its argument for IPv4. *)
Theorem C50_hosts : forall sp v n s, hosts sp v n = Ret s -> exists s', any_hosts sp (mk_an v n) = Ret s' /\
  (forall k, aseq_walk host_ops k (q_begin s') (q_end s') = rmap (map (mk_aa v)) (hosts_walk v k (h_begin s) (h_end s))) /\
  (forall rb re, hosts_rbegin v s = Ret rb -> hosts_rend v s = Ret re -> exists rb' re', aseq_rbegin host_ops s' = Ret rb' /\ aseq_rend host_ops s' = Ret re' /\
     forall k, aseq_rwalk host_ops k rb' re' = rmap (map (mk_aa v)) (hosts_rwalk v k rb re)) /\
  aseq_size host_ops s' = Ret (hosts_size v s) /\
  (forall i, 0 <= i < 2 ^ 128 -> aseq_at host_ops s' i = rmap (mk_aa v) (hosts_at v s (i mod 2 ^ width v))) /\
  aseq_front s' = mk_aa v (hosts_front s) /\ aseq_back host_ops s' = rmap (mk_aa v) (hosts_back v s) /\
  aseq_empty host_ops s' = hosts_empty v s.
Proof. exact any_hosts_mirror. Qed.
Print Assumptions C50_hosts.
Theorem C50_hosts_fail : forall sp v n, (forall e x, hosts sp v n = Err e x -> any_hosts sp (mk_an v n) = Err e x) /\ (forall u, hosts sp v n = UB u -> any_hosts sp (mk_an v n) = UB u).
Proof. exact hosts_fail. Qed.
Print Assumptions C50_hosts_fail.
Theorem C50_subnets : forall sp v n d np s, subnets sp v n d np = Ret s -> exists s', any_subnets sp (mk_an v n) d np = Ret s' /\
  (forall k, aseq_walk net_ops k (q_begin s') (q_end s') = rmap (map (mk_an v)) (subnets_walk v k (s_begin s) (s_end s))) /\
  (forall rb re, subnets_rbegin v s = Ret rb -> subnets_rend v s = Ret re -> exists rb' re', aseq_rbegin net_ops s' = Ret rb' /\ aseq_rend net_ops s' = Ret re' /\
     forall k, aseq_rwalk net_ops k rb' re' = rmap (map (mk_an v)) (subnets_rwalk v k rb re)) /\
  (forall i, 0 <= i < 2 ^ 128 -> aseq_at net_ops s' i = rmap (mk_an v) (subnets_at v s (i mod 2 ^ width v))) /\
  aseq_front s' = mk_an v (subnets_front s) /\ aseq_back net_ops s' = rmap (mk_an v) (subnets_back v s) /\
  aseq_empty net_ops s' = subnets_empty v s.
Proof. exact any_subnets_mirror. Qed.
Print Assumptions C50_subnets.
Theorem C50_subnets_fail : forall sp v n d np, (forall e x, subnets sp v n d np = Err e x -> any_subnets sp (mk_an v n) d np = Err e x) /\ (forall u, subnets sp v n d np = UB u -> any_subnets sp (mk_an v n) d np = UB u).
Proof. exact subnets_fail. Qed.
Print Assumptions C50_subnets_fail.
(** size() is the distance of the ends: right unless the network is the whole space. *)
Theorem C50_subnets_size_partial : forall sp v n d np q s s', wf_net v n -> args_ok d np -> asked v n d np q -> defined v n q -> 0 < n_prefix n -> subnets sp v n d np = Ret s -> any_subnets sp (mk_an v n) d np = Ret s' ->
  aseq_size net_ops s' = Ret (s_size s).
Proof. exact subnets_size. Qed.
Print Assumptions C50_subnets_size_partial.
(** Of the whole space it is 0 whatever is listed. *)
Theorem C50_subnets_size_zero : forall sp v n d np q s, wf_net v n -> args_ok d np -> asked v n d np q -> defined v n q -> 0 < q -> n_prefix n = 0 -> any_subnets sp (mk_an v n) d np = Ret s -> aseq_size net_ops s = Ret 0.
Proof. exact subnets_size_zero. Qed.
Print Assumptions C50_subnets_size_zero.
Theorem C50_subnets_size_refuted : exists v n d s s', wf_net v n /\ subnets true v n d None = Ret s /\ any_subnets true (mk_an v n) d None = Ret s' /\ s_size s = 4 /\ aseq_size net_ops s' = Ret 0 /\
  aseq_walk net_ops 4 (q_begin s') (q_end s') = Ret (map (fun t => mk_an v (net_at v t)) ["0.0.0.0/2"; "64.0.0.0/2"; "128.0.0.0/2"; "192.0.0.0/2"])%string.
Proof. exact subnets_size_bad. Qed.
Print Assumptions C50_subnets_size_refuted.
(** After an error the versioned sequence has size 0 and the version-erased one divides by the step 0. *)
Theorem C50_subnets_error_refuted : exists v n d s code s', wf_net v n /\ subnets_code true v n no_error d None = Ret (s, code) /\ s_size s = 0 /\
  any_subnets_code true (mk_an v n) no_error d None = Ret (s', code) /\ code = invalid_prefixlen_diff /\ aseq_size net_ops s' = UB DivByZero.
Proof. exact subnets_error_size. Qed.
Print Assumptions C50_subnets_error_refuted.
(** Iterators of the same version. *)
Theorem C50_host_iterators : forall v a b n, is_i64 n -> let mk := aiter_make host_ops v in
  aiter_plus host_ops (mk a) n = rmap mk (ait_plus v a n) /\ aiter_minus host_ops (mk a) n = rmap mk (ait_minus v a n) /\ aiter_index host_ops (mk a) n = rmap (mk_aa v) (ait_index v a n) /\
  aiter_diff host_ops (mk a) (mk b) = ait_diff v a b /\ aiter_eqb host_ops (mk a) (mk b) = ait_eqb v a b /\ aiter_cmp host_ops (mk a) (mk b) = ait_cmp v a b /\ aiter_ltb host_ops (mk a) (mk b) = ait_ltb v a b /\
  ai_cur (mk a) = mk_aa v (it_current a).
Proof. exact host_mirror. Qed.
Print Assumptions C50_host_iterators.
Theorem C50_subnet_iterators : forall v a b n, is_i64 n -> let mk := aiter_make net_ops v in
  aiter_plus net_ops (mk a) n = rmap mk (nit_plus v a n) /\ aiter_minus net_ops (mk a) n = rmap mk (nit_minus v a n) /\ aiter_index net_ops (mk a) n = rmap (mk_an v) (nit_index v a n) /\
  aiter_diff net_ops (mk a) (mk b) = nit_diff v a b /\ aiter_eqb net_ops (mk a) (mk b) = nit_eqb v a b /\ aiter_cmp net_ops (mk a) (mk b) = nit_cmp v a b /\ aiter_ltb net_ops (mk a) (mk b) = nit_ltb v a b /\
  ai_cur (mk a) = mk_an v (ni_current a).
Proof. exact subnet_mirror. Qed.
Print Assumptions C50_subnet_iterators.
(** Iterators of different versions: <=> orders by version, the < of older standards does not. *)
Theorem C50_iterator_less_refuted : exists a b, aiter_cmp host_ops a b = Ret Lt /\ aiter_ltb host_ops a b = Ret false /\ aiter_ltb host_ops b a = Ret false.
Proof. exact iter_lt_bad. Qed.
Print Assumptions C50_iterator_less_refuted.
(** address_exclude(): the same elements or the same error. *)
Theorem C50_exclude_partial : forall sp v n o, wf_net v n -> wf_net v o -> ~ is_one v o ->
  match address_exclude sp v n o with
  | Ret s => exists s', any_exclude sp (mk_an v n) (mk_an v o) = Ret s' /\ forall k, aexclude_walk sp k (ae_begin s') (ae_end s') = rmap (map (mk_an v)) (exclude_walk sp v k (e_begin s) (e_end s))
  | Err e x => any_exclude sp (mk_an v n) (mk_an v o) = Err e x
  | UB u => False
  end.
Proof. exact any_exclude_mirror. Qed.
Print Assumptions C50_exclude_partial.
(** IPv6: a partition for every network, as the end of the loop is an IPv4 network. *)
Theorem C50_exclude_partition_v6 : forall sp n o code, wf_net V6 n -> wf_net V6 o -> subset V6 o n -> n_prefix n < n_prefix o ->
  exists s l, any_exclude_code sp (mk_an V6 n) (mk_an V6 o) code = Ret (s, no_error) /\
    aexclude_walk sp (Z.to_nat (n_prefix o - n_prefix n)) (ae_begin s) (ae_end s) = Ret (map (mk_an V6) l) /\
    Z.of_nat (length l) = n_prefix o - n_prefix n /\
    (forall i, (i < length l)%nat -> exists m, nth_error l i = Some m /\ wf_net V6 m /\ n_prefix m = n_prefix n + 1 + Z.of_nat i /\ disjoint V6 m o) /\
    (forall i j a b, (i < j)%nat -> nth_error l i = Some a -> nth_error l j = Some b -> disjoint V6 a b) /\
    (forall x, in_net V6 n x <-> in_net V6 o x \/ exists m, In m l /\ in_net V6 m x).
Proof. exact partition_v6. Qed.
Print Assumptions C50_exclude_partition_v6.
(** Both versions; 0.0.0.1/32 is missing. *)
Theorem C50_exclude_partition_partial : forall sp v n o code, wf_net v n -> wf_net v o -> subset v o n -> n_prefix n < n_prefix o -> (v = V4 -> ~ is_one v o) ->
  exists s l, any_exclude_code sp (mk_an v n) (mk_an v o) code = Ret (s, no_error) /\
    aexclude_walk sp (Z.to_nat (n_prefix o - n_prefix n)) (ae_begin s) (ae_end s) = Ret (map (mk_an v) l) /\
    Z.of_nat (length l) = n_prefix o - n_prefix n /\
    (forall i, (i < length l)%nat -> exists m, nth_error l i = Some m /\ wf_net v m /\ n_prefix m = n_prefix n + 1 + Z.of_nat i /\ disjoint v m o) /\
    (forall i j a b, (i < j)%nat -> nth_error l i = Some a -> nth_error l j = Some b -> disjoint v a b) /\
    (forall x, in_net v n x <-> in_net v o x \/ exists m, In m l /\ in_net v m x).
Proof. exact any_partition. Qed.
Print Assumptions C50_exclude_partition_partial.
Theorem C50_exclude_not_contained : forall sp v n o code, wf_net v n -> wf_net v o -> ~ subset v o n -> any_exclude_code sp (mk_an v n) (mk_an v o) code = Ret (aexclude_default, not_contained_network).
Proof. exact any_exclude_not. Qed.
Print Assumptions C50_exclude_not_contained.
Theorem C50_exclude_equal : forall sp v n o code, wf_net v n -> wf_net v o -> subset v o n -> n_prefix n = n_prefix o -> any_exclude_code sp (mk_an v n) (mk_an v o) code = Ret (aexclude_default, no_error).
Proof. exact any_exclude_same. Qed.
Print Assumptions C50_exclude_equal.
(** Networks of different versions. *)
Theorem C50_exclude_versions : forall sp x y code, an_ver x <> an_ver y -> any_exclude_code sp x y code = Ret (aexclude_default, invalid_version) /\ any_exclude sp x y = Err invalid_version 0.
Proof. exact any_exclude_versions. Qed.
Print Assumptions C50_exclude_versions.
(** Excluding ::1/128 from ::/127 lists ::/128 here and nothing in the versioned network. *)
Theorem C50_exclude_mirror_refuted : exists n o s s', wf_net V6 n /\ wf_net V6 o /\ address_exclude true V6 n o = Ret s /\ any_exclude true (mk_an V6 n) (mk_an V6 o) = Ret s' /\
  exclude_walk true V6 1 (e_begin s) (e_end s) = Ret [] /\ aexclude_walk true 1 (ae_begin s') (ae_end s') = Ret [mk_an V6 (net_at V6 "::/128")].
Proof. exact mirror_bad. Qed.
Print Assumptions C50_exclude_mirror_refuted.
Theorem C50_exclude_partition_refuted : exists n o s, wf_net V4 n /\ wf_net V4 o /\ subset V4 o n /\ n_prefix o = n_prefix n + 1 /\
  any_exclude true (mk_an V4 n) (mk_an V4 o) = Ret s /\ aexclude_walk true 1 (ae_begin s) (ae_end s) = Ret [].
Proof. exact any_one_bad. Qed.
Print Assumptions C50_exclude_partition_refuted.
Example C50_ex : exists s, any_hosts true (mk_an V4 (net_at V4 "192.0.2.0/30")) = Ret s /\
  aseq_walk host_ops 2 (q_begin s) (q_end s) = Ret [mk_aa V4 (addr_at V4 "192.0.2.1"); mk_aa V4 (addr_at V4 "192.0.2.2")] /\ aseq_size host_ops s = Ret 2.
Proof. calc. Qed.
Example C50_subnets_ex : exists s, any_subnets true (mk_an V6 (net_at V6 "2001:db8::/32")) 1 None = Ret s /\
  aseq_walk net_ops 2 (q_begin s) (q_end s) = Ret [mk_an V6 (net_at V6 "2001:db8::/33"); mk_an V6 (net_at V6 "2001:db8:8000::/33")] /\ aseq_size net_ops s = Ret 2.
Proof. calc. Qed.
Example C50_exclude_ex : exists s, any_exclude true (mk_an V6 (net_at V6 "::/125")) (mk_an V6 (net_at V6 "::1/128")) = Ret s /\
  aexclude_walk true 3 (ae_begin s) (ae_end s) = Ret (map (fun t => mk_an V6 (net_at V6 t)) ["::4/126"; "::2/127"; "::/128"])%string /\
  any_exclude true (mk_an V6 (net_at V6 "::/125")) (mk_an V4 (net_at V4 "10.0.0.0/8")) = Err invalid_version 0.
Proof. calc. Qed.
