(** Property theorems C93: the version-erased classes on big-endian hosts.
    AnyHostModel: the functions of AnyModel that go through integers, with [le] =
    is_little_endian().  SpecAnyEndian: [mirror_any], [mirror_anet] read the bytes
    of an integer from the other end; [rloop] is a loop from rbegin() to rend(). *)
From Coq Require Import String.
From Verif Require Import Base SpecText SpecAddr SpecV4 V4Model V6Model AddressModel SpecOrder NetworkModel SpecNet IterModel SpecAny NetWitness
  AnyModel HostModel SpecEndian AnyHostModel SpecAnyEndian AnyEndianProofs AnyEndianProofs2 EndianProofs10 AnyEndianProofs3.
Open Scope string_scope.
Open Scope Z_scope.
Open Scope list_scope.

(** On a little-endian host the functions are those of AnyModel. *)
Theorem C93_little : (forall ts, any_parse_h true ts = any_parse ts) /\ (forall ts c, any_parse_code_h true ts c = any_parse_code ts c) /\
  (forall x, any_to_uint32_h true x = any_to_uint32 x) /\ (forall x, any_to_uint128_h true x = any_to_uint128 x) /\
  (forall ts s, anet_parse_h true ts s = anet_parse ts s) /\ (forall ts c s, anet_parse_code_h true ts c s = anet_parse_code ts c s) /\
  (forall x, anet_count_h true x = anet_count x) /\ (forall a p s, anet_from_address_h true a p s = anet_from_address a p s) /\
  (forall x d np, anet_supernet_h true x d np = anet_supernet x d np) /\ (forall sp x, any_hosts_h true sp x = any_hosts sp x) /\
  (forall sp x d np, any_subnets_h true sp x d np = any_subnets sp x d np).
Proof. exact any_little. Qed.
Print Assumptions C93_little.
Theorem C93_iterators_little : (forall a n, aiter_add (host_ops_h true) a n = aiter_add host_ops a n) /\ (forall a n, aiter_sub (host_ops_h true) a n = aiter_sub host_ops a n) /\
  (forall a n, aiter_at (host_ops_h true) a n = aiter_at host_ops a n) /\ (forall a, aiter_base (host_ops_h true) a = aiter_base host_ops a) /\
  (forall a, aiter_reverse (host_ops_h true) a = aiter_reverse host_ops a) /\
  (forall a n, aiter_add (net_ops_h true) a n = aiter_add net_ops a n) /\ (forall a n, aiter_sub (net_ops_h true) a n = aiter_sub net_ops a n) /\
  (forall a n, aiter_at (net_ops_h true) a n = aiter_at net_ops a n) /\ (forall a, aiter_base (net_ops_h true) a = aiter_base net_ops a) /\
  (forall a, aiter_reverse (net_ops_h true) a = aiter_reverse net_ops a).
Proof. exact any_iterators_little. Qed.
Print Assumptions C93_iterators_little.
Theorem C93_exclude_little : (forall sp x y c, any_exclude_code_h true sp x y c = any_exclude_code sp x y c) /\ (forall sp x y, any_exclude_h true sp x y = any_exclude sp x y) /\
  forall sp k a b, aexclude_walk_h true sp k a b = aexclude_walk sp k a b.
Proof. exact any_exclude_little. Qed.
Print Assumptions C93_exclude_little.
(** On a big-endian host addresses are read alike unless they end in a dotted quad after a colon, ... *)
Theorem C93_text : forall ts, (forall s, ts = chars s -> ~ dotted_tail s) -> any_parse_h false ts = any_parse ts /\ forall c, any_parse_code_h false ts c = any_parse_code ts c.
Proof. exact any_big_text. Qed.
Print Assumptions C93_text.
(** ... which is read backwards. *)
Theorem C93_text_dotted : forall s, dotted_tail s -> any_parse_h false (chars s) = rmap reversed_any (any_parse (chars s)) /\
  forall c, any_parse_code_h false (chars s) c = rmap (fun r => (if ec_eqb (snd r) no_error then reversed_any (fst r) else fst r, snd r)) (any_parse_code (chars s) c).
Proof. exact any_big_dotted. Qed.
Print Assumptions C93_text_dotted.
Example C93_text_ex : any_parse_h false (chars (str "::ffff:1.2.3.4")) = Ret (mk_aa V6 (addr_at V6 "::ffff:4.3.2.1")) /\
  any_parse_h false (chars (str "1.2.3.4")) = Ret (mk_aa V4 (addr_at V4 "1.2.3.4")) /\ dotted_tail (str "::ffff:1.2.3.4") /\
  any_parse_code_h false (chars (str "::ffff:1.2.3.400")) no_error = any_parse_code (chars (str "::ffff:1.2.3.400")) no_error.
Proof.
  split; [vm_compute; reflexivity|]. split; [vm_compute; reflexivity|]. split; [|vm_compute; reflexivity].
  exists (str "::ffff"), (str "1.2.3.4"), []. split; [reflexivity|]. cbn. split; [lia|]. split; [lia|]. split; [tauto|]. left. reflexivity.
Qed.

(** The integers are those of the mirrored bytes, and are read back. *)
Theorem C93_to_integer : forall x, wf_addr (aa_ver x) (aa_addr x) ->
  any_to_uint128_h false x = Ret (be_value (a_bytes (aa_addr (mirror_any x)))) /\ any_to_uint32_h false x = Ret (be_value (a_bytes (aa_addr (mirror_any x))) mod 2 ^ 32).
Proof. exact any_big_to. Qed.
Print Assumptions C93_to_integer.
Theorem C93_from_integer : forall v n, 0 <= n < 2 ^ width v -> exists x, any_from_uint_h false v n = Ret x /\ aa_ver x = v /\ wf_addr v (aa_addr x) /\
  any_to_uint128_h false x = Ret n /\ (v = V4 -> any_to_uint32_h false x = Ret n).
Proof. exact any_big_round. Qed.
Print Assumptions C93_from_integer.
Example C93_integer_ex : any_to_uint32_h false (mk_aa V4 (addr_at V4 "127.0.0.1")) = Ret 0x0100007F /\ any_to_uint128_h false (mk_aa V6 (addr_at V6 "::1")) = Ret (2 ^ 56) /\
  any_to_uint32_h false (mk_aa V6 (addr_at V6 "::1")) = Ret 0 /\ any_from_uint_h false V4 0x0100007F = Ret (mk_aa V4 (addr_at V4 "127.0.0.1")).
Proof. split; [vm_compute; reflexivity|]. split; [vm_compute; reflexivity|]. split; vm_compute; reflexivity. Qed.

(** Networks are read alike from texts without dots, and from those without slashes and colons. *)
Theorem C93_network_text : forall ts strict, ~ In (Ch 46) ts \/ (~ In (Ch 47) ts /\ ~ In (Ch 58) ts) ->
  anet_parse_h false ts strict = anet_parse ts strict /\ forall c, anet_parse_code_h false ts c strict = anet_parse_code ts c strict.
Proof. exact anet_big_text. Qed.
Print Assumptions C93_network_text.
(** An IPv4 address with a mask is accepted if the mirrored text is accepted elsewhere, and gives the mirrored network. *)
Theorem C93_network_text_v4 : forall q q' bs d d' strict x, dotted_quad q bs -> dotted_quad q' (rev bs) -> mask_mirror d d' ->
  (anet_parse_h false (chars (q ++ 47 :: d)) strict = Ret x <-> exists y, anet_parse (chars (q' ++ 47 :: d')) strict = Ret y /\ x = mirror_anet y).
Proof. exact anet_big_quad. Qed.
Print Assumptions C93_network_text_v4.
Example C93_network_ex : anet_parse_h false (chars (str "0.0.0.10/8")) true = Ret (mirror_anet (mk_an V4 (net_at V4 "10.0.0.0/8"))) /\
  anet_parse_h false (chars (str "10.0.0.0")) true = Ret (mk_an V4 (net_at V4 "10.0.0.0/32")) /\
  anet_parse_h false (chars (str "2001:db8::/32")) true = Ret (mk_an V6 (net_at V6 "2001:db8::/32")) /\ mask_mirror (str "8") (str "8").
Proof.
  split; [vm_compute; reflexivity|]. split; [vm_compute; reflexivity|]. split; [vm_compute; reflexivity|].
  left. split; [reflexivity|]. split; [discriminate|]. constructor; [unfold is_dec_digit; cbn; lia|constructor].
Qed.

(** from_address, the number of addresses, supernet. *)
Theorem C93_from_address : forall a p s, wf_addr (aa_ver a) (aa_addr a) -> 0 <= p <= width (aa_ver a) -> anet_from_address_h false a p s =
  match aa_ver a with V4 => rmap mirror_anet (anet_from_address (mirror_any a) p s) | V6 => anet_from_address a p s end.
Proof. exact anet_big_from. Qed.
Print Assumptions C93_from_address.
Theorem C93_count : forall x, bytes_net (an_ver x) (an_net x) -> anet_count_h false x = anet_count (mirror_anet x).
Proof. exact anet_big_count. Qed.
Print Assumptions C93_count.
Theorem C93_count_v6 : forall n, wf_net V6 n -> (anet_count_h false (mk_an V6 n) = Ret (size V6 n mod 2 ^ 128) <-> n_prefix n = 0 \/ n_prefix n = 64 \/ n_prefix n = 128).
Proof. exact anet_big_count6. Qed.
Print Assumptions C93_count_v6.
Theorem C93_count_v4 : forall a p s x, aa_ver a = V4 -> wf_addr V4 (aa_addr a) -> 1 <= p <= 32 -> anet_from_address_h false a p s = Ret x -> anet_count_h false x = Ret (2 ^ (32 - p)).
Proof. exact anet_big_count4. Qed.
Print Assumptions C93_count_v4.
Theorem C93_supernet_v4 : forall n d np, bytes_net V4 n -> 0 <= d -> 0 <= n_prefix n <= 32 -> (forall q, np = Some q -> 0 <= q) ->
  anet_supernet_h false (mk_an V4 n) d np = rmap mirror_anet (anet_supernet (mirror_anet (mk_an V4 n)) d np).
Proof. exact anet_big_supernet. Qed.
Print Assumptions C93_supernet_v4.
Example C93_supernet_ex : anet_supernet_h false (mirror_anet (mk_an V4 (net_at V4 "10.0.0.0/8"))) 1 None = Ret (mirror_anet (mk_an V4 (net_at V4 "10.0.0.0/7"))) /\
  anet_count_h false (mirror_anet (mk_an V4 (net_at V4 "10.0.0.0/8"))) = Ret (2 ^ 24) /\ anet_count_h false (mk_an V6 (net_at V6 "2001:db8::/120")) = Ret 0xFF00000000000001 /\
  anet_from_address_h false (mk_aa V4 (addr_at V4 "0.0.0.10")) 8 true = Ret (mirror_anet (mk_an V4 (net_at V4 "10.0.0.0/8"))).
Proof. split; [vm_compute; reflexivity|]. split; [vm_compute; reflexivity|]. split; vm_compute; reflexivity. Qed.

(** hosts(): size, elements and both loops are mirrored. *)
Theorem C93_hosts : forall sp x, bytes_net (an_ver x) (an_net x) -> n_prefix (an_net x) <> width (an_ver x) ->
  exists s t, any_hosts_h false sp x = Ret s /\ any_hosts sp (mirror_anet x) = Ret t /\
    aseq_size (host_ops_h false) s = aseq_size host_ops t /\ aseq_empty (host_ops_h false) s = aseq_empty host_ops t /\
    aseq_front s = mirror_any (aseq_front t) /\ aseq_back (host_ops_h false) s = rmap mirror_any (aseq_back host_ops t) /\
    (forall k, aseq_at (host_ops_h false) s k = rmap mirror_any (aseq_at host_ops t k)) /\
    (forall k, aseq_walk (host_ops_h false) k (q_begin s) (q_end s) = rmap (map mirror_any) (aseq_walk host_ops k (q_begin t) (q_end t))) /\
    (forall k, rloop (host_ops_h false) k s = rmap (map mirror_any) (rloop host_ops k t)) /\
    (forall k, aiter_at (host_ops_h false) (q_begin s) k = rmap mirror_any (aiter_at host_ops (q_begin t) k)) /\
    aiter_diff (host_ops_h false) (q_end s) (q_begin s) = aiter_diff host_ops (q_end t) (q_begin t) /\
    rmap ai_cur (b <- aseq_rbegin (host_ops_h false) s ;; aiter_base (host_ops_h false) b) = rmap (fun z => mirror_any (ai_cur z)) (b <- aseq_rbegin host_ops t ;; aiter_base host_ops b).
Proof. exact any_big_hosts. Qed.
Print Assumptions C93_hosts.
(** A single address is the exception: the end may lie before the beginning. *)
Theorem C93_single_host : forall sp n a b c d, bytes_net V4 n -> n_prefix n = 32 -> a_bytes (n_addr n) = [a; b; c; d] -> exists s, any_hosts_h false sp (mk_an V4 n) = Ret s /\
  (a < 255 \/ [a; b; c; d] = [255; 255; 255; 255] -> aseq_walk (host_ops_h false) 1 (q_begin s) (q_end s) = Ret [mk_aa V4 (n_addr n)]) /\
  (a = 255 -> [a; b; c; d] <> [255; 255; 255; 255] -> forall k, Z.of_nat k <= 2 ^ 32 -> aseq_walk (host_ops_h false) k (q_begin s) (q_end s) = UB OutOfFuel).
Proof. exact any_single. Qed.
Print Assumptions C93_single_host.
(** subnets() of IPv4 networks. *)
Theorem C93_subnets_v4 : forall sp n d np, bytes_net V4 n -> 0 <= n_prefix n < 32 ->
  match any_subnets_h false sp (mk_an V4 n) d np, any_subnets sp (mirror_anet (mk_an V4 n)) d np with
  | Ret s, Ret t =>
    aseq_size (net_ops_h false) s = aseq_size net_ops t /\ aseq_empty (net_ops_h false) s = aseq_empty net_ops t /\
    aseq_front s = mirror_anet (aseq_front t) /\ aseq_back (net_ops_h false) s = rmap mirror_anet (aseq_back net_ops t) /\
    (forall k, aseq_at (net_ops_h false) s k = rmap mirror_anet (aseq_at net_ops t k)) /\
    (forall k, aseq_walk (net_ops_h false) k (q_begin s) (q_end s) = rmap (map mirror_anet) (aseq_walk net_ops k (q_begin t) (q_end t))) /\
    (forall k, rloop (net_ops_h false) k s = rmap (map mirror_anet) (rloop net_ops k t)) /\
    (forall k, aiter_at (net_ops_h false) (q_begin s) k = rmap mirror_anet (aiter_at net_ops (q_begin t) k)) /\
    aiter_diff (net_ops_h false) (q_end s) (q_begin s) = aiter_diff net_ops (q_end t) (q_begin t) /\
    rmap ai_cur (b <- aseq_rbegin (net_ops_h false) s ;; aiter_base (net_ops_h false) b) = rmap (fun z => mirror_anet (ai_cur z)) (b <- aseq_rbegin net_ops t ;; aiter_base net_ops b)
  | Err e x, Err e' x' => e = e' /\ x = x'
  | UB u, UB u' => u = u'
  | _, _ => False
  end.
Proof. exact any_big_subnets. Qed.
Print Assumptions C93_subnets_v4.
Example C93_loops_ex : bytes_net V4 (mirror_net V4 (net_at V4 "10.0.0.0/30")) /\
  (exists s, any_hosts_h false true (mirror_anet (mk_an V4 (net_at V4 "10.0.0.0/30"))) = Ret s /\
    rloop (host_ops_h false) 2 s = Ret [mk_aa V4 (addr_at V4 "2.0.0.10"); mk_aa V4 (addr_at V4 "1.0.0.10")]) /\
  (exists s, any_hosts_h false true (mk_an V4 (net_at V4 "255.0.0.1/32")) = Ret s /\ aseq_walk (host_ops_h false) 5 (q_begin s) (q_end s) = UB OutOfFuel) /\
  exists s, any_subnets_h false true (mirror_anet (mk_an V4 (net_at V4 "10.0.0.0/8"))) 1 None = Ret s /\
    rloop (net_ops_h false) 2 s = Ret [mirror_anet (mk_an V4 (net_at V4 "10.128.0.0/9")); mirror_anet (mk_an V4 (net_at V4 "10.0.0.0/9"))].
Proof.
  split; [split; (split; [split; [reflexivity|repeat (constructor; [split; vm_compute; congruence|]); constructor]|reflexivity])|].
  split; [eexists; split; [vm_compute; reflexivity|]; vm_compute; reflexivity|]. split; eexists; (split; [vm_compute; reflexivity|]); vm_compute; reflexivity.
Qed.

(** What differs from little-endian hosts. *)
Theorem C93_text_differs : exists s a b, any_parse (chars s) = Ret a /\ any_parse_h false (chars s) = Ret b /\ a <> b.
Proof. exact any_text_refuted. Qed.
Print Assumptions C93_text_differs.
Theorem C93_integer_differs : exists x, wf_addr (aa_ver x) (aa_addr x) /\ any_to_uint32_h false x <> any_to_uint32 x /\ any_to_uint128_h false x <> any_to_uint128 x.
Proof. exact any_integer_refuted. Qed.
Print Assumptions C93_integer_differs.
Theorem C93_network_differs : exists s x e v, anet_parse (chars s) true = Ret x /\ anet_parse_h false (chars s) true = Err e v.
Proof. exact anet_text_refuted. Qed.
Print Assumptions C93_network_differs.
Theorem C93_network_accepts_differs : exists s x e v, anet_parse (chars s) true = Err e v /\ anet_parse_h false (chars s) true = Ret x.
Proof. exact anet_text_new_refuted. Qed.
Print Assumptions C93_network_accepts_differs.
Theorem C93_hosts_v6_differs : exists n s, wf_net V6 n /\ any_hosts_h false true (mk_an V6 n) = Ret s /\ anet_contains (mk_an V6 n) (aseq_front s) = false.
Proof. exact any_hosts6_refuted. Qed.
Print Assumptions C93_hosts_v6_differs.
Theorem C93_iterator_order_differs : exists n s a b, wf_net V4 n /\ any_hosts_h false true (mirror_anet (mk_an V4 n)) = Ret s /\
  aiter_add (host_ops_h false) (q_begin s) 1 = Ret a /\ aiter_add (host_ops_h false) (q_begin s) 256 = Ret b /\ aiter_diff (host_ops_h false) b a = 255 /\ aiter_ltb (host_ops_h false) b a = Ret true.
Proof. exact any_order_refuted. Qed.
Print Assumptions C93_iterator_order_differs.
Theorem C93_subnets_v6_differs : exists n s, wf_net V6 n /\ any_subnets true (mk_an V6 n) 1 None = Ret s /\ aseq_size net_ops s = Ret 2 /\
  any_subnets_h false true (mk_an V6 n) 1 None = Err has_host_bits_set 0.
Proof. exact any_subnets6_refuted. Qed.
Print Assumptions C93_subnets_v6_differs.
Theorem C93_supernet_v6_differs : exists n m, wf_net V6 n /\ anet_supernet (mk_an V6 n) 16 None = Ret m /\ anet_supernet_h false (mk_an V6 n) 16 None = Err has_host_bits_set 0.
Proof. exact any_supernet6_refuted. Qed.
Print Assumptions C93_supernet_v6_differs.
Theorem C93_exclude_differs : exists m o s l, wf_net V4 m /\ wf_net V4 o /\ any_exclude true (mk_an V4 m) (mk_an V4 o) = Ret s /\
  aexclude_walk true 16 (ae_begin s) (ae_end s) = Ret l /\
  exists t, any_exclude_h false true (mirror_anet (mk_an V4 m)) (mirror_anet (mk_an V4 o)) = Ret t /\ aexclude_walk_h false true 16 (ae_begin t) (ae_end t) = UB AssertFailed.
Proof. exact any_exclude_refuted. Qed.
Print Assumptions C93_exclude_differs.
(** In networks of at most 256 addresses, or at the beginning of a network, excluding works as on other hosts. *)
Theorem C93_exclude_v4 : forall sp m o, wf_net V4 m -> wf_net V4 o -> subset V4 o m -> 24 <= n_prefix m \/ first o = first m ->
  exists s t, any_exclude sp (mk_an V4 m) (mk_an V4 o) = Ret s /\ any_exclude_h false sp (mirror_anet (mk_an V4 m)) (mirror_anet (mk_an V4 o)) = Ret t /\
    forall k, aexclude_walk_h false sp k (ae_begin t) (ae_end t) = rmap (map mirror_anet) (aexclude_walk sp k (ae_begin s) (ae_end s)).
Proof. exact any_big_exclude4. Qed.
Print Assumptions C93_exclude_v4.
Example C93_exclude_ex : wf_net V4 (net_at V4 "10.0.0.0/30") /\ wf_net V4 (net_at V4 "10.0.0.2/32") /\ subset V4 (net_at V4 "10.0.0.2/32") (net_at V4 "10.0.0.0/30") /\
  24 <= n_prefix (net_at V4 "10.0.0.0/30") /\
  exists t, any_exclude_h false true (mirror_anet (mk_an V4 (net_at V4 "10.0.0.0/30"))) (mirror_anet (mk_an V4 (net_at V4 "10.0.0.2/32"))) = Ret t /\
    aexclude_walk_h false true 2 (ae_begin t) (ae_end t) = Ret [mirror_anet (mk_an V4 (net_at V4 "10.0.0.0/31")); mirror_anet (mk_an V4 (net_at V4 "10.0.0.3/32"))].
Proof.
  split; [wfn|]. split; [wfn|]. split; [apply ends4; [wfn|wfn|split; vm_compute; congruence]|]. split; [vm_compute; congruence|].
  eexists. split; [vm_compute; reflexivity|]. vm_compute. reflexivity.
Qed.

