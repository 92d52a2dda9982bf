(** Property theorems C88: the version-erased classes ip_address and ip_network, and
    the operators of all classes, under every setting of the macros
    IPADDRESS_NO_IPV6_SCOPE, IPADDRESS_IPV6_SCOPE_MAX_LENGTH and
    IPADDRESS_SCOPE_ID_SUPPORT_SPACES ([cfg_ok]: C68_settings).  What hosts, subnets
    and address_exclude of networks without scope id are in the default build say
    C50. *)
From Coq Require Import String.
From Verif Require Import Base UnicodeModel V4Model V6Model SpecAddr SpecStr SpecOrder AddressModel NetworkModel SpecNet IterModel AnyModel SpecAny NetWitness NetText SpecExact
  Uint128OpsModel RelModel SpecRel ConfigModel SpecConfig ConfigProofs NetConfigModel SpecNetConfig NetConfigProofs3 StreamModel SpecStream MacroModel SpecMacro
  NetOpsConfigModel SpecNetOpsConfig AnyConfigModel SpecAnyConfig AnyConfigProofs AnyConfigProofs2 AnyConfigProofs3.
Close Scope string_scope.

(** With the default setting these are the functions of the other theorems. *)
Theorem C88_default : (forall is64 x, any_hash_c default_config is64 x = any_hash is64 x) /\ (forall x fmt, any_to_string_c default_config x fmt = any_to_string x fmt) /\
  (forall sp op x y, rel_op (any_rels_c default_config) sp op x y = rel_op any_rels sp op x y) /\
  (forall is64 x, anet_hash_c default_config is64 x = anet_hash is64 x) /\ (forall x fmt, anet_to_string_c default_config x fmt = anet_to_string x fmt) /\
  (forall sp op x y, rel_op (anet_rels_c default_config) sp op x y = rel_op anet_rels sp op x y) /\
  (forall sp x y, anet_subnet_of_c default_config sp x y = anet_subnet_of sp x y) /\ (forall sp x y, anet_supernet_of_c default_config sp x y = anet_supernet_of sp x y) /\
  (forall sp x, any_hosts_c default_config sp x = any_hosts sp x) /\ (forall k a b, aseq_walk (host_ops_c default_config) k a b = aseq_walk host_ops k a b) /\
  (forall sp x code d np, any_subnets_code_c default_config sp x code d np = any_subnets_code sp x code d np) /\
  (forall k a b, aseq_walk (net_ops_c default_config) k a b = aseq_walk net_ops k a b) /\
  (forall sp x o code, any_exclude_code_c default_config sp x o code = any_exclude_code sp x o code) /\
  (forall sp k a b, aexclude_walk_c default_config sp k a b = aexclude_walk sp k a b).
Proof. exact any_default. Qed.
Print Assumptions C88_default.
(** The six operators of every class decide one order on the objects that exist (C++20); before C++20 they follow [<], which is not one (C15, C49). *)
Theorem C88_operators_address : forall g op a b, addr_for (c_max g) (c_spaces g) a -> addr_for (c_max g) (c_spaces g) b ->
  decides (rel_op (addr_rels_c g) true op a b) (in_order eq addr_before op a b) /\ decides (rel_op (addr_rels_c g) false op a b) (from_less eq either_before op a b).
Proof. exact addr_ops_for. Qed.
Print Assumptions C88_operators_address.
Theorem C88_operators_network : forall g op a b, cfg_ok g -> net_for (c_max g) (c_spaces g) a -> net_for (c_max g) (c_spaces g) b ->
  decides (rel_op (net_rels_c g) true op a b) (in_order eq net_before op a b) /\ decides (rel_op (net_rels_c g) false op a b) (from_less eq net_either_before op a b).
Proof. exact net_ops_for. Qed.
Print Assumptions C88_operators_network.
Theorem C88_operators_any_address : forall g op a b, any_for (c_max g) (c_spaces g) a -> any_for (c_max g) (c_spaces g) b ->
  decides (rel_op (any_rels_c g) true op a b) (in_order eq any_before op a b) /\ decides (rel_op (any_rels_c g) false op a b) (from_less eq any_either_before op a b).
Proof. exact any_ops_for. Qed.
Print Assumptions C88_operators_any_address.
Theorem C88_operators_any_network : forall g op a b, cfg_ok g -> anet_for (c_max g) (c_spaces g) a -> anet_for (c_max g) (c_spaces g) b ->
  decides (rel_op (anet_rels_c g) true op a b) (in_order eq anet_before op a b) /\ decides (rel_op (anet_rels_c g) false op a b) (from_less eq anet_either_before op a b).
Proof. exact anet_ops_for. Qed.
Print Assumptions C88_operators_any_network.
(** These are orders. *)
Theorem C88_order_address : forall g, strict_order (addr_for (c_max g) (c_spaces g)) eq addr_before.
Proof. exact order_addr. Qed.
Print Assumptions C88_order_address.
Theorem C88_order_network : forall g, cfg_ok g -> strict_order (net_for (c_max g) (c_spaces g)) eq net_before.
Proof. exact order_net. Qed.
Print Assumptions C88_order_network.
Theorem C88_order_any_address : forall g, strict_order (any_for (c_max g) (c_spaces g)) eq any_before.
Proof. exact order_any. Qed.
Print Assumptions C88_order_any_address.
Theorem C88_order_any_network : forall g, cfg_ok g -> strict_order (anet_for (c_max g) (c_spaces g)) eq anet_before.
Proof. exact order_anet. Qed.
Print Assumptions C88_order_any_network.
Example C88_operators_ex : let g := mk_cfg 20 true in let a := mk_an V6 (net_from g (str "fe80::%a long scope id 20/64")) in let b := mk_an V6 (net_from g (str "fe80::%a long scope id 21/64")) in
  let c := mk_an V4 (net_at V4 "255.255.255.255/32") in
  anet_for (c_max g) (c_spaces g) a /\ anet_for (c_max g) (c_spaces g) b /\ anet_for (c_max g) (c_spaces g) c /\
  rel_op (anet_rels_c g) true CLt a b = Ret true /\ rel_op (anet_rels_c g) true CEq a b = Ret false /\ rel_op (anet_rels_c g) false CGt a b = Ret false /\
  rel_op (anet_rels_c g) true CLe c a = Ret true /\ rel_op (anet_rels_c g) false CGe c a = Ret false.
Proof.
  assert (C : cfg_ok (mk_cfg 20 true)) by (unfold cfg_ok; cbn; lia). cbv zeta.
  destruct (net_from_ok _ (str "fe80::%a long scope id 20/64") C) as [_ A]; [vm_compute; reflexivity..|].
  destruct (net_from_ok _ (str "fe80::%a long scope id 21/64") C) as [_ B]; [vm_compute; reflexivity..|].
  split; [exact A|]. split; [exact B|]. split; [apply net_at_wf; vm_compute; reflexivity|].
  repeat split; vm_compute; reflexivity.
Qed.

(** What the underlying object gives. *)
Theorem C88_address_forward : forall g v a is64 fmt, let x := mk_aa v a in
  any_hash_c g is64 x = match v with V4 => addr_hash is64 V4 a | V6 => addr_hash_c g is64 a end /\
  any_to_string_c g x fmt = match v with V4 => addr_to_string V4 a fmt | V6 => addr_to_string_c g a fmt end.
Proof. exact any_forward_c. Qed.
Print Assumptions C88_address_forward.
Theorem C88_network_forward : forall g v n is64 fmt, let x := mk_an v n in
  anet_hash_c g is64 x = match v with V4 => net_hash is64 V4 n | V6 => net_hash_c g is64 n end /\
  anet_to_string_c g x fmt = match v with V4 => net_to_string V4 n fmt | V6 => net_to_string_c g n fmt end.
Proof. exact anet_forward_c. Qed.
Print Assumptions C88_network_forward.
(** The hash is defined; equal objects are identical (above), so their hashes are equal. *)
Theorem C88_hash : forall g is64 x, cfg_ok g -> any_for (c_max g) (c_spaces g) x -> exists h, any_hash_c g is64 x = Ret h.
Proof. exact any_hash_for. Qed.
Print Assumptions C88_hash.
Theorem C88_network_hash : forall g is64 x, cfg_ok g -> anet_for (c_max g) (c_spaces g) x -> exists h, anet_hash_c g is64 x = Ret h.
Proof. exact anet_hash_for. Qed.
Print Assumptions C88_network_hash.
(** Every text is read back. *)
Theorem C88_round_trip : forall g x fmt, cfg_ok g -> any_for (c_max g) (c_spaces g) x -> exists s, any_to_string_c g x fmt = Ret s /\ any_parse_c g (chars s) = Ret x.
Proof. exact any_round_trip_c. Qed.
Print Assumptions C88_round_trip.
(** Network texts: the result of the parser that accepts, else the error of the IPv6 parser; undefined behaviour is that of the IPv4 parser (C26). *)
Theorem C88_network_text : forall b s strict, cfg_ok (b_cfg b) -> Forall is_char s -> let r := b_string_of (in_bytes (throwing b)) TChar KAnyNet strict s in
  (forall n, r = Ret (OAnyNet (mk_an V4 n)) <-> net_parse V4 (chars s) strict = Ret n) /\
  (forall n, r = Ret (OAnyNet (mk_an V6 n)) <-> net_parse_c (b_cfg b) (chars s) strict = Ret n) /\
  (forall e x, r = Err e x <-> net_parse_c (b_cfg b) (chars s) strict = Err e x /\ exists e' x', net_parse V4 (chars s) strict = Err e' x') /\
  (forall u, r = UB u <-> net_parse V4 (chars s) strict = UB u).
Proof. exact anet_text_c. Qed.
Print Assumptions C88_network_text.
Theorem C88_network_round_trip : forall b x fmt strict, cfg_ok (b_cfg b) -> anet_for (c_max (b_cfg b)) (c_spaces (b_cfg b)) x ->
  exists s, anet_to_string_c (b_cfg b) x fmt = Ret s /\ b_string_of (in_bytes (throwing b)) TChar KAnyNet strict s = Ret (OAnyNet x).
Proof. exact anet_round_trip_c. Qed.
Print Assumptions C88_network_round_trip.
Example C88_round_trip_ex : let g := mk_cfg 20 true in let x := mk_an V6 (net_from g (str "fe80::%a long scope id 20/64")) in
  anet_for (c_max g) (c_spaces g) x /\ anet_to_string_c g x full = Ret (str "fe80:0000:0000:0000:0000:0000:0000:0000%a long scope id 20/64") /\
  b_string_of (mk_build g false true) TChar KAnyNet true (str "fe80:0000:0000:0000:0000:0000:0000:0000%a long scope id 20/64") = Ret (OAnyNet x).
Proof.
  assert (C : cfg_ok (mk_cfg 20 true)) by (unfold cfg_ok; cbn; lia). cbv zeta.
  destruct (net_from_ok _ (str "fe80::%a long scope id 20/64") C) as [_ A]; [vm_compute; reflexivity..|].
  split; [exact A|]. split; vm_compute; reflexivity.
Qed.

(** Inclusion, with the condition on scope ids of the default build (C49). *)
Theorem C88_inclusion : forall g sp x y, anet_for (c_max g) (c_spaces g) x -> anet_for (c_max g) (c_spaces g) y ->
  exists r, anet_subnet_of_c g sp x y = Ret r /\ anet_supernet_of_c g sp y x = Ret r /\
    (r = true <-> (forall a, any_member x a -> any_member y a) /\ scopes_allow sp (an_net x) (an_net y)).
Proof. exact anet_subnet_for. Qed.
Print Assumptions C88_inclusion.
(** The functions of sequences and iterators that do not compare addresses do not depend on the setting. *)
Theorem C88_sequences : forall g, (forall s, aseq_size (host_ops_c g) s = aseq_size host_ops s) /\ (forall s n, aseq_at (host_ops_c g) s n = aseq_at host_ops s n) /\
  (forall s, aseq_back (host_ops_c g) s = aseq_back host_ops s) /\ (forall s, aseq_rbegin (host_ops_c g) s = aseq_rbegin host_ops s) /\
  (forall s, aseq_rend (host_ops_c g) s = aseq_rend host_ops s) /\ (forall a n, aiter_add (host_ops_c g) a n = aiter_add host_ops a n) /\
  (forall a n, aiter_sub (host_ops_c g) a n = aiter_sub host_ops a n) /\ (forall a n, aiter_at (host_ops_c g) a n = aiter_at host_ops a n) /\
  (forall a b, aiter_diff (host_ops_c g) a b = aiter_diff host_ops a b) /\
  (forall s, aseq_size (net_ops_c g) s = aseq_size net_ops s) /\ (forall s n, aseq_at (net_ops_c g) s n = aseq_at net_ops s n) /\
  (forall s, aseq_back (net_ops_c g) s = aseq_back net_ops s) /\ (forall s, aseq_rbegin (net_ops_c g) s = aseq_rbegin net_ops s) /\
  (forall s, aseq_rend (net_ops_c g) s = aseq_rend net_ops s) /\ (forall a n, aiter_add (net_ops_c g) a n = aiter_add net_ops a n) /\
  (forall a n, aiter_sub (net_ops_c g) a n = aiter_sub net_ops a n) /\ (forall a n, aiter_at (net_ops_c g) a n = aiter_at net_ops a n) /\
  (forall a b, aiter_diff (net_ops_c g) a b = aiter_diff net_ops a b).
Proof. exact seq_same. Qed.
Print Assumptions C88_sequences.
(** The hosts, loops over them in both directions and comparisons of their iterators are those of the network without scope id in the default build. *)
Theorem C88_hosts : forall g sp x, anet_for (c_max g) (c_spaces g) x -> any_hosts_c g sp x = any_hosts sp (anet_without x) /\
  forall s, any_hosts_c g sp x = Ret s -> aseq_empty (host_ops_c g) s = aseq_empty host_ops s /\
    (forall k, aseq_walk (host_ops_c g) k (q_begin s) (q_end s) = aseq_walk host_ops k (q_begin s) (q_end s)) /\
    (forall b e, aseq_rbegin host_ops s = Ret b -> aseq_rend host_ops s = Ret e -> forall k, aseq_rwalk (host_ops_c g) k b e = aseq_rwalk host_ops k b e) /\
    (forall cpp20 op i j a b, aiter_add host_ops (q_begin s) i = Ret a -> aiter_add host_ops (q_begin s) j = Ret b ->
      rel_op (aiter_rels (host_ops_c g)) cpp20 op a b = rel_op (aiter_rels host_ops) cpp20 op a b).
Proof. exact any_hosts_all. Qed.
Print Assumptions C88_hosts.
(** So are the subnets and their errors ... *)
Theorem C88_subnets : forall g sp x d np, cfg_ok g -> anet_for (c_max g) (c_spaces g) x ->
  any_subnets_c g sp x d np = any_subnets sp (anet_without x) d np /\
  (forall code, any_subnets_code_c g sp x code d np = any_subnets_code sp (anet_without x) code d np) /\
  forall s, any_subnets_c g sp x d np = Ret s -> aseq_empty (net_ops_c g) s = aseq_empty net_ops s /\
    (forall k, aseq_walk (net_ops_c g) k (q_begin s) (q_end s) = aseq_walk net_ops k (q_begin s) (q_end s)) /\
    (forall b e, aseq_rbegin net_ops s = Ret b -> aseq_rend net_ops s = Ret e -> forall k, aseq_rwalk (net_ops_c g) k b e = aseq_rwalk net_ops k b e) /\
    (forall cpp20 op i j a b, aiter_add net_ops (q_begin s) i = Ret a -> aiter_add net_ops (q_begin s) j = Ret b ->
      rel_op (aiter_rels (net_ops_c g)) cpp20 op a b = rel_op (aiter_rels net_ops) cpp20 op a b).
Proof. exact any_subnets_all. Qed.
Print Assumptions C88_subnets.
(** ... and what remains after taking one network out of another. *)
Theorem C88_exclude : forall g sp x o, cfg_ok g -> anet_for (c_max g) (c_spaces g) x -> anet_for (c_max g) (c_spaces g) o ->
  any_exclude_c g sp x o = any_exclude sp (anet_without x) (anet_without o) /\
  (forall code, any_exclude_code_c g sp x o code = any_exclude_code sp (anet_without x) (anet_without o) code) /\
  forall s, any_exclude_c g sp x o = Ret s -> forall k, aexclude_walk_c g sp k (ae_begin s) (ae_end s) = aexclude_walk sp k (ae_begin s) (ae_end s).
Proof. exact any_exclude_all. Qed.
Print Assumptions C88_exclude.
Example C88_exclude_ex : let g := mk_cfg 20 false in let a := mk_an V6 (net_from g (str "2001:db8::%abcdefghijklmnopqrst/32")) in let b := mk_an V6 (net_from g (str "2001:db8:8000::%x/34")) in
  anet_for (c_max g) (c_spaces g) a /\ anet_for (c_max g) (c_spaces g) b /\ anet_subnet_of_c g true b a = Ret true /\
  (exists s l, any_exclude_c g true a b = Ret s /\ aexclude_walk_c g true 5 (ae_begin s) (ae_end s) = Ret l /\
    map (fun n => anet_to_string_c g n compressed) l = [Ret (str "2001:db8::/33"); Ret (str "2001:db8:c000::/34")]) /\
  (exists s l, any_subnets_c g true a 1 None = Ret s /\ aseq_walk (net_ops_c g) 5 (q_begin s) (q_end s) = Ret l /\
    map (fun n => anet_to_string_c g n compressed) l = [Ret (str "2001:db8::/33"); Ret (str "2001:db8:8000::/33")]).
Proof.
  assert (C : cfg_ok (mk_cfg 20 false)) by (unfold cfg_ok; cbn; lia). cbv zeta.
  destruct (net_from_ok _ (str "2001:db8::%abcdefghijklmnopqrst/32") C) as [_ A]; [vm_compute; reflexivity..|].
  destruct (net_from_ok _ (str "2001:db8:8000::%x/34") C) as [_ B]; [vm_compute; reflexivity..|].
  split; [exact A|]. split; [exact B|]. split; [vm_compute; reflexivity|].
  split; do 2 eexists; (split; [vm_compute; reflexivity|]); (split; [vm_compute; reflexivity|]); vm_compute; reflexivity.
Qed.
Example C88_hosts_ex : let g := mk_cfg 0 false in let a := mk_an V6 (net_from g (str "2001:db8::/126")) in anet_for (c_max g) (c_spaces g) a /\
  exists s l, any_hosts_c g false a = Ret s /\ aseq_walk (host_ops_c g) 5 (q_begin s) (q_end s) = Ret l /\
    map (fun x => any_to_string_c g x compressed) l = [Ret (str "2001:db8::1"); Ret (str "2001:db8::2"); Ret (str "2001:db8::3")].
Proof.
  assert (C : cfg_ok (mk_cfg 0 false)) by (unfold cfg_ok; cbn; lia). cbv zeta.
  destruct (net_from_ok _ (str "2001:db8::/126") C) as [_ A]; [vm_compute; reflexivity..|].
  split; [exact A|]. do 2 eexists. split; [vm_compute; reflexivity|]. split; [vm_compute; reflexivity|]. vm_compute; reflexivity.
Qed.

