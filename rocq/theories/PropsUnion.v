(** Property theorems C92: the unions of ip_address, ip_network and
    ip_any_iterator.  [a_ok], [n_ok], [i_ok], [x_ok]: the version tag names the
    active member.  [Val r]: the call touched only active members and no empty
    optional, with outcome [r]; [lawful P f m r] adds that a returned object
    satisfies [P]. *)
From Coq Require Import String.
From Verif Require Import Base UnicodeModel FixedStringModel V4Model V6Model Uint128Model SpecInt AddressModel NetworkModel
  IterModel ClassifyModel AnyModel CodeModel StreamModel LiteralModel ScopeModel UnionModel SpecUnion UnionProofs UnionProofs2 SpecStr NetWitness.
Close Scope string_scope.

(** Every object a program can hold: constructors, parsing, setters, swap, and whatever functions return. *)
Theorem C92_made : (forall x, made_a x -> a_ok x) /\ (forall x, made_n x -> n_ok x) /\
  (forall i, made_h i -> i_ok a_ok i) /\ (forall i, made_s i -> i_ok n_ok i) /\ (forall x, made_x x -> x_ok x).
Proof. exact made_ok. Qed.
Print Assumptions C92_made.
Theorem C92_defaults : a_plain ua_default = aa_default /\ n_plain un_default = an_default /\ i_plain a_plain host_uiter_default = host_aiter_default /\
  i_plain n_plain net_uiter_default = net_aiter_default /\ x_plain uxit_default = axit_default.
Proof. exact made_defaults. Qed.
Print Assumptions C92_defaults.
Theorem C92_constructors : (forall a, a_plain (ua_of4 a) = mk_aa V4 a) /\ (forall a, a_plain (ua_of6 a) = mk_aa V6 a) /\
  (forall b, a_plain (ua_bytes4 b) = mk_aa V4 (mk_addr b [])) /\ (forall b, a_plain (ua_bytes6 b) = mk_aa V6 (mk_addr b [])) /\
  (forall n, n_plain (un_of4 n) = mk_an V4 n) /\ (forall n, n_plain (un_of6 n) = mk_an V6 n) /\
  (forall x y, ua_swap x y = (y, x)).
Proof. exact made_constructors. Qed.
Print Assumptions C92_constructors.
(** ip_address: with an agreeing tag the functions read the right member. *)
Theorem C92_address_reads : forall x is64 fmt, a_ok x ->
  ua_is_multicast x = Val (Ret (any_is_multicast (a_plain x))) /\
  ua_is_private x = Val (any_is_private (a_plain x)) /\
  ua_is_global x = Val (any_is_global (a_plain x)) /\
  ua_is_reserved x = Val (Ret (any_is_reserved (a_plain x))) /\
  ua_is_loopback x = Val (Ret (any_is_loopback (a_plain x))) /\
  ua_is_link_local x = Val (Ret (any_is_link_local (a_plain x))) /\
  ua_is_unspecified x = Val (Ret (any_is_unspecified (a_plain x))) /\
  ua_is_site_local x = Val (Ret (any_is_site_local (a_plain x))) /\
  ua_size x = Val (Ret (any_size (a_plain x))) /\
  ua_hash is64 x = Val (any_hash is64 (a_plain x)) /\
  ua_ipv4_mapped x = Val (any_ipv4_mapped (a_plain x)) /\
  ua_sixtofour x = Val (any_sixtofour (a_plain x)) /\
  ua_teredo x = Val (any_teredo (a_plain x)) /\
  ua_data x = Val (Ret (a_bytes (aa_addr (a_plain x)))) /\
  ua_to_uint32 x = Val (any_to_uint32 (a_plain x)) /\
  ua_to_uint128 x = Val (any_to_uint128 (a_plain x)) /\
  ua_to_string fmt x = Val (any_to_string (a_plain x) fmt) /\
  ua_reverse_pointer x = Val (any_reverse_pointer (a_plain x)) /\
  ua_v4 x = Val (Ret (aa_v4 (a_plain x))) /\
  ua_v6 x = Val (Ret (aa_v6 (a_plain x))) /\
  ua_get_scope x = Val (any_get_scope (a_plain x)).
Proof. exact ua_reads. Qed.
Print Assumptions C92_address_reads.
(** Comparison, also of addresses of different versions. *)
Theorem C92_address_pairs : forall x y, a_ok x -> a_ok y ->
  ua_eqb x y = Val (any_eqb (a_plain x) (a_plain y)) /\
  ua_cmp x y = Val (any_cmp (a_plain x) (a_plain y)) /\
  ua_ltb x y = Val (any_ltb (a_plain x) (a_plain y)).
Proof. exact ua_pairs. Qed.
Print Assumptions C92_address_pairs.
(** set_scope_id. *)
Theorem C92_address_changes : forall T x s c, a_ok x ->
  lawful a_ok a_plain (ua_scope_set T x s) (any_scope_set T (a_plain x) s) /\
  lawful (fun p => a_ok (fst p)) (with_code a_plain) (ua_scope_set_code T x s c) (any_scope_set_code T (a_plain x) s c) /\
  lawful a_ok a_plain (ua_scope_set_array T x s) (any_scope_set_array T (a_plain x) s) /\
  lawful a_ok a_plain (ua_clear_scope x) (any_clear_scope (a_plain x)).
Proof. exact ua_changes. Qed.
Print Assumptions C92_address_changes.
Theorem C92_address_creations : forall src n v ts c, lawful a_ok a_plain (ua_from_bytes src n v) (any_from_bytes src n v) /\
  lawful a_ok a_plain (ua_parse ts) (any_parse ts) /\
  lawful (fun p => a_ok (fst p)) (with_code a_plain) (ua_parse_code ts c) (any_parse_code ts c).
Proof. exact ua_creations. Qed.
Print Assumptions C92_address_creations.
(** ip_network. *)
Theorem C92_network_reads : forall x is64 fmt, n_ok x ->
  un_prefixlen x = Val (Ret (anet_prefixlen (n_plain x))) /\
  un_is_multicast x = Val (Ret (anet_is_multicast (n_plain x))) /\
  un_is_private x = Val (Ret (anet_is_private (n_plain x))) /\
  un_is_global x = Val (Ret (anet_is_global (n_plain x))) /\
  un_is_reserved x = Val (Ret (anet_is_reserved (n_plain x))) /\
  un_is_loopback x = Val (Ret (anet_is_loopback (n_plain x))) /\
  un_is_link_local x = Val (Ret (anet_is_link_local (n_plain x))) /\
  un_is_unspecified x = Val (Ret (anet_is_unspecified (n_plain x))) /\
  un_is_site_local x = Val (Ret (anet_is_site_local (n_plain x))) /\
  un_hash is64 x = Val (anet_hash is64 (n_plain x)) /\
  un_count x = Val (anet_count (n_plain x)) /\
  un_to_string fmt x = Val (anet_to_string (n_plain x) fmt) /\
  un_v4 x = Val (Ret (if ver_eqb (un_ver x) V4 then Some (held (un_un x)) else None)) /\
  un_v6 x = Val (Ret (if ver_eqb (un_ver x) V6 then Some (held (un_un x)) else None)).
Proof. exact un_reads. Qed.
Print Assumptions C92_network_reads.
Theorem C92_network_parts : forall x, n_ok x ->
  lawful a_ok a_plain (un_address x) (Ret (anet_address (n_plain x))) /\
  lawful a_ok a_plain (un_broadcast x) (Ret (anet_broadcast (n_plain x))) /\
  lawful a_ok a_plain (un_netmask x) (Ret (anet_netmask (n_plain x))) /\
  lawful a_ok a_plain (un_hostmask x) (Ret (anet_hostmask (n_plain x))).
Proof. exact un_parts. Qed.
Print Assumptions C92_network_parts.
(** Functions of two objects: value() is never called on an empty optional. *)
Theorem C92_network_pairs : forall sp x y a, n_ok x -> n_ok y -> a_ok a ->
  un_contains x a = Val (Ret (anet_contains (n_plain x) (a_plain a))) /\
  un_overlaps x y = Val (Ret (anet_overlaps (n_plain x) (n_plain y))) /\
  un_subnet_of sp x y = Val (anet_subnet_of sp (n_plain x) (n_plain y)) /\
  un_supernet_of sp x y = Val (anet_supernet_of sp (n_plain x) (n_plain y)) /\
  un_eqb x y = Val (anet_eqb (n_plain x) (n_plain y)) /\
  un_cmp x y = Val (anet_cmp (n_plain x) (n_plain y)) /\
  un_ltb x y = Val (anet_ltb (n_plain x) (n_plain y)).
Proof. exact un_pairs. Qed.
Print Assumptions C92_network_pairs.
Theorem C92_network_creations : forall x a ts s p c d np, n_ok x -> a_ok a ->
  lawful n_ok n_plain (un_parse ts s) (anet_parse ts s) /\
  lawful (fun q => n_ok (fst q)) (with_code n_plain) (un_parse_code ts c s) (anet_parse_code ts c s) /\
  lawful n_ok n_plain (un_from_address a p s) (anet_from_address (a_plain a) p s) /\
  lawful (fun q => n_ok (fst q)) (with_code n_plain) (un_from_address_code a c p s) (anet_from_address_code (a_plain a) c p s) /\
  lawful n_ok n_plain (un_supernet d np x) (anet_supernet (n_plain x) d np) /\
  lawful (fun q => n_ok (fst q)) (with_code n_plain) (un_supernet_code c d np x) (anet_supernet_code (n_plain x) c d np).
Proof. exact un_creations. Qed.
Print Assumptions C92_network_creations.
(** hosts and subnets. *)
Theorem C92_sequences : forall sp x c d np, n_ok x ->
  lawful (both (i_ok a_ok)) (seq_plain a_plain) (un_hosts sp x) (any_hosts sp (n_plain x)) /\
  lawful (both (i_ok n_ok)) (seq_plain n_plain) (un_subnets sp x d np) (any_subnets sp (n_plain x) d np) /\
  lawful (fun p => both (i_ok n_ok) (fst p)) (with_code (seq_plain n_plain)) (un_subnets_code sp x c d np)
    (any_subnets_code sp (n_plain x) c d np).
Proof. exact un_sequences. Qed.
Print Assumptions C92_sequences.
(** ip_any_iterator, for hosts and for subnets. *)
Theorem C92_host_iterator_reads : forall n (x y : uiter ait uaddr), i_ok a_ok x -> i_ok a_ok y ->
  ui_udiff host_uops x y = Val (aiter_udiff host_ops (i_plain a_plain x) (i_plain a_plain y)) /\
  ui_diff host_uops x y = Val (Ret (aiter_diff host_ops (i_plain a_plain x) (i_plain a_plain y))) /\
  ui_eqb host_uops x y = Val (aiter_eqb host_ops (i_plain a_plain x) (i_plain a_plain y)) /\
  ui_cmp host_uops x y = Val (aiter_cmp host_ops (i_plain a_plain x) (i_plain a_plain y)) /\
  ui_ltb host_uops x y = Val (aiter_ltb host_ops (i_plain a_plain x) (i_plain a_plain y)) /\
  lawful a_ok a_plain (ui_at host_uops x n) (aiter_at host_ops (i_plain a_plain x) n).
Proof. exact hosts_it_reads. Qed.
Print Assumptions C92_host_iterator_reads.
Theorem C92_host_iterator_moves : forall n (x : uiter ait uaddr), i_ok a_ok x ->
  lawful (i_ok a_ok) (i_plain a_plain) (ui_add host_uops x n) (aiter_add host_ops (i_plain a_plain x) n) /\
  lawful (i_ok a_ok) (i_plain a_plain) (ui_sub host_uops x n) (aiter_sub host_ops (i_plain a_plain x) n) /\
  lawful (i_ok a_ok) (i_plain a_plain) (ui_base host_uops x) (aiter_base host_ops (i_plain a_plain x)) /\
  lawful (i_ok a_ok) (i_plain a_plain) (ui_reverse host_uops x) (aiter_reverse host_ops (i_plain a_plain x)).
Proof. exact hosts_it_moves. Qed.
Print Assumptions C92_host_iterator_moves.
Theorem C92_subnet_iterator_reads : forall n (x y : uiter nit unet), i_ok n_ok x -> i_ok n_ok y ->
  ui_udiff net_uops x y = Val (aiter_udiff net_ops (i_plain n_plain x) (i_plain n_plain y)) /\
  ui_diff net_uops x y = Val (Ret (aiter_diff net_ops (i_plain n_plain x) (i_plain n_plain y))) /\
  ui_eqb net_uops x y = Val (aiter_eqb net_ops (i_plain n_plain x) (i_plain n_plain y)) /\
  ui_cmp net_uops x y = Val (aiter_cmp net_ops (i_plain n_plain x) (i_plain n_plain y)) /\
  ui_ltb net_uops x y = Val (aiter_ltb net_ops (i_plain n_plain x) (i_plain n_plain y)) /\
  lawful n_ok n_plain (ui_at net_uops x n) (aiter_at net_ops (i_plain n_plain x) n).
Proof. exact subnets_it_reads. Qed.
Print Assumptions C92_subnet_iterator_reads.
Theorem C92_subnet_iterator_moves : forall n (x : uiter nit unet), i_ok n_ok x ->
  lawful (i_ok n_ok) (i_plain n_plain) (ui_add net_uops x n) (aiter_add net_ops (i_plain n_plain x) n) /\
  lawful (i_ok n_ok) (i_plain n_plain) (ui_sub net_uops x n) (aiter_sub net_ops (i_plain n_plain x) n) /\
  lawful (i_ok n_ok) (i_plain n_plain) (ui_base net_uops x) (aiter_base net_ops (i_plain n_plain x)) /\
  lawful (i_ok n_ok) (i_plain n_plain) (ui_reverse net_uops x) (aiter_reverse net_ops (i_plain n_plain x)).
Proof. exact subnets_it_moves. Qed.
Print Assumptions C92_subnet_iterator_moves.
(** address_exclude and its iterator. *)
Theorem C92_exclude : forall sp x y c, n_ok x -> n_ok y ->
  lawful (fun p => both x_ok (fst p)) ex_plain (un_exclude_code sp x y c) (any_exclude_code sp (n_plain x) (n_plain y) c).
Proof. exact un_exclude_lawful. Qed.
Print Assumptions C92_exclude.
Theorem C92_exclude_steps : forall sp x y, x_ok x -> x_ok y ->
  lawful x_ok x_plain (uxit_next sp x) (axit_next sp (x_plain x)) /\ uxit_eqb x y = Val (axit_eqb (x_plain x) (x_plain y)).
Proof. exact exclusion_steps. Qed.
Print Assumptions C92_exclude_steps.
(** An object whose tag does not agree would be noticed. *)
Theorem C92_wrong_address : forall x is64 fmt, ~ a_ok x ->
  ua_is_multicast x = Inactive /\ ua_hash is64 x = Inactive /\ ua_to_string fmt x = Inactive /\ ua_eqb x x = Inactive /\
  ua_cmp x x = Inactive /\ ua_ltb x x = Inactive.
Proof. exact ua_wrong. Qed.
Print Assumptions C92_wrong_address.
Theorem C92_wrong_network : forall x is64 fmt, ~ n_ok x ->
  un_address x = Inactive /\ un_hash is64 x = Inactive /\ un_to_string fmt x = Inactive /\ un_eqb x x = Inactive /\
  (forall sp, un_hosts sp x = Inactive).
Proof. exact un_wrong. Qed.
Print Assumptions C92_wrong_network.
Theorem C92_wrong_host_iterator : forall (x : uiter ait uaddr) n, ~ agree (ui_ver x) (ui_un x) ->
  ui_add host_uops x n = Inactive /\ ui_sub host_uops x n = Inactive /\ ui_eqb host_uops x x = Inactive /\ ui_at host_uops x n = Inactive.
Proof. exact ui_wrong_hosts. Qed.
Print Assumptions C92_wrong_host_iterator.
Theorem C92_wrong_subnet_iterator : forall (x : uiter nit unet) n, ~ agree (ui_ver x) (ui_un x) ->
  ui_add net_uops x n = Inactive /\ ui_sub net_uops x n = Inactive /\ ui_eqb net_uops x x = Inactive /\ ui_at net_uops x n = Inactive.
Proof. exact ui_wrong_subnets. Qed.
Print Assumptions C92_wrong_subnet_iterator.
Example C92_made_ex : let a := addr_at V6 "fe80::1%eth0" in
  made_a (ua_of6 a) /\ made_a (ua_of4 (addr_at V4 "10.0.0.1")) /\
  (exists y, ua_scope_set TChar (ua_of6 a) (str "x") = Val (Ret y) /\ ua_to_string compressed y = Val (Ret (str "fe80::1%x")) /\ made_a y) /\
  ua_eqb (ua_of6 a) (ua_of4 (addr_at V4 "10.0.0.1")) = Val (Ret false).
Proof.
  cbv zeta. split; [apply ma_of6|]. split; [apply ma_of4|]. split; [eexists|].
  { assert (E : ua_scope_set TChar (ua_of6 (addr_at V6 "fe80::1%eth0")) (str "x") = Val (Ret (ua_of6 (addr_at V6 "fe80::1%x")))) by (vm_compute; reflexivity).
    split; [exact E|]. split; [vm_compute; reflexivity|]. eapply ma_scope; [apply ma_of6|exact E]. }
  vm_compute; reflexivity.
Qed.
Example C92_network_ex :
  un_contains (un_of4 (net_at V4 "10.0.0.0/8")) (ua_of4 (addr_at V4 "10.1.2.3")) = Val (Ret true) /\
  un_contains (un_of4 (net_at V4 "10.0.0.0/8")) (ua_of6 (addr_at V6 "::1")) = Val (Ret false) /\
  un_contains (mk_unet V6 (M4 (net_at V4 "10.0.0.0/8"))) (ua_of6 (addr_at V6 "::1")) = Inactive /\
  exists b e j, un_subnets true (un_of6 (net_at V6 "2001:db8::/32")) 1 None = Val (Ret (b, e)) /\ made_s b /\
    ui_add net_uops b 1 = Val (Ret j) /\ un_to_string compressed (ui_cur j) = Val (Ret (str "2001:db8:8000::/33")).
Proof.
  split; [vm_compute; reflexivity|]. split; [vm_compute; reflexivity|]. split; [vm_compute; reflexivity|].
  destruct (un_subnets true (un_of6 (net_at V6 "2001:db8::/32")) 1 None) as [[[b e]|c w|u]| |] eqn:E; try (vm_compute in E; discriminate).
  exists b, e. destruct (ui_add net_uops b 1) as [[j|c w|u]| |] eqn:F.
  - exists j. split; [reflexivity|]. split; [eapply ms_begin; [apply mn_of6|exact E]|]. split; [reflexivity|].
    vm_compute in E. injection E as <- _. vm_compute in F. injection F as <-. vm_compute. reflexivity.
  - exfalso. vm_compute in E. injection E as <- _. vm_compute in F. discriminate.
  - exfalso. vm_compute in E. injection E as <- _. vm_compute in F. discriminate.
  - exfalso. vm_compute in E. injection E as <- _. vm_compute in F. discriminate.
  - exfalso. vm_compute in E. injection E as <- _. vm_compute in F. discriminate.
Qed.
Example C92_wrong_ex : ~ a_ok (mk_ua V4 (M6 (addr_at V6 "::1"))) /\ ua_hash true (mk_ua V4 (M6 (addr_at V6 "::1"))) = Inactive.
Proof. split; [intro H; exact H|vm_compute; reflexivity]. Qed.

