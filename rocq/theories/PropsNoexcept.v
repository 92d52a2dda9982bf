(** Property theorems C78: no exception leaves a function declared noexcept. The
    specification is SpecNoexcept. *)
From Coq Require Import String.
From Verif Require Import Base SpecText V4Model V6Model SpecStr UnicodeModel SpecAddr AddressModel NetworkModel IterModel AnyModel CodeModel SpecOrder SpecNet SpecIter SpecAny NetText SpecNoexcept NetWitness NoexceptLemmas.
Open Scope string_scope.
Open Scope Z_scope.
Open Scope list_scope.

(** Parsing an address with an error code returns, whatever the text, ... *)
Theorem C78_parse : forall v ts code, Forall tok_genuine ts -> returns (parse_st v ts code) /\ returns (any_parse_st ts code).
Proof. exact calm_parse. Qed.
Print Assumptions C78_parse.
(** ... and parsing a network throws nothing (it may shift out of range, C26). *)
Theorem C78_network_parse : forall v ts strict code, Forall tok_genuine ts -> Forall tok_char ts -> ~ throws (net_parse_st v ts strict code) /\ ~ throws (anet_parse_st ts strict code).
Proof. exact calm_net_parse. Qed.
Print Assumptions C78_network_parse.
(** supernet with an error code. *)
Theorem C78_supernet : forall v n c d np, wf_net v n -> 0 <= d -> (forall q, np = Some q -> 0 <= q) -> ~ throws (supernet_code v n c d np).
Proof. exact calm_supernet. Qed.
Print Assumptions C78_supernet.
Theorem C78_any_supernet : forall v n c d np, wf_net v n -> 0 <= d -> (forall q, np = Some q -> 0 <= q) -> ~ throws (anet_supernet_code (mk_an v n) c d np).
Proof. exact calm_any_supernet. Qed.
Print Assumptions C78_any_supernet.
(** subnets throws exactly for IPv6 when the new prefix length overflows size_t: the network iterator is built with a shorter prefix length. *)
Theorem C78_subnets_exact : forall sp v n c d np, wf_net v n -> args_ok d np -> (throws (subnets_code sp v n c d np) <-> v = V6 /\ wraps v n d np).
Proof. exact subnets_throw. Qed.
Print Assumptions C78_subnets_exact.
Theorem C78_any_subnets_exact : forall sp v n c d np, wf_net v n -> args_ok d np -> (throws (any_subnets_code sp (mk_an v n) c d np) <-> v = V6 /\ wraps v n d np).
Proof. exact any_subnets_throw. Qed.
Print Assumptions C78_any_subnets_exact.
(** So the overload with an error code ends the program. *)
Theorem C78_subnets_refuted : exists n d, wf_net V6 n /\ is_size d /\ throws (subnets_code true V6 n no_error d None) /\ throws (any_subnets_code true (mk_an V6 n) no_error d None).
Proof. exact subnets_terminates. Qed.
Print Assumptions C78_subnets_refuted.
Example C78_subnets_ex : wraps V6 (net_at V6 "2001:db8::/32") (2 ^ 64 - 1) None /\ ~ wraps V6 (net_at V6 "2001:db8::/32") (2 ^ 64 - 33) None /\
  subnets_code true V6 (net_at V6 "2001:db8::/32") no_error (2 ^ 64 - 33) None = Ret (subnets_default V6, invalid_prefixlen_diff) /\
  subnets_code true V6 (net_at V6 "2001:db8::/32") no_error (2 ^ 64 - 32) None = Err has_host_bits_set 0.
Proof. split; [split; [reflexivity|split; [reflexivity|vm_compute; discriminate]]|]. split; [intros (_ & _ & H); revert H; vm_compute; intros H; apply H; reflexivity|]. split; vm_compute; reflexivity. Qed.

(** address_exclude with an error code returns for every two networks. *)
Theorem C78_exclude : forall sp v n o c, wf_net v n -> wf_net v o -> returns (exclude_code sp v n o c).
Proof. exact calm_exclude. Qed.
Print Assumptions C78_exclude.
Theorem C78_any_exclude : forall sp v n v' o c, wf_net v n -> wf_net v' o -> returns (any_exclude_code sp (mk_an v n) (mk_an v' o) c).
Proof. exact calm_any_exclude. Qed.
Print Assumptions C78_any_exclude.
(** Iterators over subnets: whatever a program does with them, the next operation returns, ... *)
Theorem C78_iterators : forall sp v it k, subnets_iter sp v it -> returns (nit_add v it k) /\ returns (nit_sub v it k) /\ returns (nit_at v it k) /\ returns (nit_base v it) /\ returns (nit_reverse v it).
Proof. exact iter_moves. Qed.
Print Assumptions C78_iterators.
(** ... comparisons return, ... *)
Theorem C78_iterators_compare : forall sp v a b, subnets_iter sp v a -> subnets_iter sp v b -> returns (nit_eqb v a b) /\ returns (nit_cmp v a b) /\ returns (nit_ltb v a b).
Proof. exact iter_compares. Qed.
Print Assumptions C78_iterators_compare.
(** ... and the difference throws nothing (it may divide by zero). *)
Theorem C78_iterators_difference : forall v a b, ~ throws (nit_uint_diff v a b).
Proof. exact iter_udiff. Qed.
Print Assumptions C78_iterators_difference.
(** Iterators independent of the version. *)
Theorem C78_any_iterators : forall sp x k, asubnets_iter sp x -> 0 <= k < 2 ^ 128 ->
  returns (aiter_add net_ops x k) /\ returns (aiter_sub net_ops x k) /\ returns (aiter_at net_ops x k) /\ returns (aiter_base net_ops x) /\ returns (aiter_reverse net_ops x).
Proof. exact aiter_moves. Qed.
Print Assumptions C78_any_iterators.
Theorem C78_any_iterators_compare : forall sp a b, asubnets_iter sp a -> asubnets_iter sp b ->
  returns (aiter_eqb net_ops a b) /\ returns (aiter_cmp net_ops a b) /\ returns (aiter_ltb net_ops a b) /\ ~ throws (aiter_udiff net_ops a b).
Proof. exact aiter_compares. Qed.
Print Assumptions C78_any_iterators_compare.
Example C78_iterators_ex : exists s, subnets true V4 (net_at V4 "10.0.0.0/8") 8 None = Ret s /\ subnets_iter true V4 (s_begin s) /\
  rmap ni_current (nit_add V4 (s_begin s) (2 ^ 32 - 1)) = Ret (net_at V4 "9.255.0.0/16").
Proof. eexists. split; [vm_compute; reflexivity|]. split; [|vm_compute; reflexivity]. apply (si_begin true V4 (net_at V4 "10.0.0.0/8") 8 None); [wfn|vm_compute; repeat split; discriminate|vm_compute; reflexivity]. Qed.

(** Iterators over an exclusion can be incremented for ever, also past the end. *)
Theorem C78_exclude_iterators : forall sp v it, exclude_iter sp v it -> returns (xit_next sp v it).
Proof. exact xiter_next. Qed.
Print Assumptions C78_exclude_iterators.
Theorem C78_exclude_compare : forall sp v a b, exclude_iter sp v a -> exclude_iter sp v b -> returns (xit_eqb v a b) /\ returns (xit_cmp v a b) /\ returns (xit_ltb v a b).
Proof. exact xiter_compares. Qed.
Print Assumptions C78_exclude_compare.
Theorem C78_any_exclude_iterators : forall sp x, aexclude_iter sp x -> returns (axit_next sp x).
Proof. exact axiter_next. Qed.
Print Assumptions C78_any_exclude_iterators.
Theorem C78_any_exclude_compare : forall sp a b, aexclude_iter sp a -> aexclude_iter sp b -> returns (axit_eqb a b).
Proof. exact axiter_compares. Qed.
Print Assumptions C78_any_exclude_compare.
Example C78_exclude_ex : exists s, address_exclude true V4 (net_at V4 "10.0.0.0/30") (net_at V4 "10.0.0.3/32") = Ret s /\ exclude_iter true V4 (e_begin s) /\ x_current (e_begin s) = net_at V4 "10.0.0.0/31".
Proof. eexists. split; [vm_compute; reflexivity|]. split; [|vm_compute; reflexivity]. apply (xi_begin true V4 (net_at V4 "10.0.0.0/30") (net_at V4 "10.0.0.3/32")); [wfn|wfn|vm_compute; reflexivity]. Qed.

(** The public constructors, also declared noexcept: that of the network iterator throws exactly for an address with host bits, ... *)
Theorem C78_constructor_exact : forall v a step p carry, wf_addr v a -> 0 <= p <= width v -> (throws (nit_make v a step p carry) <-> val a mod 2 ^ (width v - p) <> 0).
Proof. exact make_throw. Qed.
Print Assumptions C78_constructor_exact.
Theorem C78_constructor_refuted : exists a, wf_addr V4 a /\ throws (nit_make V4 a 256 24 0).
Proof. exact constructor_terminates. Qed.
Print Assumptions C78_constructor_refuted.
(** ... that of the exclusion exactly when the excluded network is not inside, or the same. *)
Theorem C78_exclude_constructor_exact : forall sp v n o, wf_net v n -> wf_net v o -> unscoped n -> unscoped o -> n_prefix n < width v ->
  (throws (xit_make sp v n o) <-> ~ (subset v o n /\ n <> o)).
Proof. exact xmake_throw. Qed.
Print Assumptions C78_exclude_constructor_exact.
(** For a single address: unless it or its successor is excluded. *)
Theorem C78_exclude_constructor_host : forall sp v n o, wf_net v n -> wf_net v o -> unscoped n -> unscoped o -> n_prefix n = width v ->
  (throws (xit_make sp v n o) <-> ~ (o = n \/ (n_prefix o = width v /\ first o = (first n + 1) mod 2 ^ width v))).
Proof. exact xmake_host. Qed.
Print Assumptions C78_exclude_constructor_host.
Example C78_exclude_constructor_host_ex : throws (xit_make true V4 (net_at V4 "10.0.0.1/32") (net_at V4 "10.0.0.3/32")) /\ returns (xit_make true V4 (net_at V4 "255.255.255.255/32") (net_at V4 "0.0.0.0/32")).
Proof. split; [right; vm_compute; reflexivity|]. eexists. vm_compute. reflexivity. Qed.

Theorem C78_exclude_constructor_refuted : exists n o, wf_net V4 n /\ wf_net V4 o /\ throws (xit_make true V4 n o) /\ throws (xit_make true V4 n n).
Proof. exact exclusion_terminates. Qed.
Print Assumptions C78_exclude_constructor_refuted.
(** C37 when the sum of the prefix lengths overflows: undefined behaviour for every IPv4 network, the wrong error for every IPv6 network. *)
Theorem C37_overflow_exact : forall sp v n d, wf_net v n -> is_size d -> n_prefix n < width v -> 2 ^ 64 <= n_prefix n + d ->
  subnets sp v n d None = match v with V4 => UB BadShift | V6 => Err has_host_bits_set 0 end.
Proof. exact subnets_overflow. Qed.
Print Assumptions C37_overflow_exact.
Theorem C37_any_overflow_exact : forall sp v n d, wf_net v n -> is_size d -> n_prefix n < width v -> 2 ^ 64 <= n_prefix n + d ->
  any_subnets sp (mk_an v n) d None = match v with V4 => UB BadShift | V6 => Err has_host_bits_set 0 end.
Proof. exact any_subnets_overflow. Qed.
Print Assumptions C37_any_overflow_exact.
Example C37_overflow_exact_ex : wf_net V6 (net_at V6 "2001:db8::/32") /\ is_size (2 ^ 64 - 32) /\ n_prefix (net_at V6 "2001:db8::/32") < width V6 /\ 2 ^ 64 <= n_prefix (net_at V6 "2001:db8::/32") + (2 ^ 64 - 32) /\
  subnets true V6 (net_at V6 "2001:db8::/32") (2 ^ 64 - 32) None = Err has_host_bits_set 0.
Proof. split; [wfn|]. split; [vm_compute; split; [discriminate|reflexivity]|]. split; [reflexivity|]. split; [vm_compute; discriminate|]. vm_compute. reflexivity. Qed.

