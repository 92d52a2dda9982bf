(** Property theorems C71: the throwing functions in builds with
    IPADDRESS_NO_EXCEPTIONS ([nx_...]).  SpecNoThrow: [silent d t s], [s] returns
    [d] where [t] throws and otherwise does what [t] does; [nothing k], what a
    class gets for a text it does not accept. *)
From Coq Require Import String.
From Verif Require Import Base UnicodeModel FixedStringModel SpecStr V4Model V6Model AddressModel SpecOrder NetworkModel SpecNet IterModel SpecIter AnyModel SpecAny CodeModel
  StreamModel SpecStream LiteralModel SpecLiteral ScopeModel NetWitness NoThrowModel SpecNoThrow NoThrowProofs.

(** parse of strings, of arrays, and the literal operators. *)
Theorem C71_string : forall T k strict s, silent (nothing k) (string_of T k strict s) (nx_string_of T k strict s).
Proof. exact nx_string_silent. Qed.
Print Assumptions C71_string.
Theorem C71_array : forall T k strict data, silent (nothing k) (array_of T k strict data) (nx_array_of T k strict data).
Proof. exact nx_array_silent. Qed.
Print Assumptions C71_array.
Theorem C71_literal : forall T k s, zlen s <= longest k -> silent (nothing k) (literal_of T k s) (nx_literal_of T k s).
Proof. exact nx_literal_silent. Qed.
Print Assumptions C71_literal.
(** A function that is silent does not throw. *)
Theorem C71_never : forall (A : Type) (d : A) t s, silent d t s -> forall e x, s <> Err e x.
Proof. exact silent_never. Qed.
Print Assumptions C71_never.
Example C71_string_ex : nx_string_of TChar16 (KAddr V4) true (str "10.0.0.7") = Ret (OAddr V4 (addr_at V4 "10.0.0.7")) /\
  string_of TChar16 (KAddr V4) true (str "10.0.0.777") = Err octet_exceeded_255 3 /\
  nx_string_of TChar16 (KAddr V4) true (str "10.0.0.777") = Ret (OAddr V4 (addr_at V4 "0.0.0.0")).
Proof. repeat split; vm_compute; reflexivity. Qed.

(** Against the overloads with a code: the same object where that reports no error, [nothing] where it does ... *)
Theorem C71_code : forall T k strict s code o c, coded_of T k strict s code = Ret (o, c) -> nx_string_of T k strict s = Ret (if ok c then o else nothing k).
Proof. exact nx_coded. Qed.
Print Assumptions C71_code.
Theorem C71_code_default : forall T k strict s code o c, coded_of T k strict s code = Ret (o, c) -> c <> no_error -> o = default_of k.
Proof. exact coded_default. Qed.
Print Assumptions C71_code_default.
(** ... so for addresses and networks of one version the object is always the same; *)
Theorem C71_code_same : forall T k strict s code o c, k <> KAny -> k <> KAnyNet -> coded_of T k strict s code = Ret (o, c) -> nx_string_of T k strict s = Ret o.
Proof. exact nx_coded_same. Qed.
Print Assumptions C71_code_same.
(** for the version-erased classes it is not: the default of IPv6 instead of the one of IPv4. *)
Theorem C71_code_refuted : exists s c, coded_of TChar KAny true s no_error = Ret (default_of KAny, c) /\ c <> no_error /\ nx_string_of TChar KAny true s = Ret (nothing KAny) /\
  nothing KAny <> default_of KAny.
Proof. exact nothing_differs. Qed.
Print Assumptions C71_code_refuted.
(** A literal that is too long is cut off instead of rejected; *)
Theorem C71_literal_long : forall T k s, longest k < zlen s ->
  literal_of T k s = Err string_is_too_long 0 /\ nx_literal_of T k s = nx_literal_of T k (firstn (Z.to_nat (longest k)) s).
Proof. exact nx_literal_long. Qed.
Print Assumptions C71_literal_long.
(** so it can become an address its text does not denote. *)
Theorem C71_literal_refuted : exists s a, literal_of TChar (KAddr V4) s = Err string_is_too_long 0 /\ string_of TChar (KAddr V4) true s <> Ret a /\
  nx_literal_of TChar (KAddr V4) s = Ret a /\ a <> default_of (KAddr V4) /\ a = OAddr V4 (addr_at V4 "192.168.100.100").
Proof. exact literal_cut. Qed.
Print Assumptions C71_literal_refuted.
(** fixed_string: the same where nothing is wrong, otherwise what precedes the unit that is wrong. *)
Theorem C71_fixed_string : forall next n data g, fs_make next n data = Ret g -> nx_fs_make next n data = Ret g.
Proof. exact nx_make_ok. Qed.
Print Assumptions C71_fixed_string.
Theorem C71_fixed_string_cut : forall T n a b rest, wide T -> Forall (unit_ok T) (a ++ b :: rest) -> (List.length a < n)%nat -> (n <= List.length (a ++ b :: rest))%nat ->
  Forall is_ascii a -> ~ In 0 a -> ~ is_ascii b -> exists f, nx_fs_make (reader_of T) n (a ++ b :: rest) = Ret f /\ fs_chars f = a.
Proof. exact nx_make_cut. Qed.
Print Assumptions C71_fixed_string_cut.
Theorem C71_fixed_string_refuted : exists data f, fs_make (reader_of TChar16) (cap data) data = Err unexpected_symbol 1077 /\
  nx_fs_make (reader_of TChar16) (cap data) data = Ret f /\ fs_chars f = str "10.0.0.1".
Proof. exact string_cut. Qed.
Print Assumptions C71_fixed_string_refuted.
(** set_scope_id: on an error the object stays as it is. *)
Theorem C71_scope : forall T a s, silent a (scope_set T a s) (nx_scope_set T a s).
Proof. exact nx_scope_silent. Qed.
Print Assumptions C71_scope.
Theorem C71_scope_array : forall T a data, silent a (scope_set_array T a data) (nx_scope_set_array T a data).
Proof. exact nx_scope_array_silent. Qed.
Print Assumptions C71_scope_array.
Theorem C71_any_scope : forall T x s, silent x (any_scope_set T x s) (nx_any_scope_set T x s).
Proof. exact nx_any_scope_silent. Qed.
Print Assumptions C71_any_scope.
Theorem C71_any_scope_array : forall T x data, silent x (any_scope_set_array T x data) (nx_any_scope_set_array T x data).
Proof. exact nx_any_scope_array_silent. Qed.
Print Assumptions C71_any_scope_array.
(** Networks: the default network. *)
Theorem C71_from_address : forall v a p strict, silent (net_default v) (from_address v a p strict) (nx_from_address v a p strict).
Proof. exact nx_from_address_silent'. Qed.
Print Assumptions C71_from_address.
Theorem C71_supernet : forall v n d np, silent (net_default v) (supernet v n d np) (nx_supernet v n d np).
Proof. exact nx_supernet_silent'. Qed.
Print Assumptions C71_supernet.
Theorem C71_any_from_address : forall v a p strict, silent (mk_an v (net_default v)) (anet_from_address (mk_aa v a) p strict) (nx_anet_from_address (mk_aa v a) p strict).
Proof. exact nx_anet_from_silent. Qed.
Print Assumptions C71_any_from_address.
Theorem C71_any_supernet : forall v n d np, silent (mk_an v (net_default v)) (anet_supernet (mk_an v n) d np) (nx_anet_supernet (mk_an v n) d np).
Proof. exact nx_anet_supernet_silent. Qed.
Print Assumptions C71_any_supernet.
(** Sequences: the default one, which is empty. *)
Theorem C71_subnets : forall sp v n d np, wf_net v n -> args_ok d np -> (np = None -> n_prefix n + d < 2 ^ 64) ->
  silent (subnets_default v) (subnets sp v n d np) (nx_subnets sp v n d np).
Proof. exact nx_subnets_silent. Qed.
Print Assumptions C71_subnets.
Theorem C71_any_subnets : forall sp v n d np, wf_net v n -> args_ok d np -> (np = None -> n_prefix n + d < 2 ^ 64) ->
  silent (aseq_make net_ops v (nit_default v) (nit_default v)) (any_subnets sp (mk_an v n) d np) (nx_any_subnets sp (mk_an v n) d np).
Proof. exact nx_any_subnets_silent. Qed.
Print Assumptions C71_any_subnets.
Theorem C71_subnets_empty : forall v k, nx_subnets_walk v k (s_begin (subnets_default v)) (s_end (subnets_default v)) = Ret [] /\
  nx_aseq_walk k (q_begin (aseq_make net_ops v (nit_default v) (nit_default v))) (q_end (aseq_make net_ops v (nit_default v) (nit_default v))) = Ret [].
Proof. exact nx_default_walk. Qed.
Print Assumptions C71_subnets_empty.
Theorem C71_subnets_walk : forall v k s l, subnets_walk v k (s_begin s) (s_end s) = Ret l -> nx_subnets_walk v k (s_begin s) (s_end s) = Ret l.
Proof. exact nx_subnets_walk_ok. Qed.
Print Assumptions C71_subnets_walk.
Theorem C71_any_subnets_walk : forall k (s : aseq nit anet) l, aseq_walk net_ops k (q_begin s) (q_end s) = Ret l -> nx_aseq_walk k (q_begin s) (q_end s) = Ret l.
Proof. exact nx_aseq_walk_ok. Qed.
Print Assumptions C71_any_subnets_walk.
(** Without the bound on the sum a sequence of default networks is possible. *)
Theorem C71_subnets_refuted : exists n s, wf_net V6 n /\ args_ok (2 ^ 64 - 1) None /\ subnets true V6 n (2 ^ 64 - 1) None = Err has_host_bits_set 0 /\
  nx_subnets true V6 n (2 ^ 64 - 1) None = Ret s /\ subnets_front s = net_default V6 /\ s <> subnets_default V6.
Proof. exact subnets_wrap. Qed.
Print Assumptions C71_subnets_refuted.
Theorem C71_exclude : forall sp v n o, wf_net v n -> wf_net v o -> silent (exclude_default v) (address_exclude sp v n o) (nx_exclude sp v n o).
Proof. exact nx_exclude_silent. Qed.
Print Assumptions C71_exclude.
Theorem C71_any_exclude : forall sp v n v' o, wf_net v n -> wf_net v' o ->
  silent aexclude_default (any_exclude sp (mk_an v n) (mk_an v' o)) (nx_any_exclude sp (mk_an v n) (mk_an v' o)).
Proof. exact nx_any_exclude_silent. Qed.
Print Assumptions C71_any_exclude.
Theorem C71_exclude_empty : forall sp v k, nx_exclude_walk sp v k (e_begin (exclude_default v)) (e_end (exclude_default v)) = Ret [] /\
  nx_aexclude_walk sp k (ae_begin aexclude_default) (ae_end aexclude_default) = Ret [].
Proof. exact nx_default_exclude. Qed.
Print Assumptions C71_exclude_empty.
Theorem C71_exclude_walk : forall sp v k i j l, exclude_walk sp v k i j = Ret l -> nx_exclude_walk sp v k i j = Ret l.
Proof. exact nx_exclude_walk_ok. Qed.
Print Assumptions C71_exclude_walk.
Theorem C71_any_exclude_walk : forall sp k i j l, aexclude_walk sp k i j = Ret l -> nx_aexclude_walk sp k i j = Ret l.
Proof. exact nx_aexclude_walk_ok. Qed.
Print Assumptions C71_any_exclude_walk.
(** An exclusion iterator constructed for a network that is not inside: the constructor throws std::out_of_range; without exceptions the iterator never moves, *)
Theorem C71_exclude_stuck : forall sp v n o, wf_net v n -> wf_net v o -> unscoped n -> unscoped o -> ~ subset v o n -> n_prefix n < width v ->
  xit_make sp v n o = UB AssertFailed /\ exists it, nx_xit_make sp v n o = Ret it /\ x_current it = n /\ nx_xit_next sp v it = Ret it.
Proof. exact nx_stuck. Qed.
Print Assumptions C71_exclude_stuck.
(** and a loop over it does not end. *)
Theorem C71_exclude_endless : forall sp v n o k, wf_net v n -> wf_net v o -> unscoped n -> unscoped o -> ~ subset v o n -> 0 < n_prefix n < width v ->
  exists it, nx_xit_make sp v n o = Ret it /\ nx_exclude_walk sp v k it (xit_default v) = UB OutOfFuel.
Proof. exact nx_stuck_walk. Qed.
Print Assumptions C71_exclude_endless.
Example C71_network_ex : from_address V4 (addr_at V4 "10.0.0.1") 8 true = Err has_host_bits_set 0 /\
  nx_from_address V4 (addr_at V4 "10.0.0.1") 8 true = Ret (net_default V4) /\
  nx_supernet V4 (net_at V4 "10.0.0.0/8") 1 None = Ret (net_at V4 "10.0.0.0/7") /\
  nx_supernet V4 (net_at V4 "10.0.0.0/8") 9 None = Ret (net_default V4) /\
  (s <- nx_subnets false V4 (net_at V4 "10.0.0.0/30") 1 None ;; nx_subnets_walk V4 2 (s_begin s) (s_end s)) = Ret [net_at V4 "10.0.0.0/31"; net_at V4 "10.0.0.2/31"] /\
  (s <- nx_exclude false V4 (net_at V4 "10.0.0.0/30") (net_at V4 "10.0.0.2/31") ;; nx_exclude_walk false V4 1 (e_begin s) (e_end s)) = Ret [net_at V4 "10.0.0.0/31"] /\
  nx_exclude false V4 (net_at V4 "10.0.0.0/30") (net_at V4 "10.0.0.0/8") = Ret (exclude_default V4).
Proof. repeat split; vm_compute; reflexivity. Qed.
Example C71_scope_ex : scope_set TChar (addr_at V6 "fe80::1%eth0") (str "a scope id of more than 16") = Err scope_id_is_too_long 0 /\
  nx_scope_set TChar (addr_at V6 "fe80::1%eth0") (str "a scope id of more than 16") = Ret (addr_at V6 "fe80::1%eth0") /\
  nx_scope_set TChar (addr_at V6 "fe80::1%eth0") (str "lo") = Ret (addr_at V6 "fe80::1%lo").
Proof. repeat split; vm_compute; reflexivity. Qed.
Example C71_stuck_ex : xit_make true V4 (net_at V4 "10.0.0.0/8") (net_at V4 "192.168.0.0/16") = UB AssertFailed /\
  exists it, nx_xit_make true V4 (net_at V4 "10.0.0.0/8") (net_at V4 "192.168.0.0/16") = Ret it /\ x_current it = net_at V4 "10.0.0.0/8" /\ nx_xit_next true V4 it = Ret it.
Proof. split; [vm_compute; reflexivity|]. eexists. split; [vm_compute; reflexivity|]. split; vm_compute; reflexivity. Qed.

