(** Property theorems C76: default-constructed objects. [zero_text] and
    [everything] of DefaultLemmas are literals. *)
From Coq Require Import String.
From Verif Require Import Base V4Model V6Model SpecStr AddressModel SpecOrder NetworkModel SpecNet IterModel SpecIter AnyModel ClassifyModel NetWitness
  DefaultLemmas.
Open Scope string_scope.
Open Scope Z_scope.
Open Scope list_scope.

(** A default address is what 0.0.0.0 or :: parses to, the unspecified one and the first in the order. *)
Theorem C76_address : forall v, wf_addr v (addr_default v) /\ addr_parse v (chars (zero_text v)) = Ret (addr_default v) /\
  (forall a, wf_addr v a -> (is_unspecified a = true <-> a_bytes a = a_bytes (addr_default v))) /\ forall a, wf_addr v a -> ~ addr_before a (addr_default v).
Proof. exact default_addr. Qed.
Print Assumptions C76_address.
(** A default network holds that address alone. *)
Theorem C76_network : forall v, wf_net v (net_default v) /\ net_parse v (chars (zero_text v)) true = Ret (net_default v) /\
  forall a, wf_addr v a -> (contains (net_default v) a = true <-> is_unspecified a = true).
Proof. exact default_net. Qed.
Print Assumptions C76_network.
(** The version-independent classes default to IPv4. *)
Theorem C76_any : any_parse (chars (str "0.0.0.0")) = Ret aa_default /\ anet_parse (chars (str "0.0.0.0")) true = Ret an_default /\
  (forall x, any_eqb x aa_default = Ret true -> aa_ver x = V4) /\ (forall x, anet_eqb x an_default = Ret true -> an_ver x = V4).
Proof. exact default_any. Qed.
Print Assumptions C76_any.
Example C76_values_ex : addr_to_string V4 (addr_default V4) compressed = Ret (str "0.0.0.0") /\ addr_to_string V6 (addr_default V6) compressed = Ret (str "::") /\
  any_to_string aa_default compressed = Ret (str "0.0.0.0") /\ anet_to_string an_default compressed = Ret (str "0.0.0.0/32") /\ contains (net_default V6) (addr_at V6 "::1") = false.
Proof. repeat split; vm_compute; reflexivity. Qed.

(** A default address iterator stands at address zero. *)
Theorem C76_address_iterator : forall v k, 0 <= k < 2 ^ width v -> exists x, ait_add v (ait_default v) k = Ret x /\ wf_addr v (it_current x) /\ val (it_current x) = k /\ it_carry x = 0.
Proof. exact default_ait. Qed.
Print Assumptions C76_address_iterator.
(** A default network iterator moves to the network of all addresses and stays there, ... *)
Theorem C76_network_iterator : forall v k, ni_current (nit_default v) = net_default v /\
  (exists x, nit_add v (nit_default v) k = Ret x /\ ni_current x = everything v /\ nit_add v x k = Ret x /\ nit_sub v x k = Ret x) /\
  forall a, wf_addr v a -> contains (everything v) a = true.
Proof. exact default_nit. Qed.
Print Assumptions C76_network_iterator.
(** The version-independent iterators start as IPv4 ones. *)
Theorem C76_any_iterator : host_aiter_default = aiter_make host_ops V4 (ait_default V4) /\ net_aiter_default = aiter_make net_ops V4 (nit_default V4) /\
  (forall k, 0 <= k < 2 ^ 32 -> exists x, aiter_add host_ops host_aiter_default k = Ret x /\ ai_ver x = V4 /\ aa_ver (ai_cur x) = V4 /\ val (aa_addr (ai_cur x)) = k) /\
  forall k, exists x, aiter_add net_ops net_aiter_default k = Ret x /\ ai_cur x = mk_an V4 (everything V4).
Proof. exact default_aiter. Qed.
Print Assumptions C76_any_iterator.
(** ... and the number of steps between such iterators is undefined for IPv4. *)
Theorem C76_network_iterator_diff : forall v x, nit_uint_diff v (nit_default v) x = match v with V4 => UB DivByZero | V6 => Ret 0 end.
Proof. exact default_diff. Qed.
Print Assumptions C76_network_iterator_diff.
Example C76_iterators_ex : (exists x, ait_add V4 (ait_default V4) 256 = Ret x /\ it_current x = addr_at V4 "0.0.1.0") /\
  (exists x, nit_next V6 (nit_default V6) = Ret x /\ ni_current x = net_at V6 "::/0" /\ contains (ni_current x) (addr_at V6 "2001:db8::1") = true).
Proof. split; (eexists; split; [vm_compute; reflexivity|]); [vm_compute; reflexivity|split; vm_compute; reflexivity]. Qed.

(** Default sequences are empty in both directions. *)
Theorem C76_subnets : forall v k, s_size (subnets_default v) = 0 /\ subnets_empty v (subnets_default v) = Ret true /\
  subnets_walk v k (s_begin (subnets_default v)) (s_end (subnets_default v)) = Ret [] /\
  exists x y, subnets_rbegin v (subnets_default v) = Ret x /\ subnets_rend v (subnets_default v) = Ret y /\ subnets_rwalk v k x y = Ret [].
Proof. exact default_subnets. Qed.
Print Assumptions C76_subnets.
Theorem C76_exclude : forall sp v k, exclude_walk sp v k (e_begin (exclude_default v)) (e_end (exclude_default v)) = Ret [] /\
  aexclude_walk sp k (ae_begin aexclude_default) (ae_end aexclude_default) = Ret [] /\
  x_current (xit_default v) = net_default v /\ xit_next sp v (xit_default v) = Ret (xit_default v) /\ axit_next sp axit_default = Ret axit_default.
Proof. exact default_exclude. Qed.
Print Assumptions C76_exclude.
(** A failed subnets gives such a sequence; the size of the version-independent one is undefined for IPv4. *)
Theorem C76_failed_subnets : forall sp v n d np s e, subnets_code sp v n no_error d np = Ret (s, e) -> e <> no_error ->
  s = subnets_default v /\ exists s', any_subnets_code sp (mk_an v n) no_error d np = Ret (s', e) /\ aseq_empty net_ops s' = Ret true /\ aseq_size net_ops s' = match v with V4 => UB DivByZero | V6 => Ret 0 end.
Proof. exact failed_subnets. Qed.
Print Assumptions C76_failed_subnets.
Example C76_failed_ex : subnets_code true V4 (net_at V4 "192.0.2.0/24") no_error 9 None = Ret (subnets_default V4, invalid_prefixlen_diff) /\
  subnets_code true V6 (net_at V6 "2001:db8::/32") no_error 1 (Some 31) = Ret (subnets_default V6, new_prefix_must_be_longer).
Proof. split; vm_compute; reflexivity. Qed.

