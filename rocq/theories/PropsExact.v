(** Property theorems on scope ids in comparisons (C15, C23, C30, C49): exactly
    what the operators written before C++20 and subnet_of compute when the scope
    ids differ.  [either_before]: smaller by the number or by the scope id
    (SpecExact). *)
From Coq Require Import String.
From Verif Require Import Base UnicodeModel FixedStringModel V4Model V6Model Uint128Model SpecAddr SpecStr SpecV6 SpecOrder AddressModel AddressProofs NetworkModel IterModel ClassifyModel
  SpecNet NetText NetWitness IterLemmas AnyModel SpecAny SpecExact ExactProofs.

(** The older operators, for all scope ids; *)
Theorem C15_older_exact : forall v a b, wf_addr v a -> wf_addr v b ->
  exists lt gt le ge, op_lt false v a b = Ret lt /\ op_gt false v a b = Ret gt /\ op_le false v a b = Ret le /\ op_ge false v a b = Ret ge /\
    (lt = true <-> either_before a b) /\ (gt = true <-> either_before b a) /\
    (le = true <-> ~ either_before b a) /\ (ge = true <-> ~ either_before a b).
Proof. exact older_exact. Qed.
Print Assumptions C15_older_exact.
(** they give the C++20 answer exactly when this fails. *)
Theorem C15_families_agree : forall v a b, wf_addr v a -> wf_addr v b ->
  (op_lt false v a b = op_lt true v a b <-> ~ (val b < val a /\ lex_lt (a_scope a) (a_scope b))).
Proof. exact families_agree. Qed.
Print Assumptions C15_families_agree.
Example C15_older_ex : wf_addr V6 ex_a /\ wf_addr V6 ex_b /\ op_lt false V6 ex_b ex_a = Ret true /\ op_lt true V6 ex_b ex_a = Ret false /\ val ex_a < val ex_b.
Proof. destruct ex_ab_wf. do 2 (split; [assumption|]). split; [vm_compute; reflexivity|]. split; [vm_compute; reflexivity|]. vm_compute. reflexivity. Qed.

(** subnet_of and supernet_of with any scope ids, in both operator families: inclusion and a condition on the scope ids. *)
Theorem C23_scope_ids : forall sp v a b, wf_net v a -> wf_net v b ->
  exists r, subnet_of sp v a b = Ret r /\ supernet_of sp v b a = Ret r /\ (r = true <-> subset v a b /\ scopes_allow sp a b).
Proof. exact subnet_exact. Qed.
Print Assumptions C23_scope_ids.
(** Hence it is a partial order on all networks, whatever their scope ids. *)
Theorem C23_reflexive : forall sp v a, wf_net v a -> subnet_of sp v a a = Ret true /\ supernet_of sp v a a = Ret true.
Proof. exact subnet_refl. Qed.
Print Assumptions C23_reflexive.
Theorem C23_antisymmetric_scoped : forall sp v a b, wf_net v a -> wf_net v b -> subnet_of sp v a b = Ret true -> subnet_of sp v b a = Ret true -> a = b.
Proof. exact subnet_antisym. Qed.
Print Assumptions C23_antisymmetric_scoped.
Theorem C23_transitive_scoped : forall sp v a b c, wf_net v a -> wf_net v b -> wf_net v c ->
  subnet_of sp v a b = Ret true -> subnet_of sp v b c = Ret true -> subnet_of sp v a c = Ret true.
Proof. exact subnet_trans. Qed.
Print Assumptions C23_transitive_scoped.
Example C23_order_ex : let a := net_at V6 "fe80::%b/96" in let b := net_at V6 "fe80::%a/80" in let c := net_at V6 "fe80::/64" in
  wf_net V6 a /\ wf_net V6 b /\ wf_net V6 c /\ subnet_of false V6 a b = Ret true /\ subnet_of false V6 b c = Ret true /\ subnet_of true V6 a b = Ret true /\ subnet_of true V6 b a = Ret false.
Proof. split; [wfn|]. split; [wfn|]. split; [wfn|]. repeat split; vm_compute; reflexivity. Qed.
Example C23_scope_ids_ex : let a := net_at V6 "fe80::1/128" in let b := net_at V6 "fe80::%a/64" in wf_net V6 a /\ wf_net V6 b /\
  subnet_of true V6 a b = Ret true /\ subnet_of false V6 a b = Ret false.
Proof. split; [wfn|]. split; [wfn|]. split; reflexivity. Qed.

(** Networks in the older operators. *)
Theorem C30_older_exact : forall v a b, wf_net v a -> wf_net v b ->
  exists lt gt le ge, nop_lt false v a b = Ret lt /\ nop_gt false v a b = Ret gt /\ nop_le false v a b = Ret le /\ nop_ge false v a b = Ret ge /\
    (lt = true <-> net_either_before a b) /\ (gt = true <-> net_either_before b a) /\
    (le = true <-> ~ net_either_before b a) /\ (ge = true <-> ~ net_either_before a b).
Proof. exact net_older_exact. Qed.
Print Assumptions C30_older_exact.
Example C30_older_ex : let a := net_at V6 "fe80::%b/64" in let b := net_at V6 "fe81::%a/64" in wf_net V6 a /\ wf_net V6 b /\
  nop_lt false V6 a b = Ret true /\ nop_lt false V6 b a = Ret true /\ nop_le false V6 a b = Ret false.
Proof. split; [wfn|]. split; [wfn|]. split; [reflexivity|]. split; reflexivity. Qed.

(** Version-erased addresses and networks. *)
Theorem C49_older_exact : forall x y, wf_any x -> wf_any y ->
  exists lt gt le ge, any_lt false x y = Ret lt /\ any_gt false x y = Ret gt /\ any_le false x y = Ret le /\ any_ge false x y = Ret ge /\
    (lt = true <-> any_either_before x y) /\ (gt = true <-> any_either_before y x) /\
    (le = true <-> ~ any_either_before y x) /\ (ge = true <-> ~ any_either_before x y).
Proof. exact any_older_exact. Qed.
Print Assumptions C49_older_exact.
Theorem C49_network_less_exact : forall x y, wf_anet x -> wf_anet y -> exists r, anet_ltb x y = Ret r /\ (r = true <-> anet_either_before x y).
Proof. exact anet_less_exact. Qed.
Print Assumptions C49_network_less_exact.
Theorem C49_subnet_exact : forall sp x y, wf_anet x -> wf_anet y ->
  exists r, anet_subnet_of sp x y = Ret r /\ anet_supernet_of sp y x = Ret r /\
    (r = true <-> (forall a, any_member x a -> any_member y a) /\ scopes_allow sp (an_net x) (an_net y)).
Proof. exact anet_subnet_exact. Qed.
Print Assumptions C49_subnet_exact.
(** So the older operators are not an order. *)
Theorem C49_older_operators_refuted : exists x y, wf_any x /\ wf_any y /\ any_lt false x y = Ret true /\ any_lt false y x = Ret true.
Proof. exact any_less_wrong. Qed.
Print Assumptions C49_older_operators_refuted.
Example C49_exact_ex : let a := mk_an V6 (net_at V6 "fe80::1/128") in let b := mk_an V6 (net_at V6 "fe80::%a/64") in wf_anet a /\ wf_anet b /\
  anet_subnet_of true a b = Ret true /\ anet_subnet_of false a b = Ret false.
Proof. split; [apply net_at_wf; reflexivity|]. split; [apply net_at_wf; reflexivity|]. split; reflexivity. Qed.
