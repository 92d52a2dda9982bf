(** Property theorems C32, C33, C36, C38, C41, C50 at the edges: what happens, element
    by element, in the cases that the theorems of PropsIter, PropsClass and
    PropsAny leave out.  SpecEdge: elements counted with numbers that wrap around. *)
From Coq Require Import String.
From Verif Require Import Base SpecAddr V4Model V6Model AddressModel SpecOrder NetworkModel SpecNet IterModel SpecIter ClassifyModel SpecClass AnyModel SpecAny NetWitness IterLemmas
  ClassifyProofs2 SpecEdge ExcludeOne EdgeLemmas.
Open Scope string_scope.
Open Scope Z_scope.
Open Scope list_scope.

(** The loop over hosts() of a network at the top of the address space visits its hosts, then the whole address space from 0 on, its hosts included. *)
Theorem C32_at_top_elements : forall sp v n s, wf_net v n -> hosts sp v n = Ret s -> hosts_short v n ->
  exists l, hosts_walk v (Z.to_nat (2 ^ width v + hosts_cnt v n)) (h_begin s) (h_end s) = Ret l /\ Z.of_nat (length l) = 2 ^ width v + hosts_cnt v n /\
    forall i, (i < length l)%nat -> exists a, nth_error l i = Some a /\ nth_addr_round v (hosts_lo v n) (Z.of_nat i) a.
Proof. exact hosts_round. Qed.
Print Assumptions C32_at_top_elements.
(** Backwards: down from the last address of the space, through 0 and around. *)
Theorem C33_hosts_at_top_elements : forall sp v n s, wf_net v n -> hosts sp v n = Ret s -> hosts_short v n ->
  exists rb re, hosts_rbegin v s = Ret rb /\ hosts_rend v s = Ret re /\
  exists l, hosts_rwalk v (Z.to_nat (2 ^ width v + hosts_cnt v n)) rb re = Ret l /\ Z.of_nat (length l) = 2 ^ width v + hosts_cnt v n /\
    forall i, (i < length l)%nat -> exists a, nth_error l i = Some a /\ nth_addr_round v (2 ^ width v - 1) (- Z.of_nat i) a.
Proof. exact hosts_rround. Qed.
Print Assumptions C33_hosts_at_top_elements.
Example C32_at_top_ex : wf_net V4 (net_at V4 "255.255.255.254/31") /\ hosts_short V4 (net_at V4 "255.255.255.254/31") /\
  exists s, hosts true V4 (net_at V4 "255.255.255.254/31") = Ret s /\ hosts_lo V4 (net_at V4 "255.255.255.254/31") = 4294967294 /\
  nth_addr_round V4 4294967294 2 (addr_at V4 "0.0.0.0").
Proof.
  destruct top31. split; [assumption|]. split; [assumption|]. eexists. split; [vm_compute; reflexivity|]. split; [vm_compute; reflexivity|].
  split; [split; [apply addr_at_wf; reflexivity|reflexivity]|vm_compute; reflexivity].
Qed.

(** subnets() of a network at the top, forwards ... *)
Theorem C36_at_top_elements : forall sp v n d np q s, wf_net v n -> args_ok d np -> asked v n d np q -> defined v n q -> subnets sp v n d np = Ret s -> subnets_short v n ->
  exists l, subnets_walk v (Z.to_nat (2 ^ q + s_size s)) (s_begin s) (s_end s) = Ret l /\ Z.of_nat (length l) = 2 ^ q + s_size s /\
    forall i, (i < length l)%nat -> exists m, nth_error l i = Some m /\ nth_net_round v (first n) q (Z.of_nat i) m.
Proof. exact sub_round. Qed.
Print Assumptions C36_at_top_elements.
(** ... and backwards, with the exact number of steps. *)
Theorem C33_subnets_at_top_elements : forall sp v n d np q s, wf_net v n -> args_ok d np -> asked v n d np q -> defined v n q -> subnets sp v n d np = Ret s -> subnets_short v n ->
  exists rb re, subnets_rbegin v s = Ret rb /\ subnets_rend v s = Ret re /\
  (exists l, subnets_rwalk v (Z.to_nat (2 ^ q + s_size s)) rb re = Ret l /\ Z.of_nat (length l) = 2 ^ q + s_size s /\
     forall i, (i < length l)%nat -> exists m, nth_error l i = Some m /\ nth_net_round v (2 ^ width v) q (- 1 - Z.of_nat i) m) /\
  forall k, Z.of_nat k < 2 ^ q + s_size s -> subnets_rwalk v k rb re = UB OutOfFuel.
Proof. exact sub_rround. Qed.
Print Assumptions C33_subnets_at_top_elements.
(** 255.255.255.128/25 has two subnets of prefix length 26; the loop backwards over them needs more than 2^26 steps. *)
Theorem C33_subnets_refuted : exists v n s rb re, wf_net v n /\ subnets true v n 1 None = Ret s /\ s_size s = 2 /\ subnets_rbegin v s = Ret rb /\ subnets_rend v s = Ret re /\
  forall k, Z.of_nat k < 2 ^ 26 -> subnets_rwalk v k rb re = UB OutOfFuel.
Proof. exact sub_rforever. Qed.
Print Assumptions C33_subnets_refuted.
Example C36_at_top_ex : let n := net_at V4 "255.255.255.128/25" in wf_net V4 n /\ args_ok 1 None /\ asked V4 n 1 None 26 /\ defined V4 n 26 /\ subnets_short V4 n /\
  exists s, subnets true V4 n 1 None = Ret s /\ nth_net_round V4 (first n) 26 2 (net_at V4 "0.0.0.0/26").
Proof.
  cbv zeta. split; [wfn|]. split; [split; [split; vm_compute; congruence|exact I]|]. split; [right; split; [reflexivity|]; exists 1; repeat split; discriminate|].
  split; [split; [reflexivity|right; discriminate]|]. split; [split; [reflexivity|split; reflexivity]|]. eexists. split; [vm_compute; reflexivity|].
  split; [wfn|]. split; [reflexivity|]. split; [reflexivity|vm_compute; reflexivity].
Qed.

(** Excluding 0.0.0.1/32 (::1/128): all pieces but the last one, which holds only the address 0 and equals the end marker. *)
Theorem C38_one_exact : forall sp v n o, wf_net v n -> wf_net v o -> subset v o n -> n_prefix n < n_prefix o -> is_one v o ->
  exists s l, address_exclude sp v n o = Ret s /\
    exclude_walk sp v (Z.to_nat (n_prefix o - n_prefix n - 1)) (e_begin s) (e_end s) = Ret l /\
    Z.of_nat (length l) = n_prefix o - n_prefix n - 1 /\
    (forall i, (i < length l)%nat -> exists m, nth_error l i = Some m /\ wf_net v m /\ n_prefix m = n_prefix n + 1 + Z.of_nat i /\ disjoint v m o) /\
    (forall i j a b, (i < j)%nat -> nth_error l i = Some a -> nth_error l j = Some b -> disjoint v a b) /\
    (forall x, (exists m, In m l /\ in_net v m x) <-> in_net v n x /\ 2 <= x) /\
    (forall k, Z.of_nat k < n_prefix o - n_prefix n - 1 -> exclude_walk sp v k (e_begin s) (e_end s) = UB OutOfFuel).
Proof. exact exclude_one_all. Qed.
Print Assumptions C38_one_exact.
Example C38_one_ex : let n := net_at V4 "0.0.0.0/30" in let o := net_at V4 "0.0.0.1/32" in wf_net V4 n /\ wf_net V4 o /\ subset V4 o n /\ is_one V4 o /\
  exists s, address_exclude true V4 n o = Ret s /\ exclude_walk true V4 1 (e_begin s) (e_end s) = Ret [net_at V4 "0.0.0.2/31"].
Proof.
  cbv zeta. split; [wfn|]. split; [wfn|]. split; [intros x K; change (0 <= x < 4); change (1 <= x < 2) in K; lia|]. split; [split; reflexivity|].
  eexists. split; [vm_compute; reflexivity|]. vm_compute. reflexivity.
Qed.

(** The version-erased exclusion does the same as the IPv4 one, 0.0.0.1/32 included. *)
Theorem C50_exclude_v4 : forall sp n o, wf_net V4 n -> wf_net V4 o ->
  match address_exclude sp V4 n o with
  | Ret s => exists s', any_exclude sp (mk_an V4 n) (mk_an V4 o) = Ret s' /\ forall k, aexclude_walk sp k (ae_begin s') (ae_end s') = rmap (map (mk_an V4)) (exclude_walk sp V4 k (e_begin s) (e_end s))
  | Err e x => any_exclude sp (mk_an V4 n) (mk_an V4 o) = Err e x
  | UB u => False
  end.
Proof. exact any_exclude_mirror4. Qed.
Print Assumptions C50_exclude_v4.
Example C50_exclude_v4_ex : exists s, any_exclude true (mk_an V4 (net_at V4 "0.0.0.0/30")) (mk_an V4 (net_at V4 "0.0.0.1/32")) = Ret s /\
  aexclude_walk true 1 (ae_begin s) (ae_end s) = Ret [mk_an V4 (net_at V4 "0.0.0.2/31")].
Proof. eexists. split; [vm_compute; reflexivity|]. vm_compute. reflexivity. Qed.

(** is_reserved of an IPv6 network: every address is reserved, or the network is ::/1. *)
Theorem C41_reserved_v6_exact : forall n, wf_net V6 n -> (net_is_reserved V6 n = true <-> every V6 n (is_reserved V6) \/ half_space n).
Proof. exact net_reserved6_exact. Qed.
Print Assumptions C41_reserved_v6_exact.
Example C41_reserved_v6_ex : half_space (net_at V6 "::/1") /\ net_is_reserved V6 (net_at V6 "::/1") = true /\ net_is_reserved V6 (net_at V6 "::/0") = false.
Proof. split; [split; reflexivity|]. split; vm_compute; reflexivity. Qed.

