(** Property theorems C75: laws between the operations, stated with the
    operations alone. *)
From Coq Require Import String.
From Verif Require Import Base SpecAddr V4Model V6Model AddressModel SpecOrder NetworkModel SpecNet IterModel SpecIter ClassifyModel SpecClass NetWitness IterLemmas
  LawLemmas LawText.
Open Scope string_scope.
Open Scope Z_scope.
Open Scope list_scope.

(** The network made of an address holds it, ... *)
Theorem C75_own_network : forall v a p n, wf_addr v a -> 0 <= p <= width v -> from_address v a p false = Ret n -> contains n a = true.
Proof. exact law_own. Qed.
Print Assumptions C75_own_network.
(** ... and is also the network made of any other address it holds. *)
Theorem C75_same_network : forall v a b p n m, wf_addr v a -> wf_addr v b -> a_scope a = [] -> a_scope b = [] -> 0 <= p <= width v ->
  from_address v a p false = Ret n -> from_address v b p false = Ret m -> (contains n b = true <-> n = m).
Proof. exact law_same. Qed.
Print Assumptions C75_same_network.
(** contains is subnet_of for the network of one address. *)
Theorem C75_host_network : forall sp v n a h, wf_net v n -> unscoped n -> wf_addr v a -> a_scope a = [] -> from_address v a (width v) true = Ret h ->
  (subnet_of sp v h n = Ret true <-> contains n a = true).
Proof. exact law_host. Qed.
Print Assumptions C75_host_network.
Example C75_network_ex : let n := net_at V4 "10.1.2.0/23" in wf_addr V4 (addr_at V4 "10.1.3.4") /\ from_address V4 (addr_at V4 "10.1.3.4") 23 false = Ret n /\
  from_address V4 (addr_at V4 "10.1.2.255") 23 false = Ret n /\ contains n (addr_at V4 "10.1.2.255") = true /\
  from_address V4 (addr_at V4 "10.1.4.0") 23 false = Ret (net_at V4 "10.1.4.0/23") /\ contains n (addr_at V4 "10.1.4.0") = false.
Proof. cbv zeta. split; [apply addr_at_wf; reflexivity|]. repeat split; vm_compute; reflexivity. Qed.

(** subnet_of says exactly that contains carries over. *)
Theorem C75_subnet_contains : forall sp v a b x, wf_net v a -> wf_net v b -> unscoped a -> unscoped b -> wf_addr v x ->
  subnet_of sp v a b = Ret true -> contains a x = true -> contains b x = true.
Proof. exact law_contains. Qed.
Print Assumptions C75_subnet_contains.
Theorem C75_contains_subnet : forall sp v a b, wf_net v a -> wf_net v b -> unscoped a -> unscoped b ->
  (forall x, wf_addr v x -> contains a x = true -> contains b x = true) -> subnet_of sp v a b = Ret true.
Proof. exact law_contains_all. Qed.
Print Assumptions C75_contains_subnet.
(** Two networks overlap exactly when one is a subnet of the other. *)
Theorem C75_overlaps : forall sp v a b, wf_net v a -> wf_net v b -> unscoped a -> unscoped b ->
  (overlaps a b = true <-> subnet_of sp v a b = Ret true \/ subnet_of sp v b a = Ret true).
Proof. exact law_overlaps. Qed.
Print Assumptions C75_overlaps.
(** A network does not sort after any of its subnets. *)
Theorem C75_sorted : forall sp v a b, wf_net v a -> wf_net v b -> unscoped a -> unscoped b -> subnet_of sp v a b = Ret true -> nop_le true v b a = Ret true.
Proof. exact law_sorted. Qed.
Print Assumptions C75_sorted.
(** supernet gives a supernet; subnets gives subnets ... *)
Theorem C75_supernet : forall sp v n d m, wf_net v n -> unscoped n -> 0 < n_prefix n -> 0 <= d <= n_prefix n -> d < width v -> supernet v n d None = Ret m ->
  subnet_of sp v n m = Ret true.
Proof. exact law_super. Qed.
Print Assumptions C75_supernet.
Theorem C75_subnets : forall sp v n d np q s i m, wf_net v n -> unscoped n -> args_ok d np -> asked v n d np q -> defined v n q -> subnets sp v n d np = Ret s -> 0 <= i < s_size s -> subnets_at v s i = Ret m ->
  subnet_of sp v m n = Ret true.
Proof. exact law_sub. Qed.
Print Assumptions C75_subnets.
(** ... from which supernet leads back, ... *)
Theorem C75_subnets_supernet : forall sp v n d q s i m, wf_net v n -> unscoped n -> n_prefix n < width v -> args_ok d None -> asked v n d None q -> defined v n q -> subnets sp v n d None = Ret s -> 0 <= i < s_size s -> subnets_at v s i = Ret m ->
  supernet v m d None = Ret n.
Proof. exact law_sub_super. Qed.
Print Assumptions C75_subnets_supernet.
(** ... in strictly increasing order, not overlapping, ... *)
Theorem C75_subnets_sorted : forall sp v n d np q s i j a b, wf_net v n -> args_ok d np -> asked v n d np q -> defined v n q -> subnets sp v n d np = Ret s -> 0 <= i < j -> j < s_size s ->
  subnets_at v s i = Ret a -> subnets_at v s j = Ret b -> nop_lt true v a b = Ret true /\ overlaps a b = false.
Proof. exact law_sub_sorted. Qed.
Print Assumptions C75_subnets_sorted.
(** ... with the same number of addresses in all. *)
Theorem C75_subnets_count : forall sp v n d np q s i m, wf_net v n -> 0 < n_prefix n -> args_ok d np -> asked v n d np q -> defined v n q -> subnets sp v n d np = Ret s -> 0 <= i < s_size s -> subnets_at v s i = Ret m ->
  exists c k, addresses_count v n = Ret c /\ addresses_count v m = Ret k /\ c = s_size s * k.
Proof. exact law_count. Qed.
Print Assumptions C75_subnets_count.
Example C75_subnets_ex : let n := net_at V4 "10.1.2.0/24" in wf_net V4 n /\ unscoped n /\ args_ok 2 None /\ asked V4 n 2 None 26 /\ defined V4 n 26 /\
  exists s, subnets true V4 n 2 None = Ret s /\ s_size s = 4 /\ subnets_at V4 s 3 = Ret (net_at V4 "10.1.2.192/26") /\
  supernet V4 (net_at V4 "10.1.2.192/26") 2 None = Ret n /\ subnet_of true V4 (net_at V4 "10.1.2.192/26") n = Ret true /\ overlaps (net_at V4 "10.1.2.192/26") n = true.
Proof.
  cbv zeta. split; [wfn|]. split; [reflexivity|]. split; [split; [split; vm_compute; congruence|exact I]|]. split; [right; split; [reflexivity|]; exists 2; repeat split; discriminate|].
  split; [split; [reflexivity|right; discriminate]|]. eexists. split; [vm_compute; reflexivity|]. repeat split; vm_compute; reflexivity.
Qed.

(** hosts() lists addresses of the network, for IPv4 not its first and last one. *)
Theorem C75_hosts : forall sp v n s i a, wf_net v n -> hosts sp v n = Ret s -> 0 <= i < hosts_size v s -> hosts_at v s i = Ret a ->
  contains n a = true /\ (v = V4 -> n_prefix n < 31 -> a <> n_addr n /\ a <> broadcast n).
Proof. exact law_hosts. Qed.
Print Assumptions C75_hosts.
(** The pieces of address_exclude do not overlap the excluded network and together hold the rest. *)
Theorem C75_exclude : forall sp v n o s l, wf_net v n -> wf_net v o -> unscoped n -> unscoped o -> subnet_of sp v o n = Ret true -> n_prefix n < n_prefix o -> ~ is_one v o ->
  address_exclude sp v n o = Ret s -> exclude_walk sp v (Z.to_nat (n_prefix o - n_prefix n)) (e_begin s) (e_end s) = Ret l ->
  (forall m, In m l -> overlaps m o = false) /\ (forall a, wf_addr v a -> contains n a = contains o a || existsb (fun m => contains m a) l).
Proof. exact law_exclude. Qed.
Print Assumptions C75_exclude.
(** It fails exactly if the excluded network is no subnet. *)
Theorem C75_exclude_error : forall sp v n o, wf_net v n -> wf_net v o -> unscoped n -> unscoped o ->
  (address_exclude sp v n o = Err not_contained_network 0 <-> subnet_of sp v o n = Ret false).
Proof. exact law_exclude_error. Qed.
Print Assumptions C75_exclude_error.
Example C75_exclude_ex : let n := net_at V4 "10.0.0.0/8" in let o := net_at V4 "10.64.0.0/10" in wf_net V4 n /\ wf_net V4 o /\ subnet_of true V4 o n = Ret true /\ ~ is_one V4 o /\
  exists s, address_exclude true V4 n o = Ret s /\ exclude_walk true V4 2 (e_begin s) (e_end s) = Ret [net_at V4 "10.128.0.0/9"; net_at V4 "10.0.0.0/10"].
Proof.
  cbv zeta. split; [wfn|]. split; [wfn|]. split; [vm_compute; reflexivity|]. split; [intros [K _]; vm_compute in K; discriminate|].
  eexists. split; [vm_compute; reflexivity|]. vm_compute. reflexivity.
Qed.

(** Subnets inherit the class, ... *)
Theorem C75_classes : forall sp v a b, wf_net v a -> wf_net v b -> unscoped a -> unscoped b -> subnet_of sp v a b = Ret true ->
  (net_is_multicast v b = true -> net_is_multicast v a = true) /\ (net_is_loopback v b = true -> net_is_loopback v a = true) /\
  (net_is_link_local v b = true -> net_is_link_local v a = true) /\ (net_is_unspecified b = true -> net_is_unspecified a = true) /\
  (net_is_private v b = true -> net_is_private v a = true) /\ (net_is_global v a = true -> net_is_global v b = true) /\
  (v = V6 -> v6_net_is_site_local b = true -> v6_net_is_site_local a = true) /\
  (~ (v = V6 /\ half_space b) -> net_is_reserved v b = true -> net_is_reserved v a = true).
Proof. exact law_class. Qed.
Print Assumptions C75_classes.
(** ... but ::/1 counts as reserved although 2000::/3 does not. *)
Theorem C75_classes_half : exists a b, wf_net V6 a /\ wf_net V6 b /\ subnet_of true V6 a b = Ret true /\ net_is_reserved V6 b = true /\ net_is_reserved V6 a = false.
Proof. exact law_class_wrong. Qed.
Print Assumptions C75_classes_half.
Example C75_classes_ex : subnet_of true V6 (net_at V6 "fe80:1::/32") (net_at V6 "fe80::/10") = Ret true /\ net_is_link_local V6 (net_at V6 "fe80::/10") = true /\
  net_is_private V6 (net_at V6 "fe80::/10") = true /\ ~ half_space (net_at V6 "fe80::/10").
Proof. split; [vm_compute; reflexivity|]. split; [vm_compute; reflexivity|]. split; [vm_compute; reflexivity|]. intros [K _]. vm_compute in K. discriminate. Qed.

(** A text ::ffff: before an IPv4 text gives the address mapped to it, private when it is; ... *)
Theorem C75_mapped : forall t a, addr_parse V4 (chars t) = Ret a ->
  exists b, addr_parse V6 (chars (mapped_head ++ t)) = Ret b /\ wf_addr V6 b /\ v6_ipv4_mapped (a_bytes b) = Ret (Some (a_bytes a)) /\ is_private V6 b = is_private V4 a.
Proof. exact law_mapped. Qed.
Print Assumptions C75_mapped.
(** ... is_global differs for the shared range. *)
Theorem C75_mapped_global : exists t a b, addr_parse V4 (chars t) = Ret a /\ addr_parse V6 (chars (mapped_head ++ t)) = Ret b /\ is_global V4 a = Ret false /\ is_global V6 b = Ret true.
Proof. exact law_mapped_global. Qed.
Print Assumptions C75_mapped_global.
Example C75_mapped_ex : addr_parse V4 (chars (str "10.0.0.1")) = Ret (addr_at V4 "10.0.0.1") /\ mapped_head = str "::ffff:" /\
  addr_parse V6 (chars (mapped_head ++ str "10.0.0.1")) = Ret (addr_at V6 "::ffff:a00:1").
Proof. repeat split; vm_compute; reflexivity. Qed.

