(** Property theorems C85: the operations of IPv6 networks under every setting of
    the macros IPADDRESS_NO_IPV6_SCOPE, IPADDRESS_IPV6_SCOPE_MAX_LENGTH and
    IPADDRESS_SCOPE_ID_SUPPORT_SPACES ([cfg_ok]: C68_settings).  What hosts,
    subnets and address_exclude of networks without scope id are in the default
    build say C32 to C38. *)
From Coq Require Import String.
From Verif Require Import Base V4Model V6Model SpecAddr SpecStr SpecOrder AddressModel NetworkModel SpecNet IterModel NetWitness NetText UnicodeModel SpecExact
  ConfigModel SpecConfig ConfigProofs NetConfigModel SpecNetConfig NetConfigProofs3 NetOpsConfigModel SpecNetOpsConfig NetOpsConfigProofs NetOpsConfigProofs2.
Close Scope string_scope.

(** With the default setting these are the functions of the other theorems. *)
Theorem C85_default : (forall sp a b, subnet_of_c default_config sp a b = subnet_of sp V6 a b) /\
  (forall sp n, hosts_c default_config sp n = hosts sp V6 n) /\ (forall k a b, hosts_walk_c default_config k a b = hosts_walk V6 k a b) /\
  (forall sp n code d np, subnets_code_c default_config sp n code d np = subnets_code sp V6 n code d np) /\
  (forall k a b, subnets_walk_c default_config k a b = subnets_walk V6 k a b) /\
  (forall sp n o code, exclude_code_c default_config sp n o code = exclude_code sp V6 n o code) /\
  (forall sp k a b, exclude_walk_c default_config sp k a b = exclude_walk sp V6 k a b).
Proof. exact ops_default. Qed.
Print Assumptions C85_default.
(** Which network an address and a prefix length make. *)
Theorem C85_from_address : forall g a p strict x, addr_for (c_max g) (c_spaces g) a -> 0 <= p <= 128 ->
  from_address V6 a p strict = Ret x <-> network_of a p strict x.
Proof. exact from_address_for. Qed.
Print Assumptions C85_from_address.
(** Inclusion: as in the default build (C23_scope_ids), whatever the length of scope ids. *)
Theorem C85_inclusion : forall g sp a b, net_for (c_max g) (c_spaces g) a -> net_for (c_max g) (c_spaces g) b ->
  exists r, subnet_of_c g sp a b = Ret r /\ supernet_of_c g sp b a = Ret r /\ (r = true <-> subset V6 a b /\ scopes_allow sp a b).
Proof. exact subnet_for. Qed.
Print Assumptions C85_inclusion.
(** Without scope ids, inclusion and nothing else. *)
Theorem C85_inclusion_off : forall g sp a b, c_max g = 0 -> net_for (c_max g) (c_spaces g) a -> net_for (c_max g) (c_spaces g) b ->
  exists r, subnet_of_c g sp a b = Ret r /\ supernet_of_c g sp b a = Ret r /\ (r = true <-> subset V6 a b).
Proof. exact subnet_off. Qed.
Print Assumptions C85_inclusion_off.
Example C85_inclusion_ex : let g := mk_cfg 20 false in let a := net_from g (str "fe80::1/128") in let b := net_from g (str "fe80::%abcdefghijklmnopqrst/64") in
  net_for (c_max g) (c_spaces g) a /\ net_for (c_max g) (c_spaces g) b /\ zlen (a_scope (n_addr b)) = 20 /\ subset V6 a b /\
  subnet_of_c g true a b = Ret true /\ subnet_of_c g false a b = Ret false.
Proof.
  assert (C : cfg_ok (mk_cfg 20 false)) by (unfold cfg_ok; cbn; lia). cbv zeta.
  destruct (net_from_ok _ (str "fe80::1/128") C) as [_ A]; [vm_compute; reflexivity..|].
  destruct (net_from_ok _ (str "fe80::%abcdefghijklmnopqrst/64") C) as [_ B]; [vm_compute; reflexivity..|].
  split; [exact A|]. split; [exact B|]. split; [vm_compute; reflexivity|].
  assert (R : subnet_of_c (mk_cfg 20 false) true (net_from (mk_cfg 20 false) (str "fe80::1/128")) (net_from (mk_cfg 20 false) (str "fe80::%abcdefghijklmnopqrst/64")) = Ret true) by (vm_compute; reflexivity).
  split; [|split; [exact R|vm_compute; reflexivity]].
  destruct (subnet_for _ true _ _ A B) as (r & E & _ & H). rewrite R in E. injection E as <-. apply H. reflexivity.
Qed.

(** These do not look at scope ids; supernet hands on the whole network when the prefix is empty, and otherwise drops them. *)
Theorem C85_blind : forall n o a d np code, contains (without_scope n) (mk_addr (a_bytes a) []) = contains n a /\ overlaps (without_scope n) (without_scope o) = overlaps n o /\
  broadcast (without_scope n) = broadcast n /\ hostmask (without_scope n) = hostmask n /\ addresses_count V6 (without_scope n) = addresses_count V6 n /\
  (n_prefix n <> 0 -> supernet V6 (without_scope n) d np = supernet V6 n d np /\ supernet_code V6 (without_scope n) code d np = supernet_code V6 n code d np) /\
  (n_prefix n = 0 -> supernet V6 n d np = Ret n /\ supernet_code V6 n code d np = Ret (n, no_error)).
Proof. exact blind. Qed.
Print Assumptions C85_blind.
(** The hosts, and loops over them in both directions, are those of the network without scope id in the default build. *)
Theorem C85_hosts : forall g sp n, hosts_c g sp n = hosts sp V6 (without_scope n) /\
  forall s, hosts_c g sp n = Ret s -> hosts_empty_c g s = hosts_empty V6 s /\
    (forall k, hosts_walk_c g k (h_begin s) (h_end s) = hosts_walk V6 k (h_begin s) (h_end s)) /\
    (forall b e, hosts_rbegin V6 s = Ret b -> hosts_rend V6 s = Ret e -> forall k, hosts_rwalk_c g k b e = hosts_rwalk V6 k b e).
Proof. exact hosts_all. Qed.
Print Assumptions C85_hosts.
(** The subnets, errors, and loops in both directions. *)
Theorem C85_subnets : forall g sp n d np, cfg_ok g -> net_for (c_max g) (c_spaces g) n ->
  subnets_c g sp n d np = subnets sp V6 (without_scope n) d np /\
  (forall code, subnets_code_c g sp n code d np = subnets_code sp V6 (without_scope n) code d np) /\
  forall s, subnets_c g sp n d np = Ret s -> subnets_empty_c g s = subnets_empty V6 s /\
    (forall k, subnets_walk_c g k (s_begin s) (s_end s) = subnets_walk V6 k (s_begin s) (s_end s)) /\
    (forall b e, subnets_rbegin V6 s = Ret b -> subnets_rend V6 s = Ret e -> forall k, subnets_rwalk_c g k b e = subnets_rwalk V6 k b e).
Proof. exact subnets_all. Qed.
Print Assumptions C85_subnets.
(** What remains after taking one network out of another. *)
Theorem C85_exclude : forall g sp n o, cfg_ok g -> net_for (c_max g) (c_spaces g) n -> net_for (c_max g) (c_spaces g) o ->
  address_exclude_c g sp n o = address_exclude sp V6 (without_scope n) (without_scope o) /\
  (forall code, exclude_code_c g sp n o code = exclude_code sp V6 (without_scope n) (without_scope o) code) /\
  forall s, address_exclude_c g sp n o = Ret s -> forall k, exclude_walk_c g sp k (e_begin s) (e_end s) = exclude_walk sp V6 k (e_begin s) (e_end s).
Proof. exact exclude_all. Qed.
Print Assumptions C85_exclude.
Example C85_exclude_ex : let g := mk_cfg 20 false in let a := net_from g (str "2001:db8::%abcdefghijklmnopqrst/32") in let b := net_from g (str "2001:db8:8000::%x/34") in
  net_for (c_max g) (c_spaces g) a /\ net_for (c_max g) (c_spaces g) b /\
  exists s l, address_exclude_c g true a b = Ret s /\ exclude_walk_c g true 5 (e_begin s) (e_end s) = Ret l /\
  map (fun n => net_to_string_c g n compressed) l = [Ret (str "2001:db8::/33"); Ret (str "2001:db8:c000::/34")].
Proof.
  assert (C : cfg_ok (mk_cfg 20 false)) by (unfold cfg_ok; cbn; lia). cbv zeta.
  destruct (net_from_ok _ (str "2001:db8::%abcdefghijklmnopqrst/32") C) as [_ A]; [vm_compute; reflexivity..|].
  destruct (net_from_ok _ (str "2001:db8:8000::%x/34") C) as [_ B]; [vm_compute; reflexivity..|].
  split; [exact A|]. split; [exact B|]. do 2 eexists. split; [vm_compute; reflexivity|]. split; [vm_compute; reflexivity|]. vm_compute; reflexivity.
Qed.
Example C85_off_ex : let g := mk_cfg 0 false in let a := net_from g (str "2001:db8::/126") in net_for (c_max g) (c_spaces g) a /\
  (exists s l, hosts_c g false a = Ret s /\ hosts_walk_c g 5 (h_begin s) (h_end s) = Ret l /\
    map (fun x => addr_to_string_c g x compressed) l = [Ret (str "2001:db8::1"); Ret (str "2001:db8::2"); Ret (str "2001:db8::3")]) /\
  exists s l, subnets_c g false a 1 None = Ret s /\ subnets_walk_c g 5 (s_begin s) (s_end s) = Ret l /\
    map (fun x => net_to_string_c g x compressed) l = [Ret (str "2001:db8::/127"); Ret (str "2001:db8::2/127")].
Proof.
  assert (C : cfg_ok (mk_cfg 0 false)) by (unfold cfg_ok; cbn; lia). cbv zeta.
  destruct (net_from_ok _ (str "2001:db8::/126") C) as [_ A]; [vm_compute; reflexivity..|].
  split; [exact A|]. split; do 2 eexists; (split; [vm_compute; reflexivity|]); (split; [vm_compute; reflexivity|]); vm_compute; reflexivity.
Qed.

