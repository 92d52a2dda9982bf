(** Property theorems C81: IPv6 addresses and networks under every setting of the
    macros IPADDRESS_NO_IPV6_SCOPE, IPADDRESS_IPV6_SCOPE_MAX_LENGTH and
    IPADDRESS_SCOPE_ID_SUPPORT_SPACES; [cfg_ok] holds of each of them
    (C68_settings).  SpecNetConfig says which addresses and networks exist then,
    and which networks the texts mean. *)
From Coq Require Import String.
From Verif Require Import Base UnicodeModel FixedStringModel V4Model V6Model SpecText SpecV4 SpecV6 SpecAddr SpecStr SpecOrder AddressModel NetworkModel AnyModel SpecAny SpecNet NetText NetWitness SpecLoose SpecExact
  ConfigModel SpecConfig ConfigProofs NetConfigModel SpecNetConfig NetConfigProofs NetConfigProofs2 HashProofs NetConfigProofs3.
Close Scope string_scope.

(** With the default setting these are the functions of the other theorems. *)
Theorem C81_default_addresses : (forall ts, addr_parse_c default_config ts = addr_parse V6 ts) /\
  (forall s, addr_literal_c default_config s = addr_literal V6 s) /\
  (forall ts, any_parse_c default_config ts = any_parse ts) /\
  (forall a fmt, addr_to_string_c default_config a fmt = addr_to_string V6 a fmt) /\
  (forall a b, addr_swap_c default_config a b = addr_swap a b) /\
  (forall is64 a, addr_hash_c default_config is64 a = addr_hash is64 V6 a) /\
  (forall a b, addr_eqb_c default_config a b = addr_eqb V6 a b) /\
  (forall a b, addr_ltb_c default_config a b = addr_ltb V6 a b) /\
  (forall a b, addr_cmp_c default_config a b = addr_cmp V6 a b).
Proof. exact default_addr. Qed.
Print Assumptions C81_default_addresses.
Theorem C81_default_networks : (forall ts strict, net_parse_c default_config ts strict = net_parse V6 ts strict) /\
  (forall n fmt, net_to_string_c default_config n fmt = net_to_string V6 n fmt) /\
  (forall a b, net_eqb_c default_config a b = net_eqb V6 a b) /\ (forall a b, net_cmp_c default_config a b = net_cmp V6 a b) /\
  (forall a b, net_ltb_c default_config a b = net_ltb V6 a b) /\ (forall is64 n, net_hash_c default_config is64 n = net_hash is64 V6 n).
Proof. exact default_net. Qed.
Print Assumptions C81_default_networks.
Example C81_default_ex : net_parse_c default_config (chars (str "fe80::%eth0/64")) true = net_parse V6 (chars (str "fe80::%eth0/64")) true /\
  exists n, net_parse V6 (chars (str "fe80::%eth0/64")) true = Ret n.
Proof. split; [vm_compute; reflexivity|]. eexists. vm_compute. reflexivity. Qed.

(** Exactly which texts are networks, and which networks. *)
Theorem C81_network_exact : forall g s strict n, cfg_ok g ->
  net_parse_c g (chars s) strict = Ret n <->
  exists t p b sc, net_loose_for (41 + c_max g) s t p /\ v6_from_string_c g true (chars t) = Ret (b, sc) /\ network_of (mk_addr b sc) p strict n.
Proof. exact net_c_exact. Qed.
Print Assumptions C81_network_exact.
(** No text, however wrong, leads to undefined behaviour. *)
Theorem C81_network_defined : forall g ts strict, cfg_ok g -> is_defined (net_parse_c g ts strict).
Proof. exact net_c_defined. Qed.
Print Assumptions C81_network_defined.
(** What is parsed exists under the setting. *)
Theorem C81_network_parsed : forall g s strict n, cfg_ok g -> Forall is_char s -> net_parse_c g (chars s) strict = Ret n -> net_for (c_max g) (c_spaces g) n.
Proof. exact net_c_parsed. Qed.
Print Assumptions C81_network_parsed.
Theorem C81_address_parsed : forall g s a, cfg_ok g -> no_nul s -> Forall is_char s -> addr_parse_c g (chars s) = Ret a -> addr_for (c_max g) (c_spaces g) a.
Proof. exact addr_c_parsed. Qed.
Print Assumptions C81_address_parsed.
(** Every network that exists under the setting is read back from each of its texts. *)
Theorem C81_network_round_trip : forall g n fmt strict, cfg_ok g -> net_for (c_max g) (c_spaces g) n ->
  exists s, net_to_string_c g n fmt = Ret s /\ net_parse_c g (chars s) strict = Ret n.
Proof. exact net_c_round_trip. Qed.
Print Assumptions C81_network_round_trip.
Example C81_network_ex : let g := mk_cfg 20 true in cfg_ok g /\
  exists n, net_parse_c g (chars (str "fe80::%a b/64")) true = Ret n /\ net_for (c_max g) (c_spaces g) n /\ n_prefix n = 64 /\ a_scope (n_addr n) = str "a b" /\
  net_to_string_c g n compressed = Ret (str "fe80::%a b/64").
Proof.
  assert (C : cfg_ok (mk_cfg 20 true)) by (unfold cfg_ok; cbn; lia). split; [exact C|]. exists (net_from (mk_cfg 20 true) (str "fe80::%a b/64")).
  destruct (net_from_ok _ (str "fe80::%a b/64") C) as [E W]; [vm_compute; reflexivity..|]. split; [exact E|]. split; [exact W|]. repeat split; vm_compute; reflexivity.
Qed.

(** With at least four characters for scope ids, every address text without scope id can be used in a network text. *)
Theorem C81_unscoped : forall g t m b sc p strict n, cfg_ok g -> 4 <= c_max g -> no_nul t -> ~ In 37 t ->
  v6_from_string_c g true (chars t) = Ret (b, sc) -> loose_mask V6 m p ->
  (net_parse_c g (chars (t ++ 47 :: m)) strict = Ret n <-> network_of (mk_addr b []) p strict n).
Proof. exact net_c_unscoped. Qed.
Print Assumptions C81_unscoped.
(** With fewer, for each such setting, one character of an address text does not fit the buffer: text and prefix length behind it are dropped in silence, and another network is returned even in strict mode. *)
Theorem C81_unscoped_refuted : forall g, 0 <= c_max g < 4 -> exists t gs n, v6_text t gs /\ no_nul t /\ addr_parse_c g (chars t) = Ret (mk_addr (group_bytes gs) []) /\
  loose_mask V6 (str "96") 96 /\ val (mk_addr (group_bytes gs) []) mod 2 ^ (128 - 96) <> 0 /\
  (forall strict, net_parse_c g (chars (t ++ 47 :: str "96")) strict = Ret n) /\ n_prefix n = 128 /\ a_bytes (n_addr n) <> group_bytes gs.
Proof. exact net_c_misread. Qed.
Print Assumptions C81_unscoped_refuted.
Example C81_unscoped_ex : let g := mk_cfg 0 true in
  (exists n, net_parse_c g (chars (str "0000:0000:0000:0000:0000:ffff:1.25.255.255/96")) true = Ret n /\ net_to_string_c g n compressed = Ret (str "::ffff:119:ff19/128")) /\
  (exists n, net_parse_c (mk_cfg 4 true) (chars (str "0000:0000:0000:0000:0000:ffff:1.25.255.255/96")) false = Ret n /\ net_to_string_c (mk_cfg 4 true) n compressed = Ret (str "::ffff:0:0/96")) /\
  loose_mask V6 (str "96") 96.
Proof.
  split; [|split].
  - exists (match net_parse_c (mk_cfg 0 true) (chars (str "0000:0000:0000:0000:0000:ffff:1.25.255.255/96")) true with Ret n => n | _ => mk_net (mk_addr [] []) (mk_addr [] []) 0 end).
    split; vm_compute; reflexivity.
  - exists (match net_parse_c (mk_cfg 4 true) (chars (str "0000:0000:0000:0000:0000:ffff:1.25.255.255/96")) false with Ret n => n | _ => mk_net (mk_addr [] []) (mk_addr [] []) 0 end).
    split; vm_compute; reflexivity.
  - destruct (net_c_misread (mk_cfg 0 true)) as (t & gs & n & _ & _ & _ & K & _); [cbn; lia|exact K].
Qed.

(** The literal operators. *)
Theorem C81_literal : forall g s, cfg_ok g ->
  (41 + c_max g < zlen s -> addr_literal_c g s = Err string_is_too_long 0) /\
  (zlen s <= 41 + c_max g -> forall t, before_nul s t -> addr_literal_c g s = addr_parse_c g (chars t)).
Proof. exact literal_c_exact. Qed.
Print Assumptions C81_literal.
(** The class of both versions. *)
Theorem C81_ip_address : forall g ts, cfg_ok g -> Forall tok_genuine ts ->
  (forall a, any_parse_c g ts = Ret (mk_aa V4 a) <-> addr_parse V4 ts = Ret a) /\
  (forall a, any_parse_c g ts = Ret (mk_aa V6 a) <-> addr_parse_c g ts = Ret a) /\
  (forall e x, any_parse_c g ts = Err e x <-> addr_parse_c g ts = Err e x /\ exists e' x', addr_parse V4 ts = Err e' x') /\
  is_defined (any_parse_c g ts).
Proof. exact any_c_spec. Qed.
Print Assumptions C81_ip_address.
Example C81_literal_ex : addr_literal_c (mk_cfg 0 false) (str "0000:0000:0000:0000:0000:ffff:1.25.255.255") = Err string_is_too_long 0 /\
  addr_literal_c (mk_cfg 2 false) (str "::1%ab") = Ret (mk_addr (repeat 0 15 ++ [1]) (str "ab")) /\
  any_parse_c (mk_cfg 0 false) (chars (str "::1%ab")) = Err scope_id_is_too_long 0 /\
  any_parse_c (mk_cfg 0 false) (chars (str "1.2.3.4")) = Ret (mk_aa V4 (mk_addr [1; 2; 3; 4] [])).
Proof. repeat split; vm_compute; reflexivity. Qed.

(** swap, and the comparisons: equality is equality, <=> is the order by value and scope id, and the older < is a disjunction. *)
Theorem C81_swap : forall g a b, addr_for (c_max g) (c_spaces g) a -> addr_for (c_max g) (c_spaces g) b -> addr_swap_c g a b = Ret (b, a).
Proof. exact swap_c. Qed.
Print Assumptions C81_swap.
Theorem C81_equal : forall g a b, addr_for (c_max g) (c_spaces g) a -> addr_for (c_max g) (c_spaces g) b ->
  exists r, addr_eqb_c g a b = Ret r /\ (r = true <-> a = b).
Proof. exact addr_eqb_c_ok. Qed.
Print Assumptions C81_equal.
Theorem C81_compare : forall g a b, addr_for (c_max g) (c_spaces g) a -> addr_for (c_max g) (c_spaces g) b ->
  exists c, addr_cmp_c g a b = Ret c /\ match c with Eq => a = b | Lt => addr_before a b | Gt => addr_before b a end.
Proof. exact addr_cmp_c_ok. Qed.
Print Assumptions C81_compare.
Theorem C81_less_exact : forall g a b, addr_for (c_max g) (c_spaces g) a -> addr_for (c_max g) (c_spaces g) b ->
  exists r, addr_ltb_c g a b = Ret r /\ (r = true <-> either_before a b).
Proof. exact addr_ltb_c_ok. Qed.
Print Assumptions C81_less_exact.
(** Without scope ids the older < is the order too; *)
Theorem C81_less_off : forall g a b, c_max g = 0 -> addr_for (c_max g) (c_spaces g) a -> addr_for (c_max g) (c_spaces g) b ->
  exists r, addr_ltb_c g a b = Ret r /\ (r = true <-> addr_before a b).
Proof. exact addr_ltb_off. Qed.
Print Assumptions C81_less_off.
(** with scope ids of any length it is not. *)
Theorem C81_less_refuted : forall g, 0 < c_max g -> exists a b, addr_for (c_max g) (c_spaces g) a /\ addr_for (c_max g) (c_spaces g) b /\
  addr_ltb_c g a b = Ret true /\ addr_ltb_c g b a = Ret true.
Proof. exact addr_ltb_wrong. Qed.
Print Assumptions C81_less_refuted.
(** The hash does not depend on the length set, except that without scope ids there is another seed. *)
Theorem C81_hash_on : forall g g' is64 a, 0 < c_max g -> 0 < c_max g' -> addr_for (c_max g) (c_spaces g) a -> addr_for (c_max g') (c_spaces g') a ->
  exists h, addr_hash_c g is64 a = Ret h /\ addr_hash_c g' is64 a = Ret h.
Proof. exact hash_c_same. Qed.
Print Assumptions C81_hash_on.
Theorem C81_hash_off : forall g is64 a, c_max g = 0 -> addr_hash_c g is64 a = Ret (calc_hash is64 0 (a_bytes a)).
Proof. exact hash_c_off. Qed.
Print Assumptions C81_hash_off.
Theorem C81_hash_defined : forall g is64 a, cfg_ok g -> addr_for (c_max g) (c_spaces g) a -> exists h, addr_hash_c g is64 a = Ret h.
Proof. exact hash_c_defined. Qed.
Print Assumptions C81_hash_defined.
Theorem C81_hash_seed : exists g a, c_max g = 16 /\ addr_for 0 true a /\ addr_hash_c (mk_cfg 0 true) true a <> addr_hash_c g true a.
Proof. exact hash_c_differs. Qed.
Print Assumptions C81_hash_seed.
Example C81_address_ex : let g := mk_cfg 3 false in let a := mk_addr (repeat 0 15 ++ [1]) (str "b") in let b := mk_addr (repeat 0 15 ++ [2]) (str "a") in
  addr_for (c_max g) (c_spaces g) a /\ addr_for (c_max g) (c_spaces g) b /\ addr_for 5 true a /\
  addr_swap_c g a b = Ret (b, a) /\ addr_cmp_c g a b = Ret Lt /\ addr_ltb_c g a b = Ret true /\ addr_ltb_c g b a = Ret true.
Proof.
  split; [apply for_by with (s := str "::1%b"); [vm_compute; reflexivity|cbn; lia|vm_compute; discriminate|vm_compute; reflexivity]|].
  split; [apply for_by with (s := str "::2%a"); [vm_compute; reflexivity|cbn; lia|vm_compute; discriminate|vm_compute; reflexivity]|].
  split; [apply for_by with (s := str "::1%b"); [vm_compute; reflexivity|cbn; lia|vm_compute; discriminate|vm_compute; reflexivity]|].
  repeat split; vm_compute; reflexivity.
Qed.

(** Networks: the same, with the prefix lengths after the addresses. *)
Theorem C81_network_equal : forall g a b, cfg_ok g -> net_for (c_max g) (c_spaces g) a -> net_for (c_max g) (c_spaces g) b ->
  exists r, net_eqb_c g a b = Ret r /\ (r = true <-> a = b).
Proof. exact net_eqb_c_ok. Qed.
Print Assumptions C81_network_equal.
Theorem C81_network_compare : forall g a b, cfg_ok g -> net_for (c_max g) (c_spaces g) a -> net_for (c_max g) (c_spaces g) b ->
  exists c, net_cmp_c g a b = Ret c /\ match c with Eq => a = b | Lt => net_before a b | Gt => net_before b a end.
Proof. exact net_cmp_c_ok. Qed.
Print Assumptions C81_network_compare.
Theorem C81_network_less : forall g a b, cfg_ok g -> net_for (c_max g) (c_spaces g) a -> net_for (c_max g) (c_spaces g) b ->
  exists r, net_ltb_c g a b = Ret r /\ (r = true <-> net_either_before a b).
Proof. exact net_ltb_c_ok. Qed.
Print Assumptions C81_network_less.
Theorem C81_network_hash : forall g is64 n, cfg_ok g -> net_for (c_max g) (c_spaces g) n ->
  exists h m, addr_hash_c g is64 (n_addr n) = Ret h /\ addr_hash_c g is64 (n_mask n) = Ret m /\ net_hash_c g is64 n = Ret (calc_hash is64 h [m]).
Proof. exact net_hash_c_ok. Qed.
Print Assumptions C81_network_hash.
Example C81_networks_ex : let g := mk_cfg 0 false in
  exists a b, net_parse_c g (chars (str "2001:db8::/32")) true = Ret a /\ net_parse_c g (chars (str "2001:db8::/48")) true = Ret b /\
  net_for (c_max g) (c_spaces g) a /\ net_for (c_max g) (c_spaces g) b /\ net_cmp_c g a b = Ret Lt /\ net_ltb_c g a b = Ret true /\ net_eqb_c g a b = Ret false.
Proof.
  assert (C : cfg_ok (mk_cfg 0 false)) by (unfold cfg_ok; cbn; lia).
  exists (net_from (mk_cfg 0 false) (str "2001:db8::/32")), (net_from (mk_cfg 0 false) (str "2001:db8::/48")).
  destruct (net_from_ok _ (str "2001:db8::/32") C) as [E W]; [vm_compute; reflexivity..|].
  destruct (net_from_ok _ (str "2001:db8::/48") C) as [E' W']; [vm_compute; reflexivity..|].
  do 4 (split; [assumption|]). repeat split; vm_compute; reflexivity.
Qed.

