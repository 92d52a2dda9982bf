(** Theorems about the classification predicates: properties C39-C41.  The ranges
    are those of SpecClass: [within r x] and [in_ranges l x] say that the number
    [x] lies in the range or in one of the ranges. *)
From Coq Require Import String.
From Verif Require Import Base V4Model V6Model AddressModel SpecAddr SpecOrder NetworkModel SpecNet SpecClass ClassifyModel NetWitness ClassifyProofs ClassifyProofs2.

(** ** C39: IPv4 addresses *)
Theorem C39_private : forall a, wf_addr V4 a ->
  (is_private V4 a = Ret true <-> in_ranges v4_private_ranges (val a)) /\ exists b, is_private V4 a = Ret b.
Proof. exact v4_private_ok. Qed.
Print Assumptions C39_private.
Theorem C39_global : forall a, wf_addr V4 a ->
  (is_global V4 a = Ret true <-> ~ in_ranges v4_private_ranges (val a) /\ ~ within v4_shared (val a)) /\ exists b, is_global V4 a = Ret b.
Proof. exact v4_global_ok. Qed.
Print Assumptions C39_global.
(** Exactly one of private, global and shared. *)
Theorem C39_exclusive : forall a, wf_addr V4 a ->
  (is_private V4 a = Ret true /\ is_global V4 a = Ret false /\ ~ within v4_shared (val a)) \/
  (is_private V4 a = Ret false /\ is_global V4 a = Ret true /\ ~ within v4_shared (val a)) \/
  (is_private V4 a = Ret false /\ is_global V4 a = Ret false /\ within v4_shared (val a)).
Proof. exact v4_exactly_one. Qed.
Print Assumptions C39_exclusive.
(** Both versions. *)
Theorem C39_multicast : forall v a, wf_addr v a ->
  (is_multicast v a = true <-> within (match v with V4 => v4_multicast | V6 => v6_multicast end) (val a)).
Proof. exact multicast_ok. Qed.
Print Assumptions C39_multicast.
Theorem C39_reserved : forall v a, wf_addr v a ->
  (is_reserved v a = true <-> in_ranges (match v with V4 => [v4_reserved] | V6 => v6_reserved_ranges end) (val a)).
Proof. exact reserved_ok. Qed.
Print Assumptions C39_reserved.
Theorem C39_loopback : forall v a, wf_addr v a ->
  (is_loopback v a = true <-> within (match v with V4 => v4_loopback | V6 => v6_loopback end) (val a)).
Proof. exact loopback_ok. Qed.
Print Assumptions C39_loopback.
Theorem C39_link_local : forall v a, wf_addr v a ->
  (is_link_local v a = true <-> within (match v with V4 => v4_link_local | V6 => v6_link_local end) (val a)).
Proof. exact link_local_ok. Qed.
Print Assumptions C39_link_local.
Theorem C39_unspecified : forall v a, wf_addr v a -> (is_unspecified a = true <-> within unspecified (val a)).
Proof. exact unspecified_ok. Qed.
Print Assumptions C39_unspecified.
(** Every literal of the tables parses. *)
Theorem C39_tables : forall v, forallb (parses v) (private_texts v) = true /\ forallb (parses v) (reserved_texts v) = true /\
  parses v (multicast_text v) = true /\ parses v (link_local_text v) = true /\
  parses V4 public_text = true /\ parses V4 loopback_text = true /\ parses V6 site_local_text = true.
Proof. exact tables_parse. Qed.
Print Assumptions C39_tables.
Example C39_ex : wf_addr V4 (addr_at V4 "192.168.5.1") /\ is_private V4 (addr_at V4 "192.168.5.1") = Ret true /\
  is_global V4 (addr_at V4 "8.8.8.8") = Ret true /\ is_global V4 (addr_at V4 "100.64.0.1") = Ret false /\
  is_multicast V4 (addr_at V4 "239.1.1.1") = true /\ is_link_local V4 (addr_at V4 "169.254.0.1") = true /\
  is_reserved V4 (addr_at V4 "240.0.0.1") = true /\ is_loopback V4 (addr_at V4 "127.9.9.9") = true.
Proof. split; [wfn|]. repeat split; vm_compute; reflexivity. Qed.

(** ** C40: IPv6 addresses *)
(** (multicast, reserved, loopback, link-local, unspecified: C39_* above) *)
Theorem C40_site_local : forall a, wf_addr V6 a -> (v6_is_site_local a = true <-> within v6_site_local (val a)).
Proof. exact site_local_ok. Qed.
Print Assumptions C40_site_local.
Theorem C40_multicast : forall a, wf_addr V6 a -> (is_multicast V6 a = true <-> within v6_multicast (val a)).
Proof. exact (multicast_ok V6). Qed.
Print Assumptions C40_multicast.
Theorem C40_reserved : forall a, wf_addr V6 a -> (is_reserved V6 a = true <-> in_ranges v6_reserved_ranges (val a)).
Proof. exact (reserved_ok V6). Qed.
Print Assumptions C40_reserved.
Theorem C40_loopback : forall a, wf_addr V6 a -> (is_loopback V6 a = true <-> within v6_loopback (val a)).
Proof. exact (loopback_ok V6). Qed.
Print Assumptions C40_loopback.
Theorem C40_link_local : forall a, wf_addr V6 a -> (is_link_local V6 a = true <-> within v6_link_local (val a)).
Proof. exact (link_local_ok V6). Qed.
Print Assumptions C40_link_local.
Theorem C40_unspecified : forall a, wf_addr V6 a -> (is_unspecified a = true <-> within unspecified (val a)).
Proof. exact (unspecified_ok V6). Qed.
Print Assumptions C40_unspecified.
(** The exact rule of is_private and is_global: the embedded IPv4 address decides
    whenever bits 32 to 47 are all ones. *)
Theorem C40_private_partial : forall a, wf_addr V6 a -> exists b, is_private V6 a = Ret b /\ is_global V6 a = Ret (negb b) /\
  (b = true <-> (looks_mapped (val a) /\ in_ranges v4_private_ranges (val a mod 2 ^ 32)) \/
                (~ looks_mapped (val a) /\ in_ranges v6_private_ranges (val a))).
Proof. exact v6_private_ok. Qed.
Print Assumptions C40_private_partial.
Theorem C40_mapped : forall a, wf_addr V6 a -> v4_mapped (val a) ->
  exists q, wf_addr V4 q /\ val q = val a mod 2 ^ 32 /\ is_private V6 a = is_private V4 q.
Proof. exact mapped_inherit. Qed.
Print Assumptions C40_mapped.
(** Missing "only those": 2001:db8::ffff:8.8.8.8 is not mapped and in
    2001:db8::/32, yet reported global. *)
Theorem C40_only_mapped_refuted : exists a, wf_addr V6 a /\ ~ v4_mapped (val a) /\ in_ranges v6_private_ranges (val a) /\
  is_private V6 a = Ret false /\ is_global V6 a = Ret true.
Proof. exact odd_mapped. Qed.
Print Assumptions C40_only_mapped_refuted.
Example C40_ex : wf_addr V6 (addr_at V6 "fd00::1") /\ is_private V6 (addr_at V6 "fd00::1") = Ret true /\
  is_global V6 (addr_at V6 "2606:4700::1111") = Ret true /\ is_private V6 (addr_at V6 "::ffff:10.0.0.1") = Ret true /\
  is_private V6 (addr_at V6 "::ffff:8.8.8.8") = Ret false /\ v6_is_site_local (addr_at V6 "fec0::1%eth0") = true /\
  is_loopback V6 (addr_at V6 "::1") = true /\ is_reserved V6 (addr_at V6 "4000::") = true.
Proof. split; [wfn|]. repeat split; vm_compute; reflexivity. Qed.

(** ** C41: networks *)
(** [every v n f]: every address of the network satisfies the predicate [f]. *)
Theorem C41_multicast : forall v n, wf_net v n -> (net_is_multicast v n = true <-> every v n (is_multicast v)).
Proof. exact net_multicast. Qed.
Print Assumptions C41_multicast.
Theorem C41_loopback : forall v n, wf_net v n -> (net_is_loopback v n = true <-> every v n (is_loopback v)).
Proof. exact net_loopback. Qed.
Print Assumptions C41_loopback.
Theorem C41_link_local : forall v n, wf_net v n -> (net_is_link_local v n = true <-> every v n (is_link_local v)).
Proof. exact net_link_local. Qed.
Print Assumptions C41_link_local.
Theorem C41_unspecified : forall v n, wf_net v n -> (net_is_unspecified n = true <-> every v n is_unspecified).
Proof. exact net_unspecified. Qed.
Print Assumptions C41_unspecified.
Theorem C41_site_local : forall n, wf_net V6 n -> (v6_net_is_site_local n = true <-> every V6 n v6_is_site_local).
Proof. exact net_site_local. Qed.
Print Assumptions C41_site_local.
Theorem C41_reserved_v4 : forall n, wf_net V4 n -> (net_is_reserved V4 n = true <-> every V4 n (is_reserved V4)).
Proof. exact net_reserved4. Qed.
Print Assumptions C41_reserved_v4.
(** IPv6: for every network except ::/1. *)
Theorem C41_reserved_v6_partial : forall n, wf_net V6 n -> ~ half_space n -> (net_is_reserved V6 n = true <-> every V6 n (is_reserved V6)).
Proof. exact net_reserved6. Qed.
Print Assumptions C41_reserved_v6_partial.
Theorem C41_reserved_v6_refuted : exists n a, wf_net V6 n /\ wf_addr V6 a /\ in_net V6 n (val a) /\ net_is_reserved V6 n = true /\ is_reserved V6 a = false.
Proof. exact half_reserved. Qed.
Print Assumptions C41_reserved_v6_refuted.
Theorem C41_private_v4 : forall n, wf_net V4 n -> (net_is_private V4 n = true <-> every V4 n v4_is_private).
Proof. exact net_private4. Qed.
Print Assumptions C41_private_v4.
(** The exact rule: the network lies in one of the ranges. *)
Theorem C41_private_exact : forall v n, wf_net v n ->
  (net_is_private v n = true <-> exists r, In r (match v with V4 => v4_private_ranges | V6 => v6_private_ranges end) /\ forall x, in_net v n x -> within r x).
Proof. exact net_private_spec. Qed.
Print Assumptions C41_private_exact.
(** IPv6: true without addresses that look IPv4-mapped, except for ::/127. *)
Theorem C41_private_v6_partial : forall n, wf_net V6 n -> ~ first_two n -> (forall x, in_net V6 n x -> ~ looks_mapped x) ->
  (net_is_private V6 n = true <-> every V6 n v6_private_b).
Proof. exact net_private6. Qed.
Print Assumptions C41_private_v6_partial.
Theorem C41_private_v6_refuted : exists n, wf_net V6 n /\ net_is_private V6 n = false /\ every V6 n v6_private_b.
Proof. exact two_private. Qed.
Print Assumptions C41_private_v6_refuted.
Theorem C41_private_mapped_refuted : exists n a, wf_net V6 n /\ wf_addr V6 a /\ in_net V6 n (val a) /\ net_is_private V6 n = true /\ is_private V6 a = Ret false.
Proof. exact mapped_private. Qed.
Print Assumptions C41_private_mapped_refuted.
(** is_global of an IPv4 network: neither inside the shared range nor private. *)
Theorem C41_global_v4 : forall n, wf_net V4 n ->
  (net_is_global V4 n = true <-> ~ (forall x, in_net V4 n x -> within v4_shared x) /\ net_is_private V4 n = false).
Proof. exact net_global4. Qed.
Print Assumptions C41_global_v4.
Example C41_ex : wf_net V4 (net_at V4 "192.168.0.0/16") /\ net_is_private V4 (net_at V4 "192.168.0.0/16") = true /\
  net_is_private V4 (net_at V4 "192.0.0.0/8") = false /\ net_is_multicast V4 (net_at V4 "224.0.0.0/4") = true /\
  net_is_multicast V4 (net_at V4 "224.0.0.0/3") = false /\ net_is_reserved V6 (net_at V6 "4000::/2") = true /\
  v6_net_is_site_local (net_at V6 "fec0::/10") = true.
Proof. split; [wfn|]. repeat split; vm_compute; reflexivity. Qed.
