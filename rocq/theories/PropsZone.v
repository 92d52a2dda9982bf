(** Property theorems C83: reverse pointers and networks.  A network whose prefix
    length is a multiple of the bits per label is exactly a reverse DNS zone
    ([within], [zone]: SpecZone). *)
From Coq Require Import String.
From Verif Require Import Base UnicodeModel V4Model V6Model SpecAddr SpecOrder AddressModel NetworkModel SpecNet AnyModel SpecAny NetWitness SpecZone ZoneProofs.
Close Scope string_scope.

(** An address is in the network exactly when its reverse pointer is in the zone of the network; for addresses and networks of either version. *)
Theorem C83_contains : forall x y s z, wf_anet x -> wf_any y -> anet_prefixlen x mod label_bits (an_ver x) = 0 ->
  any_reverse_pointer y = Ret s -> any_reverse_pointer (anet_address x) = Ret z ->
  (anet_contains x y = true <-> within s (zone (an_ver x) (anet_prefixlen x) z)).
Proof. exact zone_contains. Qed.
Print Assumptions C83_contains.
Example C83_contains_ex : let x := mk_an V4 (net_at V4 "10.20.0.0/16") in let y := mk_aa V4 (addr_at V4 "10.20.30.40") in
  wf_anet x /\ wf_any y /\ anet_prefixlen x mod label_bits (an_ver x) = 0 /\ any_reverse_pointer y = Ret (str "40.30.20.10.in-addr.arpa") /\
  zone V4 16 (str "0.0.20.10.in-addr.arpa") = str "20.10.in-addr.arpa" /\ any_reverse_pointer (anet_address x) = Ret (str "0.0.20.10.in-addr.arpa") /\
  anet_contains x y = true /\ anet_contains x (mk_aa V4 (addr_at V4 "10.120.0.0")) = false /\ anet_contains x (mk_aa V6 (addr_at V6 "::10.20.30.40")) = false.
Proof.
  split; [apply net_at_wf; reflexivity|]. split; [apply addr_at_wf; reflexivity|]. repeat split; vm_compute; reflexivity.
Qed.

(** One network lies in another exactly when its zone lies in the zone of the other. *)
Theorem C83_subset : forall v m n s z, wf_net v m -> wf_net v n -> n_prefix m mod label_bits v = 0 -> n_prefix n mod label_bits v = 0 ->
  any_reverse_pointer (mk_aa v (n_addr m)) = Ret s -> any_reverse_pointer (mk_aa v (n_addr n)) = Ret z ->
  (subset v m n <-> within (zone v (n_prefix m) s) (zone v (n_prefix n) z)).
Proof. exact zone_subset. Qed.
Print Assumptions C83_subset.
Example C83_subset_ex : let m := net_at V6 "2001:db8:1::/48" in let n := net_at V6 "2001:db8::/32" in wf_net V6 m /\ wf_net V6 n /\
  n_prefix m mod label_bits V6 = 0 /\ n_prefix n mod label_bits V6 = 0 /\
  exists s z, any_reverse_pointer (mk_aa V6 (n_addr m)) = Ret s /\ any_reverse_pointer (mk_aa V6 (n_addr n)) = Ret z /\
    zone V6 48 s = str "1.0.0.0.8.b.d.0.1.0.0.2.ip6.arpa" /\ zone V6 32 z = str "8.b.d.0.1.0.0.2.ip6.arpa".
Proof.
  split; [apply net_at_wf; reflexivity|]. split; [apply net_at_wf; reflexivity|]. split; [vm_compute; reflexivity|]. split; [vm_compute; reflexivity|].
  eexists. eexists. split; [vm_compute; reflexivity|]. split; [vm_compute; reflexivity|]. split; vm_compute; reflexivity.
Qed.

(** Only these networks are zones: for any other prefix length no domain name has this property. *)
Theorem C83_only : forall v n, wf_net v n ->
  ((exists z, forall a s, wf_addr v a -> any_reverse_pointer (mk_aa v a) = Ret s -> (contains n a = true <-> within s z)) <-> n_prefix n mod label_bits v = 0).
Proof. exact zone_only. Qed.
Print Assumptions C83_only.
Example C83_only_ex : let n := net_at V4 "10.16.0.0/12" in wf_net V4 n /\ n_prefix n mod label_bits V4 <> 0 /\ wf_net V6 (net_at V6 "2001:db8::/33") /\ 33 mod label_bits V6 <> 0.
Proof. split; [apply net_at_wf; reflexivity|]. split; [vm_compute; discriminate|]. split; [apply net_at_wf; reflexivity|vm_compute; discriminate]. Qed.

