(** Property theorems C74: big-endian hosts.  HostModel: the functions that go
    through the integer value of an address, with [le] = is_little_endian().
    SpecEndian: [mirror] reads the bytes of an integer from the other end. *)
From Coq Require Import String.
From Verif Require Import Base SpecText SpecAddr SpecV4 V4Model V6Model AddressModel SpecOrder NetworkModel SpecNet IterModel SpecAny NetWitness
  HostModel SpecEndian EndianLemmas EndianProofs8 EndianProofs9 EndianProofs10 EndianProofs11 EndianProofs12 EndianProofs13 EndianProofs14.
Open Scope string_scope.
Open Scope Z_scope.
Open Scope list_scope.

(** On a little-endian host these functions are those of the other model files. *)
Theorem C74_little : (forall v a, to_uint_h true v a = addr_to_uint v a) /\ (forall v n, from_uint_h true v n = addr_from_uint v n) /\
  (forall v ts, parse_h true v ts = addr_parse v ts) /\ (forall v a p s, from_address_h true v a p s = from_address v a p s) /\
  (forall v ts s, net_parse_h true v ts s = net_parse_res v ts s) /\ (forall v n, addresses_count_h true v n = addresses_count v n) /\
  (forall v n d np, supernet_h true v n d np = supernet v n d np) /\ (forall sp v n, hosts_h true sp v n = hosts sp v n) /\
  (forall v s k, hosts_at_h true v s k = hosts_at v s k).
Proof. exact host_little. Qed.
Print Assumptions C74_little.
(** On a big-endian host the integer of an address is that of its mirrored bytes, ... *)
Theorem C74_to_integer : forall v a, wf_addr v a -> to_uint_h false v a = Ret (be_value (mirror v (a_bytes a))).
Proof. exact big_to. Qed.
Print Assumptions C74_to_integer.
Theorem C74_from_integer : forall v n, 0 <= n < 2 ^ width v ->
  exists bs, from_uint_h false v n = Ret (mk_addr (mirror v bs) []) /\ bytes_ok v bs /\ be_value bs = n.
Proof. exact big_from. Qed.
Print Assumptions C74_from_integer.
(** ... so the two conversions still undo each other, ... *)
Theorem C74_round_trip : forall v a n, wf_addr v a -> a_scope a = [] -> 0 <= n < 2 ^ width v ->
  (exists m, to_uint_h false v a = Ret m /\ from_uint_h false v m = Ret a) /\ exists b, from_uint_h false v n = Ret b /\ to_uint_h false v b = Ret n.
Proof. exact big_round. Qed.
Print Assumptions C74_round_trip.
(** ... but the integer is not the number the address stands for. *)
Theorem C74_integer_differs : exists a, wf_addr V4 a /\ to_uint_h false V4 a <> to_uint_h true V4 a.
Proof. exact big_to_refuted. Qed.
Print Assumptions C74_integer_differs.
Example C74_integer_ex : to_uint_h false V4 (addr_at V4 "127.0.0.1") = Ret 0x0100007F /\ from_uint_h false V4 0x0100007F = Ret (addr_at V4 "127.0.0.1") /\
  to_uint_h false V6 (addr_at V6 "::1") = Ret (2 ^ 56).
Proof. repeat split; vm_compute; reflexivity. Qed.

(** Texts of IPv4 addresses are read alike, and IPv6 ones without a dotted quad; *)
Theorem C74_text_v4 : forall ts, parse_h false V4 ts = addr_parse V4 ts.
Proof. exact big_text4. Qed.
Print Assumptions C74_text_v4.
Theorem C74_text_v6 : forall ts, (forall s, ts = chars s -> ~ dotted_tail s) -> parse_h false V6 ts = addr_parse V6 ts.
Proof. exact big_text6. Qed.
Print Assumptions C74_text_v6.
(** a dotted quad at the end is read backwards. *)
Theorem C74_text_v6_dotted : forall s, dotted_tail s -> parse_h false V6 (chars s) = rmap reversed_tail_addr (addr_parse V6 (chars s)).
Proof. exact big_text6_dotted. Qed.
Print Assumptions C74_text_v6_dotted.
Example C74_text_ex : dotted_tail (str "::1.2.3.4%a.b") /\ parse_h false V6 (chars (str "::1.2.3.4%a.b")) = Ret (addr_at V6 "::4.3.2.1%a.b") /\
  ~ dotted_tail (str "::1%eth0") /\ parse_h false V6 (chars (str "::1%eth0")) = Ret (addr_at V6 "::1%eth0").
Proof.
  split; [|split; [vm_compute; reflexivity|split; [|vm_compute; reflexivity]]].
  - exists (str ":"), (str "1.2.3.4"), (str "%a.b"). split; [reflexivity|]. cbn. split; [lia|]. split; [lia|]. split; [tauto|]. right. eexists. reflexivity.
  - intros (p & q & r & K & N & N' & D & R). assert (I : In 46 (str "::1%eth0")).
    { rewrite K. apply in_app_iff. right. right. apply in_app_iff. left. exact D. }
    cbn in I. lia.
Qed.

(** A network of an IPv4 address is the mirror of the network of the mirrored address: the host bits are the first ones. *)
Theorem C74_network_v4 : forall a p s, wf_addr V4 a -> 0 <= p <= 32 ->
  from_address_h false V4 a p s = rmap (mirror_net V4) (from_address V4 (mirror_addr V4 a) p s).
Proof. exact big_from_address4. Qed.
Print Assumptions C74_network_v4.
(** IPv6 masks are made byte by byte. *)
Theorem C74_network_v6 : forall a p s, from_address_h false V6 a p s = from_address V6 a p s.
Proof. exact big_from_address6. Qed.
Print Assumptions C74_network_v6.
Theorem C74_network_text_v4 : forall q q' bs d d' strict, dotted_quad q bs -> dotted_quad q' (rev bs) -> mask_mirror d d' ->
  net_parse_h false V4 (chars (q ++ 47 :: d)) strict = rmap (mirror_net V4) (net_parse_res V4 (chars (q' ++ 47 :: d')) strict).
Proof. exact big_net4. Qed.
Print Assumptions C74_network_text_v4.
Theorem C74_network_text_plain : forall ts strict, ~ In (Ch 47) ts -> net_parse_h false V4 ts strict = net_parse_res V4 ts strict.
Proof. exact big_net4_plain. Qed.
Print Assumptions C74_network_text_plain.
Theorem C74_network_text_v6 : forall ts strict, ~ In (Ch 46) ts -> net_parse_h false V6 ts strict = net_parse_res V6 ts strict.
Proof. exact big_net6. Qed.
Print Assumptions C74_network_text_v6.
(** 10.0.0.0/8 is not a network on such a host. *)
Theorem C74_network_differs : exists s, net_parse_res V4 (chars s) true = Ret (net_at V4 "10.0.0.0/8") /\
  net_parse_h false V4 (chars s) true = Err has_host_bits_set 0.
Proof. exact big_net_refuted. Qed.
Print Assumptions C74_network_differs.
Example C74_network_ex : from_address_h false V4 (addr_at V4 "0.0.0.10") 8 true = Ret (mk_net (addr_at V4 "0.0.0.10") (addr_at V4 "0.0.0.255") 8) /\
  mask_mirror (str "8") (str "8") /\ net_parse_h false V4 (chars (str "0.0.0.10/8")) true = Ret (mk_net (addr_at V4 "0.0.0.10") (addr_at V4 "0.0.0.255") 8) /\
  net_parse_h false V4 (chars (str "10.0.0.0")) true = Ret (net_at V4 "10.0.0.0/32") /\
  net_parse_h false V6 (chars (str "2001:db8::/32")) true = Ret (net_at V6 "2001:db8::/32").
Proof.
  split; [vm_compute; reflexivity|]. split; [|repeat split; vm_compute; reflexivity].
  left. split; [reflexivity|]. split; [discriminate|]. constructor; [unfold is_dec_digit; cbn; lia|constructor].
Qed.

(** The number of addresses of a network with an ordinary mask, ... *)
Theorem C74_count : forall v n, wf_net v n -> addresses_count_h false v n = Ret ((be_value (mirror v (a_bytes (hostmask n))) + 1) mod 2 ^ width v).
Proof. exact big_count. Qed.
Print Assumptions C74_count.
(** ... which for IPv6 is right only at the ends of the halves; ... *)
Theorem C74_count_v6 : forall n, wf_net V6 n -> (addresses_count_h false V6 n = Ret (size V6 n mod 2 ^ 128) <-> n_prefix n = 0 \/ n_prefix n = 64 \/ n_prefix n = 128).
Proof. exact big_count6. Qed.
Print Assumptions C74_count_v6.
(** ... IPv4 networks made on the host itself have the right number. *)
Theorem C74_count_v4 : forall a p s n, wf_addr V4 a -> 1 <= p <= 32 -> from_address_h false V4 a p s = Ret n -> addresses_count_h false V4 n = Ret (2 ^ (32 - p)).
Proof. exact big_count4. Qed.
Print Assumptions C74_count_v4.
Example C74_count_ex : wf_net V6 (net_at V6 "2001:db8::/120") /\ addresses_count_h false V6 (net_at V6 "2001:db8::/120") = Ret 0xFF00000000000001 /\
  addresses_count_h false V6 (net_at V6 "2001:db8::/64") = Ret (2 ^ 64) /\
  exists n, from_address_h false V4 (addr_at V4 "0.0.0.10") 8 true = Ret n /\ addresses_count_h false V4 n = Ret (2 ^ 24).
Proof. split; [wfn|]. split; [vm_compute; reflexivity|]. split; [vm_compute; reflexivity|]. eexists. split; [vm_compute; reflexivity|]. vm_compute. reflexivity. Qed.

(** Supernets and hosts are mirrored as well: IPv4 networks made on the host stay consistent, ... *)
Theorem C74_supernet_v4 : forall n d np, bytes_net V4 n -> 0 <= d -> 0 <= n_prefix n <= 32 -> (forall q, np = Some q -> 0 <= q) ->
  supernet_h false V4 n d np = rmap (mirror_net V4) (supernet V4 (mirror_net V4 n) d np).
Proof. exact big_supernet4. Qed.
Print Assumptions C74_supernet_v4.
Theorem C74_hosts : forall sp v n k, bytes_net v n -> exists s t, hosts_h false sp v n = Ret s /\ hosts sp v (mirror_net v n) = Ret t /\
  hosts_size v s = hosts_size v t /\ hosts_at_h false v s k = rmap (mirror_addr v) (hosts_at v t k).
Proof. exact big_hosts. Qed.
Print Assumptions C74_hosts.
(** ... IPv6 networks, whose masks are not mirrored, do not. *)
Theorem C74_supernet_v6_differs : exists n m, wf_net V6 n /\ supernet V6 n 16 None = Ret m /\ supernet_h false V6 n 16 None = Err has_host_bits_set 0.
Proof. exact big_supernet6_refuted. Qed.
Print Assumptions C74_supernet_v6_differs.
Theorem C74_hosts_v6_differs : exists n s a, wf_net V6 n /\ hosts_h false true V6 n = Ret s /\ hosts_at_h false V6 s 0 = Ret a /\ contains n a = false.
Proof. exact big_hosts_refuted. Qed.
Print Assumptions C74_hosts_v6_differs.
(** Masks of whole halves are their own mirror images: such IPv6 networks stay consistent, ... *)
Theorem C74_from_address_v6_halves : forall a p s, wf_addr V6 a -> p = 0 \/ p = 64 \/ p = 128 ->
  from_address_h false V6 a p s = rmap (mirror_net V6) (from_address V6 (mirror_addr V6 a) p s).
Proof. exact big_from_half. Qed.
Print Assumptions C74_from_address_v6_halves.
Theorem C74_supernet_v6_halves : forall n p, bytes_net V6 n -> n_prefix n <= 128 -> 0 < p <= n_prefix n -> p = 64 \/ p = 128 ->
  supernet_h false V6 n 1 (Some p) = rmap (mirror_net V6) (supernet V6 (mirror_net V6 n) 1 (Some p)).
Proof. exact big_supernet_half. Qed.
Print Assumptions C74_supernet_v6_halves.
(** ... and the network of 64 bits around a single address is that of a little-endian host. *)
Theorem C74_supernet_v6_64 : forall n, wf_net V6 n -> n_prefix n = 128 -> supernet_h false V6 n 1 (Some 64) = supernet V6 n 1 (Some 64).
Proof. exact big_supernet_64. Qed.
Print Assumptions C74_supernet_v6_64.
Example C74_halves_ex : wf_net V6 (net_at V6 "2001:db8:1:2:3:4:5:6%7/128") /\
  supernet_h false V6 (net_at V6 "2001:db8:1:2:3:4:5:6%7/128") 1 (Some 64) = Ret (net_at V6 "2001:db8:1:2::/64") /\
  supernet_h false V6 (net_at V6 "2001:db8:1:2:3:4:5:6%7/128") 1 (Some 48) = Err has_host_bits_set 0 /\
  from_address_h false V6 (addr_at V6 "2001:db8::1") 64 false = Ret (net_at V6 "2001:db8::/64").
Proof. split; [wfn|]. repeat split; vm_compute; reflexivity. Qed.

Example C74_supernet_ex : bytes_net V4 (mirror_net V4 (net_at V4 "10.0.0.0/8")) /\
  supernet_h false V4 (mirror_net V4 (net_at V4 "10.0.0.0/8")) 1 None = Ret (mirror_net V4 (net_at V4 "10.0.0.0/7")) /\
  exists s, hosts_h false true V4 (mirror_net V4 (net_at V4 "10.0.0.0/30")) = Ret s /\ hosts_at_h false V4 s 1 = Ret (addr_at V4 "2.0.0.10").
Proof.
  split; [|split; [vm_compute; reflexivity|eexists; split; [vm_compute; reflexivity|]; vm_compute; reflexivity]].
  split; (split; [split; [reflexivity|repeat (constructor; [split; vm_compute; congruence|]); constructor]|reflexivity]).
Qed.

(** Loops, subnets and exclusions: little-endian hosts are those of the other files. *)
Theorem C74_loops_little : (forall v k x y, hosts_walk_h true v k x y = hosts_walk v k x y) /\ (forall sp v n d np, subnets_h true sp v n d np = subnets sp v n d np) /\
  (forall v s k, subnets_at_h true v s k = subnets_at v s k) /\ (forall v k x y, subnets_walk_h true v k x y = subnets_walk v k x y) /\
  (forall sp v n o, exclude_h true sp v n o = address_exclude sp v n o) /\ (forall sp v k x y, exclude_walk_h true sp v k x y = exclude_walk sp v k x y).
Proof. exact host_little2. Qed.
Print Assumptions C74_loops_little.
(** Loops over hosts() are mirrored too, except over a single address, ... *)
Theorem C74_hosts_loop : forall sp v n k, bytes_net v n -> n_prefix n <> width v ->
  exists s t, hosts_h false sp v n = Ret s /\ hosts sp v (mirror_net v n) = Ret t /\
    hosts_walk_h false v k (h_begin s) (h_end s) = rmap (map (mirror_addr v)) (hosts_walk v k (h_begin t) (h_end t)).
Proof. exact big_hosts_walk. Qed.
Print Assumptions C74_hosts_loop.
(** ... where the end lies before the beginning if the first octet is 255: the loop then runs through all addresses. *)
Theorem C74_single_host : forall sp n a b c d, bytes_net V4 n -> n_prefix n = 32 -> a_bytes (n_addr n) = [a; b; c; d] -> exists s, hosts_h false sp V4 n = Ret s /\
  (a < 255 \/ [a; b; c; d] = [255; 255; 255; 255] -> hosts_walk_h false V4 1 (h_begin s) (h_end s) = Ret [n_addr n]) /\
  (a = 255 -> [a; b; c; d] <> [255; 255; 255; 255] -> forall k, Z.of_nat k <= 2 ^ 32 -> hosts_walk_h false V4 k (h_begin s) (h_end s) = UB OutOfFuel).
Proof. exact big_single4. Qed.
Print Assumptions C74_single_host.
(** For IPv6 the halves count on their own: the ninth octet decides, or the first if all of the lower half are 255. *)
Theorem C74_single_host_v6 : forall sp n h l, bytes_net V6 n -> n_prefix n = 128 -> a_bytes (n_addr n) = h ++ l -> length h = 8%nat -> exists s, hosts_h false sp V6 n = Ret s /\
  (hd 0 l < 255 \/ (l = repeat 255 8 /\ (hd 0 h < 255 \/ h = repeat 255 8)) -> hosts_walk_h false V6 1 (h_begin s) (h_end s) = Ret [mk_addr (a_bytes (n_addr n)) []]) /\
  (~ (hd 0 l < 255 \/ (l = repeat 255 8 /\ (hd 0 h < 255 \/ h = repeat 255 8))) -> forall k, Z.of_nat k <= 2 ^ 128 -> hosts_walk_h false V6 k (h_begin s) (h_end s) = UB OutOfFuel).
Proof. exact big_single6. Qed.
Print Assumptions C74_single_host_v6.
Example C74_single_host_v6_ex :
  (exists s, hosts_h false true V6 (net_at V6 "2001:db8::1%7/128") = Ret s /\ hosts_walk_h false V6 1 (h_begin s) (h_end s) = Ret [addr_at V6 "2001:db8::1"]) /\
  (exists s, hosts_h false true V6 (net_at V6 "2001:db8::ff00:0:0:0/128") = Ret s /\ hosts_walk_h false V6 5 (h_begin s) (h_end s) = UB OutOfFuel) /\
  exists s, hosts_h false true V6 (net_at V6 "2001:db8:0:0:ffff:ffff:ffff:ffff/128") = Ret s /\
    hosts_walk_h false V6 1 (h_begin s) (h_end s) = Ret [addr_at V6 "2001:db8:0:0:ffff:ffff:ffff:ffff"].
Proof. repeat split; eexists; (split; [vm_compute; reflexivity|]); vm_compute; reflexivity. Qed.

(** IPv4 subnets are mirrored, the loop over them as well; ... *)
Theorem C74_subnets_v4 : forall sp n d np, bytes_net V4 n -> 0 <= n_prefix n <= 32 ->
  match subnets_h false sp V4 n d np, subnets sp V4 (mirror_net V4 n) d np with
  | Ret s, Ret t => s_size s = s_size t /\ (forall k, subnets_at_h false V4 s k = rmap (mirror_net V4) (subnets_at V4 t k)) /\
      (n_prefix n <> 32 -> forall k, subnets_walk_h false V4 k (s_begin s) (s_end s) = rmap (map (mirror_net V4)) (subnets_walk V4 k (s_begin t) (s_end t)))
  | Err e x, Err e' x' => e = e' /\ x = x'
  | UB u, UB u' => u = u'
  | _, _ => False
  end.
Proof. exact big_subnets4. Qed.
Print Assumptions C74_subnets_v4.
(** the subnets of a single address are that address, and the loop over them that over its hosts; ... *)
Theorem C74_subnets_single : forall sp v n d np, wf_net v n -> n_prefix n = width v -> exists s t, subnets_h false sp v n d np = Ret s /\ hosts_h false sp v n = Ret t /\
  s_size s = 1 /\ subnets_at_h false v s 0 = Ret (mk_net (mk_addr (a_bytes (n_addr n)) []) (n_mask n) (n_prefix n)) /\
  forall k, subnets_walk_h false v k (s_begin s) (s_end s) = rmap (map (fun a => mk_net a (n_mask n) (n_prefix n))) (hosts_walk_h false v k (h_begin t) (h_end t)).
Proof. exact big_subnets_single. Qed.
Print Assumptions C74_subnets_single.
Example C74_subnets_single_ex : wf_net V6 (net_at V6 "2001:db8::1%7/128") /\
  (exists s, subnets_h false true V6 (net_at V6 "2001:db8::1%7/128") 1 None = Ret s /\ subnets_walk_h false V6 1 (s_begin s) (s_end s) = Ret [net_at V6 "2001:db8::1/128"]) /\
  exists s, subnets_h false true V4 (net_at V4 "255.0.0.1/32") 1 None = Ret s /\ s_size s = 1 /\ subnets_walk_h false V4 5 (s_begin s) (s_end s) = UB OutOfFuel.
Proof. split; [wfn|]. split; eexists; (split; [vm_compute; reflexivity|]); [|split]; vm_compute; reflexivity. Qed.

(** ... IPv6 ones fail. *)
Theorem C74_subnets_v6_differs : exists n s, wf_net V6 n /\ subnets true V6 n 1 None = Ret s /\ s_size s = 2 /\ subnets_h false true V6 n 1 None = Err has_host_bits_set 0.
Proof. exact big_subnets6_refuted. Qed.
Print Assumptions C74_subnets_v6_differs.
(** ... unless their mask is one of whole halves: then these are mirrored as well. *)
Theorem C74_subnets_v6_halves : forall sp n q, bytes_net V6 n -> 0 <= n_prefix n < 128 -> n_prefix n <= q -> q = 0 \/ q = 64 \/ q = 128 ->
  match subnets_h false sp V6 n 1 (Some q), subnets sp V6 (mirror_net V6 n) 1 (Some q) with
  | Ret s, Ret t => s_size s = s_size t /\ (forall k, subnets_at_h false V6 s k = rmap (mirror_net V6) (subnets_at V6 t k)) /\
      (forall k, subnets_walk_h false V6 k (s_begin s) (s_end s) = rmap (map (mirror_net V6)) (subnets_walk V6 k (s_begin t) (s_end t)))
  | Err e x, Err e' x' => e = e' /\ x = x'
  | UB u, UB u' => u = u'
  | _, _ => False
  end.
Proof. exact big_subnets_halves. Qed.
Print Assumptions C74_subnets_v6_halves.
Example C74_subnets_halves_ex : bytes_net V6 (net_at V6 "2001:db8::%7/64") /\
  (exists s, subnets_h false true V6 (net_at V6 "2001:db8::%7/64") 1 (Some 128) = Ret s /\ s_size s = 2 ^ 64 /\
    subnets_at_h false V6 s 0x102 = Ret (net_at V6 "2001:db8::201:0:0:0/128")) /\
  exists s, subnets_h false true V6 (net_at V6 "::/0") 1 (Some 64) = Ret s /\ subnets_at_h false V6 s 0x102 = Ret (net_at V6 "201::/64").
Proof.
  split; [assert (W : wf_net V6 (net_at V6 "2001:db8::%7/64")) by wfn; split; apply W|]. split; eexists; (split; [vm_compute; reflexivity|]); [split; vm_compute; reflexivity|vm_compute; reflexivity].
Qed.

(** Membership and overlap of IPv4 networks do not depend on the host, ... *)
Theorem C74_contains_v4 : forall n a, bytes_net V4 n -> wf_addr V4 a -> contains (mirror_net V4 n) (mirror_addr V4 a) = contains n a.
Proof. exact big_contains4. Qed.
Print Assumptions C74_contains_v4.
Theorem C74_overlaps_v4 : forall m o, bytes_net V4 m -> bytes_net V4 o -> overlaps (mirror_net V4 m) (mirror_net V4 o) = overlaps m o.
Proof. exact big_overlaps4. Qed.
Print Assumptions C74_overlaps_v4.
(** ... and a contained network is reported as such. *)
Theorem C74_subnet_of_v4 : forall sp m o, wf_net V4 m -> wf_net V4 o -> subset V4 o m ->
  subnet_of sp V4 (mirror_net V4 o) (mirror_net V4 m) = Ret true /\ supernet_of sp V4 (mirror_net V4 m) (mirror_net V4 o) = Ret true.
Proof. exact big_subnet4. Qed.
Print Assumptions C74_subnet_of_v4.
(** But containment compares the octets in their order, which misleads subnet_of about others ... *)
Theorem C74_subnet_of_v4_differs : exists m o, wf_net V4 m /\ wf_net V4 o /\ subnet_of true V4 o m = Ret false /\ overlaps (mirror_net V4 o) (mirror_net V4 m) = false /\
  subnet_of true V4 (mirror_net V4 o) (mirror_net V4 m) = Ret true.
Proof. exact big_subnet_of_refuted. Qed.
Print Assumptions C74_subnet_of_v4_differs.
(** ... and makes address_exclude throw std::out_of_range. *)
Theorem C74_exclude_v4_differs : exists m o s l, wf_net V4 m /\ wf_net V4 o /\ address_exclude true V4 m o = Ret s /\ exclude_walk true V4 16 (e_begin s) (e_end s) = Ret l /\
  exists t, exclude_h false true V4 (mirror_net V4 m) (mirror_net V4 o) = Ret t /\ exclude_walk_h false true V4 16 (e_begin t) (e_end t) = UB AssertFailed.
Proof. exact big_exclude4_refuted. Qed.
Print Assumptions C74_exclude_v4_differs.
(** In networks of at most 256 addresses, or at the beginning of a network, excluding works as on other hosts. *)
Theorem C74_exclude_v4 : forall sp m o, wf_net V4 m -> wf_net V4 o -> subset V4 o m -> 24 <= n_prefix m \/ first o = first m ->
  exists s t, address_exclude sp V4 m o = Ret s /\ exclude_h false sp V4 (mirror_net V4 m) (mirror_net V4 o) = Ret t /\
    forall k, exclude_walk_h false sp V4 k (e_begin t) (e_end t) = rmap (map (mirror_net V4)) (exclude_walk sp V4 k (e_begin s) (e_end s)).
Proof. exact big_exclude4_all. Qed.
Print Assumptions C74_exclude_v4.
Example C74_exclude_ex : wf_net V4 (net_at V4 "10.0.0.0/30") /\ wf_net V4 (net_at V4 "10.0.0.2/32") /\ subset V4 (net_at V4 "10.0.0.2/32") (net_at V4 "10.0.0.0/30") /\
  24 <= n_prefix (net_at V4 "10.0.0.0/30") /\
  exists t, exclude_h false true V4 (mirror_net V4 (net_at V4 "10.0.0.0/30")) (mirror_net V4 (net_at V4 "10.0.0.2/32")) = Ret t /\
    exclude_walk_h false true V4 2 (e_begin t) (e_end t) = Ret [mirror_net V4 (net_at V4 "10.0.0.0/31"); mirror_net V4 (net_at V4 "10.0.0.3/32")].
Proof.
  split; [wfn|]. split; [wfn|]. split; [apply ends4; [wfn|wfn|split; vm_compute; congruence]|]. split; [vm_compute; congruence|].
  eexists. split; [vm_compute; reflexivity|]. vm_compute. reflexivity.
Qed.

Example C74_subnets_ex : (exists s, hosts_h false true V4 (mirror_net V4 (net_at V4 "1.0.0.255/32")) = Ret s /\ hosts_walk_h false V4 5 (h_begin s) (h_end s) = UB OutOfFuel) /\
  exists s, subnets_h false true V4 (mirror_net V4 (net_at V4 "10.0.0.0/8")) 1 None = Ret s /\ s_size s = 2 /\
    subnets_walk_h false V4 2 (s_begin s) (s_end s) = Ret [mirror_net V4 (net_at V4 "10.0.0.0/9"); mirror_net V4 (net_at V4 "10.128.0.0/9")].
Proof. split; eexists; (split; [vm_compute; reflexivity|]); [|split; [vm_compute; reflexivity|]]; vm_compute; reflexivity. Qed.

