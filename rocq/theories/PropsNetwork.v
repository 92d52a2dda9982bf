(** Theorems about networks: properties C13 and C16 (networks), C18-C30.
    [wf_net v n]: the network can exist; [first n], [size v n], [in_net v n x]:
    the block of numbers it stands for (SpecNet). *)
From Coq Require Import String.
From Verif Require Import Base V4Model V6Model AddressModel SpecText SpecAddr SpecStr SpecV4 SpecV6 SpecOrder NetworkModel SpecNet
  NetProofs2 NetProofs3 NetText NetText2 NetText3 NetLemmas NetWitness.

(** ** C18: invariant of constructed networks *)
Theorem C18_from_address : forall v a p strict n, 0 <= p <= width v -> wf_addr v a ->
  from_address v a p strict = Ret n -> wf_net v n /\ n_prefix n = p.
Proof. exact from_address_wf. Qed.
Print Assumptions C18_from_address.
Theorem C18_parse : forall v ts strict n, Forall tok_char ts -> net_parse v ts strict = Ret n -> wf_net v n.
Proof. exact net_parse_wf. Qed.
Print Assumptions C18_parse.
Theorem C18_supernet : forall v n d np m, wf_net v n -> 0 <= d -> (forall q, np = Some q -> 0 <= q) ->
  supernet v n d np = Ret m -> wf_net v m.
Proof. exact supernet_wf. Qed.
Print Assumptions C18_supernet.
Theorem C18_mask_bits : forall v n i, wf_net v n -> 0 <= i < width v ->
  Z.testbit (val (n_mask n)) i = (width v - n_prefix n <=? i).
Proof. exact mask_bits. Qed.
Print Assumptions C18_mask_bits.
Theorem C18_host_bits : forall v n i, wf_net v n -> 0 <= i < width v - n_prefix n -> Z.testbit (first n) i = false.
Proof. exact host_bits. Qed.
Print Assumptions C18_host_bits.
Example C18_ex :
  net_parse V4 (chars (str "192.168.0.0/255.255.0.0")) true = Ret (mk_net (mk_addr [192; 168; 0; 0] []) (mk_addr [255; 255; 0; 0] []) 16) /\
  wf_net V4 (net_at V4 "192.168.0.0/16") /\
  supernet V4 (net_at V4 "192.168.0.0/16") 5 None = Ret (net_at V4 "192.160.0.0/11").
Proof. split; [reflexivity|]. split; [wfn|reflexivity]. Qed.

(** ** C19: strict and non-strict construction *)
Theorem C19_strict : forall v a p n, 0 <= p <= width v -> wf_addr v a ->
  (from_address v a p true = Ret n <-> val a mod 2 ^ (width v - p) = 0 /\ wf_net v n /\ n_addr n = a /\ n_prefix n = p).
Proof. exact from_address_strict. Qed.
Print Assumptions C19_strict.
Theorem C19_strict_error : forall v a p, 0 <= p <= width v -> wf_addr v a -> val a mod 2 ^ (width v - p) <> 0 ->
  from_address v a p true = Err has_host_bits_set 0.
Proof. exact from_address_hosts. Qed.
Print Assumptions C19_strict_error.
(** When bits are cleared the scope id is dropped. *)
Theorem C19_nonstrict : forall v a p, 0 <= p <= width v -> wf_addr v a ->
  exists n, from_address v a p false = Ret n /\ wf_net v n /\ n_prefix n = p /\
    first n = val a - val a mod 2 ^ (width v - p) /\
    a_scope (n_addr n) = if val a mod 2 ^ (width v - p) =? 0 then a_scope a else [].
Proof. exact from_address_nonstrict. Qed.
Print Assumptions C19_nonstrict.
Example C19_ex : wf_addr V6 (addr_at V6 "fe80::1%eth0") /\
  from_address V6 (addr_at V6 "fe80::1%eth0") 64 true = Err has_host_bits_set 0 /\
  from_address V6 (addr_at V6 "fe80::1%eth0") 64 false = Ret (net_at V6 "fe80::/64") /\
  from_address V6 (addr_at V6 "fe80::%eth0") 64 true = Ret (net_at V6 "fe80::%eth0/64").
Proof. split; [wfn|]. repeat split. Qed.

(** ** C20: prefix lengths beyond the maximum *)
(** Within the maximum construction is defined ... *)
Theorem C20_in_range_partial : forall v a p, 0 <= p <= width v -> wf_addr v a ->
  exists n, from_address v a p false = Ret n /\ wf_net v n /\ n_prefix n = p /\
    first n = val a - val a mod 2 ^ (width v - p) /\
    a_scope (n_addr n) = if val a mod 2 ^ (width v - p) =? 0 then a_scope a else [].
Proof. exact from_address_nonstrict. Qed.
Print Assumptions C20_in_range_partial.
(** ... but a longer prefix is not rejected: the shift count is out of range
    (IPv4) or the netmask is written out of bounds (IPv6). *)
Theorem C20_refuted : exists v a p, wf_addr v a /\ width v < p /\ exists u, from_address v a p true = UB u.
Proof. exact prefix_33. Qed.
Print Assumptions C20_refuted.
Theorem C20_always_undefined : forall v a p strict, width v < p -> exists u, from_address v a p strict = UB u.
Proof. exact prefix_too_long. Qed.
Print Assumptions C20_always_undefined.

(** ** C21: broadcast address, host mask and number of addresses *)
Theorem C21_broadcast : forall v n, wf_net v n ->
  wf_addr v (broadcast n) /\ val (broadcast n) = first n + (size v n - 1) /\
  in_net v n (val (broadcast n)) /\ forall x, in_net v n x -> x <= val (broadcast n).
Proof. exact broadcast_largest. Qed.
Print Assumptions C21_broadcast.
Theorem C21_hostmask : forall v n, wf_net v n -> val (hostmask n) = 2 ^ width v - 1 - val (n_mask n).
Proof. exact hostmask_bits. Qed.
Print Assumptions C21_hostmask.
(** The count is exact except for the whole address space, where it wraps to 0. *)
Theorem C21_count_partial : forall v n, wf_net v n -> 1 <= n_prefix n -> addresses_count v n = Ret (size v n).
Proof. exact count_ok. Qed.
Print Assumptions C21_count_partial.
Theorem C21_count_refuted : exists v n, wf_net v n /\ addresses_count v n <> Ret (size v n).
Proof. exact count_0. Qed.
Print Assumptions C21_count_refuted.
Theorem C21_count_whole_space : forall v n, wf_net v n -> n_prefix n = 0 -> addresses_count v n = Ret 0.
Proof. exact count_zero. Qed.
Print Assumptions C21_count_whole_space.
Example C21_ex : let n := net_at V4 "172.16.0.0/12" in wf_net V4 n /\
  broadcast n = addr_at V4 "172.31.255.255" /\ hostmask n = addr_at V4 "0.15.255.255" /\ addresses_count V4 n = Ret 1048576.
Proof. split; [wfn|]. repeat split. Qed.

(** ** C22: contains *)
Theorem C22_contains : forall v n a, wf_net v n -> wf_addr v a ->
  (contains n a = true <-> val (n_addr n) <= val a <= val (broadcast n)).
Proof. exact contains_ends. Qed.
Print Assumptions C22_contains.
Theorem C22_block : forall v n a, wf_net v n -> wf_addr v a -> (contains n a = true <-> in_net v n (val a)).
Proof. exact contains_spec. Qed.
Print Assumptions C22_block.
Theorem C22_leading_bits : forall v n a, wf_net v n -> wf_addr v a ->
  (contains n a = true <-> forall i, width v - n_prefix n <= i -> Z.testbit (val a) i = Z.testbit (first n) i).
Proof. exact contains_bits. Qed.
Print Assumptions C22_leading_bits.
Example C22_ex : wf_net V6 (net_at V6 "fe80::%a/10") /\ wf_addr V6 (addr_at V6 "febf::1%b") /\
  contains (net_at V6 "fe80::%a/10") (addr_at V6 "febf::1%b") = true /\
  contains (net_at V6 "fe80::%a/10") (addr_at V6 "fec0::") = false.
Proof. split; [wfn|]. split; [wfn|]. split; reflexivity. Qed.

(** ** C23: subnet_of and supernet_of *)
Theorem C23_inclusion : forall sp v a b, wf_net v a -> wf_net v b -> unscoped a -> unscoped b ->
  exists r, subnet_of sp v a b = Ret r /\ supernet_of sp v b a = Ret r /\ (r = true <-> subset v a b).
Proof. exact subnet_spec. Qed.
Print Assumptions C23_inclusion.
Theorem C23_prefix_form : forall v a b, wf_net v a -> wf_net v b ->
  (subset v a b <-> n_prefix b <= n_prefix a /\ in_net v b (first a)).
Proof. exact subset_prefix. Qed.
Print Assumptions C23_prefix_form.
Theorem C23_transitive : forall v a b c, subset v a b -> subset v b c -> subset v a c.
Proof. exact subset_trans. Qed.
Print Assumptions C23_transitive.
Theorem C23_antisymmetric : forall v a b, wf_net v a -> wf_net v b -> unscoped a -> unscoped b -> subset v a b -> subset v b a -> a = b.
Proof. exact subset_antisym. Qed.
Print Assumptions C23_antisymmetric.
(** With scope ids (C++20 operators): address with scope not before, last address not after. *)
Theorem C23_scoped : forall v a b, wf_net v a -> wf_net v b ->
  exists r, subnet_of true v a b = Ret r /\
    (r = true <-> (addr_before (n_addr b) (n_addr a) \/ n_addr b = n_addr a) /\ first a + size v a <= first b + size v b).
Proof. exact subnet_scoped. Qed.
Print Assumptions C23_scoped.
Example C23_ex : let a := net_at V4 "10.1.0.0/16" in let b := net_at V4 "10.0.0.0/8" in
  wf_net V4 a /\ wf_net V4 b /\ unscoped a /\ unscoped b /\ subnet_of false V4 a b = Ret true /\ subnet_of true V4 b a = Ret false /\
  supernet_of true V4 b a = Ret true.
Proof. split; [wfn|]. split; [wfn|]. repeat split. Qed.
(** Scope ids matter: a network without scope is not a subnet of the same network with one. *)
Example C23_scope_ex : exists a b, wf_net V6 a /\ wf_net V6 b /\ subset V6 a b /\ subnet_of true V6 a b = Ret false.
Proof. exact subnet_scope_wrong. Qed.

(** ** C24: overlaps *)
Theorem C24_intersection : forall v a b, wf_net v a -> wf_net v b -> (overlaps a b = true <-> exists x, in_net v a x /\ in_net v b x).
Proof. exact overlaps_spec. Qed.
Print Assumptions C24_intersection.
Theorem C24_reflexive : forall v a, wf_net v a -> overlaps a a = true.
Proof. exact overlaps_refl. Qed.
Print Assumptions C24_reflexive.
Theorem C24_symmetric : forall v a b, wf_net v a -> wf_net v b -> overlaps a b = overlaps b a.
Proof. exact overlaps_sym. Qed.
Print Assumptions C24_symmetric.
Theorem C24_nested : forall v a b, wf_net v a -> wf_net v b -> overlaps a b = true -> subset v a b \/ subset v b a.
Proof. exact overlaps_nested. Qed.
Print Assumptions C24_nested.
Example C24_ex : let a := net_at V4 "10.1.0.0/16" in let b := net_at V4 "10.0.0.0/8" in
  wf_net V4 a /\ wf_net V4 b /\ overlaps a b = true /\ overlaps a (net_at V4 "10.2.0.0/16") = false.
Proof. split; [wfn|]. split; [wfn|]. split; reflexivity. Qed.

(** ** C25: supernet *)
(** The supernet is the network of the shorter prefix that contains it (without
    scope id) unless all [width v] bits are removed at once. *)
Theorem C25_difference_partial : forall v n d, wf_net v n -> 0 < n_prefix n -> 0 <= d <= n_prefix n -> d < width v ->
  exists m, supernet v n d None = Ret m /\ wf_net v m /\ unscoped m /\ n_prefix m = n_prefix n - d /\ subset v n m.
Proof. exact supernet_diff. Qed.
Print Assumptions C25_difference_partial.
Theorem C25_new_prefix_partial : forall v n q, wf_net v n -> 0 < n_prefix n -> 0 <= q <= n_prefix n -> n_prefix n - q < width v ->
  exists m, supernet v n 1 (Some q) = Ret m /\ wf_net v m /\ unscoped m /\ n_prefix m = q /\ subset v n m.
Proof. exact supernet_prefix. Qed.
Print Assumptions C25_new_prefix_partial.
Theorem C25_unique : forall v n m m' p, wf_net v n ->
  wf_net v m /\ unscoped m /\ n_prefix m = p /\ subset v n m ->
  wf_net v m' /\ unscoped m' /\ n_prefix m' = p /\ subset v n m' -> m = m'.
Proof. exact super_of_unique. Qed.
Print Assumptions C25_unique.
Theorem C25_errors : forall v n d, wf_net v n -> 0 < n_prefix n -> 0 <= d ->
  (n_prefix n < d -> supernet v n d None = Err invalid_prefixlen_diff 0) /\
  (forall q, n_prefix n < q -> supernet v n d (Some q) = Err new_prefix_must_be_shorter 0) /\
  (forall q, 0 <= q <= n_prefix n -> d <> 1 -> supernet v n d (Some q) = Err cannot_set_prefixlen_diff_and_new_prefix 0).
Proof. exact supernet_errors. Qed.
Print Assumptions C25_errors.
Theorem C25_whole_space : forall v n d np, wf_net v n -> n_prefix n = 0 -> supernet v n d np = Ret n.
Proof. exact supernet_whole. Qed.
Print Assumptions C25_whole_space.
(** Removing all bits of a full-length prefix shifts by the whole width. *)
Theorem C25_refuted : exists v n d, wf_net v n /\ 0 <= d <= n_prefix n /\ supernet v n d None = UB BadShift.
Proof. exact supernet_all. Qed.
Print Assumptions C25_refuted.
Theorem C25_new_prefix_refuted : exists n, wf_net V6 n /\ supernet V6 n 1 (Some 0) = UB BadShift.
Proof. exact supernet_all6. Qed.
Print Assumptions C25_new_prefix_refuted.
(** ... and that is the only undefined case. *)
Theorem C25_undefined_only : forall v n d np u, wf_net v n -> 0 <= d -> (forall q, np = Some q -> 0 <= q) -> supernet v n d np = UB u ->
  n_prefix n = width v /\ ((np = None /\ d = width v) \/ np = Some 0).
Proof. exact supernet_ub. Qed.
Print Assumptions C25_undefined_only.
Example C25_ex : let n := net_at V4 "10.1.2.0/24" in wf_net V4 n /\ supernet V4 n 1 None = Ret (net_at V4 "10.1.2.0/23") /\
  supernet V4 n 1 (Some 8) = Ret (net_at V4 "10.0.0.0/8") /\ supernet V4 n 25 None = Err invalid_prefixlen_diff 0 /\
  supernet V4 n 1 (Some 25) = Err new_prefix_must_be_shorter 0 /\ supernet V4 n 2 (Some 8) = Err cannot_set_prefixlen_diff_and_new_prefix 0.
Proof. split; [wfn|]. repeat split. Qed.

(** ** C26: netmask and hostmask notations *)
(** Mask texts that are neither numbers of 2^64 or more nor "0.0.0.0". *)
Theorem C26_masks_partial : forall v m p, m <> [] -> plain_mask v m ->
  ((exists a, parse_netmask v (chars m) = Ret (a, p)) <-> mask_text v m p) /\
  (forall a, parse_netmask v (chars m) = Ret (a, p) -> wf_addr v a /\ a_scope a = [] /\ val a = 2 ^ width v - 2 ^ (width v - p)).
Proof. exact masks_ok. Qed.
Print Assumptions C26_masks_partial.
Theorem C26_others_refused_partial : forall v m, m <> [] -> plain_mask v m -> (forall p, ~ mask_text v m p) ->
  exists e x, parse_netmask v (chars m) = Err e x.
Proof. exact mask_refused. Qed.
Print Assumptions C26_others_refused_partial.
(** A prefix length of 2^64 is read as 0 ... *)
Theorem C26_number_refuted : exists v s n, ~ (exists p, mask_text v s p) /\
  net_parse v (chars (str "0.0.0.0/" ++ s)) true = Ret n.
Proof. exact mask_2_64. Qed.
Print Assumptions C26_number_refuted.
(** ... and the netmask "0.0.0.0" shifts by an out-of-range count, ... *)
Theorem C26_zero_mask_refuted : exists t, mask_text V4 t 0 /\ net_parse V4 (chars (str "1.2.3.4/" ++ t)) true = UB BadShift.
Proof. exact mask_zero_ub. Qed.
Print Assumptions C26_zero_mask_refuted.
(** ... which is the only undefined case. *)
Theorem C26_undefined_only : forall v ts u, parse_netmask v ts = UB u -> v = V4 /\ exists m, ts = chars m /\ dotted_quad m [0; 0; 0; 0].
Proof. exact mask_ub. Qed.
Print Assumptions C26_undefined_only.
Example C26_ex : parse_netmask V4 (chars (str "255.255.240.0")) = Ret (addr_at V4 "255.255.240.0", 20) /\
  parse_netmask V4 (chars (str "0.0.15.255")) = Ret (addr_at V4 "255.255.240.0", 20) /\
  parse_netmask V4 (chars (str "020")) = Ret (addr_at V4 "255.255.240.0", 20) /\
  parse_netmask V4 (chars (str "255.0.255.0")) = Err netmask_pattern_mixes_zeroes_and_ones 3 /\
  parse_netmask V6 (chars (str "129")) = Err invalid_netmask 0.
Proof. repeat split. Qed.

(** ** C27: text round trip *)
Theorem C27_text : forall v n fmt, wf_net v n -> exists s t d, net_to_string v n fmt = Ret s /\ s = t ++ 47 :: d /\
  addr_to_string v (n_addr n) fmt = Ret t /\ numeral 10 d (n_prefix n).
Proof. exact net_text_ok. Qed.
Print Assumptions C27_text.
Theorem C27_round_trip : forall v n fmt strict, wf_net v n ->
  exists s, net_to_string v n fmt = Ret s /\ net_parse v (chars s) strict = Ret n.
Proof. exact net_round_trip. Qed.
Print Assumptions C27_round_trip.
Theorem C27_injective : forall v n n' fmt fmt' s, wf_net v n -> wf_net v n' ->
  net_to_string v n fmt = Ret s -> net_to_string v n' fmt' = Ret s -> n = n'.
Proof. exact net_text_inj. Qed.
Print Assumptions C27_injective.
Example C27_ex : let n := net_at V6 "fe80::%eth0/10" in wf_net V6 n /\
  net_to_string V6 n compressed = Ret (str "fe80::%eth0/10") /\
  net_to_string V6 n full = Ret (str "fe80:0000:0000:0000:0000:0000:0000:0000%eth0/10") /\
  net_parse V6 (chars (str "fe80:0000:0000:0000:0000:0000:0000:0000%eth0/10")) true = Ret n.
Proof. split; [wfn|]. repeat split. Qed.

(** ** C28: only complete texts are accepted *)
(** For NUL-free texts whose address part fits in the buffer, and the masks of C26. *)
Theorem C28_complete_partial : forall v s strict n, Forall is_char s -> no_nul s -> fits v s ->
  (forall t m, s = t ++ 47 :: m -> plain_mask v m) ->
  (net_parse v (chars s) strict = Ret n <->
   exists t p a, net_text v s t p /\ addr_parse v (chars t) = Ret a /\ from_address v a p strict = Ret n).
Proof. exact net_complete. Qed.
Print Assumptions C28_complete_partial.
(** Everything after the first 15 (57) characters is ignored when no '/' is
    among the first 16 (58). *)
Theorem C28_truncation : forall v s strict, ~ In 47 (firstn (Z.to_nat (max_string_len v + 1)) s) ->
  net_parse v (chars s) strict = net_parse v (chars (firstn (Z.to_nat (max_string_len v)) s)) strict.
Proof. exact net_truncated. Qed.
Print Assumptions C28_truncation.
Theorem C28_refuted : exists s strict n, net_parse V4 (chars s) strict = Ret n /\
  (forall t p a, net_text V4 s t p -> addr_parse V4 (chars t) <> Ret a).
Proof. exact garbage. Qed.
Print Assumptions C28_refuted.
Theorem C28_scope_refuted : exists s strict n, net_parse V6 (chars s) strict = Ret n /\
  s = str "1111:2222:3333:4444:5555:6666:123.123.123.123%abcdefghijklmnop/64" /\
  n_prefix n = 128 /\ a_scope (n_addr n) = str "abcdefghijk".
Proof. exact garbage6. Qed.
Print Assumptions C28_scope_refuted.
Example C28_ex : let s := str "10.0.0.0/8" in Forall is_char s /\ no_nul s /\ fits V4 s /\ net_parse V4 (chars s) true = Ret (net_at V4 "10.0.0.0/8") /\
  net_parse V4 (chars (s ++ [32])) true = Err invalid_netmask 0.
Proof.
  split; [vm_compute; repeat (apply Forall_cons; [split; [discriminate|reflexivity]|]); apply Forall_nil|].
  split; [vm_compute; intros K; repeat (destruct K as [K|K]; [discriminate|]); exact K|]. split; [|split; reflexivity].
  apply (slash_fits V4 (str "10.0.0.0") (str "8")); [|vm_compute; discriminate].
  vm_compute; intros K; repeat (destruct K as [K|K]; [discriminate|]); exact K.
Qed.

(** ** C13: NUL inside a network text *)
Theorem C13_network_refuted : exists t u m n, t ++ u <> t /\ In 0 u /\
  net_parse V4 (chars (t ++ u ++ m)) true = Ret n /\ net_parse V4 (chars (t ++ m)) true = Ret n.
Proof. exact nul_net. Qed.
Print Assumptions C13_network_refuted.

(** ** C29: memory safety of the network parser *)
(** The only undefined outcome is the shift of C26; in particular no access out
    of bounds, for any sequence of characters and encoding errors. *)
Theorem C29_safe_partial : forall v ts strict u, Forall tok_char ts -> net_parse v ts strict = UB u ->
  u = BadShift /\ v = V4 /\ exists t m, ts = chars (t ++ 47 :: m) /\ dotted_quad m [0; 0; 0; 0].
Proof. exact net_parse_safe. Qed.
Print Assumptions C29_safe_partial.
Theorem C29_refuted : exists t, mask_text V4 t 0 /\ net_parse V4 (chars (str "1.2.3.4/" ++ t)) true = UB BadShift.
Proof. exact mask_zero_ub. Qed.
Print Assumptions C29_refuted.
Example C29_ex : (* a long text, several slashes *)
  net_parse V4 (chars (repeat 49 100)) true = Err octet_more_3_characters 0 /\
  net_parse V6 (chars (str "::/1/2")) true = Err only_one_slash_permitted 0.
Proof. split; reflexivity. Qed.

(** ** C30: order of networks *)
Theorem C30_equality : forall v a b, wf_net v a -> wf_net v b -> exists r, net_eqb v a b = Ret r /\ (r = true <-> a = b).
Proof. exact net_eqb_ok. Qed.
Print Assumptions C30_equality.
Theorem C30_equality_meaning : forall v a b, wf_net v a -> wf_net v b -> (a = b <-> n_addr a = n_addr b /\ n_prefix a = n_prefix b).
Proof. exact net_equality. Qed.
Print Assumptions C30_equality_meaning.
Theorem C30_three_way : forall v a b, wf_net v a -> wf_net v b ->
  exists c, net_cmp v a b = Ret c /\ match c with Eq => a = b | Lt => net_before a b | Gt => net_before b a end.
Proof. exact net_cmp_ok. Qed.
Print Assumptions C30_three_way.
Theorem C30_operators : forall v a b, wf_net v a -> wf_net v b ->
  exists lt gt le ge, nop_lt true v a b = Ret lt /\ nop_gt true v a b = Ret gt /\ nop_le true v a b = Ret le /\ nop_ge true v a b = Ret ge /\
    (lt = true <-> net_before a b) /\ (gt = true <-> net_before b a) /\
    (le = true <-> net_before a b \/ a = b) /\ (ge = true <-> net_before b a \/ a = b).
Proof. exact nop_cpp20. Qed.
Print Assumptions C30_operators.
Theorem C30_irreflexive : forall a, ~ net_before a a.
Proof. exact net_before_irrefl. Qed.
Print Assumptions C30_irreflexive.
Theorem C30_transitive : forall a b c, net_before a b -> net_before b c -> net_before a c.
Proof. exact net_before_trans. Qed.
Print Assumptions C30_transitive.
Theorem C30_total : forall v a b, wf_net v a -> wf_net v b -> net_before a b \/ a = b \/ net_before b a.
Proof. exact net_before_total. Qed.
Print Assumptions C30_total.
Theorem C30_older_operators_partial : forall v a b, wf_net v a -> wf_net v b -> a_scope (n_addr a) = a_scope (n_addr b) ->
  nop_lt false v a b = nop_lt true v a b /\ nop_gt false v a b = nop_gt true v a b /\
  nop_le false v a b = nop_le true v a b /\ nop_ge false v a b = nop_ge true v a b.
Proof. exact nop_cpp17. Qed.
Print Assumptions C30_older_operators_partial.
Theorem C30_older_operators_refuted : exists a b, wf_net V6 a /\ wf_net V6 b /\ net_ltb V6 a b = Ret true /\ net_ltb V6 b a = Ret true.
Proof. exact net_less_wrong. Qed.
Print Assumptions C30_older_operators_refuted.
Example C30_ex : let a := net_at V4 "10.0.0.0/8" in let b := net_at V4 "10.0.0.0/16" in let c := net_at V4 "9.0.0.0/24" in
  wf_net V4 a /\ wf_net V4 b /\ wf_net V4 c /\ net_cmp V4 a b = Ret Lt /\ net_cmp V4 c a = Ret Lt /\ net_eqb V4 a b = Ret false.
Proof. split; [wfn|]. split; [wfn|]. split; [wfn|]. repeat split. Qed.

(** ** C16: hash of networks *)
Theorem C16_network : forall is64 v a b, wf_net v a -> wf_net v b -> net_eqb v a b = Ret true ->
  exists h, net_hash is64 v a = Ret h /\ net_hash is64 v b = Ret h.
Proof. exact net_hash_eq. Qed.
Print Assumptions C16_network.
Example C16_network_ex : let a := net_at V4 "10.0.0.0/8" in wf_net V4 a /\ net_eqb V4 a (net_at V4 "10.0.0.0/255.0.0.0") = Ret true /\
  net_hash true V4 a <> net_hash true V4 (net_at V4 "10.0.0.0/9").
Proof. split; [wfn|]. split; [reflexivity|]. vm_compute. discriminate. Qed.
