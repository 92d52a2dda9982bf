(** Theorems about iterators and sequences: properties C31-C38 and the rest of
    C18.  [hosts_walk], [subnets_walk], [exclude_walk] run a range-for loop with a
    bound on the number of increments and return the visited elements; the
    outcome [UB OutOfFuel] means that the bound was reached before the end. *)
From Coq Require Import String.
From Verif Require Import Base V4Model V6Model AddressModel SpecAddr SpecOrder NetworkModel IterModel SpecNet SpecIter
  NetWitness IterProofs IterProofs2 IterProofs3 IterProofs4 IterProofs5 IterLemmas.

(** ** C18: invariant of the networks listed by subnets and address_exclude *)
Theorem C18_subnets : forall sp v n d np q s, wf_net v n -> args_ok d np -> asked v n d np q -> defined v n q ->
  subnets sp v n d np = Ret s -> forall i, 0 <= i < s_size s -> exists m, subnets_at v s i = Ret m /\ nth_subnet v n q i m.
Proof. exact sub_element. Qed.
Print Assumptions C18_subnets.
Theorem C18_exclude : forall sp v n o s k l, wf_net v n -> wf_net v o -> address_exclude sp v n o = Ret s ->
  exclude_walk sp v k (e_begin s) (e_end s) = Ret l -> Forall (wf_net v) l.
Proof. exact exclude_elements_wf. Qed.
Print Assumptions C18_exclude.

(** ** C31: elements of hosts() *)
Theorem C31_defined : forall sp v n, wf_net v n -> exists s, hosts sp v n = Ret s.
Proof. exact hosts_exists. Qed.
Print Assumptions C31_defined.
Theorem C31_size : forall sp v n s, wf_net v n -> hosts sp v n = Ret s ->
  hosts_size v s = if n_prefix n >=? width v - 1 then size v n else match v with V4 => size v n - 2 | V6 => size v n - 1 end.
Proof. exact hosts_count. Qed.
Print Assumptions C31_size.
(** Exactly the usable hosts ... *)
Theorem C31_elements : forall sp v n s x, wf_net v n -> hosts sp v n = Ret s ->
  (usable v n x <-> exists i a, 0 <= i < hosts_size v s /\ hosts_at v s i = Ret a /\ val a = x).
Proof. exact hosts_set. Qed.
Print Assumptions C31_elements.
(** ... in increasing order, one by one, without scope id. *)
Theorem C31_order : forall sp v n s i, wf_net v n -> hosts sp v n = Ret s -> 0 <= i < hosts_cnt v n ->
  exists a, hosts_at v s i = Ret a /\ wf_addr v a /\ a_scope a = [] /\ val a = hosts_lo v n + i.
Proof. exact hosts_at_ok. Qed.
Print Assumptions C31_order.
Theorem C31_cnt : forall sp v n s, wf_net v n -> hosts sp v n = Ret s -> hosts_size v s = hosts_cnt v n.
Proof. exact hosts_size_ok. Qed.
Print Assumptions C31_cnt.
(** begin()[i] is the same element. *)
Theorem C31_begin_at : forall sp v n s i, wf_net v n -> hosts sp v n = Ret s -> 0 <= i < 2 ^ width v ->
  ait_at v (h_begin s) i = hosts_at v s i.
Proof. exact hosts_begin_at. Qed.
Print Assumptions C31_begin_at.
Theorem C31_front : forall sp v n s, wf_net v n -> hosts sp v n = Ret s ->
  val (hosts_front s) = hosts_lo v n /\ wf_addr v (hosts_front s) /\ a_scope (hosts_front s) = [].
Proof. exact hosts_front_ok. Qed.
Print Assumptions C31_front.
Theorem C31_back : forall sp v n s, wf_net v n -> hosts sp v n = Ret s ->
  exists a, hosts_back v s = Ret a /\ wf_addr v a /\ a_scope a = [] /\ val a = hosts_lo v n + hosts_cnt v n - 1.
Proof. exact hosts_back_ok. Qed.
Print Assumptions C31_back.
Theorem C31_empty : forall sp v n s, wf_net v n -> hosts sp v n = Ret s -> hosts_empty v s = Ret false.
Proof. exact hosts_nonempty. Qed.
Print Assumptions C31_empty.
Example C31_ex : wf_net V4 (net_at V4 "192.168.1.0/29") /\ exists s, hosts true V4 (net_at V4 "192.168.1.0/29") = Ret s /\
  hosts_size V4 s = 6 /\ hosts_at V4 s 0 = Ret (addr_at V4 "192.168.1.1") /\ hosts_at V4 s 5 = Ret (addr_at V4 "192.168.1.6") /\
  hosts_walk V4 6 (h_begin s) (h_end s) = Ret (map (addr_at V4) ["192.168.1.1"; "192.168.1.2"; "192.168.1.3"; "192.168.1.4"; "192.168.1.5"; "192.168.1.6"])%string.
Proof. split; [wfn|]. calc. Qed.
Example C31_ex6 : wf_net V6 (net_at V6 "2001:db8::/126") /\ exists s, hosts false V6 (net_at V6 "2001:db8::/126") = Ret s /\
  hosts_size V6 s = 3 /\ hosts_back V6 s = Ret (addr_at V6 "2001:db8::3").
Proof. split; [wfn|]. calc. Qed.

(** ** C32: the loop over hosts() *)
(** Unless the end iterator would be past the end of the address space the loop
    makes exactly size() steps and visits the elements. *)
Theorem C32_terminates_partial : forall sp v n s, wf_net v n -> hosts sp v n = Ret s -> ~ hosts_short v n ->
  (exists l, hosts_walk v (Z.to_nat (hosts_cnt v n)) (h_begin s) (h_end s) = Ret l /\ Forall (plain v) l /\
     map val l = count_up (Z.to_nat (hosts_cnt v n)) (hosts_lo v n)) /\
  forall k, Z.of_nat k < hosts_cnt v n -> hosts_walk v k (h_begin s) (h_end s) = UB OutOfFuel.
Proof. exact hosts_loop. Qed.
Print Assumptions C32_terminates_partial.
(** Otherwise it makes a whole turn of the address space first. *)
Theorem C32_steps_at_top_partial : forall sp v n s, wf_net v n -> hosts sp v n = Ret s -> hosts_short v n ->
  (exists l, hosts_walk v (Z.to_nat (2 ^ width v + hosts_cnt v n)) (h_begin s) (h_end s) = Ret l /\ Z.of_nat (length l) = 2 ^ width v + hosts_cnt v n) /\
  forall k, Z.of_nat k < 2 ^ width v + hosts_cnt v n -> hosts_walk v k (h_begin s) (h_end s) = UB OutOfFuel.
Proof. exact hosts_loop_short. Qed.
Print Assumptions C32_steps_at_top_partial.
(** 255.255.255.254/31 has two hosts; the loop needs more than 2^32 steps. *)
Theorem C32_terminates_refuted : exists v n s, wf_net v n /\ hosts true v n = Ret s /\ hosts_size v s = 2 /\
  forall k, Z.of_nat k < 2 ^ 32 -> hosts_walk v k (h_begin s) (h_end s) = UB OutOfFuel.
Proof. exact hosts_forever. Qed.
Print Assumptions C32_terminates_refuted.
(** ffff:ffff:ffff:ffff::/64. *)
Theorem C32_terminates_v6_refuted : exists n s, wf_net V6 n /\ hosts true V6 n = Ret s /\ hosts_size V6 s = 2 ^ 64 - 1 /\
  forall k, Z.of_nat k < 2 ^ 128 -> hosts_walk V6 k (h_begin s) (h_end s) = UB OutOfFuel.
Proof. exact hosts_forever6. Qed.
Print Assumptions C32_terminates_v6_refuted.
Example C32_ex : wf_net V4 (net_at V4 "255.255.255.0/24") /\ ~ hosts_short V4 (net_at V4 "255.255.255.0/24").
Proof. split; [wfn|]. intros (_ & _ & [K|K]); vm_compute in K; discriminate. Qed.

(** ** C33: reverse iteration *)
Theorem C33_hosts_partial : forall sp v n s, wf_net v n -> hosts sp v n = Ret s -> ~ hosts_short v n ->
  exists rb re, hosts_rbegin v s = Ret rb /\ hosts_rend v s = Ret re /\
  (exists l, hosts_rwalk v (Z.to_nat (hosts_cnt v n)) rb re = Ret l /\ Forall (plain v) l /\
     map val l = rev (count_up (Z.to_nat (hosts_cnt v n)) (hosts_lo v n))) /\
  forall k, Z.of_nat k < hosts_cnt v n -> hosts_rwalk v k rb re = UB OutOfFuel.
Proof. exact hosts_rloop. Qed.
Print Assumptions C33_hosts_partial.
Theorem C33_hosts_at_top_partial : forall sp v n s, wf_net v n -> hosts sp v n = Ret s -> hosts_short v n ->
  exists rb re, hosts_rbegin v s = Ret rb /\ hosts_rend v s = Ret re /\
  forall k, Z.of_nat k < 2 ^ width v + hosts_cnt v n -> hosts_rwalk v k rb re = UB OutOfFuel.
Proof. exact hosts_rloop_short. Qed.
Print Assumptions C33_hosts_at_top_partial.
Theorem C33_hosts_refuted : exists v n s rb re, wf_net v n /\ hosts true v n = Ret s /\ hosts_size v s = 2 /\
  hosts_rbegin v s = Ret rb /\ hosts_rend v s = Ret re /\
  forall k, Z.of_nat k < 2 ^ 32 -> hosts_rwalk v k rb re = UB OutOfFuel.
Proof. exact hosts_rforever. Qed.
Print Assumptions C33_hosts_refuted.
Theorem C33_subnets_partial : forall sp v n d np q s, wf_net v n -> args_ok d np -> asked v n d np q -> defined v n q ->
  subnets sp v n d np = Ret s -> q <> 0 -> ~ subnets_short v n -> exists rb re, subnets_rbegin v s = Ret rb /\ subnets_rend v s = Ret re /\
  (exists l, subnets_rwalk v (Z.to_nat (s_size s)) rb re = Ret l /\ Z.of_nat (length l) = s_size s /\
     forall i, (i < length l)%nat -> exists m, nth_error l i = Some m /\ nth_subnet v n q (s_size s - 1 - Z.of_nat i) m) /\
  forall k, Z.of_nat k < s_size s -> subnets_rwalk v k rb re = UB OutOfFuel.
Proof. exact sub_rloop. Qed.
Print Assumptions C33_subnets_partial.
(** A reverse iterator points to what its base iterator is past. *)
Theorem C33_base_reverse : forall v it, wf_ait v it -> (x <- ait_reverse v it ;; ait_base v x) = Ret it.
Proof. exact base_reverse. Qed.
Print Assumptions C33_base_reverse.
Theorem C33_net_base_reverse : forall v it, wf_nit v it -> (x <- nit_reverse v it ;; nit_base v x) = Ret it.
Proof. exact nit_base_reverse. Qed.
Print Assumptions C33_net_base_reverse.
Example C33_ex : exists s rb re, hosts true V4 (net_at V4 "10.0.0.0/30") = Ret s /\ hosts_rbegin V4 s = Ret rb /\ hosts_rend V4 s = Ret re /\
  hosts_rwalk V4 2 rb re = Ret [addr_at V4 "10.0.0.2"; addr_at V4 "10.0.0.1"].
Proof. calc. Qed.

(** ** C34: iterator arithmetic *)
(** The iterators of hosts() and subnets() are well formed, and every operation
    below returns well formed iterators. *)
Theorem C34_hosts_iterators : forall sp v n s, wf_net v n -> hosts sp v n = Ret s -> wf_ait v (h_begin s) /\ wf_ait v (h_end s).
Proof. exact hosts_iterators. Qed.
Print Assumptions C34_hosts_iterators.
Theorem C34_subnets_iterators : forall sp v n d np q s, wf_net v n -> args_ok d np -> asked v n d np q -> defined v n q ->
  subnets sp v n d np = Ret s -> wf_nit v (s_begin s) /\ wf_nit v (s_end s) /\ ni_prefix (s_begin s) = ni_prefix (s_end s).
Proof. exact sub_iterators. Qed.
Print Assumptions C34_subnets_iterators.
Theorem C34_positions : forall v it n, wf_ait v it -> is_i64 n ->
  (exists x, ait_plus v it n = Ret x /\ wf_ait v x /\ ait_pos v x = (ait_pos v it + n mod 2 ^ width v) mod (2 * 2 ^ width v)) /\
  (exists x, ait_minus v it n = Ret x /\ wf_ait v x /\ ait_pos v x = (ait_pos v it - n mod 2 ^ width v) mod (2 * 2 ^ width v)).
Proof. exact plus_position. Qed.
Print Assumptions C34_positions.
Theorem C34_plus_minus : forall v it n, wf_ait v it -> is_i64 n ->
  (x <- ait_plus v it n ;; ait_minus v x n) = Ret it /\ (x <- ait_minus v it n ;; ait_plus v x n) = Ret it.
Proof. exact plus_minus. Qed.
Print Assumptions C34_plus_minus.
Theorem C34_next : forall v it, ait_next v it = ait_plus v it 1 /\ ait_prev v it = ait_minus v it 1.
Proof. exact next_plus. Qed.
Print Assumptions C34_next.
Theorem C34_index : forall v it n, wf_ait v it -> is_i64 n -> exists x, ait_plus v it n = Ret x /\ ait_index v it n = Ret (it_current x).
Proof. exact index_plus. Qed.
Print Assumptions C34_index.
Theorem C34_order_eq : forall v a b, wf_ait v a -> wf_ait v b -> ait_eqb v a b = Ret (ait_pos v a =? ait_pos v b).
Proof. exact ait_eqb_ok. Qed.
Print Assumptions C34_order_eq.
Theorem C34_order_cmp : forall v a b, wf_ait v a -> wf_ait v b -> ait_cmp v a b = Ret (ait_pos v a ?= ait_pos v b).
Proof. exact ait_cmp_ok. Qed.
Print Assumptions C34_order_cmp.
Theorem C34_order_lt : forall v a b, wf_ait v a -> wf_ait v b -> ait_ltb v a b = Ret (ait_pos v a <? ait_pos v b).
Proof. exact ait_ltb_ok. Qed.
Print Assumptions C34_order_lt.
(** [it += -n] and [it -= n] reach the same address, but are equal only when [n]
    is a multiple of the size of the space. *)
Theorem C34_negative_partial : forall v it n, wf_ait v it -> is_i64 n -> is_i64 (- n) ->
  exists x y, ait_plus v it (- n) = Ret x /\ ait_minus v it n = Ret y /\
  it_current x = it_current y /\ (ait_eqb v x y = Ret true <-> n mod 2 ^ width v = 0).
Proof. exact plus_neg. Qed.
Print Assumptions C34_negative_partial.
Theorem C34_negative_refuted : exists v it x y, wf_ait v it /\ ait_plus v it (-1) = Ret x /\ ait_minus v it 1 = Ret y /\ ait_eqb v x y = Ret false.
Proof. exact plus_negative. Qed.
Print Assumptions C34_negative_refuted.
(** [a + (b - a) == b] holds exactly for these distances. *)
Theorem C34_difference_partial : forall v a b, wf_ait v a -> wf_ait v b -> exists x, ait_plus v a (ait_diff v b a) = Ret x /\
  (ait_eqb v x b = Ret true <-> reachable v ((ait_pos v b - ait_pos v a) mod (2 * 2 ^ width v))).
Proof. exact diff_law. Qed.
Print Assumptions C34_difference_partial.
(** The distance itself. *)
Theorem C34_difference_value : forall v a b, wf_ait v a -> wf_ait v b -> ait_diff v b a = distance v (val (it_current b) - val (it_current a)).
Proof. exact diff_value. Qed.
Print Assumptions C34_difference_value.
Theorem C34_difference_refuted : exists v a b x, wf_ait v a /\ wf_ait v b /\ ait_plus v a (ait_diff v b a) = Ret x /\ ait_eqb v x b = Ret false.
Proof. exact diff_negative. Qed.
Print Assumptions C34_difference_refuted.
(** Subnet iterators. *)
Theorem C34_net_plus_minus : forall v it n, wf_nit v it ->
  (x <- nit_plus v it n ;; nit_minus v x n) = Ret it /\ (x <- nit_minus v it n ;; nit_plus v x n) = Ret it.
Proof. exact nit_plus_minus. Qed.
Print Assumptions C34_net_plus_minus.
Theorem C34_net_next : forall v it, nit_next v it = nit_plus v it 1 /\ nit_prev v it = nit_minus v it 1.
Proof. exact nit_next_plus. Qed.
Print Assumptions C34_net_next.
Theorem C34_net_index : forall v it n, wf_nit v it -> exists x, nit_plus v it n = Ret x /\ nit_index v it n = Ret (ni_current x).
Proof. exact nit_index_plus. Qed.
Print Assumptions C34_net_index.
Theorem C34_net_order_eq : forall v a b, wf_nit v a -> wf_nit v b -> ni_prefix a = ni_prefix b -> nit_eqb v a b = Ret (nit_pos v a =? nit_pos v b).
Proof. exact nit_eqb_ok. Qed.
Print Assumptions C34_net_order_eq.
Theorem C34_net_order_cmp : forall v a b, wf_nit v a -> wf_nit v b -> ni_prefix a = ni_prefix b -> nit_cmp v a b = Ret (nit_pos v a ?= nit_pos v b).
Proof. exact nit_cmp_ok. Qed.
Print Assumptions C34_net_order_cmp.
Theorem C34_net_order_lt : forall v a b, wf_nit v a -> wf_nit v b -> ni_prefix a = ni_prefix b -> nit_ltb v a b = Ret (nit_pos v a <? nit_pos v b).
Proof. exact nit_ltb_ok. Qed.
Print Assumptions C34_net_order_lt.
(** The difference of subnet iterators counts addresses, not subnets. *)
Theorem C34_net_difference_value : forall v a b, wf_nit v a -> wf_nit v b -> nit_diff v b a = distance v (first (ni_current b) - first (ni_current a)).
Proof. exact net_diff_value. Qed.
Print Assumptions C34_net_difference_value.
Example C34_distance_ex : distance V4 (-5) = 2 ^ 32 - 5 /\ distance V6 (-5) = -5 /\ distance V6 (2 ^ 64 + 7) = 7 /\ distance V6 (2 ^ 63) = - 2 ^ 63.
Proof. repeat split; vm_compute; reflexivity. Qed.
Theorem C34_net_difference_refuted : exists v n s x y, wf_net v n /\ subnets true v n 1 None = Ret s /\ nit_next v (s_begin s) = Ret x /\
  nit_diff v x (s_begin s) = 128 /\ nit_plus v (s_begin s) (nit_diff v x (s_begin s)) = Ret y /\ nit_eqb v y x = Ret false.
Proof. exact net_diff_wrong. Qed.
Print Assumptions C34_net_difference_refuted.
Example C34_ex : exists s x, hosts true V4 (net_at V4 "10.0.0.0/24") = Ret s /\ ait_plus V4 (h_begin s) 41 = Ret x /\
  it_current x = addr_at V4 "10.0.0.42" /\ ait_diff V4 x (h_begin s) = 41 /\ ait_cmp V4 (h_begin s) x = Ret Lt.
Proof. calc. Qed.

(** ** C35: subnets() partitions the network *)
(** [asked v n d np q]: the arguments ask for the prefix length [q]. *)
Theorem C35_defined_partial : forall sp v n d np q, wf_net v n -> args_ok d np -> asked v n d np q ->
  defined v n q -> exists s, subnets sp v n d np = Ret s /\ s_size s = 2 ^ (q - n_prefix n).
Proof. exact subnets_sized. Qed.
Print Assumptions C35_defined_partial.
Theorem C35_element_partial : forall sp v n d np q s, wf_net v n -> args_ok d np -> asked v n d np q -> defined v n q ->
  subnets sp v n d np = Ret s -> forall i, 0 <= i < s_size s -> exists m, subnets_at v s i = Ret m /\ nth_subnet v n q i m.
Proof. exact sub_element. Qed.
Print Assumptions C35_element_partial.
Theorem C35_cover_partial : forall sp v n d np q s, wf_net v n -> args_ok d np -> asked v n d np q -> defined v n q ->
  subnets sp v n d np = Ret s -> forall x, in_net v n x <-> exists i m, 0 <= i < s_size s /\ subnets_at v s i = Ret m /\ in_net v m x.
Proof. exact sub_cover. Qed.
Print Assumptions C35_cover_partial.
(** Increasing, hence pairwise disjoint. *)
Theorem C35_order_partial : forall sp v n d np q s, wf_net v n -> args_ok d np -> asked v n d np q -> defined v n q ->
  subnets sp v n d np = Ret s -> forall i j a b, 0 <= i -> i < j -> j < s_size s ->
  subnets_at v s i = Ret a -> subnets_at v s j = Ret b -> first a + size v a <= first b.
Proof. exact sub_sorted. Qed.
Print Assumptions C35_order_partial.
Theorem C35_ends_partial : forall sp v n d np q s, wf_net v n -> args_ok d np -> asked v n d np q -> defined v n q ->
  subnets sp v n d np = Ret s -> nth_subnet v n q 0 (subnets_front s) /\ exists m, subnets_back v s = Ret m /\ nth_subnet v n q (s_size s - 1) m.
Proof. exact sub_ends. Qed.
Print Assumptions C35_ends_partial.
(** Missing: the whole space split into single addresses (shift by the full
    width), and for IPv4 into itself (division by zero). *)
Theorem C35_whole_space_refuted : exists v n, wf_net v n /\ n_prefix n = 0 /\
  subnets true v n (width v) None = UB BadShift /\ subnets true v n 0 None = UB DivByZero.
Proof. exact sub_all_ub. Qed.
Print Assumptions C35_whole_space_refuted.
Theorem C35_whole_space_v6_refuted : exists n, wf_net V6 n /\ n_prefix n = 0 /\ subnets true V6 n 128 None = UB BadShift.
Proof. exact sub_all_ub6. Qed.
Print Assumptions C35_whole_space_v6_refuted.
Example C35_ex : wf_net V4 (net_at V4 "192.168.1.0/24") /\ args_ok 1 (Some 26) /\ asked V4 (net_at V4 "192.168.1.0/24") 1 (Some 26) 26 /\
  defined V4 (net_at V4 "192.168.1.0/24") 26 /\
  exists s, subnets true V4 (net_at V4 "192.168.1.0/24") 1 (Some 26) = Ret s /\ s_size s = 4 /\
  subnets_walk V4 4 (s_begin s) (s_end s) = Ret (map (net_at V4) ["192.168.1.0/26"; "192.168.1.64/26"; "192.168.1.128/26"; "192.168.1.192/26"])%string.
Proof.
  split; [wfn|]. split; [split; split; vm_compute; congruence|]. split; [right; split; [reflexivity|]; exists 2; repeat split; discriminate|].
  split; [split; [reflexivity|right; discriminate]|]. calc.
Qed.

(** ** C36: the loop over subnets() *)
Theorem C36_terminates_partial : forall sp v n d np q s, wf_net v n -> args_ok d np -> asked v n d np q -> defined v n q ->
  subnets sp v n d np = Ret s -> q <> 0 -> ~ subnets_short v n ->
  (exists l, subnets_walk v (Z.to_nat (s_size s)) (s_begin s) (s_end s) = Ret l /\ Z.of_nat (length l) = s_size s /\
     forall i, (i < length l)%nat -> exists m, nth_error l i = Some m /\ nth_subnet v n q (Z.of_nat i) m) /\
  forall k, Z.of_nat k < s_size s -> subnets_walk v k (s_begin s) (s_end s) = UB OutOfFuel.
Proof. exact sub_loop. Qed.
Print Assumptions C36_terminates_partial.
Theorem C36_steps_at_top_partial : forall sp v n d np q s, wf_net v n -> args_ok d np -> asked v n d np q -> defined v n q ->
  subnets sp v n d np = Ret s -> subnets_short v n ->
  (exists l, subnets_walk v (Z.to_nat (2 ^ q + s_size s)) (s_begin s) (s_end s) = Ret l /\ Z.of_nat (length l) = 2 ^ q + s_size s) /\
  forall k, Z.of_nat k < 2 ^ q + s_size s -> subnets_walk v k (s_begin s) (s_end s) = UB OutOfFuel.
Proof. exact sub_loop_short. Qed.
Print Assumptions C36_steps_at_top_partial.
(** 255.255.255.0/24 has two subnets of prefix length 25; the loop visits more
    than 2^25 networks. *)
Theorem C36_terminates_refuted : exists v n s, wf_net v n /\ subnets true v n 1 None = Ret s /\ s_size s = 2 /\
  forall k, Z.of_nat k < 2 ^ 25 -> subnets_walk v k (s_begin s) (s_end s) = UB OutOfFuel.
Proof. exact sub_forever. Qed.
Print Assumptions C36_terminates_refuted.
(** ::/0 split into itself: the step is 0 and the loop never ends. *)
Theorem C36_terminates_whole_refuted : exists n s, wf_net V6 n /\ subnets true V6 n 0 None = Ret s /\ s_size s = 1 /\
  forall k, subnets_walk V6 k (s_begin s) (s_end s) = UB OutOfFuel.
Proof. exact sub_stuck. Qed.
Print Assumptions C36_terminates_whole_refuted.
Example C36_ex : wf_net V6 (net_at V6 "2001:db8::/32") /\ ~ subnets_short V6 (net_at V6 "2001:db8::/32") /\
  exists s, subnets true V6 (net_at V6 "2001:db8::/32") 1 None = Ret s /\
  subnets_walk V6 2 (s_begin s) (s_end s) = Ret [net_at V6 "2001:db8::/33"; net_at V6 "2001:db8:8000::/33"].
Proof. split; [wfn|]. split; [intros (K & _); vm_compute in K; discriminate|]. calc. Qed.

(** ** C37: validation of the arguments of subnets() *)
(** The exact outcome, unless the sum of prefix length and difference overflows. *)
Theorem C37_checks_partial : forall sp v n d np, wf_net v n -> args_ok d np -> n_prefix n < width v -> (np = None -> n_prefix n + d < 2 ^ 64) ->
  match asked_diff (n_prefix n) d np with
  | inl e => subnets sp v n d np = Err e 0
  | inr d' => if n_prefix n + d' >? width v then subnets sp v n d np = Err invalid_prefixlen_diff 0
              else if (n_prefix n =? 0) && (d' =? width v) then subnets sp v n d np = UB BadShift
              else match v with
                   | V4 => if (n_prefix n =? 0) && (d' =? 0) then subnets sp v n d np = UB DivByZero else exists s, subnets sp v n d np = Ret s
                   | V6 => exists s, subnets sp v n d np = Ret s
                   end
  end.
Proof. exact subnets_checks. Qed.
Print Assumptions C37_checks_partial.
(** A network of one address ignores its arguments. *)
Theorem C37_single : forall sp v n d np, wf_net v n -> args_ok d np -> n_prefix n = width v -> exists s, subnets sp v n d np = Ret s /\ s_size s = 1.
Proof. exact subnets_single_any. Qed.
Print Assumptions C37_single.
(** The difference 2^64 - 1 is not rejected: the sum wraps around. *)
Theorem C37_overflow_refuted : exists n, wf_net V4 n /\ n_prefix n < 32 /\ subnets true V4 n (2 ^ 64 - 1) None = UB BadShift.
Proof. exact sub_wrap. Qed.
Print Assumptions C37_overflow_refuted.
Theorem C37_overflow_v6_refuted : exists n, wf_net V6 n /\ n_prefix n < 128 /\ subnets true V6 n (2 ^ 64 - 1) None = Err has_host_bits_set 0.
Proof. exact sub_wrap6. Qed.
Print Assumptions C37_overflow_v6_refuted.
Example C37_ex : subnets true V4 (net_at V4 "10.0.0.0/8") 1 (Some 7) = Err new_prefix_must_be_longer 0 /\
  subnets true V4 (net_at V4 "10.0.0.0/8") 2 (Some 9) = Err cannot_set_prefixlen_diff_and_new_prefix 0 /\
  subnets true V4 (net_at V4 "10.0.0.0/8") 25 None = Err invalid_prefixlen_diff 0 /\
  exists s, subnets true V4 (net_at V4 "10.0.0.0/8") 24 None = Ret s.
Proof. calc. Qed.

(** ** C38: address_exclude *)
(** [is_one]: 0.0.0.1/32 and ::1/128 are missing, see below. *)
Theorem C38_partition_partial : forall sp v n o, wf_net v n -> wf_net v o -> subset v o n -> n_prefix n < n_prefix o -> ~ is_one v o ->
  exists s l, address_exclude sp v n o = Ret s /\
    exclude_walk sp v (Z.to_nat (n_prefix o - n_prefix n)) (e_begin s) (e_end s) = Ret l /\
    Z.of_nat (length l) = n_prefix o - n_prefix n /\
    (forall i, (i < length l)%nat -> exists m, nth_error l i = Some m /\ wf_net v m /\ n_prefix m = n_prefix n + 1 + Z.of_nat i /\ disjoint v m o) /\
    (forall i j a b, (i < j)%nat -> nth_error l i = Some a -> nth_error l j = Some b -> disjoint v a b) /\
    (forall x, in_net v n x <-> in_net v o x \/ exists m, In m l /\ in_net v m x).
Proof. exact exclude_all. Qed.
Print Assumptions C38_partition_partial.
Theorem C38_steps_partial : forall sp v n o s, wf_net v n -> wf_net v o -> subset v o n -> n_prefix n < n_prefix o -> ~ is_one v o ->
  address_exclude sp v n o = Ret s -> forall k, Z.of_nat k < n_prefix o - n_prefix n -> exclude_walk sp v k (e_begin s) (e_end s) = UB OutOfFuel.
Proof. exact exclude_fuel. Qed.
Print Assumptions C38_steps_partial.
Theorem C38_equal : forall sp v n o k, wf_net v n -> wf_net v o -> subset v o n -> n_prefix n = n_prefix o ->
  exists s, address_exclude sp v n o = Ret s /\ exclude_walk sp v k (e_begin s) (e_end s) = Ret [].
Proof. exact exclude_same. Qed.
Print Assumptions C38_equal.
Theorem C38_not_contained : forall sp v n o, wf_net v n -> wf_net v o -> ~ subset v o n -> address_exclude sp v n o = Err not_contained_network 0.
Proof. exact exclude_not. Qed.
Print Assumptions C38_not_contained.
(** Excluding 0.0.0.1/32 from 0.0.0.0/31 lists nothing: the end of the sequence is
    the default network 0.0.0.0/32. *)
Theorem C38_partition_refuted : exists v n o s, wf_net v n /\ wf_net v o /\ subset v o n /\ n_prefix o = n_prefix n + 1 /\
  address_exclude true v n o = Ret s /\ exclude_walk true v 1 (e_begin s) (e_end s) = Ret [].
Proof. exact exclude_one. Qed.
Print Assumptions C38_partition_refuted.
Example C38_ex : wf_net V4 (net_at V4 "192.0.2.0/28") /\ wf_net V4 (net_at V4 "192.0.2.1/32") /\ ~ is_one V4 (net_at V4 "192.0.2.1/32") /\
  exists s, address_exclude true V4 (net_at V4 "192.0.2.0/28") (net_at V4 "192.0.2.1/32") = Ret s /\
  exclude_walk true V4 4 (e_begin s) (e_end s) = Ret (map (net_at V4) ["192.0.2.8/29"; "192.0.2.4/30"; "192.0.2.2/31"; "192.0.2.0/32"])%string /\
  address_exclude true V4 (net_at V4 "192.0.2.0/28") (net_at V4 "192.0.3.0/32") = Err not_contained_network 0.
Proof.
  split; [wfn|]. split; [wfn|]. split; [intros (_ & K); vm_compute in K; discriminate|]. calc.
Qed.
