(** Property theorems C70: the six relational operators of every class, with the
    three-way comparison of C++20 ([true]) and before ([false]).  SpecRel:
    [decides x P], the call returns and says whether [P]; [in_order], the
    operators of an order; [from_less], operators derived from [<] whatever
    relation it is. *)
From Coq Require Import String.
From Verif Require Import Base FixedStringModel FixedStringProofs SpecStr AddressModel SpecOrder NetworkModel SpecNet IterModel SpecIter AnyModel SpecAny SpecExact
  NetWitness Uint128OpsModel ScopeModel RelModel SpecRel RelProofs.

(** Fixed strings, also of different capacities. *)
Theorem C70_string : forall sp op f g, string_in f -> string_in g -> decides (rel_op string_rels sp op f g) (in_order text_same text_before op f g).
Proof. exact string_ops. Qed.
Print Assumptions C70_string.
(** Scopes. *)
Theorem C70_scope : forall sp op f g s t, string_in f -> string_in g -> scope_make f = Ret s -> scope_make g = Ret t ->
  decides (rel_op scope_rels sp op s t) (in_order (fun s t => scope_string s = scope_string t) (fun s t => lex_lt (scope_string s) (scope_string t)) op s t).
Proof. exact scope_ops. Qed.
Print Assumptions C70_scope.
Theorem C70_string_order : strict_order string_in text_same text_before.
Proof. exact string_order. Qed.
Print Assumptions C70_string_order.
Example C70_string_ex : rel_op string_rels true CLe (mkfs 2 [97; 98; 0; 0]) (mkfs 3 [97; 98; 99]) = Ret true /\
  rel_op string_rels false CGe (mkfs 2 [97; 98; 0; 0]) (mkfs 3 [97; 98; 99]) = Ret false /\
  rel_op string_rels false CNe (mkfs 1 [97; 0]) (mkfs 1 [97; 9; 9]) = Ret false.
Proof. repeat split; vm_compute; reflexivity. Qed.

(** Addresses: a strict total order in C++20 ... *)
Theorem C70_address_cpp20 : forall v op a b, wf_addr v a -> wf_addr v b -> decides (rel_op (addr_rels v) true op a b) (in_order eq addr_before op a b).
Proof. exact addr_ops20. Qed.
Print Assumptions C70_address_cpp20.
Theorem C70_address_order : forall v, strict_order (wf_addr v) eq addr_before.
Proof. exact addr_order. Qed.
Print Assumptions C70_address_order.
(** ... before, whatever [either_before] is ... *)
Theorem C70_address_older : forall v op a b, wf_addr v a -> wf_addr v b -> decides (rel_op (addr_rels v) false op a b) (from_less eq either_before op a b).
Proof. exact addr_ops11. Qed.
Print Assumptions C70_address_older.
(** ... which is the same order when the scope ids agree. *)
Theorem C70_address_same_scope : forall v op a b, wf_addr v a -> wf_addr v b -> a_scope a = a_scope b -> decides (rel_op (addr_rels v) false op a b) (in_order eq addr_before op a b).
Proof. exact addr_ops_same. Qed.
Print Assumptions C70_address_same_scope.
Example C70_address_ex : rel_op (addr_rels V6) true CLt (addr_at V6 "fe80::1%b") (addr_at V6 "fe80::2%a") = Ret true /\
  rel_op (addr_rels V6) false CLt (addr_at V6 "fe80::1%b") (addr_at V6 "fe80::2%a") = Ret true /\
  rel_op (addr_rels V6) false CGt (addr_at V6 "fe80::1%b") (addr_at V6 "fe80::2%a") = Ret true /\
  rel_op (addr_rels V4) false CGe (addr_at V4 "10.0.0.1") (addr_at V4 "9.255.0.1") = Ret true.
Proof. repeat split; vm_compute; reflexivity. Qed.

(** Networks. *)
Theorem C70_network_cpp20 : forall v op a b, wf_net v a -> wf_net v b -> decides (rel_op (net_rels v) true op a b) (in_order eq net_before op a b).
Proof. exact net_ops20. Qed.
Print Assumptions C70_network_cpp20.
Theorem C70_network_order : forall v, strict_order (wf_net v) eq net_before.
Proof. exact net_order. Qed.
Print Assumptions C70_network_order.
Theorem C70_network_older : forall v op a b, wf_net v a -> wf_net v b -> decides (rel_op (net_rels v) false op a b) (from_less eq net_either_before op a b).
Proof. exact net_ops11. Qed.
Print Assumptions C70_network_older.
Theorem C70_network_same_scope : forall v op a b, wf_net v a -> wf_net v b -> a_scope (n_addr a) = a_scope (n_addr b) ->
  decides (rel_op (net_rels v) false op a b) (in_order eq net_before op a b).
Proof. exact net_ops_same. Qed.
Print Assumptions C70_network_same_scope.
(** Version-erased addresses and networks. *)
Theorem C70_any_cpp20 : forall op a b, wf_any a -> wf_any b -> decides (rel_op any_rels true op a b) (in_order eq any_before op a b).
Proof. exact any_rel20. Qed.
Print Assumptions C70_any_cpp20.
Theorem C70_any_order : strict_order wf_any eq any_before.
Proof. exact any_order. Qed.
Print Assumptions C70_any_order.
Theorem C70_any_older : forall op a b, wf_any a -> wf_any b -> decides (rel_op any_rels false op a b) (from_less eq any_either_before op a b).
Proof. exact any_rel11. Qed.
Print Assumptions C70_any_older.
Theorem C70_any_network_cpp20 : forall op a b, wf_anet a -> wf_anet b -> decides (rel_op anet_rels true op a b) (in_order eq anet_before op a b).
Proof. exact anet_rel20. Qed.
Print Assumptions C70_any_network_cpp20.
Theorem C70_any_network_order : strict_order wf_anet eq anet_before.
Proof. exact anet_order. Qed.
Print Assumptions C70_any_network_order.
Theorem C70_any_network_older : forall op a b, wf_anet a -> wf_anet b -> decides (rel_op anet_rels false op a b) (from_less eq anet_either_before op a b).
Proof. exact anet_rel11. Qed.
Print Assumptions C70_any_network_older.
Example C70_network_ex : rel_op (net_rels V4) true CLt (net_at V4 "10.0.0.0/8") (net_at V4 "10.0.0.0/9") = Ret true /\
  rel_op (net_rels V4) false CLe (net_at V4 "10.0.0.0/8") (net_at V4 "10.0.0.0/9") = Ret true /\
  rel_op anet_rels false CGt (mk_an V4 (net_at V4 "10.0.0.0/8")) (mk_an V6 (net_at V6 "::/0")) = Ret false.
Proof. repeat split; vm_compute; reflexivity. Qed.

(** Address iterators: by position, in both families. *)
Theorem C70_hosts : forall v sp op a b, wf_ait v a -> wf_ait v b -> decides (rel_op (ait_rels v) sp op a b) (in_order (pos_same v) (pos_before v) op a b).
Proof. exact ait_ops. Qed.
Print Assumptions C70_hosts.
Theorem C70_hosts_same : forall v a b, wf_ait v a -> wf_ait v b -> (pos_same v a b <-> a = b).
Proof. exact pos_same_eq. Qed.
Print Assumptions C70_hosts_same.
(** Network iterators: by position, then by prefix length. *)
Theorem C70_nets : forall v sp op a b, wf_nit v a -> wf_nit v b -> decides (rel_op (nit_rels v) sp op a b) (in_order (npos_same v) (npos_before v) op a b).
Proof. exact nit_ops. Qed.
Print Assumptions C70_nets.
Theorem C70_nets_order : forall v, strict_order (wf_nit v) (npos_same v) (npos_before v).
Proof. exact nit_order. Qed.
Print Assumptions C70_nets_order.
(** Exclusion iterators: the order of their networks reversed. *)
Theorem C70_exclude_cpp20 : forall v op a b, wf_net v (x_current a) -> wf_net v (x_current b) ->
  decides (rel_op (xit_rels v) true op a b) (in_order eq (fun x y => net_before y x) op (x_current a) (x_current b)).
Proof. exact xit_ops20. Qed.
Print Assumptions C70_exclude_cpp20.
Theorem C70_exclude_older : forall v op a b, wf_net v (x_current a) -> wf_net v (x_current b) ->
  decides (rel_op (xit_rels v) false op a b) (from_less eq (fun x y => net_either_before y x) op (x_current a) (x_current b)).
Proof. exact xit_ops11. Qed.
Print Assumptions C70_exclude_older.
Theorem C70_any_exclude_cpp20 : forall op a b, wf_anet (ax_current a) -> wf_anet (ax_current b) ->
  decides (rel_op axit_rels true op a b) (in_order eq (fun x y => anet_before y x) op (ax_current a) (ax_current b)).
Proof. exact axit_ops20. Qed.
Print Assumptions C70_any_exclude_cpp20.
Theorem C70_any_exclude_older : forall op a b, wf_anet (ax_current a) -> wf_anet (ax_current b) ->
  decides (rel_op axit_rels false op a b) (from_less eq (fun x y => anet_either_before y x) op (ax_current a) (ax_current b)).
Proof. exact axit_ops11. Qed.
Print Assumptions C70_any_exclude_older.
(** Version-erased iterators of the same version ... *)
Theorem C70_any_hosts : forall sp op (a b : aiter ait aaddr), ai_ver a = ai_ver b -> wf_ait (ai_ver a) (ai_it a) -> wf_ait (ai_ver b) (ai_it b) ->
  decides (rel_op (aiter_rels host_ops) sp op a b) (in_order (pos_same (ai_ver a)) (pos_before (ai_ver a)) op (ai_it a) (ai_it b)).
Proof. exact host_iter_ops. Qed.
Print Assumptions C70_any_hosts.
Theorem C70_any_nets : forall sp op (a b : aiter nit anet), ai_ver a = ai_ver b -> wf_nit (ai_ver a) (ai_it a) -> wf_nit (ai_ver b) (ai_it b) ->
  decides (rel_op (aiter_rels net_ops) sp op a b) (in_order (npos_same (ai_ver a)) (npos_before (ai_ver a)) op (ai_it a) (ai_it b)).
Proof. exact net_iter_ops. Qed.
Print Assumptions C70_any_nets.
(** ... and of different versions: before C++20 neither is less than the other, and each is both <= and >= the other; the difference is 0. *)
Theorem C70_any_versions : forall (I E : Type) (o : iops I E) sp op a b, ai_ver a = V4 -> ai_ver b = V6 ->
  rel_op (aiter_rels o) sp op a b = Ret (match op with CNe | CLe => true | CLt => sp | CGe => negb sp | CEq | CGt => false end) /\
  rel_op (aiter_rels o) sp op b a = Ret (match op with CNe | CGe => true | CGt => sp | CLe => negb sp | CEq | CLt => false end) /\
  aiter_diff o a b = 0 /\ aiter_diff o b a = 0.
Proof. exact aiter_two. Qed.
Print Assumptions C70_any_versions.
(** So before C++20 these operators are no order. *)
Theorem C70_any_hosts_refuted : exists a b : aiter ait aaddr, wf_ait (ai_ver a) (ai_it a) /\ wf_ait (ai_ver b) (ai_it b) /\
  rel_op (aiter_rels host_ops) false CEq a b = Ret false /\ rel_op (aiter_rels host_ops) false CLt a b = Ret false /\
  rel_op (aiter_rels host_ops) false CGt a b = Ret false /\ rel_op (aiter_rels host_ops) false CLe a b = Ret true /\ rel_op (aiter_rels host_ops) false CGe a b = Ret true.
Proof. exact older_not_order. Qed.
Print Assumptions C70_any_hosts_refuted.
Example C70_iterator_ex :
  (s <- hosts false V4 (net_at V4 "10.0.0.0/29") ;; x <- rel_op (ait_rels V4) false CLt (h_begin s) (h_end s) ;;
   y <- rel_op (ait_rels V4) true CGe (h_begin s) (h_end s) ;; Ret (x, y)) = Ret (true, false) /\
  (s <- subnets false V4 (net_at V4 "10.0.0.0/29") 1 None ;; x <- rel_op (nit_rels V4) false CLe (s_begin s) (s_end s) ;;
   y <- rel_op (nit_rels V4) true CNe (s_begin s) (s_end s) ;; Ret (x, y)) = Ret (true, true).
Proof. split; vm_compute; reflexivity. Qed.

(** swap of networks. *)
Theorem C70_swap : forall v a b, wf_net v a -> wf_net v b -> net_swap a b = Ret (b, a).
Proof. exact net_swap_ok. Qed.
Print Assumptions C70_swap.
Theorem C70_any_swap : forall x y, anet_swap x y = (y, x).
Proof. exact anet_swap_ok. Qed.
Print Assumptions C70_any_swap.
(** v4() and v6() of a version-erased network. *)
Theorem C70_any_network_versions : forall x, (forall n, anet_v4 x = Some n <-> an_ver x = V4 /\ n = an_net x) /\ (forall n, anet_v6 x = Some n <-> an_ver x = V6 /\ n = an_net x) /\
  (anet_v4 x = None <-> anet_v6 x <> None).
Proof. exact anet_versions. Qed.
Print Assumptions C70_any_network_versions.
Example C70_swap_ex : net_swap (net_at V6 "fe80::%a/64") (net_at V6 "::/0") = Ret (net_at V6 "::/0", net_at V6 "fe80::%a/64") /\
  anet_v4 (mk_an V4 (net_at V4 "10.0.0.0/8")) = Some (net_at V4 "10.0.0.0/8") /\ anet_v6 (mk_an V4 (net_at V4 "10.0.0.0/8")) = None.
Proof. repeat split; vm_compute; reflexivity. Qed.

