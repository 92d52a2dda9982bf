(** Property theorems C54: overloads with an error code and throwing overloads.
    The functions [..._st] take the contents of the caller's code variable and
    return its contents afterwards (CodeModel); [agree], [on_error] and [blind]
    are in SpecCode. *)
From Coq Require Import String.
From Verif Require Import Base UnicodeModel FixedStringModel V4Model V6Model AddressModel NetworkModel IterModel AnyModel SpecAny CodeModel SpecCode
  SpecNet SpecAddr SpecOrder NetWitness IterLemmas CodeLemmas.

(** The hypotheses below hold of every reader and of every text it reads. *)
Theorem C54_readers : reader_genuine char_next /\ reader_genuine utf8_next /\ reader_genuine utf16_next /\ reader_genuine utf32_next /\
  (forall next s ts, reader_genuine next -> tokens next s = Ret ts -> Forall tok_genuine ts).
Proof. exact readers. Qed.
Print Assumptions C54_readers.
(** Addresses: parse of a string. *)
Theorem C54_parse : forall v ts code, Forall tok_genuine ts ->
  agree (parse_st v ts code) (parse_throw v ts) /\ on_error (addr_default v) (parse_st v ts code) /\ blind (parse_st v ts).
Proof. exact parse_overloads. Qed.
Print Assumptions C54_parse.
(** parse of an array of [n] + 1 code units. *)
Theorem C54_parse_array : forall v next n data code, reader_genuine next ->
  agree (parse_array_st v next n data code) (parse_array_throw v next n data) /\ on_error (addr_default v) (parse_array_st v next n data code) /\ blind (parse_array_st v next n data).
Proof. exact parse_array_overloads. Qed.
Print Assumptions C54_parse_array.
Example C54_parse_ex : parse_st V6 (chars (str "1::2")) invalid_netmask = Ret (addr_at V6 "1::2", no_error) /\
  parse_throw V6 (chars (str "1::2")) = Ret (addr_at V6 "1::2") /\ addr_at V6 "1::2" <> addr_default V6 /\
  parse_st V6 (chars (str "1::2::3")) invalid_netmask = Ret (addr_default V6, most_one_double_colon_permitted) /\
  parse_throw V6 (chars (str "1::2::3")) = Err most_one_double_colon_permitted 5 /\
  parse_st V4 [] octet_exceeded_255 = Ret (addr_default V4, empty_address) /\
  parse_array_st V4 utf16_next 7 [49; 46; 50; 46; 51; 46; 52; 0] empty_octet = Ret (addr_at V4 "1.2.3.4", no_error) /\
  parse_array_st V4 utf16_next 1 [1080; 0] empty_octet = Ret (addr_default V4, unexpected_symbol).
Proof. split; [vm_compute; reflexivity|]. split; [vm_compute; reflexivity|]. split; [vm_compute; discriminate|]. calc. Qed.
(** set_scope_id of a string of [n] units: on an error the address is left as it was. *)
Theorem C54_scope : forall a n ts code, Forall tok_genuine ts ->
  agree (set_scope_st a n ts code) (set_scope_throw a n ts) /\ on_error a (set_scope_st a n ts code) /\ blind (set_scope_st a n ts).
Proof. exact scope_overloads. Qed.
Print Assumptions C54_scope.
(** set_scope_id of an array. *)
Theorem C54_scope_array : forall a next n data code, reader_genuine next ->
  agree (set_scope_array_st a next n data code) (set_scope_array_throw a next n data) /\ on_error a (set_scope_array_st a next n data code) /\
  blind (set_scope_array_st a next n data).
Proof. exact scope_array_overloads. Qed.
Print Assumptions C54_scope_array.
Example C54_scope_ex : set_scope_st (addr_at V6 "fe80::1%x") 4 (chars (str "eth0")) invalid_netmask = Ret (addr_at V6 "fe80::1%eth0", no_error) /\
  set_scope_st (addr_at V6 "fe80::1%x") 3 (chars (str "a/b")) no_error = Ret (addr_at V6 "fe80::1%x", invalid_scope_id) /\
  set_scope_st (addr_at V6 "fe80::1%x") 17 (chars (str "12345678901234567")) no_error = Ret (addr_at V6 "fe80::1%x", scope_id_is_too_long).
Proof. calc. Qed.
(** Networks: parse of a string. *)
Theorem C54_network_parse : forall v ts strict code, Forall tok_genuine ts ->
  agree (net_parse_st v ts strict code) (net_parse_throw v ts strict) /\ on_error (net_default v) (net_parse_st v ts strict code) /\ blind (net_parse_st v ts strict).
Proof. exact net_parse_overloads. Qed.
Print Assumptions C54_network_parse.
Theorem C54_network_parse_array : forall v next n data strict code, reader_genuine next ->
  agree (net_array_st v next n data strict code) (net_array_throw v next n data strict) /\ on_error (net_default v) (net_array_st v next n data strict code) /\
  blind (net_array_st v next n data strict).
Proof. exact net_array_overloads. Qed.
Print Assumptions C54_network_parse_array.
Theorem C54_from_address : forall v a p strict code, agree (from_address_st v a p strict code) (from_address_throw v a p strict) /\ on_error (net_default v) (from_address_st v a p strict code) /\
  blind (from_address_st v a p strict).
Proof. exact from_address_overloads. Qed.
Print Assumptions C54_from_address.
Theorem C54_supernet : forall v n d np code, agree (supernet_st v n d np code) (supernet_throw v n d np) /\ on_error (net_default v) (supernet_st v n d np code) /\ blind (supernet_st v n d np).
Proof. exact supernet_overloads. Qed.
Print Assumptions C54_supernet.
Example C54_network_ex : net_parse_st V6 [] true has_host_bits_set = Ret (net_default V6, empty_address) /\
  net_parse_st V4 (chars (str "10.0.0.0/255.0.0.0")) true has_host_bits_set = Ret (net_at V4 "10.0.0.0/8", no_error) /\
  net_parse_st V4 (chars (str "10.0.0.1/8")) true no_error = Ret (net_default V4, has_host_bits_set) /\
  net_parse_throw V4 (chars (str "10.0.0.1/8")) true = Err has_host_bits_set 0 /\
  from_address_st V4 (addr_at V4 "10.0.0.1") 8 false empty_octet = Ret (net_at V4 "10.0.0.0/8", no_error) /\
  from_address_st V4 (addr_at V4 "10.0.0.1") 8 true empty_octet = Ret (net_default V4, has_host_bits_set) /\
  supernet_st V4 (net_at V4 "10.0.0.0/8") 1 None empty_octet = Ret (net_at V4 "10.0.0.0/7", no_error) /\
  supernet_st V4 (net_at V4 "10.0.0.0/8") 9 None empty_octet = Ret (net_default V4, invalid_prefixlen_diff).
Proof. calc. Qed.
(** subnets and address_exclude agree with the throwing overloads when the code variable holds no_error; they do not write it on success. *)
Theorem C54_subnets_partial : forall sp v n d np, agree (subnets_code sp v n no_error d np) (subnets sp v n d np) /\
  forall code, match subnets_code sp v n no_error d np with
    | Ret (s, no_error) => subnets_code sp v n code d np = Ret (s, code)
    | r => subnets_code sp v n code d np = r end.
Proof. exact subnets_overloads. Qed.
Print Assumptions C54_subnets_partial.
Theorem C54_exclude_partial : forall sp v n m, agree (exclude_code sp v n m no_error) (address_exclude sp v n m) /\
  forall code, match exclude_code sp v n m no_error with
    | Ret (s, no_error) => exclude_code sp v n m code = Ret (s, code)
    | r => exclude_code sp v n m code = r end.
Proof. exact exclude_overloads. Qed.
Print Assumptions C54_exclude_partial.
(** So a code left by an earlier call is reported again by a call that succeeds. *)
Theorem C54_subnets_refuted : exists v n s code, wf_net v n /\ code <> no_error /\ subnets true v n 1 None = Ret s /\ subnets_code true v n code 1 None = Ret (s, code).
Proof. exact subnets_stale. Qed.
Print Assumptions C54_subnets_refuted.
Theorem C54_exclude_refuted : exists v n m s code, wf_net v n /\ wf_net v m /\ code <> no_error /\
  address_exclude true v n m = Ret s /\ exclude_code true v n m code = Ret (s, code).
Proof. exact exclude_stale. Qed.
Print Assumptions C54_exclude_refuted.
Example C54_subnets_ex : (exists s, subnets_code true V4 (net_at V4 "10.0.0.0/8") no_error 1 None = Ret (s, no_error)) /\
  (exists s, subnets_code true V4 (net_at V4 "10.0.0.0/8") no_error 25 None = Ret (s, invalid_prefixlen_diff)) /\
  (exists s, exclude_code true V4 (net_at V4 "10.0.0.0/8") (net_at V4 "11.0.0.0/8") no_error = Ret (s, not_contained_network)).
Proof. split; [eexists; vm_compute; reflexivity|]. split; [eexists; vm_compute; reflexivity|eexists; vm_compute; reflexivity]. Qed.
(** Version-erased objects. *)
Theorem C54_any_parse : forall ts code, Forall tok_genuine ts ->
  agree (any_parse_st ts code) (any_parse_throw ts) /\ on_error aa_default (any_parse_st ts code) /\ blind (any_parse_st ts).
Proof. exact any_parse_overloads. Qed.
Print Assumptions C54_any_parse.
Theorem C54_any_network_parse : forall ts strict code, Forall tok_genuine ts ->
  agree (anet_parse_st ts strict code) (anet_parse_throw ts strict) /\ on_error an_default (anet_parse_st ts strict code) /\ blind (anet_parse_st ts strict).
Proof. exact anet_parse_overloads. Qed.
Print Assumptions C54_any_network_parse.
Theorem C54_any_from_address : forall a p strict code, agree (anet_from_address_code a code p strict) (anet_from_address a p strict) /\
  on_error (mk_an (aa_ver a) (net_default (aa_ver a))) (anet_from_address_code a code p strict) /\ blind (fun c => anet_from_address_code a c p strict).
Proof. exact any_from_address_overloads. Qed.
Print Assumptions C54_any_from_address.
Theorem C54_any_supernet : forall x d np code, agree (anet_supernet_code x code d np) (anet_supernet x d np) /\
  on_error (mk_an (an_ver x) (net_default (an_ver x))) (anet_supernet_code x code d np) /\ blind (fun c => anet_supernet_code x c d np).
Proof. exact any_supernet_overloads. Qed.
Print Assumptions C54_any_supernet.
Theorem C54_any_exclude : forall sp x y code, agree (any_exclude_code sp x y code) (any_exclude sp x y) /\ blind (any_exclude_code sp x y).
Proof. exact any_exclude_overloads. Qed.
Print Assumptions C54_any_exclude.
(** As for the classes of one version, subnets does not write the code on success. *)
Theorem C54_any_subnets_partial : forall sp x d np, agree (any_subnets_code sp x no_error d np) (any_subnets sp x d np) /\
  forall code, match any_subnets_code sp x no_error d np with
    | Ret (s, no_error) => any_subnets_code sp x code d np = Ret (s, code)
    | r => any_subnets_code sp x code d np = r end.
Proof. exact any_subnets_overloads. Qed.
Print Assumptions C54_any_subnets_partial.
Example C54_any_makers_ex : anet_supernet_code (mk_an V4 (net_at V4 "10.0.0.0/8")) empty_octet 9 None = Ret (mk_an V4 (net_default V4), invalid_prefixlen_diff) /\
  anet_from_address_code (mk_aa V6 (addr_at V6 "2001:db8::1")) empty_octet 64 true = Ret (mk_an V6 (net_default V6), has_host_bits_set) /\
  exists s, any_subnets_code true (mk_an V6 (net_at V6 "2001:db8::/32")) no_error 1 None = Ret (s, no_error).
Proof. split; [vm_compute; reflexivity|]. split; [vm_compute; reflexivity|]. eexists. vm_compute. reflexivity. Qed.

(** ip_address::set_scope_id does not write the code of an IPv4 address. *)
Theorem C54_any_scope_partial : forall x n ts, Forall tok_genuine ts ->
  agree (any_set_scope_st x n ts no_error) (any_set_scope_throw x n ts) /\
  (aa_ver x = V6 -> blind (any_set_scope_st x n ts)) /\ (aa_ver x = V4 -> forall code, any_set_scope_st x n ts code = Ret (x, code)).
Proof. exact any_scope_overloads. Qed.
Print Assumptions C54_any_scope_partial.
Theorem C54_any_scope_refuted : exists x code, wf_any x /\ code <> no_error /\
  any_set_scope_throw x 1 (chars (str "a")) = Ret x /\ any_set_scope_st x 1 (chars (str "a")) code = Ret (x, code).
Proof. exact any_scope_stale. Qed.
Print Assumptions C54_any_scope_refuted.
Example C54_any_ex : any_parse_st (chars (str "1.2.3")) no_error = Ret (aa_default, expected_4_octets) /\
  anet_parse_st (chars (str "10.0.0.1/8")) true no_error = Ret (an_default, least_3_parts) /\
  anet_parse_st (chars (str "10.0.0.1/8")) false empty_octet = Ret (mk_an V4 (net_at V4 "10.0.0.0/8"), no_error).
Proof. calc. Qed.
(** The code as a variable and the code as an outcome (the functions the other properties are about). *)
Theorem C54_address_model : forall v ts code, Forall tok_genuine ts -> parse_throw v ts = addr_parse v ts /\ parse_st v ts code = addr_parse_code v ts code.
Proof. exact parsers_address. Qed.
Print Assumptions C54_address_model.
Theorem C54_network_model : forall v ts strict code, Forall tok_genuine ts ->
  net_parse_throw v ts strict = net_parse v ts strict /\ net_parse_st v ts strict code = net_parse_code v ts code strict.
Proof. exact parsers_network. Qed.
Print Assumptions C54_network_model.
Theorem C54_makers_model : forall v a n p strict d np code, from_address_throw v a p strict = from_address v a p strict /\ from_address_st v a p strict code = from_address_code v a code p strict /\
  supernet_throw v n d np = supernet v n d np /\ supernet_st v n d np code = supernet_code v n code d np.
Proof. exact makers_network. Qed.
Print Assumptions C54_makers_model.
Theorem C54_any_model : forall ts strict code, Forall tok_genuine ts -> any_parse_throw ts = any_parse ts /\ any_parse_st ts code = any_parse_code ts code /\
  anet_parse_throw ts strict = anet_parse ts strict /\ anet_parse_st ts strict code = anet_parse_code ts code strict.
Proof. exact parsers_any. Qed.
Print Assumptions C54_any_model.
Theorem C54_scope_model : forall a n ts code, Forall tok_genuine ts -> match addr_set_scope a code n ts with
  | Ret (b, e, _) => set_scope_st a n ts code = Ret (b, e) | Err e x => False | UB u => set_scope_st a n ts code = UB u end.
Proof. exact setters_scope. Qed.
Print Assumptions C54_scope_model.
