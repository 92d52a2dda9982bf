(** Property theorems C87: hosts whose size_t has any number of bits from 32 to
    64.  Only two things depend on it: a prefix number in a text is taken modulo
    2^w, and subnets adds two prefix lengths modulo 2^w. *)
From Coq Require Import String.
From Verif Require Import Base V6Model SpecText SpecV4 SpecV6 SpecAddr SpecLoose SpecNetErr AddressModel NetworkModel IterModel AnyModel NetWitness NetText SpecStr SpecNet SpecIter SpecNoexcept ErrProofs
  SizeModel SpecSize SizeProofs SizeProofs2.
Close Scope string_scope.

(** Addresses are read alike on all these hosts. *)
Theorem C87_addresses : forall w v ts, size_bits w -> addr_parse_z w v ts = addr_parse v ts.
Proof. exact addr_z. Qed.
Print Assumptions C87_addresses.
Theorem C87_arrays : forall w v data, size_bits w -> addr_parse_array_z w v data = addr_parse_array v data.
Proof. exact array_z. Qed.
Print Assumptions C87_arrays.
Theorem C87_any_addresses : forall w ts, size_bits w -> any_parse_z w ts = any_parse ts.
Proof. exact any_addr_z. Qed.
Print Assumptions C87_any_addresses.
Example C87_addresses_ex : addr_parse_z 32 V6 (chars (str "1::8%x")) = addr_parse V6 (chars (str "1::8%x")) /\
  addr_parse_z 32 V6 (chars (str "1::8%x")) = Ret (mk_addr (group_bytes [1; 0; 0; 0; 0; 0; 0; 8]) (str "x")).
Proof. split; vm_compute; reflexivity. Qed.

(** A network text is read as the 64-bit host reads it with the remainder in place of the prefix number ... *)
Theorem C87_networks : forall w v ts ts' strict, size_bits w -> read_as w v ts ts' -> net_parse_z w v ts strict = net_parse v ts' strict.
Proof. exact net_z. Qed.
Print Assumptions C87_networks.
Theorem C87_network_codes : forall w v ts ts' code strict, size_bits w -> read_as w v ts ts' -> net_parse_code_z w v ts code strict = net_parse_code v ts' code strict.
Proof. exact net_code_z. Qed.
Print Assumptions C87_network_codes.
Theorem C87_any_networks : forall w ts ts' strict, size_bits w -> read_as w V6 ts ts' -> anet_parse_z w ts strict = anet_parse ts' strict.
Proof. exact any_net_z. Qed.
Print Assumptions C87_any_networks.
(** ... which is defined for every text. *)
Theorem C87_total : forall w v ts, 0 <= w -> exists ts', read_as w v ts ts'.
Proof. exact read_as_total. Qed.
Print Assumptions C87_total.
(** Exactly the accepted network texts, and what they stand for ... *)
Theorem C87_accepted : forall w v s strict n, size_bits w -> Forall is_char s ->
  (net_parse_z w v (chars s) strict = Ret n <->
   exists t p a, net_loose_z w v s t p /\ addr_parse v (chars t) = Ret a /\ from_address v a p strict = Ret n).
Proof. exact net_exact_z. Qed.
Print Assumptions C87_accepted.
Example C87_accepted_ex :
  net_parse_z 32 V4 (chars (str "10.0.0.0/4294967304")) true = Ret (net_at V4 "10.0.0.0/8") /\
  net_parse_z 64 V4 (chars (str "10.0.0.0/4294967304")) true = Err invalid_netmask 0 /\
  net_parse_z 48 V6 (chars (str "2001:db8::/281474976710688")) true = Ret (net_at V6 "2001:db8::/32") /\
  net_parse_z 32 V6 (chars (str "2001:db8::/281474976710688")) true = Ret (net_at V6 "2001:db8::/32") /\
  net_parse_z 49 V6 (chars (str "2001:db8::/281474976710688")) true = Err invalid_netmask 0 /\
  net_loose_z 32 V4 (str "10.0.0.0/4294967304") (str "10.0.0.0") 8.
Proof.
  split; [vm_compute; reflexivity|]. split; [vm_compute; reflexivity|]. split; [vm_compute; reflexivity|]. split; [vm_compute; reflexivity|].
  split; [vm_compute; reflexivity|].
  right. exists (str "10.0.0.0"), (str "4294967304"). split; [reflexivity|]. split; [vm_compute; intuition discriminate|]. split; [vm_compute; discriminate|].
  split; [split; [vm_compute; intuition discriminate|left; reflexivity]|]. left. exists 4294967304. split; [|split; [reflexivity|vm_compute; discriminate]].
  apply MaskProofs.dec_text_iff. change (str "4294967304") with [52; 50; 57; 52; 57; 54; 55; 51; 48; 52]. split; [discriminate|].
  split; [repeat constructor; vm_compute; discriminate|reflexivity].
Qed.

(** ... exactly the errors ... *)
Theorem C87_errors : forall w v ts strict e x, size_bits w -> Forall tok_char ts -> Forall ErrProofs.tok_real ts ->
  (net_parse_z w v ts strict = Err e x <-> exists ts', read_as w v ts ts' /\ net_error v strict ts' e x).
Proof. exact net_errors_z. Qed.
Print Assumptions C87_errors.
(** ... and the undefined behaviour. *)
Theorem C87_undefined : forall w v s strict u, size_bits w -> Forall is_char s ->
  (net_parse_z w v (chars s) strict = UB u <->
   u = BadShift /\ v = V4 /\ exists r m, s = r ++ 47 :: m /\ ~ In 47 r /\ zlen r <= 15 /\ dotted_quad m [0; 0; 0; 0]).
Proof. exact net_undefined_z. Qed.
Print Assumptions C87_undefined.
(** Without a prefix number of 2^w or more there is no difference ... *)
Theorem C87_small : forall w v ts strict, size_bits w -> small_number w ts -> net_parse_z w v ts strict = net_parse v ts strict.
Proof. exact small_same. Qed.
Print Assumptions C87_small.
Theorem C87_any_small : forall w ts strict, size_bits w -> small_number w ts -> anet_parse_z w ts strict = anet_parse ts strict.
Proof. exact any_small_same. Qed.
Print Assumptions C87_any_small.
Theorem C87_wide : forall v ts strict, net_parse_z 64 v ts strict = net_parse v ts strict.
Proof. exact net_64. Qed.
Print Assumptions C87_wide.
(** ... so what the library prints is read back on every host ... *)
Theorem C87_round_trip : forall w v n fmt strict, size_bits w -> wf_net v n -> exists s, net_to_string v n fmt = Ret s /\ net_parse_z w v (chars s) strict = Ret n.
Proof. exact round_trip_z. Qed.
Print Assumptions C87_round_trip.
(** ... but any two sizes differ on some text, with any address. *)
Theorem C87_differ : forall w w', size_bits w -> size_bits w' -> w < w' -> exists m, Forall is_char m /\
  (forall v r strict, before_slash v r -> net_parse_z w v (chars (r ++ 47 :: m)) strict = net_parse_z w v (chars (r ++ [47; 56])) strict) /\
  (forall v r strict, before_slash v r -> net_parse_z w' v (chars (r ++ 47 :: m)) strict = Err invalid_netmask 0).
Proof. exact widths_differ. Qed.
Print Assumptions C87_differ.
(** Subnets are the same unless the sum of the prefix lengths overflows size_t ... *)
Theorem C87_subnets : forall w sp v n d np, size_bits w -> wf_net v n -> size_args w d np -> ~ overflows w v n d np -> subnets_z w sp v n d np = subnets sp v n d np.
Proof. exact subnets_same. Qed.
Print Assumptions C87_subnets.
Theorem C87_subnets_code : forall w sp v n c d np, size_bits w -> wf_net v n -> size_args w d np -> ~ overflows w v n d np ->
  subnets_code_z w sp v n c d np = subnets_code sp v n c d np.
Proof. exact subnets_code_same. Qed.
Print Assumptions C87_subnets_code.
Theorem C87_any_subnets : forall w sp v n d np, size_bits w -> wf_net v n -> size_args w d np -> ~ overflows w v n d np -> any_subnets_z w sp (mk_an v n) d np = any_subnets sp (mk_an v n) d np.
Proof. exact any_subnets_same. Qed.
Print Assumptions C87_any_subnets.
Theorem C87_halves : forall w sp v n, size_bits w -> wf_net v n -> halves_z w sp v n = halves sp v n.
Proof. exact halves_same. Qed.
Print Assumptions C87_halves.
(** ... in which case the behaviour is undefined for IPv4 and there is an exception for IPv6, ... *)
Theorem C87_overflow : forall w sp v n d np, size_bits w -> wf_net v n -> 0 <= d < 2 ^ w -> overflows w v n d np ->
  subnets_z w sp v n d np = match v with V4 => UB BadShift | V6 => Err has_host_bits_set 0 end.
Proof. exact subnets_over. Qed.
Print Assumptions C87_overflow.
Theorem C87_overflow_code : forall w sp v n c d np, size_bits w -> wf_net v n -> 0 <= d < 2 ^ w -> overflows w v n d np ->
  subnets_code_z w sp v n c d np = subnets_code sp v n c (d + 2 ^ 64 - 2 ^ w) np.
Proof. exact subnets_code_over. Qed.
Print Assumptions C87_overflow_code.
Theorem C87_any_overflow : forall w sp v n d np, size_bits w -> wf_net v n -> 0 <= d < 2 ^ w -> overflows w v n d np ->
  any_subnets_z w sp (mk_an v n) d np = match v with V4 => UB BadShift | V6 => Err has_host_bits_set 0 end.
Proof. exact any_subnets_over. Qed.
Print Assumptions C87_any_overflow.
(** ... and only in that case the overload with an error code throws for arguments a host can pass. *)
Theorem C87_code_throws : forall w sp v n c d np, size_bits w -> wf_net v n -> size_args w d np ->
  (throws (subnets_code_z w sp v n c d np) <-> v = V6 /\ overflows w v n d np).
Proof. exact subnets_code_throws. Qed.
Print Assumptions C87_code_throws.
Example C87_overflow_ex : overflows 32 V6 (net_at V6 "2001:db8::/32") 4294967290 None /\ size_args 32 4294967290 None /\
  ~ overflows 64 V6 (net_at V6 "2001:db8::/32") 4294967290 None /\
  subnets_z 32 true V6 (net_at V6 "2001:db8::/32") 4294967290 None = Err has_host_bits_set 0 /\
  subnets_z 32 true V4 (net_at V4 "10.0.0.0/8") 4294967290 None = UB BadShift /\
  subnets_z 64 true V4 (net_at V4 "10.0.0.0/8") 4294967290 None = Err invalid_prefixlen_diff 0.
Proof.
  split; [vm_compute; repeat split; discriminate|]. split; [vm_compute; repeat split; discriminate|].
  split; [intros (_ & _ & H); vm_compute in H; apply H; reflexivity|]. repeat split; vm_compute; reflexivity.
Qed.

