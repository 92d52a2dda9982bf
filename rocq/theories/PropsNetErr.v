(** Property theorems C84: which error a text that is not a network, or not an
    address of either version, gives, and with which number.  The errors are
    specified in SpecNetErr, in the order in which they are found. *)
From Coq Require Import String.
From Verif Require Import Base UnicodeModel FixedStringModel V4Model V6Model SpecText SpecV4 SpecV6 SpecV6Err SpecAddr SpecStr SpecOrder AddressModel NetworkModel AnyModel SpecNet SpecAny
  NetText NetWitness SpecLoose LooseProofs SpecNetErr NetErrProofs.

(** Masks. *)
Theorem C84_mask_exact : forall v m e x, m <> [] -> (parse_netmask v (chars m) = Err e x <-> mask_error v m e x).
Proof. exact mask_error_exact. Qed.
Print Assumptions C84_mask_exact.
Example C84_mask_exact_ex :
  (str "255.0.255.0" <> [] /\ mask_error V4 (str "255.0.255.0") netmask_pattern_mixes_zeroes_and_ones 3) /\
  mask_error V4 (str "255.256.0.0") invalid_netmask 1 /\ mask_error V4 (str "33") invalid_netmask 0 /\ mask_error V6 (str "64x") invalid_netmask 0.
Proof. split; [split; [discriminate|]|split; [|split]]; apply mask_error_exact; try discriminate; vm_compute; reflexivity. Qed.

(** Networks. *)
Theorem C84_exact : forall v ts strict e x, Forall tok_char ts -> Forall tok_genuine ts ->
  (net_parse v ts strict = Err e x <-> net_error v strict ts e x).
Proof. exact net_error_exact. Qed.
Print Assumptions C84_exact.
(** The specification names one error. *)
Theorem C84_unique : forall v ts strict e x e' x', Forall tok_char ts -> net_error v strict ts e x -> net_error v strict ts e' x' -> e = e' /\ x = x'.
Proof. exact net_error_unique. Qed.
Print Assumptions C84_unique.
Example C84_exact_ex :
  (* the mask is examined before the address, the address before the host bits *)
  net_parse V4 (chars (str "1.2.300.4/33")) true = Err invalid_netmask 0 /\
  net_parse V4 (chars (str "1.2.300.4/8")) true = Err octet_exceeded_255 0 /\
  net_parse V4 (chars (str "1.2.30.4/8")) true = Err has_host_bits_set 0 /\
  (* the number of an error in the address is that of the last octet of the mask *)
  addr_parse V4 (chars (str "1.2.300.4")) = Err octet_exceeded_255 2 /\
  net_parse V4 (chars (str "1.2.300.4/255.0.0.0")) true = Err octet_exceeded_255 3 /\
  net_parse V6 (chars (str "1::2::/8/")) true = Err only_one_slash_permitted 0 /\
  net_parse V6 (chars (str "1::2::/")) true = Err empty_netmask 0 /\
  net_error V4 true (chars (str "1.2.300.4/255.0.0.0")) octet_exceeded_255 3.
Proof.
  repeat (split; [vm_compute; reflexivity|]).
  apply net_error_exact; [|apply ErrProofs.chars_real|vm_compute; reflexivity].
  apply toks_of. repeat constructor; vm_compute; intuition discriminate.
Qed.

(** Texts of either version: the error is that of the IPv6 reading. *)
Theorem C84_any_address : forall t e i, no_nul t -> (any_parse (chars t) = Err e i <-> v6_error t e i /\ exists e' i', v4_error (chars t) e' i').
Proof. exact any_error_exact. Qed.
Print Assumptions C84_any_address.
Theorem C84_any_network : forall ts st e x, Forall tok_char ts -> Forall tok_genuine ts ->
  (anet_parse ts st = Err e x <-> net_error V6 st ts e x /\ exists e' x', net_error V4 st ts e' x').
Proof. exact any_net_error_exact. Qed.
Print Assumptions C84_any_network.
(** Hence the host bits of an IPv4 network are never what is reported. *)
Theorem C84_any_host_bits : forall s x, Forall is_char s -> net_parse V4 (chars s) true = Err has_host_bits_set x ->
  exists e y, anet_parse (chars s) true = Err e y /\ e <> has_host_bits_set.
Proof. exact any_host_bits. Qed.
Print Assumptions C84_any_host_bits.
(** The strict parser refuses for host bits only what the other one accepts, and
    accepts nothing else. *)
Theorem C84_strict : forall v s n, Forall is_char s -> net_parse v (chars s) true = Ret n -> exists n', net_parse v (chars s) false = Ret n'.
Proof. exact strict_relaxed. Qed.
Print Assumptions C84_strict.
Theorem C84_host_bits : forall v s x, Forall is_char s -> net_parse v (chars s) true = Err has_host_bits_set x -> exists n, net_parse v (chars s) false = Ret n.
Proof. exact host_bits_loose. Qed.
Print Assumptions C84_host_bits.
Example C84_any_ex :
  any_parse (chars (str "1.2.300.4")) = Err octet_exceeded_255 0 /\ anet_parse (chars (str "10.0.0.1/8")) true = Err least_3_parts 0 /\
  net_parse V4 (chars (str "10.0.0.1/8")) true = Err has_host_bits_set 0 /\ (exists n, net_parse V4 (chars (str "10.0.0.1/8")) false = Ret n) /\
  Forall is_char (str "10.0.0.1/8").
Proof.
  split; [vm_compute; reflexivity|]. split; [vm_compute; reflexivity|]. split; [vm_compute; reflexivity|]. split; [vm_compute; eauto|].
  repeat constructor; vm_compute; intuition discriminate.
Qed.
