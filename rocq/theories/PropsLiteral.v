(** Property theorems C67: arrays, literals and compile-time parsing.  The
    families [string_of], [array_of], [literal_of], [template_of] (SpecLiteral)
    pick the function of a class: address or network of a version or of either. *)
From Coq Require Import String.
From Verif Require Import Base SpecStr SpecAddr SpecOrder SpecNet SpecAny AddressModel NetworkModel AnyModel StreamModel SpecStream NetWitness StreamWitness
  LiteralModel SpecLiteral LiteralProofs2 LiteralWitness.

(** ** C67: constant texts are read like run-time texts *)
(** An array holding the text [s] (up to its first NUL, if any) is read like the string [s]: same object or same error. *)
Theorem C67_array : forall T k strict data s, c_string (pred (length data)) data s -> plain T s ->
  array_of T k strict data = string_of T k strict s.
Proof. exact array_ok. Qed.
Print Assumptions C67_array.
(** In UTF-16, UTF-32 and wchar_t a unit that is not ASCII is an encoding error. *)
Theorem C67_array_rejects : forall T k strict data s, wide T -> Forall (unit_ok T) data -> c_string (pred (length data)) data s -> ~ Forall is_ascii s ->
  exists e x, array_of T k strict data = Err e x /\ encoding_error e.
Proof. exact array_rejects. Qed.
Print Assumptions C67_array_rejects.
(** Any terminated array of any type, UTF-8 included: some NUL-free text is read, or an encoding error reported; nothing is read beyond the end. *)
Theorem C67_terminated : forall T k strict d, Forall (unit_ok T) d ->
  (exists t, ~ In 0 t /\ (T <> TChar -> Forall is_ascii t) /\ array_of T k strict (d ++ [0]) = string_of TChar k strict t) \/
  (exists e x, array_of T k strict (d ++ [0]) = Err e x /\ encoding_error e).
Proof. exact array_terminated. Qed.
Print Assumptions C67_terminated.
Theorem C67_address_defined : forall T k strict d u, Forall (unit_ok T) d -> is_net k = false -> array_of T k strict (d ++ [0]) <> UB u.
Proof. exact array_defined. Qed.
Print Assumptions C67_address_defined.
(** The compile-time functions, for every array. *)
Theorem C67_template : forall T k strict data, template_of T k strict data = array_of T k strict data.
Proof. exact template_array. Qed.
Print Assumptions C67_template.
(** The literal operators: too long texts are refused. *)
Theorem C67_literal_partial : forall T k s t, c_string (length s) s t -> plain T t ->
  literal_of T k s = if zlen s >? longest k then Err string_is_too_long 0 else string_of T k true t.
Proof. exact literal_ok. Qed.
Print Assumptions C67_literal_partial.
Theorem C67_literal_rejects : forall T k s t, wide T -> Forall (unit_ok T) s -> c_string (length s) s t -> ~ Forall is_ascii t ->
  exists e x, literal_of T k s = Err e x /\ (e = string_is_too_long \/ encoding_error e).
Proof. exact literal_rejects. Qed.
Print Assumptions C67_literal_rejects.
(** Every IPv4 address fits in a literal, not every IPv6 address and not every network. *)
Theorem C67_v4_fits : forall T strict s o, plain T s -> string_of T (KAddr V4) strict s = Ret o -> zlen s <= longest (KAddr V4).
Proof. exact v4_fits. Qed.
Print Assumptions C67_v4_fits.
Theorem C67_v6_long_refuted : exists s o, Forall is_ascii s /\ ~ In 0 s /\ string_of TChar (KAddr V6) true s = Ret o /\ literal_of TChar (KAddr V6) s = Err string_is_too_long 0.
Proof. exact v6_long. Qed.
Print Assumptions C67_v6_long_refuted.
Theorem C67_network_long_refuted : exists s o, Forall is_ascii s /\ ~ In 0 s /\ string_of TChar (KNet V4) true s = Ret o /\ literal_of TChar (KNet V4) s = Err string_is_too_long 0.
Proof. exact net_long. Qed.
Print Assumptions C67_network_long_refuted.
(** In UTF-8 an overlong NUL (C0 80) cuts an array, but is an error in a string; without a terminator the read can leave the array. *)
Theorem C67_utf8_refuted : exists data s o, Forall is_u8 data /\ c_string (pred (List.length data)) data s /\
  array_of TChar8 (KAddr V4) true data = Ret o /\ string_of TChar8 (KAddr V4) true s = Err octet_has_invalid_symbol 3.
Proof. exact utf8_cut. Qed.
Print Assumptions C67_utf8_refuted.
Theorem C67_unterminated_refuted : exists data, Forall is_u8 data /\ ~ In 0 data /\ array_of TChar8 (KAddr V4) true data = UB OutOfBounds.
Proof. exact utf8_overrun. Qed.
Print Assumptions C67_unterminated_refuted.
(** The integer literals of IPv4 addresses. *)
Theorem C67_number : forall n, 0 <= n < 2 ^ 64 ->
  (n < 2 ^ 32 -> forall nttp, exists a, uint_literal nttp n = Ret a /\ wf_addr V4 a /\ val a = n) /\
  (2 ^ 32 <= n -> uint_literal true n = UB AssertFailed /\ exists a, uint_literal false n = Ret a /\ wf_addr V4 a /\ val a = n mod 2 ^ 32).
Proof. exact uint_literal_ok. Qed.
Print Assumptions C67_number.
Theorem C67_number_refuted : exists n a, 0 <= n < 2 ^ 64 /\ uint_literal false n = Ret a /\ val a <> n.
Proof. exact uint_literal_wraps. Qed.
Print Assumptions C67_number_refuted.
Example C67_ex :
  let u := (str "2001:db8::/32" ++ [0])%list in
  c_string (pred (List.length u)) u (str "2001:db8::/32") /\ plain TChar16 (str "2001:db8::/32") /\
  array_of TChar16 KAnyNet true u = Ret (OAnyNet (mk_an V6 (net_at V6 "2001:db8::/32"))) /\
  template_of TChar32 KAnyNet true u = Ret (OAnyNet (mk_an V6 (net_at V6 "2001:db8::/32"))) /\
  literal_of TWchar KAnyNet (str "2001:db8::/32") = Ret (OAnyNet (mk_an V6 (net_at V6 "2001:db8::/32"))) /\
  array_of TChar16 KAny true [49; 46; 0xFF11; 0] = Err unexpected_symbol 0xFF11 /\
  array_of TChar8 (KAddr V4) true [49; 46; 50; 46; 51; 46; 52; 0] = Ret (OAddr V4 (addr_at V4 "1.2.3.4")) /\
  uint_literal false 167772161 = Ret (addr_at V4 "10.0.0.1").
Proof.
  cbv zeta. split; [|split].
  - split; [vm_compute; intuition discriminate|]. exists [0]. split; [reflexivity|left; reflexivity].
  - right. apply ascii_by. vm_compute. reflexivity.
  - repeat split; vm_compute; reflexivity.
Qed.
