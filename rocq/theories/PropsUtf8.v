(** Property theorems C73: builds with IPADDRESS_CHAR_IS_UTF8, where [char] is
    read as UTF-8.  SpecUtf8: [u_string_of], [u_array_of], ... are the functions
    of such a build, [bytes_of s] the bytes of a text of [char].  [string_of],
    [array_of], ... (SpecLiteral) and [coded_of] (SpecNoThrow) are those of the
    default build. *)
From Coq Require Import String.
From Verif Require Import Base SpecStr Uint128Model UnicodeModel AddressModel NetworkModel AnyModel CodeModel StreamModel SpecStream LiteralModel SpecLiteral ScopeModel SpecNoThrow NetWitness
  Utf8Model SpecUtf8 Utf8Proofs CharUtf8Proofs CharUtf8Lemmas.
Open Scope string_scope.
Open Scope Z_scope.
Open Scope list_scope.

(** A text of [char] is read as the default build reads its bytes as char8_t: strings, with an exception and with an error code, ... *)
Theorem C73_strings : forall k strict s, u_string_of TChar k strict s = string_of TChar8 k strict (bytes_of s).
Proof. exact char_string. Qed.
Print Assumptions C73_strings.
Theorem C73_codes : forall k strict s code, u_coded_of TChar k strict s code = coded_of TChar8 k strict (bytes_of s) code.
Proof. exact char_coded. Qed.
Print Assumptions C73_codes.
(** ... arrays, literals and compile-time parsing, ... *)
Theorem C73_arrays : forall k strict data, u_array_of TChar k strict data = array_of TChar8 k strict (bytes_of data).
Proof. exact char_array. Qed.
Print Assumptions C73_arrays.
Theorem C73_literals : forall k s, u_literal_of TChar k s = literal_of TChar8 k (bytes_of s).
Proof. exact char_literal. Qed.
Print Assumptions C73_literals.
Theorem C73_templates : forall k strict data, u_template_of TChar k strict data = template_of TChar8 k strict (bytes_of data).
Proof. exact char_template. Qed.
Print Assumptions C73_templates.
(** ... and scope ids. *)
Theorem C73_scopes : forall a s, scope_set_i utf8c_next TChar a s = scope_set TChar8 a (bytes_of s).
Proof. exact char_scope. Qed.
Print Assumptions C73_scopes.
Theorem C73_scope_codes : forall a s code, scope_set_code_i utf8c_next TChar a s code = scope_set_code TChar8 a (bytes_of s) code.
Proof. exact char_scope_code. Qed.
Print Assumptions C73_scope_codes.
Theorem C73_scope_arrays : forall a data, scope_set_array_i utf8c_next TChar a data = scope_set_array TChar8 a (bytes_of data).
Proof. exact char_scope_array. Qed.
Print Assumptions C73_scope_arrays.
Theorem C73_scope_array_codes : forall a data code, scope_set_array_code_i utf8c_next TChar a data code = scope_set_array_code TChar8 a (bytes_of data) code.
Proof. exact char_scope_array_code. Qed.
Print Assumptions C73_scope_array_codes.
(** "1.2.3.4" with the digit 1 in two bytes (UTF-8 forbids this), and a scope id with an e with acute accent. *)
Example C73_strings_ex : u_string_of TChar (KAddr V4) true [-64; -79; 46; 50; 46; 51; 46; 52] = Ret (OAddr V4 (addr_at V4 "1.2.3.4")) /\
  bytes_of [-64; -79; 46] = [0xC0; 0xB1; 46] /\ scope_set_i utf8c_next TChar (addr_at V6 "::1") [-61; -87] = Err unexpected_symbol 0xE9.
Proof. repeat split; vm_compute; reflexivity. Qed.

(** ASCII texts of [char] are read as in the default build, *)
Theorem C73_ascii : forall k strict s, Forall is_ascii s -> u_string_of TChar k strict s = string_of TChar k strict s.
Proof. exact plain_string. Qed.
Print Assumptions C73_ascii.
Theorem C73_ascii_codes : forall k strict s code, Forall is_ascii s -> u_coded_of TChar k strict s code = coded_of TChar k strict s code.
Proof. exact plain_coded. Qed.
Print Assumptions C73_ascii_codes.
Theorem C73_ascii_arrays : forall k strict data, Forall is_ascii data -> u_array_of TChar k strict data = array_of TChar k strict data.
Proof. exact plain_array. Qed.
Print Assumptions C73_ascii_arrays.
Theorem C73_ascii_literals : forall k s, Forall is_ascii s -> u_literal_of TChar k s = literal_of TChar k s.
Proof. exact plain_literal. Qed.
Print Assumptions C73_ascii_literals.
Theorem C73_ascii_templates : forall k strict data, Forall is_ascii data -> u_template_of TChar k strict data = template_of TChar k strict data.
Proof. exact plain_template. Qed.
Print Assumptions C73_ascii_templates.
Theorem C73_ascii_scopes : forall a s, Forall is_ascii s -> scope_set_i utf8c_next TChar a s = scope_set TChar a s.
Proof. exact plain_scope. Qed.
Print Assumptions C73_ascii_scopes.
(** and so are all texts of the other character types. *)
Theorem C73_others : forall T k strict s, T <> TChar -> Forall (unit_ok T) s -> u_string_of T k strict s = string_of T k strict s.
Proof. exact other_string. Qed.
Print Assumptions C73_others.
Theorem C73_others_codes : forall T k strict s code, T <> TChar -> Forall (unit_ok T) s -> u_coded_of T k strict s code = coded_of T k strict s code.
Proof. exact other_coded. Qed.
Print Assumptions C73_others_codes.
Theorem C73_others_arrays : forall T k strict data, T <> TChar -> Forall (unit_ok T) data -> u_array_of T k strict data = array_of T k strict data.
Proof. exact other_array. Qed.
Print Assumptions C73_others_arrays.
Theorem C73_others_literals : forall T k s, T <> TChar -> Forall (unit_ok T) s -> u_literal_of T k s = literal_of T k s.
Proof. exact other_literal. Qed.
Print Assumptions C73_others_literals.
Theorem C73_others_templates : forall T k strict data, T <> TChar -> Forall (unit_ok T) data -> u_template_of T k strict data = template_of T k strict data.
Proof. exact other_template. Qed.
Print Assumptions C73_others_templates.
Theorem C73_others_scopes : forall T a s, T <> TChar -> Forall (unit_ok T) s -> scope_set_i utf8c_next T a s = scope_set T a s.
Proof. exact other_scope. Qed.
Print Assumptions C73_others_scopes.
Theorem C73_others_scope_arrays : forall T a s, T <> TChar -> Forall (unit_ok T) s -> scope_set_array_i utf8c_next T a s = scope_set_array T a s.
Proof. exact other_scope_array. Qed.
Print Assumptions C73_others_scope_arrays.
Example C73_ascii_ex : u_string_of TChar (KNet V6) true (str "2001:db8::1.2.3.4%eth0/128") = Ret (ONet V6 (net_at V6 "2001:db8::1.2.3.4%eth0/128")) /\
  u_string_of TChar16 (KAny) true (str "::1") = string_of TChar16 KAny true (str "::1").
Proof. repeat split; vm_compute; reflexivity. Qed.

(** Extraction from a stream (SpecStream.[took]: the word operator>> takes), and numbers. *)
Theorem C73_get : forall k i w i', took (strictly k i) w i' -> u_get TChar k i =
  ('(o, c) <- coded_of TChar8 k (i_strict i =? 0) (bytes_of w) no_error ;; Ret (o, if ok c then i' else i_set_fail i')).
Proof. exact char_get. Qed.
Print Assumptions C73_get.
Theorem C73_ascii_get : forall k i, Forall is_ascii (i_in i) -> u_get TChar k i = obj_get TChar k i.
Proof. exact plain_get. Qed.
Print Assumptions C73_ascii_get.
Theorem C73_others_get : forall T k i, T <> TChar -> Forall (unit_ok T) (i_in i) -> u_get T k i = obj_get T k i.
Proof. exact other_get. Qed.
Print Assumptions C73_others_get.
Theorem C73_numbers : forall f s, u128_from_text_i utf8c_next TChar f s = u128_from_text TChar8 f (bytes_of s).
Proof. exact char_u128. Qed.
Print Assumptions C73_numbers.
Theorem C73_ascii_numbers : forall f s, Forall is_ascii s -> u128_from_text_i utf8c_next TChar f s = u128_from_text TChar f s.
Proof. exact plain_u128. Qed.
Print Assumptions C73_ascii_numbers.
Theorem C73_ascii_get_numbers : forall x i, Forall is_ascii (i_in i) -> u128_get_i utf8c_next TChar x i = u128_get TChar x i.
Proof. exact plain_u128_get. Qed.
Print Assumptions C73_ascii_get_numbers.
Example C73_get_ex : exists i, u_get TChar (KAddr V4) (new_is (str "1.2.3.4")) = Ret (OAddr V4 (addr_at V4 "1.2.3.4"), i) /\ i_fail i = false /\
  u128_from_text_i utf8c_next TChar UDec [-64; -79; 48] = Ret (Some (mk128 0 10)).
Proof. eexists. split; [vm_compute; reflexivity|]. split; vm_compute; reflexivity. Qed.

(** Addresses: accepted are the texts that decode to an accepted ASCII text (SpecStr.[lax_utf8], as for char8_t). *)
Theorem C73_accepted : forall k strict s o, is_net k = false -> (u_string_of TChar k strict s = Ret o <-> exists p, lax_utf8 (bytes_of s) p /\ string_of TChar k strict p = Ret o).
Proof. exact accepted. Qed.
Print Assumptions C73_accepted.
Example C73_accepted_ex : exists o, lax_utf8 (bytes_of [-64; -79; 46; 50; 46; 51; 46; 52]) (str "1.2.3.4") /\ string_of TChar KAny true (str "1.2.3.4") = Ret o.
Proof.
  eexists. split; [|vm_compute; reflexivity]. apply (lu_cons [0xC0; 0xB1] 49 [46; 50; 46; 51; 46; 52] [46; 50; 46; 51; 46; 52]).
  - apply (lax2 0xC0 0xB1 49); unfold cont; lia.
  - apply lax_ascii. repeat (constructor; [split; vm_compute; congruence|]). constructor.
Qed.

(** No scope id holds anything but ASCII in such a build; in the default build it can. *)
Theorem C73_scope_ascii : forall T k strict s o, Forall (unit_ok T) s -> u_string_of T k strict s = Ret o -> Forall is_ascii (scope_of o).
Proof. exact scope_ascii. Qed.
Print Assumptions C73_scope_ascii.
Theorem C73_scope_ascii_arrays : forall k strict data o, u_array_of TChar k strict data = Ret o -> Forall is_ascii (scope_of o).
Proof. exact array_ascii. Qed.
Print Assumptions C73_scope_ascii_arrays.
Theorem C73_scope_ascii_setter : forall a s b, scope_set_i utf8c_next TChar a s = Ret b -> Forall is_ascii (a_scope b).
Proof. exact setter_ascii. Qed.
Print Assumptions C73_scope_ascii_setter.
Example C73_scope_ex : exists o, u_string_of TChar (KAddr V6) true (str "fe80::1%eth0") = Ret o /\ scope_of o = str "eth0".
Proof. eexists. split; vm_compute; reflexivity. Qed.

Theorem C73_builds_differ : exists s o, Forall is_char s /\ string_of TChar (KAddr V6) true s = Ret o /\ u_string_of TChar (KAddr V6) true s = Err unexpected_symbol 233.
Proof. exact builds_differ. Qed.
Print Assumptions C73_builds_differ.
(** A text with a byte above 127 is not always rejected (as for char8_t, C52). *)
Theorem C73_overlong : exists s o, Forall is_char s /\ ~ Forall is_ascii s /\ u_string_of TChar (KAddr V4) true s = Ret o.
Proof. exact overlong_char. Qed.
Print Assumptions C73_overlong.
(** The definitions of Utf8Model with the reader of the default build are those of the default build. *)
Theorem C73_default : forall T v strict s, addr_string_i char_next T v s = addr_string T v s /\ net_string_t_i char_next T v strict s = net_string T v strict s /\
  any_string_i char_next T s = any_string T s /\ anet_string_i char_next T strict s = anet_string T strict s.
Proof. exact d_strings. Qed.
Print Assumptions C73_default.
Theorem C73_default_arrays : forall T v strict data, addr_array_i char_next T v data = addr_array T v data /\ net_array_t_i char_next T v strict data = net_array T v strict data /\
  any_array_i char_next T data = any_array T data /\ anet_array_i char_next T strict data = anet_array T strict data.
Proof. exact d_arrays. Qed.
Print Assumptions C73_default_arrays.
Theorem C73_default_scopes : forall T a s data, scope_set_i char_next T a s = scope_set T a s /\ scope_set_array_i char_next T a data = scope_set_array T a data.
Proof. exact d_scopes. Qed.
Print Assumptions C73_default_scopes.
Example C73_default_ex : addr_string_i char_next TChar V4 (str "1.2.3.4") = Ret (addr_at V4 "1.2.3.4").
Proof. vm_compute. reflexivity. Qed.

