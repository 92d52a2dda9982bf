(** Property theorems C86: any combination of the macros IPADDRESS_NO_EXCEPTIONS,
    IPADDRESS_CHAR_IS_UTF8, IPADDRESS_NO_IPV6_SCOPE, IPADDRESS_IPV6_SCOPE_MAX_LENGTH
    and IPADDRESS_SCOPE_ID_SUPPORT_SPACES at once.  Each of the first two changes
    in every build what it changes in the default one (C71, C73), and without
    them the scope-id macros do what C68 and C81 say. *)
From Coq Require Import String.
From Verif Require Import Base V6Model SpecStr SpecV6 SpecLoose SpecAny AddressModel NetworkModel AnyModel StreamModel SpecStream LiteralModel SpecLiteral SpecNoThrow SpecUtf8 NetWitness NetText UnicodeModel
  ConfigModel SpecConfig NetConfigModel MacroModel SpecMacro MacroProofs3 MacroProofs4 MacroProofs5.
Close Scope string_scope.

(** Without the two macros, texts of chars are read as under the scope-id macros alone. *)
Theorem C86_plain : forall b k strict s, b_string_of (in_bytes (throwing b)) TChar k strict s = read_by (b_cfg b) k strict (chars s).
Proof. exact plain_strings. Qed.
Print Assumptions C86_plain.
(** What a build with exceptions takes for an IPv6 address: the texts that stand, in that build, for one with a scope id it allows. *)
Theorem C86_accepted : forall b T strict s a, 0 <= c_max (b_cfg b) <= 64 -> Forall (unit_ok T) s ->
  (b_string_of (throwing b) T (KAddr V6) strict s = Ret (OAddr V6 a) <->
   exists p gs t, reads_in b T s p /\ v6_loose_for (c_max (b_cfg b)) (c_spaces (b_cfg b)) p gs t /\ a = mk_addr (group_bytes gs) t).
Proof. exact b_accepted. Qed.
Print Assumptions C86_accepted.
Example C86_accepted_ex : let b := mk_build (mk_cfg 3 true) true true in
  b_string_of b TChar (KAddr V6) true (str "fe80::%a b") = Ret (OAddr V6 (mk_addr (group_bytes [65152; 0; 0; 0; 0; 0; 0; 0]) (str "a b"))) /\
  b_string_of b TChar (KAddr V6) true (str "fe80::%a" ++ [-61; -95])%list = Err unexpected_symbol 225 /\
  b_string_of (in_bytes b) TChar (KAddr V6) true (str "fe80::%a" ++ [-61; -95])%list = Ret (OAddr V6 (mk_addr (group_bytes [65152; 0; 0; 0; 0; 0; 0; 0]) (str "a" ++ [-61; -95])%list)) /\
  b_string_of b TChar (KAddr V6) true (str "fe80::%abcd") = Err scope_id_is_too_long 0 /\
  b_string_of (quietly b) TChar (KAddr V6) true (str "fe80::%abcd") = Ret (nothing (KAddr V6)).
Proof. repeat split; vm_compute; reflexivity. Qed.

(** Switching off exceptions, in any build: the same object, or the empty one in place of the exception. *)
Theorem C86_silent_strings : forall b T k strict s, Forall (unit_ok T) s -> silent (nothing k) (b_string_of (throwing b) T k strict s) (b_string_of (quietly b) T k strict s).
Proof. exact b_silent_strings. Qed.
Print Assumptions C86_silent_strings.
Theorem C86_silent_arrays : forall b T k strict data, Forall (unit_ok T) data -> silent (nothing k) (b_array_of (throwing b) T k strict data) (b_array_of (quietly b) T k strict data).
Proof. exact b_silent_arrays. Qed.
Print Assumptions C86_silent_arrays.
Theorem C86_silent_literals : forall b T k s, Forall (unit_ok T) s -> zlen s <= longest_for (c_max (b_cfg b)) k ->
  silent (nothing k) (b_literal_of (throwing b) T k s) (b_literal_of (quietly b) T k s).
Proof. exact b_silent_literals. Qed.
Print Assumptions C86_silent_literals.
(** A literal longer than the scope-id macros allow: refused, or read without its end. *)
Theorem C86_long_literals : forall b T k s, longest_for (c_max (b_cfg b)) k < zlen s ->
  b_literal_of (throwing b) T k s = Err string_is_too_long 0 /\
  b_literal_of (quietly b) T k s = b_literal_of (quietly b) T k (firstn (Z.to_nat (longest_for (c_max (b_cfg b)) k)) s).
Proof. exact b_long_literals. Qed.
Print Assumptions C86_long_literals.
(** Declaring char UTF-8, in any build: texts of chars are read as that build reads their bytes as char8_t. *)
Theorem C86_utf8_strings : forall b k strict s, b_string_of (in_utf8 b) TChar k strict s = b_string_of (in_bytes b) TChar8 k strict (bytes_of s).
Proof. exact utf8_strings. Qed.
Print Assumptions C86_utf8_strings.
Theorem C86_utf8_codes : forall b k strict s code, b_coded_of (in_utf8 b) TChar k strict s code = b_coded_of (in_bytes b) TChar8 k strict (bytes_of s) code.
Proof. exact utf8_codes. Qed.
Print Assumptions C86_utf8_codes.
Theorem C86_utf8_arrays : forall b k strict data, b_array_of (in_utf8 b) TChar k strict data = b_array_of (in_bytes b) TChar8 k strict (bytes_of data).
Proof. exact utf8_arrays. Qed.
Print Assumptions C86_utf8_arrays.
Theorem C86_utf8_literals : forall b k s, b_literal_of (in_utf8 b) TChar k s = b_literal_of (in_bytes b) TChar8 k (bytes_of s).
Proof. exact utf8_literals. Qed.
Print Assumptions C86_utf8_literals.
(** Texts of the other types are read as before. *)
Theorem C86_other_strings : forall b T k strict s, T <> TChar -> Forall (unit_ok T) s -> b_string_of (in_utf8 b) T k strict s = b_string_of (in_bytes b) T k strict s.
Proof. exact other_strings. Qed.
Print Assumptions C86_other_strings.
Theorem C86_other_codes : forall b T k strict s code, T <> TChar -> Forall (unit_ok T) s -> b_coded_of (in_utf8 b) T k strict s code = b_coded_of (in_bytes b) T k strict s code.
Proof. exact other_codes. Qed.
Print Assumptions C86_other_codes.
Theorem C86_other_arrays : forall b T k strict data, T <> TChar -> Forall (unit_ok T) data -> b_array_of (in_utf8 b) T k strict data = b_array_of (in_bytes b) T k strict data.
Proof. exact other_arrays. Qed.
Print Assumptions C86_other_arrays.
Theorem C86_other_literals : forall b T k s, T <> TChar -> Forall (unit_ok T) s -> b_literal_of (in_utf8 b) T k s = b_literal_of (in_bytes b) T k s.
Proof. exact other_literals. Qed.
Print Assumptions C86_other_literals.
(** The overloads with an error code report in every build what the throwing ones raise. *)
Theorem C86_codes : forall b T k strict s code, Forall (unit_ok T) s ->
  match b_string_of (throwing b) T k strict s with
  | Ret o => b_coded_of b T k strict s code = Ret (o, no_error)
  | Err e _ => e <> no_error /\ b_coded_of b T k strict s code = Ret (default_of k, e)
  | UB u => b_coded_of b T k strict s code = UB u
  end.
Proof. exact b_codes. Qed.
Print Assumptions C86_codes.
(** Terminated ASCII arrays and literals are read like strings in every build. *)
Theorem C86_array_string : forall b T k strict data s, Forall (unit_ok T) data -> c_string (pred (length data)) data s -> Forall is_ascii s ->
  b_array_of b T k strict data = b_string_of b T k strict s.
Proof. exact b_array_string. Qed.
Print Assumptions C86_array_string.
Theorem C86_literal_string : forall b T k s t, zlen s <= longest_for (c_max (b_cfg b)) k -> Forall (unit_ok T) s -> c_string (length s) s t -> Forall is_ascii t ->
  b_literal_of b T k s = b_string_of b T k true t.
Proof. exact b_literal_string. Qed.
Print Assumptions C86_literal_string.
Example C86_literals_ex : let b := mk_build (mk_cfg 2 false) true false in
  b_literal_of b TChar (KNet V6) (str "fe80::%ab/64") = b_string_of b TChar16 (KNet V6) true (str "fe80::%ab/64") /\
  b_string_of b TChar16 (KNet V6) true (str "fe80::%ab/64") <> Ret (nothing (KNet V6)) /\
  b_literal_of b TChar (KNet V6) (str "fe80::%abc/64") = Ret (nothing (KNet V6)) /\
  longest_for (c_max (b_cfg b)) (KAddr V6) = 43 /\ zlen (str "1111:2222:3333:4444:5555:6666:7777:8888%ab12") = 44 /\
  b_literal_of (throwing b) TChar (KAddr V6) (str "1111:2222:3333:4444:5555:6666:7777:8888%ab12") = Err string_is_too_long 0.
Proof.
  assert (X : b_string_of (mk_build (mk_cfg 2 false) true false) TChar16 (KNet V6) true (str "fe80::%ab/64") =
    Ret (ONet V6 (mk_net (mk_addr (group_bytes [65152; 0; 0; 0; 0; 0; 0; 0]) (str "ab")) (mk_addr (group_bytes [65535; 65535; 65535; 65535; 0; 0; 0; 0]) []) 64))) by (vm_compute; reflexivity).
  cbv zeta. split; [rewrite X; vm_compute; reflexivity|]. split; [rewrite X; discriminate|]. repeat split; vm_compute; reflexivity.
Qed.

(** set_scope_id: which texts it takes in which build ... *)
Theorem C86_scope_exact : forall b T a s a', 0 < c_max (b_cfg b) <= 64 -> Forall (unit_ok T) s ->
  (scope_set_b (throwing b) T a s = Ret a' <->
   exists cs t, zlen s <= c_max (b_cfg b) /\ reads_in b T s cs /\ Forall (scope_char_of (c_spaces (b_cfg b))) cs /\ before_nul cs t /\ a' = mk_addr (a_bytes a) t).
Proof. exact b_scope_exact. Qed.
Print Assumptions C86_scope_exact.
(** ... what its overload with a code reports ... *)
Theorem C86_scope_codes : forall b T a s code, 0 < c_max (b_cfg b) <= 64 -> Forall (unit_ok T) s ->
  match scope_set_b (throwing b) T a s with
  | Ret a' => scope_set_code_b b T a s code = Ret (a', no_error) | Err e _ => e <> no_error /\ scope_set_code_b b T a s code = Ret (a, e) | UB u => scope_set_code_b b T a s code = UB u end.
Proof. exact b_scope_codes. Qed.
Print Assumptions C86_scope_codes.
(** ... that without exceptions the object stays as it is ... *)
Theorem C86_scope_silent : forall b T a s, 0 <= c_max (b_cfg b) -> Forall (unit_ok T) s -> silent a (scope_set_b (throwing b) T a s) (scope_set_b (quietly b) T a s).
Proof. exact b_scope_silent. Qed.
Print Assumptions C86_scope_silent.
Theorem C86_scope_array_silent : forall b T a data, 0 <= c_max (b_cfg b) -> Forall (unit_ok T) data -> silent a (scope_set_array_b (throwing b) T a data) (scope_set_array_b (quietly b) T a data).
Proof. exact b_scope_array_silent. Qed.
Print Assumptions C86_scope_array_silent.
(** ... how it reads UTF-8 ... *)
Theorem C86_scope_utf8 : forall b a s, 0 <= c_max (b_cfg b) -> scope_set_b (in_utf8 b) TChar a s = scope_set_b (in_bytes b) TChar8 a (bytes_of s).
Proof. exact utf8_scope. Qed.
Print Assumptions C86_scope_utf8.
Theorem C86_scope_other : forall b T a s, 0 <= c_max (b_cfg b) -> T <> TChar -> Forall (unit_ok T) s -> scope_set_b (in_utf8 b) T a s = scope_set_b (in_bytes b) T a s.
Proof. exact other_scope. Qed.
Print Assumptions C86_scope_other.
(** ... and that without scope ids it does nothing. *)
Theorem C86_scope_off : forall b T a s code, c_max (b_cfg b) = 0 -> Forall (unit_ok T) s ->
  scope_set_b b T a s = Ret a /\ scope_set_code_b b T a s code = Ret (a, code) /\ scope_set_array_b b T a s = Ret a.
Proof. exact b_off. Qed.
Print Assumptions C86_scope_off.
Example C86_scope_ex : let b := mk_build (mk_cfg 3 true) true true in let a := mk_addr (group_bytes [65152; 0; 0; 0; 0; 0; 0; 1]) (str "x") in
  scope_set_b b TChar a (str "a b") = Ret (mk_addr (a_bytes a) (str "a b")) /\ scope_set_b b TChar a [-61; -95] = Err unexpected_symbol 225 /\
  scope_set_b b TChar16 a (str "abcd") = Err scope_id_is_too_long 0 /\ scope_set_b (quietly b) TChar16 a (str "abcd") = Ret a /\
  scope_set_code_b b TChar a (str "a%") no_error = Ret (a, invalid_scope_id) /\
  scope_set_array_b (quietly b) TChar8 a [195; 161; 0] = Ret a /\ scope_set_array_b b TChar8 a (str "abc" ++ [0])%list = Ret (mk_addr (a_bytes a) (str "abc")).
Proof. repeat split; vm_compute; reflexivity. Qed.

(** With no macro set, or one of the two, these are the functions of the other theorems. *)
Theorem C86_default_strings : forall T k strict s, b_string_of default_build T k strict s = string_of T k strict s.
Proof. exact default_strings. Qed.
Print Assumptions C86_default_strings.
Theorem C86_default_arrays : forall T k strict data, b_array_of default_build T k strict data = array_of T k strict data.
Proof. exact default_arrays. Qed.
Print Assumptions C86_default_arrays.
Theorem C86_default_literals : forall T k s, b_literal_of default_build T k s = literal_of T k s.
Proof. exact default_literals. Qed.
Print Assumptions C86_default_literals.
Theorem C86_quiet_strings : forall T k strict s, Forall (unit_ok T) s -> b_string_of (quietly default_build) T k strict s = nx_string_of T k strict s.
Proof. exact quiet_strings. Qed.
Print Assumptions C86_quiet_strings.
Theorem C86_quiet_arrays : forall T k strict data, Forall (unit_ok T) data -> b_array_of (quietly default_build) T k strict data = nx_array_of T k strict data.
Proof. exact quiet_arrays. Qed.
Print Assumptions C86_quiet_arrays.
Theorem C86_utf8_default_strings : forall T k strict s, Forall (unit_ok T) s -> b_string_of (in_utf8 default_build) T k strict s = u_string_of T k strict s.
Proof. exact utf8_default_strings. Qed.
Print Assumptions C86_utf8_default_strings.
Theorem C86_utf8_default_arrays : forall T k strict data, Forall (unit_ok T) data -> b_array_of (in_utf8 default_build) T k strict data = u_array_of T k strict data.
Proof. exact utf8_default_arrays. Qed.
Print Assumptions C86_utf8_default_arrays.
