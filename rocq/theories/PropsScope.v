(** Property theorems C69: the class scope, and set_scope_id in the five
    character types.  SpecScope says which characters the units of a text stand
    for and what a scope has to show. *)
From Coq Require Import String.
From Verif Require Import Base UnicodeModel FixedStringModel V6Model SpecText SpecV6 SpecStr SpecAddr AddressModel SpecOrder AnyModel SpecAny NetWitness
  CodeModel StreamModel SpecStream SpecLiteral LiteralModel SpecLoose ScopeModel SpecScope FixedStringProofs ScopeProofs.

(** A scope made of a fixed string is the text of that string, and a number if that text is one. *)
Theorem C69_make : forall n f, wf_fs n f -> exists s, scope_make f = Ret s /\ sc_id s = f /\ sees s (fs_chars f).
Proof. exact scope_sees. Qed.
Print Assumptions C69_make.
(** get_scope_id of an address. *)
Theorem C69_get : forall a, wf_addr V6 a -> exists s, get_scope a = Ret s /\ sees s (a_scope a).
Proof. exact get_scope_ok. Qed.
Print Assumptions C69_get.
(** An IPv4 address in a version-erased one has the empty scope. *)
Theorem C69_any_get : forall x, wf_any x -> exists s, any_get_scope x = Ret s /\ sees s (if ver_eqb (aa_ver x) V4 then [] else a_scope (aa_addr x)).
Proof. exact any_get_scope_ok. Qed.
Print Assumptions C69_any_get.
Example C69_get_ex :
  (s <- get_scope (addr_at V6 "fe80::1%123") ;; Ret (scope_string s, scope_uint32 s, scope_has_uint32 s, scope_bool s)) = Ret (str "123", 123, true, true) /\
  (s <- get_scope (addr_at V6 "fe80::1%12a") ;; Ret (scope_string s, scope_uint32 s, scope_has_uint32 s, scope_bool s)) = Ret (str "12a", 0, false, true) /\
  (s <- any_get_scope (mk_aa V4 (addr_at V4 "1.2.3.4")) ;; Ret (scope_string s, scope_has_uint32 s, scope_bool s)) = Ret ([], false, false).
Proof. repeat split; vm_compute; reflexivity. Qed.

(** The number is reduced modulo 2^32: the scope 4294967296 says it is the number 0. *)
Theorem C69_number_wraps : exists a sc, wf_addr V6 a /\ get_scope a = Ret sc /\ scope_string sc = [52; 50; 57; 52; 57; 54; 55; 50; 57; 54] /\
  scope_has_uint32 sc = true /\ scope_uint32 sc = 0.
Proof. exact scope_number_wraps. Qed.
Print Assumptions C69_number_wraps.
(** set_scope_id succeeds exactly on at most 16 units standing for allowed characters, and keeps the characters before the first NUL. *)
Theorem C69_set_exact : forall T a s a', Forall (unit_ok T) s -> (scope_set T a s = Ret a' <->
  exists cs, zlen s <= 16 /\ reads T s cs /\ Forall scope_char cs /\ before_nul cs (a_scope a') /\ a_bytes a' = a_bytes a).
Proof. exact scope_set_iff. Qed.
Print Assumptions C69_set_exact.
(** The overload with an error code: the same, and on an error the address is left as it was; which errors there are. *)
Theorem C69_set_codes : forall T a s code, Forall (unit_ok T) s -> exists a' c, scope_set_code T a s code = Ret (a', c) /\
  (c = no_error -> scope_set T a s = Ret a') /\ (c <> no_error -> a' = a /\ exists x, scope_set T a s = Err c x) /\
  (c = scope_id_is_too_long <-> 16 < zlen s) /\ (c = no_error \/ c = scope_id_is_too_long \/ c = invalid_scope_id \/ encoding_error c).
Proof. exact scope_set_codes. Qed.
Print Assumptions C69_set_codes.
Theorem C69_set_wf : forall T a s a', wf_addr V6 a -> Forall (unit_ok T) s -> scope_set T a s = Ret a' -> wf_addr V6 a'.
Proof. exact scope_set_wf. Qed.
Print Assumptions C69_set_wf.
(** What was set can be read back ... *)
Theorem C69_set_get : forall T a s a', wf_addr V6 a -> Forall (unit_ok T) s -> scope_set T a s = Ret a' ->
  exists sc cs t, get_scope a' = Ret sc /\ reads T s cs /\ before_nul cs t /\ sees sc t.
Proof. exact scope_set_get. Qed.
Print Assumptions C69_set_get.
(** ... but not what follows a NUL. *)
Theorem C69_set_nul : exists a s a' sc, wf_addr V6 a /\ scope_set TChar a s = Ret a' /\ get_scope a' = Ret sc /\ scope_string sc <> s.
Proof. exact scope_set_nul. Qed.
Print Assumptions C69_set_nul.
(** The scope of an address can be given to any other. *)
Theorem C69_copy : forall a b, wf_addr V6 a -> wf_addr V6 b -> exists s, get_scope b = Ret s /\
  scope_set TChar a (scope_string s) = Ret (mk_addr (a_bytes a) (a_scope b)).
Proof. exact scope_copy. Qed.
Print Assumptions C69_copy.
(** The five character types agree on ASCII texts. *)
Theorem C69_types : forall T a s, Forall is_ascii s -> scope_set T a s = scope_set TChar a s.
Proof. exact scope_set_types. Qed.
Print Assumptions C69_types.
Theorem C69_types_code : forall T a s code, Forall is_ascii s -> scope_set_code T a s code = scope_set_code TChar a s code.
Proof. exact scope_code_types. Qed.
Print Assumptions C69_types_code.
Example C69_set_ex :
  scope_set TChar8 (addr_at V6 "fe80::1%x") (str "eth0") = Ret (addr_at V6 "fe80::1%eth0") /\
  scope_set TWchar (addr_at V6 "fe80::1%x") (str "eth" ++ [233]) = Err unexpected_symbol 233 /\
  scope_set_code TChar16 (addr_at V6 "fe80::1%x") (str "eth" ++ [0xD800]) no_error = Ret (addr_at V6 "fe80::1%x", wrong_encoding_sequence) /\
  scope_set_code TChar32 (addr_at V6 "fe80::1%x") (str "a/b") invalid_netmask = Ret (addr_at V6 "fe80::1%x", invalid_scope_id) /\
  scope_set_code TChar (addr_at V6 "fe80::1%x") (str "12345678901234567") no_error = Ret (addr_at V6 "fe80::1%x", scope_id_is_too_long) /\
  scope_set TChar (addr_at V6 "fe80::1%x") [] = Ret (addr_at V6 "fe80::1").
Proof. repeat split; vm_compute; reflexivity. Qed.

(** An array gives what the string before its first NUL gives. *)
Theorem C69_array : forall T a data s, c_string (cap data) data s -> plain T s -> scope_set_array T a data = scope_set TChar a s.
Proof. exact scope_array_ok. Qed.
Print Assumptions C69_array.
Theorem C69_array_code : forall T a data s code, c_string (cap data) data s -> plain T s -> scope_set_array_code T a data code = scope_set_code TChar a s code.
Proof. exact scope_array_code_ok. Qed.
Print Assumptions C69_array_code.
(** An array of wide units with a character above 127 is an encoding error. *)
Theorem C69_array_bad : forall T a data s code, wide T -> Forall (unit_ok T) data -> c_string (cap data) data s -> ~ Forall is_ascii s ->
  exists e x, scope_set_array T a data = Err e x /\ scope_set_array_code T a data code = Ret (a, e) /\ encoding_error e.
Proof. exact scope_array_bad. Qed.
Print Assumptions C69_array_bad.
Example C69_array_ex : c_string (cap (str "en1" ++ [0; 7; 0])) (str "en1" ++ [0; 7; 0]) (str "en1") /\ plain TChar32 (str "en1") /\
  scope_set_array TChar32 (addr_at V6 "fe80::1") (str "en1" ++ [0; 7; 0]) = Ret (addr_at V6 "fe80::1%en1") /\
  scope_set_array_code TChar16 (addr_at V6 "fe80::1") [101; 233; 0] no_error = Ret (addr_at V6 "fe80::1", unexpected_symbol).
Proof.
  split; [|split; [|split; vm_compute; reflexivity]].
  - split; [vm_compute; intuition discriminate|]. exists [0; 7; 0]. split; [reflexivity|right]. split; [cbn; lia|]. exists [7; 0]. reflexivity.
  - right. repeat (constructor; [split; vm_compute; congruence|]). constructor.
Qed.

(** A version-erased IPv4 address ignores every text, and the code is not written. *)
Theorem C69_any_four : forall T x s data code, aa_ver x = V4 -> any_scope_set T x s = Ret x /\ any_scope_set_code T x s code = Ret (x, code) /\ any_scope_set_array T x data = Ret x.
Proof. exact any_scope_four. Qed.
Print Assumptions C69_any_four.
Theorem C69_any_six : forall T x s data code, aa_ver x = V6 ->
  any_scope_set T x s = rmap (mk_aa V6) (scope_set T (aa_addr x) s) /\
  any_scope_set_code T x s code = rmap (fun p => (mk_aa V6 (fst p), snd p)) (scope_set_code T (aa_addr x) s code) /\
  any_scope_set_array T x data = rmap (mk_aa V6) (scope_set_array T (aa_addr x) data).
Proof. exact any_scope_six. Qed.
Print Assumptions C69_any_six.
Example C69_any_ex : any_scope_set TChar (mk_aa V4 (addr_at V4 "1.2.3.4")) (str "a/b") = Ret (mk_aa V4 (addr_at V4 "1.2.3.4")) /\
  any_scope_set TChar (mk_aa V6 (addr_at V6 "fe80::1")) (str "a") = Ret (mk_aa V6 (addr_at V6 "fe80::1%a")).
Proof. split; vm_compute; reflexivity. Qed.

