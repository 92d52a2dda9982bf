(** Property theorems C90: classes, scope ids and exceptions in builds with any
    combination of the macros IPADDRESS_NO_IPV6_SCOPE, IPADDRESS_IPV6_SCOPE_MAX_LENGTH,
    IPADDRESS_SCOPE_ID_SUPPORT_SPACES ([possible]: C68_settings), IPADDRESS_CHAR_IS_UTF8
    and IPADDRESS_NO_EXCEPTIONS; and the tables of the classes on a big-endian host. *)
From Coq Require Import String.
From Verif Require Import Base UnicodeModel V4Model V6Model SpecAddr SpecStr SpecOrder AddressModel NetworkModel SpecNet SpecClass ClassifyModel AnyModel SpecAny CodeModel SpecCode NetWitness NetText
  ScopeModel SpecScope ErrorModel SpecError RaiseProofs4 NoThrowModel SpecNoThrow ConfigModel SpecConfig ConfigProofs NetConfigModel SpecNetConfig NetConfigProofs3 StreamModel SpecStream LiteralModel FixedStringModel MacroModel SpecMacro
  SpecText HostModel SpecUtf8 Utf8Model SpecAnyConfig BuildModel SpecBuild BuildProofs BuildProofs2 BuildProofs3 BuildProofs4.
Close Scope string_scope.

(** Every entry of the tables compiles in every build and is the network of the default build. *)
Theorem C90_tables : forall b v s, possible b -> In s (table_texts v) -> exists n, entry_b b v s = Ret n /\ net_parse v (chars (codes s)) true = Ret n.
Proof. exact b_tables. Qed.
Print Assumptions C90_tables.
(** More generally, a network text without a scope id is read alike by every build, in every character type. *)
Theorem C90_texts : forall b T v strict s n, cfg_ok (b_cfg b) -> Forall is_ascii s -> In 47 s -> ~ In 37 s -> zlen s <= 41 -> net_parse v (chars s) strict = Ret n ->
  b_string_of b T (KNet v) strict s = Ret (ONet v n).
Proof. exact b_text. Qed.
Print Assumptions C90_texts.
Example C90_tables_ex : table_texts V4 <> [] /\ List.length (table_texts V6) = 28%nat /\ (exists n, entry_b (mk_build (mk_cfg 0 false) true false) V6 site_local_text = Ret n /\ n_prefix n = 10).
Proof. split; [discriminate|]. split; [reflexivity|]. eexists. split; vm_compute; reflexivity. Qed.

(** Addresses: each predicate holds exactly of the numbers of its ranges, whatever the scope id. *)
Theorem C90_private : forall b v a, possible b -> lives b v a -> tells (is_private_b b v a) (private_number v (val a)).
Proof. exact b_private. Qed.
Print Assumptions C90_private.
Theorem C90_global : forall b v a, possible b -> lives b v a -> tells (is_global_b b v a) (global_number v (val a)).
Proof. exact b_global. Qed.
Print Assumptions C90_global.
Theorem C90_multicast : forall b v a, possible b -> lives b v a -> tells (is_multicast_b b v a) (multicast_number v (val a)).
Proof. exact b_multicast. Qed.
Print Assumptions C90_multicast.
Theorem C90_reserved : forall b v a, possible b -> lives b v a -> tells (is_reserved_b b v a) (reserved_number v (val a)).
Proof. exact b_reserved. Qed.
Print Assumptions C90_reserved.
Theorem C90_loopback : forall b v a, possible b -> lives b v a -> tells (is_loopback_b b v a) (loopback_number v (val a)).
Proof. exact b_loopback. Qed.
Print Assumptions C90_loopback.
Theorem C90_link_local : forall b v a, possible b -> lives b v a -> tells (is_link_local_b b v a) (link_local_number v (val a)).
Proof. exact b_link_local. Qed.
Print Assumptions C90_link_local.
Theorem C90_site_local : forall b a, possible b -> lives b V6 a -> tells (is_site_local_b b a) (within v6_site_local (val a)).
Proof. exact b_site_local. Qed.
Print Assumptions C90_site_local.
Example C90_private_ex : let b := mk_build (mk_cfg 20 true) true false in let a := mk_addr [254; 128; 0; 0; 0; 0; 0; 0; 0; 0; 0; 0; 0; 0; 0; 1] (str "a long scope id 20") in
  possible b /\ lives b V6 a /\ is_private_b b V6 a = Ret true /\ is_link_local_b b V6 a = Ret true /\ is_multicast_b b V6 a = Ret false /\ zlen (a_scope a) = 18.
Proof.
  cbv zeta. split; [unfold possible; cbn; lia|]. split.
  { split; [split; [reflexivity|]; repeat (apply Forall_cons; [unfold is_byte; lia|]); apply Forall_nil|]. split.
    - split; [vm_compute; discriminate|]. split; [cbn; intuition discriminate|]. cbn [a_scope]. vm_compute str. repeat (apply Forall_cons; [unfold scope_char_of; intuition (discriminate || lia)|]). apply Forall_nil.
    - cbn [a_scope]. vm_compute str. repeat (apply Forall_cons; [unfold is_char; lia|]). apply Forall_nil. }
  split; [vm_compute; reflexivity|]. split; [vm_compute; reflexivity|]. split; vm_compute; reflexivity.
Qed.

(** Networks: a predicate holds when it holds of every address of the network. *)
Theorem C90_net_multicast : forall b v n, possible b -> net_lives b v n -> tells (net_is_multicast_b b v n) (forall x, in_net v n x -> multicast_number v x).
Proof. exact b_net_multicast. Qed.
Print Assumptions C90_net_multicast.
Theorem C90_net_loopback : forall b v n, possible b -> net_lives b v n -> tells (net_is_loopback_b b v n) (forall x, in_net v n x -> loopback_number v x).
Proof. exact b_net_loopback. Qed.
Print Assumptions C90_net_loopback.
Theorem C90_net_link_local : forall b v n, possible b -> net_lives b v n -> tells (net_is_link_local_b b v n) (forall x, in_net v n x -> link_local_number v x).
Proof. exact b_net_link_local. Qed.
Print Assumptions C90_net_link_local.
Theorem C90_net_site_local : forall b n, possible b -> net_lives b V6 n -> tells (net_is_site_local_b b n) (forall x, in_net V6 n x -> within v6_site_local x).
Proof. exact b_net_site_local. Qed.
Print Assumptions C90_net_site_local.
Theorem C90_net_private4 : forall b n, possible b -> net_lives b V4 n -> tells (net_is_private_b b V4 n) (forall x, in_net V4 n x -> private_number V4 x).
Proof. exact b_net_private4. Qed.
Print Assumptions C90_net_private4.
(** ... except for is_reserved of ::/1 ... *)
Theorem C90_net_reserved_partial : forall b v n, possible b -> net_lives b v n -> (v = V6 -> ~ half_space n) -> tells (net_is_reserved_b b v n) (forall x, in_net v n x -> reserved_number v x).
Proof. exact b_net_reserved. Qed.
Print Assumptions C90_net_reserved_partial.
Theorem C90_net_reserved_refuted : exists n y, forall b, possible b -> net_lives b V6 n /\ net_is_reserved_b b V6 n = Ret true /\ in_net V6 n y /\ ~ reserved_number V6 y.
Proof. exact b_half_reserved. Qed.
Print Assumptions C90_net_reserved_refuted.
(** ... and is_private of an IPv6 network, which holds when one entry of the table holds the whole network (C41). *)
Theorem C90_net_private_partial : forall b v n, possible b -> net_lives b v n ->
  tells (net_is_private_b b v n) (exists r, In r (match v with V4 => v4_private_ranges | V6 => v6_private_ranges end) /\ forall x, in_net v n x -> within r x).
Proof. exact b_net_private. Qed.
Print Assumptions C90_net_private_partial.
Theorem C90_net_global_partial : forall b v n x, possible b -> net_lives b v n -> net_is_private_b b v n = Ret x ->
  tells (net_is_global_b b v n) (x = false /\ (v = V4 -> ~ forall y, in_net V4 n y -> within v4_shared y)).
Proof. exact b_net_global. Qed.
Print Assumptions C90_net_global_partial.
Example C90_net_ex : let b := mk_build (mk_cfg 20 true) true false in let n := net_from (b_cfg b) (str "fe80::%a long scope id 20/64") in
  net_lives b V6 n /\ net_is_link_local_b b V6 n = Ret true /\ net_is_private_b b V6 n = Ret true /\ net_is_global_b b V6 n = Ret false /\ ~ half_space n.
Proof.
  assert (C : cfg_ok (mk_cfg 20 true)) by (unfold cfg_ok; cbn; lia). cbv zeta. destruct (net_from_ok _ (str "fe80::%a long scope id 20/64") C) as [_ A]; [vm_compute; reflexivity..|].
  split; [exact A|]. split; [vm_compute; reflexivity|]. split; [vm_compute; reflexivity|]. split; [vm_compute; reflexivity|]. intros [H _]. revert H. vm_compute. discriminate.
Qed.

(** get_scope_id gives the text of the scope id, and its value when it is a decimal numeral. *)
Theorem C90_scope : forall b a, possible b -> lives b V6 a -> exists s, get_scope_b b a = Ret s /\ sees s (a_scope a).
Proof. exact b_scope. Qed.
Print Assumptions C90_scope.
Theorem C90_any_scope : forall b x, possible b -> any_for (c_max (b_cfg b)) (c_spaces (b_cfg b)) x -> exists s, any_get_scope_b b x = Ret s /\ sees s (a_scope (aa_addr x)).
Proof. exact b_any_scope. Qed.
Print Assumptions C90_any_scope.
Example C90_scope_ex : let b := mk_build (mk_cfg 12 false) false true in exists s, get_scope_b b (mk_addr (repeat 0 16) (str "004294967297")) = Ret s /\ scope_string s = str "004294967297" /\ scope_has_uint32 s = true /\ scope_uint32 s = 1.
Proof. eexists. split; [vm_compute; reflexivity|]. split; [vm_compute; reflexivity|]. split; vm_compute; reflexivity. Qed.

(** Exceptions: the class of the exception and the shape of its message ... *)
Theorem C90_class : forall b T c v s, Forall (unit_ok T) s -> exists k w, raise_error_b b T c v s (zlen s) = Ret (mk_exn k c w) /\ class_of c k.
Proof. exact b_class. Qed.
Print Assumptions C90_class.
Theorem C90_quotes : forall c, quoting c -> exists pre post, forall b T v s t, shows_in b T s t -> raise_error_b b T c v s (zlen s) = Ret (mk_exn XParse c (pre v ++ t ++ post)).
Proof. exact b_quotes. Qed.
Print Assumptions C90_quotes.
Theorem C90_fixed : forall c, ~ quoting c -> exists k w, forall b T v s, Forall (unit_ok T) s -> raise_error_b b T c v s (zlen s) = Ret (mk_exn k c w).
Proof. exact b_fixed. Qed.
Print Assumptions C90_fixed.
Theorem C90_number : forall c, numbered c -> exists lead, forall b T v s, 0 <= v < 2 ^ 32 -> Forall (unit_ok T) s ->
  exists x d rest, raise_error_b b T c v s (zlen s) = Ret x /\ x_what x = lead ++ 32 :: d ++ 32 :: rest /\ numeral 10 d v.
Proof. exact b_number. Qed.
Print Assumptions C90_number.
Theorem C90_symbol : exists lead, forall b T v s, 0 <= v < 2 ^ 32 -> Forall (unit_ok T) s ->
  exists x d rest, raise_error_b b T unexpected_symbol v s (zlen s) = Ret x /\ x_what x = lead ++ 32 :: d ++ 32 :: rest /\ code_name v d.
Proof. exact b_symbol. Qed.
Print Assumptions C90_symbol.
(** ... in which codes with different messages do not collide across builds ... *)
Theorem C90_codes_differ : forall b b' T T' c c' v v' s s' x x', raise_error_b b T c v s (zlen s) = Ret x -> raise_error_b b' T' c' v' s' (zlen s') = Ret x' ->
  x_what x = x_what x' -> c = c'.
Proof. exact b_what_code. Qed.
Print Assumptions C90_codes_differ.
Theorem C90_shown : forall b T s, Forall is_ascii s -> ~ In 0 s -> zlen s <= 100 -> shows_in b T s s.
Proof. exact ascii_shown. Qed.
Print Assumptions C90_shown.
Theorem C90_default : forall T c v s, raise_error_b (mk_build default_config false true) T c v s (zlen s) = raise_error T c v s (zlen s).
Proof. exact raise_default. Qed.
Print Assumptions C90_default.
(** ... a parser throws exactly when the parser with an error code reports an error, the same one ... *)
Theorem C90_throws : forall b T k strict s code, Forall (unit_ok T) s -> throws_as XParse (b_coded_of b T k strict s code) (b_throw_of (throwing b) T k strict s).
Proof. exact b_throws_as. Qed.
Print Assumptions C90_throws.
Theorem C90_array_throws : forall b T v data code, Forall (unit_ok T) data ->
  throws_as XParse (parse_array_code_b b v (reader_b b T) (cap data) data code) (addr_array_x_b (throwing b) T v data).
Proof. exact b_array_throws. Qed.
Print Assumptions C90_array_throws.
Theorem C90_net_array_throws : forall b T v strict data code, Forall (unit_ok T) data ->
  throws_as XParse (net_array_code_b b v (reader_b b T) (cap data) data strict code) (net_array_x_b (throwing b) T v strict data).
Proof. exact b_net_array_throws. Qed.
Print Assumptions C90_net_array_throws.
Theorem C90_scope_throws : forall b T a s code, 0 < c_max (b_cfg b) <= 64 -> Forall (unit_ok T) s ->
  throws_as XParse (scope_set_code_b b T a s code) (set_scope_x_b (throwing b) T a s).
Proof. exact b_scope_throws. Qed.
Print Assumptions C90_scope_throws.
(** ... and the message quotes the text. *)
Theorem C90_message : forall b T k strict s x d, Forall (unit_ok T) s -> shows_in b T s d -> b_throw_of b T k strict s = Ret (inr x) ->
  x_class x = XParse /\ (x_code x = empty_address \/ exists pre post, x_what x = pre ++ d ++ post).
Proof. exact b_message. Qed.
Print Assumptions C90_message.
Theorem C90_scope_message : forall b T a s x d, 0 < c_max (b_cfg b) <= 64 -> Forall (unit_ok T) s -> shows_in b T s d -> set_scope_x_b b T a s = Ret (inr x) ->
  x_class x = XParse /\ (x_code x = empty_address \/ exists pre post, x_what x = pre ++ d ++ post).
Proof. exact b_scope_message. Qed.
Print Assumptions C90_scope_message.
(** Arrays and literals of ASCII characters throw as the string of chars does; an array that is no text throws with its own units ... *)
Theorem C90_array_message : forall b T v strict data s, c_string (cap data) data s -> Forall is_ascii s ->
  addr_array_x_b b T v data = addr_parse_x_b b TChar v s /\ net_array_x_b b T v strict data = net_parse_x_b b TChar v s strict.
Proof. exact b_array_x. Qed.
Print Assumptions C90_array_message.
Theorem C90_array_bad : forall b T v strict data e x t, Forall (unit_ok T) data -> fs_make (reader_b b T) (cap data) data = Err e x -> shows_in b T (firstn (cap data) data) t ->
  exists w, addr_array_x_b b T v data = Ret (inr (mk_exn XParse e w)) /\ net_array_x_b b T v strict data = Ret (inr (mk_exn XParse e w)) /\
    (e = unexpected_symbol \/ e = wrong_encoding_sequence) /\ exists pre post, w = pre ++ t ++ post.
Proof. exact b_array_bad. Qed.
Print Assumptions C90_array_bad.
Theorem C90_literal_message : forall b T v s, Forall is_ascii s -> ~ In 0 s -> zlen s <= max_len_b b v -> addr_literal_x_b b T v s = addr_parse_x_b b TChar v s.
Proof. exact b_literal_x. Qed.
Print Assumptions C90_literal_message.
(** ... and a literal that is too long is quoted whole. *)
Theorem C90_long_literal : forall b T v s, Forall (unit_ok T) s -> zlen s > max_len_b b v -> exists w, addr_literal_x_b b T v s = Ret (inr (mk_exn XParse string_is_too_long w)) /\
  forall t, shows_in b T s t -> exists pre post, w = pre ++ t ++ post.
Proof. exact b_long_literal. Qed.
Print Assumptions C90_long_literal.
Example C90_array_ex : let b := mk_build (mk_cfg 3 false) true true in let data := str "1.2.3." ++ [233; 0] in
  Forall (unit_ok TChar16) data /\ fs_make (reader_b b TChar16) (cap data) data = Err unexpected_symbol 233 /\
  (exists t, shows_in b TChar16 (firstn (cap data) data) t) /\
  (exists x, addr_array_x_b b TChar16 V4 data = Ret (inr x) /\ x_what x = str "unexpected next unicode symbol {U+00e9} in string 1.2.3.{U+00e9}") /\
  c_string (cap (str "1.2.3." ++ [0])) (str "1.2.3." ++ [0]) (str "1.2.3.").
Proof.
  cbv zeta. split; [vm_compute str; cbn [app]; repeat (apply Forall_cons; [unfold unit_ok, is_u16; lia|]); apply Forall_nil|]. split; [vm_compute; reflexivity|].
  split.
  { destruct (shows_some TChar16 (str "1.2.3." ++ [233])) as (t & Ht); [vm_compute str; cbn [app]; repeat (apply Forall_cons; [unfold symbol_ok, scalar; cbn; lia|]); apply Forall_nil|]. exists t. exact Ht. }
  split; [eexists; split; vm_compute; reflexivity|].
  split; [vm_compute; intuition discriminate|]. eexists. split; [reflexivity|]. left. reflexivity.
Qed.

(** A build without exceptions throws nothing: it returns the default object instead. *)
Theorem C90_quiet : forall b T k strict s, Forall (unit_ok T) s -> match b_string_of (throwing b) T k strict s with
  | Ret o => b_throw_of (quietly b) T k strict s = Ret (inl o)
  | Err _ _ => b_throw_of (quietly b) T k strict s = Ret (inl (nothing k))
  | UB u => b_throw_of (quietly b) T k strict s = UB u end.
Proof. exact b_quiet_strings. Qed.
Print Assumptions C90_quiet.
Example C90_throws_ex : let b := mk_build (mk_cfg 3 false) true true in
  (exists x, b_throw_of b TChar (KAddr V6) true (str "fe80::1%abcd") = Ret (inr x) /\ x_class x = XParse /\ x_code x = scope_id_is_too_long) /\
  (exists x, b_throw_of b TChar KAnyNet true (str "1.2.3.4/" ++ [-61; -87]) = Ret (inr x) /\ x_class x = XParse) /\
  b_throw_of (quietly b) TChar (KAddr V6) true (str "fe80::1%abcd") = Ret (inl (nothing (KAddr V6))) /\
  (exists x, set_scope_x_b b TChar16 (addr_default V6) (str "abcd") = Ret (inr x) /\ x_code x = scope_id_is_too_long) /\
  shows_in b TChar (str "fe80::1%abcd") (str "fe80::1%abcd").
Proof.
  cbv zeta. split; [eexists; split; [vm_compute; reflexivity|]; split; vm_compute; reflexivity|]. split; [eexists; split; [vm_compute; reflexivity|]; vm_compute; reflexivity|].
  split; [vm_compute; reflexivity|]. split; [eexists; split; [vm_compute; reflexivity|]; vm_compute; reflexivity|].
  apply ascii_shown; [vm_compute str; repeat (apply Forall_cons; [unfold is_ascii; lia|]); apply Forall_nil|vm_compute; intuition discriminate|vm_compute; discriminate].
Qed.

(** On a big-endian host the IPv4 tables do not compile: the mask is built from the bytes of a number (C74), and all but four entries are refused.  The IPv6 tables are the same. *)
Theorem C90_big_endian_refuted : exists s, In s (private_texts V4) /\ (exists n, entry_h true V4 s = Ret n) /\ entry_h false V4 s = Err has_host_bits_set 0.
Proof. exact big_refuted. Qed.
Print Assumptions C90_big_endian_refuted.
Theorem C90_big_endian_v4_refuted : forall s, In s (table_texts V4) -> (exists n, entry_h true V4 s = Ret n) /\
  (entry_h false V4 s = Err has_host_bits_set 0 \/ In s ["0.0.0.0/8"; "192.0.0.0/29"; "192.0.0.170/31"; "255.255.255.255/32"]%string).
Proof. exact big_tables4. Qed.
Print Assumptions C90_big_endian_v4_refuted.
Theorem C90_big_endian_v6 : forall s, In s (table_texts V6) -> exists n, entry_h true V6 s = Ret n /\ entry_h false V6 s = Ret n.
Proof. exact big_tables6. Qed.
Print Assumptions C90_big_endian_v6.
