(** Property theorems C61: exceptions and their messages.  [raise_error] is the
    function that throws; [..._x] are the throwing functions of the library with
    the exception a caller catches; [shows], [excerpt] and [pictured] say how a
    text appears in a message (SpecError). *)
From Coq Require Import String.
From Verif Require Import Base UnicodeModel V6Model AddressModel NetworkModel IterModel AnyModel CodeModel SpecStr SpecText SpecNet SpecIter SpecOrder SpecAddr SpecAny NetWitness IterLemmas
  StreamModel SpecStream StreamWitness ErrorModel SpecError RaiseProofs2 RaiseProofs3 RaiseProofs4 RaiseProofs5 RaiseProofs6.

(** Raising never meets undefined behaviour, whatever the units of the text; the
    class of the exception is that of the code, and the exception carries the code. *)
Theorem C61_class : forall T c v s, Forall (unit_ok T) s -> exists k w, raise_error T c v s (zlen s) = Ret (mk_exn k c w) /\ class_of c k.
Proof. exact raise_total. Qed.
Print Assumptions C61_class.
(** The message of a parse error is a fixed text around the quoted input; what
    is around it depends on the code and the value only. *)
Theorem C61_quotes : forall c, quoting c -> exists pre post, forall T v s t, shows T s t -> raise_error T c v s (zlen s) = Ret (mk_exn XParse c (pre v ++ t ++ post)).
Proof. exact shows_raise. Qed.
Print Assumptions C61_quotes.
(** Every text of symbols is shown in some way. *)
Theorem C61_shown : forall T cs, Forall (symbol_ok T) cs -> exists t, shows T (encode T cs) t.
Proof. exact shows_some. Qed.
Print Assumptions C61_shown.
(** ASCII texts of up to 100 units are shown as they are, in all character types. *)
Theorem C61_shown_ascii : forall T s, Forall is_ascii s -> ~ In 0 s -> zlen s <= 100 -> shows T s s.
Proof. exact shows_ascii. Qed.
Print Assumptions C61_shown_ascii.
(** A NUL ends the quotation. *)
Theorem C61_stops : forall c, quoting c -> exists pre post, forall T v cs r, Forall (symbol_ok T) cs -> Forall (unit_ok T) r -> zlen (encode T cs) < 100 ->
  exists t, pictured T cs t /\ raise_error T c v (encode T cs ++ 0 :: r) (zlen (encode T cs ++ 0 :: r)) = Ret (mk_exn XParse c (pre v ++ t ++ post)).
Proof. exact shows_stops. Qed.
Print Assumptions C61_stops.
(** The other messages do not depend on the text. *)
Theorem C61_fixed : forall c, ~ quoting c -> exists k w, forall T v s, Forall (unit_ok T) s -> raise_error T c v s (zlen s) = Ret (mk_exn k c w).
Proof. exact raise_logic. Qed.
Print Assumptions C61_fixed.
Example C61_quotes_ex : quoting octet_exceeded_255 /\ Forall is_ascii (str "10.0.0.256") /\
  raise_error TChar16 octet_exceeded_255 3 (str "10.0.0.256") 10 = Ret (mk_exn XParse octet_exceeded_255 (str "octet 3 of address 10.0.0.256 exceeded 255")) /\
  raise_error TChar16 unexpected_symbol 0x1F600 [49; 0xD83D; 0xDE00] 3 = Ret (mk_exn XParse unexpected_symbol (str "unexpected next unicode symbol {U+1f600} in string 1{U+1f600}")) /\
  raise_error TChar8 wrong_encoding_sequence 0 [49; 0xC3; 0xA9] 3 = Ret (mk_exn XParse wrong_encoding_sequence (str "incorrect sequence of bytes in unicode encoding for string 1{U+00e9}")) /\
  raise_error TChar expected_4_octets 0 (repeat 97 101) 101 = Ret (mk_exn XParse expected_4_octets (str "expected 4 octets in " ++ repeat 97 100 ++ str "...")) /\
  raise_error TChar not_contained_network 0 [] 0 = Ret (mk_exn XLogic not_contained_network (str "network is not a subnet of other")).
Proof.
  split; [apply quoting_dec; reflexivity|]. split; [apply ascii_by; vm_compute; reflexivity|].
  split; [vm_compute; reflexivity|]. split; [vm_compute; reflexivity|]. split; [vm_compute; reflexivity|]. split; vm_compute; reflexivity.
Qed.
(** The number of the octet or part stands in the message, in decimal. *)
Theorem C61_number : forall c, numbered c -> exists lead, forall T v s, 0 <= v < 2 ^ 32 -> Forall (unit_ok T) s ->
  exists x d rest, raise_error T c v s (zlen s) = Ret x /\ x_what x = lead ++ 32 :: d ++ 32 :: rest /\ numeral 10 d v.
Proof. exact raise_number. Qed.
Print Assumptions C61_number.
(** The offending symbol stands in the message. *)
Theorem C61_symbol : exists lead, forall T v s, 0 <= v < 2 ^ 32 -> Forall (unit_ok T) s ->
  exists x d rest, raise_error T unexpected_symbol v s (zlen s) = Ret x /\ x_what x = lead ++ 32 :: d ++ 32 :: rest /\ code_name v d.
Proof. exact raise_symbol. Qed.
Print Assumptions C61_symbol.
(** Different codes have different messages. *)
Theorem C61_message_tells_code : forall T T' c c' v v' s s' n n' x x', raise_error T c v s n = Ret x -> raise_error T' c' v' s' n' = Ret x' ->
  x_what x = x_what x' -> c = c'.
Proof. exact what_code. Qed.
Print Assumptions C61_message_tells_code.
Theorem C61_message_tells_number : forall T T' c v v' s s' n n' x x', numbered c -> 0 <= v < 2 ^ 32 -> 0 <= v' < 2 ^ 32 ->
  raise_error T c v s n = Ret x -> raise_error T' c v' s' n' = Ret x' -> x_what x = x_what x' -> v = v'.
Proof. exact what_value. Qed.
Print Assumptions C61_message_tells_number.
Example C61_number_ex : numbered part_is_more_4_chars /\ raise_error TChar32 part_is_more_4_chars 2 (str "1:2:34567::") 11 =
  Ret (mk_exn XParse part_is_more_4_chars (str "in part 2 of address 1:2:34567:: more 4 characters")).
Proof. split; [exact I|]. vm_compute. reflexivity. Qed.
(** parse of every class in every character type: a value exactly when the
    overload with a code reports none, otherwise parse_error with that code. *)
Theorem C61_parse : forall T k strict s code, Forall (unit_ok T) s -> throws_as XParse (obj_code T k strict s code) (obj_throw T k strict s).
Proof. exact obj_throws. Qed.
Print Assumptions C61_parse.
Theorem C61_parse_array : forall T v n data code, Forall (unit_ok T) data -> throws_as XParse (parse_array_st v (reader_of T) n data code) (addr_array_x T v n data).
Proof. exact addr_array_throws. Qed.
Print Assumptions C61_parse_array.
Theorem C61_network_parse_array : forall T v n data strict code, Forall (unit_ok T) data -> throws_as XParse (net_array_st v (reader_of T) n data strict code) (net_array_x T v n data strict).
Proof. exact net_array_throws. Qed.
Print Assumptions C61_network_parse_array.
(** A failed parse quotes its input, unless the code is empty_address. *)
Theorem C61_parse_message : forall T k strict s x d, shows T s d -> obj_throw T k strict s = Ret (inr x) ->
  x_class x = XParse /\ (x_code x = empty_address \/ exists pre post, x_what x = pre ++ d ++ post).
Proof. exact obj_message. Qed.
Print Assumptions C61_parse_message.
Theorem C61_scope_message : forall T a s x d, shows T s d -> set_scope_x T a s = Ret (inr x) ->
  x_class x = XParse /\ exists pre post, x_what x = pre ++ d ++ post.
Proof. exact scope_message. Qed.
Print Assumptions C61_scope_message.
Theorem C61_literal_message : forall T v s d, shows T s d -> max_string_len v < zlen s ->
  addr_literal_x T v s = Ret (inr (mk_exn XParse string_is_too_long (lit "input string is too long " ++ d))).
Proof. exact literal_too_long. Qed.
Print Assumptions C61_literal_message.
(** from_address quotes the address in its compressed text. *)
Theorem C61_from_address_message : forall v a p strict x, 0 <= p <= width v -> wf_addr v a -> from_address_x v a p strict = Ret (inr x) ->
  exists s, addr_to_string v a compressed = Ret s /\ x = mk_exn XParse has_host_bits_set (lit "has host bits set in address " ++ s).
Proof. exact from_address_message. Qed.
Print Assumptions C61_from_address_message.
Theorem C61_supernet_class : forall v n d np x, wf_net v n -> 0 <= d -> (forall q, np = Some q -> 0 <= q) -> supernet_x v n d np = Ret (inr x) ->
  x_class x = XLogic /\ supernet v n d np = Err (x_code x) 0.
Proof. exact supernet_message. Qed.
Print Assumptions C61_supernet_class.
Theorem C61_subnets_class : forall sp v n d np x, wf_net v n -> args_ok d np -> (np = None -> n_prefix n + d < 2 ^ 64) -> subnets_x sp v n d np = Ret (inr x) ->
  x_class x = XLogic /\ subnets sp v n d np = Err (x_code x) 0.
Proof. exact subnets_message. Qed.
Print Assumptions C61_subnets_class.
Theorem C61_exclude_class : forall sp v n o, wf_net v n -> wf_net v o -> ~ subset v o n -> exists w, exclude_x sp v n o = Ret (inr (mk_exn XLogic not_contained_network w)).
Proof. exact exclude_message. Qed.
Print Assumptions C61_exclude_class.
(** A long text is not always marked as cut: when a symbol straddles unit 100
    the "..." is lost. *)
Theorem C61_dots_refuted : exists x, obj_throw TChar16 (KAddr V4) false straddling = Ret (inr x) /\ zlen straddling > 100 /\ Forall (unit_ok TChar16) straddling /\
  x_what x = lit "in octet 0 of address " ++ repeat 97 99 ++ lit " has invalid symbol".
Proof. exact no_dots. Qed.
Print Assumptions C61_dots_refuted.
Example C61_parse_ex :
  obj_throw TWchar (KNet V4) true (str "10.0.0.1/8") = Ret (inr (mk_exn XParse has_host_bits_set (str "has host bits set in address 10.0.0.1/8"))) /\
  obj_throw TChar KAny false (str "1.2.3") = Ret (inr (mk_exn XParse expected_4_octets (str "expected 4 octets in 1.2.3"))) /\
  obj_throw TChar8 (KAddr V6) false [] = Ret (inr (mk_exn XParse empty_address (str "address cannot be empty"))) /\
  set_scope_x TChar16 (addr_at V6 "fe80::1") (str "a/b") = Ret (inr (mk_exn XParse invalid_scope_id (str "invalid scope id in address a/b"))) /\
  addr_array_x TChar16 V4 7 [49; 46; 50; 46; 51; 46; 1080; 0] = Ret (inr (mk_exn XParse unexpected_symbol (str "unexpected next unicode symbol {U+0438} in string 1.2.3.{U+0438}"))) /\
  from_address_x V4 (addr_at V4 "10.0.0.1") 8 true = Ret (inr (mk_exn XParse has_host_bits_set (str "has host bits set in address 10.0.0.1"))) /\
  supernet_x V4 (net_at V4 "10.0.0.0/8") 9 None = Ret (inr (mk_exn XLogic invalid_prefixlen_diff (str "invalid prefixlen_diff"))) /\
  subnets_x true V6 (net_at V6 "2001:db8::/32") 97 None = Ret (inr (mk_exn XLogic invalid_prefixlen_diff (str "invalid prefixlen_diff"))) /\
  exclude_x true V4 (net_at V4 "10.0.0.0/8") (net_at V4 "11.0.0.0/8") = Ret (inr (mk_exn XLogic not_contained_network (str "network is not a subnet of other"))).
Proof. calc. Qed.
