(** Property theorems C77: which error an IPv6 text gives and which number it
    carries.  The specification is SpecV6Err. *)
From Coq Require Import String.
From Verif Require Import Base SpecText V4Model V6Model SpecV4 SpecV6 SpecV6Err SpecError SpecStr AddressModel NetworkModel StreamModel ErrorModel NetWitness
  ErrNumber V6ErrLemmas.
Open Scope string_scope.
Open Scope Z_scope.
Open Scope list_scope.

Definition errs (s : string) (e : ec) (x : Z) : Prop := v6_from_string true (chars (str s)) = Err e x.

(** The parser reports an error and a number exactly when the text has the defect; the number is the one that goes with it. *)
Theorem C77_exact : forall s e x, no_nul s -> (v6_from_string true (chars s) = Err e x <-> v6_error s e x).
Proof. exact v6_exact. Qed.
Print Assumptions C77_exact.
Example C77_fields_ex :
  errs "" empty_address 0 /\
  errs "12345::" part_is_more_4_chars 0 /\
  errs "1:2:abcde:4" part_is_more_4_chars 2 /\
  errs "1:2:3:4:5:6:7:8:9:a" most_8_colons_permitted 9 /\
  errs "1::3:4:5:6:7:8:9:a" expected_at_most_7_other_parts_with_double_colon 9 /\
  errs ":2:3:4:5:6:7:8:9:" leading_colon_only_permitted_as_part_of_double_colon 9 /\
  errs "1:2:3:4:5:6:7:8:9:" trailing_colon_only_permitted_as_part_of_double_colon 9 /\
  errs "1:2:3:4:5:6:7:1.2.3.4" most_8_colons_permitted 7 /\
  errs "1:2:3:4:5:6:1.2.3.256" octet_exceeded_255 6.
Proof. unfold errs. repeat split; vm_compute; reflexivity. Qed.

Example C77_parts_ex :
  errs "1:2" least_3_parts 2 /\
  errs "1.2.3.4" least_3_parts 2 /\
  errs "1::2::3" most_one_double_colon_permitted 5 /\
  errs ":1::2" leading_colon_only_permitted_as_part_of_double_colon 4 /\
  errs "1::2:" trailing_colon_only_permitted_as_part_of_double_colon 4 /\
  errs "1::3:4:5:6:7:8:9" expected_at_most_7_other_parts_with_double_colon 9 /\
  errs "1:2:3" exactly_8_parts_expected_without_double_colon 3 /\
  errs ":2:3:4:5:6:7:8" leading_colon_only_permitted_as_part_of_double_colon 8 /\
  errs "1:2:3:4:5:6:7:" trailing_colon_only_permitted_as_part_of_double_colon 8 /\
  errs "1::x" part_has_invalid_symbol 3.
Proof. unfold errs. repeat split; vm_compute; reflexivity. Qed.

Example C77_scope_ex :
  errs "::1%" invalid_scope_id 0 /\
  errs "x%a b" invalid_scope_id 0 /\
  errs "fe80::1%abcdefghijklmnopq" scope_id_is_too_long 0 /\
  errs "1::2::3%eth0" most_one_double_colon_permitted 5.
Proof. unfold errs. repeat split; vm_compute; reflexivity. Qed.

(** The specification is a function of the text, ... *)
Theorem C77_unique : forall s e x e' x', no_nul s -> v6_error s e x -> v6_error s e' x' -> e = e' /\ x = x'.
Proof. exact v6_error_unique. Qed.
Print Assumptions C77_unique.
(** ... and finds a defect in every text that is not accepted. *)
Theorem C77_accepted : forall s, no_nul s -> ((exists gs t, v6_from_string true (chars s) = Ret (gs, t)) <-> forall e x, ~ v6_error s e x).
Proof. exact v6_error_none. Qed.
Print Assumptions C77_accepted.
(** The number with more than four characters is that of the first such part, counted from 0. *)
Theorem C77_long_number : forall s x, no_nul s -> v6_from_string true (chars s) = Err part_is_more_4_chars x ->
  exists a p f q, address_part s a /\ fields a (p ++ f :: q) /\ Forall short p /\ ~ short f /\ x = zlen p.
Proof. exact long_number. Qed.
Print Assumptions C77_long_number.
(** The number with an invalid symbol is that of all parts, after every part that could have it. *)
Theorem C77_symbol_number : forall s x, no_nul s -> v6_from_string true (chars s) = Err part_has_invalid_symbol x ->
  exists a fs ps, address_part s a /\ fields a fs /\ parts_of fs ps /\ x = zlen ps /\ well_formed ps /\
    exists l p r c, ps = l ++ p :: r /\ In c p /\ (forall d, ~ hex_char c d) /\ zlen l < x.
Proof. exact symbol_number. Qed.
Print Assumptions C77_symbol_number.
(** The number with an octet of an embedded dotted quad is that of the parts before the quad, whatever octet it is. *)
Theorem C77_octet_number : forall s e x, no_nul s -> numbered e -> e <> part_is_more_4_chars -> e <> part_has_invalid_symbol ->
  v6_from_string true (chars s) = Err e x ->
  exists a p f i, address_part s a /\ fields a (p ++ [f]) /\ v4_error (chars f) e i /\ x = zlen p.
Proof. exact octet_number. Qed.
Print Assumptions C77_octet_number.
(** So messages name the wrong part, ... *)
Theorem C77_symbol_number_refuted : exists s x w, no_nul s /\ v6_from_string true (chars s) = Err part_has_invalid_symbol x /\
  fields s [[103]; []; [49]] /\ x = 3 /\ addr_parse_x TChar V6 s = Ret (inr (mk_exn XParse part_has_invalid_symbol w)) /\
  w = str "in part 3 of address g::1 has invalid symbols".
Proof. exact symbol_refuted. Qed.
Print Assumptions C77_symbol_number_refuted.
(** ... and the wrong octet. *)
Theorem C77_octet_number_refuted : exists s x i w, no_nul s /\ v6_from_string true (chars s) = Err octet_exceeded_255 x /\
  fields s [[]; []; str "1.2.3.256"] /\ v4_from_string (chars (str "1.2.3.256")) = Err octet_exceeded_255 i /\ x = 2 /\ i = 3 /\
  addr_parse_x TChar V6 s = Ret (inr (mk_exn XParse octet_exceeded_255 w)) /\ w = str "octet 2 of address ::1.2.3.256 exceeded 255".
Proof. exact octet_refuted. Qed.
Print Assumptions C77_octet_number_refuted.
(** Networks: the number of the address error is replaced by 3 for IPv4 with a dotted mask, by 0 otherwise, ... *)
Theorem C77_network_number : forall v s strict e x, no_nul s -> numbered e -> net_parse v (chars s) strict = Err e x ->
  exists p rest i, s = p ++ rest /\ ~ In 47 p /\ addr_parse v (chars (firstn (Z.to_nat (max_string_len v)) p)) = Err e i /\
    ((x = 3 /\ v = V4 /\ dotted_mask_text p s) \/ (x = 0 /\ ~ (v = V4 /\ zlen p <= max_string_len v /\ dotted_mask_text p s))).
Proof. exact network_number. Qed.
Print Assumptions C77_network_number.
(** ... so the message for the same bad octet depends on how the mask is written. *)
Theorem C77_network_number_refuted : exists a s s' i, s = a ++ str "/8" /\ s' = a ++ str "/255.0.0.0" /\ i = 2 /\
  addr_parse V4 (chars a) = Err octet_exceeded_255 i /\
  net_parse V4 (chars s) true = Err octet_exceeded_255 0 /\ net_parse V4 (chars s') true = Err octet_exceeded_255 3 /\
  net_parse_x TChar V4 s true = Ret (inr (mk_exn XParse octet_exceeded_255 (str "octet 0 of address 10.0.300.0/8 exceeded 255"))) /\
  net_parse_x TChar V4 s' true = Ret (inr (mk_exn XParse octet_exceeded_255 (str "octet 3 of address 10.0.300.0/255.0.0.0 exceeded 255"))).
Proof. exact network_refuted. Qed.
Print Assumptions C77_network_number_refuted.
Example C77_network_ex : net_parse V4 (chars (str "1.2.3")) true = Err expected_4_octets 0 /\ net_parse V4 (chars (str "1.x.3.4/255.0.0.0")) true = Err octet_has_invalid_symbol 3 /\
  net_parse V6 (chars (str "1:2:abcde::/64")) true = Err part_is_more_4_chars 0 /\ numbered part_is_more_4_chars.
Proof. repeat split; vm_compute; reflexivity. Qed.

