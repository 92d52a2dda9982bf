(** Property theorems C03, C09, C84 on the codes of errors: exactly which codes the
    parsers report (the lists are in SpecCodes). *)
From Coq Require Import String.
From Verif Require Import Base UnicodeModel V4Model V6Model AddressModel NetworkModel NetWitness SpecCodes CodeListProofs.
Close Scope string_scope.

(** A refused IPv4 text gets one of seven codes or that of its undecodable symbol, ... *)
Theorem C03_codes : forall ts e x, v4_from_string ts = Err e x -> In e v4_codes \/ exists y, In (Bad e y) ts.
Proof. exact v4_codes_ok. Qed.
Print Assumptions C03_codes.
(** ... and each of them is reported for some text. *)
Theorem C03_codes_all : forall e, In e v4_codes -> exists s x, v4_from_string (chars s) = Err e x.
Proof. exact v4_codes_all. Qed.
Print Assumptions C03_codes_all.
(** The same for IPv6 addresses ... *)
Theorem C09_codes : forall ts e x, v6_from_string true ts = Err e x -> In e v6_codes \/ exists y, In (Bad e y) ts.
Proof. exact v6_codes_ok. Qed.
Print Assumptions C09_codes.
Theorem C09_codes_all : forall e, In e v6_codes -> exists s x, v6_from_string true (chars s) = Err e x.
Proof. exact v6_codes_all. Qed.
Print Assumptions C09_codes_all.
(** ... and for networks. *)
Theorem C84_codes : forall v ts strict e x, net_parse_res v ts strict = Err e x -> In e (net_codes v) \/ exists y, In (Bad e y) ts.
Proof. exact net_codes_ok. Qed.
Print Assumptions C84_codes.
Theorem C84_codes_all : forall v e, In e (net_codes v) -> exists s x, net_parse_res v (chars s) true = Err e x.
Proof. exact net_codes_all. Qed.
Print Assumptions C84_codes_all.
Example C84_codes_ex : net_parse_res V4 (chars (str "1.2.3.4/255.0.255.0")) true = Err netmask_pattern_mixes_zeroes_and_ones 3 /\
  net_parse_res V6 [Ch 58; Ch 58; Ch 47; Bad unexpected_symbol 233] true = Err unexpected_symbol 233 /\
  v6_from_string true (chars (str "fe80::%")) = Err invalid_scope_id 0 /\ v4_from_string (chars (str "1.2.3")) = Err expected_4_octets 2.
Proof. repeat split; vm_compute; reflexivity. Qed.

