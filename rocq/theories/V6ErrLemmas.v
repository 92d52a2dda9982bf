(** Lemmas for C77: codes and numbers of parse errors. *)
From Coq Require Import String.
From Verif Require Import Base Tac SpecText TextProofs UnicodeModel FixedStringModel V4Model Uint128Model V6Model AddressModel NetworkModel
  SpecV4 SpecV6 SpecV6Err SpecAddr SpecStr SpecError StreamModel ErrorModel V4Proofs BufProofs BitProofs StrProofs FixedStringProofs V6Proofs V6Parse V6Grammar V6Full
  V6Format V6Lemmas V4Lemmas V6Err V6Err2 V6Err3 ErrNumber NetWitness.
Open Scope string_scope.
Open Scope Z_scope.
Open Scope list_scope.

Lemma v6_exact s e x : no_nul s -> (v6_from_string true (chars s) = Err e x <-> v6_error s e x).
Proof. apply v6_errors. Qed.
Lemma v6_error_unique s e x e' x' : no_nul s -> v6_error s e x -> v6_error s e' x' -> e = e' /\ x = x'.
Proof. intros N H H'. apply (v6_errors _ _ _ N) in H, H'. split; congruence. Qed.
Lemma v6_error_none s : no_nul s -> ((exists gs t, v6_from_string true (chars s) = Ret (gs, t)) <-> forall e x, ~ v6_error s e x).
Proof.
  intros N. split.
  - intros (gs & t & E) e x H. apply (v6_errors _ _ _ N) in H. congruence.
  - intros H. pose proof (v6_defined (chars s)) as D. destruct (v6_from_string true (chars s)) as [[gs t]|e x|] eqn:E; [eauto| |contradiction].
    exfalso. apply (H e x). apply v6_errors; assumption.
Qed.


Lemma error_fields s e x : v6_error s e x -> numbered e -> exists a fs, address_part s a /\ fields a fs /\ v6_defect fs e x.
Proof.
  intros H N. destruct H as [|s fs e x Ns H37 Hf D|a t e H37 D|a t fs e x H37 St Hf D].
  - destruct N.
  - exists s, fs. split; [split; [exact H37|left; reflexivity]|auto].
  - destruct D; destruct N.
  - exists a, fs. split; [split; [exact H37|right; eauto]|auto].
Qed.
Lemma v4_code_octet ts e i : v4_error ts e i -> (forall k, In (Bad e k) ts -> False) -> e <> part_is_more_4_chars /\ e <> part_has_invalid_symbol.
Proof.
  intros H NB. destruct H; split; try discriminate; intros ->; apply (NB v), in_or_app; right; left; reflexivity.
Qed.
Lemma chars_no_bad s e k : In (Bad e k) (chars s) -> False.
Proof. unfold chars. intros I. apply in_map_iff in I as (c & C & _). discriminate. Qed.
Lemma parts_no_octet ps e : parts_defect ps e -> e <> part_is_more_4_chars /\ (numbered e -> e = part_has_invalid_symbol).
Proof. intros H. destruct H; (split; [discriminate|intros N; destruct N; reflexivity]). Qed.

(** The number with "more than 4 characters" is that of the first such part. *)
Lemma long_number s x : no_nul s -> v6_from_string true (chars s) = Err part_is_more_4_chars x ->
  exists a p f q, address_part s a /\ fields a (p ++ f :: q) /\ Forall short p /\ ~ short f /\ x = zlen p.
Proof.
  intros N E. apply (v6_errors _ _ _ N) in E. destruct (error_fields _ _ _ E I) as (a & fs & Ha & Hf & D).
  inversion D as [p f q Ef Hp Hl Sf Hq| | | | | |p f e' i Ef Hp Hl Lf Id V|ps e' Po Pd]; subst.
  - exists a, p, f, q. auto.
  - exfalso. apply (proj1 (v4_code_octet _ _ _ V (fun k => chars_no_bad _ _ k))). reflexivity.
  - exfalso. apply parts_no_octet in Pd as [C _]. apply C. reflexivity.
Qed.
(** The number with "invalid symbol" is that of all parts. *)
Lemma symbol_number s x : no_nul s -> v6_from_string true (chars s) = Err part_has_invalid_symbol x ->
  exists a fs ps, address_part s a /\ fields a fs /\ parts_of fs ps /\ x = zlen ps /\ well_formed ps /\
    exists l p r c, ps = l ++ p :: r /\ In c p /\ (forall d, ~ hex_char c d) /\ zlen l < x.
Proof.
  intros N E. apply (v6_errors _ _ _ N) in E. destruct (error_fields _ _ _ E I) as (a & fs & Ha & Hf & D).
  inversion D as [| | | | | |p f e' i Ef Hp Hl Lf Id V|ps e' Po Pd]; subst.
  - exfalso. apply (proj2 (v4_code_octet _ _ _ V (fun k => chars_no_bad _ _ k))). reflexivity.
  - exists a, fs, ps. split; [exact Ha|]. split; [exact Hf|]. split; [exact Po|]. split; [reflexivity|].
    inversion Pd as [| | | | | | | |p c WF Ip Ic NH]; subst. split; [exact WF|]. apply in_split in Ip as (l & r & ->). exists l, p, r, c.
    split; [reflexivity|]. split; [exact Ic|]. split; [exact NH|]. autorewrite with zl. pose proof (zlen_nonneg r). lia.
Qed.
(** The number of an octet error is that of the parts before the dotted quad. *)
Lemma octet_number s e x : no_nul s -> numbered e -> e <> part_is_more_4_chars -> e <> part_has_invalid_symbol ->
  v6_from_string true (chars s) = Err e x ->
  exists a p f i, address_part s a /\ fields a (p ++ [f]) /\ v4_error (chars f) e i /\ x = zlen p.
Proof.
  intros N Ne N1 N2 E. apply (v6_errors _ _ _ N) in E. destruct (error_fields _ _ _ E Ne) as (a & fs & Ha & Hf & D).
  inversion D as [p f q Ef| | | | | |p f e' i Ef Hp Hl Lf Id V|ps e' Po Pd]; subst; try (destruct Ne; fail); try (exfalso; apply N1; reflexivity).
  - exists a, p, f, i. auto.
  - exfalso. apply parts_no_octet in Pd as [_ C]. exact (N2 (C Ne)).
Qed.
(** Neither names the offending place. *)
Lemma symbol_refuted : exists s x w, no_nul s /\ v6_from_string true (chars s) = Err part_has_invalid_symbol x /\
  fields s [[103]; []; [49]] /\ x = 3 /\ addr_parse_x TChar V6 s = Ret (inr (mk_exn XParse part_has_invalid_symbol w)) /\
  w = str "in part 3 of address g::1 has invalid symbols".
Proof.
  exists (str "g::1"), 3. eexists. split; [vm_compute; intuition discriminate|]. split; [vm_compute; reflexivity|].
  split; [split; [discriminate|]; split; [reflexivity|]; repeat constructor; cbn; intuition discriminate|]. split; [reflexivity|].
  split; [vm_compute; reflexivity|]. vm_compute. reflexivity.
Qed.
Lemma octet_refuted : exists s x i w, no_nul s /\ v6_from_string true (chars s) = Err octet_exceeded_255 x /\
  fields s [[]; []; str "1.2.3.256"] /\ v4_from_string (chars (str "1.2.3.256")) = Err octet_exceeded_255 i /\ x = 2 /\ i = 3 /\
  addr_parse_x TChar V6 s = Ret (inr (mk_exn XParse octet_exceeded_255 w)) /\ w = str "octet 2 of address ::1.2.3.256 exceeded 255".
Proof.
  exists (str "::1.2.3.256"), 2, 3. eexists. split; [vm_compute; intuition discriminate|]. split; [vm_compute; reflexivity|].
  split; [split; [discriminate|]; split; [reflexivity|]; repeat constructor; cbn; intuition discriminate|]. split; [vm_compute; reflexivity|].
  split; [reflexivity|]. split; [reflexivity|]. split; [vm_compute; reflexivity|]. vm_compute. reflexivity.
Qed.
Lemma network_number v s strict e x : no_nul s -> numbered e -> net_parse v (chars s) strict = Err e x ->
  exists p rest i, s = p ++ rest /\ ~ In 47 p /\ addr_parse v (chars (firstn (Z.to_nat (max_string_len v)) p)) = Err e i /\
    ((x = 3 /\ v = V4 /\ dotted_mask_text p s) \/ (x = 0 /\ ~ (v = V4 /\ zlen p <= max_string_len v /\ dotted_mask_text p s))).
Proof. apply net_number. Qed.
Lemma network_refuted : exists a s s' i, s = a ++ str "/8" /\ s' = a ++ str "/255.0.0.0" /\ i = 2 /\
  addr_parse V4 (chars a) = Err octet_exceeded_255 i /\
  net_parse V4 (chars s) true = Err octet_exceeded_255 0 /\ net_parse V4 (chars s') true = Err octet_exceeded_255 3 /\
  net_parse_x TChar V4 s true = Ret (inr (mk_exn XParse octet_exceeded_255 (str "octet 0 of address 10.0.300.0/8 exceeded 255"))) /\
  net_parse_x TChar V4 s' true = Ret (inr (mk_exn XParse octet_exceeded_255 (str "octet 3 of address 10.0.300.0/255.0.0.0 exceeded 255"))).
Proof.
  exists (str "10.0.300.0"), (str "10.0.300.0/8"), (str "10.0.300.0/255.0.0.0"), 2. repeat split; vm_compute; reflexivity.
Qed.
