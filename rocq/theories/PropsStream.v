(** Property theorems C58, C59 and C60: text in every character type and stream
    operators.  [obj] stands for any of the classes; [obj_string], [obj_text],
    [obj_parse], [obj_put] and [obj_get] name to_string, to_wstring and its
    siblings, parse, operator<< and operator>> of each class (SpecStream). *)
From Coq Require Import String.
From Verif Require Import Base UnicodeModel V6Model AddressModel NetworkModel AnyModel Uint128Model SpecInt SpecText SpecStr SpecOrder SpecNet SpecAny
  NetWitness Uint128Text StreamModel SpecStream StreamProofs StreamProofs2 StreamProofs3 StreamProofs4 StreamWitness.

(** In every character type the text has the units of to_string and reads back,
    in every format and strictness.  Missing: scope ids with characters outside
    ASCII in types other than char. *)
Theorem C58_text_partial : forall T o fmt strict, wf_obj o -> readable T o ->
  exists s, obj_string o fmt = Ret s /\ obj_text T o fmt = Ret s /\ obj_parse T (kind_of o) strict s = Ret o.
Proof. exact obj_round_trip. Qed.
Print Assumptions C58_text_partial.
(** Outside char the text reads back exactly when the scope id is ASCII. *)
Theorem C58_text_iff : forall T o fmt strict, wf_obj o -> T <> TChar ->
  exists s, obj_text T o fmt = Ret s /\ Forall (unit_ok T) s /\ (obj_parse T (kind_of o) strict s = Ret o <-> Forall is_ascii (scope_of o)).
Proof. exact text_reads_iff. Qed.
Print Assumptions C58_text_iff.
(** No text of another type than char gives a scope id outside ASCII. *)
Theorem C58_scope_ascii : forall T k strict s o, T <> TChar -> Forall (unit_ok T) s -> obj_parse T k strict s = Ret o -> kind_of o = k /\ Forall is_ascii (scope_of o).
Proof. exact text_scope_ascii. Qed.
Print Assumptions C58_scope_ascii.
(** A scope id of two char above 127: the UTF-16 text is refused, the UTF-8 text
    is read as a different address. *)
Theorem C58_text_refuted : exists a b s8 s16 e x, wf_addr V6 a /\ wf_addr V6 b /\ a <> b /\
  addr_to_text TChar8 V6 a compressed = Ret s8 /\ addr_parse_text TChar8 V6 s8 = Ret b /\
  addr_to_text TChar16 V6 a compressed = Ret s16 /\ addr_parse_text TChar16 V6 s16 = Err e x.
Proof. exact text_misread. Qed.
Print Assumptions C58_text_refuted.
Example C58_text_ex : wf_obj (OAnyNet (mk_an V6 (net_at V6 "fe80::%eth0/64"))) /\
  readable TChar16 (OAnyNet (mk_an V6 (net_at V6 "fe80::%eth0/64"))) /\
  obj_text TChar16 (OAnyNet (mk_an V6 (net_at V6 "fe80::%eth0/64"))) compressed = Ret (str "fe80::%eth0/64") /\
  obj_parse TChar16 KAnyNet true (str "fe80::%eth0/64") = Ret (OAnyNet (mk_an V6 (net_at V6 "fe80::%eth0/64"))) /\
  obj_text TChar32 (OAddr V6 (addr_at V6 "1::2")) full = Ret (str "0001:0000:0000:0000:0000:0000:0000:0002").
Proof.
  split; [apply net_at_wf; reflexivity|]. split; [right; apply ascii_by; vm_compute; reflexivity|].
  split; [vm_compute; reflexivity|]. split; vm_compute; reflexivity.
Qed.
(** The same for numbers: the canonical numeral, and it reads back. *)
Theorem C58_number : forall T f a, wf128 a -> exists s, u128_to_string f a = Ret s /\ u128_to_text T f a = Ret s /\ numeral (ufmt_radix f) s (to_Z a) /\
  Forall (fun c => is_ascii c /\ ~ blank c) s /\ s <> [] /\ u128_from_text T f s = Ret (Some a).
Proof. exact num_text_ok. Qed.
Print Assumptions C58_number.
Example C58_number_ex : wf128 (mk128 1 2) /\ u128_to_text TWchar UHex (mk128 1 2) = Ret (str "10000000000000002") /\
  u128_from_text TWchar UHex (str "10000000000000002") = Ret (Some (mk128 1 2)).
Proof. split; [unfold wf128; cbn; lia|]. split; vm_compute; reflexivity. Qed.
(** operator<<: the text in the format asked for, in upper case up to the scope id
    if asked for, padded; the width and the manipulator are used up. *)
Theorem C59_insert : forall T o os f, wf_obj o -> o_fail os = false -> wanted (o_fmt os) f ->
  exists s s' out, obj_string o f = Ret s /\ cased (o_upper os) s s' /\ padded (o_width os) (o_left os) (o_fill os) (map (conv T) s') out /\
    obj_put T o os = Ret (mk_os (o_out os ++ out) false (o_upper os) (o_left os) (o_hex os) (o_oct os) 0 (o_fill os) 0).
Proof. exact put_ok. Qed.
Print Assumptions C59_insert.
(** A stream that already failed gets no text, yet the manipulator is used up. *)
Theorem C59_insert_failed : forall T o os f, wf_obj o -> o_fail os = true -> wanted (o_fmt os) f -> obj_put T o os = Ret (o_set_fmt os 0).
Proof. exact put_failed. Qed.
Print Assumptions C59_insert_failed.
Theorem C59_manipulator : forall f os, wanted (o_fmt (manip f os)) f.
Proof. exact manip_wanted. Qed.
Print Assumptions C59_manipulator.
(** The requested text is determined. *)
Theorem C59_cased_unique : forall up s a b, cased up s a -> cased up s b -> a = b.
Proof. exact cased_unique. Qed.
Print Assumptions C59_cased_unique.
Example C59_insert_ex :
  obj_put TChar (OAddr V6 (addr_at V6 "2001:db8::abcd%eth0")) (mk_os (str "=") false true true false false 24 42 3)
    = Ret (mk_os (str "=2001:DB8::ABCD%eth0*****") false true true false false 0 42 0) /\
  obj_put TWchar (ONet V4 (net_at V4 "10.0.0.0/8")) (mk_os [] false false false false false 12 32 0)
    = Ret (mk_os (str "  10.0.0.0/8") false false false false false 0 32 0) /\
  wanted 3 compressed /\ wanted 1 full /\
  obj_put TChar (OAddr V6 (addr_at V6 "::1")) (manip full (mk_os [] true false false false false 0 32 0)) = Ret (mk_os [] true false false false false 0 32 0).
Proof.
  split; [vm_compute; reflexivity|]. split; [vm_compute; reflexivity|]. split; [right; right; right; auto|]. split; [right; left; auto|]. vm_compute. reflexivity.
Qed.
(** A sequence of insertions: a manipulator governs the next insertion only. *)
Theorem C59_insert_all : forall T, forall l os, Forall (fun x => wf_obj (snd x)) l -> o_fail os = false -> o_width os = 0 -> o_fmt os = 0 ->
  exists txt, words T (o_upper os) l txt /\
    put_all T l os = Ret (mk_os (o_out os ++ txt) false (o_upper os) (o_left os) (o_hex os) (o_oct os) 0 (o_fill os) 0).
Proof. exact put_all_ok. Qed.
Print Assumptions C59_insert_all.
Example C59_insert_all_ex : words TChar false [(Some full, OAddr V6 (addr_at V6 "::1")); (None, OAddr V6 (addr_at V6 "::1"))]
    (str "0000:0000:0000:0000:0000:0000:0000:0001 ::1 ") /\
  rmap o_out (put_all TChar [(Some full, OAddr V6 (addr_at V6 "::1")); (None, OAddr V6 (addr_at V6 "::1"))] (new_os false))
    = Ret (str "0000:0000:0000:0000:0000:0000:0000:0001 ::1 ").
Proof.
  split; [|vm_compute; reflexivity].
  apply (words_cons TChar false (Some full) (OAddr V6 (addr_at V6 "::1")) _ (str "0000:0000:0000:0000:0000:0000:0000:0001") (str "0000:0000:0000:0000:0000:0000:0000:0001") (str "::1 "));
    [vm_compute; reflexivity|reflexivity|].
  apply (words_cons TChar false None (OAddr V6 (addr_at V6 "::1")) [] (str "::1") (str "::1") []); [vm_compute; reflexivity|reflexivity|constructor].
Qed.
(** operator>>: takes one word, parses it (networks strictly unless the
    manipulator non_strict came before), and on an error stores the default
    object and sets failbit. *)
Theorem C59_extract : forall T k i w i', took (strictly k i) w i' -> obj_get T k i = got k i' (obj_parse T k (i_strict i =? 0) w).
Proof. exact get_ok. Qed.
Print Assumptions C59_extract.
(** The word is determined. *)
Theorem C59_word_unique : forall i w i' w2 i2, took i w i' -> took i w2 i2 -> w = w2 /\ i' = i2.
Proof. exact took_unique. Qed.
Print Assumptions C59_word_unique.
Theorem C59_word_exists : forall T k i, exists w i', took (strictly k i) w i' /\ obj_get T k i = got k i' (obj_parse T k (i_strict i =? 0) w).
Proof. exact get_exists. Qed.
Print Assumptions C59_word_exists.
(** Nothing left to read, or a stream that failed before: the variable becomes
    the default object. *)
Theorem C59_nothing : forall T k i, i_eof i = true \/ i_fail i = true \/ (i_skipws i = true /\ Forall blank (i_in i)) ->
  exists i', obj_get T k i = Ret (default_of k, i') /\ i_fail i' = true.
Proof. exact get_nothing. Qed.
Print Assumptions C59_nothing.
(** The manipulators strict and non_strict govern the next network extracted, and
    only that one, whatever was set before. *)
Theorem C59_strictness : forall T k i w i', is_net k = true -> took (i_set_strict i 0) w i' ->
  obj_get T k (manip_strict i) = got k i' (obj_parse T k true w) /\ obj_get T k (manip_non_strict i) = got k i' (obj_parse T k false w) /\ i_strict i' = 0.
Proof. exact strict_get. Qed.
Print Assumptions C59_strictness.
Example C59_strictness_ex : let i := manip_non_strict (new_is (str "10.0.0.1/8 10.0.0.2/8")) in
  took (i_set_strict i 0) (str "10.0.0.1/8") (mk_is (str " 10.0.0.2/8") false false true false false 0 0) /\
  obj_get TChar (KNet V4) (manip_strict i) = Ret (ONet V4 (net_default V4), mk_is (str " 10.0.0.2/8") false true true false false 0 0) /\
  obj_get TChar (KNet V4) (manip_non_strict i) = Ret (ONet V4 (net_at V4 "10.0.0.0/8"), mk_is (str " 10.0.0.2/8") false false true false false 0 0).
Proof. cbv zeta. split; [apply read_took; vm_compute; reflexivity|]. split; vm_compute; reflexivity. Qed.

Example C59_extract_ex :
  took (new_is (str "  10.0.0.1/8 x")) (str "10.0.0.1/8") (mk_is (str " x") false false true false false 0 0) /\
  obj_get TChar (KNet V4) (new_is (str "  10.0.0.1/8 x")) = Ret (ONet V4 (net_default V4), mk_is (str " x") false true true false false 0 0) /\
  obj_get TChar (KNet V4) (manip_non_strict (new_is (str "10.0.0.1/8"))) = Ret (ONet V4 (net_at V4 "10.0.0.0/8"), mk_is [] true false true false false 0 0) /\
  obj_get TChar16 KAny (mk_is (str "1.2.3.45") false false true false false 7 0) = Ret (OAny (mk_aa V4 (addr_at V4 "1.2.3.4")), mk_is (str "5") false false true false false 0 0).
Proof.
  split; [apply read_took; vm_compute; reflexivity|]. split; [vm_compute; reflexivity|]. split; vm_compute; reflexivity.
Qed.
(** Objects of any classes, written one after the other in any formats, lower or
    upper case, and read back in the same order. *)
Theorem C59_round_trip : forall T up l, Forall (fun x => wf_obj (snd x) /\ readable T (snd x)) l ->
  exists os i, put_all T l (new_os up) = Ret os /\ o_fail os = false /\ words T up l (o_out os) /\
    get_all T (map (fun x => kind_of (snd x)) l) (new_is (o_out os)) = Ret (map snd l, i) /\ i_fail i = false.
Proof. exact stream_round_trip. Qed.
Print Assumptions C59_round_trip.
Example C59_round_trip_ex : let l := [(Some full, OAddr V6 (addr_at V6 "fe80::1%eth0")); (None, ONet V4 (net_at V4 "10.0.0.0/8"));
    (Some compact, OAny (mk_aa V6 (addr_at V6 "::ab")))] in
  Forall (fun x => wf_obj (snd x) /\ readable TChar (snd x)) l /\
  rmap o_out (put_all TChar l (new_os true)) = Ret (str "FE80:0000:0000:0000:0000:0000:0000:0001%eth0 10.0.0.0/8 0:0:0:0:0:0:0:AB ").
Proof.
  cbv zeta. split; [|vm_compute; reflexivity].
  constructor; [split; [apply addr_at_wf; reflexivity|left; reflexivity]|].
  constructor; [split; [apply net_at_wf; reflexivity|left; reflexivity]|].
  constructor; [split; [apply addr_at_wf; reflexivity|left; reflexivity]|constructor].
Qed.
(** operator<< of a number: the canonical numeral in the radix of the stream. *)
Theorem C60_insert : forall T a os, wf128 a -> o_fail os = false ->
  exists s out, numeral (radix_of (o_hex os) (o_oct os)) s (to_Z a) /\ padded (o_width os) (o_left os) (o_fill os) (if o_upper os then map upper s else s) out /\
    u128_put T a os = Ret (mk_os (o_out os ++ out) false (o_upper os) (o_left os) (o_hex os) (o_oct os) 0 (o_fill os) (o_fmt os)).
Proof. exact num_put_ok. Qed.
Print Assumptions C60_insert.
Theorem C60_insert_failed : forall T a os, wf128 a -> o_fail os = true -> u128_put T a os = Ret os.
Proof. exact num_put_failed. Qed.
Print Assumptions C60_insert_failed.
Example C60_insert_ex : u128_put TChar (mk128 1 171) (mk_os [] false true false true false 20 48 7)
    = Ret (mk_os (str "000100000000000000AB") false true false true false 0 48 7) /\
  u128_put TChar (mk128 0 171) (mk_os [] false true false false true 0 48 0) = Ret (mk_os (str "253") false true false false true 0 48 0).
Proof. split; vm_compute; reflexivity. Qed.
(** operator>> of a number, with what a word reads as. *)
Theorem C60_extract : forall T value i w i', took i w i' ->
  u128_get T value i = match u128_from_text T (base_of (i_hex i) (i_oct i)) w with
                       | Ret (Some x) => Ret (x, i') | Ret None => Ret (value, i_set_fail i') | Err e x => Err e x | UB u => UB u end.
Proof. exact num_get_ok. Qed.
Print Assumptions C60_extract.
Theorem C60_word : forall T f w, Forall is_ascii w -> Forall (fun c => c <> 0) w ->
  (exists ds, Forall2 (digit_read f) w ds /\ u128_from_text T f w = Ret (Some (of_Z (horner (ufmt_radix f) 0 ds)))) \/
  ((forall ds, ~ Forall2 (digit_read f) w ds) /\ u128_from_text T f w = Ret None).
Proof. exact num_word. Qed.
Print Assumptions C60_word.
(** A word that is not a number leaves the variable unchanged and sets failbit.
    Missing: no word at all (next theorem). *)
Theorem C60_bad_word_partial : forall T value i w i', took i w i' -> Forall is_ascii w -> Forall (fun c => c <> 0) w ->
  (forall ds, ~ Forall2 (digit_read (base_of (i_hex i) (i_oct i))) w ds) -> u128_get T value i = Ret (value, i_set_fail i').
Proof. exact num_bad_word. Qed.
Print Assumptions C60_bad_word_partial.
(** With nothing left to read the extraction fails, and overwrites the variable. *)
Theorem C60_nothing : forall T value i, i_eof i = true \/ i_fail i = true \/ (i_skipws i = true /\ Forall blank (i_in i)) ->
  exists i', u128_get T value i = Ret (mk128 0 0, i') /\ i_fail i' = true.
Proof. exact num_nothing. Qed.
Print Assumptions C60_nothing.
Theorem C60_unchanged_refuted : exists T value i x i', u128_get T value i = Ret (x, i') /\ i_fail i' = true /\ x <> value.
Proof. exact num_overwritten. Qed.
Print Assumptions C60_unchanged_refuted.
Example C60_extract_ex : u128_get TChar (mk128 0 7) (new_is (str "12x 5")) = Ret (mk128 0 7, mk_is (str " 5") false true true false false 0 0) /\
  u128_get TChar (mk128 0 7) (new_is (str " 12 5")) = Ret (mk128 0 12, mk_is (str " 5") false false true false false 0 0) /\
  u128_get TChar (mk128 0 7) (new_is (str "  ")) = Ret (mk128 0 0, mk_is [] true true true false false 0 0).
Proof. split; [vm_compute; reflexivity|]. split; vm_compute; reflexivity. Qed.
Theorem C60_round_trip : forall T up hex oct a value rest, wf128 a -> rest = [] \/ (exists c r, rest = c :: r /\ blank c) ->
  exists os i, u128_put T a (mk_os [] false up false hex oct 0 32 0) = Ret os /\ o_fail os = false /\
    u128_get T value (mk_is (o_out os ++ rest) false false true hex oct 0 0) = Ret (a, i) /\ i_fail i = false /\ i_in i = rest.
Proof. exact num_stream_round_trip. Qed.
Print Assumptions C60_round_trip.
Example C60_round_trip_ex : wf128 (mk128 (2 ^ 64 - 1) 0) /\
  rmap fst (u128_get TChar8 (mk128 0 0) (mk_is (str "FFFFFFFFFFFFFFFF0000000000000000 1") false false true true false 0 0)) = Ret (mk128 (2 ^ 64 - 1) 0).
Proof. split; [unfold wf128; cbn; lia|vm_compute; reflexivity]. Qed.
