(** Property theorems C89: text in every character type and the stream operators in
    builds with any combination of the macros IPADDRESS_NO_IPV6_SCOPE,
    IPADDRESS_IPV6_SCOPE_MAX_LENGTH, IPADDRESS_SCOPE_ID_SUPPORT_SPACES ([cfg_ok]:
    C68_settings), IPADDRESS_CHAR_IS_UTF8 and IPADDRESS_NO_EXCEPTIONS.  What a text is
    read as in a build say C86, C68 and C81; [took] and [cased] determine what they
    describe (C59). *)
From Coq Require Import String.
From Verif Require Import Base UnicodeModel V4Model V6Model SpecAddr SpecStr SpecOrder AddressModel NetworkModel SpecNet AnyModel SpecAny NetWitness NetText
  ConfigModel SpecConfig ConfigProofs NetConfigModel SpecNetConfig NetConfigProofs3 StreamModel SpecStream LiteralModel MacroModel SpecMacro
  NetOpsConfigModel SpecNetOpsConfig AnyConfigModel SpecAnyConfig AnyConfigProofs SpecStreamBuild StreamBuildProofs.
Close Scope string_scope.

(** In the default build these are the functions of C58 and C59. *)
Theorem C89_default : (forall T o fmt, obj_text_c default_config T o fmt = obj_text T o fmt) /\ (forall T o os, obj_put_c default_config T o os = obj_put T o os) /\
  (forall T k i, obj_get_b default_build T k i = obj_get T k i).
Proof. exact stream_default. Qed.
Print Assumptions C89_default.
(** Text in every character type reads back. *)
Theorem C89_text : forall b T o fmt strict, cfg_ok (b_cfg b) -> obj_for (c_max (b_cfg b)) (c_spaces (b_cfg b)) o -> readable_in b T o ->
  exists s, obj_string_c (b_cfg b) o fmt = Ret s /\ obj_text_c (b_cfg b) T o fmt = Ret s /\ b_string_of b T (kind_of o) strict s = Ret o.
Proof. exact text_build. Qed.
Print Assumptions C89_text.
Example C89_text_ex : let b := mk_build (mk_cfg 20 true) true false in let o := OAnyNet (mk_an V6 (net_from (b_cfg b) (str "fe80::%a long scope id 20/64"))) in
  obj_for (c_max (b_cfg b)) (c_spaces (b_cfg b)) o /\ readable_in b TChar16 o /\ obj_text_c (b_cfg b) TChar16 o compressed = Ret (str "fe80::%a long scope id 20/64") /\
  b_string_of b TChar16 (kind_of o) true (str "fe80::%a long scope id 20/64") = Ret o.
Proof.
  assert (C : cfg_ok (mk_cfg 20 true)) by (unfold cfg_ok; cbn; lia). cbv zeta.
  destruct (net_from_ok _ (str "fe80::%a long scope id 20/64") C) as [_ A]; [vm_compute; reflexivity..|].
  split; [exact A|]. split; [right; vm_compute scope_of; repeat (apply Forall_cons; [unfold is_ascii; lia|]); apply Forall_nil|]. split; vm_compute; reflexivity.
Qed.

(** Insertion writes the text in the requested format and case, padded, and resets the format; on a failed stream it writes nothing. *)
Theorem C89_insert : forall g T o os f, cfg_ok g -> obj_for (c_max g) (c_spaces g) o -> o_fail os = false -> wanted (o_fmt os) f ->
  exists s s' out, obj_string_c g o f = Ret s /\ cased (o_upper os) s s' /\ SpecStream.padded (o_width os) (o_left os) (o_fill os) (map (conv T) s') out /\
    obj_put_c g T o os = Ret (mk_os (o_out os ++ out) false (o_upper os) (o_left os) (o_hex os) (o_oct os) 0 (o_fill os) 0).
Proof. exact put_ok_c. Qed.
Print Assumptions C89_insert.
Theorem C89_insert_failed : forall g T o os f, cfg_ok g -> obj_for (c_max g) (c_spaces g) o -> o_fail os = true -> wanted (o_fmt os) f -> obj_put_c g T o os = Ret (o_set_fmt os 0).
Proof. exact put_failed_c. Qed.
Print Assumptions C89_insert_failed.
(** Several objects. *)
Theorem C89_insert_all : forall g T, cfg_ok g -> forall l os, Forall (fun x => obj_for (c_max g) (c_spaces g) (snd x)) l -> o_fail os = false -> o_width os = 0 -> o_fmt os = 0 ->
  exists txt, words_c g T (o_upper os) l txt /\
    put_all_c g T l os = Ret (mk_os (o_out os ++ txt) false (o_upper os) (o_left os) (o_hex os) (o_oct os) 0 (o_fill os) 0).
Proof. exact put_all_c_ok. Qed.
Print Assumptions C89_insert_all.
(** Extraction takes the next word and reads it as parse does; an error makes the variable the default and sets failbit, in builds without exceptions too. *)
Theorem C89_extract : forall b T k i w i', took (strictly k i) w i' -> Forall (unit_ok T) (i_in i) -> obj_get_b b T k i = got k i' (b_string_of (throwing b) T k (i_strict i =? 0) w).
Proof. exact get_ok_c. Qed.
Print Assumptions C89_extract.
Theorem C89_extract_exists : forall b T k i, Forall (unit_ok T) (i_in i) -> exists w i', took (strictly k i) w i' /\ obj_get_b b T k i = got k i' (b_string_of (throwing b) T k (i_strict i =? 0) w).
Proof. exact get_exists_c. Qed.
Print Assumptions C89_extract_exists.
Theorem C89_quiet : forall b T k i, Forall (unit_ok T) (i_in i) -> obj_get_b (quietly b) T k i = obj_get_b (throwing b) T k i.
Proof. exact get_quiet. Qed.
Print Assumptions C89_quiet.
(** The manipulators strict and non_strict. *)
Theorem C89_strictness : forall b T k i w i', is_net k = true -> took (i_set_strict i 0) w i' -> Forall (unit_ok T) (i_in i) ->
  obj_get_b b T k (manip_strict i) = got k i' (b_string_of (throwing b) T k true w) /\ obj_get_b b T k (manip_non_strict i) = got k i' (b_string_of (throwing b) T k false w) /\ i_strict i' = 0.
Proof. exact strict_get_c. Qed.
Print Assumptions C89_strictness.
(** Nothing left to read. *)
Theorem C89_nothing : forall b T k i, cfg_ok (b_cfg b) -> i_eof i = true \/ i_fail i = true \/ (i_skipws i = true /\ Forall blank (i_in i)) ->
  exists i', obj_get_b b T k i = Ret (default_of k, i') /\ i_fail i' = true.
Proof. exact get_nothing_c. Qed.
Print Assumptions C89_nothing.
Example C89_extract_ex : let b := mk_build (mk_cfg 4 false) true false in
  (exists i, obj_get_b b TChar KAny (new_is (str " fe80::1%abcd x")) = Ret (OAny (mk_aa V6 (mk_addr [254; 128; 0; 0; 0; 0; 0; 0; 0; 0; 0; 0; 0; 0; 0; 1] (str "abcd"))), i) /\ i_in i = str " x" /\ i_fail i = false) /\
  (exists i, obj_get_b b TChar KAny (new_is (str " fe80::1%abcde x")) = Ret (default_of KAny, i) /\ i_in i = str " x" /\ i_fail i = true).
Proof. split; eexists; (split; [vm_compute; reflexivity|]); (split; [vm_compute; reflexivity|]); reflexivity. Qed.

(** Objects written one after the other, whether or not in upper case, are read back, if no scope id contains a blank (possible only with IPADDRESS_SCOPE_ID_SUPPORT_SPACES) ... *)
Theorem C89_round_trip_partial : forall b T up l, cfg_ok (b_cfg b) -> Forall (fun x => obj_for (c_max (b_cfg b)) (c_spaces (b_cfg b)) (snd x) /\ readable_in b T (snd x) /\ unbroken (snd x)) l ->
  exists os i, put_all_c (b_cfg b) T l (new_os up) = Ret os /\ o_fail os = false /\ words_c (b_cfg b) T up l (o_out os) /\
    get_all_b b T (map (fun x => kind_of (snd x)) l) (new_is (o_out os)) = Ret (map snd l, i) /\ i_fail i = false.
Proof. exact stream_build. Qed.
Print Assumptions C89_round_trip_partial.
(** ... else not: the word ends at the blank, and what is read is another object without any failure. *)
Theorem C89_round_trip_refuted : exists b o os o' i, cfg_ok (b_cfg b) /\ obj_for (c_max (b_cfg b)) (c_spaces (b_cfg b)) o /\ readable_in b TChar o /\
  obj_put_c (b_cfg b) TChar o (new_os false) = Ret os /\ o_fail os = false /\ obj_get_b b TChar (kind_of o) (new_is (o_out os)) = Ret (o', i) /\ i_fail i = false /\ o' <> o.
Proof. exact stream_spaces. Qed.
Print Assumptions C89_round_trip_refuted.
Example C89_round_trip_ex : let b := mk_build (mk_cfg 20 false) true false in let o := ONet V6 (net_from (b_cfg b) (str "fe80::%abcdefghijklmnopqrst/64")) in let a := OAny (mk_aa V4 (addr_at V4 "127.0.0.1")) in
  obj_for (c_max (b_cfg b)) (c_spaces (b_cfg b)) o /\ obj_for (c_max (b_cfg b)) (c_spaces (b_cfg b)) a /\ readable_in b TChar o /\ unbroken o /\
  exists os i, put_all_c (b_cfg b) TChar [(Some full, o); (None, a)] (new_os true) = Ret os /\ o_out os = str "FE80:0000:0000:0000:0000:0000:0000:0000%abcdefghijklmnopqrst/64 127.0.0.1 " /\
    get_all_b b TChar [KNet V6; KAny] (new_is (o_out os)) = Ret ([o; a], i).
Proof.
  assert (C : cfg_ok (mk_cfg 20 false)) by (unfold cfg_ok; cbn; lia). cbv zeta.
  destruct (net_from_ok _ (str "fe80::%abcdefghijklmnopqrst/64") C) as [_ A]; [vm_compute; reflexivity..|].
  split; [exact A|]. split; [apply addr_at_wf; vm_compute; reflexivity|].
  split; [right; vm_compute scope_of; repeat (apply Forall_cons; [unfold is_ascii; lia|]); apply Forall_nil|].
  split; [unfold unbroken; vm_compute scope_of; repeat (apply Forall_cons; [unfold blank; lia|]); apply Forall_nil|].
  do 2 eexists. split; [vm_compute; reflexivity|]. split; [vm_compute; reflexivity|]. vm_compute; reflexivity.
Qed.

