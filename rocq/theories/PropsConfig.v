(** Property theorems C68: the IPv6 text functions under every setting of the
    macros IPADDRESS_NO_IPV6_SCOPE, IPADDRESS_IPV6_SCOPE_MAX_LENGTH and
    IPADDRESS_SCOPE_ID_SUPPORT_SPACES.  SpecConfig says what a scope id and an
    accepted text are. *)
From Coq Require Import String.
From Verif Require Import Base UnicodeModel FixedStringModel V4Model V6Model SpecText SpecV4 SpecV6 SpecAddr SpecStr SpecOrder AddressModel NetText NetWitness SpecLoose ConfigModel SpecConfig ConfigProofs.

(** The maximal lengths the macros can give. *)
Theorem C68_settings : (forall b x, 0 <= config_max b x <= 64) /\ (forall n, 0 <= n <= 64 -> config_max false (Some n) = n) /\
  (forall n, n < 0 -> config_max false (Some n) = 0) /\ (forall n, 64 < n -> config_max false (Some n) = 64) /\
  (forall x, config_max true x = 0) /\ config_max false None = 16.
Proof. exact c_values. Qed.
Print Assumptions C68_settings.
Example C68_settings_ex : config_max false (Some 100) = 64 /\ config_max false (Some (-1)) = 0 /\ config_max false (Some 4) = 4.
Proof. repeat split. Qed.

(** The functions of the default setting are those of every other theorem. *)
Theorem C68_default : (forall le ts, v6_from_string_c default_config le ts = v6_from_string le ts) /\
  (forall bs t fmt, v6_to_string_c default_config bs t fmt = v6_to_string bs t fmt) /\
  (forall old code n ts, v6_set_scope_c default_config old code n ts =
     match v6_set_scope n ts with Ret t => Ret (t, no_error) | Err e _ => Ret (old, e) | UB u => UB u end).
Proof. exact c_default. Qed.
Print Assumptions C68_default.
Example C68_default_ex : v6_from_string_c default_config true (chars (str "fe80::1%eth0")) = Ret (group_bytes [65152; 0; 0; 0; 0; 0; 0; 1], str "eth0").
Proof. vm_compute. reflexivity. Qed.

(** Exactly which texts are accepted, and what they are taken for. *)
Theorem C68_parse_exact : forall g s b t, 0 <= c_max g <= 64 ->
  v6_from_string_c g true (chars s) = Ret (b, t) <-> exists gs, v6_loose_for (c_max g) (c_spaces g) s gs t /\ b = group_bytes gs.
Proof. exact c_exact. Qed.
Print Assumptions C68_parse_exact.
Theorem C68_parse_defined : forall g ts, 0 <= c_max g <= 64 -> is_defined (v6_from_string_c g true ts).
Proof. exact c_defined. Qed.
Print Assumptions C68_parse_defined.
(** Raising the limit or permitting spaces never loses or changes an address. *)
Theorem C68_parse_monotone : forall g g' ts x, 0 <= c_max g <= 64 -> 0 <= c_max g' <= 64 -> c_max g <= c_max g' -> (c_spaces g = true -> c_spaces g' = true) ->
  v6_from_string_c g true ts = Ret x -> v6_from_string_c g' true ts = Ret x.
Proof. exact c_monotone. Qed.
Print Assumptions C68_parse_monotone.
(** A parsed scope id respects the setting. *)
Theorem C68_parsed_scope : forall g s bs t, 0 <= c_max g <= 64 -> v6_from_string_c g true (chars s) = Ret (bs, t) -> scope_id_of (c_max g) (c_spaces g) t.
Proof. exact c_parsed. Qed.
Print Assumptions C68_parsed_scope.
Example C68_parse_ex :
  v6_from_string_c (mk_cfg 4 false) true (chars (str "::1%abcd")) = Ret (group_bytes [0; 0; 0; 0; 0; 0; 0; 1], str "abcd") /\
  v6_from_string_c (mk_cfg 4 false) true (chars (str "::1%abcde")) = Err scope_id_is_too_long 0 /\
  v6_from_string_c (mk_cfg 64 false) true (chars (str "::1%a cd")) = Err invalid_scope_id 0 /\
  v6_from_string_c (mk_cfg 4 true) true (chars (str "::1%a cd")) = Ret (group_bytes [0; 0; 0; 0; 0; 0; 0; 1], str "a cd") /\
  v6_from_string_c (mk_cfg 0 true) true (chars (str "::1%")) = Err invalid_scope_id 0.
Proof. do 4 (split; [vm_compute; reflexivity|]). vm_compute. reflexivity. Qed.

(** Without scope ids the unscoped texts are read as before, and no other is accepted. *)
Theorem C68_off : forall sp s b t, v6_from_string_c (mk_cfg 0 sp) true (chars s) = Ret (b, t) <->
  ~ In 37 s /\ v6_from_string true (chars s) = Ret (b, t).
Proof. exact c_off. Qed.
Print Assumptions C68_off.
Example C68_off_ex : ~ In 37 (str "1::2") /\ v6_from_string_c (mk_cfg 0 false) true (chars (str "1::2")) = Ret (group_bytes [1; 0; 0; 0; 0; 0; 0; 2], []).
Proof. split; [cbn; intuition discriminate|vm_compute; reflexivity]. Qed.

(** The texts, which fit the character buffer of 41 + maximal length + 1 units. *)
Theorem C68_text : forall g bs t fmt, 0 <= c_max g <= 64 -> bytes_ok V6 bs -> zlen t <= c_max g ->
  exists gs x, length gs = 8%nat /\ Forall is_group gs /\ bs = group_bytes gs /\ text_in fmt gs x /\
    v6_to_string_c g bs t fmt = Ret (x ++ scope_suffix t) /\ zlen (x ++ scope_suffix t) <= 41 + c_max g.
Proof. exact c_text. Qed.
Print Assumptions C68_text.
(** Every address with a scope id the setting allows is read back from its text. *)
Theorem C68_round_trip : forall g bs t fmt, 0 <= c_max g <= 64 -> bytes_ok V6 bs -> scope_id_of (c_max g) (c_spaces g) t ->
  exists s, v6_to_string_c g bs t fmt = Ret s /\ v6_from_string_c g true (chars s) = Ret (bs, t).
Proof. exact c_round_trip. Qed.
Print Assumptions C68_round_trip.
Example C68_round_trip_ex : scope_id_of 20 true (str "a b") /\
  v6_to_string_c (mk_cfg 20 true) (group_bytes [1; 0; 0; 0; 0; 0; 0; 2]) (str "a b") compressed = Ret (str "1::2%a b") /\
  v6_from_string_c (mk_cfg 20 true) true (chars (str "1::2%a b")) = Ret (group_bytes [1; 0; 0; 0; 0; 0; 0; 2], str "a b") /\
  (exists e x, v6_from_string_c (mk_cfg 20 false) true (chars (str "1::2%a b")) = Err e x).
Proof.
  split; [split; [vm_compute; discriminate|split; [cbn; intuition discriminate|repeat (constructor; [split; [vm_compute; discriminate|split; [vm_compute; discriminate|discriminate]]|]); constructor]]|].
  do 2 (split; [vm_compute; reflexivity|]). vm_compute. eauto.
Qed.

(** The setter: what it stores. *)
Theorem C68_set_exact : forall g old code s t, 0 <= c_max g <= 64 -> 0 < c_max g ->
  (v6_set_scope_c g old code (zlen s) (chars s) = Ret (t, no_error) <->
   zlen s <= c_max g /\ Forall (scope_char_of (c_spaces g)) s /\ before_nul s t).
Proof. exact c_set_ok. Qed.
Print Assumptions C68_set_exact.
(** And what it refuses, leaving the scope id as it was. *)
Theorem C68_set_refused : forall g old code s, 0 <= c_max g <= 64 -> 0 < c_max g ->
  (v6_set_scope_c g old code (zlen s) (chars s) = Ret (old, scope_id_is_too_long) <-> c_max g < zlen s) /\
  (v6_set_scope_c g old code (zlen s) (chars s) = Ret (old, invalid_scope_id) <->
   zlen s <= c_max g /\ ~ Forall (scope_char_of (c_spaces g)) s).
Proof. exact c_set_fail. Qed.
Print Assumptions C68_set_refused.
(** Without scope ids it does nothing, not even to the error code. *)
Theorem C68_set_off : forall spaces old code n ts, v6_set_scope_c (mk_cfg 0 spaces) old code n ts = Ret (old, code).
Proof. exact c_set_off. Qed.
Print Assumptions C68_set_off.
Example C68_set_ex :
  v6_set_scope_c (mk_cfg 3 false) (str "x") no_error (zlen (str "abc")) (chars (str "abc")) = Ret (str "abc", no_error) /\
  v6_set_scope_c (mk_cfg 3 false) (str "x") no_error (zlen (str "abcd")) (chars (str "abcd")) = Ret (str "x", scope_id_is_too_long) /\
  v6_set_scope_c (mk_cfg 3 false) (str "x") no_error (zlen (str "a c")) (chars (str "a c")) = Ret (str "x", invalid_scope_id) /\
  v6_set_scope_c (mk_cfg 3 true) (str "x") no_error (zlen (str "a c")) (chars (str "a c")) = Ret (str "a c", no_error).
Proof. do 3 (split; [vm_compute; reflexivity|]). vm_compute. reflexivity. Qed.

