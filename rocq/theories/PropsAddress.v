(** Theorems about whole addresses: properties C14 (state), C15, C16, C55-C57.
    [wf_addr v a]: the address can exist; [val a]: its number; [addr_before]: the
    numeric order, then the lexicographic order of scope ids (SpecOrder).
    [sp] chooses the C++20 ([true]) or the older operator family. *)
From Verif Require Import Base FixedStringModel V6Model AddressModel SpecAddr SpecStr SpecV6 SpecOrder StrProofs AddressProofs.

(** ** C14: the scope id setter and the state of the address *)
Theorem C14_setter_state : forall a code s, wf_addr V6 a -> Forall is_char s ->
  exists a' e i, addr_set_scope a code (zlen s) (chars s) = Ret (a', e, i) /\ wf_addr V6 a' /\ a_bytes a' = a_bytes a /\
    (e = no_error <-> zlen s <= 16 /\ Forall scope_char s) /\
    (e <> no_error -> a' = a) /\
    (e = no_error -> v6_set_scope (zlen s) (chars s) = Ret (a_scope a')).
Proof. exact set_scope_state. Qed.
Print Assumptions C14_setter_state.
Example C14_setter_state_ex : (* "e%h" is refused and "1%b" stays; "eth0" is stored *)
  wf_addr V6 ex_a /\
  addr_set_scope ex_a no_error 3 (chars [101; 37; 104]) = Ret (ex_a, invalid_scope_id, 0) /\
  addr_set_scope ex_a invalid_scope_id 4 (chars [101; 116; 104; 48]) =
    Ret (mk_addr (a_bytes ex_a) [101; 116; 104; 48], no_error, 0).
Proof. split; [apply ex_ab_wf|]. split; reflexivity. Qed.

(** ** C15: addresses are totally ordered *)
Theorem C15_equality : forall v a b, wf_addr v a -> wf_addr v b ->
  exists r, addr_eqb v a b = Ret r /\ (r = true <-> a = b).
Proof. exact addr_eqb_ok. Qed.
Print Assumptions C15_equality.
Theorem C15_three_way : forall v a b, wf_addr v a -> wf_addr v b ->
  exists c, addr_cmp v a b = Ret c /\
    match c with Eq => a = b | Lt => addr_before a b | Gt => addr_before b a end.
Proof. exact addr_cmp_ok. Qed.
Print Assumptions C15_three_way.
Theorem C15_operators : forall v a b, wf_addr v a -> wf_addr v b ->
  exists lt gt le ge, op_lt true v a b = Ret lt /\ op_gt true v a b = Ret gt /\ op_le true v a b = Ret le /\ op_ge true v a b = Ret ge /\
    (lt = true <-> addr_before a b) /\ (gt = true <-> addr_before b a) /\
    (le = true <-> addr_before a b \/ a = b) /\ (ge = true <-> addr_before b a \/ a = b).
Proof. exact op_cpp20. Qed.
Print Assumptions C15_operators.
Theorem C15_irreflexive : forall a, ~ addr_before a a.
Proof. exact before_irrefl. Qed.
Print Assumptions C15_irreflexive.
Theorem C15_transitive : forall a b c, addr_before a b -> addr_before b c -> addr_before a c.
Proof. exact before_trans. Qed.
Print Assumptions C15_transitive.
Theorem C15_total : forall v a b, wf_addr v a -> wf_addr v b -> addr_before a b \/ a = b \/ addr_before b a.
Proof. exact before_total. Qed.
Print Assumptions C15_total.
(** The older operators agree with it whenever the scope ids are equal (always
    for IPv4) ... *)
Theorem C15_older_operators_partial : forall v a b, wf_addr v a -> wf_addr v b -> a_scope a = a_scope b ->
  op_lt false v a b = op_lt true v a b /\ op_gt false v a b = op_gt true v a b /\
  op_le false v a b = op_le true v a b /\ op_ge false v a b = op_ge true v a b.
Proof. exact op_cpp17. Qed.
Print Assumptions C15_older_operators_partial.
Theorem C15_older_operators_v4 : forall a b, wf_addr V4 a -> wf_addr V4 b ->
  op_lt false V4 a b = op_lt true V4 a b /\ op_gt false V4 a b = op_gt true V4 a b /\
  op_le false V4 a b = op_le true V4 a b /\ op_ge false V4 a b = op_ge true V4 a b.
Proof. exact (fun a b Ha Hb => op_cpp17 V4 a b Ha Hb (v4_scope a b Ha Hb)). Qed.
Print Assumptions C15_older_operators_v4.
(** ... but for IPv6 with different scope ids [a < b] and [b < a] can both hold
    ("::1%b" and "::2%a"). *)
Theorem C15_older_operators_refuted : exists a b, wf_addr V6 a /\ wf_addr V6 b /\
  addr_ltb V6 a b = Ret true /\ addr_ltb V6 b a = Ret true.
Proof. exact less_wrong. Qed.
Print Assumptions C15_older_operators_refuted.
Example C15_ex : (* ::1%b < ::2%a, ::1%b > ::1%a, 10.0.0.1 < 192.0.0.0 *)
  wf_addr V6 ex_a /\ wf_addr V6 ex_b /\ addr_cmp V6 ex_a ex_b = Ret Lt /\
  addr_cmp V6 ex_a (mk_addr (a_bytes ex_a) [97]) = Ret Gt /\ addr_cmp V6 ex_a ex_a = Ret Eq /\
  addr_cmp V4 (mk_addr [10; 0; 0; 1] []) (mk_addr [192; 0; 0; 0] []) = Ret Lt.
Proof. split; [apply ex_ab_wf|]. split; [apply ex_ab_wf|]. repeat split; reflexivity. Qed.

(** ** C16: equal addresses have equal hashes *)
Theorem C16_address : forall is64 v a b, wf_addr v a -> wf_addr v b -> addr_eqb v a b = Ret true ->
  exists h, addr_hash is64 v a = Ret h /\ addr_hash is64 v b = Ret h.
Proof. exact addr_hash_eq. Qed.
Print Assumptions C16_address.
Theorem C16_defined : forall is64 v a, wf_addr v a -> exists h, addr_hash is64 v a = Ret h.
Proof. exact addr_hash_defined. Qed.
Print Assumptions C16_defined.
Example C16_ex : wf_addr V6 ex_a /\ addr_eqb V6 ex_a (mk_addr (a_bytes ex_a) [98]) = Ret true /\
  addr_hash true V6 ex_a <> addr_hash true V6 ex_b.
Proof. split; [apply ex_ab_wf|]. split; [reflexivity|]. vm_compute. discriminate. Qed.

(** ** C55: from_bytes(pointer, count) *)
Theorem C55_from_bytes : forall v src count, 0 <= count <= zlen src ->
  from_bytes v src count =
    Ret (mk_addr (firstn (nbytes v) (firstn (Z.to_nat count) src ++ repeat 0 (nbytes v))) []).
Proof. exact from_bytes_ok. Qed.
Print Assumptions C55_from_bytes.
Theorem C55_well_formed : forall v src count, 0 <= count <= zlen src -> Forall is_byte src ->
  exists a, from_bytes v src count = Ret a /\ wf_addr v a.
Proof. exact from_bytes_wf. Qed.
Print Assumptions C55_well_formed.
Example C55_ex : from_bytes V4 [1; 2] 2 = Ret (mk_addr [1; 2; 0; 0] []) /\
  from_bytes V4 [1; 2; 3; 4; 5; 6] 6 = Ret (mk_addr [1; 2; 3; 4] []).
Proof. split; reflexivity. Qed.
Theorem C55_unspecified : forall v a, wf_addr v a -> (addr_unspecified a = true <-> val a = 0).
Proof. exact unspecified_ok. Qed.
Print Assumptions C55_unspecified.

(** ** C56: literals are parsed like strings *)
Theorem C56_literal : forall v s, ~ In 0 s ->
  addr_literal v s = if zlen s >? max_string_len v then Err string_is_too_long 0 else addr_parse v (chars s).
Proof. exact literal_ok. Qed.
Print Assumptions C56_literal.
Example C56_ex : addr_literal V4 [49; 46; 50; 46; 51; 46; 52] = Ret (mk_addr [1; 2; 3; 4] []).
Proof. reflexivity. Qed.

(** ** C57: swap exchanges two addresses *)
Theorem C57_swap : forall v a b, wf_addr v a -> wf_addr v b -> addr_swap a b = Ret (b, a).
Proof. exact addr_swap_ok. Qed.
Print Assumptions C57_swap.
Example C57_ex : addr_swap ex_a ex_b = Ret (ex_b, ex_a).
Proof. reflexivity. Qed.
