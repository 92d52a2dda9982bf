(** Property theorems C13, C14, C26, C28: the complete languages of the IPv6,
    scope id, mask and network parsers, for all texts: characters after a NUL,
    texts longer than the buffers and prefix numbers beyond 2^64 included.  The
    languages are defined in SpecLoose. *)
From Coq Require Import String.
From Verif Require Import Base UnicodeModel FixedStringModel V4Model V6Model SpecText SpecV4 SpecV6 SpecAddr SpecStr SpecOrder AddressModel NetworkModel SpecNet NetText NetWitness SpecLoose LooseProofs.

(** The IPv6 parser: exactly which texts it accepts and what it takes them for. *)
Theorem C13_v6_exact : forall s b t, v6_from_string true (chars s) = Ret (b, t) <-> exists gs, v6_loose_scoped s gs t /\ b = group_bytes gs.
Proof. exact v6_exact. Qed.
Print Assumptions C13_v6_exact.
Example C13_v6_exact_ex : (* "1::2", NUL, "z%a", NUL, "b" is 1::2%a *)
  v6_from_string true (chars (str "1::2" ++ 0 :: str "z%a" ++ 0 :: str "b")) = Ret (group_bytes [1; 0; 0; 0; 0; 0; 0; 2], str "a") /\
  (exists gs, v6_loose_scoped (str "1::2" ++ 0 :: str "z%a" ++ 0 :: str "b") gs (str "a")) /\
  (* but the hidden part counts for the length *)
  (exists e x, v6_from_string true (chars (str "1::2" ++ 0 :: str "zzzz")) = Err e x).
Proof.
  assert (R : v6_from_string true (chars (str "1::2" ++ 0 :: str "z%a" ++ 0 :: str "b")) = Ret (group_bytes [1; 0; 0; 0; 0; 0; 0; 2], str "a")) by (vm_compute; reflexivity).
  split; [exact R|]. split; [|vm_compute; eauto]. apply v6_exact in R as (gs & H & _). exists gs. exact H.
Qed.

(** set_scope_id: exactly which texts it accepts and what it stores. *)
Theorem C14_set_exact : forall s t, v6_set_scope (zlen s) (chars s) = Ret t <-> zlen s <= 16 /\ Forall scope_char s /\ before_nul s t.
Proof. exact scope_exact. Qed.
Print Assumptions C14_set_exact.
Example C14_set_exact_ex : let s := str "eth0" ++ 0 :: str "xyz" in v6_set_scope (zlen s) (chars s) = Ret (str "eth0") /\ before_nul s (str "eth0").
Proof. cbv zeta. split; [vm_compute; reflexivity|]. split; [cbn; intuition discriminate|right; exists (str "xyz"); reflexivity]. Qed.

(** Masks: exactly which texts are accepted, the prefix length they stand for and
    the mask address that is returned. *)
Theorem C26_masks_exact : forall v m p, m <> [] ->
  ((exists a, parse_netmask v (chars m) = Ret (a, p)) <-> loose_mask v m p) /\
  (forall a, parse_netmask v (chars m) = Ret (a, p) -> wf_addr v a /\ a_scope a = [] /\ val a = 2 ^ width v - 2 ^ (width v - p)).
Proof. exact mask_exact. Qed.
Print Assumptions C26_masks_exact.
(** The only texts with undefined behaviour are the spellings of 0.0.0.0. *)
Theorem C26_undefined_exact : forall v m u, parse_netmask v (chars m) = UB u <-> u = BadShift /\ v = V4 /\ dotted_quad m [0; 0; 0; 0].
Proof. exact mask_undefined_exact. Qed.
Print Assumptions C26_undefined_exact.
Example C26_exact_ex : (* 2^64 + 8 *)
  str "18446744073709551624" <> [] /\ loose_mask V6 (str "18446744073709551624") 8 /\
  (exists a, parse_netmask V6 (chars (str "18446744073709551624")) = Ret (a, 8) /\ val a = 255 * 2 ^ 120) /\
  parse_netmask V4 (chars (str "0.0.0.0")) = UB BadShift /\ (exists e x, parse_netmask V6 (chars (str "0.0.0.0")) = Err e x).
Proof.
  split; [discriminate|].
  assert (E : exists a, parse_netmask V6 (chars (str "18446744073709551624")) = Ret (a, 8) /\ val a = 255 * 2 ^ 120).
  { eexists. split; [vm_compute; reflexivity|vm_compute; reflexivity]. }
  split; [apply mask_exact; [discriminate|destruct E as (a & E & _); exists a; exact E]|]. split; [exact E|]. split; [vm_compute; reflexivity|]. vm_compute. eauto.
Qed.

(** Networks: exactly which texts are accepted. *)
Theorem C28_exact : forall v s strict n, Forall is_char s ->
  (net_parse v (chars s) strict = Ret n <->
   exists t p a, net_loose v s t p /\ addr_parse v (chars t) = Ret a /\ from_address v a p strict = Ret n).
Proof. exact net_exact. Qed.
Print Assumptions C28_exact.
Theorem C28_undefined_exact : forall v s strict u, Forall is_char s ->
  (net_parse v (chars s) strict = UB u <->
   u = BadShift /\ v = V4 /\ exists r m, s = r ++ 47 :: m /\ ~ In 47 r /\ zlen r <= 15 /\ dotted_quad m [0; 0; 0; 0]).
Proof. exact net_undefined_exact. Qed.
Print Assumptions C28_undefined_exact.
Example C28_exact_ex :
  (* too long: the first 15 characters; a number modulo 2^64; nothing counts after a NUL before '/' *)
  Forall is_char (str "10.0.0.0/18446744073709551624") /\
  net_parse V4 (chars (str "255.255.255.2554")) true = Ret (net_at V4 "255.255.255.255/32") /\
  net_parse V4 (chars (str "10.0.0.0/18446744073709551624")) true = Ret (net_at V4 "10.0.0.0/8") /\
  net_parse V6 (chars (str "1::" ++ 0 :: str "xyz/16")) true = Ret (net_at V6 "1::/16") /\
  net_parse V4 (chars (str "x/0.0.0.0")) true = UB BadShift.
Proof. split; [repeat (constructor; [split; vm_compute; congruence|]); constructor|]. do 3 (split; [vm_compute; reflexivity|]). vm_compute. reflexivity. Qed.

