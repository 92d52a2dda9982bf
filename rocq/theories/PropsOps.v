(** Property theorems C62 and C63: operators of uint128_t with built-in integers,
    assignments, increments, swap, and std::numeric_limits.  [op_Z] and [rel_Z]
    are the operators on numbers, [changed s i x s'] says that exactly variable
    [i] changed, to [x] (SpecOps). *)
From Verif Require Import Base Uint128Model SpecInt Uint128OpsModel SpecOps Uint128Proofs OpsProofs.

(** The values of a type: 2^bits of them from 0 or symmetric to it. *)
Theorem C62_types : forall t, exists lo bits, In bits [1; 8; 16; 32; 64] /\ (lo = 0 \/ lo = - 2 ^ (bits - 1)) /\ forall x, in_type t x <-> lo <= x < lo + 2 ^ bits.
Proof. exact types_ok. Qed.
Print Assumptions C62_types.
(** Every built-in integer is converted modulo 2^128. *)
Theorem C62_convert : forall t x, in_type t x -> wf128 (u128_of_int t x) /\ to_Z (u128_of_int t x) = x mod 2 ^ 128.
Proof. exact of_int_ok. Qed.
Print Assumptions C62_convert.
(** integer op number, and number op integer. *)
Theorem C62_left : forall op t x b, in_type t x -> wf128 b -> exists r, u128_bin_l op t x b = Ret r /\ wf128 r /\ to_Z r = op_Z op (x mod 2 ^ 128) (to_Z b).
Proof. exact bin_l_ok. Qed.
Print Assumptions C62_left.
Theorem C62_right : forall op a t y, wf128 a -> in_type t y -> exists r, u128_bin_r op a t y = Ret r /\ wf128 r /\ to_Z r = op_Z op (to_Z a) (y mod 2 ^ 128).
Proof. exact bin_r_ok. Qed.
Print Assumptions C62_right.
(** Comparisons, in both operator families. *)
Theorem C62_compare_left : forall sp op t x b, in_type t x -> wf128 b -> (u128_rel_l sp op t x b = true <-> rel_Z op (x mod 2 ^ 128) (to_Z b)).
Proof. exact rel_l_ok. Qed.
Print Assumptions C62_compare_left.
Theorem C62_compare_right : forall sp op a t y, wf128 a -> in_type t y -> (u128_rel_r sp op a t y = true <-> rel_Z op (to_Z a) (y mod 2 ^ 128)).
Proof. exact rel_r_ok. Qed.
Print Assumptions C62_compare_right.
(** So integers that are not negative are compared as numbers; *)
Theorem C62_compare_numbers : forall sp op a t x, wf128 a -> in_type t x -> 0 <= x ->
  (u128_rel_r sp op a t x = true <-> rel_Z op (to_Z a) x) /\ (u128_rel_l sp op t x a = true <-> rel_Z op x (to_Z a)).
Proof. exact rel_numbers. Qed.
Print Assumptions C62_compare_numbers.
(** a negative one is not: it counts as 2^128 more. *)
Theorem C62_negative : exists a, wf128 a /\ u128_rel_l true CLt IInt (-1) a = false /\ u128_rel_l false CLt IInt (-1) a = false /\ u128_rel_r true CEq (mk128 (2 ^ 64 - 1) (2 ^ 64 - 1)) IInt (-1) = true /\ -1 < to_Z a.
Proof. exact rel_negative. Qed.
Print Assumptions C62_negative.
Theorem C62_logic : forall a b, wf128 a -> wf128 b -> u128_land a b = negb (to_Z a =? 0) && negb (to_Z b =? 0) /\ u128_lor a b = negb (to_Z a =? 0) || negb (to_Z b =? 0).
Proof. exact logic_ok. Qed.
Print Assumptions C62_logic.
Example C62_ex : in_type IChar (-3) /\ u128_bin_l OAdd IChar (-3) (mk128 0 5) = Ret (mk128 0 2) /\ u128_bin_r OSub (mk128 1 0) IUShort 1 = Ret (mk128 0 (2 ^ 64 - 1)) /\
  u128_bin_l ODiv IULLong (2 ^ 64 - 1) (mk128 0 10) = Ret (mk128 0 1844674407370955161) /\ u128_bin_l OMod IInt 7 (mk128 0 0) = Ret (mk128 0 7) /\
  u128_rel_l true CLt IInt 7 (mk128 1 0) = true /\ u128_rel_r false CGe (mk128 1 0) IBool 1 = true.
Proof. split; [cbn; lia|]. repeat split. Qed.
(** Compound assignment to variable [i] from variable [j], also when they are the same. *)
Theorem C62_assign : forall op s i j, wf_store s -> exists s', assign op s i j = Ret s' /\ changed s i (op_Z op (to_Z (s i)) (to_Z (s j))) s'.
Proof. exact assign_ok. Qed.
Print Assumptions C62_assign.
Theorem C62_assign_shl : forall s i n, wf_store s -> 0 <= n -> n <> 128 -> exists s', assign_shl s i n = Ret s' /\ changed s i ((to_Z (s i) * 2 ^ n) mod 2 ^ 128) s'.
Proof. exact assign_shl_ok. Qed.
Print Assumptions C62_assign_shl.
Theorem C62_assign_shr : forall s i n, wf_store s -> 0 <= n -> n <> 128 -> exists s', assign_shr s i n = Ret s' /\ changed s i (to_Z (s i) / 2 ^ n) s'.
Proof. exact assign_shr_ok. Qed.
Print Assumptions C62_assign_shr.
(** ++ and --, prefix (the new value) and postfix (the old one). *)
Theorem C62_increment : forall s i, wf_store s ->
  (changed s i ((to_Z (s i) + 1) mod 2 ^ 128) (snd (pre_inc s i)) /\ fst (pre_inc s i) = snd (pre_inc s i) i) /\
  (changed s i ((to_Z (s i) - 1) mod 2 ^ 128) (snd (pre_dec s i)) /\ fst (pre_dec s i) = snd (pre_dec s i) i) /\
  (changed s i ((to_Z (s i) + 1) mod 2 ^ 128) (snd (post_inc s i)) /\ fst (post_inc s i) = s i) /\
  (changed s i ((to_Z (s i) - 1) mod 2 ^ 128) (snd (post_dec s i)) /\ fst (post_dec s i) = s i).
Proof. exact inc_dec_ok. Qed.
Print Assumptions C62_increment.
(** swap, also of a variable with itself. *)
Theorem C62_swap : forall s i j, u128_swap s i j i = s j /\ u128_swap s i j j = s i /\ forall k, k <> i -> k <> j -> u128_swap s i j k = s k.
Proof. exact u128_swap_ok. Qed.
Print Assumptions C62_swap.
Theorem C62_abs : forall a, wf128 a -> to_Z (u128_abs a) = Z.abs (to_Z a) /\ to_Z (u128_plus a) = to_Z a.
Proof. exact abs_ok. Qed.
Print Assumptions C62_abs.
Example C62_assign_ex : let s := fun k => if k =? 1 then mk128 3 4 else mk128 0 7 in wf_store s /\
  (exists s', assign OSub s 1 1 = Ret s' /\ s' 1 = mk128 0 0 /\ s' 2 = mk128 0 7) /\
  (exists s', assign OXor s 1 1 = Ret s' /\ s' 1 = mk128 0 0) /\
  (exists s', assign OOr s 1 2 = Ret s' /\ s' 1 = mk128 3 7 /\ s' 2 = mk128 0 7) /\
  fst (post_inc s 2) = mk128 0 7 /\ snd (post_inc s 2) 2 = mk128 0 8.
Proof.
  cbv zeta. split; [intros k; destruct (k =? 1); unfold wf128; cbn; lia|]. split; [eexists; split; [reflexivity|]; split; reflexivity|].
  split; [eexists; split; reflexivity|]. split; [eexists; split; [reflexivity|]; split; reflexivity|]. split; reflexivity.
Qed.
(** min() and max() bound all numbers, lowest() is min(); adding 1 to max() gives min(). *)
Theorem C63_range : wf128 limits_min /\ wf128 limits_max /\ wf128 limits_lowest /\
  (forall a, wf128 a -> to_Z limits_min <= to_Z a <= to_Z limits_max) /\ to_Z limits_lowest = to_Z limits_min /\
  (limits_is_signed = false <-> 0 <= to_Z limits_min) /\
  (limits_is_modulo = true <-> u128_inc limits_max = limits_min).
Proof. exact limits_range. Qed.
Print Assumptions C63_range.
(** digits and radix give the range; digits10 is the largest number of decimal digits that always fit. *)
Theorem C63_digits : (forall x, (exists a, wf128 a /\ to_Z a = x) <-> 0 <= x < limits_radix ^ limits_digits) /\
  (forall n, 0 <= n -> (n <= limits_digits10 <-> forall x, 0 <= x < 10 ^ n -> exists a, wf128 a /\ to_Z a = x)).
Proof. exact limits_width. Qed.
Print Assumptions C63_digits.
Example C63_ex : wf128 limits_max /\ to_Z limits_max = 340282366920938463463374607431768211455 /\ to_Z limits_min = 0 /\
  10 ^ limits_digits10 <= to_Z limits_max < 10 ^ (limits_digits10 + 1).
Proof. split; [apply limits_range|]. split; [reflexivity|]. split; [reflexivity|]. vm_compute. split; congruence. Qed.
