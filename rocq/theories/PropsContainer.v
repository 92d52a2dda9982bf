(** Property theorems C64 and C65: byte_array and optional.  [ba_array N a]: [a]
    is a value of byte_array<N>; [as_option o]: the option an optional stands for;
    [spec_run]: assignments on variables holding options (SpecContainer). *)
From Verif Require Import Base SpecAddr Uint128OpsModel SpecOps ContainerModel SpecContainer ContainerProofs.

(** ** C64: byte_array *)
Theorem C64_size : forall N a, ba_array N a -> ba_size N = zlen a /\ ba_max_size N = zlen a /\ (ba_empty N = true <-> a = []).
Proof. exact ba_size_ok. Qed.
Print Assumptions C64_size.
(** Access: the element, and undefined exactly beyond the end (at() does not check). *)
Theorem C64_at : forall N a n, ba_array N a -> 0 <= n ->
  ba_index N a n = ba_at N a n /\
  (n < N -> ba_at N a n = Ret (nth (Z.to_nat n) a 0)) /\ (N <= n -> ~ is_defined (ba_at N a n)).
Proof. exact ba_at_ok. Qed.
Print Assumptions C64_at.
(** Assignment through the reference changes that element only. *)
Theorem C64_write : forall N a n x, ba_array N a -> 0 <= n -> is_byte x ->
  (n < N -> exists b, ba_put N a n x = Ret b /\ ba_array N b /\ ba_at N b n = Ret x /\ forall k, 0 <= k < N -> k <> n -> ba_at N b k = ba_at N a k) /\
  (N <= n -> ~ is_defined (ba_put N a n x)).
Proof. exact ba_put_ok. Qed.
Print Assumptions C64_write.
Theorem C64_front_back : forall N a, ba_array N a -> 0 < N < 2 ^ 64 -> ba_front N a = Ret (hd 0 a) /\ ba_back N a = Ret (last a 0).
Proof. exact ba_ends_ok. Qed.
Print Assumptions C64_front_back.
Theorem C64_front_back_none : forall a, ~ is_defined (ba_front 0 a) /\ ~ is_defined (ba_back 0 a).
Proof. exact ba_ends_none. Qed.
Print Assumptions C64_front_back_none.
(** begin() to end() gives the elements in order, rbegin() to rend() in reverse. *)
Theorem C64_iterate : forall N a, ba_array N a -> ba_elements N a = Ret a /\ ba_reversed N a = Ret (rev a).
Proof. exact ba_iterate. Qed.
Print Assumptions C64_iterate.
(** All six operators, in both families, compare the arrays as big-endian numbers (operator< before C++20 does not exist for N = 0). *)
Theorem C64_compare : forall sp N op a b, ba_array N a -> ba_array N b ->
  exists r, ba_rel sp N op a b = Ret r /\ (r = true <-> rel_Z op (be_value a) (be_value b)).
Proof. exact ba_rel_ok. Qed.
Print Assumptions C64_compare.
Theorem C64_equal : forall N a b, ba_array N a -> ba_array N b -> exists r, ba_rel true N CEq a b = Ret r /\ (r = true <-> a = b).
Proof. exact ba_equal. Qed.
Print Assumptions C64_equal.
(** swap exchanges, also an array with itself, and touches no other. *)
Theorem C64_swap : forall N s p q, ba_array N (s p) -> ba_array N (s q) ->
  exists s', ba_swap N s p q = Ret s' /\ s' p = s q /\ s' q = s p /\ forall k, k <> p -> k <> q -> s' k = s k.
Proof. exact ba_swap_ok. Qed.
Print Assumptions C64_swap.
Example C64_ex : let a := [10; 0; 0; 1] in let b := [9; 255; 255; 255] in let s := fun k => if k =? 1 then a else b in
  ba_array 4 a /\ ba_array 4 b /\ ba_rel true 4 CLt a b = Ret false /\ ba_rel false 4 CGt a b = Ret true /\ ba_at 4 a 3 = Ret 1 /\ ba_at 4 a 4 = UB OutOfBounds /\
  ba_back 4 a = Ret 1 /\ ba_reversed 4 b = Ret [255; 255; 255; 9] /\ (exists s', ba_swap 4 s 1 2 = Ret s' /\ s' 1 = b /\ s' 2 = a) /\
  ba_array 0 [] /\ ba_elements 0 [] = Ret [] /\ ba_at 0 [] 0 = UB NullDeref.
Proof.
  cbv zeta. split; [split; [reflexivity|repeat constructor; unfold is_byte; lia]|]. split; [split; [reflexivity|repeat constructor; unfold is_byte; lia]|].
  do 6 (split; [reflexivity|]). split; [eexists; split; [reflexivity|]; split; reflexivity|]. split; [split; [reflexivity|constructor]|]. split; reflexivity.
Qed.

(** ** C65: optional *)
(** Construction and reading; reading an empty one made by a constructor gives the default value. *)
Theorem C65_make : forall (T : Type) (dflt x : T) (o : opt T), as_option (opt_default dflt) = None /\ as_option (opt_null dflt) = None /\ as_option (opt_of x) = Some x /\ as_option (opt_copy o) = as_option o /\
  opt_value (opt_default dflt) = dflt /\ opt_value (opt_null dflt) = dflt /\
  (opt_has o = true <-> as_option o <> None) /\ opt_bool o = opt_has o /\ (forall y, as_option o = Some y -> opt_value o = y).
Proof. exact @opt_make_ok. Qed.
Print Assumptions C65_make.
(** Any sequence of assignments, also of a variable to itself, acts as on options. *)
Theorem C65_run : forall (T : Type) (dflt : T), forall p s k, as_option (opt_run dflt s p k) = spec_run (fun j => as_option (s j)) p k.
Proof. exact @opt_run_ok. Qed.
Print Assumptions C65_run.
(** Assigning nullptr also resets the value. *)
Theorem C65_reset : forall (T : Type) (dflt : T) s i, opt_value (opt_step dflt s (SNull i) i) = dflt.
Proof. exact @opt_reset_ok. Qed.
Print Assumptions C65_reset.
Example C65_ex : let s := fun k => if k =? 1 then opt_of 7 else opt_default 0 in
  as_option (opt_run 0 s [SCopy 2 1; SNull 1; SWrite 2 9; SWrite 1 4; SCopy 2 2] 2) = Some 9 /\
  as_option (opt_run 0 s [SCopy 2 1; SNull 1; SWrite 2 9; SWrite 1 4; SCopy 2 2] 1) = None.
Proof. split; reflexivity. Qed.
