(** Scope ids under any setting of their maximal length [n] and of the macro
    that permits white space: specification.  '%' is 37, '/' 47, ' ' 32. *)
From Verif Require Import Base SpecV6 SpecStr SpecLoose.

Definition scope_char_of (spaces : bool) (c : Z) : Prop :=
  c <> 37 /\ c <> 47 /\ (spaces = false -> c <> 32 /\ ~ (9 <= c <= 13)).
(** A scope id an address can hold. *)
Definition scope_id_of (n : Z) (spaces : bool) (t : list Z) : Prop :=
  zlen t <= n /\ ~ In 0 t /\ Forall (scope_char_of spaces) t.
(** The accepted texts: as SpecLoose.v6_loose_scoped for a given length. *)
Definition v6_loose_for (n : Z) (spaces : bool) (s gs t : list Z) : Prop :=
  (~ In 37 s /\ v6_loose s gs /\ t = []) \/
  (exists a u, s = a ++ 37 :: u /\ ~ In 37 a /\ v6_loose a gs /\
     zlen u <= n /\ Forall (scope_char_of spaces) u /\ before_nul u t /\ t <> []).
