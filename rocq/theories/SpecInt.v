(** Independent specification vocabulary for 128-bit values. *)
From Verif Require Import Base Uint128Model.

(** The number a pair of halves denotes, and the representable pairs. *)
Definition to_Z (a : u128) : Z := up a * 2 ^ 64 + lo a.
Definition wf128 (a : u128) : Prop := 0 <= up a < 2 ^ 64 /\ 0 <= lo a < 2 ^ 64.
Definition of_Z (x : Z) : u128 := mk128 ((x mod 2 ^ 128) / 2 ^ 64) (x mod 2 ^ 64).
