(** What is expected of hash values besides being equal for equal objects. *)
From Verif Require Import Base.

(** Two lists of the same length that differ in one place. *)
Definition one_apart (a b : list Z) : Prop := exists l x y r, a = l ++ x :: r /\ b = l ++ y :: r /\ x <> y.

(** The FNV-1a hash of a sequence of octets (draft-eastlake-fnv, section 2): for
    each octet, exclusive or, then multiplication by the prime. *)
Definition fnv_1a (bits prime basis : Z) (octets : list Z) : Z :=
  fold_left (fun h o => (Z.lxor h o * prime) mod 2 ^ bits) octets basis.
Definition fnv_1a_64 := fnv_1a 64 (2 ^ 40 + 2 ^ 8 + 0xb3) 14695981039346656037.
Definition fnv_1a_32 := fnv_1a 32 (2 ^ 24 + 2 ^ 8 + 0x93) 2166136261.
(** The octet of a [char]. *)
Definition octet (c : Z) : Z := c mod 256.
