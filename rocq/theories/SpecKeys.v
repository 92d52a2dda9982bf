(** Independent specification for texts used as keys: how long the texts of an
    IPv6 address are.  [gs] are the eight 16-bit groups. *)
From Verif Require Import Base SpecV6.

(** The longest run of zero groups has [n] groups. *)
Definition longest_run (gs : list Z) (n : nat) : Prop :=
  (exists a b, gs = a ++ repeat 0 n ++ b) /\ forall a m b, gs = a ++ repeat 0 m ++ b -> (m <= n)%nat.

(** A longest run lies strictly inside the address, where "::" saves one
    character more than at either end; and RFC 5952 does not choose it: because
    it is a single group, or because an equally long run stands in front. *)
Definition wasteful (gs : list Z) : Prop :=
  exists n a b, (1 <= n)%nat /\ longest_run gs n /\ gs = a ++ repeat 0 n ++ b /\ a <> [] /\ b <> [] /\
    (n = 1%nat \/ exists r, gs = repeat 0 n ++ r).
