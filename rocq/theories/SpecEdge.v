(** Independent specification of loops that pass the end of the address space. *)
From Verif Require Import Base SpecAddr SpecOrder AddressModel NetworkModel SpecNet SpecIter.

(** Element [i] counted from the address [x] on, numbers wrapping around at the
    end of the space; [i] may be negative. *)
Definition nth_addr_round (v : ver) (x i : Z) (a : addr) : Prop := plain v a /\ val a = (x + i) mod 2 ^ width v.
(** The same for networks of prefix length [q], counted from the address [x] on. *)
Definition nth_net_round (v : ver) (x q i : Z) (m : net) : Prop :=
  wf_net v m /\ unscoped m /\ n_prefix m = q /\ first m = (x + i * 2 ^ (width v - q)) mod 2 ^ width v.
