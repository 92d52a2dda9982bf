(** Independent specification of reverse DNS zones: '.' is 46. *)
From Verif Require Import Base SpecAddr.

(** What follows the first dot, and what follows the [k]-th. *)
Fixpoint after_dot (s : list Z) : list Z := match s with [] => [] | c :: s' => if c =? 46 then s' else after_dot s' end.
Fixpoint drop_labels (k : nat) (s : list Z) : list Z := match k with O => s | S k' => drop_labels k' (after_dot s) end.

(** The domain name [s] is [z] or below [z]. *)
Definition within (s z : list Z) : Prop := s = z \/ exists pre, s = pre ++ 46 :: z.

(** Bits of the address per label: an octet or a nibble (RFC 1035 section 3.5,
    RFC 3596 section 2.5). *)
Definition label_bits (v : ver) : Z := match v with V4 => 8 | V6 => 4 end.
(** [zone v p s]: the name of the zone of the networks of prefix length [p], for
    an address with reverse pointer [s]. *)
Definition zone (v : ver) (p : Z) (s : list Z) : list Z := drop_labels (Z.to_nat ((width v - p) / label_bits v)) s.
