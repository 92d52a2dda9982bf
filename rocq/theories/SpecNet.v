(** Independent specification of networks as blocks of consecutive numbers. *)
From Verif Require Import Base SpecText SpecAddr SpecV4 SpecOrder AddressModel NetworkModel.

(** The number of addresses of a network, its first number and its members. *)
Definition size (v : ver) (n : net) : Z := 2 ^ (width v - n_prefix n).
Definition first (n : net) : Z := val (n_addr n).
Definition in_net (v : ver) (n : net) (x : Z) : Prop := first n <= x < first n + size v n.

(** Every address of [a] is in [b]. *)
Definition subset (v : ver) (a b : net) : Prop := forall x, in_net v a x -> in_net v b x.

(** Networks that can exist: a prefix length p within the width, a netmask of p
    ones followed by zeros, an address whose other bits are zero. *)
Definition wf_net (v : ver) (n : net) : Prop :=
  wf_addr v (n_addr n) /\ wf_addr v (n_mask n) /\ a_scope (n_mask n) = [] /\
  0 <= n_prefix n <= width v /\
  val (n_mask n) = 2 ^ width v - size v n /\
  first n mod size v n = 0.

(** Without scope id. *)
Definition unscoped (n : net) : Prop := a_scope (n_addr n) = [].

(** Order: by network address (with scope), then the longer prefix is greater. *)
Definition net_before (a b : net) : Prop :=
  addr_before (n_addr a) (n_addr b) \/ (n_addr a = n_addr b /\ n_prefix a < n_prefix b).

(** *** Network texts; '/' is 47 *)
(** A decimal number (leading zeros allowed). *)
Definition dec_text (m : list Z) (x : Z) : Prop := m <> [] /\ exists ds, digits_of 10 m ds /\ horner 10 0 ds = x.
(** [mask_text v m p]: the mask text [m] denotes the prefix length [p]: a
    decimal number within the width or, for IPv4, a dotted netmask (p ones, then
    zeros) or a dotted hostmask (p zeros, then ones; a text that is both is
    taken as a netmask). *)
Definition mask_text (v : ver) (m : list Z) (p : Z) : Prop :=
  (dec_text m p /\ p <= width v) \/
  (v = V4 /\ exists q, dotted_quad m q /\
     ((0 <= p <= 32 /\ be_value q = 2 ^ 32 - 2 ^ (32 - p)) \/ (1 <= p <= 31 /\ be_value q = 2 ^ (32 - p) - 1))).
(** A complete network text: an address text [t] alone (prefix length = width) or
    followed by '/' and a mask. *)
Definition net_text (v : ver) (s t : list Z) (p : Z) : Prop :=
  (s = t /\ p = width v) \/ (exists m, s = t ++ 47 :: m /\ mask_text v m p).
(** The part before the first '/' fits in the buffer of the parser. *)
Definition fits (v : ver) (s : list Z) : Prop :=
  forall pre r, s = pre ++ r -> ~ In 47 pre -> zlen pre <= match v with V4 => 15 | V6 => 57 end.
(** Mask texts treated as intended: not a number of 2^64 or more, not "0.0.0.0". *)
Definition plain_mask (v : ver) (m : list Z) : Prop :=
  (forall x, dec_text m x -> x < 2 ^ 64) /\ (v = V4 -> ~ dotted_quad m [0; 0; 0; 0]).
