(** Independent specification of iterators as positions. *)
From Verif Require Import Base SpecAddr SpecOrder AddressModel NetworkModel IterModel SpecNet.

(** Address iterators without scope id: the offset is the number of the current
    address; the carry is 1 when the iterator moved past the last address. *)
Definition wf_ait (v : ver) (it : ait) : Prop :=
  wf_addr v (it_current it) /\ a_scope (it_current it) = [] /\ it_offset it = val (it_current it) /\
  (it_carry it = 0 \/ it_carry it = 1).
(** Its position on the line 0, 1, ..., 2^(width+1) - 1. *)
Definition ait_pos (v : ver) (it : ait) : Z := it_carry it * 2 ^ width v + val (it_current it).

(** The distance reported between two values that are [g] apart: counted upwards
    around the space for IPv4, the nearest of the numbers equal to it modulo 2^64
    for IPv6. *)
Definition distance (v : ver) (g : Z) : Z :=
  match v with
  | V4 => g mod 2 ^ 32
  | V6 => (g + 2 ^ 63) mod 2 ^ 64 - 2 ^ 63
  end.

(** hosts(): first element and number of elements. *)
Definition hosts_lo (v : ver) (n : net) : Z := if n_prefix n >=? width v - 1 then first n else first n + 1.
Definition hosts_cnt (v : ver) (n : net) : Z :=
  if n_prefix n =? width v then 1
  else if n_prefix n =? width v - 1 then 2
  else match v with V4 => size v n - 2 | V6 => size v n - 1 end.
(** The usable hosts: every address of a network of one or two addresses;
    otherwise not the first one and, for IPv4, not the last one. *)
Definition usable (v : ver) (n : net) (x : Z) : Prop :=
  in_net v n x /\
  (n_prefix n < width v - 1 -> x <> first n /\ (v = V4 -> x <> first n + size v n - 1)).
(** The network is the last block of the address space. *)
Definition at_top (v : ver) (n : net) : Prop := first n + size v n = 2 ^ width v.

(** The consecutive numbers [x], [x + 1], ... ([k] of them). *)
Fixpoint count_up (k : nat) (x : Z) : list Z := match k with O => [] | S k' => x :: count_up k' (x + 1) end.

(** Networks whose hosts() gets an end iterator one turn of the address space
    short: the end would be one past the last address of the space but carries
    no carry. *)
Definition hosts_short (v : ver) (n : net) : Prop :=
  at_top v n /\ n_prefix n < width v /\ (v = V6 \/ n_prefix n = width v - 1).
(** [a + (b - a)] reaches [b] when [b] is [g] steps after [a] for these [g]. *)
Definition reachable (v : ver) (g : Z) : Prop :=
  match v with V4 => 0 <= g < 2 ^ 32 | V6 => 0 <= g < 2 ^ 63 \/ 2 ^ 128 - 2 ^ 63 <= g < 2 ^ 128 end.
(** Values of difference_type. *)
Definition is_i64 (n : Z) : Prop := - 2 ^ 63 <= n < 2 ^ 63.

(** Network iterators of networks without scope id: the current network starts at
    the current address; the step is the size of a network (the size of the whole
    space being 0 as an unsigned number). *)
Definition wf_nit (v : ver) (it : nit) : Prop :=
  wf_net v (ni_current it) /\ wf_ait v (ni_it it) /\ n_addr (ni_current it) = it_current (ni_it it) /\
  ni_prefix it = n_prefix (ni_current it) /\ ni_step it = size v (ni_current it) mod 2 ^ width v.
Definition nit_pos (v : ver) (it : nit) : Z := ait_pos v (ni_it it).

(** The difference of prefix lengths that subnets() is asked for. *)
Definition asked_diff (p d : Z) (np : option Z) : ec + Z :=
  match np with
  | Some q => if q <? p then inl new_prefix_must_be_longer
              else if negb (d =? 1) then inl cannot_set_prefixlen_diff_and_new_prefix else inr (q - p)
  | None => inr d
  end.
(** Networks whose subnets() gets an end iterator one turn short. *)
Definition subnets_short (v : ver) (n : net) : Prop := at_top v n /\ 0 < n_prefix n < width v.
(** Element [i] of the subnets of [n] with prefix length [q]. *)
Definition nth_subnet (v : ver) (n : net) (q i : Z) (m : net) : Prop :=
  wf_net v m /\ unscoped m /\ n_prefix m = q /\ first m = first n + i * 2 ^ (width v - q).
(** subnets() with these arguments is meant to list the subnets of prefix length [q]. *)
Definition asked (v : ver) (n : net) (d : Z) (np : option Z) (q : Z) : Prop :=
  (n_prefix n = width v /\ q = width v) \/
  (n_prefix n < width v /\ exists d', asked_diff (n_prefix n) d np = inr d' /\ 0 <= d' /\ q = n_prefix n + d' /\ q <= width v).
(** Arguments of type size_t. *)
Definition is_size (d : Z) : Prop := 0 <= d < 2 ^ 64.
Definition args_ok (d : Z) (np : option Z) : Prop := is_size d /\ match np with Some q => is_size q | None => True end.

(** Disjoint networks. *)
Definition disjoint (v : ver) (a b : net) : Prop := forall x, in_net v a x -> in_net v b x -> False.
(** [m] is the network of prefix length [q] to list when [other] is excluded: it
    lies beside [other] in the network of prefix length [q - 1] holding it. *)
Definition beside (v : ver) (other : net) (q : Z) (m : net) : Prop :=
  wf_net v m /\ unscoped m /\ n_prefix m = q /\ disjoint v m other /\
  exists a, wf_net v a /\ n_prefix a = q - 1 /\ subset v other a /\ subset v m a.
(** The network 0.0.0.1/32 (::1/128). *)
Definition is_one (v : ver) (n : net) : Prop := n_prefix n = width v /\ first n = 1.
(** Element [i] of the list is the network of prefix length [p + 1 + i] beside [o]. *)
Definition listed (v : ver) (o : net) (p : Z) (l : list net) : Prop := forall i, (i < length l)%nat -> exists m, nth_error l i = Some m /\ beside v o (p + 1 + Z.of_nat i) m.
(** The arguments for which subnets() has no undefined behaviour. *)
Definition defined (v : ver) (n : net) (q : Z) : Prop := q - n_prefix n < width v /\ (v = V6 \/ q <> 0).
(** A valid address without scope id. *)
Definition plain v (a : addr) : Prop := wf_addr v a /\ a_scope a = [].
