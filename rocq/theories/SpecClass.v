(** Independent specification of the address classes as ranges of numbers. *)
From Verif Require Import Base V4Model AddressModel SpecAddr SpecOrder NetworkModel SpecNet.

(** Ranges [lo, hi). *)
Definition range : Type := Z * Z.
Definition in_ranges (l : list range) (x : Z) : Prop := exists lo hi, In (lo, hi) l /\ lo <= x < hi.

(** IPv4: a.b.c.d as a number, and the block of prefix length p starting there. *)
Definition quad (a b c d : Z) : Z := ((a * 256 + b) * 256 + c) * 256 + d.
Definition blk4 (a b c d p : Z) : range := (quad a b c d, quad a b c d + 2 ^ (32 - p)).
(** IPv6: the number whose first groups are a, b (the rest 0). *)
Definition grp (a b : Z) : Z := a * 2 ^ 112 + b * 2 ^ 96.
Definition blk6 (a b p : Z) : range := (grp a b, grp a b + 2 ^ (128 - p)).

(** Special-purpose ("private") ranges. *)
Definition v4_private_ranges : list range :=
  [blk4 0 0 0 0 8; blk4 10 0 0 0 8; blk4 127 0 0 0 8; blk4 169 254 0 0 16; blk4 172 16 0 0 12; blk4 192 0 0 0 29;
   blk4 192 0 0 170 31; blk4 192 0 2 0 24; blk4 192 168 0 0 16; blk4 198 18 0 0 15; blk4 198 51 100 0 24;
   blk4 203 0 113 0 24; blk4 240 0 0 0 4; blk4 255 255 255 255 32].
Definition v4_shared : range := blk4 100 64 0 0 10.
Definition v4_multicast : range := blk4 224 0 0 0 4.
Definition v4_reserved : range := blk4 240 0 0 0 4.
Definition v4_loopback : range := blk4 127 0 0 0 8.
Definition v4_link_local : range := blk4 169 254 0 0 16.

(** ::1, ::, ::ffff:0:0/96, 100::/64, 2001::/23, 2001:2::/48, 2001:db8::/32,
    2001:10::/28, fc00::/7, fe80::/10. *)
Definition v6_private_ranges : list range :=
  [(1, 2); (0, 1); (0xFFFF * 2 ^ 32, 0x10000 * 2 ^ 32); blk6 0x100 0 64; blk6 0x2001 0 23; blk6 0x2001 2 48;
   blk6 0x2001 0xDB8 32; blk6 0x2001 0x10 28; blk6 0xFC00 0 7; blk6 0xFE80 0 10].
(** Everything that is not allocated: below 2000::/3, from 4000:: to fbff:..., and
    fe00::/9. *)
Definition v6_reserved_ranges : list range :=
  [(0, grp 0x2000 0); (grp 0x4000 0, grp 0xFC00 0); (grp 0xFE00 0, grp 0xFE80 0)].
Definition v6_multicast : range := (grp 0xFF00 0, 2 ^ 128).
Definition v6_loopback : range := (1, 2).
Definition v6_link_local : range := blk6 0xFE80 0 10.
Definition v6_site_local : range := blk6 0xFEC0 0 10.
Definition unspecified : range := (0, 1).

(** In one range. *)
Definition within (r : range) (x : Z) : Prop := fst r <= x < snd r.
(** IPv4-mapped: ::ffff:0:0/96. *)
Definition v4_mapped (x : Z) : Prop := 0xFFFF * 2 ^ 32 <= x < 0x10000 * 2 ^ 32.
(** What the code takes for IPv4-mapped: bits 32 to 47 of the address are ffff. *)
Definition looks_mapped (x : Z) : Prop := x / 2 ^ 32 mod 2 ^ 16 = 0xFFFF.

(** Every address of the network satisfies [f]. *)
Definition every (v : ver) (n : net) (f : addr -> bool) : Prop := forall a, wf_addr v a -> in_net v n (val a) -> f a = true.
(** ::/1. *)
Definition half_space (n : net) : Prop := n_prefix n = 1 /\ first n = 0.
(** ::/127, the loopback and the unspecified address. *)
Definition first_two (n : net) : Prop := n_prefix n = 127 /\ first n = 0.
