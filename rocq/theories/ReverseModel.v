(** Model of ip_reverse_iterator, ip-address-iterator.hpp 34-403. *)
From Verif Require Import Base Uint128Model AddressModel NetworkModel IterModel AnyModel.

(** What the template uses of its parameter Iterator: the operations of
    ip_address_iterator, ip_network_iterator and ip_any_iterator. Wrap-around of
    difference_type and uint_type arguments is part of the operations. *)
Record bops (I E : Type) := mk_bops {
  b_get : I -> E;
  b_reverse : I -> res I;
  b_base : I -> res I;
  b_next : I -> res I;
  b_prev : I -> res I;
  b_plus : I -> Z -> res I;
  b_minus : I -> Z -> res I;
  b_add : I -> Z -> res I;
  b_sub : I -> Z -> res I;
  b_diff : I -> I -> Z;
  b_udiff : I -> I -> res Z;
  b_eqb : I -> I -> res bool;
  b_cmp : I -> I -> res comparison;
  b_ltb : I -> I -> res bool }.
Arguments b_get {I E}. Arguments b_reverse {I E}. Arguments b_base {I E}. Arguments b_next {I E}. Arguments b_prev {I E}.
Arguments b_plus {I E}. Arguments b_minus {I E}. Arguments b_add {I E}. Arguments b_sub {I E}. Arguments b_diff {I E}.
Arguments b_udiff {I E}. Arguments b_eqb {I E}. Arguments b_cmp {I E}. Arguments b_ltb {I E}.
(** Instances: hosts_sequence ip-address-iterator.hpp 875, subnets_sequence
    ip-network-iterator.hpp 691, hosts_any_sequence and subnets_any_sequence
    ip-any-iterator.hpp 492 and 671. *)
Definition host_bops (v : ver) : bops ait addr := mk_bops _ _ it_current (ait_reverse v) (ait_base v) (ait_next v) (ait_prev v)
  (ait_plus v) (ait_minus v) (ait_add v) (ait_sub v) (ait_diff v) (fun a b => Ret (ait_uint_diff v a b)) (ait_eqb v) (ait_cmp v) (ait_ltb v).
Definition net_bops (v : ver) : bops nit net := mk_bops _ _ ni_current (nit_reverse v) (nit_base v) (nit_next v) (nit_prev v)
  (nit_plus v) (nit_minus v) (nit_add v) (nit_sub v) (nit_diff v) (nit_uint_diff v) (nit_eqb v) (nit_cmp v) (nit_ltb v).
Definition any_bops {I E} (o : iops I E) : bops (aiter I E) E := mk_bops _ _ ai_cur (aiter_reverse o) (aiter_base o) (aiter_next o) (aiter_prev o)
  (aiter_plus o) (aiter_minus o) (aiter_add o) (aiter_sub o) (aiter_diff o) (aiter_udiff o) (aiter_eqb o) (aiter_cmp o) (aiter_ltb o).

(** The member _it, 402. *)
Record rit (I : Type) := mk_rit { r_it : I }.
Arguments mk_rit {I}. Arguments r_it {I}.
Section Reverse.
Context {I E : Type} (o : bops I E).
(** Constructor, 60-62. *)
Definition rit_make (it : I) : res (rit I) := x <- b_reverse o it ;; Ret (mk_rit x).
(** uint_diff 72-74, base 81-83, operator* and -> 90-101. *)
Definition rit_udiff (a b : rit I) : res Z := b_udiff o (r_it b) (r_it a).
Definition rit_base (r : rit I) : res I := b_base o (r_it r).
Definition rit_get (r : rit I) : E := b_get o (r_it r).
(** operator[] of a difference_type 109-111 and of a uint_type 119-121. *)
Definition rit_index (r : rit I) (n : Z) : res E := x <- b_minus o (r_it r) n ;; Ret (b_get o x).
Definition rit_at (r : rit I) (n : Z) : res E := x <- b_sub o (r_it r) n ;; Ret (b_get o x).
(** ++ 128-131, -- 149-152, and the postfix forms 138-142, 159-163: the result and
    the object afterwards. *)
Definition rit_next (r : rit I) : res (rit I) := x <- b_prev o (r_it r) ;; Ret (mk_rit x).
Definition rit_prev (r : rit I) : res (rit I) := x <- b_next o (r_it r) ;; Ret (mk_rit x).
Definition rit_postinc (r : rit I) : res (rit I * rit I) := let tmp := r in r <- rit_next r ;; Ret (tmp, r).
Definition rit_postdec (r : rit I) : res (rit I * rit I) := let tmp := r in r <- rit_prev r ;; Ret (tmp, r).
(** += 173-189, -= 199-215. *)
Definition rit_plus_eq (r : rit I) (n : Z) : res (rit I) := x <- b_minus o (r_it r) n ;; Ret (mk_rit x).
Definition rit_add_eq (r : rit I) (n : Z) : res (rit I) := x <- b_sub o (r_it r) n ;; Ret (mk_rit x).
Definition rit_minus_eq (r : rit I) (n : Z) : res (rit I) := x <- b_plus o (r_it r) n ;; Ret (mk_rit x).
Definition rit_sub_eq (r : rit I) (n : Z) : res (rit I) := x <- b_add o (r_it r) n ;; Ret (mk_rit x).
(** + 225-243, n + it 254-269, - 279-297. *)
Definition rit_plus (r : rit I) (n : Z) : res (rit I) := let tmp := r in rit_plus_eq tmp n.
Definition rit_add (r : rit I) (n : Z) : res (rit I) := let tmp := r in rit_add_eq tmp n.
Definition plus_rit (n : Z) (r : rit I) : res (rit I) := rit_plus r n.
Definition add_rit (n : Z) (r : rit I) : res (rit I) := rit_add r n.
Definition rit_minus (r : rit I) (n : Z) : res (rit I) := let tmp := r in rit_minus_eq tmp n.
Definition rit_sub (r : rit I) (n : Z) : res (rit I) := let tmp := r in rit_sub_eq tmp n.
(** operator- of two iterators 307-309. *)
Definition rit_diff (a b : rit I) : Z := b_diff o (r_it b) (r_it a).
(** == 319-321, != 331-333, <=> 345-347, < 359-361, <= 371-373, > 383-385, >= 395-397. *)
Definition rit_eqb (a b : rit I) : res bool := b_eqb o (r_it b) (r_it a).
Definition rit_neb (a b : rit I) : res bool := e <- rit_eqb a b ;; Ret (negb e).
Definition rit_cmp (a b : rit I) : res comparison := b_cmp o (r_it b) (r_it a).
Definition rit_ltb (a b : rit I) : res bool := b_ltb o (r_it b) (r_it a).
Definition rit_leb (a b : rit I) : res bool := e <- rit_ltb b a ;; Ret (negb e).
Definition rit_gtb (a b : rit I) : res bool := rit_ltb b a.
Definition rit_geb (a b : rit I) : res bool := e <- rit_ltb a b ;; Ret (negb e).
End Reverse.

(** ** Postfix operators of the iterators themselves: the result and the object
    afterwards; ip-address-iterator.hpp 518-522 and 543-547, ip-network-iterator.hpp
    132-136 and 157-161, ip-any-iterator.hpp 144-148 and 165-169; and n + it,
    ip-address-iterator.hpp 638-653, ip-network-iterator.hpp 252-267,
    ip-any-iterator.hpp 260-275. *)
Definition post_inc {I E} (o : bops I E) (it : I) : res (I * I) := let tmp := it in it <- b_next o it ;; Ret (tmp, it).
Definition post_dec {I E} (o : bops I E) (it : I) : res (I * I) := let tmp := it in it <- b_prev o it ;; Ret (tmp, it).
Definition plus_it {I E} (o : bops I E) (n : Z) (it : I) : res I := b_plus o it n.
Definition add_it {I E} (o : bops I E) (n : Z) (it : I) : res I := b_add o it n.
