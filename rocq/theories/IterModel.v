(** Iterators and sequences.  Models: include/ipaddress/ip-address-iterator.hpp,
    ip-network-iterator.hpp and the functions of ip-network-base.hpp returning
    sequences. *)
From Verif Require Import Base V4Model V6Model Uint128Model SpecInt AddressModel NetworkModel.

(** ** ip_address_iterator, ip-address-iterator.hpp 418-846 *)
Record ait := mk_ait { it_current : addr; it_offset : Z; it_carry : Z }.
Definition ait_default (v : ver) : ait := mk_ait (addr_default v) 0 0.

(** Conversion of a difference_type (int64_t) to uint_type. *)
Definition u_of_i64 (v : ver) (n : Z) : Z :=
  match v with V4 => w32 n | V6 => to_Z (u128_of_i64 n) end.
(** Conversion of a uint_type to difference_type (uint128: the lower half). *)
Definition i64_of (x : Z) : Z := let x := w64 x in if x <? 2 ^ 63 then x else x - 2 ^ 64.
Definition i64_of_u (v : ver) (x : Z) : Z :=
  match v with V4 => x | V6 => i64_of (u128_to_unsigned 64 (of_Z x)) end.

(** Constructor, ip-address-iterator.hpp 444-446. *)
Definition ait_make (v : ver) (ref : addr) (carry : Z) : res ait :=
  o <- addr_to_uint v ref ;; Ret (mk_ait ref o carry).
(** uint_diff, ip-address-iterator.hpp 456-458. *)
Definition ait_uint_diff (v : ver) (a b : ait) : Z := usub v (it_offset a) (it_offset b).
(** operator[] on a uint_type, ip-address-iterator.hpp 495-497, and on a difference_type, 484-487. *)
Definition ait_at (v : ver) (a : ait) (n : Z) : res addr := addr_from_uint v (uadd v (it_offset a) n).
Definition ait_index (v : ver) (a : ait) (n : Z) : res addr := ait_at v a (u_of_i64 v n).
(** add, ip-address-iterator.hpp 812-821, and sub, 823-832. *)
Definition ait_add (v : ver) (a : ait) (n : Z) : res ait :=
  if negb (n =? 0) then
    let o := uadd v (it_offset a) n in
    c <- addr_from_uint v o ;;
    Ret (mk_ait c o (if o <? it_offset a then 1 - it_carry a else it_carry a))
  else Ret a.
Definition ait_sub (v : ver) (a : ait) (n : Z) : res ait :=
  if negb (n =? 0) then
    let o := usub v (it_offset a) n in
    c <- addr_from_uint v o ;;
    Ret (mk_ait c o (if o >? it_offset a then 1 - it_carry a else it_carry a))
  else Ret a.
(** ++ ip-address-iterator.hpp 506-509, -- 531-534, += and -= of a difference_type 557-560 and 583-586. *)
Definition ait_next (v : ver) (a : ait) : res ait := ait_add v a 1.
Definition ait_prev (v : ver) (a : ait) : res ait := ait_sub v a 1.
Definition ait_plus (v : ver) (a : ait) (n : Z) : res ait := ait_add v a (u_of_i64 v n).
Definition ait_minus (v : ver) (a : ait) (n : Z) : res ait := ait_sub v a (u_of_i64 v n).
(** operator- of two iterators, ip-address-iterator.hpp 691-693. *)
Definition ait_diff (v : ver) (a b : ait) : Z := i64_of_u v (usub v (it_offset a) (it_offset b)).
(** == ip-address-iterator.hpp 703-705, <=> 729-735, < 747-749. *)
Definition ait_eqb (v : ver) (a b : ait) : res bool :=
  if it_carry a =? it_carry b then addr_eqb v (it_current a) (it_current b) else Ret false.
Definition ait_cmp (v : ver) (a b : ait) : res comparison :=
  match it_carry a ?= it_carry b with Eq => addr_cmp v (it_current a) (it_current b) | c => Ret c end.
Definition ait_ltb (v : ver) (a b : ait) : res bool :=
  if it_carry a <? it_carry b then Ret true
  else if it_carry a =? it_carry b then addr_ltb v (it_current a) (it_current b) else Ret false.
(** base ip-address-iterator.hpp 790-799 and reverse 801-810. *)
Definition ait_base (v : ver) (a : ait) : res ait :=
  let o := uadd v (it_offset a) 1 in
  c <- addr_from_uint v o ;; Ret (mk_ait c o (if o <? it_offset a then 1 - it_carry a else it_carry a)).
Definition ait_reverse (v : ver) (a : ait) : res ait :=
  let o := usub v (it_offset a) 1 in
  c <- addr_from_uint v o ;; Ret (mk_ait c o (if o >? it_offset a then 1 - it_carry a else it_carry a)).

(** ** hosts_sequence, ip-address-iterator.hpp 861-1039 *)
Record hosts_seq := mk_hosts { h_begin : ait; h_end : ait }.
(** Constructor, 889-906; hosts(): ip-network-base.hpp 877-879. *)
Definition hosts_make (sp : bool) (v : ver) (na ba : addr) (prefixlen maxp : Z) : res hosts_seq :=
  if prefixlen =? maxp - 1 then
    n <- addr_to_uint v na ;; b <- addr_to_uint v ba ;;
    first <- addr_from_uint v n ;; last <- addr_from_uint v (uadd v b 1) ;;
    x <- ait_make v first 0 ;; y <- ait_make v last 0 ;; Ret (mk_hosts x y)
  else if prefixlen =? maxp then
    n <- addr_to_uint v na ;;
    first <- addr_from_uint v n ;; last <- addr_from_uint v (uadd v n 1) ;;
    lt <- op_lt sp v last first ;;
    x <- ait_make v first 0 ;; y <- ait_make v last (if lt : bool then 1 else 0) ;; Ret (mk_hosts x y)
  else
    n <- addr_to_uint v na ;; b <- addr_to_uint v ba ;;
    first <- addr_from_uint v (uadd v n 1) ;;
    last <- addr_from_uint v (uadd v b (match v with V6 => 1 | V4 => 0 end)) ;;
    x <- ait_make v first 0 ;; y <- ait_make v last 0 ;; Ret (mk_hosts x y).
Definition hosts (sp : bool) (v : ver) (n : net) : res hosts_seq :=
  hosts_make sp v (n_addr n) (broadcast n) (n_prefix n) (width v).
(** size ip-address-iterator.hpp 994-996, at 1014-1016, front 1023, back 1032, empty 985. *)
Definition hosts_size (v : ver) (s : hosts_seq) : Z := ait_uint_diff v (h_end s) (h_begin s).
Definition hosts_at (v : ver) (s : hosts_seq) (n : Z) : res addr :=
  a <- ait_add v (h_begin s) n ;; Ret (it_current a).
Definition hosts_front (s : hosts_seq) : addr := it_current (h_begin s).
Definition hosts_back (v : ver) (s : hosts_seq) : res addr :=
  a <- ait_sub v (h_end s) 1 ;; Ret (it_current a).
Definition hosts_empty (v : ver) (s : hosts_seq) : res bool := ait_eqb v (h_begin s) (h_end s).
(** rbegin 931, rend 940: ip_reverse_iterator (ip-address-iterator.hpp 60-62) holds the iterator
    [reverse()]; its ++ is -- of the held iterator (128-131), dereferencing it
    reads the held one (90-92) and == compares the held ones (319-321). *)
Definition hosts_rbegin (v : ver) (s : hosts_seq) : res ait := ait_reverse v (h_end s).
Definition hosts_rend (v : ver) (s : hosts_seq) : res ait := ait_reverse v (h_begin s).

(** ** ip_network_iterator, ip-network-iterator.hpp 32-449 *)
Record nit := mk_nit { ni_current : net; ni_it : ait; ni_step : Z; ni_prefix : Z }.
Definition nit_default (v : ver) : nit := mk_nit (net_default v) (ait_default v) 0 0.
(** Constructor, ip-network-iterator.hpp 57-59. *)
Definition nit_make (v : ver) (ref : addr) (step prefixlen carry : Z) : res nit :=
  n <- from_address v ref prefixlen true ;; a <- ait_make v ref carry ;; Ret (mk_nit n a step prefixlen).
(** uint_diff, ip-network-iterator.hpp 69-71. *)
Definition nit_uint_diff (v : ver) (a b : nit) : res Z :=
  udivide v (ait_uint_diff v (ni_it a) (ni_it b)) (ni_step a).
(** operator[] ip-network-iterator.hpp 108-111, 97-100. *)
Definition nit_at (v : ver) (a : nit) (n : Z) : res net :=
  x <- ait_add v (ni_it a) (umul v (ni_step a) n) ;; from_address v (it_current x) (ni_prefix a) true.
Definition nit_index (v : ver) (a : nit) (n : Z) : res net := nit_at v a (u_of_i64 v n).
(** add ip-network-iterator.hpp 428-431, sub 433-436. *)
Definition nit_add (v : ver) (a : nit) (n : Z) : res nit :=
  x <- ait_add v (ni_it a) (umul v (ni_step a) n) ;;
  c <- from_address v (it_current x) (ni_prefix a) true ;; Ret (mk_nit c x (ni_step a) (ni_prefix a)).
Definition nit_sub (v : ver) (a : nit) (n : Z) : res nit :=
  x <- ait_sub v (ni_it a) (umul v (ni_step a) n) ;;
  c <- from_address v (it_current x) (ni_prefix a) true ;; Ret (mk_nit c x (ni_step a) (ni_prefix a)).
Definition nit_next (v : ver) (a : nit) : res nit := nit_add v a 1.
Definition nit_prev (v : ver) (a : nit) : res nit := nit_sub v a 1.
Definition nit_plus (v : ver) (a : nit) (n : Z) : res nit := nit_add v a (u_of_i64 v n).
Definition nit_minus (v : ver) (a : nit) (n : Z) : res nit := nit_sub v a (u_of_i64 v n).
(** operator- ip-network-iterator.hpp 305-307 (not divided by the step). *)
Definition nit_diff (v : ver) (a b : nit) : Z := ait_diff v (ni_it a) (ni_it b).
(** == ip-network-iterator.hpp 317-319, <=> 343-349, < 361-363. *)
Definition nit_eqb (v : ver) (a b : nit) : res bool :=
  if it_carry (ni_it a) =? it_carry (ni_it b) then net_eqb v (ni_current a) (ni_current b) else Ret false.
Definition nit_cmp (v : ver) (a b : nit) : res comparison :=
  match it_carry (ni_it a) ?= it_carry (ni_it b) with Eq => net_cmp v (ni_current a) (ni_current b) | c => Ret c end.
Definition nit_ltb (v : ver) (a b : nit) : res bool :=
  if it_carry (ni_it a) <? it_carry (ni_it b) then Ret true
  else if it_carry (ni_it a) =? it_carry (ni_it b) then net_ltb v (ni_current a) (ni_current b) else Ret false.
(** base ip-network-iterator.hpp 404-414, reverse 416-426. *)
Definition nit_base (v : ver) (a : nit) : res nit :=
  let o := uadd v (it_offset (ni_it a)) (ni_step a) in
  c <- addr_from_uint v o ;;
  n <- from_address v c (ni_prefix a) true ;;
  Ret (mk_nit n (mk_ait c o (if o <? it_offset (ni_it a) then 1 - it_carry (ni_it a) else it_carry (ni_it a)))
         (ni_step a) (ni_prefix a)).
Definition nit_reverse (v : ver) (a : nit) : res nit :=
  let o := usub v (it_offset (ni_it a)) (ni_step a) in
  c <- addr_from_uint v o ;;
  n <- from_address v c (ni_prefix a) true ;;
  Ret (mk_nit n (mk_ait c o (if o >? it_offset (ni_it a) then 1 - it_carry (ni_it a) else it_carry (ni_it a)))
         (ni_step a) (ni_prefix a)).

(** ** subnets_sequence, ip-network-iterator.hpp 677-875 *)
Record subnets_seq := mk_subnets { s_begin : nit; s_end : nit; s_size : Z }.
Definition subnets_default (v : ver) : subnets_seq := mk_subnets (nit_default v) (nit_default v) 0.
(** Constructor for a single address, ip-network-iterator.hpp 711-718. *)
Definition subnets_single (sp : bool) (v : ver) (na : addr) (new_prefixlen : Z) : res subnets_seq :=
  let first := mk_addr (a_bytes na) [] in
  n <- addr_to_uint v na ;;
  last <- addr_from_uint v (uadd v n 1) ;;
  x <- nit_make v first 1 new_prefixlen 0 ;;
  lt <- op_lt sp v last first ;;
  y <- nit_make v last 1 new_prefixlen (if lt : bool then 1 else 0) ;;
  Ret (mk_subnets x y 1).
(** Constructor, ip-network-iterator.hpp 732-741. *)
Definition subnets_make (v : ver) (na ba hm : addr) (prefixlen_diff new_prefixlen : Z) : res subnets_seq :=
  begin_uint <- addr_to_uint v na ;;
  end_uint <- addr_to_uint v ba ;;
  first <- addr_from_uint v begin_uint ;;
  last <- addr_from_uint v (uadd v end_uint 1) ;;
  h <- addr_to_uint v hm ;;
  s <- ushr v h prefixlen_diff ;;
  let step := uadd v s 1 in
  x <- nit_make v first step new_prefixlen 0 ;;
  eq <- addr_eqb v first last ;;
  y <- nit_make v last step new_prefixlen (if eq : bool then 1 else 0) ;;
  q <- udivide v (usub v end_uint begin_uint) step ;;
  Ret (mk_subnets x y (uadd v q 1)).
(** subnets with an error code, ip-network-base.hpp 1022-1049: the code passed
    in is returned unchanged unless an error is found. *)
Definition subnets_code (sp : bool) (v : ver) (n : net) (code : ec) (prefixlen_diff : Z) (new_prefixlen : option Z)
  : res (subnets_seq * ec) :=
  address <- remove_scope v (n_addr n) ;;
  if n_prefix n =? width v then
    s <- subnets_single sp v address (n_prefix n) ;; Ret (s, code)
  else
    match
      match new_prefixlen with
      | Some np =>
          if np <? n_prefix n then inl new_prefix_must_be_longer
          else if negb (prefixlen_diff =? 1) then inl cannot_set_prefixlen_diff_and_new_prefix
          else inr (np - n_prefix n)
      | None => inr prefixlen_diff
      end
    with
    | inl e => Ret (subnets_default v, e)
    | inr diff =>
        let new_prefix := w64 (n_prefix n + diff) in
        if new_prefix >? width v then Ret (subnets_default v, invalid_prefixlen_diff)
        else s <- subnets_make v address (broadcast n) (hostmask n) diff new_prefix ;; Ret (s, code)
    end.
(** The throwing overload, ip-network-base.hpp 983-990. *)
Definition subnets (sp : bool) (v : ver) (n : net) (prefixlen_diff : Z) (new_prefixlen : option Z) : res subnets_seq :=
  '(result, code) <- subnets_code sp v n no_error prefixlen_diff new_prefixlen ;; raise_if result code 0.
(** size 829, at 849, front 858, back 867, empty 820, rbegin 766, rend 775. *)
Definition subnets_at (v : ver) (s : subnets_seq) (n : Z) : res net :=
  a <- nit_add v (s_begin s) n ;; Ret (ni_current a).
Definition subnets_front (s : subnets_seq) : net := ni_current (s_begin s).
Definition subnets_back (v : ver) (s : subnets_seq) : res net :=
  a <- nit_sub v (s_end s) 1 ;; Ret (ni_current a).
Definition subnets_empty (v : ver) (s : subnets_seq) : res bool := nit_eqb v (s_begin s) (s_end s).
Definition subnets_rbegin (v : ver) (s : subnets_seq) : res nit := nit_reverse v (s_end s).
Definition subnets_rend (v : ver) (s : subnets_seq) : res nit := nit_reverse v (s_begin s).

(** ** ip_exclude_network_iterator, ip-network-iterator.hpp 461-664 *)
Record xit := mk_xit { x_other : net; x_s1 : net; x_s2 : net; x_current : net }.
Definition xit_default (v : ver) : xit := mk_xit (net_default v) (net_default v) (net_default v) (net_default v).
(** subnets[0] and subnets[1] of the default subnets(). *)
Definition halves (sp : bool) (v : ver) (n : net) : res (net * net) :=
  s <- subnets sp v n 1 None ;; a <- subnets_at v s 0 ;; b <- subnets_at v s 1 ;; Ret (a, b).
(** operator++, ip-network-iterator.hpp 511-556; [UB AssertFailed] stands for the std::out_of_range
    exceptions at 533 and 551. *)
Definition xit_next (sp : bool) (v : ver) (x : xit) : res xit :=
  e1 <- net_eqb v (x_s1 x) (x_other x) ;;
  e2 <- net_eqb v (x_s2 x) (x_other x) ;;
  if negb e1 && negb e2 then
    i1 <- subnet_of sp v (x_other x) (x_s1 x) ;;
    if i1 : bool then
      c <- net_eqb v (x_current x) (x_s2 x) ;;
      if negb c then '(s1, s2) <- halves sp v (x_s1 x) ;; Ret (mk_xit (x_other x) s1 s2 (x_s2 x))
      else Ret (xit_default v)
    else
      i2 <- subnet_of sp v (x_other x) (x_s2 x) ;;
      if i2 : bool then
        c <- net_eqb v (x_current x) (x_s1 x) ;;
        if negb c then '(s1, s2) <- halves sp v (x_s2 x) ;; Ret (mk_xit (x_other x) s1 s2 (x_s1 x))
        else Ret (xit_default v)
      else UB AssertFailed
  else if e1 then
    c <- net_eqb v (x_current x) (x_s2 x) ;;
    if negb c then Ret (mk_xit (x_other x) (x_s1 x) (x_s2 x) (x_s2 x)) else Ret (xit_default v)
  else if e2 then
    c <- net_eqb v (x_current x) (x_s1 x) ;;
    if negb c then Ret (mk_xit (x_other x) (x_s1 x) (x_s2 x) (x_s1 x)) else Ret (xit_default v)
  else UB AssertFailed.
(** Constructor, ip-network-iterator.hpp 481-486. *)
Definition xit_make (sp : bool) (v : ver) (network other : net) : res xit :=
  '(s1, s2) <- halves sp v network ;; xit_next sp v (mk_xit other s1 s2 network).
(** == ip-network-iterator.hpp 577-579 and the reversed <=> 603-605, < 617-619. *)
Definition xit_eqb (v : ver) (a b : xit) : res bool := net_eqb v (x_current a) (x_current b).
Definition xit_cmp (v : ver) (a b : xit) : res comparison := net_cmp v (x_current b) (x_current a).
Definition xit_ltb (v : ver) (a b : xit) : res bool := net_ltb v (x_current b) (x_current a).

(** exclude_network_sequence ip-network-iterator.hpp 890-970: begin and end. *)
Record exclude_seq := mk_exclude { e_begin : xit; e_end : xit }.
Definition exclude_default (v : ver) : exclude_seq := mk_exclude (xit_default v) (xit_default v).
(** address_exclude with an error code, ip-network-base.hpp 940-954. *)
Definition exclude_code (sp : bool) (v : ver) (n other : net) (code : ec) : res (exclude_seq * ec) :=
  lhs <- remove_scope_net v n ;;
  rhs <- remove_scope_net v other ;;
  sub <- subnet_of sp v rhs lhs ;;
  if negb sub then Ret (exclude_default v, not_contained_network)
  else
    eq <- net_eqb v lhs rhs ;;
    if eq : bool then Ret (exclude_default v, code)
    else x <- xit_make sp v lhs rhs ;; Ret (mk_exclude x (xit_default v), code).
(** The throwing overload, ip-network-base.hpp 904-911. *)
Definition address_exclude (sp : bool) (v : ver) (n other : net) : res exclude_seq :=
  '(result, code) <- exclude_code sp v n other no_error ;; raise_if result code 0.

(** Running a range-for loop: the elements visited from an iterator up to
    (excluding) the end, within [k] increments. *)
Fixpoint walk {A B} (eqb : A -> A -> res bool) (next : A -> res A) (get : A -> B) (k : nat) (it last : A)
  : res (list B) :=
  e <- eqb it last ;;
  if e : bool then Ret []
  else match k with
       | O => UB OutOfFuel
       | S k' => it' <- next it ;; r <- walk eqb next get k' it' last ;; Ret (get it :: r)
       end.
Definition hosts_walk (v : ver) := walk (ait_eqb v) (ait_next v) it_current.
Definition hosts_rwalk (v : ver) := walk (ait_eqb v) (ait_prev v) it_current.
Definition subnets_walk (v : ver) := walk (nit_eqb v) (nit_next v) ni_current.
Definition subnets_rwalk (v : ver) := walk (nit_eqb v) (nit_prev v) ni_current.
Definition exclude_walk (sp : bool) (v : ver) := walk (xit_eqb v) (xit_next sp v) x_current.
