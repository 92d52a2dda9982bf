(** IPv6 network operations under every setting of the scope-id macros (see
    ConfigModel and NetConfigModel): the functions of NetworkModel and IterModel
    that compare addresses or drop scope ids, with the comparisons and the setter
    of the setting.  The others (contains, overlaps, supernet, broadcast_address,
    hostmask, counts, the arithmetic of iterators) do not depend on it. *)
From Verif Require Import Base V4Model V6Model Uint128Model SpecInt AddressModel NetworkModel IterModel ConfigModel NetConfigModel.

(** Relational operators of addresses, ip-address-base.hpp 698-754, see AddressModel. *)
Definition op_lt_c (g : config) (sp : bool) (a b : addr) : res bool :=
  if sp then c <- addr_cmp_c g a b ;; Ret (match c with Lt => true | _ => false end) else addr_ltb_c g a b.
Definition op_le_c (g : config) (sp : bool) (a b : addr) : res bool :=
  if sp then c <- addr_cmp_c g a b ;; Ret (match c with Gt => false | _ => true end)
  else x <- addr_ltb_c g b a ;; Ret (negb x).
Definition op_ge_c (g : config) (sp : bool) (a b : addr) : res bool :=
  if sp then c <- addr_cmp_c g a b ;; Ret (match c with Lt => false | _ => true end)
  else x <- addr_ltb_c g a b ;; Ret (negb x).

(** is_subnet_of, ip-network-base.hpp 1314-1316, subnet_of 549-551, supernet_of 572-574. *)
Definition is_subnet_of_c (g : config) (sp : bool) (lhs rhs : net) : res bool :=
  x <- op_le_c g sp (n_addr rhs) (n_addr lhs) ;;
  if x : bool then op_ge_c g sp (broadcast rhs) (broadcast lhs) else Ret false.
Definition subnet_of_c (g : config) (sp : bool) (n other : net) : res bool := is_subnet_of_c g sp n other.
Definition supernet_of_c (g : config) (sp : bool) (n other : net) : res bool := is_subnet_of_c g sp other n.

(** remove_scope_id of an address and of a network, ipv6-network.hpp 47-55. *)
Definition remove_scope_c (g : config) (a : addr) : res addr :=
  '(s, code) <- v6_set_scope_c g (a_scope a) no_error 0 [] ;; raise_if (mk_addr (a_bytes a) s) code 0.
Definition remove_scope_net_c (g : config) (n : net) : res net :=
  a <- remove_scope_c g (n_addr n) ;; from_address V6 a (n_prefix n) true.

(** ** hosts *)
(** == of address iterators, ip-address-iterator.hpp 703-705. *)
Definition ait_eqb_c (g : config) (a b : ait) : res bool :=
  if it_carry a =? it_carry b then addr_eqb_c g (it_current a) (it_current b) else Ret false.
(** hosts_sequence, ip-address-iterator.hpp 889-906, and hosts, ip-network-base.hpp 877-879. *)
Definition hosts_make_c (g : config) (sp : bool) (na ba : addr) (prefixlen maxp : Z) : res hosts_seq :=
  if prefixlen =? maxp - 1 then
    n <- addr_to_uint V6 na ;; b <- addr_to_uint V6 ba ;;
    first <- addr_from_uint V6 n ;; last <- addr_from_uint V6 (uadd V6 b 1) ;;
    x <- ait_make V6 first 0 ;; y <- ait_make V6 last 0 ;; Ret (mk_hosts x y)
  else if prefixlen =? maxp then
    n <- addr_to_uint V6 na ;;
    first <- addr_from_uint V6 n ;; last <- addr_from_uint V6 (uadd V6 n 1) ;;
    lt <- op_lt_c g sp last first ;;
    x <- ait_make V6 first 0 ;; y <- ait_make V6 last (if lt : bool then 1 else 0) ;; Ret (mk_hosts x y)
  else
    n <- addr_to_uint V6 na ;; b <- addr_to_uint V6 ba ;;
    first <- addr_from_uint V6 (uadd V6 n 1) ;;
    last <- addr_from_uint V6 (uadd V6 b 1) ;;
    x <- ait_make V6 first 0 ;; y <- ait_make V6 last 0 ;; Ret (mk_hosts x y).
Definition hosts_c (g : config) (sp : bool) (n : net) : res hosts_seq :=
  hosts_make_c g sp (n_addr n) (broadcast n) (n_prefix n) 128.
(** empty, ip-address-iterator.hpp 985, and the loops of IterModel. *)
Definition hosts_empty_c (g : config) (s : hosts_seq) : res bool := ait_eqb_c g (h_begin s) (h_end s).
Definition hosts_walk_c (g : config) := walk (ait_eqb_c g) (ait_next V6) it_current.
Definition hosts_rwalk_c (g : config) := walk (ait_eqb_c g) (ait_prev V6) it_current.

(** ** subnets *)
(** == of network iterators, ip-network-iterator.hpp 317-319. *)
Definition nit_eqb_c (g : config) (a b : nit) : res bool :=
  if it_carry (ni_it a) =? it_carry (ni_it b) then net_eqb_c g (ni_current a) (ni_current b) else Ret false.
(** subnets_sequence, ip-network-iterator.hpp 711-718 and 732-741. *)
Definition subnets_single_c (g : config) (sp : bool) (na : addr) (new_prefixlen : Z) : res subnets_seq :=
  let first := mk_addr (a_bytes na) [] in
  n <- addr_to_uint V6 na ;;
  last <- addr_from_uint V6 (uadd V6 n 1) ;;
  x <- nit_make V6 first 1 new_prefixlen 0 ;;
  lt <- op_lt_c g sp last first ;;
  y <- nit_make V6 last 1 new_prefixlen (if lt : bool then 1 else 0) ;;
  Ret (mk_subnets x y 1).
Definition subnets_make_c (g : config) (na ba hm : addr) (prefixlen_diff new_prefixlen : Z) : res subnets_seq :=
  begin_uint <- addr_to_uint V6 na ;;
  end_uint <- addr_to_uint V6 ba ;;
  first <- addr_from_uint V6 begin_uint ;;
  last <- addr_from_uint V6 (uadd V6 end_uint 1) ;;
  h <- addr_to_uint V6 hm ;;
  s <- ushr V6 h prefixlen_diff ;;
  let step := uadd V6 s 1 in
  x <- nit_make V6 first step new_prefixlen 0 ;;
  eq <- addr_eqb_c g first last ;;
  y <- nit_make V6 last step new_prefixlen (if eq : bool then 1 else 0) ;;
  q <- udivide V6 (usub V6 end_uint begin_uint) step ;;
  Ret (mk_subnets x y (uadd V6 q 1)).
(** subnets, ip-network-base.hpp 1022-1049 and 983-990. *)
Definition subnets_code_c (g : config) (sp : bool) (n : net) (code : ec) (prefixlen_diff : Z) (new_prefixlen : option Z)
  : res (subnets_seq * ec) :=
  address <- remove_scope_c g (n_addr n) ;;
  if n_prefix n =? 128 then
    s <- subnets_single_c g sp address (n_prefix n) ;; Ret (s, code)
  else
    match
      match new_prefixlen with
      | Some np =>
          if np <? n_prefix n then inl new_prefix_must_be_longer
          else if negb (prefixlen_diff =? 1) then inl cannot_set_prefixlen_diff_and_new_prefix
          else inr (np - n_prefix n)
      | None => inr prefixlen_diff
      end
    with
    | inl e => Ret (subnets_default V6, e)
    | inr diff =>
        let new_prefix := w64 (n_prefix n + diff) in
        if new_prefix >? 128 then Ret (subnets_default V6, invalid_prefixlen_diff)
        else s <- subnets_make_c g address (broadcast n) (hostmask n) diff new_prefix ;; Ret (s, code)
    end.
Definition subnets_c (g : config) (sp : bool) (n : net) (prefixlen_diff : Z) (new_prefixlen : option Z) : res subnets_seq :=
  '(result, code) <- subnets_code_c g sp n no_error prefixlen_diff new_prefixlen ;; raise_if result code 0.
(** empty, ip-network-iterator.hpp 820, and the loops of IterModel. *)
Definition subnets_empty_c (g : config) (s : subnets_seq) : res bool := nit_eqb_c g (s_begin s) (s_end s).
Definition subnets_walk_c (g : config) := walk (nit_eqb_c g) (nit_next V6) ni_current.
Definition subnets_rwalk_c (g : config) := walk (nit_eqb_c g) (nit_prev V6) ni_current.

(** ** address_exclude *)
(** operator++ of ip_exclude_network_iterator, ip-network-iterator.hpp 511-556, the constructor
    481-486 and == 577-579. *)
Definition halves_c (g : config) (sp : bool) (n : net) : res (net * net) :=
  s <- subnets_c g sp n 1 None ;; a <- subnets_at V6 s 0 ;; b <- subnets_at V6 s 1 ;; Ret (a, b).
Definition xit_next_c (g : config) (sp : bool) (x : xit) : res xit :=
  e1 <- net_eqb_c g (x_s1 x) (x_other x) ;;
  e2 <- net_eqb_c g (x_s2 x) (x_other x) ;;
  if negb e1 && negb e2 then
    i1 <- subnet_of_c g sp (x_other x) (x_s1 x) ;;
    if i1 : bool then
      c <- net_eqb_c g (x_current x) (x_s2 x) ;;
      if negb c then '(s1, s2) <- halves_c g sp (x_s1 x) ;; Ret (mk_xit (x_other x) s1 s2 (x_s2 x))
      else Ret (xit_default V6)
    else
      i2 <- subnet_of_c g sp (x_other x) (x_s2 x) ;;
      if i2 : bool then
        c <- net_eqb_c g (x_current x) (x_s1 x) ;;
        if negb c then '(s1, s2) <- halves_c g sp (x_s2 x) ;; Ret (mk_xit (x_other x) s1 s2 (x_s1 x))
        else Ret (xit_default V6)
      else UB AssertFailed
  else if e1 then
    c <- net_eqb_c g (x_current x) (x_s2 x) ;;
    if negb c then Ret (mk_xit (x_other x) (x_s1 x) (x_s2 x) (x_s2 x)) else Ret (xit_default V6)
  else if e2 then
    c <- net_eqb_c g (x_current x) (x_s1 x) ;;
    if negb c then Ret (mk_xit (x_other x) (x_s1 x) (x_s2 x) (x_s1 x)) else Ret (xit_default V6)
  else UB AssertFailed.
Definition xit_make_c (g : config) (sp : bool) (network other : net) : res xit :=
  '(s1, s2) <- halves_c g sp network ;; xit_next_c g sp (mk_xit other s1 s2 network).
Definition xit_eqb_c (g : config) (a b : xit) : res bool := net_eqb_c g (x_current a) (x_current b).
(** address_exclude, ip-network-base.hpp 940-954 and 904-911. *)
Definition exclude_code_c (g : config) (sp : bool) (n other : net) (code : ec) : res (exclude_seq * ec) :=
  lhs <- remove_scope_net_c g n ;;
  rhs <- remove_scope_net_c g other ;;
  sub <- subnet_of_c g sp rhs lhs ;;
  if negb sub then Ret (exclude_default V6, not_contained_network)
  else
    eq <- net_eqb_c g lhs rhs ;;
    if eq : bool then Ret (exclude_default V6, code)
    else x <- xit_make_c g sp lhs rhs ;; Ret (mk_exclude x (xit_default V6), code).
Definition address_exclude_c (g : config) (sp : bool) (n other : net) : res exclude_seq :=
  '(result, code) <- exclude_code_c g sp n other no_error ;; raise_if result code 0.
Definition exclude_walk_c (g : config) (sp : bool) := walk (xit_eqb_c g) (xit_next_c g sp) x_current.
