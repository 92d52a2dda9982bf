(** Network operations in builds with IPADDRESS_NO_EXCEPTIONS, under every
    setting of the scope-id macros: the functions of NoThrowModel that compare
    addresses or drop scope ids, with the comparisons and the setter of the
    setting (NetOpsConfigModel).  [Err] does not occur in this file; from_address,
    supernet and the steps of the iterators of subnets do not depend on the
    setting and are those of NoThrowModel. *)
From Verif Require Import Base V4Model V6Model Uint128Model SpecInt AddressModel NetworkModel IterModel AnyModel ConfigModel NetConfigModel NetOpsConfigModel
  RelModel AnyConfigModel NoThrowModel.

(** remove_scope_id of an address, ipv6-network.hpp 47-51: set_scope_id of an
    empty text; raise_error (ipv6-address.hpp 32-34) returns. *)
Definition q_remove_scope (g : config) (a : addr) : res addr :=
  '(s, code) <- v6_set_scope_c g (a_scope a) no_error 0 [] ;; nx_raise (mk_addr (a_bytes a) s) code.

(** ** subnets *)
(** subnets_sequence, ip-network-iterator.hpp 711-718 and 732-741. *)
Definition q_subnets_single (g : config) (sp : bool) (na : addr) (new_prefixlen : Z) : res subnets_seq :=
  let first := mk_addr (a_bytes na) [] in
  n <- addr_to_uint V6 na ;;
  last <- addr_from_uint V6 (uadd V6 n 1) ;;
  x <- nx_nit_make V6 first 1 new_prefixlen 0 ;;
  lt <- op_lt_c g sp last first ;;
  y <- nx_nit_make V6 last 1 new_prefixlen (if lt : bool then 1 else 0) ;;
  Ret (mk_subnets x y 1).
Definition q_subnets_make (g : config) (na ba hm : addr) (prefixlen_diff new_prefixlen : Z) : res subnets_seq :=
  begin_uint <- addr_to_uint V6 na ;;
  end_uint <- addr_to_uint V6 ba ;;
  first <- addr_from_uint V6 begin_uint ;;
  last <- addr_from_uint V6 (uadd V6 end_uint 1) ;;
  h <- addr_to_uint V6 hm ;;
  s <- ushr V6 h prefixlen_diff ;;
  let step := uadd V6 s 1 in
  x <- nx_nit_make V6 first step new_prefixlen 0 ;;
  eq <- addr_eqb_c g first last ;;
  y <- nx_nit_make V6 last step new_prefixlen (if eq : bool then 1 else 0) ;;
  q <- udivide V6 (usub V6 end_uint begin_uint) step ;;
  Ret (mk_subnets x y (uadd V6 q 1)).
(** subnets, ip-network-base.hpp 1022-1049 and 983-990. *)
Definition q_subnets_code (g : config) (sp : bool) (n : net) (code : ec) (prefixlen_diff : Z) (new_prefixlen : option Z)
  : res (subnets_seq * ec) :=
  address <- q_remove_scope g (n_addr n) ;;
  if n_prefix n =? 128 then
    s <- q_subnets_single g sp address (n_prefix n) ;; Ret (s, code)
  else
    match
      match new_prefixlen with
      | Some np =>
          if np <? n_prefix n then inl new_prefix_must_be_longer
          else if negb (prefixlen_diff =? 1) then inl cannot_set_prefixlen_diff_and_new_prefix
          else inr (np - n_prefix n)
      | None => inr prefixlen_diff
      end
    with
    | inl e => Ret (subnets_default V6, e)
    | inr diff =>
        let new_prefix := w64 (n_prefix n + diff) in
        if new_prefix >? 128 then Ret (subnets_default V6, invalid_prefixlen_diff)
        else s <- q_subnets_make g address (broadcast n) (hostmask n) diff new_prefix ;; Ret (s, code)
    end.
Definition q_subnets (g : config) (sp : bool) (n : net) (prefixlen_diff : Z) (new_prefixlen : option Z) : res subnets_seq :=
  '(result, code) <- q_subnets_code g sp n no_error prefixlen_diff new_prefixlen ;; nx_raise result code.
Definition q_subnets_walk (g : config) := walk (nit_eqb_c g) (nx_nit_next V6) ni_current.

(** ** address_exclude *)
(** remove_scope_id of a network, ipv6-network.hpp 53-55. *)
Definition q_remove_scope_net (g : config) (n : net) : res net :=
  a <- q_remove_scope g (n_addr n) ;; nx_from_address V6 a (n_prefix n) true.
(** subnets()[0] and subnets()[1]. *)
Definition q_halves (g : config) (sp : bool) (n : net) : res (net * net) :=
  s <- q_subnets g sp n 1 None ;; a <- nx_subnets_at V6 s 0 ;; b <- nx_subnets_at V6 s 1 ;; Ret (a, b).
(** operator++, ip-network-iterator.hpp 511-556: without the throw expressions
    533 and 551 the iterator stays as it is. *)
Definition q_xit_next (g : config) (sp : bool) (x : xit) : res xit :=
  e1 <- net_eqb_c g (x_s1 x) (x_other x) ;;
  e2 <- net_eqb_c g (x_s2 x) (x_other x) ;;
  if negb e1 && negb e2 then
    i1 <- subnet_of_c g sp (x_other x) (x_s1 x) ;;
    if i1 : bool then
      c <- net_eqb_c g (x_current x) (x_s2 x) ;;
      if negb c then '(s1, s2) <- q_halves g sp (x_s1 x) ;; Ret (mk_xit (x_other x) s1 s2 (x_s2 x))
      else Ret (xit_default V6)
    else
      i2 <- subnet_of_c g sp (x_other x) (x_s2 x) ;;
      if i2 : bool then
        c <- net_eqb_c g (x_current x) (x_s1 x) ;;
        if negb c then '(s1, s2) <- q_halves g sp (x_s2 x) ;; Ret (mk_xit (x_other x) s1 s2 (x_s1 x))
        else Ret (xit_default V6)
      else Ret x
  else if e1 then
    c <- net_eqb_c g (x_current x) (x_s2 x) ;;
    if negb c then Ret (mk_xit (x_other x) (x_s1 x) (x_s2 x) (x_s2 x)) else Ret (xit_default V6)
  else if e2 then
    c <- net_eqb_c g (x_current x) (x_s1 x) ;;
    if negb c then Ret (mk_xit (x_other x) (x_s1 x) (x_s2 x) (x_s1 x)) else Ret (xit_default V6)
  else Ret x.
(** Constructor, ip-network-iterator.hpp 481-486. *)
Definition q_xit_make (g : config) (sp : bool) (network other : net) : res xit :=
  '(s1, s2) <- q_halves g sp network ;; q_xit_next g sp (mk_xit other s1 s2 network).
(** address_exclude, ip-network-base.hpp 940-954 and 904-911. *)
Definition q_exclude_code (g : config) (sp : bool) (n other : net) (code : ec) : res (exclude_seq * ec) :=
  lhs <- q_remove_scope_net g n ;;
  rhs <- q_remove_scope_net g other ;;
  sub <- subnet_of_c g sp rhs lhs ;;
  if negb sub then Ret (exclude_default V6, not_contained_network)
  else
    eq <- net_eqb_c g lhs rhs ;;
    if eq : bool then Ret (exclude_default V6, code)
    else x <- q_xit_make g sp lhs rhs ;; Ret (mk_exclude x (xit_default V6), code).
Definition q_exclude (g : config) (sp : bool) (n other : net) : res exclude_seq :=
  '(result, code) <- q_exclude_code g sp n other no_error ;; nx_raise result code.
Definition q_exclude_walk (g : config) (sp : bool) := walk (xit_eqb_c g) (q_xit_next g sp) x_current.

(** ** Version-erased networks *)
(** subnets ip-any-network.hpp 535-543. *)
Definition q_any_subnets (g : config) (sp : bool) (x : anet) (d : Z) (np : option Z) : res (aseq nit anet) :=
  if anet_is_v4 x then s <- nx_subnets sp V4 (an_net x) d np ;; Ret (aseq_make (net_ops_c g) V4 (s_begin s) (s_end s))
  else s <- q_subnets g sp (an_net x) d np ;; Ret (aseq_make (net_ops_c g) V6 (s_begin s) (s_end s)).
Definition q_aseq_walk (g : config) := walk (aiter_eqb (net_ops_c g)) nx_aiter_next (@ai_cur nit anet).
Definition q_any_halves (g : config) (sp : bool) (x : anet) : res (anet * anet) :=
  s <- q_any_subnets g sp x 1 None ;; a <- nx_aseq_at s 0 ;; b <- nx_aseq_at s 1 ;; Ret (a, b).
(** operator++, ip-network-iterator.hpp 511-556, and the constructor 481-486. *)
Definition q_axit_next (g : config) (sp : bool) (x : axit) : res axit :=
  e1 <- anet_eqb_c g (ax_s1 x) (ax_other x) ;;
  e2 <- anet_eqb_c g (ax_s2 x) (ax_other x) ;;
  if negb e1 && negb e2 then
    i1 <- anet_subnet_of_c g sp (ax_other x) (ax_s1 x) ;;
    if i1 : bool then
      c <- anet_eqb_c g (ax_current x) (ax_s2 x) ;;
      if negb c then '(s1, s2) <- q_any_halves g sp (ax_s1 x) ;; Ret (mk_axit (ax_other x) s1 s2 (ax_s2 x))
      else Ret axit_default
    else
      i2 <- anet_subnet_of_c g sp (ax_other x) (ax_s2 x) ;;
      if i2 : bool then
        c <- anet_eqb_c g (ax_current x) (ax_s1 x) ;;
        if negb c then '(s1, s2) <- q_any_halves g sp (ax_s2 x) ;; Ret (mk_axit (ax_other x) s1 s2 (ax_s1 x))
        else Ret axit_default
      else Ret x
  else if e1 then
    c <- anet_eqb_c g (ax_current x) (ax_s2 x) ;;
    if negb c then Ret (mk_axit (ax_other x) (ax_s1 x) (ax_s2 x) (ax_s2 x)) else Ret axit_default
  else if e2 then
    c <- anet_eqb_c g (ax_current x) (ax_s1 x) ;;
    if negb c then Ret (mk_axit (ax_other x) (ax_s1 x) (ax_s2 x) (ax_s1 x)) else Ret axit_default
  else Ret x.
Definition q_axit_make (g : config) (sp : bool) (network other : anet) : res axit :=
  '(s1, s2) <- q_any_halves g sp network ;; q_axit_next g sp (mk_axit other s1 s2 network).
(** The clearing of scope ids in address_exclude, ip-any-network.hpp 651-652. *)
Definition q_any_clear_scope (g : config) (x : aaddr) : res aaddr :=
  if ver_eqb (aa_ver x) V6 then a <- q_remove_scope g (aa_addr x) ;; Ret (mk_aa V6 a) else Ret x.
(** address_exclude, ip-any-network.hpp 644-666 and 608-615. *)
Definition q_any_exclude_code (g : config) (sp : bool) (x other : anet) (code : ec) : res (aexclude * ec) :=
  if negb (ver_eqb (an_ver x) (an_ver other)) then Ret (aexclude_default, invalid_version)
  else
    addr1 <- q_any_clear_scope g (anet_address x) ;;
    addr2 <- q_any_clear_scope g (anet_address other) ;;
    lhs <- nx_anet_from_address addr1 (anet_prefixlen x) true ;;
    rhs <- nx_anet_from_address addr2 (anet_prefixlen other) true ;;
    sub <- anet_subnet_of_c g sp rhs lhs ;;
    if negb sub then Ret (aexclude_default, not_contained_network)
    else
      eq <- anet_eqb_c g lhs rhs ;;
      if eq : bool then Ret (aexclude_default, no_error)
      else x <- q_axit_make g sp lhs rhs ;; Ret (mk_aexclude x axit_default, no_error).
Definition q_any_exclude (g : config) (sp : bool) (x other : anet) : res aexclude :=
  '(result, code) <- q_any_exclude_code g sp x other no_error ;; nx_raise result code.
Definition q_aexclude_walk (g : config) (sp : bool) := walk (axit_eqb_c g) (q_axit_next g sp) ax_current.
