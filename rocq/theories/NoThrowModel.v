(** The functions that throw, as they are in builds with
    IPADDRESS_NO_EXCEPTIONS.  There raise_error (errors.hpp 296-388) returns
    (lines 383-387; the division by zero 385 only happens in constant
    expressions, which then do not compile and are not modelled), and so the
    functions that call it carry on.  [Err] does not occur in this file. *)
From Verif Require Import Base UnicodeModel Uint128Model SpecInt FixedStringModel V4Model V6Model AddressModel NetworkModel IterModel AnyModel CodeModel
  StreamModel LiteralModel ScopeModel.

(** raise_error at the end of a function with a result. *)
Definition nx_raise {A} (result : A) (code : ec) : res A := Ret result.

(** ** fixed_string *)
(** char_or_throw::next, unicode.hpp 27-35 (char: 202-204): next_or_error returns
    the character 0 with every error. *)
Definition nx_next (t : tok) : Z :=
  let '(result, code, error_symbol) := next_st t no_error 0 in result.
(** fixed_string(const T (&data)[N + 1]), fixed-string.hpp 59-70, and 393-395
    for N = 0. *)
Fixpoint nx_fs_fill (k : nat) (next : reader) (data : list Z) (n it i : Z) (f : fstr) : res fstr :=
  match k with
  | O => Ret f
  | S k' =>
      '(t, it) <- next data n it ;;
      let c := nx_next t in
      d <- wr (fs_data f) i c ;;
      if c =? 0 then Ret (mkfs (fs_length f) d)
      else nx_fs_fill k' next data n it (i + 1) (mkfs (fs_length f + 1) d)
  end.
Definition nx_fs_make (next : reader) (n : nat) (data : list Z) : res fstr :=
  match n with
  | O => Ret (fs_empty 0)
  | _ => nx_fs_fill n next data (Z.of_nat n) 0 0 (fs_empty n)
  end.

(** ** parse *)
(** parse_string, ip-address-base.hpp 762-771. *)
Definition nx_parse (v : ver) (ts : list tok) : res addr :=
  '(result, code, value) <- string_st v ts no_error 0 ;; nx_raise result code.
Definition nx_addr_string (T : chtype) (v : ver) (s : list Z) : res addr :=
  ts <- tokens (reader_of T) s ;; nx_parse v ts.
(** parse(const T (&)[N]), ip-address-base.hpp 402-414 (lines 404-409). *)
Definition nx_addr_array (T : chtype) (v : ver) (data : list Z) : res addr :=
  '(str, err) <- fs_make_st (reader_of T) (cap data) data no_error ;;
  if negb (ok err) then Ret (addr_default v) else nx_parse v (chars (fs_chars str)).
(** parse_address_with_prefix, ip-network-base.hpp 1245-1254. *)
Definition nx_net_parse (v : ver) (ts : list tok) (strict : bool) : res net :=
  '(result, code, value) <- net_string_st v ts strict no_error 0 ;; nx_raise result code.
Definition nx_net_string (T : chtype) (v : ver) (strict : bool) (s : list Z) : res net :=
  ts <- tokens (reader_of T) s ;; nx_net_parse v ts strict.
(** parse(const T (&)[N]), ip-network-base.hpp 377-389 (lines 379-384). *)
Definition nx_net_array (T : chtype) (v : ver) (strict : bool) (data : list Z) : res net :=
  '(str, err) <- fs_make_st (reader_of T) (cap data) data no_error ;;
  if negb (ok err) then Ret (net_default v) else nx_net_parse v (chars (fs_chars str)) strict.
(** ip_any_parser::parse, ip-any-address.hpp 32-40, of a string and of an array (1144-1147). *)
Definition nx_any_string (T : chtype) (s : list Z) : res aaddr :=
  ts <- tokens (reader_of T) s ;;
  '(ipv4, code) <- parse_st V4 ts no_error ;;
  if ok code then Ret (mk_aa V4 ipv4) else a <- nx_parse V6 ts ;; Ret (mk_aa V6 a).
Definition nx_any_array (T : chtype) (data : list Z) : res aaddr :=
  '(ipv4, code) <- parse_array_st V4 (reader_of T) (cap data) data no_error ;;
  if ok code then Ret (mk_aa V4 ipv4) else a <- nx_addr_array T V6 data ;; Ret (mk_aa V6 a).
(** net_any_parser::parse, ip-any-network.hpp 34-42, of a string and of an array (1179-1182). *)
Definition nx_anet_string (T : chtype) (strict : bool) (s : list Z) : res anet :=
  ts <- tokens (reader_of T) s ;;
  '(net4, code) <- net_parse_st V4 ts strict no_error ;;
  if ok code then Ret (mk_an V4 net4) else n <- nx_net_parse V6 ts strict ;; Ret (mk_an V6 n).
Definition nx_anet_array (T : chtype) (strict : bool) (data : list Z) : res anet :=
  '(net4, code) <- net_array_st V4 (reader_of T) (cap data) data strict no_error ;;
  if ok code then Ret (mk_an V4 net4) else n <- nx_net_array T V6 strict data ;; Ret (mk_an V6 n).

(** The literal operators of compilers without class-type template arguments:
    the loop copies at most MaxLen units into MaxLen + 1 zero units
    (ip-address-base.hpp 787-794, ip-network-base.hpp 1329-1336,
    ip-any-address.hpp 1388-1395, ip-any-network.hpp 1363-1370 and their copies
    for the other character types). *)
Definition nx_literal {A} (maxlen : Z) (parse : list Z -> res A) (s : list Z) : res A :=
  let str := firstn (Z.to_nat maxlen) s in
  parse (str ++ repeat 0 (Z.to_nat (maxlen + 1 - zlen str))).
(** parse_ip_from_literal, ip-address-base.hpp 785-795. *)
Definition nx_addr_literal (T : chtype) (v : ver) : list Z -> res addr := nx_literal (max_string_len v) (nx_addr_array T v).
(** parse_net_from_literal, ip-network-base.hpp 1327-1337. *)
Definition nx_net_literal (T : chtype) (v : ver) : list Z -> res net :=
  nx_literal (match v with V4 => max_string_len V4 * 2 + 1 | V6 => max_string_len V6 + 4 end) (nx_net_array T v true).
(** ip-any-address.hpp 1387-1450 and ip-any-network.hpp 1361-1437. *)
Definition nx_any_literal (T : chtype) : list Z -> res aaddr := nx_literal (max_string_len V6) (nx_any_array T).
Definition nx_anet_literal (T : chtype) : list Z -> res anet := nx_literal (max_string_len V6 * 2 + 1) (nx_anet_array T true).

(** ** set_scope_id *)
(** ipv6_set_scope::change, ipv6-address.hpp 25-37, without lines 32-34. *)
Definition nx_set_scope (a : addr) (n : Z) (ts : list tok) : res addr :=
  '(s, code, index) <- change_st (a_scope a) n ts no_error 0 ;; Ret (mk_addr (a_bytes a) s).
Definition nx_scope_set (T : chtype) (a : addr) (s : list Z) : res addr :=
  ts <- tokens (reader_of T) s ;; nx_set_scope a (zlen s) ts.
(** set_scope_id(const T (&)[N]), ipv6-address.hpp 307-321 (lines 312-316). *)
Definition nx_scope_set_array (T : chtype) (a : addr) (data : list Z) : res addr :=
  '(result, code) <- fs_make_st (reader_of T) (cap data) data no_error ;;
  if ok code then nx_set_scope a (fs_size result) (chars (fs_chars result)) else Ret a.
(** ip_address::set_scope_id, ip-any-address.hpp 748-751 ... 1178-1182. *)
Definition nx_any_scope_set (T : chtype) (x : aaddr) (s : list Z) : res aaddr :=
  if ver_eqb (aa_ver x) V6 then a <- nx_scope_set T (aa_addr x) s ;; Ret (mk_aa V6 a) else Ret x.
Definition nx_any_scope_set_array (T : chtype) (x : aaddr) (data : list Z) : res aaddr :=
  if ver_eqb (aa_ver x) V6 then a <- nx_scope_set_array T (aa_addr x) data ;; Ret (mk_aa V6 a) else Ret x.

(** ** Networks *)
(** from_address, ip-network-base.hpp 425-438. *)
Definition nx_from_address (v : ver) (address : addr) (prefixlen : Z) (strict : bool) : res net :=
  '(result, code) <- from_address_st v address prefixlen strict no_error ;; nx_raise result code.
(** supernet with a code, ip-network-base.hpp 1105-1132, which ends in
    from_address without one, and supernet, 1072-1079. *)
Definition nx_supernet_st (v : ver) (n : net) (prefixlen_diff : Z) (new_prefixlen : option Z) (code : ec) : res (net * ec) :=
  let code := no_error in
  let finish prefixlen_diff :=
    if prefixlen_diff >? n_prefix n then Ret (net_default v, invalid_prefixlen_diff)
    else
      let new_prefix := n_prefix n - prefixlen_diff in
      a <- addr_to_uint v (n_addr n) ;;
      m <- addr_to_uint v (n_mask n) ;;
      s <- ushl v m prefixlen_diff ;;
      address <- addr_from_uint v (uand v a s) ;;
      r <- nx_from_address v address new_prefix true ;;
      Ret (r, code) in
  if n_prefix n =? 0 then Ret (n, code)
  else
    match new_prefixlen with
    | Some np =>
        if np >? n_prefix n then Ret (net_default v, new_prefix_must_be_shorter)
        else if negb (prefixlen_diff =? 1) then Ret (net_default v, cannot_set_prefixlen_diff_and_new_prefix)
        else finish (n_prefix n - np)
    | None => finish prefixlen_diff
    end.
Definition nx_supernet (v : ver) (n : net) (prefixlen_diff : Z) (new_prefixlen : option Z) : res net :=
  '(result, code) <- nx_supernet_st v n prefixlen_diff new_prefixlen no_error ;; nx_raise result code.
(** ip_network_iterator: the constructor ip-network-iterator.hpp 57-59, add
    428-431 and ++, which call from_address. *)
Definition nx_nit_make (v : ver) (ref : addr) (step prefixlen carry : Z) : res nit :=
  n <- nx_from_address v ref prefixlen true ;; a <- ait_make v ref carry ;; Ret (mk_nit n a step prefixlen).
Definition nx_nit_add (v : ver) (a : nit) (n : Z) : res nit :=
  x <- ait_add v (ni_it a) (umul v (ni_step a) n) ;;
  c <- nx_from_address v (it_current x) (ni_prefix a) true ;; Ret (mk_nit c x (ni_step a) (ni_prefix a)).
Definition nx_nit_next (v : ver) (a : nit) : res nit := nx_nit_add v a 1.
(** subnets_sequence, ip-network-iterator.hpp 711-718 and 732-741. *)
Definition nx_subnets_single (sp : bool) (v : ver) (na : addr) (new_prefixlen : Z) : res subnets_seq :=
  let first := mk_addr (a_bytes na) [] in
  n <- addr_to_uint v na ;;
  last <- addr_from_uint v (uadd v n 1) ;;
  x <- nx_nit_make v first 1 new_prefixlen 0 ;;
  lt <- op_lt sp v last first ;;
  y <- nx_nit_make v last 1 new_prefixlen (if lt : bool then 1 else 0) ;;
  Ret (mk_subnets x y 1).
Definition nx_subnets_make (v : ver) (na ba hm : addr) (prefixlen_diff new_prefixlen : Z) : res subnets_seq :=
  begin_uint <- addr_to_uint v na ;;
  end_uint <- addr_to_uint v ba ;;
  first <- addr_from_uint v begin_uint ;;
  last <- addr_from_uint v (uadd v end_uint 1) ;;
  h <- addr_to_uint v hm ;;
  s <- ushr v h prefixlen_diff ;;
  let step := uadd v s 1 in
  x <- nx_nit_make v first step new_prefixlen 0 ;;
  eq <- addr_eqb v first last ;;
  y <- nx_nit_make v last step new_prefixlen (if eq : bool then 1 else 0) ;;
  q <- udivide v (usub v end_uint begin_uint) step ;;
  Ret (mk_subnets x y (uadd v q 1)).
(** subnets, ip-network-base.hpp 1022-1049 and 983-990. *)
Definition nx_subnets_code (sp : bool) (v : ver) (n : net) (code : ec) (prefixlen_diff : Z) (new_prefixlen : option Z)
  : res (subnets_seq * ec) :=
  address <- remove_scope v (n_addr n) ;;
  if n_prefix n =? width v then
    s <- nx_subnets_single sp v address (n_prefix n) ;; Ret (s, code)
  else
    match
      match new_prefixlen with
      | Some np =>
          if np <? n_prefix n then inl new_prefix_must_be_longer
          else if negb (prefixlen_diff =? 1) then inl cannot_set_prefixlen_diff_and_new_prefix
          else inr (np - n_prefix n)
      | None => inr prefixlen_diff
      end
    with
    | inl e => Ret (subnets_default v, e)
    | inr diff =>
        let new_prefix := w64 (n_prefix n + diff) in
        if new_prefix >? width v then Ret (subnets_default v, invalid_prefixlen_diff)
        else s <- nx_subnets_make v address (broadcast n) (hostmask n) diff new_prefix ;; Ret (s, code)
    end.
Definition nx_subnets (sp : bool) (v : ver) (n : net) (prefixlen_diff : Z) (new_prefixlen : option Z) : res subnets_seq :=
  '(result, code) <- nx_subnets_code sp v n no_error prefixlen_diff new_prefixlen ;; nx_raise result code.
Definition nx_subnets_at (v : ver) (s : subnets_seq) (n : Z) : res net :=
  a <- nx_nit_add v (s_begin s) n ;; Ret (ni_current a).
Definition nx_subnets_walk (v : ver) := walk (nit_eqb v) (nx_nit_next v) ni_current.

(** ** address_exclude *)
(** remove_scope_id of a network, ipv4-network.hpp 37-39, ipv6-network.hpp 53-55. *)
Definition nx_remove_scope_net (v : ver) (n : net) : res net :=
  match v with
  | V4 => Ret n
  | V6 => a <- remove_scope v (n_addr n) ;; nx_from_address v a (n_prefix n) true
  end.
(** subnets()[0] and subnets()[1]. *)
Definition nx_halves (sp : bool) (v : ver) (n : net) : res (net * net) :=
  s <- nx_subnets sp v n 1 None ;; a <- nx_subnets_at v s 0 ;; b <- nx_subnets_at v s 1 ;; Ret (a, b).
(** operator++, ip-network-iterator.hpp 511-556: without the throw expressions
    533 and 551 the iterator stays as it is. *)
Definition nx_xit_next (sp : bool) (v : ver) (x : xit) : res xit :=
  e1 <- net_eqb v (x_s1 x) (x_other x) ;;
  e2 <- net_eqb v (x_s2 x) (x_other x) ;;
  if negb e1 && negb e2 then
    i1 <- subnet_of sp v (x_other x) (x_s1 x) ;;
    if i1 : bool then
      c <- net_eqb v (x_current x) (x_s2 x) ;;
      if negb c then '(s1, s2) <- nx_halves sp v (x_s1 x) ;; Ret (mk_xit (x_other x) s1 s2 (x_s2 x))
      else Ret (xit_default v)
    else
      i2 <- subnet_of sp v (x_other x) (x_s2 x) ;;
      if i2 : bool then
        c <- net_eqb v (x_current x) (x_s1 x) ;;
        if negb c then '(s1, s2) <- nx_halves sp v (x_s2 x) ;; Ret (mk_xit (x_other x) s1 s2 (x_s1 x))
        else Ret (xit_default v)
      else Ret x
  else if e1 then
    c <- net_eqb v (x_current x) (x_s2 x) ;;
    if negb c then Ret (mk_xit (x_other x) (x_s1 x) (x_s2 x) (x_s2 x)) else Ret (xit_default v)
  else if e2 then
    c <- net_eqb v (x_current x) (x_s1 x) ;;
    if negb c then Ret (mk_xit (x_other x) (x_s1 x) (x_s2 x) (x_s1 x)) else Ret (xit_default v)
  else Ret x.
(** Constructor, ip-network-iterator.hpp 481-486. *)
Definition nx_xit_make (sp : bool) (v : ver) (network other : net) : res xit :=
  '(s1, s2) <- nx_halves sp v network ;; nx_xit_next sp v (mk_xit other s1 s2 network).
(** address_exclude, ip-network-base.hpp 940-954 and 904-911. *)
Definition nx_exclude_code (sp : bool) (v : ver) (n other : net) (code : ec) : res (exclude_seq * ec) :=
  lhs <- nx_remove_scope_net v n ;;
  rhs <- nx_remove_scope_net v other ;;
  sub <- subnet_of sp v rhs lhs ;;
  if negb sub then Ret (exclude_default v, not_contained_network)
  else
    eq <- net_eqb v lhs rhs ;;
    if eq : bool then Ret (exclude_default v, code)
    else x <- nx_xit_make sp v lhs rhs ;; Ret (mk_exclude x (xit_default v), code).
Definition nx_exclude (sp : bool) (v : ver) (n other : net) : res exclude_seq :=
  '(result, code) <- nx_exclude_code sp v n other no_error ;; nx_raise result code.
Definition nx_exclude_walk (sp : bool) (v : ver) := walk (xit_eqb v) (nx_xit_next sp v) x_current.

(** ** Version-erased networks *)
(** from_address ip-any-network.hpp 740-748, supernet 431-433, subnets 535-543. *)
Definition nx_anet_from_address (a : aaddr) (p : Z) (strict : bool) : res anet :=
  if ver_eqb (aa_ver a) V4 then n <- nx_from_address V4 (aa_addr a) p strict ;; Ret (mk_an V4 n)
  else n <- nx_from_address V6 (aa_addr a) p strict ;; Ret (mk_an V6 n).
Definition nx_anet_supernet (x : anet) (d : Z) (np : option Z) : res anet :=
  if anet_is_v4 x then n <- nx_supernet V4 (an_net x) d np ;; Ret (mk_an V4 n)
  else n <- nx_supernet V6 (an_net x) d np ;; Ret (mk_an V6 n).
Definition nx_any_subnets (sp : bool) (x : anet) (d : Z) (np : option Z) : res (aseq nit anet) :=
  if anet_is_v4 x then s <- nx_subnets sp V4 (an_net x) d np ;; Ret (aseq_make net_ops V4 (s_begin s) (s_end s))
  else s <- nx_subnets sp V6 (an_net x) d np ;; Ret (aseq_make net_ops V6 (s_begin s) (s_end s)).
(** ip_any_iterator::add, ip-any-iterator.hpp 429-437, of subnets, and at 798-800. *)
Definition nx_aiter_add (a : aiter nit anet) (n : Z) : res (aiter nit anet) :=
  if ver_eqb (ai_ver a) V4 then it <- nx_nit_add V4 (ai_it a) (u32_of_u128 n) ;; Ret (mk_ai (ai_ver a) it (o_get net_ops V4 it))
  else it <- nx_nit_add V6 (ai_it a) n ;; Ret (mk_ai (ai_ver a) it (o_get net_ops V6 it)).
Definition nx_aiter_next (a : aiter nit anet) : res (aiter nit anet) := nx_aiter_add a (to_Z (u128_of_i64 1)).
Definition nx_aseq_at (s : aseq nit anet) (n : Z) : res anet := a <- nx_aiter_add (q_begin s) n ;; Ret (ai_cur a).
Definition nx_aseq_walk := walk (aiter_eqb net_ops) nx_aiter_next (@ai_cur nit anet).
Definition nx_any_halves (sp : bool) (x : anet) : res (anet * anet) :=
  s <- nx_any_subnets sp x 1 None ;; a <- nx_aseq_at s 0 ;; b <- nx_aseq_at s 1 ;; Ret (a, b).
(** operator++, ip-network-iterator.hpp 511-556, and the constructor 481-486. *)
Definition nx_axit_next (sp : bool) (x : axit) : res axit :=
  e1 <- anet_eqb (ax_s1 x) (ax_other x) ;;
  e2 <- anet_eqb (ax_s2 x) (ax_other x) ;;
  if negb e1 && negb e2 then
    i1 <- anet_subnet_of sp (ax_other x) (ax_s1 x) ;;
    if i1 : bool then
      c <- anet_eqb (ax_current x) (ax_s2 x) ;;
      if negb c then '(s1, s2) <- nx_any_halves sp (ax_s1 x) ;; Ret (mk_axit (ax_other x) s1 s2 (ax_s2 x))
      else Ret axit_default
    else
      i2 <- anet_subnet_of sp (ax_other x) (ax_s2 x) ;;
      if i2 : bool then
        c <- anet_eqb (ax_current x) (ax_s1 x) ;;
        if negb c then '(s1, s2) <- nx_any_halves sp (ax_s2 x) ;; Ret (mk_axit (ax_other x) s1 s2 (ax_s1 x))
        else Ret axit_default
      else Ret x
  else if e1 then
    c <- anet_eqb (ax_current x) (ax_s2 x) ;;
    if negb c then Ret (mk_axit (ax_other x) (ax_s1 x) (ax_s2 x) (ax_s2 x)) else Ret axit_default
  else if e2 then
    c <- anet_eqb (ax_current x) (ax_s1 x) ;;
    if negb c then Ret (mk_axit (ax_other x) (ax_s1 x) (ax_s2 x) (ax_s1 x)) else Ret axit_default
  else Ret x.
Definition nx_axit_make (sp : bool) (network other : anet) : res axit :=
  '(s1, s2) <- nx_any_halves sp network ;; nx_axit_next sp (mk_axit other s1 s2 network).
(** address_exclude, ip-any-network.hpp 644-666 and 608-615. *)
Definition nx_any_exclude_code (sp : bool) (x other : anet) (code : ec) : res (aexclude * ec) :=
  if negb (ver_eqb (an_ver x) (an_ver other)) then Ret (aexclude_default, invalid_version)
  else
    addr1 <- any_clear_scope (anet_address x) ;;
    addr2 <- any_clear_scope (anet_address other) ;;
    lhs <- nx_anet_from_address addr1 (anet_prefixlen x) true ;;
    rhs <- nx_anet_from_address addr2 (anet_prefixlen other) true ;;
    sub <- anet_subnet_of sp rhs lhs ;;
    if negb sub then Ret (aexclude_default, not_contained_network)
    else
      eq <- anet_eqb lhs rhs ;;
      if eq : bool then Ret (aexclude_default, no_error)
      else x <- nx_axit_make sp lhs rhs ;; Ret (mk_aexclude x axit_default, no_error).
Definition nx_any_exclude (sp : bool) (x other : anet) : res aexclude :=
  '(result, code) <- nx_any_exclude_code sp x other no_error ;; nx_raise result code.
Definition nx_aexclude_walk (sp : bool) := walk axit_eqb (nx_axit_next sp) ax_current.
