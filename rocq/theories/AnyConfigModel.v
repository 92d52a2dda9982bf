(** The version-erased classes ip_address and ip_network under every setting of
    the scope-id macros (see ConfigModel, NetConfigModel and NetOpsConfigModel),
    and the stream operators in every build (see MacroModel).  The functions of
    AnyModel and StreamModel that reach one which depends on the setting; the
    others stay as they are. *)
From Verif Require Import Base UnicodeModel V4Model V6Model Uint128Model AddressModel NetworkModel IterModel AnyModel CodeModel StreamModel
  RelModel ConfigModel NetConfigModel NetOpsConfigModel MacroModel.

(** ** ip_address *)
(** hash ip-any-address.hpp 215-217, to_string 448-450. *)
Definition any_hash_c (g : config) (is64 : bool) (x : aaddr) : res Z :=
  if ver_eqb (aa_ver x) V4 then addr_hash is64 V4 (aa_addr x) else addr_hash_c g is64 (aa_addr x).
Definition any_to_string_c (g : config) (x : aaddr) (fmt : format) : res (list Z) :=
  if ver_eqb (aa_ver x) V4 then addr_to_string V4 (aa_addr x) fmt else addr_to_string_c g (aa_addr x) fmt.
(** == ip-any-address.hpp 1247-1252, <=> 1276-1282, < 1294-1302. *)
Definition any_eqb_c (g : config) (x y : aaddr) : res bool :=
  if negb (ver_eqb (aa_ver x) (aa_ver y)) then Ret false
  else if ver_eqb (aa_ver x) V4 then addr_eqb V4 (aa_addr x) (aa_addr y) else addr_eqb_c g (aa_addr x) (aa_addr y).
Definition any_cmp_c (g : config) (x y : aaddr) : res comparison :=
  match ver_num (aa_ver x) ?= ver_num (aa_ver y) with
  | Eq => if ver_eqb (aa_ver x) V4 then addr_cmp V4 (aa_addr x) (aa_addr y) else addr_cmp_c g (aa_addr x) (aa_addr y)
  | c => Ret c
  end.
Definition any_ltb_c (g : config) (x y : aaddr) : res bool :=
  if ver_num (aa_ver x) <? ver_num (aa_ver y) then Ret true
  else if ver_num (aa_ver x) >? ver_num (aa_ver y) then Ret false
  else if ver_eqb (aa_ver x) V4 then addr_ltb V4 (aa_addr x) (aa_addr y) else addr_ltb_c g (aa_addr x) (aa_addr y).

(** ** ip_network *)
(** hash ip-any-network.hpp 288-290, to_string 782-784. *)
Definition anet_hash_c (g : config) (is64 : bool) (x : anet) : res Z :=
  if anet_is_v4 x then net_hash is64 V4 (an_net x) else net_hash_c g is64 (an_net x).
Definition anet_to_string_c (g : config) (x : anet) (fmt : format) : res (list Z) :=
  if anet_is_v4 x then net_to_string V4 (an_net x) fmt else net_to_string_c g (an_net x) fmt.
(** == ip-any-network.hpp 1221-1226, <=> 1250-1256, < 1268-1276. *)
Definition anet_eqb_c (g : config) (x y : anet) : res bool :=
  if negb (ver_eqb (an_ver x) (an_ver y)) then Ret false
  else if ver_eqb (an_ver x) V4 then net_eqb V4 (an_net x) (an_net y) else net_eqb_c g (an_net x) (an_net y).
Definition anet_cmp_c (g : config) (x y : anet) : res comparison :=
  match ver_num (an_ver x) ?= ver_num (an_ver y) with
  | Eq => if ver_eqb (an_ver x) V4 then net_cmp V4 (an_net x) (an_net y) else net_cmp_c g (an_net x) (an_net y)
  | c => Ret c
  end.
Definition anet_ltb_c (g : config) (x y : anet) : res bool :=
  if ver_num (an_ver x) <? ver_num (an_ver y) then Ret true
  else if ver_num (an_ver x) >? ver_num (an_ver y) then Ret false
  else if ver_eqb (an_ver x) V4 then net_ltb V4 (an_net x) (an_net y) else net_ltb_c g (an_net x) (an_net y).
(** subnet_of ip-any-network.hpp 375-381, supernet_of 402-408. *)
Definition anet_subnet_of_c (g : config) (sp : bool) (x y : anet) : res bool :=
  if ver_eqb (an_ver x) (an_ver y) then
    if anet_is_v4 x then subnet_of sp V4 (an_net x) (an_net y) else subnet_of_c g sp (an_net x) (an_net y)
  else Ret false.
Definition anet_supernet_of_c (g : config) (sp : bool) (x y : anet) : res bool :=
  if ver_eqb (an_ver x) (an_ver y) then
    if anet_is_v4 x then supernet_of sp V4 (an_net x) (an_net y) else supernet_of_c g sp (an_net x) (an_net y)
  else Ret false.

(** The six relational operators of the four classes (RelModel.rel_op): ip-address-base.hpp
    672-754, ip-network-base.hpp 1153-1240, ip-any-address.hpp 1247-1338, ip-any-network.hpp 1221-1312. *)
Definition addr_rels_c (g : config) : rels addr := mk_rels (addr_eqb_c g) (addr_cmp_c g) (addr_ltb_c g).
Definition net_rels_c (g : config) : rels net := mk_rels (net_eqb_c g) (net_cmp_c g) (net_ltb_c g).
Definition any_rels_c (g : config) : rels aaddr := mk_rels (any_eqb_c g) (any_cmp_c g) (any_ltb_c g).
Definition anet_rels_c (g : config) : rels anet := mk_rels (anet_eqb_c g) (anet_cmp_c g) (anet_ltb_c g).

(** ** Iterators and sequences *)
(** <=> and < of the IPv6 iterators, ip-address-iterator.hpp 729-753 and
    ip-network-iterator.hpp 343-367, see IterModel. *)
Definition ait_cmp_c (g : config) (a b : ait) : res comparison :=
  match it_carry a ?= it_carry b with Eq => addr_cmp_c g (it_current a) (it_current b) | c => Ret c end.
Definition ait_ltb_c (g : config) (a b : ait) : res bool :=
  if it_carry a <? it_carry b then Ret true
  else if it_carry a =? it_carry b then addr_ltb_c g (it_current a) (it_current b) else Ret false.
Definition nit_cmp_c (g : config) (a b : nit) : res comparison :=
  match it_carry (ni_it a) ?= it_carry (ni_it b) with Eq => net_cmp_c g (ni_current a) (ni_current b) | c => Ret c end.
Definition nit_ltb_c (g : config) (a b : nit) : res bool :=
  if it_carry (ni_it a) <? it_carry (ni_it b) then Ret true
  else if it_carry (ni_it a) =? it_carry (ni_it b) then net_ltb_c g (ni_current a) (ni_current b) else Ret false.
(** What ip_any_iterator uses of them, see AnyModel.iops. *)
Definition host_ops_c (g : config) : iops ait aaddr := mk_iops _ _
  (o_get host_ops) (o_add host_ops) (o_sub host_ops) (o_at host_ops) (o_udiff host_ops) (o_diff host_ops)
  (fun v => match v with V4 => ait_eqb V4 | V6 => ait_eqb_c g end) (fun v => match v with V4 => ait_cmp V4 | V6 => ait_cmp_c g end)
  (fun v => match v with V4 => ait_ltb V4 | V6 => ait_ltb_c g end) (o_base host_ops) (o_reverse host_ops).
Definition net_ops_c (g : config) : iops nit anet := mk_iops _ _
  (o_get net_ops) (o_add net_ops) (o_sub net_ops) (o_at net_ops) (o_udiff net_ops) (o_diff net_ops)
  (fun v => match v with V4 => nit_eqb V4 | V6 => nit_eqb_c g end) (fun v => match v with V4 => nit_cmp V4 | V6 => nit_cmp_c g end)
  (fun v => match v with V4 => nit_ltb V4 | V6 => nit_ltb_c g end) (o_base net_ops) (o_reverse net_ops).
(** hosts ip-any-network.hpp 498-506, subnets 535-543 and 575-583. *)
Definition any_hosts_c (g : config) (sp : bool) (x : anet) : res (aseq ait aaddr) :=
  if anet_is_v4 x then s <- hosts sp V4 (an_net x) ;; Ret (aseq_make (host_ops_c g) V4 (h_begin s) (h_end s))
  else s <- hosts_c g sp (an_net x) ;; Ret (aseq_make (host_ops_c g) V6 (h_begin s) (h_end s)).
Definition any_subnets_c (g : config) (sp : bool) (x : anet) (d : Z) (np : option Z) : res (aseq nit anet) :=
  if anet_is_v4 x then s <- subnets sp V4 (an_net x) d np ;; Ret (aseq_make (net_ops_c g) V4 (s_begin s) (s_end s))
  else s <- subnets_c g sp (an_net x) d np ;; Ret (aseq_make (net_ops_c g) V6 (s_begin s) (s_end s)).
Definition any_subnets_code_c (g : config) (sp : bool) (x : anet) (code : ec) (d : Z) (np : option Z) : res (aseq nit anet * ec) :=
  if anet_is_v4 x then '(s, code) <- subnets_code sp V4 (an_net x) code d np ;; Ret (aseq_make (net_ops_c g) V4 (s_begin s) (s_end s), code)
  else '(s, code) <- subnets_code_c g sp (an_net x) code d np ;; Ret (aseq_make (net_ops_c g) V6 (s_begin s) (s_end s), code).

(** ** address_exclude *)
(** operator++ of ip_exclude_network_iterator<ip_network>, ip-network-iterator.hpp 511-556. *)
Definition any_halves_c (g : config) (sp : bool) (x : anet) : res (anet * anet) :=
  s <- any_subnets_c g sp x 1 None ;; a <- aseq_at (net_ops_c g) s 0 ;; b <- aseq_at (net_ops_c g) s 1 ;; Ret (a, b).
Definition axit_next_c (g : config) (sp : bool) (x : axit) : res axit :=
  e1 <- anet_eqb_c g (ax_s1 x) (ax_other x) ;;
  e2 <- anet_eqb_c g (ax_s2 x) (ax_other x) ;;
  if negb e1 && negb e2 then
    i1 <- anet_subnet_of_c g sp (ax_other x) (ax_s1 x) ;;
    if i1 : bool then
      c <- anet_eqb_c g (ax_current x) (ax_s2 x) ;;
      if negb c then '(s1, s2) <- any_halves_c g sp (ax_s1 x) ;; Ret (mk_axit (ax_other x) s1 s2 (ax_s2 x))
      else Ret axit_default
    else
      i2 <- anet_subnet_of_c g sp (ax_other x) (ax_s2 x) ;;
      if i2 : bool then
        c <- anet_eqb_c g (ax_current x) (ax_s1 x) ;;
        if negb c then '(s1, s2) <- any_halves_c g sp (ax_s2 x) ;; Ret (mk_axit (ax_other x) s1 s2 (ax_s1 x))
        else Ret axit_default
      else UB AssertFailed
  else if e1 then
    c <- anet_eqb_c g (ax_current x) (ax_s2 x) ;;
    if negb c then Ret (mk_axit (ax_other x) (ax_s1 x) (ax_s2 x) (ax_s2 x)) else Ret axit_default
  else if e2 then
    c <- anet_eqb_c g (ax_current x) (ax_s1 x) ;;
    if negb c then Ret (mk_axit (ax_other x) (ax_s1 x) (ax_s2 x) (ax_s1 x)) else Ret axit_default
  else UB AssertFailed.
Definition axit_make_c (g : config) (sp : bool) (network other : anet) : res axit :=
  '(s1, s2) <- any_halves_c g sp network ;; axit_next_c g sp (mk_axit other s1 s2 network).
Definition axit_eqb_c (g : config) (a b : axit) : res bool := anet_eqb_c g (ax_current a) (ax_current b).
Definition any_clear_scope_c (g : config) (x : aaddr) : res aaddr :=
  if ver_eqb (aa_ver x) V6 then a <- remove_scope_c g (aa_addr x) ;; Ret (mk_aa V6 a) else Ret x.
(** address_exclude with an error code, ip-any-network.hpp 644-666, and without, 608-615. *)
Definition any_exclude_code_c (g : config) (sp : bool) (x other : anet) (code : ec) : res (aexclude * ec) :=
  if negb (ver_eqb (an_ver x) (an_ver other)) then Ret (aexclude_default, invalid_version)
  else
    addr1 <- any_clear_scope_c g (anet_address x) ;;
    addr2 <- any_clear_scope_c g (anet_address other) ;;
    lhs <- anet_from_address addr1 (anet_prefixlen x) true ;;
    rhs <- anet_from_address addr2 (anet_prefixlen other) true ;;
    sub <- anet_subnet_of_c g sp rhs lhs ;;
    if negb sub then Ret (aexclude_default, not_contained_network)
    else
      eq <- anet_eqb_c g lhs rhs ;;
      if eq : bool then Ret (aexclude_default, no_error)
      else x <- axit_make_c g sp lhs rhs ;; Ret (mk_aexclude x axit_default, no_error).
Definition any_exclude_c (g : config) (sp : bool) (x other : anet) : res aexclude :=
  '(result, code) <- any_exclude_code_c g sp x other no_error ;; raise_if result code 0.
Definition aexclude_walk_c (g : config) (sp : bool) := walk (axit_eqb_c g) (axit_next_c g sp) ax_current.

(** ** Streams *)
(** operator<<: ip-address-base.hpp 857-871, ip-network-base.hpp 1393-1407,
    ip-any-address.hpp 1480-1494, ip-any-network.hpp 1467-1481. *)
Definition addr_put_c (g : config) (T : chtype) (v : ver) (a : addr) : ostr -> res ostr :=
  put_fmt T (match v with V4 => addr_to_string V4 a | V6 => addr_to_string_c g a end).
Definition net_put_c (g : config) (T : chtype) (v : ver) (n : net) : ostr -> res ostr :=
  put_fmt T (match v with V4 => net_to_string V4 n | V6 => net_to_string_c g n end).
Definition any_put_c (g : config) (T : chtype) (x : aaddr) : ostr -> res ostr := put_fmt T (any_to_string_c g x).
Definition anet_put_c (g : config) (T : chtype) (x : anet) : ostr -> res ostr := put_fmt T (anet_to_string_c g x).
(** operator>>: ip-address-base.hpp 873-883, ip-network-base.hpp 1410-1423,
    ip-any-address.hpp 1497-1506, ip-any-network.hpp 1484-1497. *)
Definition get_with_b {A} (b : build) (T : chtype) (parse : list tok -> ec -> res (A * ec)) (i : istr) : res (A * istr) :=
  let '(str, i) := is_read i in
  ts <- tokens (reader_b b T) str ;;
  '(x, err) <- parse ts no_error ;;
  Ret (x, if ec_eqb err no_error then i else i_set_fail i).
Definition addr_get_b (b : build) (T : chtype) (v : ver) : istr -> res (addr * istr) := get_with_b b T (parse_code_b b v).
Definition any_get_b (b : build) (T : chtype) : istr -> res (aaddr * istr) := get_with_b b T (any_parse_code_b b).
Definition net_get_b (b : build) (T : chtype) (v : ver) (i : istr) : res (net * istr) :=
  let strict := i_strict i =? 0 in
  get_with_b b T (fun ts code => net_parse_code_b b v ts strict code) (i_set_strict i 0).
Definition anet_get_b (b : build) (T : chtype) (i : istr) : res (anet * istr) :=
  let strict := i_strict i =? 0 in
  get_with_b b T (fun ts code => anet_parse_code_b b ts strict code) (i_set_strict i 0).

(** ** Text in other character types *)
(** to_wstring, to_u16string, to_u32string, to_u8string: ip-address-base.hpp
    543-589, ip-network-base.hpp 598-641, ip-any-address.hpp 460-500,
    ip-any-network.hpp 795-838. *)
Definition addr_to_text_c (g : config) (T : chtype) (v : ver) (a : addr) (fmt : format) : res (list Z) :=
  s <- match v with V4 => addr_to_string V4 a fmt | V6 => addr_to_string_c g a fmt end ;; Ret (convert T s).
Definition net_to_text_c (g : config) (T : chtype) (v : ver) (n : net) (fmt : format) : res (list Z) :=
  s <- match v with V4 => net_to_string V4 n fmt | V6 => net_to_string_c g n fmt end ;; Ret (convert T s).
Definition any_to_text_c (g : config) (T : chtype) (x : aaddr) (fmt : format) : res (list Z) :=
  if ver_eqb (aa_ver x) V4 then addr_to_text_c g T V4 (aa_addr x) fmt else addr_to_text_c g T V6 (aa_addr x) fmt.
Definition anet_to_text_c (g : config) (T : chtype) (x : anet) (fmt : format) : res (list Z) :=
  if anet_is_v4 x then net_to_text_c g T V4 (an_net x) fmt else net_to_text_c g T V6 (an_net x) fmt.
