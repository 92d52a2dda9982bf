(** The parsers in builds where [char] has another reader.  With
    IPADDRESS_CHAR_IS_UTF8 char_reader<char> (unicode.hpp 188-220) is the UTF-8
    reader (lines 190-198); it then reads every [char] text, also the buffers
    the parsers fill themselves.  The definitions up to [End Inner] repeat those
    of CodeModel, ScopeModel and LiteralModel with that reader as a parameter;
    what does not read a [char] text is not repeated. *)
From Verif Require Import Base Uint128Model UnicodeModel FixedStringModel V4Model V6Model AddressModel NetworkModel AnyModel CodeModel StreamModel LiteralModel.

(** utf8_reader<char>, unicode.hpp 50-123: every unit is converted to uint8_t
    before it is looked at (lines 56, 116, 118). *)
Definition octets (s : list Z) : list Z := map (fun c => c mod 256) s.
Definition utf8c_next : reader := fun s e it => utf8_next (octets s) e it.

Section Inner.
Context (inner : reader).

(** char_reader<T> for the five types. *)
Definition reader_i (T : chtype) : reader := match T with TChar => inner | _ => reader_of T end.

(** ip-address-base.hpp 429-432 with 774-778, called in base-v6.hpp 427. *)
Definition v4_array_i (data : list Z) (code : ec) : res (list Z * ec) :=
  '(f, code) <- fs_make_st inner 16 data code ;;
  if ok code then
    let code := no_error in
    ts <- tokens inner (fs_chars f) ;;
    '(b, code, _) <- v4_string_st ts code 0 ;; Ret (b, code)
  else Ret ([0; 0; 0; 0], code).
(** The nine fixed_string<4> made of the parts, base-v6.hpp 449-460. *)
Fixpoint make_parts_i (ps : list (list Z)) : res (list (list Z)) :=
  match ps with
  | [] => Ret []
  | p :: ps' => f <- fs_make inner 4 p ;; fs <- make_parts_i ps' ;; Ret (fs_chars f :: fs)
  end.
(** split_parts, base-v6.hpp 336-461. *)
Definition split_parts_i (ts : list tok) (parts_count : Z) (error : ec) : res (list (list Z) * ec * Z) :=
  let fail error parts_count := Ret (repeat [] 9, error, parts_count) in
  let finish (parts : list (list Z)) (error : ec) (parts_count : Z) :=
    if parts_count <? 3 then fail least_3_parts parts_count
    else fs <- make_parts_i parts ;; Ret (fs, error, parts_count) in
  let parts_count := 0 in
  '(st, error, parts_count) <- split_loop_st ts (repeat (repeat 0 5) 9) (repeat 0 17) parts_count 0 0 false error 0 ;;
  match st with
  | None => fail error parts_count
  | Some (parts, last_part, symbol) =>
      if parts_count >? 8 then
        p0 <- rd parts 0 ;; p00 <- rd p0 0 ;; p1 <- rd parts 1 ;; p10 <- rd p1 0 ;;
        l0 <- rd last_part 0 ;;
        if (p00 =? 0) && negb (p10 =? 0) then fail leading_colon_only_permitted_as_part_of_double_colon parts_count
        else if l0 =? 0 then fail trailing_colon_only_permitted_as_part_of_double_colon parts_count
        else fail most_8_colons_permitted parts_count
      else
        has_ipv4 <- has_dot (Z.to_nat symbol) 0 last_part ;;
        if has_ipv4 : bool then
          if parts_count + 1 >=? 8 then fail most_8_colons_permitted parts_count
          else
            '(bytes, error) <- v4_array_i last_part error ;;
            ipv4 <- v4_to_uint true bytes ;;
            if negb (ok error) then fail error parts_count
            else
              p <- rd parts parts_count ;;
              p <- to_hex (Z.land (Z.shiftr ipv4 16) 0xFFFF) p ;;
              parts <- wr parts parts_count p ;;
              let parts_count := parts_count + 1 in
              p <- rd parts parts_count ;;
              p <- to_hex (Z.land ipv4 0xFFFF) p ;;
              parts <- wr parts parts_count p ;;
              finish parts error (parts_count + 1)
        else if symbol >? 4 then fail part_is_more_4_chars parts_count
        else
          parts <- copy_part last_part parts parts_count ;;
          finish parts error (parts_count + 1)
  end.
(** ip_from_string, base-v6.hpp 75-112. *)
Definition v6_string_i (ts : list tok) (code : ec) (value : Z) : res (list Z * list Z * ec * Z) :=
  let fail code value := Ret (repeat 0 16, [], code, value) in
  match ts with
  | [] => fail empty_address value
  | _ =>
      '(end_ip, scope_id, code, value) <- split_scope_st ts code value ;;
      if negb (ok code) then fail code value
      else
        '(parts, code, value) <- split_parts_i (firstn (Z.to_nat end_ip) ts) value code ;;
        if negb (ok code) then fail code value
        else
          '(hi, lo, skipped, code) <- bound_st parts value code ;;
          if negb (ok code) then fail code value
          else
            '(bytes, code) <- parse_parts_st parts value hi lo skipped code ;;
            if negb (ok code) then fail code value
            else
              s0 <- rd scope_id 0 ;;
              if negb (s0 =? 0) then
                '(f, code) <- fs_make_st inner 16 scope_id code ;;
                Ret (bytes, fs_chars f, code, value)
              else Ret (bytes, [], code, value)
  end.
Definition string_i (v : ver) (ts : list tok) (code : ec) (value : Z) : res (addr * ec * Z) :=
  match v with
  | V4 => '(b, code, value) <- v4_string_st ts code value ;; Ret (mk_addr b [], code, value)
  | V6 => '(b, s, code, value) <- v6_string_i ts code value ;; Ret (mk_addr b s, code, value)
  end.
(** parse_string, ip-address-base.hpp 774-778 and 763-771; of an array, 429-432 and 403-414. *)
Definition parse_i (v : ver) (ts : list tok) (code : ec) : res (addr * ec) :=
  let code := no_error in
  let value := 0 in
  '(a, code, _) <- string_i v ts code value ;; Ret (a, code).
Definition parse_throw_i (v : ver) (ts : list tok) : res addr :=
  let code := no_error in
  let value := 0 in
  '(result, code, value) <- string_i v ts code value ;;
  if negb (ok code) then Err code value else Ret result.
Definition parse_array_i (v : ver) (next : reader) (n : nat) (data : list Z) (code : ec) : res (addr * ec) :=
  '(f, code) <- fs_make_st next n data code ;;
  if ok code then ts <- tokens inner (fs_chars f) ;; parse_i v ts code else Ret (addr_default v, code).
Definition parse_array_throw_i (v : ver) (next : reader) (n : nat) (data : list Z) : res addr :=
  f <- fs_make next n data ;; ts <- tokens inner (fs_chars f) ;; parse_throw_i v ts.

(** ipv6_set_scope::change, ipv6-address.hpp 48-77, 40-45 and 26-37; set_scope_id of
    an array, 336-344 and 308-321. *)
Definition change_i (result : list Z) (n : Z) (ts : list tok) (code : ec) (index : Z) : res (list Z * ec * Z) :=
  if n >? scope_max then Ret (result, scope_id_is_too_long, index)
  else
    let code := no_error in
    let index := 0 in
    '(str, code, index) <- change_loop_st ts 0 (repeat 0 17) code index 0 ;;
    match str with
    | None => Ret (result, code, index)
    | Some str =>
        '(fixed_scope, code) <- fs_make_st inner 16 str code ;;
        Ret (if ok code then fs_chars fixed_scope else result, code, index)
    end.
Definition set_scope_i (a : addr) (n : Z) (ts : list tok) (code : ec) : res (addr * ec) :=
  '(s, code, _) <- change_i (a_scope a) n ts code 0 ;; Ret (mk_addr (a_bytes a) s, code).
Definition set_scope_throw_i (a : addr) (n : Z) (ts : list tok) : res addr :=
  let code := no_error in
  let index := 0 in
  '(s, code, index) <- change_i (a_scope a) n ts code index ;;
  if negb (ok code) then Err code index else Ret (mk_addr (a_bytes a) s).
Definition scope_set_i (T : chtype) (a : addr) (s : list Z) : res addr :=
  ts <- tokens (reader_i T) s ;; set_scope_throw_i a (zlen s) ts.
Definition scope_set_code_i (T : chtype) (a : addr) (s : list Z) (code : ec) : res (addr * ec) :=
  ts <- tokens (reader_i T) s ;; set_scope_i a (zlen s) ts code.
Definition scope_set_array_code_i (T : chtype) (a : addr) (data : list Z) (code : ec) : res (addr * ec) :=
  '(f, code) <- fs_make_st (reader_i T) (cap data) data code ;;
  if ok code then ts <- tokens inner (fs_chars f) ;; set_scope_i a (fs_size f) ts code else Ret (a, code).
Definition scope_set_array_i (T : chtype) (a : addr) (data : list Z) : res addr :=
  f <- fs_make (reader_i T) (cap data) data ;;
  ts <- tokens inner (fs_chars f) ;; set_scope_throw_i a (fs_size f) ts.

(** parse_address_with_prefix, ip-network-base.hpp 1257-1312, 345-361, 1246-1254; of
    an array, 405-409 and 378-389. *)
Definition net_string_i (v : ver) (ts : list tok) (strict : bool) (code : ec) (value : Z) : res (net * ec * Z) :=
  let code := no_error in
  '(st, code, value) <- net_split_st (max_string_len v) ts (repeat 0 (Z.to_nat (max_string_len v + 1))) 0 false [] code value ;;
  match st with
  | None => Ret (net_default v, code, value)
  | Some (address, netmask) =>
      '(m, p, code, value) <- mask_st v netmask code value ;;
      if negb (ok code) then Ret (net_default v, code, value)
      else
        '(a, code) <- parse_array_i v inner (Z.to_nat (max_string_len v)) address code ;;
        if negb (ok code) then Ret (net_default v, code, value)
        else
          '(a, code) <- strict_st v a m strict code ;;
          if negb (ok code) then Ret (net_default v, code, value)
          else Ret (mk_net a m p, code, value)
  end.
Definition net_parse_i (v : ver) (ts : list tok) (strict : bool) (code : ec) : res (net * ec) :=
  '(n, code, _) <- net_string_i v ts strict code 0 ;; Ret (n, code).
Definition net_parse_throw_i (v : ver) (ts : list tok) (strict : bool) : res net :=
  let code := no_error in
  let value := 0 in
  '(result, code, value) <- net_string_i v ts strict code value ;;
  if negb (ok code) then Err code value else Ret result.
Definition net_array_i (v : ver) (next : reader) (n : nat) (data : list Z) (strict : bool) (code : ec) : res (net * ec) :=
  '(f, code) <- fs_make_st next n data code ;;
  if ok code then ts <- tokens inner (fs_chars f) ;; net_parse_i v ts strict code else Ret (net_default v, code).
Definition net_array_throw_i (v : ver) (next : reader) (n : nat) (data : list Z) (strict : bool) : res net :=
  f <- fs_make next n data ;; ts <- tokens inner (fs_chars f) ;; net_parse_throw_i v ts strict.

(** ip_any_parser::parse, ip-any-address.hpp 33-54, and net_any_parser::parse, ip-any-network.hpp 35-56. *)
Definition any_parse_i (ts : list tok) (code : ec) : res (aaddr * ec) :=
  let code := no_error in
  '(ipv4, code) <- parse_i V4 ts code ;;
  if ok code then Ret (mk_aa V4 ipv4, code)
  else
    '(ipv6, code) <- parse_i V6 ts code ;;
    if ok code then Ret (mk_aa V6 ipv6, code) else Ret (aa_default, code).
Definition any_parse_throw_i (ts : list tok) : res aaddr :=
  let code := no_error in
  '(ipv4, code) <- parse_i V4 ts code ;;
  if ok code then Ret (mk_aa V4 ipv4) else a <- parse_throw_i V6 ts ;; Ret (mk_aa V6 a).
Definition anet_parse_i (ts : list tok) (strict : bool) (code : ec) : res (anet * ec) :=
  let code := no_error in
  '(net4, code) <- net_parse_i V4 ts strict code ;;
  if ok code then Ret (mk_an V4 net4, code)
  else
    '(net6, code) <- net_parse_i V6 ts strict code ;;
    if ok code then Ret (mk_an V6 net6, code) else Ret (an_default, code).
Definition anet_parse_throw_i (ts : list tok) (strict : bool) : res anet :=
  let code := no_error in
  '(net4, code) <- net_parse_i V4 ts strict code ;;
  if ok code then Ret (mk_an V4 net4) else n <- net_parse_throw_i V6 ts strict ;; Ret (mk_an V6 n).

(** parse of strings and arrays of a type, as in LiteralModel. *)
Definition addr_string_i (T : chtype) (v : ver) (s : list Z) : res addr :=
  ts <- tokens (reader_i T) s ;; parse_throw_i v ts.
Definition net_string_t_i (T : chtype) (v : ver) (strict : bool) (s : list Z) : res net :=
  ts <- tokens (reader_i T) s ;; net_parse_throw_i v ts strict.
Definition any_string_i (T : chtype) (s : list Z) : res aaddr :=
  ts <- tokens (reader_i T) s ;; any_parse_throw_i ts.
Definition anet_string_i (T : chtype) (strict : bool) (s : list Z) : res anet :=
  ts <- tokens (reader_i T) s ;; anet_parse_throw_i ts strict.
Definition addr_array_i (T : chtype) (v : ver) (data : list Z) : res addr :=
  parse_array_throw_i v (reader_i T) (cap data) data.
Definition net_array_t_i (T : chtype) (v : ver) (strict : bool) (data : list Z) : res net :=
  net_array_throw_i v (reader_i T) (cap data) data strict.
Definition any_array_i (T : chtype) (data : list Z) : res aaddr :=
  '(ipv4, code) <- parse_array_i V4 (reader_i T) (cap data) data no_error ;;
  if ok code then Ret (mk_aa V4 ipv4) else a <- addr_array_i T V6 data ;; Ret (mk_aa V6 a).
Definition anet_array_i (T : chtype) (strict : bool) (data : list Z) : res anet :=
  '(net4, code) <- net_array_i V4 (reader_i T) (cap data) data strict no_error ;;
  if ok code then Ret (mk_an V4 net4) else n <- net_array_t_i T V6 strict data ;; Ret (mk_an V6 n).

(** Literal operators of compilers without class-type template arguments, as in LiteralModel. *)
Definition addr_literal_i (T : chtype) (v : ver) : list Z -> res addr := literal (max_string_len v) (addr_array_i T v).
Definition net_literal_i (T : chtype) (v : ver) : list Z -> res net :=
  literal (match v with V4 => max_string_len V4 * 2 + 1 | V6 => max_string_len V6 + 4 end) (net_array_t_i T v true).
Definition any_literal_i (T : chtype) : list Z -> res aaddr := literal (max_string_len V6) (any_array_i T).
Definition anet_literal_i (T : chtype) : list Z -> res anet := literal (max_string_len V6 * 2 + 1) (anet_array_i T true).

(** Templates, as in LiteralModel: ip-address-base.hpp 122-132, ip-network-base.hpp 64-74,
    ip-any-address.hpp 549-565, ip-any-network.hpp 869-885. *)
Definition addr_fixed_i (v : ver) (str : fstr) : res addr :=
  ts <- tokens inner (fs_chars str) ;;
  '(result, code, value) <- string_i v ts no_error 0 ;;
  if negb (ok code) then Err code value else Ret result.
Definition addr_template_i (T : chtype) (v : ver) (data : list Z) : res addr :=
  str <- fs_make (reader_i T) (cap data) data ;; addr_fixed_i v str.
Definition net_fixed_i (v : ver) (strict : bool) (str : fstr) : res net :=
  ts <- tokens inner (fs_chars str) ;;
  '(result, code, value) <- net_string_i v ts strict no_error 0 ;;
  if negb (ok code) then Err code value else Ret result.
Definition net_template_i (T : chtype) (v : ver) (strict : bool) (data : list Z) : res net :=
  str <- fs_make (reader_i T) (cap data) data ;; net_fixed_i v strict str.
Definition any_template_i (T : chtype) (data : list Z) : res aaddr :=
  str <- fs_make (reader_i T) (cap data) data ;;
  ip <- copy_fixed str ;;
  '(ipv4, code) <- parse_array_i V4 inner (cap ip) ip no_error ;;
  if ok code then Ret (mk_aa V4 ipv4) else a <- addr_fixed_i V6 str ;; Ret (mk_aa V6 a).
Definition anet_template_i (T : chtype) (strict : bool) (data : list Z) : res anet :=
  str <- fs_make (reader_i T) (cap data) data ;;
  net <- copy_fixed str ;;
  '(net4, code) <- net_array_i V4 inner (cap net) net strict no_error ;;
  if ok code then Ret (mk_an V4 net4) else n <- net_fixed_i V6 strict str ;; Ret (mk_an V6 n).

(** operator>>, as in StreamModel: ip-address-base.hpp 873-883, ip-network-base.hpp 1410-1423,
    ip-any-address.hpp 1497-1506, ip-any-network.hpp 1484-1497. *)
Definition get_with_i {A} (T : chtype) (parse : list tok -> ec -> res (A * ec)) (i : istr) : res (A * istr) :=
  let '(str, i) := is_read i in
  ts <- tokens (reader_i T) str ;;
  '(x, err) <- parse ts no_error ;;
  Ret (x, if ec_eqb err no_error then i else i_set_fail i).
Definition addr_get_i (T : chtype) (v : ver) : istr -> res (addr * istr) := get_with_i T (parse_i v).
Definition any_get_i (T : chtype) : istr -> res (aaddr * istr) := get_with_i T any_parse_i.
Definition net_get_i (T : chtype) (v : ver) (i : istr) : res (net * istr) :=
  let strict := i_strict i =? 0 in
  get_with_i T (fun ts code => net_parse_i v ts strict code) (i_set_strict i 0).
Definition anet_get_i (T : chtype) (i : istr) : res (anet * istr) :=
  let strict := i_strict i =? 0 in
  get_with_i T (fun ts code => anet_parse_i ts strict code) (i_set_strict i 0).
(** uint128_t::from_string, uint128.hpp 419-507, and its operator>>, 2091-2108. *)
Definition u128_from_text_i (T : chtype) (f : ufmt) (s : list Z) : res (option u128) :=
  ts <- tokens (reader_i T) s ;; Ret (u128_from_string f ts).
Definition u128_get_i (T : chtype) (value : u128) (i : istr) : res (u128 * istr) :=
  let '(str, i) := is_read i in
  ts <- tokens (reader_i T) str ;;
  match u128_from_string (base_of (i_hex i) (i_oct i)) ts with
  | Some x => Ret (x, i)
  | None => Ret (value, i_set_fail i)
  end.
End Inner.
