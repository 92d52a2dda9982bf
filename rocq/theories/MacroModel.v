(** The parsers and set_scope_id of builds where several macros are set at
    once: the two that bound scope ids (ConfigModel), IPADDRESS_CHAR_IS_UTF8
    (Utf8Model) and IPADDRESS_NO_EXCEPTIONS (NoThrowModel).  What depends on one
    of them is repeated with a [build] as a parameter; the rest is that of
    CodeModel. *)
From Verif Require Import Base UnicodeModel FixedStringModel V4Model V6Model AddressModel NetworkModel AnyModel CodeModel StreamModel LiteralModel ConfigModel NetConfigModel
  NoThrowModel Utf8Model.

(** [b_utf8]: char is UTF-8; [b_throws]: IPADDRESS_NO_EXCEPTIONS is not set. *)
Record build := mk_build { b_cfg : config; b_utf8 : bool; b_throws : bool }.
Definition default_build : build := mk_build default_config false true.

Section Build.
Context (b : build).
Notation g := (b_cfg b).

(** char_reader<char>, unicode.hpp 188-220; char_reader<T>. *)
Definition inner_b : reader := if b_utf8 b then utf8c_next else char_next.
Definition reader_b (T : chtype) : reader := match T with TChar => inner_b | _ => reader_of T end.
(** "if (code != no_error) raise_error(...); return result", errors.hpp 296-388. *)
Definition raise_b {A} (result : A) (code : ec) (value : Z) : res A :=
  if negb (ok code) then (if b_throws b then Err code value else Ret result) else Ret result.
(** fixed_string(const T (&data)[N + 1]), fixed-string.hpp 59-70 and 393-395. *)
Definition fs_make_b (next : reader) (n : nat) (data : list Z) : res fstr :=
  if b_throws b then fs_make next n data else nx_fs_make next n data.

(** ** IPv6 addresses *)
(** base_max_string_len, base-v6.hpp 49. *)
Definition max_len_b (v : ver) : Z := match v with V4 => max_string_len V4 | V6 => max_len_c g end.
(** split_scope_id, base-v6.hpp 302-333. *)
Fixpoint scope_loop_b (ts : list tok) (pos end_ip : Z) (scope : bool) (scope_id : list Z) (index : Z) (error : ec) (value : Z)
  : res (Z * list Z * ec * Z) :=
  match ts with
  | [] =>
      s0 <- rd scope_id 0 ;;
      if scope && (s0 =? 0) then Ret (end_ip, scope_id, invalid_scope_id, value)
      else Ret (end_ip, scope_id, error, value)
  | t :: ts' =>
      let it := pos + 1 in
      let '(c, error, value) := next_st t error value in
      if negb (ok error) then Ret (end_ip, scope_id, error, value)
      else if negb scope && negb (c =? 37) then scope_loop_b ts' it it scope scope_id index error value
      else if scope then
        if index >? c_max g - 1 then Ret (end_ip, scope_id, scope_id_is_too_long, value)
        else if invalid_symbol_c g c then Ret (end_ip, scope_id, invalid_scope_id, value)
        else
          scope_id <- wr scope_id index c ;;
          scope_loop_b ts' it end_ip scope scope_id (index + 1) error value
      else scope_loop_b ts' it end_ip true scope_id index error value
  end.
(** The nine fixed_string<4> made of the parts, base-v6.hpp 449-460. *)
Fixpoint make_parts_b (ps : list (list Z)) : res (list (list Z)) :=
  match ps with
  | [] => Ret []
  | p :: ps' => f <- fs_make_b inner_b 4 p ;; fs <- make_parts_b ps' ;; Ret (fs_chars f :: fs)
  end.
(** split_parts, base-v6.hpp 336-461. *)
Definition split_parts_b (ts : list tok) (parts_count : Z) (error : ec) : res (list (list Z) * ec * Z) :=
  let fail error parts_count := Ret (repeat [] 9, error, parts_count) in
  let finish (parts : list (list Z)) (error : ec) (parts_count : Z) :=
    if parts_count <? 3 then fail least_3_parts parts_count
    else fs <- make_parts_b parts ;; Ret (fs, error, parts_count) in
  let parts_count := 0 in
  '(st, error, parts_count) <- split_loop_st ts (repeat (repeat 0 5) 9) (repeat 0 17) parts_count 0 0 false error 0 ;;
  match st with
  | None => fail error parts_count
  | Some (parts, last_part, symbol) =>
      if parts_count >? 8 then
        p0 <- rd parts 0 ;; p00 <- rd p0 0 ;; p1 <- rd parts 1 ;; p10 <- rd p1 0 ;;
        l0 <- rd last_part 0 ;;
        if (p00 =? 0) && negb (p10 =? 0) then fail leading_colon_only_permitted_as_part_of_double_colon parts_count
        else if l0 =? 0 then fail trailing_colon_only_permitted_as_part_of_double_colon parts_count
        else fail most_8_colons_permitted parts_count
      else
        has_ipv4 <- has_dot (Z.to_nat symbol) 0 last_part ;;
        if has_ipv4 : bool then
          if parts_count + 1 >=? 8 then fail most_8_colons_permitted parts_count
          else
            '(bytes, error) <- v4_array_i inner_b last_part error ;;
            ipv4 <- v4_to_uint true bytes ;;
            if negb (ok error) then fail error parts_count
            else
              p <- rd parts parts_count ;;
              p <- to_hex (Z.land (Z.shiftr ipv4 16) 0xFFFF) p ;;
              parts <- wr parts parts_count p ;;
              let parts_count := parts_count + 1 in
              p <- rd parts parts_count ;;
              p <- to_hex (Z.land ipv4 0xFFFF) p ;;
              parts <- wr parts parts_count p ;;
              finish parts error (parts_count + 1)
        else if symbol >? 4 then fail part_is_more_4_chars parts_count
        else
          parts <- copy_part last_part parts parts_count ;;
          finish parts error (parts_count + 1)
  end.
(** ip_from_string, base-v6.hpp 75-112: the lines 101-109 exist only for c_max > 0. *)
Definition v6_string_b (ts : list tok) (code : ec) (value : Z) : res (list Z * list Z * ec * Z) :=
  let fail code value := Ret (repeat 0 16, [], code, value) in
  match ts with
  | [] => fail empty_address value
  | _ =>
      '(end_ip, scope_id, code, value) <- scope_loop_b ts 0 0 false (repeat 0 (Z.to_nat (c_max g + 1))) 0 code value ;;
      if negb (ok code) then fail code value
      else
        '(parts, code, value) <- split_parts_b (firstn (Z.to_nat end_ip) ts) value code ;;
        if negb (ok code) then fail code value
        else
          '(hi, lo, skipped, code) <- bound_st parts value code ;;
          if negb (ok code) then fail code value
          else
            '(bytes, code) <- parse_parts_st parts value hi lo skipped code ;;
            if negb (ok code) then fail code value
            else if c_max g >? 0 then
              s0 <- rd scope_id 0 ;;
              if negb (s0 =? 0) then
                '(f, code) <- fs_make_st inner_b (Z.to_nat (c_max g)) scope_id code ;;
                Ret (bytes, fs_chars f, code, value)
              else Ret (bytes, [], code, value)
            else Ret (bytes, [], code, value)
  end.
Definition string_b (v : ver) (ts : list tok) (code : ec) (value : Z) : res (addr * ec * Z) :=
  match v with
  | V4 => '(b, code, value) <- v4_string_st ts code value ;; Ret (mk_addr b [], code, value)
  | V6 => '(b, s, code, value) <- v6_string_b ts code value ;; Ret (mk_addr b s, code, value)
  end.

(** ** parse of addresses *)
(** parse_string with a code, ip-address-base.hpp 774-778, and without, 762-771. *)
Definition parse_code_b (v : ver) (ts : list tok) (code : ec) : res (addr * ec) :=
  let code := no_error in
  let value := 0 in
  '(a, code, _) <- string_b v ts code value ;; Ret (a, code).
Definition parse_b (v : ver) (ts : list tok) : res addr :=
  let code := no_error in
  let value := 0 in
  '(result, code, value) <- string_b v ts code value ;; raise_b result code value.
(** parse(const T (&)[N]) with a code, ip-address-base.hpp 429-432, and without, 402-414. *)
Definition parse_array_code_b (v : ver) (next : reader) (n : nat) (data : list Z) (code : ec) : res (addr * ec) :=
  '(f, code) <- fs_make_st next n data code ;;
  if ok code then ts <- tokens inner_b (fs_chars f) ;; parse_code_b v ts code else Ret (addr_default v, code).
Definition parse_array_b (v : ver) (next : reader) (n : nat) (data : list Z) : res addr :=
  if b_throws b then
    f <- fs_make next n data ;; ts <- tokens inner_b (fs_chars f) ;; parse_b v ts
  else
    '(str, err) <- fs_make_st next n data no_error ;;
    if negb (ok err) then Ret (addr_default v) else ts <- tokens inner_b (fs_chars str) ;; parse_b v ts.

(** ** set_scope_id *)
(** ipv6_set_scope::change, ipv6-address.hpp 48-77: nothing happens for c_max = 0. *)
Fixpoint change_loop_b (ts : list tok) (i : Z) (str : list Z) (code : ec) (index error_symbol : Z) : res (option (list Z) * ec * Z) :=
  match ts with
  | [] => Ret (Some str, code, index)
  | t :: ts' =>
      let '(c, code, error_symbol) := next_st t code error_symbol in
      if negb (ok code) then Ret (None, code, error_symbol)
      else if invalid_symbol_c g c then Ret (None, invalid_scope_id, index)
      else str <- wr str i c ;; change_loop_b ts' (i + 1) str code index error_symbol
  end.
Definition change_b (result : list Z) (n : Z) (ts : list tok) (code : ec) (index : Z) : res (list Z * ec * Z) :=
  if c_max g >? 0 then
    if n >? c_max g then Ret (result, scope_id_is_too_long, index)
    else
      let code := no_error in
      let index := 0 in
      '(str, code, index) <- change_loop_b ts 0 (repeat 0 (Z.to_nat (c_max g + 1))) code index 0 ;;
      match str with
      | None => Ret (result, code, index)
      | Some str =>
          '(fixed_scope, code) <- fs_make_st inner_b (Z.to_nat (c_max g)) str code ;;
          Ret (if ok code then fs_chars fixed_scope else result, code, index)
      end
  else Ret (result, code, index).
(** ... of a string with a code, 40-45, and without, 25-37. *)
Definition set_scope_code_b (a : addr) (n : Z) (ts : list tok) (code : ec) : res (addr * ec) :=
  '(s, code, _) <- change_b (a_scope a) n ts code 0 ;; Ret (mk_addr (a_bytes a) s, code).
Definition set_scope_b (a : addr) (n : Z) (ts : list tok) : res addr :=
  let code := no_error in
  let index := 0 in
  '(s, code, index) <- change_b (a_scope a) n ts code index ;; raise_b (mk_addr (a_bytes a) s) code index.
Definition scope_set_b (T : chtype) (a : addr) (s : list Z) : res addr :=
  ts <- tokens (reader_b T) s ;; set_scope_b a (zlen s) ts.
Definition scope_set_code_b (T : chtype) (a : addr) (s : list Z) (code : ec) : res (addr * ec) :=
  ts <- tokens (reader_b T) s ;; set_scope_code_b a (zlen s) ts code.
(** set_scope_id(const T(&)[N]), ipv6-address.hpp 307-321. *)
Definition scope_set_array_b (T : chtype) (a : addr) (data : list Z) : res addr :=
  if c_max g >? 0 then
    if b_throws b then
      f <- fs_make (reader_b T) (cap data) data ;;
      ts <- tokens inner_b (fs_chars f) ;; set_scope_b a (fs_size f) ts
    else
      '(result, code) <- fs_make_st (reader_b T) (cap data) data no_error ;;
      if ok code then ts <- tokens inner_b (fs_chars result) ;; set_scope_b a (fs_size result) ts else Ret a
  else Ret a.

(** ** Networks *)
(** parse_address_with_prefix, ip-network-base.hpp 1257-1312. *)
Definition net_string_b (v : ver) (ts : list tok) (strict : bool) (code : ec) (value : Z) : res (net * ec * Z) :=
  let code := no_error in
  '(st, code, value) <- net_split_st (max_len_b v) ts (repeat 0 (Z.to_nat (max_len_b v + 1))) 0 false [] code value ;;
  match st with
  | None => Ret (net_default v, code, value)
  | Some (address, netmask) =>
      '(m, p, code, value) <- mask_st v netmask code value ;;
      if negb (ok code) then Ret (net_default v, code, value)
      else
        '(a, code) <- parse_array_code_b v inner_b (Z.to_nat (max_len_b v)) address code ;;
        if negb (ok code) then Ret (net_default v, code, value)
        else
          '(a, code) <- strict_st v a m strict code ;;
          if negb (ok code) then Ret (net_default v, code, value)
          else Ret (mk_net a m p, code, value)
  end.
(** ... with a code, 345-361, and without, 1245-1254. *)
Definition net_parse_code_b (v : ver) (ts : list tok) (strict : bool) (code : ec) : res (net * ec) :=
  '(n, code, _) <- net_string_b v ts strict code 0 ;; Ret (n, code).
Definition net_parse_b (v : ver) (ts : list tok) (strict : bool) : res net :=
  let code := no_error in
  let value := 0 in
  '(result, code, value) <- net_string_b v ts strict code value ;; raise_b result code value.
(** parse(const T (&)[N]) with a code, 405-409, and without, 377-389. *)
Definition net_array_code_b (v : ver) (next : reader) (n : nat) (data : list Z) (strict : bool) (code : ec) : res (net * ec) :=
  '(f, code) <- fs_make_st next n data code ;;
  if ok code then ts <- tokens inner_b (fs_chars f) ;; net_parse_code_b v ts strict code else Ret (net_default v, code).
Definition net_array_b (v : ver) (next : reader) (n : nat) (data : list Z) (strict : bool) : res net :=
  if b_throws b then
    f <- fs_make next n data ;; ts <- tokens inner_b (fs_chars f) ;; net_parse_b v ts strict
  else
    '(str, err) <- fs_make_st next n data no_error ;;
    if negb (ok err) then Ret (net_default v) else ts <- tokens inner_b (fs_chars str) ;; net_parse_b v ts strict.

(** ** ip_address and ip_network *)
(** ip_any_parser::parse, ip-any-address.hpp 32-40, and net_any_parser::parse, ip-any-network.hpp 34-42. *)
Definition any_parse_b (ts : list tok) : res aaddr :=
  let code := no_error in
  '(ipv4, code) <- parse_code_b V4 ts code ;;
  if ok code then Ret (mk_aa V4 ipv4) else a <- parse_b V6 ts ;; Ret (mk_aa V6 a).
Definition anet_parse_b (ts : list tok) (strict : bool) : res anet :=
  let code := no_error in
  '(net4, code) <- net_parse_code_b V4 ts strict code ;;
  if ok code then Ret (mk_an V4 net4) else n <- net_parse_b V6 ts strict ;; Ret (mk_an V6 n).
(** ... with a code, 43-54 and 45-56. *)
Definition any_parse_code_b (ts : list tok) (code : ec) : res (aaddr * ec) :=
  let code := no_error in
  '(ipv4, code) <- parse_code_b V4 ts code ;;
  if ok code then Ret (mk_aa V4 ipv4, code)
  else
    '(ipv6, code) <- parse_code_b V6 ts code ;;
    if ok code then Ret (mk_aa V6 ipv6, code) else Ret (aa_default, code).
Definition anet_parse_code_b (ts : list tok) (strict : bool) (code : ec) : res (anet * ec) :=
  let code := no_error in
  '(net4, code) <- net_parse_code_b V4 ts strict code ;;
  if ok code then Ret (mk_an V4 net4, code)
  else
    '(net6, code) <- net_parse_code_b V6 ts strict code ;;
    if ok code then Ret (mk_an V6 net6, code) else Ret (an_default, code).

(** ** Arrays and literals of a character type *)
Definition addr_array_b (T : chtype) (v : ver) (data : list Z) : res addr := parse_array_b v (reader_b T) (cap data) data.
Definition net_array_t_b (T : chtype) (v : ver) (strict : bool) (data : list Z) : res net := net_array_b v (reader_b T) (cap data) data strict.
(** ip-any-address.hpp 1144-1147 and ip-any-network.hpp 1179-1182. *)
Definition any_array_b (T : chtype) (data : list Z) : res aaddr :=
  '(ipv4, code) <- parse_array_code_b V4 (reader_b T) (cap data) data no_error ;;
  if ok code then Ret (mk_aa V4 ipv4) else a <- addr_array_b T V6 data ;; Ret (mk_aa V6 a).
Definition anet_array_b (T : chtype) (strict : bool) (data : list Z) : res anet :=
  '(net4, code) <- net_array_code_b V4 (reader_b T) (cap data) data strict no_error ;;
  if ok code then Ret (mk_an V4 net4) else n <- net_array_t_b T V6 strict data ;; Ret (mk_an V6 n).
(** The literal operators of compilers without class-type template arguments
    (LiteralModel.literal, NoThrowModel.nx_literal) with the lengths of this build:
    ip-address-base.hpp 785-795, ip-network-base.hpp 1327-1337, ip-any-address.hpp
    1387-1450, ip-any-network.hpp 1361-1437. *)
Definition literal_b {A} (maxlen : Z) (parse : list Z -> res A) (s : list Z) : res A :=
  if b_throws b then literal maxlen parse s else nx_literal maxlen parse s.
Definition addr_literal_b (T : chtype) (v : ver) : list Z -> res addr := literal_b (max_len_b v) (addr_array_b T v).
Definition net_literal_b (T : chtype) (v : ver) : list Z -> res net :=
  literal_b (match v with V4 => max_len_b V4 * 2 + 1 | V6 => max_len_b V6 + 4 end) (net_array_t_b T v true).
Definition any_literal_b (T : chtype) : list Z -> res aaddr := literal_b (max_len_b V6) (any_array_b T).
Definition anet_literal_b (T : chtype) : list Z -> res anet := literal_b (max_len_b V6 * 2 + 1) (anet_array_b T true).
End Build.
