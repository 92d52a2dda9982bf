(** The same parsers with the error code as what it is in the C++ code: a
    variable passed by reference, written here and there and tested now and
    then.  Every function below takes the current contents of the caller's
    [code] (and [value], the numeric detail) and returns their contents
    afterwards; an early [return {}] returns the default object.  [Err] only
    stands for a thrown exception.

    The other model files describe the parsers with the outcome as a result
    ([Ret] or [Err]); CodeProofs relates the two.

    Models: the functions cited at each definition, with the files
    include/ipaddress/{unicode,fixed-string,base-v4,base-v6,ip-address-base,
    ipv6-address,ip-network-base,ip-any-address,ip-any-network}.hpp. *)
From Verif Require Import Base UnicodeModel FixedStringModel V4Model V6Model AddressModel NetworkModel IterModel AnyModel.

(** [code == error_code::no_error]. *)
Definition ok (code : ec) : bool := ec_eqb code no_error.

(** next_char_or_error, unicode.hpp 275-278: every reader stores no_error and 0
    before it looks at the text (53-54, 128-129, 177-178, 207-208, 250-251); on
    an error it returns the character 0. *)
Definition next_st (t : tok) (code : ec) (error_symbol : Z) : Z * ec * Z :=
  let code := no_error in
  let error_symbol := 0 in
  match t with
  | Ch c => (c, code, error_symbol)
  | Bad e v => (0, e, v)
  end.

(** fixed_string(const T (&data)[N + 1], error_code&), fixed-string.hpp 82-94,
    and 405-419 for N = 0. *)
Fixpoint fs_fill_st (k : nat) (next : reader) (data : list Z) (n it i : Z) (f : fstr) (code : ec) (error_symbol : Z)
  : res (fstr * ec) :=
  match k with
  | O => Ret (f, code)
  | S k' =>
      '(t, it) <- next data n it ;;
      let '(c, code, error_symbol) := next_st t code error_symbol in
      d <- wr (fs_data f) i c ;;
      if (c =? 0) || negb (ok code) then Ret (mkfs (fs_length f) d, code)
      else fs_fill_st k' next data n it (i + 1) (mkfs (fs_length f + 1) d) code error_symbol
  end.
Definition fs_make_st (next : reader) (n : nat) (data : list Z) (code : ec) : res (fstr * ec) :=
  match n with
  | O => Ret (fs_empty 0, no_error)
  | _ => fs_fill_st n next data (Z.of_nat n) 0 0 (fs_empty n) code 0
  end.

(** ** IPv4, base-v4.hpp *)
(** ip_from_string, base-v4.hpp 61-131.  [index] is the caller's variable. *)
Fixpoint v4_loop_st (ts : list tok) (octets : list Z) (first_symbol digits octet : Z) (code : ec) (index error_symbol : Z)
  : res (list Z * ec * Z) :=
  let fail code index := Ret ([0; 0; 0; 0], code, index) in
  match ts with
  | [] =>
      if negb (index =? 3) then fail expected_4_octets index
      else if digits =? 0 then fail empty_octet index
      else if octet >? 255 then fail octet_exceeded_255 index
      else octets <- wr octets index (Z.land octet 0xFF) ;; Ret (octets, code, index)
  | t :: ts' =>
      let '(c, code, error_symbol) := next_st t code error_symbol in
      if negb (ok code) then fail code error_symbol
      else if index >=? 4 then fail expected_4_octets index
      else if (c >=? 48) && (c <=? 57) then
        if (digits >? 0) && (first_symbol =? 48) then fail leading_0_are_not_permitted index
        else
          let first_symbol := if digits =? 0 then c else first_symbol in
          octet <- int32 (octet * 10 + (c - 48)) ;;
          digits <- int32 (digits + 1) ;;
          if digits >? 3 then fail octet_more_3_characters index
          else v4_loop_st ts' octets first_symbol digits octet code index error_symbol
      else if (c =? 46) && (digits >? 0) then
        if octet >? 255 then fail octet_exceeded_255 index
        else
          octets <- wr octets index (Z.land octet 0xFF) ;;
          v4_loop_st ts' octets first_symbol 0 0 code (w32 (index + 1)) error_symbol
      else if c =? 46 then fail empty_octet index
      else fail octet_has_invalid_symbol index
  end.
Definition v4_string_st (ts : list tok) (code : ec) (index : Z) : res (list Z * ec * Z) :=
  match ts with
  | [] => Ret ([0; 0; 0; 0], empty_address, index)
  | _ =>
      let index := 0 in
      let code := no_error in
      v4_loop_st ts [0; 0; 0; 0] 0 0 0 code index 0
  end.

(** prefix_from_ip_uint32, base-v4.hpp 242-252. *)
Definition prefix_st (ip : Z) (code : ec) : res (Z * ec) :=
  trailing_zeroes <- count_righthand_zero_bits ip 32 ;;
  let prefixlen := w64 (32 - trailing_zeroes) in
  leading_ones <- (if negb (trailing_zeroes =? 32) then shr32 ip trailing_zeroes else Ret 0) ;;
  x <- shl32 1 (w64 (prefixlen - 1)) ;;
  x <- shl32 x 1 ;;
  let all_ones := w32 (x - 1) in
  if negb (leading_ones =? all_ones) then Ret (0, netmask_pattern_mixes_zeroes_and_ones)
  else Ret (prefixlen, code).

(** The digit loop of parse_netmask, base-v4.hpp 187-199: [None] for the early return. *)
Fixpoint v4_mask_digits_st (ts : list tok) (prefixlen : Z) (has_prefixlen : bool) (code : ec) (value : Z)
  : option (bool * Z * bool) * ec * Z :=
  match ts with
  | [] => (Some (true, prefixlen, has_prefixlen), code, value)
  | t :: ts' =>
      let has_prefixlen := true in
      let '(c, code, value) := next_st t code value in
      if negb (ok code) then (None, code, value)
      else if (c >=? 48) && (c <=? 57) then
        v4_mask_digits_st ts' (w64 (w64 (prefixlen * 10) + (c - 48))) has_prefixlen code value
      else (Some (false, prefixlen, has_prefixlen), code, value)
  end.
(** parse_netmask, base-v4.hpp 178-225: the netmask and the prefix length. *)
Definition v4_mask_st (ts : list tok) (code : ec) (value : Z) : res (list Z * Z * ec * Z) :=
  let code := no_error in
  let value := 0 in
  let fail code value := Ret ([0; 0; 0; 0], 0, code, value) in
  let finish (prefixlen : Z) (has_prefixlen : bool) (code : ec) (value : Z) :=
    let prefixlen := if has_prefixlen then prefixlen else 32 in
    netmask <- v4_from_prefix true prefixlen ;;
    Ret (netmask, prefixlen, code, value) in
  match v4_mask_digits_st ts 0 false code value with
  | (None, code, value) => fail code value
  | (Some (is_value, prefixlen, has_prefixlen), code, value) =>
      if is_value : bool then
        if prefixlen >? 32 then fail invalid_netmask value
        else finish prefixlen has_prefixlen code value
      else
        '(bytes, code, value) <- v4_string_st ts code value ;;
        ip <- v4_to_uint true bytes ;;
        if negb (ok code) then fail invalid_netmask value
        else
          '(prefixlen, code) <- prefix_st ip code ;;
          if negb (ok code) then
            let ip := Z.lxor ip v4_all_ones in
            let code := no_error in
            '(prefixlen, code) <- prefix_st ip code ;;
            if negb (ok code) then fail code value
            else finish prefixlen has_prefixlen code value
          else finish prefixlen has_prefixlen code value
  end.

(** strict_netmask, base-v4.hpp 227-239. *)
Definition v4_strict_st (address netmask : list Z) (strict : bool) (code : ec) : res (list Z * ec) :=
  a <- v4_to_uint true address ;;
  m <- v4_to_uint true netmask ;;
  if negb (Z.land a m =? a) then
    if strict then Ret ([0; 0; 0; 0], has_host_bits_set)
    else Ret (v4_from_uint true (Z.land a m), code)
  else Ret (address, code).

(** ipv4_address::parse(last_part, error) of the char[17] array,
    ip-address-base.hpp 429-432 with 774-778. *)
Definition v4_array_st (data : list Z) (code : ec) : res (list Z * ec) :=
  '(f, code) <- fs_make_st char_next 16 data code ;;
  if ok code then
    let code := no_error in
    '(b, code, _) <- v4_string_st (chars (fs_chars f)) code 0 ;; Ret (b, code)
  else Ret ([0; 0; 0; 0], code).

(** ** IPv6, base-v6.hpp *)
(** split_scope_id, base-v6.hpp 302-333. *)
Fixpoint scope_loop_st (ts : list tok) (pos end_ip : Z) (scope : bool) (scope_id : list Z) (index : Z) (error : ec) (value : Z)
  : res (Z * list Z * ec * Z) :=
  match ts with
  | [] =>
      s0 <- rd scope_id 0 ;;
      if scope && (s0 =? 0) then Ret (end_ip, scope_id, invalid_scope_id, value)
      else Ret (end_ip, scope_id, error, value)
  | t :: ts' =>
      let it := pos + 1 in
      let '(c, error, value) := next_st t error value in
      if negb (ok error) then Ret (end_ip, scope_id, error, value)
      else if negb scope && negb (c =? 37) then scope_loop_st ts' it it scope scope_id index error value
      else if scope then
        if index >? scope_max - 1 then Ret (end_ip, scope_id, scope_id_is_too_long, value)
        else if is_invalid_scope_id_symbol c then Ret (end_ip, scope_id, invalid_scope_id, value)
        else
          scope_id <- wr scope_id index c ;;
          scope_loop_st ts' it end_ip scope scope_id (index + 1) error value
      else scope_loop_st ts' it end_ip true scope_id index error value
  end.
Definition split_scope_st (ts : list tok) (error : ec) (value : Z) : res (Z * list Z * ec * Z) :=
  scope_loop_st ts 0 0 false (repeat 0 17) 0 error value.

(** The character loop of split_parts, base-v6.hpp 356-397; [None]: early return.  The
    caller's [value] is [parts_count] here. *)
Fixpoint split_loop_st (ts : list tok) (parts : list (list Z)) (last_part : list Z) (parts_count symbol prev_c : Z)
  (has_double_colon : bool) (error : ec) (error_symbol : Z)
  : res (option (list (list Z) * list Z * Z) * ec * Z) :=
  match ts with
  | [] => Ret (Some (parts, last_part, symbol), error, parts_count)
  | t :: ts' =>
      let '(c, error, error_symbol) := next_st t error error_symbol in
      if negb (ok error) then Ret (None, error, error_symbol)
      else
        let has_double_colon :=
          if negb has_double_colon && (c =? 58) && (prev_c =? 58) then true else has_double_colon in
        if parts_count >? 8 then
          Ret (None, if has_double_colon : bool then expected_at_most_7_other_parts_with_double_colon
                     else most_8_colons_permitted, parts_count)
        else if negb (c =? 58) then
          if symbol >? 15 then Ret (None, part_is_more_4_chars, parts_count)
          else
            last_part <- wr last_part symbol c ;;
            let symbol := symbol + 1 in
            last_part <- wr last_part symbol 0 ;;
            split_loop_st ts' parts last_part parts_count symbol c has_double_colon error error_symbol
        else
          if symbol >? 4 then Ret (None, part_is_more_4_chars, parts_count)
          else
            parts <- copy_part last_part parts parts_count ;;
            last_part <- wr last_part 0 0 ;;
            split_loop_st ts' parts last_part (w32 (parts_count + 1)) 0 c has_double_colon error error_symbol
  end.
(** split_parts, base-v6.hpp 336-461: the parts, the error and parts_count. *)
Definition split_parts_st (ts : list tok) (parts_count : Z) (error : ec) : res (list (list Z) * ec * Z) :=
  let fail error parts_count := Ret (repeat [] 9, error, parts_count) in
  let finish (parts : list (list Z)) (error : ec) (parts_count : Z) :=
    if parts_count <? 3 then fail least_3_parts parts_count
    else fs <- make_parts parts ;; Ret (fs, error, parts_count) in
  let parts_count := 0 in
  '(st, error, parts_count) <- split_loop_st ts (repeat (repeat 0 5) 9) (repeat 0 17) parts_count 0 0 false error 0 ;;
  match st with
  | None => fail error parts_count
  | Some (parts, last_part, symbol) =>
      if parts_count >? 8 then
        p0 <- rd parts 0 ;; p00 <- rd p0 0 ;; p1 <- rd parts 1 ;; p10 <- rd p1 0 ;;
        l0 <- rd last_part 0 ;;
        if (p00 =? 0) && negb (p10 =? 0) then fail leading_colon_only_permitted_as_part_of_double_colon parts_count
        else if l0 =? 0 then fail trailing_colon_only_permitted_as_part_of_double_colon parts_count
        else fail most_8_colons_permitted parts_count
      else
        has_ipv4 <- has_dot (Z.to_nat symbol) 0 last_part ;;
        if has_ipv4 : bool then
          if parts_count + 1 >=? 8 then fail most_8_colons_permitted parts_count
          else
            '(bytes, error) <- v4_array_st last_part error ;;
            ipv4 <- v4_to_uint true bytes ;;
            if negb (ok error) then fail error parts_count
            else
              p <- rd parts parts_count ;;
              p <- to_hex (Z.land (Z.shiftr ipv4 16) 0xFFFF) p ;;
              parts <- wr parts parts_count p ;;
              let parts_count := parts_count + 1 in
              p <- rd parts parts_count ;;
              p <- to_hex (Z.land ipv4 0xFFFF) p ;;
              parts <- wr parts parts_count p ;;
              finish parts error (parts_count + 1)
        else if symbol >? 4 then fail part_is_more_4_chars parts_count
        else
          parts <- copy_part last_part parts parts_count ;;
          finish parts error (parts_count + 1)
  end.

(** get_parts_bound, base-v6.hpp 463-519. *)
Fixpoint skip_loop_st (k : nat) (i : Z) (parts : list (list Z)) (skip : Z) (error : ec) : res (option Z * ec) :=
  match k with
  | O => Ret (Some skip, error)
  | S k' =>
      b <- part_empty parts i ;;
      if b : bool then
        if negb (skip =? 0) then Ret (None, most_one_double_colon_permitted)
        else skip_loop_st k' (i + 1) parts i error
      else skip_loop_st k' (i + 1) parts skip error
  end.
Definition bound_st (parts : list (list Z)) (parts_count : Z) (error : ec) : res (Z * Z * Z * ec) :=
  let fail error := Ret (0, 0, 0, error) in
  '(skip, error) <- skip_loop_st (Z.to_nat (parts_count - 1 - 1)) 1 parts 0 error ;;
  match skip with
  | None => fail error
  | Some skip =>
      if negb (skip =? 0) then
        let parts_hi := skip in
        let parts_lo := w64 (parts_count - skip - 1) in
        let finish parts_hi parts_lo :=
          let parts_skipped := w64 (8 - w64 (parts_hi + parts_lo)) in
          if parts_skipped <? 1 then fail expected_at_most_7_other_parts_with_double_colon
          else Ret (parts_hi, parts_lo, parts_skipped, error) in
        let second parts_hi :=
          e1 <- part_empty parts (parts_count - 1) ;;
          if e1 : bool then
            let parts_lo := w64 (parts_lo - 1) in
            if negb (parts_lo =? 0) then fail trailing_colon_only_permitted_as_part_of_double_colon
            else finish parts_hi parts_lo
          else finish parts_hi parts_lo in
        e0 <- part_empty parts 0 ;;
        if e0 : bool then
          let parts_hi := w64 (parts_hi - 1) in
          if negb (parts_hi =? 0) then fail leading_colon_only_permitted_as_part_of_double_colon
          else second parts_hi
        else second parts_hi
      else
        if negb (parts_count =? 8) then fail exactly_8_parts_expected_without_double_colon
        else
          e0 <- part_empty parts 0 ;;
          if e0 : bool then fail leading_colon_only_permitted_as_part_of_double_colon
          else
            e1 <- part_empty parts (parts_count - 1) ;;
            if e1 : bool then fail trailing_colon_only_permitted_as_part_of_double_colon
            else Ret (parts_count, 0, 0, error)
  end.

(** parse_part, base-v6.hpp 549-566. *)
Fixpoint part_loop_st (cs : list Z) (n i value : Z) (error : ec) : res (Z * ec) :=
  match cs with
  | [] => Ret (value, error)
  | c :: cs' =>
      power <- pow16 (n - i - 1) ;;
      if (c >=? 48) && (c <=? 57) then part_loop_st cs' n (i + 1) (w16 (value + (c - 48) * power)) error
      else if (c >=? 65) && (c <=? 70) then part_loop_st cs' n (i + 1) (w16 (value + (c - 55) * power)) error
      else if (c >=? 97) && (c <=? 102) then part_loop_st cs' n (i + 1) (w16 (value + (c - 87) * power)) error
      else Ret (0, part_has_invalid_symbol)
  end.
(** One loop of parse_parts, base-v6.hpp 525-533 and 537-545: the error is tested after
    the two bytes have been stored; [None]: early return. *)
Fixpoint parts_loop_st (k : nat) (i : Z) (parts : list (list Z)) (index : Z) (result : list Z) (error : ec)
  : res (option (Z * list Z) * ec) :=
  match k with
  | O => Ret (Some (index, result), error)
  | S k' =>
      p <- rd parts i ;;
      '(part, error) <- part_loop_st p (zlen p) 0 0 error ;;
      result <- wr result index (w8 (Z.shiftr part 8)) ;;
      result <- wr result (index + 1) (w8 (Z.land part 0xFF)) ;;
      if negb (ok error) then Ret (None, error)
      else parts_loop_st k' (i + 1) parts (index + 2) result error
  end.
(** parse_parts, base-v6.hpp 521-547. *)
Definition parse_parts_st (parts : list (list Z)) (parts_count hi lo skipped : Z) (error : ec) : res (list Z * ec) :=
  '(r, error) <- parts_loop_st (Z.to_nat hi) 0 parts 0 (repeat 0 16) error ;;
  match r with
  | None => Ret (repeat 0 16, error)
  | Some (index, result) =>
      let index := w64 (index + w64 (Z.shiftl skipped 1)) in
      _ <- assert (parts_count >? lo) ;;
      '(r, error) <- parts_loop_st (Z.to_nat lo) (parts_count - lo) parts index result error ;;
      match r with
      | None => Ret (repeat 0 16, error)
      | Some (_, result) => Ret (result, error)
      end
  end.

(** ip_from_string, base-v6.hpp 75-112: the address as bytes and scope id. *)
Definition v6_string_st (ts : list tok) (code : ec) (value : Z) : res (list Z * list Z * ec * Z) :=
  let fail code value := Ret (repeat 0 16, [], code, value) in
  match ts with
  | [] => fail empty_address value
  | _ =>
      '(end_ip, scope_id, code, value) <- split_scope_st ts code value ;;
      if negb (ok code) then fail code value
      else
        '(parts, code, value) <- split_parts_st (firstn (Z.to_nat end_ip) ts) value code ;;
        if negb (ok code) then fail code value
        else
          '(hi, lo, skipped, code) <- bound_st parts value code ;;
          if negb (ok code) then fail code value
          else
            '(bytes, code) <- parse_parts_st parts value hi lo skipped code ;;
            if negb (ok code) then fail code value
            else
              s0 <- rd scope_id 0 ;;
              if negb (s0 =? 0) then
                '(f, code) <- fs_make_st char_next 16 scope_id code ;;
                Ret (bytes, fs_chars f, code, value)
              else Ret (bytes, [], code, value)
  end.

(** parse_netmask, base-v6.hpp 245-272: does not reset [code] at the start. *)
Fixpoint v6_mask_digits_st (ts : list tok) (prefixlen : Z) (has_prefixlen : bool) (code : ec) (value : Z)
  : option (Z * bool) * ec * Z :=
  match ts with
  | [] => (Some (prefixlen, has_prefixlen), code, value)
  | t :: ts' =>
      let has_prefixlen := true in
      let '(c, code, value) := next_st t code value in
      if negb (ok code) then (None, code, value)
      else if (c >=? 48) && (c <=? 57) then
        v6_mask_digits_st ts' (w64 (w64 (prefixlen * 10) + (c - 48))) has_prefixlen code value
      else (None, invalid_netmask, value)
  end.
Definition v6_mask_st (ts : list tok) (code : ec) (value : Z) : res (list Z * Z * ec * Z) :=
  match v6_mask_digits_st ts 0 false code value with
  | (None, code, value) => Ret (repeat 0 16, 0, code, value)
  | (Some (prefixlen, has_prefixlen), code, value) =>
      if prefixlen >? 128 then Ret (repeat 0 16, 0, invalid_netmask, value)
      else
        let prefixlen := if has_prefixlen : bool then prefixlen else 128 in
        netmask <- v6_from_prefix prefixlen ;;
        Ret (netmask, prefixlen, code, value)
  end.
(** strict_netmask, base-v6.hpp 274-292. *)
Definition v6_strict_st (address scope netmask : list Z) (strict : bool) (code : ec) : res (list Z * list Z * ec) :=
  bytes <- and_loop 16 0 address netmask (repeat 0 16) ;;
  if negb (list_eqb bytes address) then
    if strict then Ret (repeat 0 16, [], has_host_bits_set) else Ret (bytes, [], code)
  else Ret (address, scope, code).

(** ** Addresses *)
(** ip_from_string of either base class. *)
Definition string_st (v : ver) (ts : list tok) (code : ec) (value : Z) : res (addr * ec * Z) :=
  match v with
  | V4 => '(b, code, value) <- v4_string_st ts code value ;; Ret (mk_addr b [], code, value)
  | V6 => '(b, s, code, value) <- v6_string_st ts code value ;; Ret (mk_addr b s, code, value)
  end.
(** parse_string, ip-address-base.hpp 774-778 with an error code ... *)
Definition parse_st (v : ver) (ts : list tok) (code : ec) : res (addr * ec) :=
  let code := no_error in
  let value := 0 in
  '(a, code, _) <- string_st v ts code value ;; Ret (a, code).
(** ... and ip-address-base.hpp 763-771 throwing. *)
Definition parse_throw (v : ver) (ts : list tok) : res addr :=
  let code := no_error in
  let value := 0 in
  '(result, code, value) <- string_st v ts code value ;;
  if negb (ok code) then Err code value else Ret result.
(** parse(const T(&)[N], code), ip-address-base.hpp 429-432, and parse(const T(&)[N]), 403-414. *)
Definition parse_array_st (v : ver) (next : reader) (n : nat) (data : list Z) (code : ec) : res (addr * ec) :=
  '(f, code) <- fs_make_st next n data code ;;
  if ok code then parse_st v (chars (fs_chars f)) code else Ret (addr_default v, code).
Definition parse_array_throw (v : ver) (next : reader) (n : nat) (data : list Z) : res addr :=
  f <- fs_make next n data ;; parse_throw v (chars (fs_chars f)).

(** ipv6_set_scope::change, ipv6-address.hpp 48-77: the scope id, the code and
    the index afterwards.  [n] is scope.size(). *)
Fixpoint change_loop_st (ts : list tok) (i : Z) (str : list Z) (code : ec) (index error_symbol : Z) : res (option (list Z) * ec * Z) :=
  match ts with
  | [] => Ret (Some str, code, index)
  | t :: ts' =>
      let '(c, code, error_symbol) := next_st t code error_symbol in
      if negb (ok code) then Ret (None, code, error_symbol)
      else if is_invalid_scope_id_symbol c then Ret (None, invalid_scope_id, index)
      else str <- wr str i c ;; change_loop_st ts' (i + 1) str code index error_symbol
  end.
Definition change_st (result : list Z) (n : Z) (ts : list tok) (code : ec) (index : Z) : res (list Z * ec * Z) :=
  if n >? scope_max then Ret (result, scope_id_is_too_long, index)
  else
    let code := no_error in
    let index := 0 in
    '(str, code, index) <- change_loop_st ts 0 (repeat 0 17) code index 0 ;;
    match str with
    | None => Ret (result, code, index)
    | Some str =>
        '(fixed_scope, code) <- fs_make_st char_next 16 str code ;;
        Ret (if ok code then fs_chars fixed_scope else result, code, index)
    end.
(** set_scope_id of a string with an error code (change ipv6-address.hpp 40-45) and throwing
    (change 26-37): the address afterwards. *)
Definition set_scope_st (a : addr) (n : Z) (ts : list tok) (code : ec) : res (addr * ec) :=
  '(s, code, _) <- change_st (a_scope a) n ts code 0 ;; Ret (mk_addr (a_bytes a) s, code).
Definition set_scope_throw (a : addr) (n : Z) (ts : list tok) : res addr :=
  let code := no_error in
  let index := 0 in
  '(s, code, index) <- change_st (a_scope a) n ts code index ;;
  if negb (ok code) then Err code index else Ret (mk_addr (a_bytes a) s).
(** set_scope_id(const T(&)[N], code), ipv6-address.hpp 336-344 ([n] = N - 1). *)
Definition set_scope_array_st (a : addr) (next : reader) (n : nat) (data : list Z) (code : ec) : res (addr * ec) :=
  '(f, code) <- fs_make_st next n data code ;;
  if ok code then set_scope_st a (fs_size f) (chars (fs_chars f)) code else Ret (a, code).
(** set_scope_id(const T(&)[N]), ipv6-address.hpp 308-321. *)
Definition set_scope_array_throw (a : addr) (next : reader) (n : nat) (data : list Z) : res addr :=
  f <- fs_make next n data ;; set_scope_throw a (fs_size f) (chars (fs_chars f)).

(** ** Networks, ip-network-base.hpp *)
(** parse_netmask and strict_netmask of either base class. *)
Definition mask_st (v : ver) (ts : list tok) (code : ec) (value : Z) : res (addr * Z * ec * Z) :=
  '(m, p, code, value) <- match v with V4 => v4_mask_st ts code value | V6 => v6_mask_st ts code value end ;;
  Ret (mk_addr m [], p, code, value).
Definition strict_st (v : ver) (a m : addr) (strict : bool) (code : ec) : res (addr * ec) :=
  match v with
  | V4 => '(b, code) <- v4_strict_st (a_bytes a) (a_bytes m) strict code ;; Ret (mk_addr b [], code)
  | V6 => '(b, s, code) <- v6_strict_st (a_bytes a) (a_scope a) (a_bytes m) strict code ;; Ret (mk_addr b s, code)
  end.
(** The loop ip-network-base.hpp 1265-1288; [None]: early return. *)
Fixpoint net_split_st (maxlen : Z) (ts : list tok) (address : list Z) (symbol : Z) (has_slash : bool) (netmask : list tok)
  (code : ec) (value : Z) : res (option (list Z * list tok) * ec * Z) :=
  match ts with
  | [] => Ret (Some (address, netmask), code, value)
  | t :: ts' =>
      let '(c, code, value) := next_st t code value in
      if negb (ok code) then Ret (None, code, value)
      else if (c =? 47) && has_slash then Ret (None, only_one_slash_permitted, value)
      else if (c =? 47) && (zlen ts' =? 0) then Ret (None, empty_netmask, value)
      else
        let netmask := if c =? 47 then ts' else netmask in
        let has_slash := if c =? 47 then true else has_slash in
        '(address, symbol) <-
          (if negb has_slash then address <- wr address symbol c ;; Ret (address, symbol + 1)
           else Ret (address, symbol)) ;;
        if symbol >? maxlen then Ret (Some (address, netmask), code, value)
        else net_split_st maxlen ts' address symbol has_slash netmask code value
  end.
(** parse_address_with_prefix with a code, ip-network-base.hpp 1257-1312 ... *)
Definition net_string_st (v : ver) (ts : list tok) (strict : bool) (code : ec) (value : Z) : res (net * ec * Z) :=
  let code := no_error in
  '(st, code, value) <- net_split_st (max_string_len v) ts (repeat 0 (Z.to_nat (max_string_len v + 1))) 0 false [] code value ;;
  match st with
  | None => Ret (net_default v, code, value)
  | Some (address, netmask) =>
      '(m, p, code, value) <- mask_st v netmask code value ;;
      if negb (ok code) then Ret (net_default v, code, value)
      else
        '(a, code) <- parse_array_st v char_next (Z.to_nat (max_string_len v)) address code ;;
        if negb (ok code) then Ret (net_default v, code, value)
        else
          '(a, code) <- strict_st v a m strict code ;;
          if negb (ok code) then Ret (net_default v, code, value)
          else Ret (mk_net a m p, code, value)
  end.
(** ... the public overload with a code, ip-network-base.hpp 345-361 ... *)
Definition net_parse_st (v : ver) (ts : list tok) (strict : bool) (code : ec) : res (net * ec) :=
  '(n, code, _) <- net_string_st v ts strict code 0 ;; Ret (n, code).
(** ... and the throwing one, ip-network-base.hpp 1246-1254. *)
Definition net_parse_throw (v : ver) (ts : list tok) (strict : bool) : res net :=
  let code := no_error in
  let value := 0 in
  '(result, code, value) <- net_string_st v ts strict code value ;;
  if negb (ok code) then Err code value else Ret result.
(** parse(const T(&)[N], code, strict), ip-network-base.hpp 405-409, and throwing, 378-389. *)
Definition net_array_st (v : ver) (next : reader) (n : nat) (data : list Z) (strict : bool) (code : ec) : res (net * ec) :=
  '(f, code) <- fs_make_st next n data code ;;
  if ok code then net_parse_st v (chars (fs_chars f)) strict code else Ret (net_default v, code).
Definition net_array_throw (v : ver) (next : reader) (n : nat) (data : list Z) (strict : bool) : res net :=
  f <- fs_make next n data ;; net_parse_throw v (chars (fs_chars f)) strict.

(** from_address, ip-network-base.hpp 452-472 with a code and 425-438 throwing. *)
Definition from_address_st (v : ver) (address : addr) (prefixlen : Z) (strict : bool) (code : ec) : res (net * ec) :=
  let code := no_error in
  netmask <- ip_from_prefix v prefixlen ;;
  let result := net_default v in
  '(a, code) <- strict_st v address netmask strict code ;;
  let result := mk_net a (n_mask result) (n_prefix result) in
  if negb (ok code) then Ret (result, code)
  else Ret (mk_net (n_addr result) netmask prefixlen, code).
Definition from_address_throw (v : ver) (address : addr) (prefixlen : Z) (strict : bool) : res net :=
  let code := no_error in
  '(result, code) <- from_address_st v address prefixlen strict code ;;
  if negb (ok code) then Err code 0 else Ret result.

(** supernet, ip-network-base.hpp 1105-1132 with a code ([from_address] at its end is the throwing
    one) and 1072-1079 throwing. *)
Definition supernet_st (v : ver) (n : net) (prefixlen_diff : Z) (new_prefixlen : option Z) (code : ec) : res (net * ec) :=
  let code := no_error in
  let finish prefixlen_diff :=
    if prefixlen_diff >? n_prefix n then Ret (net_default v, invalid_prefixlen_diff)
    else
      let new_prefix := n_prefix n - prefixlen_diff in
      a <- addr_to_uint v (n_addr n) ;;
      m <- addr_to_uint v (n_mask n) ;;
      s <- ushl v m prefixlen_diff ;;
      address <- addr_from_uint v (uand v a s) ;;
      r <- from_address_throw v address new_prefix true ;;
      Ret (r, code) in
  if n_prefix n =? 0 then Ret (n, code)
  else
    match new_prefixlen with
    | Some np =>
        if np >? n_prefix n then Ret (net_default v, new_prefix_must_be_shorter)
        else if negb (prefixlen_diff =? 1) then Ret (net_default v, cannot_set_prefixlen_diff_and_new_prefix)
        else finish (n_prefix n - np)
    | None => finish prefixlen_diff
    end.
Definition supernet_throw (v : ver) (n : net) (prefixlen_diff : Z) (new_prefixlen : option Z) : res net :=
  let code := no_error in
  '(result, code) <- supernet_st v n prefixlen_diff new_prefixlen code ;;
  if negb (ok code) then Err code 0 else Ret result.
(** subnets (ip-network-base.hpp 1022-1049) and address_exclude (940-954) with a code are
    IterModel.subnets_code and IterModel.exclude_code, which return the code
    they are given unless they find an error. *)

(** ** Version-erased objects *)
(** ip_any_parser::parse, ip-any-address.hpp 43-54 with a code, 33-40 throwing. *)
Definition any_parse_st (ts : list tok) (code : ec) : res (aaddr * ec) :=
  let code := no_error in
  '(ipv4, code) <- parse_st V4 ts code ;;
  if ok code then Ret (mk_aa V4 ipv4, code)
  else
    '(ipv6, code) <- parse_st V6 ts code ;;
    if ok code then Ret (mk_aa V6 ipv6, code) else Ret (aa_default, code).
Definition any_parse_throw (ts : list tok) : res aaddr :=
  let code := no_error in
  '(ipv4, code) <- parse_st V4 ts code ;;
  if ok code then Ret (mk_aa V4 ipv4) else a <- parse_throw V6 ts ;; Ret (mk_aa V6 a).
(** net_any_parser::parse, ip-any-network.hpp 45-56 with a code, 35-42 throwing. *)
Definition anet_parse_st (ts : list tok) (strict : bool) (code : ec) : res (anet * ec) :=
  let code := no_error in
  '(net4, code) <- net_parse_st V4 ts strict code ;;
  if ok code then Ret (mk_an V4 net4, code)
  else
    '(net6, code) <- net_parse_st V6 ts strict code ;;
    if ok code then Ret (mk_an V6 net6, code) else Ret (an_default, code).
Definition anet_parse_throw (ts : list tok) (strict : bool) : res anet :=
  let code := no_error in
  '(net4, code) <- net_parse_st V4 ts strict code ;;
  if ok code then Ret (mk_an V4 net4) else n <- net_parse_throw V6 ts strict ;; Ret (mk_an V6 n).
(** ip_address::set_scope_id, ip-any-address.hpp 856-859 with a code and
    748-751 throwing: nothing happens, and the code is not written, unless the
    address is IPv6. *)
Definition any_set_scope_st (x : aaddr) (n : Z) (ts : list tok) (code : ec) : res (aaddr * ec) :=
  if ver_eqb (aa_ver x) V6 then
    '(a, code) <- set_scope_st (aa_addr x) n ts code ;; Ret (mk_aa V6 a, code)
  else Ret (x, code).
Definition any_set_scope_throw (x : aaddr) (n : Z) (ts : list tok) : res aaddr :=
  if ver_eqb (aa_ver x) V6 then a <- set_scope_throw (aa_addr x) n ts ;; Ret (mk_aa V6 a) else Ret x.
