(** The IPv6 code under every setting of the two macros that bound scope ids:
    IPADDRESS_IPV6_SCOPE_MAX_LENGTH (config.hpp 154-167: a value from 0 to 64,
    16 unless set) and IPADDRESS_SCOPE_ID_SUPPORT_SPACES.  Only what depends on
    them is repeated here; the other functions are those of V6Model. *)
From Verif Require Import Base UnicodeModel FixedStringModel V4Model V6Model.

Record config := mk_cfg { c_max : Z; c_spaces : bool }.
Definition default_config : config := mk_cfg 16 false.

(** config.hpp 154-167 on the value given by the user ([None]: not defined);
    [no_scope] is IPADDRESS_NO_IPV6_SCOPE. *)
Definition config_max (no_scope : bool) (given : option Z) : Z :=
  if no_scope then 0
  else match given with
       | Some n => if n <? 0 then 0 else if n >? 64 then 64 else n
       | None => 16
       end.

(** is_invalid_scope_id_symbol, base-v6.hpp 22-28. *)
Definition invalid_symbol_c (g : config) (c : Z) : bool :=
  (c =? 37) || (c =? 47) || (if c_spaces g then false else (c =? 32) || ((c >=? 9) && (c <=? 13))).

(** split_scope_id, base-v6.hpp 302-333, on the array of c_max + 1 characters ([index] is an int). *)
Fixpoint split_scope_loop_c (g : config) (ts : list tok) (pos end_ip : Z) (scope : bool) (scope_id : list Z) (index : Z)
  : res (Z * bool * list Z) :=
  match ts with
  | [] => Ret (end_ip, scope, scope_id)
  | Bad e v :: _ => Err e v
  | Ch c :: ts' =>
      let it := pos + 1 in
      if negb scope && negb (c =? 37) then split_scope_loop_c g ts' it it scope scope_id index
      else if scope then
        if index >? c_max g - 1 then Err scope_id_is_too_long 0
        else if invalid_symbol_c g c then Err invalid_scope_id 0
        else scope_id <- wr scope_id index c ;;
             split_scope_loop_c g ts' it end_ip scope scope_id (index + 1)
      else split_scope_loop_c g ts' it end_ip true scope_id index
  end.
Definition split_scope_id_c (g : config) (ts : list tok) : res (Z * list Z) :=
  '(end_ip, scope, scope_id) <- split_scope_loop_c g ts 0 0 false (repeat 0 (Z.to_nat (c_max g + 1))) 0 ;;
  s0 <- rd scope_id 0 ;;
  if (scope : bool) && (s0 =? 0) then Err invalid_scope_id 0
  else Ret (end_ip, scope_id).

(** ip_from_string, base-v6.hpp 75-112: the lines 101-109 exist only for c_max > 0. *)
Definition v6_from_string_c (g : config) (le : bool) (ts : list tok) : res (list Z * list Z) :=
  match ts with
  | [] => Err empty_address 0
  | _ =>
      '(end_ip, scope_id) <- split_scope_id_c g ts ;;
      '(parts, parts_count) <- split_parts le (firstn (Z.to_nat end_ip) ts) ;;
      '(hi, lo, skipped) <- get_parts_bound parts parts_count ;;
      bytes <- parse_parts parts parts_count hi lo skipped ;;
      if c_max g >? 0 then
        s0 <- rd scope_id 0 ;;
        if negb (s0 =? 0) then
          f <- fs_make char_next (Z.to_nat (c_max g)) scope_id ;; Ret (bytes, fs_chars f)
        else Ret (bytes, [])
      else Ret (bytes, [])
  end.

(** ip_to_chars, base-v6.hpp 127-231, with the buffer of base_max_string_len + 1 =
    41 + c_max + 1 characters (line 49); the scope id is the contents of a
    fixed_string<c_max>. *)
Definition v6_to_chars_c (g : config) (bytes scope_id : list Z) (fmt : format) : res (list Z * Z) :=
  hextets <- hextets_loop 8 0 bytes (repeat (repeat 0 5) 8) ;;
  '(hextets, count, dc_start, dc_end) <-
    match fmt with
    | full => Ret (hextets, 8, false, false)
    | compact => hextets <- strip_all 8 0 hextets ;; Ret (hextets, 8, false, false)
    | compressed => hextets <- strip_all 8 0 hextets ;; compress hextets
    end ;;
  '(result, offset) <- put dc_start 58 (repeat 0 (Z.to_nat (41 + c_max g + 1))) 0 ;;
  '(result, offset) <- put_hextets (Z.to_nat (count - 1)) 0 hextets result offset ;;
  h <- rd hextets (count - 1) ;;
  '(result, offset) <- put_hextet 5 0 h result offset ;;
  '(result, offset) <- put dc_end 58 result offset ;;
  '(result, offset) <-
    (if negb (zlen scope_id =? 0) then
       result <- wr result offset 37 ;;
       copy_chars (length scope_id) 0 scope_id result (offset + 1)
     else Ret (result, offset)) ;;
  result <- wr result offset 0 ;;
  Ret (result, offset).
(** to_string, ip-address-base.hpp 527-531. *)
Definition v6_to_string_c (g : config) (bytes scope_id : list Z) (fmt : format) : res (list Z) :=
  '(result, len) <- v6_to_chars_c g bytes scope_id fmt ;;
  if len <=? zlen result then Ret (firstn (Z.to_nat len) result) else UB OutOfBounds.

(** ipv6_set_scope::change, ipv6-address.hpp 47-77, on a scope id [old] and an
    error code: [n] is scope.size() in code units, [ts] its tokens.  Nothing
    happens when scope ids are switched off (lines 49 and 76). *)
Fixpoint set_scope_loop_c (g : config) (ts : list tok) (i : Z) (str : list Z) : res (list Z) :=
  match ts with
  | [] => Ret str
  | Bad e v :: _ => Err e v
  | Ch c :: ts' =>
      if invalid_symbol_c g c then Err invalid_scope_id 0
      else str <- wr str i c ;; set_scope_loop_c g ts' (i + 1) str
  end.
Definition v6_set_scope_c (g : config) (old : list Z) (code : ec) (n : Z) (ts : list tok) : res (list Z * ec) :=
  if c_max g >? 0 then
    if n >? c_max g then Ret (old, scope_id_is_too_long)
    else
      match str <- set_scope_loop_c g ts 0 (repeat 0 (Z.to_nat (c_max g + 1))) ;;
            f <- fs_make char_next (Z.to_nat (c_max g)) str ;; Ret (fs_chars f) with
      | Ret t => Ret (t, no_error)
      | Err e _ => Ret (old, e)
      | UB u => UB u
      end
  else Ret (old, code).
