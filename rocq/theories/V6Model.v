(** IPv6 primitives.  Models: include/ipaddress/base-v6.hpp (with
    IPADDRESS_IPV6_SCOPE_MAX_LENGTH = 16 and SCOPE_ID_SUPPORT_SPACES undefined)
    and the address part of ipv6-address.hpp.  An address is the list of its
    16 bytes; a stored scope id is the list of its characters (the contents of
    the fixed_string<16>, see FixedStringModel). *)
From Verif Require Import Base UnicodeModel FixedStringModel V4Model Uint128Model.

(** config.hpp: IPADDRESS_IPV6_SCOPE_MAX_LENGTH. *)
Definition scope_max : Z := 16.

(** is_invalid_scope_id_symbol, base-v6.hpp 22-28. *)
Definition is_invalid_scope_id_symbol (c : Z) : bool :=
  (c =? 37) || (c =? 47) || (c =? 32) || ((c >=? 9) && (c <=? 13)).

(** split_scope_id, base-v6.hpp 302-333.  [end_ip] is the position (in tokens) after the
    last address character; a value-initialised (null) iterator when there is
    none, which makes the following loop empty like position 0 does.  Returns
    that position and the 17-character scope array. *)
Fixpoint split_scope_loop (ts : list tok) (pos end_ip : Z) (scope : bool) (scope_id : list Z) (index : Z)
  : res (Z * bool * list Z) :=
  match ts with
  | [] => Ret (end_ip, scope, scope_id)
  | Bad e v :: _ => Err e v
  | Ch c :: ts' =>
      let it := pos + 1 in
      if negb scope && negb (c =? 37) then split_scope_loop ts' it it scope scope_id index
      else if scope then
        if index >? scope_max - 1 then Err scope_id_is_too_long 0
        else if is_invalid_scope_id_symbol c then Err invalid_scope_id 0
        else scope_id <- wr scope_id index c ;;
             split_scope_loop ts' it end_ip scope scope_id (index + 1)
      else split_scope_loop ts' it end_ip true scope_id index
  end.
Definition split_scope_id (ts : list tok) : res (Z * list Z) :=
  '(end_ip, scope, scope_id) <- split_scope_loop ts 0 0 false (repeat 0 17) 0 ;;
  s0 <- rd scope_id 0 ;;
  if (scope : bool) && (s0 =? 0) then Err invalid_scope_id 0
  else Ret (end_ip, scope_id).

(** to_hex, base-v6.hpp 580-586. *)
Fixpoint to_hex_loop (k : nat) (value i j : Z) (result : list Z) : res (list Z) :=
  match k with
  | O => Ret result
  | S k' =>
      d <- rd hex_digits (Z.land (Z.shiftr value j) 0x0f) ;;
      result <- wr result i d ;;
      result <- wr result (i + 1) 0 ;;
      to_hex_loop k' value (i + 1) (j - 4) result
  end.
Definition to_hex (value : Z) (result : list Z) : res (list Z) := to_hex_loop 4 value 0 12 result.

(** The four-character copy at base-v6.hpp 387-391 and 439-443. *)
Definition copy_part (last_part : list Z) (parts : list (list Z)) (n : Z) : res (list (list Z)) :=
  p <- rd parts n ;;
  c0 <- rd last_part 0 ;; p <- wr p 0 c0 ;;
  c1 <- rd last_part 1 ;; p <- wr p 1 c1 ;;
  c2 <- rd last_part 2 ;; p <- wr p 2 c2 ;;
  c3 <- rd last_part 3 ;; p <- wr p 3 c3 ;;
  wr parts n p.

(** The character loop of split_parts, base-v6.hpp 356-397: returns (parts, last_part,
    parts_count, symbol).  The error value is parts_count. *)
Fixpoint split_loop (ts : list tok) (parts : list (list Z)) (last_part : list Z)
  (parts_count symbol prev_c : Z) (has_double_colon : bool)
  : res (list (list Z) * list Z * Z * Z) :=
  match ts with
  | [] => Ret (parts, last_part, parts_count, symbol)
  | Bad e v :: _ => Err e v
  | Ch c :: ts' =>
      let has_double_colon :=
        if negb has_double_colon && (c =? 58) && (prev_c =? 58) then true else has_double_colon in
      if parts_count >? 8 then
        Err (if has_double_colon : bool then expected_at_most_7_other_parts_with_double_colon
             else most_8_colons_permitted) parts_count
      else if negb (c =? 58) then
        if symbol >? 15 then Err part_is_more_4_chars parts_count
        else
          last_part <- wr last_part symbol c ;;
          let symbol := symbol + 1 in
          last_part <- wr last_part symbol 0 ;;
          split_loop ts' parts last_part parts_count symbol c has_double_colon
      else
        if symbol >? 4 then Err part_is_more_4_chars parts_count
        else
          parts <- copy_part last_part parts parts_count ;;
          last_part <- wr last_part 0 0 ;;
          split_loop ts' parts last_part (w32 (parts_count + 1)) 0 c has_double_colon
  end.

(** The scan at base-v6.hpp 412-417. *)
Fixpoint has_dot (k : nat) (i : Z) (last_part : list Z) : res bool :=
  match k with
  | O => Ret false
  | S k' => c <- rd last_part i ;; if c =? 46 then Ret true else has_dot k' (i + 1) last_part
  end.

(** ipv4_address::parse(last_part, error) on the char[17] array,
    ip-address-base.hpp 428-432. *)
Definition v4_parse_array (data : list Z) : res (list Z) :=
  f <- fs_make char_next 16 data ;; v4_from_string (chars (fs_chars f)).

Fixpoint make_parts (ps : list (list Z)) : res (list (list Z)) :=
  match ps with
  | [] => Ret []
  | p :: ps' => f <- fs_make char_next 4 p ;; fs <- make_parts ps' ;; Ret (fs_chars f :: fs)
  end.

(** split_parts, base-v6.hpp 336-461: the 9 parts (contents of the fixed strings) and the
    parts count. *)
Definition split_parts (le : bool) (ts : list tok) : res (list (list Z) * Z) :=
  '(parts, last_part, parts_count, symbol) <-
    split_loop ts (repeat (repeat 0 5) 9) (repeat 0 17) 0 0 0 false ;;
  if parts_count >? 8 then
    p0 <- rd parts 0 ;; p00 <- rd p0 0 ;; p1 <- rd parts 1 ;; p10 <- rd p1 0 ;;
    l0 <- rd last_part 0 ;;
    if (p00 =? 0) && negb (p10 =? 0) then
      Err leading_colon_only_permitted_as_part_of_double_colon parts_count
    else if l0 =? 0 then
      Err trailing_colon_only_permitted_as_part_of_double_colon parts_count
    else Err most_8_colons_permitted parts_count
  else
    has_ipv4 <- has_dot (Z.to_nat symbol) 0 last_part ;;
    '(parts, parts_count) <-
      (if has_ipv4 : bool then
         if parts_count + 1 >=? 8 then Err most_8_colons_permitted parts_count
         else
           match v4_parse_array last_part with
           | UB u => UB u
           | Err e _ => Err e parts_count
           | Ret bytes =>
               ipv4 <- v4_to_uint le bytes ;;
               p <- rd parts parts_count ;;
               p <- to_hex (Z.land (Z.shiftr ipv4 16) 0xFFFF) p ;;
               parts <- wr parts parts_count p ;;
               let parts_count := parts_count + 1 in
               p <- rd parts parts_count ;;
               p <- to_hex (Z.land ipv4 0xFFFF) p ;;
               parts <- wr parts parts_count p ;;
               Ret (parts, parts_count + 1)
           end
       else if symbol >? 4 then Err part_is_more_4_chars parts_count
       else
         parts <- copy_part last_part parts parts_count ;;
         Ret (parts, parts_count + 1)) ;;
    if parts_count <? 3 then Err least_3_parts parts_count
    else
      fs <- make_parts parts ;;
      Ret (fs, parts_count).

(** get_parts_bound, base-v6.hpp 463-519. *)
Definition part_empty (parts : list (list Z)) (i : Z) : res bool :=
  p <- rd parts i ;; Ret (zlen p =? 0).
Fixpoint skip_loop (k : nat) (i : Z) (parts : list (list Z)) (parts_count skip : Z) : res Z :=
  match k with
  | O => Ret skip
  | S k' =>
      b <- part_empty parts i ;;
      if b : bool then
        if negb (skip =? 0) then Err most_one_double_colon_permitted parts_count
        else skip_loop k' (i + 1) parts parts_count i
      else skip_loop k' (i + 1) parts parts_count skip
  end.
Definition get_parts_bound (parts : list (list Z)) (parts_count : Z) : res (Z * Z * Z) :=
  skip <- skip_loop (Z.to_nat (parts_count - 1 - 1)) 1 parts parts_count 0 ;;
  if negb (skip =? 0) then
    let parts_hi := skip in
    let parts_lo := w64 (parts_count - skip - 1) in
    e0 <- part_empty parts 0 ;;
    parts_hi <-
      (if e0 : bool then
         let parts_hi := w64 (parts_hi - 1) in
         if negb (parts_hi =? 0) then
           Err leading_colon_only_permitted_as_part_of_double_colon parts_count
         else Ret parts_hi
       else Ret parts_hi) ;;
    e1 <- part_empty parts (parts_count - 1) ;;
    parts_lo <-
      (if e1 : bool then
         let parts_lo := w64 (parts_lo - 1) in
         if negb (parts_lo =? 0) then
           Err trailing_colon_only_permitted_as_part_of_double_colon parts_count
         else Ret parts_lo
       else Ret parts_lo) ;;
    let parts_skipped := w64 (8 - w64 (parts_hi + parts_lo)) in
    if parts_skipped <? 1 then Err expected_at_most_7_other_parts_with_double_colon parts_count
    else Ret (parts_hi, parts_lo, parts_skipped)
  else
    if negb (parts_count =? 8) then Err exactly_8_parts_expected_without_double_colon parts_count
    else
      e0 <- part_empty parts 0 ;;
      if e0 : bool then Err leading_colon_only_permitted_as_part_of_double_colon parts_count
      else
        e1 <- part_empty parts (parts_count - 1) ;;
        if e1 : bool then Err trailing_colon_only_permitted_as_part_of_double_colon parts_count
        else Ret (parts_count, 0, 0).

(** pow16, base-v6.hpp 568-578. *)
Definition pow16 (power : Z) : res Z :=
  if power =? 0 then Ret 1 else if power =? 1 then Ret 16
  else if power =? 2 then Ret 256 else if power =? 3 then Ret 4096
  else UB AssertFailed.

(** parse_part, base-v6.hpp 549-566; [n] is part.size(). *)
Fixpoint parse_part_loop (cs : list Z) (n i value parts_count : Z) : res Z :=
  match cs with
  | [] => Ret value
  | c :: cs' =>
      power <- pow16 (n - i - 1) ;;
      if (c >=? 48) && (c <=? 57) then
        parse_part_loop cs' n (i + 1) (w16 (value + (c - 48) * power)) parts_count
      else if (c >=? 65) && (c <=? 70) then
        parse_part_loop cs' n (i + 1) (w16 (value + (c - 55) * power)) parts_count
      else if (c >=? 97) && (c <=? 102) then
        parse_part_loop cs' n (i + 1) (w16 (value + (c - 87) * power)) parts_count
      else Err part_has_invalid_symbol parts_count
  end.
Definition parse_part (part : list Z) (parts_count : Z) : res Z :=
  parse_part_loop part (zlen part) 0 0 parts_count.

(** parse_parts, base-v6.hpp 521-547. *)
Fixpoint parts_loop (k : nat) (i : Z) (parts : list (list Z)) (parts_count index : Z) (result : list Z)
  : res (Z * list Z) :=
  match k with
  | O => Ret (index, result)
  | S k' =>
      p <- rd parts i ;;
      part <- parse_part p parts_count ;;
      result <- wr result index (w8 (Z.shiftr part 8)) ;;
      result <- wr result (index + 1) (w8 (Z.land part 0xFF)) ;;
      parts_loop k' (i + 1) parts parts_count (index + 2) result
  end.
Definition parse_parts (parts : list (list Z)) (parts_count hi lo skipped : Z) : res (list Z) :=
  '(index, result) <- parts_loop (Z.to_nat hi) 0 parts parts_count 0 (repeat 0 16) ;;
  let index := w64 (index + w64 (Z.shiftl skipped 1)) in
  _ <- assert (parts_count >? lo) ;;
  '(index, result) <- parts_loop (Z.to_nat lo) (parts_count - lo) parts parts_count index result ;;
  Ret result.

(** ip_from_string, base-v6.hpp 75-112: bytes and scope id. *)
Definition v6_from_string (le : bool) (ts : list tok) : res (list Z * list Z) :=
  match ts with
  | [] => Err empty_address 0
  | _ =>
      '(end_ip, scope_id) <- split_scope_id ts ;;
      '(parts, parts_count) <- split_parts le (firstn (Z.to_nat end_ip) ts) ;;
      '(hi, lo, skipped) <- get_parts_bound parts parts_count ;;
      bytes <- parse_parts parts parts_count hi lo skipped ;;
      s0 <- rd scope_id 0 ;;
      if negb (s0 =? 0) then
        f <- fs_make char_next 16 scope_id ;; Ret (bytes, fs_chars f)
      else Ret (bytes, [])
  end.

(** ip_from_prefix, base-v6.hpp 114-125: bytes written without a bound check. *)
Fixpoint prefix_ones (k : nat) (i : Z) (bytes : list Z) : res (list Z) :=
  match k with
  | O => Ret bytes
  | S k' => bytes <- wr bytes i 0xFF ;; prefix_ones k' (i + 1) bytes
  end.
Definition v6_from_prefix (prefixlen : Z) : res (list Z) :=
  (* the loop writes at the first index out of bounds whatever follows, so 17
     iterations represent any larger count *)
  bytes <- prefix_ones (Z.to_nat (Z.min (Z.shiftr prefixlen 3) 17)) 0 (repeat 0 16) ;;
  let shift := prefixlen - Z.shiftl (Z.shiftr prefixlen 3) 3 in
  if shift >? 0 then
    let byte := Z.lxor 0xFF (w8 (Z.shiftr 0xFF shift)) in
    wr bytes (Z.shiftr prefixlen 3) byte
  else Ret bytes.

(** *** Formatting: ip_to_chars, base-v6.hpp 127-231 *)
(** The hextet table, base-v6.hpp 131-134. *)
Fixpoint hextets_loop (k : nat) (i : Z) (bytes : list Z) (hextets : list (list Z)) : res (list (list Z)) :=
  match k with
  | O => Ret hextets
  | S k' =>
      b0 <- rd bytes (i * 2) ;; b1 <- rd bytes (i * 2 + 1) ;;
      let value := w16 (Z.lor (Z.shiftl b0 8) b1) in
      h <- rd hextets i ;;
      h <- to_hex value h ;;
      hextets <- wr hextets i h ;;
      hextets_loop k' (i + 1) bytes hextets
  end.
(** Leading zero removal in one hextet, base-v6.hpp 143-151. *)
Fixpoint strip_loop (k : nat) (h : list Z) : res (list Z) :=
  match k with
  | O => Ret h
  | S k' =>
      c0 <- rd h 0 ;;
      if negb (c0 =? 48) then Ret h
      else
        x <- rd h 1 ;; h <- wr h 0 x ;;
        x <- rd h 2 ;; h <- wr h 1 x ;;
        x <- rd h 3 ;; h <- wr h 2 x ;;
        x <- rd h 4 ;; h <- wr h 3 x ;;
        strip_loop k' h
  end.
(** ... in all of them, base-v6.hpp 141-152. *)
Fixpoint strip_all (k : nat) (i : Z) (hextets : list (list Z)) : res (list (list Z)) :=
  match k with
  | O => Ret hextets
  | S k' =>
      h <- rd hextets i ;; h <- strip_loop 3 h ;; hextets <- wr hextets i h ;;
      strip_all k' (i + 1) hextets
  end.
(** Longest run search, base-v6.hpp 155-176: (best_len, best_start). *)
Fixpoint run_loop (k : nat) (i : Z) (hextets : list (list Z)) (best_len best_start len start : Z)
  : res (Z * Z) :=
  match k with
  | O => Ret (best_len, best_start)
  | S k' =>
      h <- rd hextets i ;; c0 <- rd h 0 ;;
      if c0 =? 48 then
        let len := len + 1 in
        let start := if start =? -1 then i else start in
        if len >? best_len then run_loop k' (i + 1) hextets len start len start
        else run_loop k' (i + 1) hextets best_len best_start len start
      else run_loop k' (i + 1) hextets best_len best_start 0 (-1)
  end.
(** The shift of the hextets after the run, base-v6.hpp 184-194. *)
Fixpoint shift_loop (k : nat) (h best_len : Z) (hextets : list (list Z)) : res (list (list Z)) :=
  match k with
  | O => Ret hextets
  | S k' =>
      if h <? 8 - 1 then
        let lindex := h + 1 in
        let rindex := h + best_len in
        if rindex >=? 8 then Ret hextets
        else
          r <- rd hextets rindex ;;
          l <- rd hextets lindex ;;
          c0 <- rd r 0 ;; l <- wr l 0 c0 ;;
          c1 <- rd r 1 ;; l <- wr l 1 c1 ;;
          c2 <- rd r 2 ;; l <- wr l 2 c2 ;;
          c3 <- rd r 3 ;; l <- wr l 3 c3 ;;
          hextets <- wr hextets lindex l ;;
          shift_loop k' (h + 1) best_len hextets
      else Ret hextets
  end.
(** Compression, base-v6.hpp 154-201: (hextets, count, start flag, end flag). *)
Definition compress (hextets : list (list Z)) : res (list (list Z) * Z * bool * bool) :=
  '(best_len, best_start) <- run_loop 8 0 hextets 0 (-1) 0 (-1) ;;
  if best_len >? 1 then
    let best_end := best_start + best_len in
    h <- rd hextets best_start ;; h <- wr h 0 0 ;; hextets <- wr hextets best_start h ;;
    hextets <- shift_loop 8 best_start best_len hextets ;;
    Ret (hextets, 8 - (best_len - 1), best_start =? 0, best_end =? 8)
  else Ret (hextets, 8, false, false).
(** NUL-terminated copy, base-v6.hpp 210-212 and 216-218 (and the scope characters). *)
Fixpoint put_hextet (k : nat) (c : Z) (hextet result : list Z) (offset : Z) : res (list Z * Z) :=
  x <- rd hextet c ;;
  if x =? 0 then Ret (result, offset)
  else match k with
       | O => UB OutOfFuel
       | S k' => result <- wr result offset x ;; put_hextet k' (c + 1) hextet result (offset + 1)
       end.
Fixpoint put_hextets (k : nat) (i : Z) (hextets : list (list Z)) (result : list Z) (offset : Z)
  : res (list Z * Z) :=
  match k with
  | O => Ret (result, offset)
  | S k' =>
      h <- rd hextets i ;;
      '(result, offset) <- put_hextet 5 0 h result offset ;;
      result <- wr result offset 58 ;;
      put_hextets k' (i + 1) hextets result (offset + 1)
  end.
Definition put (b : bool) (x : Z) (result : list Z) (offset : Z) : res (list Z * Z) :=
  if b then result <- wr result offset x ;; Ret (result, offset + 1) else Ret (result, offset).
Definition v6_to_chars (bytes scope_id : list Z) (fmt : format) : res (list Z * Z) :=
  hextets <- hextets_loop 8 0 bytes (repeat (repeat 0 5) 8) ;;
  '(hextets, count, dc_start, dc_end) <-
    match fmt with
    | full => Ret (hextets, 8, false, false)
    | compact => hextets <- strip_all 8 0 hextets ;; Ret (hextets, 8, false, false)
    | compressed => hextets <- strip_all 8 0 hextets ;; compress hextets
    end ;;
  '(result, offset) <- put dc_start 58 (repeat 0 58) 0 ;;
  '(result, offset) <- put_hextets (Z.to_nat (count - 1)) 0 hextets result offset ;;
  h <- rd hextets (count - 1) ;;
  '(result, offset) <- put_hextet 5 0 h result offset ;;
  '(result, offset) <- put dc_end 58 result offset ;;
  '(result, offset) <-
    (if negb (zlen scope_id =? 0) then
       result <- wr result offset 37 ;;
       copy_chars (length scope_id) 0 scope_id result (offset + 1)
     else Ret (result, offset)) ;;
  result <- wr result offset 0 ;;
  Ret (result, offset).

(** to_string, ip-address-base.hpp 527-531. *)
Definition v6_to_string (bytes scope_id : list Z) (fmt : format) : res (list Z) :=
  '(result, len) <- v6_to_chars bytes scope_id fmt ;;
  if len <=? zlen result then Ret (firstn (Z.to_nat len) result) else UB OutOfBounds.

(** ip_reverse_pointer, base-v6.hpp 233-242: erase ':', reverse with '.' separators
    (std::remove, std::accumulate over reverse iterators; [ip.back()] of an
    empty string would be undefined). *)
Definition ip6_arpa : list Z := [46;105;112;54;46;97;114;112;97].
Definition v6_reverse_pointer (bytes : list Z) : res (list Z) :=
  s <- v6_to_string bytes [] full ;;
  match rev (filter (fun c => negb (c =? 58)) s) with
  | [] => UB OutOfBounds
  | c :: cs => Ret (fold_left (fun a b => a ++ [46; b]) cs [c] ++ ip6_arpa)
  end.

(** parse_netmask, base-v6.hpp 245-272. *)
Fixpoint v6_netmask_digits (ts : list tok) (prefixlen : Z) : res Z :=
  match ts with
  | [] => Ret prefixlen
  | Bad e v :: _ => Err e v
  | Ch c :: ts' =>
      if (c >=? 48) && (c <=? 57) then v6_netmask_digits ts' (w64 (w64 (prefixlen * 10) + (c - 48)))
      else Err invalid_netmask 0
  end.
Definition v6_parse_netmask (ts : list tok) : res (list Z * Z) :=
  prefixlen <- v6_netmask_digits ts 0 ;;
  if prefixlen >? 128 then Err invalid_netmask 0
  else
    let prefixlen := match ts with [] => 128 | _ => prefixlen end in
    netmask <- v6_from_prefix prefixlen ;;
    Ret (netmask, prefixlen).

(** strict_netmask, base-v6.hpp 274-292: result bytes and scope. *)
Fixpoint and_loop (k : nat) (i : Z) (a m bytes : list Z) : res (list Z) :=
  match k with
  | O => Ret bytes
  | S k' => x <- rd a i ;; y <- rd m i ;; bytes <- wr bytes i (Z.land x y) ;; and_loop k' (i + 1) a m bytes
  end.
Fixpoint list_eqb (a b : list Z) : bool :=
  match a, b with
  | [], [] => true
  | x :: a', y :: b' => (x =? y) && list_eqb a' b'
  | _, _ => false
  end.
Definition v6_strict_netmask (address scope netmask : list Z) (strict : bool) : res (list Z * list Z) :=
  bytes <- and_loop 16 0 address netmask (repeat 0 16) ;;
  if negb (list_eqb bytes address) then
    if strict then Err has_host_bits_set 0 else Ret (bytes, [])
  else Ret (address, scope).

(** from_uint and to_uint, ipv6-address.hpp 667-704. *)
Fixpoint v6_from_uint_loop (k : nat) (i s inc : Z) (ip : u128) (bytes : list Z) : res (list Z) :=
  match k with
  | O => Ret bytes
  | S k' =>
      x <- shr64 (up ip) s ;; bytes <- wr bytes i (w8 x) ;;
      y <- shr64 (lo ip) s ;; bytes <- wr bytes (i + 8) (w8 y) ;;
      v6_from_uint_loop k' (i + 1) (s + inc) inc ip bytes
  end.
Definition v6_from_uint (le : bool) (ip : u128) : res (list Z) :=
  v6_from_uint_loop 8 0 (if le then 56 else 0) (if le then -8 else 8) ip (repeat 0 16).
Fixpoint v6_to_uint_loop (k : nat) (i s inc : Z) (bytes : list Z) (upper lower : Z) : res u128 :=
  match k with
  | O => Ret (mk128 upper lower)
  | S k' =>
      b0 <- rd bytes i ;; x <- shl64 b0 s ;;
      b1 <- rd bytes (i + 8) ;; y <- shl64 b1 s ;;
      v6_to_uint_loop k' (i + 1) (s + inc) inc bytes (Z.lor upper x) (Z.lor lower y)
  end.
Definition v6_to_uint (le : bool) (bytes : list Z) : res u128 :=
  v6_to_uint_loop 8 0 (if le then 56 else 0) (if le then -8 else 8) bytes 0 0.

(** ipv4_mapped, sixtofour, teredo: ipv6-address.hpp 722-764. *)
Definition v6_ipv4_mapped (b : list Z) : res (option (list Z)) :=
  b10 <- rd b 10 ;; b11 <- rd b 11 ;;
  if negb (b10 =? 0xFF) || negb (b11 =? 0xFF) then Ret None
  else x <- rd b 12 ;; y <- rd b 13 ;; z <- rd b 14 ;; w <- rd b 15 ;; Ret (Some [x; y; z; w]).
Definition v6_sixtofour (b : list Z) : res (option (list Z)) :=
  b0 <- rd b 0 ;; b1 <- rd b 1 ;;
  if negb (b0 =? 0x20) || negb (b1 =? 0x02) then Ret None
  else x <- rd b 2 ;; y <- rd b 3 ;; z <- rd b 4 ;; w <- rd b 5 ;; Ret (Some [x; y; z; w]).
Definition v6_teredo (b : list Z) : res (option (list Z * list Z)) :=
  b0 <- rd b 0 ;; b1 <- rd b 1 ;; b2 <- rd b 2 ;; b3 <- rd b 3 ;;
  if negb (b0 =? 0x20) || negb (b1 =? 0x01) || negb (b2 =? 0) || negb (b3 =? 0) then Ret None
  else
    x <- rd b 4 ;; y <- rd b 5 ;; z <- rd b 6 ;; w <- rd b 7 ;;
    x' <- rd b 12 ;; y' <- rd b 13 ;; z' <- rd b 14 ;; w' <- rd b 15 ;;
    Ret (Some ([x; y; z; w], [w8 (Z.lnot x'); w8 (Z.lnot y'); w8 (Z.lnot z'); w8 (Z.lnot w')])).

(** ipv6_set_scope::change, ipv6-address.hpp 48-77: [n] is scope.size() in code
    units, [ts] its tokens; the new contents of the scope id. *)
Fixpoint set_scope_loop (ts : list tok) (i : Z) (str : list Z) : res (list Z) :=
  match ts with
  | [] => Ret str
  | Bad e v :: _ => Err e v
  | Ch c :: ts' =>
      if is_invalid_scope_id_symbol c then Err invalid_scope_id 0
      else str <- wr str i c ;; set_scope_loop ts' (i + 1) str
  end.
Definition v6_set_scope (n : Z) (ts : list tok) : res (list Z) :=
  if n >? scope_max then Err scope_id_is_too_long 0
  else
    str <- set_scope_loop ts 0 (repeat 0 17) ;;
    f <- fs_make char_next 16 str ;;
    Ret (fs_chars f).

(** scope::parse_value, ipv6-address.hpp 242-258: (has_value, value). *)
Fixpoint scope_value_loop (cs : list Z) (value : Z) : option Z :=
  match cs with
  | [] => Some value
  | c :: cs' => if (c >=? 48) && (c <=? 57) then scope_value_loop cs' (w32 (value * 10 + (c - 48)))
                else None
  end.
Definition scope_value (scope : list Z) : bool * Z :=
  match scope with
  | [] => (false, 0)
  | _ => match scope_value_loop scope 0 with Some v => (true, v) | None => (false, 0) end
  end.
