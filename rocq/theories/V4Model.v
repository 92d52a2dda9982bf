(** IPv4 primitives.  Models: include/ipaddress/base-v4.hpp.
    An address is the list of its four bytes; [le] says whether the host is
    little-endian (endian.hpp 110-118). *)
From Verif Require Import Base.

(** ip_from_string, base-v4.hpp 61-131.  The error value is the [index] left in the
    caller's variable (the offending symbol for an encoding error). *)
Fixpoint v4_parse_loop (ts : list tok) (octets : list Z) (first_symbol digits octet index : Z)
  : res (list Z) :=
  match ts with
  | [] =>
      if negb (index =? 3) then Err expected_4_octets index
      else if digits =? 0 then Err empty_octet index
      else if octet >? 255 then Err octet_exceeded_255 index
      else wr octets index (Z.land octet 0xFF)
  | Bad e v :: _ => Err e v
  | Ch c :: ts' =>
      if index >=? 4 then Err expected_4_octets index
      else if (c >=? 48) && (c <=? 57) then
        if (digits >? 0) && (first_symbol =? 48) then Err leading_0_are_not_permitted index
        else
          let first_symbol := if digits =? 0 then c else first_symbol in
          let d := c - 48 in
          octet <- int32 (octet * 10 + d) ;;
          digits <- int32 (digits + 1) ;;
          if digits >? 3 then Err octet_more_3_characters index
          else v4_parse_loop ts' octets first_symbol digits octet index
      else if (c =? 46) && (digits >? 0) then
        if octet >? 255 then Err octet_exceeded_255 index
        else
          octets <- wr octets index (Z.land octet 0xFF) ;;
          v4_parse_loop ts' octets first_symbol 0 0 (w32 (index + 1))
      else if c =? 46 then Err empty_octet index
      else Err octet_has_invalid_symbol index
  end.
Definition v4_from_string (ts : list tok) : res (list Z) :=
  match ts with
  | [] => Err empty_address 0
  | _ => v4_parse_loop ts [0; 0; 0; 0] 0 0 0 0
  end.

(** swap_bytes, endian.hpp 126-130. *)
Definition swap_bytes (value : Z) : Z :=
  let value := Z.lor (Z.land (w32 (Z.shiftl value 8)) 0xFF00FF00)
                     (Z.land (Z.shiftr value 8) 0x00FF00FF) in
  Z.lor (w32 (Z.shiftl value 16)) (Z.shiftr value 16).

(** ip_from_uint32, base-v4.hpp 133-140. *)
Definition v4_from_uint (le : bool) (ip : Z) : list Z :=
  let ip := if le then swap_bytes ip else ip in
  [w8 (Z.land ip 0xFF); w8 (Z.land (Z.shiftr ip 8) 0xFF);
   w8 (Z.land (Z.shiftr ip 16) 0xFF); w8 (Z.land (Z.shiftr ip 24) 0xFF)].

(** ip_to_uint32, base-v4.hpp 148-155. *)
Definition v4_to_uint (le : bool) (bytes : list Z) : res Z :=
  b0 <- rd bytes 0 ;; b1 <- rd bytes 1 ;; b2 <- rd bytes 2 ;; b3 <- rd bytes 3 ;;
  let ip := Z.lor (Z.lor (Z.lor (w32 (Z.shiftl b3 24)) (w32 (Z.shiftl b2 16)))
                  (w32 (Z.shiftl b1 8))) b0 in
  Ret (if le then swap_bytes ip else ip).

(** base_all_ones, 39. *)
Definition v4_all_ones : Z := 2 ^ 32 - 1.

(** ip_from_prefix, base-v4.hpp 142-146: the shift count [prefixlen - 1] is unchecked. *)
Definition v4_from_prefix (le : bool) (prefixlen : Z) : res (list Z) :=
  if negb (prefixlen =? 0) then
    x <- shr32 v4_all_ones (prefixlen - 1) ;;
    x <- shr32 x 1 ;;
    Ret (v4_from_uint le (Z.lxor v4_all_ones x))
  else Ret (v4_from_uint le 0).

(** byte_to_string, base-v4.hpp 272-290: digits least significant first, then an in-place
    reversal; returns the buffer (4 characters) and the length. *)
Fixpoint byte_digits (k : nat) (byte : Z) (str : list Z) (p : Z) : res (list Z * Z) :=
  match k with
  | O => UB OutOfFuel
  | S k' =>
      str <- wr str p (byte mod 10 + 48) ;;
      let byte := byte / 10 in
      if negb (byte =? 0) then byte_digits k' byte str (p + 1) else Ret (str, p + 1)
  end.
Fixpoint byte_reverse (k : nat) (i p : Z) (str : list Z) : res (list Z) :=
  match k with
  | O => Ret str
  | S k' =>
      tmp <- rd str i ;;
      let p := p - 1 in
      x <- rd str p ;;
      str <- wr str i x ;;
      str <- wr str p tmp ;;
      byte_reverse k' (i + 1) p str
  end.
Definition byte_to_string (byte : Z) (str : list Z) : res (list Z * Z) :=
  '(str, length) <- byte_digits 3 byte str 0 ;;
  str <- wr str length 0 ;;
  str <- byte_reverse (Z.to_nat (length / 2)) 0 length str ;;
  Ret (str, length).

(** ip_to_chars, base-v4.hpp 157-171, into a buffer of 16 characters. *)
Fixpoint copy_chars (k : nat) (i : Z) (buffer result : list Z) (offset : Z) : res (list Z * Z) :=
  match k with
  | O => Ret (result, offset)
  | S k' =>
      c <- rd buffer i ;;
      result <- wr result offset c ;;
      copy_chars k' (i + 1) buffer result (offset + 1)
  end.
Fixpoint v4_chars_loop (k : nat) (b : Z) (bytes buffer result : list Z) (offset : Z)
  : res (list Z * Z) :=
  match k with
  | O => Ret (result, offset)
  | S k' =>
      byte <- rd bytes b ;;
      '(buffer, length) <- byte_to_string byte buffer ;;
      '(result, offset) <- copy_chars (Z.to_nat length) 0 buffer result offset ;;
      '(result, offset) <-
        (if b <? 3 then result <- wr result offset 46 ;; Ret (result, offset + 1)
         else Ret (result, offset)) ;;
      v4_chars_loop k' (b + 1) bytes buffer result offset
  end.
Definition v4_to_chars (bytes : list Z) : res (list Z * Z) :=
  '(result, offset) <- v4_chars_loop 4 0 bytes [0; 0; 0; 0] (repeat 0 16) 0 ;;
  result <- wr result offset 0 ;;
  Ret (result, offset).

(** to_string, ip-address-base.hpp 527-531: the first [len] characters. *)
Definition v4_to_string (bytes : list Z) : res (list Z) :=
  '(result, len) <- v4_to_chars bytes ;;
  if len <=? zlen result then Ret (firstn (Z.to_nat len) result) else UB OutOfBounds.

(** ip_reverse_pointer, base-v4.hpp 173-175: ".in-addr.arpa" appended. *)
Definition in_addr_arpa : list Z := [46;105;110;45;97;100;100;114;46;97;114;112;97].
Definition v4_reverse_pointer (le : bool) (bytes : list Z) : res (list Z) :=
  n <- v4_to_uint le bytes ;;
  s <- v4_to_string (v4_from_uint le (swap_bytes n)) ;;
  Ret (s ++ in_addr_arpa).

(** count_righthand_zero_bits, base-v4.hpp 254-270 (bits = 32). *)
Fixpoint popcount_loop (k : nat) (number count : Z) : res Z :=
  if number =? 0 then Ret count
  else match k with
       | O => UB OutOfFuel
       | S k' => popcount_loop k' (Z.shiftr number 1) (count + Z.land number 1)
       end.
Definition count_righthand_zero_bits (number bits : Z) : res Z :=
  if number =? 0 then Ret bits
  else
    let number := Z.land (w32 (Z.lnot number)) (w32 (number - 1)) in
    count <- popcount_loop 32 number 0 ;;
    Ret (if bits <? count then bits else count).

(** prefix_from_ip_uint32, base-v4.hpp 242-252: the shift count [prefixlen - 1] is
    unchecked (size_t wrap-around at 0). *)
Definition prefix_from_ip_uint32 (ip : Z) : res Z :=
  trailing_zeroes <- count_righthand_zero_bits ip 32 ;;
  let prefixlen := w64 (32 - trailing_zeroes) in
  leading_ones <- (if negb (trailing_zeroes =? 32) then shr32 ip trailing_zeroes else Ret 0) ;;
  x <- shl32 1 (w64 (prefixlen - 1)) ;;
  x <- shl32 x 1 ;;
  let all_ones := w32 (x - 1) in
  if negb (leading_ones =? all_ones) then Err netmask_pattern_mixes_zeroes_and_ones 0
  else Ret prefixlen.

(** The digit loop of parse_netmask, base-v4.hpp 187-199: (is_value, prefixlen). *)
Fixpoint netmask_digits (ts : list tok) (prefixlen : Z) : res (bool * Z) :=
  match ts with
  | [] => Ret (true, prefixlen)
  | Bad e v :: _ => Err e v
  | Ch c :: ts' =>
      if (c >=? 48) && (c <=? 57) then netmask_digits ts' (w64 (w64 (prefixlen * 10) + (c - 48)))
      else Ret (false, prefixlen)
  end.
(** parse_netmask, base-v4.hpp 178-225: the netmask and the prefix length (size_t is
    modelled with 64 bits). *)
Definition v4_parse_netmask (le : bool) (ts : list tok) : res (list Z * Z) :=
  '(is_value, prefixlen) <- netmask_digits ts 0 ;;
  prefixlen <-
    (if is_value : bool then
       if prefixlen >? 32 then Err invalid_netmask 0 else Ret prefixlen
     else
       match v4_from_string ts with
       | UB u => UB u
       | Err e v => Err invalid_netmask v
       | Ret bytes =>
           ip <- v4_to_uint le bytes ;;
           match prefix_from_ip_uint32 ip with
           | Err _ _ =>
               (* [code_value] is still the octet index 3 which ip_from_string has left *)
               match prefix_from_ip_uint32 (Z.lxor ip v4_all_ones) with Err e _ => Err e 3 | r => r end
           | r => r
           end
       end) ;;
  let prefixlen := match ts with [] => 32 | _ => prefixlen end in
  netmask <- v4_from_prefix le prefixlen ;;
  Ret (netmask, prefixlen).

(** strict_netmask, base-v4.hpp 227-239. *)
Definition v4_strict_netmask (le : bool) (address netmask : list Z) (strict : bool) : res (list Z) :=
  a <- v4_to_uint le address ;;
  m <- v4_to_uint le netmask ;;
  if negb (Z.land a m =? a) then
    if strict then Err has_host_bits_set 0
    else Ret (v4_from_uint le (Z.land a m))
  else Ret address.
