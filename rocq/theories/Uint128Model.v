(** Model of class [uint128_t] (include/ipaddress/uint128.hpp 53-1668).
    A value is the pair of its two 64-bit halves. *)
From Verif Require Import Base.

(** Members [_upper], [_lower] (uint128.hpp 1657-1667). *)
Record u128 := mk128 { up : Z; lo : Z }.

(** Construction from an [unsigned long long]: uint128.hpp 141-142 (and 152,
    163, 174, which forward to it). *)
Definition u128_of_u64 (x : Z) : u128 := mk128 0 x.

(** Construction from a signed [long long]: uint128.hpp 185-196 (and 206, 217,
    228, which forward to it): the sign is extended into the upper half. *)
Definition u128_of_i64 (x : Z) : u128 := mk128 (w64 (Z.shiftr x 63)) (w64 x).

(** operator+, uint128.hpp 843-847. *)
Definition u128_add (a b : u128) : u128 :=
  let lower := w64 (lo a + lo b) in
  let carry := if lower <? lo a then 1 else 0 in
  mk128 (w64 (w64 (up a + up b) + carry)) lower.

(** operator-(binary), uint128.hpp 857-861. *)
Definition u128_sub (a b : u128) : u128 :=
  let lower := w64 (lo a - lo b) in
  let borrow := if lower >? lo a then 1 else 0 in
  mk128 (w64 (w64 (up a - up b) - borrow)) lower.

(** operator~, uint128.hpp 831-833. *)
Definition u128_not (a : u128) : u128 := mk128 (w64 (Z.lnot (up a))) (w64 (Z.lnot (lo a))).

(** operator++ (prefix), uint128.hpp 992-995. *)
Definition u128_inc (a : u128) : u128 := u128_add a (u128_of_i64 1).
(** operator-- (prefix), uint128.hpp 1004-1007. *)
Definition u128_dec (a : u128) : u128 := u128_sub a (u128_of_i64 1).
(** operator- (unary), uint128.hpp 820-822. *)
Definition u128_neg (a : u128) : u128 := u128_inc (u128_not a).

(** big_mul, uint128.hpp 1263-1276: returns (upper, lower) of the 64x64 product. *)
Definition big_mul (a b : Z) : Z * Z :=
  let al := w32 a in
  let ah := w32 (Z.shiftr a 32) in
  let bl := w32 b in
  let bh := w32 (Z.shiftr b 32) in
  let mull := w64 (al * bl) in
  let t := w64 (w64 (ah * bl) + Z.shiftr mull 32) in
  let tl := w64 (w64 (al * bh) + w32 t) in
  let lower := Z.lor (w64 (Z.shiftl tl 32)) (w32 mull) in
  (w64 (w64 (w64 (ah * bh) + Z.shiftr t 32) + Z.shiftr tl 32), lower).

(** operator*, uint128.hpp 871-876. *)
Definition u128_mul (a b : u128) : u128 :=
  let '(upper, lower) := big_mul (lo a) (lo b) in
  mk128 (w64 (upper + w64 (w64 (up a * lo b) + w64 (lo a * up b)))) lower.

(** operator&, |, ^, uint128.hpp 911-937. *)
Definition u128_and (a b : u128) : u128 := mk128 (Z.land (up a) (up b)) (Z.land (lo a) (lo b)).
Definition u128_or (a b : u128) : u128 := mk128 (Z.lor (up a) (up b)) (Z.lor (lo a) (lo b)).
Definition u128_xor (a b : u128) : u128 := mk128 (Z.lxor (up a) (up b)) (Z.lxor (lo a) (lo b)).

(** operator<<, uint128.hpp 948-960.  The count is any integral value. *)
Definition u128_shl (a : u128) (shift : Z) : res u128 :=
  if shift =? 0 then Ret a
  else if (shift >=? 64) && (shift <=? 128) then
    u <- shl64 (lo a) (shift - 64) ;; Ret (mk128 u 0)
  else if (shift <? 64) && (shift >? 0) then
    h <- shl64 (up a) shift ;;
    l <- shr64 (lo a) (64 - shift) ;;
    x <- shl64 (lo a) shift ;;
    Ret (mk128 (w64 (h + l)) x)
  else Ret (mk128 0 0).

(** operator>>, uint128.hpp 971-983. *)
Definition u128_shr (a : u128) (shift : Z) : res u128 :=
  if shift =? 0 then Ret a
  else if (shift >=? 64) && (shift <=? 128) then
    l <- shr64 (up a) (shift - 64) ;; Ret (mk128 0 l)
  else if (shift <? 64) && (shift >? 0) then
    u <- shr64 (up a) shift ;;
    l <- shr64 (lo a) shift ;;
    h <- shl64 (up a) (64 - shift) ;;
    Ret (mk128 u (w64 (l + h)))
  else Ret (mk128 0 0).

(** operator bool, uint128.hpp 507-509, and operator!, 1042-1044. *)
Definition u128_bool (a : u128) : bool := negb (up a =? 0) || negb (lo a =? 0).
Definition u128_lognot (a : u128) : bool := (up a =? 0) && (lo a =? 0).

(** operator==, uint128.hpp 1092-1094. *)
Definition u128_eqb (a b : u128) : bool := (up a =? up b) && (lo a =? lo b).
(** operator<=>, uint128.hpp 1146-1152. *)
Definition u128_cmp (a b : u128) : comparison :=
  match up a ?= up b with Eq => lo a ?= lo b | c => c end.
(** operator< (pre-C++20), uint128.hpp 1178-1180; >, <=, >= 1204, 1230, 1256. *)
Definition u128_ltb (a b : u128) : bool :=
  (up a <? up b) || ((up a =? up b) && (lo a <? lo b)).
Definition u128_gtb (a b : u128) : bool := u128_ltb b a.
Definition u128_leb (a b : u128) : bool := negb (u128_ltb b a).
Definition u128_geb (a b : u128) : bool := negb (u128_ltb a b).

(** leading_zero_count(uint32_t), uint128.hpp 1505-1515: number of the first set bit from
    the top, 32 if there is none. *)
Fixpoint lzc_loop (bits : nat) (top : Z) (value : Z) (i : Z) : Z :=
  match bits with
  | O => i
  | S k => if Z.testbit value (top - i) then i else lzc_loop k top value (i + 1)
  end.
Definition lzc32 (value : Z) : Z :=
  if value =? 0 then 32 else lzc_loop 32 31 value 0.
(** leading_zero_count(uint128_t), uint128.hpp 1487-1503. *)
Definition lzc128 (v : u128) : Z :=
  if negb (up v =? 0) then lzc_loop 64 63 (up v) 0
  else if negb (lo v =? 0) then 64 + lzc_loop 64 63 (lo v) 0
  else 128.

(** divide_guess_too_big, uint128.hpp 1381-1391. *)
Definition guess_too_big (q val_hi val_lo div_hi div_lo : Z) : bool :=
  let chk_hi := w64 (div_hi * q) in
  let chk_lo := w64 (div_lo * q) in
  let chk_hi := w64 (chk_hi + Z.shiftr chk_lo 32) in
  let chk_lo := w32 chk_lo in
  (chk_hi >? val_hi) || ((chk_hi =? val_hi) && (chk_lo >? val_lo)).

(** The [while (divide_guess_too_big(...)) --digit;] loop, uint128.hpp 1351-1353, with the
    assertion [q <= 0xFFFFFFFF] of 1382.  Bounded by explicit fuel. *)
Fixpoint guess_loop (fuel : nat) (digit val_hi val_lo div_hi div_lo : Z) : res Z :=
  _ <- assert (digit <=? 4294967295) ;;
  if guess_too_big digit val_hi val_lo div_hi div_lo then
    match fuel with
    | O => UB OutOfFuel
    | S k => guess_loop k (w64 (digit - 1)) val_hi val_lo div_hi div_lo
    end
  else Ret digit.

(** subtract_divisor, uint128.hpp 1393-1412, on the window of [left] starting at [n];
    [k] counts the remaining iterations, [i] is the loop index. *)
Fixpoint sub_divisor (k : nat) (i n : Z) (left right : list Z) (q carry : Z)
  : res (list Z * Z) :=
  match k with
  | O => Ret (left, w32 carry)
  | S k' =>
      r <- rd right i ;;
      let carry := w64 (carry + w64 (r * q)) in
      let digit := w32 carry in
      let carry := Z.shiftr carry 32 in
      l <- rd left (n + i) ;;
      let carry := if l <? digit then w64 (carry + 1) else carry in
      left <- wr left (n + i) (w32 (l - digit)) ;;
      sub_divisor k' (i + 1) n left right q carry
  end.

(** add_divisor, uint128.hpp 1414-1426. *)
Fixpoint add_divisor (k : nat) (i n : Z) (left right : list Z) (carry : Z)
  : res (list Z * Z) :=
  match k with
  | O => Ret (left, w32 carry)
  | S k' =>
      l <- rd left (n + i) ;;
      r <- rd right i ;;
      let digit := w64 (w64 (l + carry) + r) in
      left <- wr left (n + i) (w32 digit) ;;
      add_divisor k' (i + 1) n left right (Z.shiftr digit 32)
  end.

(** One iteration of the main loop of divide_slow, uint128.hpp 1332-1376. *)
Definition div_step (left_size right_size shift div_hi div_lo : Z)
  (i : Z) (left right bits : list Z) : res (list Z * list Z) :=
  let back_shift := 32 - shift in
  let n := i - right_size in
  t <- (if i <? left_size then rd left i else Ret 0) ;;
  l1 <- rd left (i - 1) ;;
  let val_hi := Z.lor (w64 (Z.shiftl t 32)) l1 in
  val_lo <- (if i >? 1 then rd left (i - 2) else Ret 0) ;;
  '(val_hi, val_lo) <-
    (if shift >? 0 then
       val_nx <- (if i >? 2 then rd left (i - 3) else Ret 0) ;;
       h <- shl64 val_hi shift ;;
       h' <- shr32 val_lo back_shift ;;
       l <- shl32 val_lo shift ;;
       l' <- shr32 val_nx back_shift ;;
       Ret (Z.lor h h', Z.lor l l')
     else Ret (val_hi, val_lo)) ;;
  digit <- udiv val_hi div_hi ;;
  let digit := if digit >? 4294967295 then 4294967295 else digit in
  digit <- guess_loop 3 digit val_hi val_lo div_hi div_lo ;;
  '(left, digit) <-
    (if digit >? 0 then
       _ <- assert (left_size - n >=? right_size) ;;
       '(left, carry) <- sub_divisor (Z.to_nat right_size) 0 n left right digit 0 ;;
       if negb (carry =? t) then
         _ <- assert (carry =? w32 (t + 1)) ;;
         '(left, carry) <- add_divisor (Z.to_nat right_size) 0 n left right 0 ;;
         _ <- assert (carry =? 1) ;;
         Ret (left, w64 (digit - 1))
       else Ret (left, digit)
     else Ret (left, digit)) ;;
  bits <- (if n <? left_size - right_size + 1 then wr bits n (w32 digit) else Ret bits) ;;
  left <- (if i <? left_size then wr left i 0 else Ret left) ;;
  Ret (left, bits).

(** The main loop, i from left_size down to right_size. *)
Fixpoint div_loop (k : nat) (left_size right_size shift div_hi div_lo : Z)
  (i : Z) (left right bits : list Z) : res (list Z) :=
  match k with
  | O => Ret bits
  | S k' =>
      '(left, bits) <- div_step left_size right_size shift div_hi div_lo i left right bits ;;
      div_loop k' left_size right_size shift div_hi div_lo (i - 1) left right bits
  end.

Definition limbs (a : u128) : list Z :=
  [w32 (lo a); w32 (Z.shiftr (lo a) 32); w32 (up a); w32 (Z.shiftr (up a) 32)].

(** divide_slow, uint128.hpp 1296-1379. *)
Definition divide_slow (a b : u128) : res u128 :=
  let left := limbs a in
  let left_size := 4 - lzc128 a / 32 in
  let right := limbs b in
  let right_size := 4 - lzc128 b / 32 in
  let bits := [0; 0; 0; 0] in
  _ <- assert (left_size >=? 1) ;;
  _ <- assert (right_size >=? 1) ;;
  _ <- assert (left_size >=? right_size) ;;
  div_hi <- rd right (right_size - 1) ;;
  div_lo <- (if right_size >? 1 then rd right (right_size - 2) else Ret 0) ;;
  let shift := lzc32 div_hi in
  let back_shift := 32 - shift in
  '(div_hi, div_lo) <-
    (if shift >? 0 then
       div_nx <- (if right_size >? 2 then rd right (right_size - 3) else Ret 0) ;;
       h <- shl32 div_hi shift ;;
       h' <- shr32 div_lo back_shift ;;
       l <- shl32 div_lo shift ;;
       l' <- shr32 div_nx back_shift ;;
       Ret (Z.lor h h', Z.lor l l')
     else Ret (div_hi, div_lo)) ;;
  bits <- div_loop (Z.to_nat (left_size - right_size + 1)) left_size right_size
            shift div_hi div_lo left_size left right bits ;;
  b0 <- rd bits 0 ;; b1 <- rd bits 1 ;; b2 <- rd bits 2 ;; b3 <- rd bits 3 ;;
  Ret (mk128 (Z.lor (w64 (Z.shiftl b3 32)) b2) (Z.lor (w64 (Z.shiftl b1 32)) b0)).

(** divide, uint128.hpp 1278-1294. *)
Definition u128_div (a b : u128) : res u128 :=
  let tail :=
    if u128_geb b a then Ret (if u128_eqb b a then u128_of_i64 1 else u128_of_i64 0)
    else divide_slow a b in
  if up b =? 0 then
    if lo b =? 0 then Ret (mk128 0 0)
    else if up a =? 0 then q <- udiv (lo a) (lo b) ;; Ret (u128_of_u64 q)
    else tail
  else tail.

(** operator%, uint128.hpp 898-901. *)
Definition u128_mod (a b : u128) : res u128 :=
  q <- u128_div a b ;; Ret (u128_sub a (u128_mul q b)).

(** Conversions to integral types keep the low half, uint128.hpp 518-630: [n]-bit unsigned
    and signed results.  (The [unsigned char] operator, 606-608, converts
    through [char]; the value modulo 2^8 is the same.) *)
Definition u128_to_unsigned (n : Z) (a : u128) : Z := lo a mod 2 ^ n.
Definition to_signed (n x : Z) : Z :=
  let y := x mod 2 ^ n in if y <? 2 ^ (n - 1) then y else y - 2 ^ n.
Definition u128_to_signed (n : Z) (a : u128) : Z := to_signed n (lo a).

(** hash_combine<8> and hash, hash.hpp 41-51 and uint128.hpp 296-301, for a
    size_t of [bits] bits: the hasher returns one, and its sum with the constant,
    an unsigned int, is computed in it (64 bits) or in 32 bits. *)
Definition hash_combine8 (value : Z) : Z :=
  let value := Z.lxor value (Z.shiftr value 32) in
  let value := w64 (value * 0xe9846af9b1a615d) in
  let value := Z.lxor value (Z.shiftr value 32) in
  let value := w64 (value * 0xe9846af9b1a615d) in
  Z.lxor value (Z.shiftr value 28).
Definition u128_hash (bits : Z) (a : u128) : Z :=
  let seed := hash_combine8 (up a) mod 2 ^ bits in
  hash_combine8 (w64 ((seed + 0x9e3779b9) mod 2 ^ bits + lo a)) mod 2 ^ bits.

(** ** Text *)
(** Radix loop of uint128_to_dec_str / _oct_str / _hex_str (uint128.hpp 1517-1567), which
    appends least significant digits first and reverses at the end.  [dig]
    renders one remainder.  43 digits are enough for octal. *)
Fixpoint radix_loop (fuel : nat) (radix : Z) (dig : Z -> res (list Z)) (v : u128) (acc : list Z)
  : res (list Z) :=
  match fuel with
  | O => UB OutOfFuel
  | S k =>
      q <- u128_div v (u128_of_i64 radix) ;;
      let r := u128_sub v (u128_mul q (u128_of_i64 radix)) in
      d <- dig (lo r) ;;
      let acc := acc ++ d in
      if u128_bool q then radix_loop k radix dig q acc else Ret (rev acc)
  end.

(** [ostream << uint64_t] in a base: the standard library's rendering of a
    64-bit unsigned integer, taken as given (trusted): canonical numeral. *)
Fixpoint ostream_loop (fuel : nat) (radix v : Z) (acc : list Z) : list Z :=
  match fuel with
  | O => acc
  | S k =>
      let d := v mod radix in
      let c := if d <? 10 then 48 + d else 87 + d in
      if v / radix =? 0 then c :: acc else ostream_loop k radix (v / radix) (c :: acc)
  end.
Definition ostream_u64 (radix v : Z) : list Z := ostream_loop 64 radix v [].

(** uint128_t::format, uint128.hpp 61-65. *)
Inductive ufmt := UDec | UOct | UHex.

Definition hex_digits : list Z :=
  [48;49;50;51;52;53;54;55;56;57;97;98;99;100;101;102;0].

(** to_string, uint128.hpp 325-351. *)
Definition u128_to_string (f : ufmt) (a : u128) : res (list Z) :=
  if up a =? 0 then
    Ret (ostream_u64 (match f with UDec => 10 | UOct => 8 | UHex => 16 end) (lo a))
  else
    match f with
    | UDec => radix_loop 44 10 (fun r => Ret (ostream_u64 10 r)) a []
    | UOct => radix_loop 44 8 (fun r => Ret (ostream_u64 10 r)) a []
    | UHex => radix_loop 44 16 (fun r => c <- rd hex_digits r ;; Ret [c]) a []
    end.

(** Digit value in the three parsers (uint128.hpp 1590-1655); [None] = rejected. *)
Definition digit_value (f : ufmt) (c : Z) : option Z :=
  match f with
  | UDec => if (c <? 48) || (c >? 57) then None else Some (c - 48)
  | UOct => if (c <? 48) || (c >? 55) then None else Some (c - 48)
  | UHex => if (c >=? 48) && (c <=? 57) then Some (c - 48)
            else if (c >=? 65) && (c <=? 70) then Some (c - 55)
            else if (c >=? 97) && (c <=? 102) then Some (c - 87)
            else None
  end.
Definition ufmt_radix (f : ufmt) : Z := match f with UDec => 10 | UOct => 8 | UHex => 16 end.

(** dec/oct/hex_str_to_uint128, uint128.hpp 1590-1655; [None] models the empty optional. *)
Fixpoint str_loop (f : ufmt) (ts : list tok) (result : u128) : option u128 :=
  match ts with
  | [] => Some result
  | Bad _ _ :: _ => None
  | Ch c :: ts' =>
      if c =? 0 then Some result
      else match digit_value f c with
           | None => None
           | Some d => str_loop f ts'
                         (u128_add (u128_mul result (u128_of_i64 (ufmt_radix f))) (u128_of_i64 d))
           end
  end.
Definition u128_from_string (f : ufmt) (ts : list tok) : option u128 :=
  str_loop f ts (u128_of_i64 0).
