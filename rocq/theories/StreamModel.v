(** Text output in every character type and the stream operators.  Models:
    unicode.hpp 280-292, ip-address-base.hpp 543-589, 801-883,
    ip-network-base.hpp 598-641, 1343-1423, ip-any-address.hpp 460-500,
    1479-1506, ip-any-network.hpp 795-838, 1466-1497, uint128.hpp 362-405,
    2074-2108.  What std::basic_string, std::basic_ostream and
    std::basic_istream do is taken from the C++ standard ([string.io],
    [ostream.formatted.reqmts], [istream.sentry], classic locale): it is a
    simplification of the library, not code of this repository. *)
From Verif Require Import Base UnicodeModel FixedStringModel V4Model V6Model Uint128Model SpecInt AddressModel NetworkModel
  IterModel ClassifyModel AnyModel.

(** ** Character types *)
(** char (signed, not IPADDRESS_CHAR_IS_UTF8), char8_t, char16_t, char32_t and
    wchar_t (signed, 32 bits, not Windows). *)
Inductive chtype := TChar | TChar8 | TChar16 | TChar32 | TWchar.
(** Conversion of a char to a unit of the type: the elements of
    std::basic_string<T>(str.cbegin(), str.cend()), unicode.hpp 283. *)
Definition conv (T : chtype) (c : Z) : Z :=
  match T with TChar | TWchar => c | TChar8 => w8 c | TChar16 => w16 c | TChar32 => w32 c end.
(** string_converter<T>::convert, unicode.hpp 280-292. *)
Definition convert (T : chtype) (s : list Z) : list Z := map (conv T) s.
(** char_reader<T>, unicode.hpp 188-268 (wchar_t: line 258). *)
Definition reader_of (T : chtype) : reader :=
  match T with TChar => char_next | TChar8 => utf8_next | TChar16 => utf16_next | TChar32 | TWchar => utf32_next end.

(** to_wstring, to_u16string, to_u32string, to_u8string: ip-address-base.hpp
    543-589, ip-network-base.hpp 598-641, ip-any-address.hpp 460-500,
    ip-any-network.hpp 795-838, uint128.hpp 362-405. *)
Definition addr_to_text (T : chtype) (v : ver) (a : addr) (fmt : format) : res (list Z) :=
  s <- addr_to_string v a fmt ;; Ret (convert T s).
Definition net_to_text (T : chtype) (v : ver) (n : net) (fmt : format) : res (list Z) :=
  s <- net_to_string v n fmt ;; Ret (convert T s).
Definition any_to_text (T : chtype) (x : aaddr) (fmt : format) : res (list Z) :=
  if ver_eqb (aa_ver x) V4 then addr_to_text T V4 (aa_addr x) fmt else addr_to_text T V6 (aa_addr x) fmt.
Definition anet_to_text (T : chtype) (x : anet) (fmt : format) : res (list Z) :=
  if anet_is_v4 x then net_to_text T V4 (an_net x) fmt else net_to_text T V6 (an_net x) fmt.
Definition u128_to_text (T : chtype) (f : ufmt) (a : u128) : res (list Z) :=
  s <- u128_to_string f a ;; Ret (convert T s).

(** parse of a std::basic_string<T>: ip-address-base.hpp 762-771,
    ip-network-base.hpp 1245-1254, ip-any-address.hpp 31-40, ip-any-network.hpp
    33-42; from_string, uint128.hpp 1590-1655. *)
Definition addr_parse_text (T : chtype) (v : ver) (s : list Z) : res addr :=
  ts <- tokens (reader_of T) s ;; addr_parse v ts.
Definition net_parse_text (T : chtype) (v : ver) (s : list Z) (strict : bool) : res net :=
  ts <- tokens (reader_of T) s ;; net_parse v ts strict.
Definition any_parse_text (T : chtype) (s : list Z) : res aaddr :=
  ts <- tokens (reader_of T) s ;; any_parse ts.
Definition anet_parse_text (T : chtype) (s : list Z) (strict : bool) : res anet :=
  ts <- tokens (reader_of T) s ;; anet_parse ts strict.
Definition u128_from_text (T : chtype) (f : ufmt) (s : list Z) : res (option u128) :=
  ts <- tokens (reader_of T) s ;; Ret (u128_from_string f ts).

(** ** Output *)
(** The parts of std::basic_ostream<T> the operators look at: the units
    written, failbit, the flags uppercase, left, hex and oct, the field width,
    the fill character, and iword(stream_index()). *)
Record ostr := mk_os { o_out : list Z; o_fail : bool; o_upper : bool; o_left : bool; o_hex : bool; o_oct : bool;
  o_width : Z; o_fill : Z; o_fmt : Z }.
Definition o_set_fmt (o : ostr) (f : Z) : ostr :=
  mk_os (o_out o) (o_fail o) (o_upper o) (o_left o) (o_hex o) (o_oct o) (o_width o) (o_fill o) f.
(** Manipulators full, compact, compressed: ip-address-base.hpp 808-824. *)
Definition format_num (f : format) : Z := match f with full => 0 | compact => 1 | compressed => 2 end.
Definition manip (f : format) (o : ostr) : ostr := o_set_fmt o (format_num f + 1).

(** operator<< of std::basic_string: nothing when the stream is not good,
    otherwise the string padded to the width, which is then reset. *)
Definition os_write (s : list Z) (o : ostr) : ostr :=
  if o_fail o then o
  else
    let pad := repeat (o_fill o) (Z.to_nat (o_width o - zlen s)) in
    mk_os (o_out o ++ (if o_left o then s ++ pad else pad ++ s)) (o_fail o) (o_upper o) (o_left o) (o_hex o) (o_oct o) 0
      (o_fill o) (o_fmt o).

(** (format) (iword - 1), ip-address-base.hpp 859-861 (values the manipulators
    do not produce are read as compressed here). *)
Definition fmt_of (iword : Z) : format :=
  if iword =? 0 then compressed
  else if iword - 1 =? 0 then full else if iword - 1 =? 1 then compact else compressed.
(** std::toupper: undefined outside unsigned char and EOF. *)
Definition toupper (c : Z) : res Z :=
  if (-1 <=? c) && (c <=? 255) then Ret (if (97 <=? c) && (c <=? 122) then c - 32 else c) else UB OutOfBounds.
(** std::transform up to std::find of '%', ip-address-base.hpp 865-868. *)
Fixpoint upper_until (s : list Z) : res (list Z) :=
  match s with
  | [] => Ret []
  | c :: s' => if c =? 37 then Ret s else u <- toupper c ;; r <- upper_until s' ;; Ret (u :: r)
  end.
(** The common body of operator<< for addresses, networks and the
    version-erased ones: ip-address-base.hpp 857-871, ip-network-base.hpp
    1393-1407, ip-any-address.hpp 1480-1494, ip-any-network.hpp 1467-1481;
    [text] is to_string. *)
Definition put_fmt (T : chtype) (text : format -> res (list Z)) (o : ostr) : res ostr :=
  let fmt := fmt_of (o_fmt o) in
  let o := o_set_fmt o 0 in
  s <- text fmt ;;
  s <- (if o_upper o then upper_until s else Ret s) ;;
  Ret (os_write (convert T s) o).
Definition addr_put (T : chtype) (v : ver) (a : addr) : ostr -> res ostr := put_fmt T (addr_to_string v a).
Definition net_put (T : chtype) (v : ver) (n : net) : ostr -> res ostr := put_fmt T (net_to_string v n).
Definition any_put (T : chtype) (x : aaddr) : ostr -> res ostr := put_fmt T (any_to_string x).
Definition anet_put (T : chtype) (x : anet) : ostr -> res ostr := put_fmt T (anet_to_string x).

(** operator<< of uint128_t, uint128.hpp 2074-2089. *)
Fixpoint upper_all (s : list Z) : res (list Z) :=
  match s with [] => Ret [] | c :: s' => u <- toupper c ;; r <- upper_all s' ;; Ret (u :: r) end.
Definition base_of (hex oct : bool) : ufmt := if hex then UHex else if oct then UOct else UDec.
Definition u128_put (T : chtype) (a : u128) (o : ostr) : res ostr :=
  s <- u128_to_string (base_of (o_hex o) (o_oct o)) a ;;
  s <- (if o_upper o then upper_all s else Ret s) ;;
  Ret (os_write (convert T s) o).

(** ** Input *)
(** std::basic_istream<T>: the units left, eofbit, failbit, the flags skipws,
    hex and oct, the width, and iword(network_strict_index()). *)
Record istr := mk_is { i_in : list Z; i_eof : bool; i_fail : bool; i_skipws : bool; i_hex : bool; i_oct : bool;
  i_width : Z; i_strict : Z }.
Definition i_set_fail (i : istr) : istr :=
  mk_is (i_in i) (i_eof i) true (i_skipws i) (i_hex i) (i_oct i) (i_width i) (i_strict i).
Definition i_set_strict (i : istr) (x : Z) : istr :=
  mk_is (i_in i) (i_eof i) (i_fail i) (i_skipws i) (i_hex i) (i_oct i) (i_width i) x.
(** Manipulators strict, non_strict: ip-network-base.hpp 1350-1360. *)
Definition manip_strict (i : istr) : istr := i_set_strict i 0.
Definition manip_non_strict (i : istr) : istr := i_set_strict i 1.

(** std::isspace in the classic locale. *)
Definition is_space (c : Z) : bool := ((9 <=? c) && (c <=? 13)) || (c =? 32).
Fixpoint skip_spaces (s : list Z) : list Z :=
  match s with [] => [] | c :: s' => if is_space c then skip_spaces s' else s end.
(** The extraction loop: characters taken, characters left, and whether the end
    was met; [limit] is the width, if positive. *)
Fixpoint take_word (s : list Z) (limit : option nat) : list Z * list Z * bool :=
  match limit with
  | Some O => ([], s, false)
  | _ =>
      match s with
      | [] => ([], [], true)
      | c :: s' =>
          if is_space c then ([], s, false)
          else let '(w, r, e) := take_word s' (option_map pred limit) in (c :: w, r, e)
      end
  end.
(** operator>> into an empty std::basic_string. *)
Definition is_read (i : istr) : list Z * istr :=
  if i_eof i || i_fail i then ([], i_set_fail i)
  else
    let s := if i_skipws i then skip_spaces (i_in i) else i_in i in
    if i_skipws i && (match s with [] => true | _ => false end)
    then ([], mk_is [] true true (i_skipws i) (i_hex i) (i_oct i) (i_width i) (i_strict i))
    else
      let '(w, r, e) := take_word s (if i_width i >? 0 then Some (Z.to_nat (i_width i)) else None) in
      (w, mk_is r e (match w with [] => true | _ => false end) (i_skipws i) (i_hex i) (i_oct i) 0 (i_strict i)).

(** The common body of operator>>: ip-address-base.hpp 873-883,
    ip-network-base.hpp 1415-1422, ip-any-address.hpp 1497-1506,
    ip-any-network.hpp 1489-1496; [parse] is the overload with an error code.
    The object is assigned in every case. *)
Definition get_with {A} (T : chtype) (parse : list tok -> ec -> res (A * ec)) (i : istr) : res (A * istr) :=
  let '(str, i) := is_read i in
  ts <- tokens (reader_of T) str ;;
  '(x, err) <- parse ts no_error ;;
  Ret (x, if ec_eqb err no_error then i else i_set_fail i).
Definition addr_get (T : chtype) (v : ver) : istr -> res (addr * istr) := get_with T (addr_parse_code v).
Definition any_get (T : chtype) : istr -> res (aaddr * istr) := get_with T any_parse_code.
(** ip-network-base.hpp 1410-1423 and ip-any-network.hpp 1484-1497. *)
Definition net_get (T : chtype) (v : ver) (i : istr) : res (net * istr) :=
  let strict := i_strict i =? 0 in
  get_with T (fun ts code => net_parse_code v ts code strict) (i_set_strict i 0).
Definition anet_get (T : chtype) (i : istr) : res (anet * istr) :=
  let strict := i_strict i =? 0 in
  get_with T (fun ts code => anet_parse_code ts code strict) (i_set_strict i 0).
(** operator>> of uint128_t, uint128.hpp 2091-2108; [value] is the variable. *)
Definition u128_get (T : chtype) (value : u128) (i : istr) : res (u128 * istr) :=
  let '(str, i) := is_read i in
  ts <- tokens (reader_of T) str ;;
  match u128_from_string (base_of (i_hex i) (i_oct i)) ts with
  | Some x => Ret (x, i)
  | None => Ret (value, i_set_fail i)
  end.
