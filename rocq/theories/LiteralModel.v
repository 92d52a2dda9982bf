(** Character arrays, literals and compile-time parsing in every character
    type.  [data] is a C++ array, its last unit included: parse(const T (&)[N])
    looks at N - 1 units and may read the last one.  Errors of compile-time
    functions ([Err]) are compilation errors. *)
From Verif Require Import Base UnicodeModel FixedStringModel V4Model V6Model AddressModel NetworkModel AnyModel CodeModel StreamModel.

Definition cap (data : list Z) : nat := pred (List.length data).

(** ** parse(const std::basic_string<T>&), throwing *)
(** ip-address-base.hpp 762-771 (called from 150-219 and 308-343). *)
Definition addr_string (T : chtype) (v : ver) (s : list Z) : res addr :=
  ts <- tokens (reader_of T) s ;; parse_throw v ts.
(** ip-network-base.hpp 1245-1254. *)
Definition net_string (T : chtype) (v : ver) (strict : bool) (s : list Z) : res net :=
  ts <- tokens (reader_of T) s ;; net_parse_throw v ts strict.
(** ip-any-address.hpp 31-40 and ip-any-network.hpp 33-42. *)
Definition any_string (T : chtype) (s : list Z) : res aaddr :=
  ts <- tokens (reader_of T) s ;; any_parse_throw ts.
Definition anet_string (T : chtype) (strict : bool) (s : list Z) : res anet :=
  ts <- tokens (reader_of T) s ;; anet_parse_throw ts strict.

(** ** parse(const T (&)[N]), throwing *)
(** ip-address-base.hpp 402-414. *)
Definition addr_array (T : chtype) (v : ver) (data : list Z) : res addr :=
  parse_array_throw v (reader_of T) (cap data) data.
(** ip-network-base.hpp 377-389. *)
Definition net_array (T : chtype) (v : ver) (strict : bool) (data : list Z) : res net :=
  net_array_throw v (reader_of T) (cap data) data strict.
(** ip-any-address.hpp 1144-1147 with ip_any_parser 31-40: the overload with a
    code of IPv4, then the throwing one of IPv6. *)
Definition any_array (T : chtype) (data : list Z) : res aaddr :=
  '(ipv4, code) <- parse_array_st V4 (reader_of T) (cap data) data no_error ;;
  if ok code then Ret (mk_aa V4 ipv4) else a <- addr_array T V6 data ;; Ret (mk_aa V6 a).
(** ip-any-network.hpp 1179-1182 with net_any_parser 33-42. *)
Definition anet_array (T : chtype) (strict : bool) (data : list Z) : res anet :=
  '(net4, code) <- net_array_st V4 (reader_of T) (cap data) data strict no_error ;;
  if ok code then Ret (mk_an V4 net4) else n <- net_array T V6 strict data ;; Ret (mk_an V6 n).

(** ** Literal operators of compilers without class-type template arguments *)
(** The copy of the text into an array of MaxLen + 1 zero units. *)
Definition literal {A} (maxlen : Z) (parse : list Z -> res A) (s : list Z) : res A :=
  if zlen s >? maxlen then Err string_is_too_long 0 else parse (s ++ repeat 0 (Z.to_nat (maxlen + 1 - zlen s))).
(** parse_ip_from_literal, ip-address-base.hpp 785-795, with MaxLen from
    ipv4-address.hpp 154-189 and ipv6-address.hpp 903-938. *)
Definition addr_literal_t (T : chtype) (v : ver) : list Z -> res addr := literal (max_string_len v) (addr_array T v).
(** parse_net_from_literal, ip-network-base.hpp 1327-1337, with MaxLen from
    ipv4-network.hpp 80-124 and ipv6-network.hpp 96-140. *)
Definition net_literal_t (T : chtype) (v : ver) : list Z -> res net :=
  literal (match v with V4 => max_string_len V4 * 2 + 1 | V6 => max_string_len V6 + 4 end) (net_array T v true).
(** ip-any-address.hpp 1387-1450. *)
Definition any_literal_t (T : chtype) : list Z -> res aaddr := literal (max_string_len V6) (any_array T).
(** ip-any-network.hpp 1361-1437. *)
Definition anet_literal_t (T : chtype) : list Z -> res anet := literal (max_string_len V6 * 2 + 1) (anet_array T true).

(** ** Templates parse<FixedString>() and the literal operators calling them *)
(** ip-address-base.hpp 122-132; ipv4-address.hpp 128-131, ipv6-address.hpp
    888-891.  The template argument is a fixed_string constructed from [data]. *)
Definition addr_fixed (v : ver) (str : fstr) : res addr :=
  '(result, code, value) <- string_st v (chars (fs_chars str)) no_error 0 ;;
  if negb (ok code) then Err code value else Ret result.
Definition addr_template (T : chtype) (v : ver) (data : list Z) : res addr :=
  str <- fs_make (reader_of T) (cap data) data ;; addr_fixed v str.
(** ip-network-base.hpp 64-74; ipv4-network.hpp 63-66, ipv6-network.hpp 79-82. *)
Definition net_fixed (v : ver) (strict : bool) (str : fstr) : res net :=
  '(result, code, value) <- net_string_st v (chars (fs_chars str)) strict no_error 0 ;;
  if negb (ok code) then Err code value else Ret result.
Definition net_template (T : chtype) (v : ver) (strict : bool) (data : list Z) : res net :=
  str <- fs_make (reader_of T) (cap data) data ;; net_fixed v strict str.
(** The copying loops ip-any-address.hpp 554-557 and ip-any-network.hpp 874-877. *)
Fixpoint copy_loop (k : nat) (str : fstr) (i : Z) (ip : list Z) : res (list Z) :=
  match k with
  | O => Ret ip
  | S k' => c <- fs_at str i ;; ip <- wr ip i c ;; copy_loop k' str (i + 1) ip
  end.
Definition copy_fixed (str : fstr) : res (list Z) :=
  copy_loop (Z.to_nat (fs_size str)) str 0 (repeat 0 (Z.to_nat (fs_size str + 1))).
(** ip-any-address.hpp 549-565 and 1372-1375. *)
Definition any_template (T : chtype) (data : list Z) : res aaddr :=
  str <- fs_make (reader_of T) (cap data) data ;;
  ip <- copy_fixed str ;;
  '(ipv4, code) <- parse_array_st V4 char_next (cap ip) ip no_error ;;
  if ok code then Ret (mk_aa V4 ipv4) else a <- addr_fixed V6 str ;; Ret (mk_aa V6 a).
(** ip-any-network.hpp 869-885 and 1344-1347. *)
Definition anet_template (T : chtype) (strict : bool) (data : list Z) : res anet :=
  str <- fs_make (reader_of T) (cap data) data ;;
  net <- copy_fixed str ;;
  '(net4, code) <- net_array_st V4 char_next (cap net) net strict no_error ;;
  if ok code then Ret (mk_an V4 net4) else n <- net_fixed V6 strict str ;; Ret (mk_an V6 n).

(** operator""_ipv4(unsigned long long): ipv4-address.hpp 140-143 with class-type
    template arguments (the assertion is an outcome of its own), 197-199 without. *)
Definition uint_literal (nttp : bool) (value : Z) : res addr :=
  if nttp && negb (value <=? 4294967295) then UB AssertFailed else addr_from_uint V4 (w32 value).
