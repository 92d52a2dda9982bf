(** Exceptions and their messages.  Models: errors.hpp 96-388 and unicode.hpp
    294-326, and the places that raise: ip-address-base.hpp 403-414, 763-795,
    ip-network-base.hpp 378-389, 425-438, 904-911, 983-990, 1072-1079,
    1246-1254, ipv6-address.hpp 24-37, fixed-string.hpp 58-70, unicode.hpp 25-37.
    What std::ostringstream writes (a char as it is, an integer in decimal or,
    after std::hex, in lower-case hexadecimal filled up to the width) is taken
    from the C++ standard.  std::hex stays set on the stream, but in no message
    does a number follow a symbol. *)
From Coq Require Import String Ascii.
From Verif Require Import Base UnicodeModel FixedStringModel V4Model V6Model Uint128Model SpecInt AddressModel NetworkModel IterModel
  ClassifyModel AnyModel CodeModel StreamModel.
Import ListNotations.
Open Scope list_scope.

(** A string literal of the code. *)
Definition lit (s : string) : list Z := map (fun a => Z.of_N (N_of_ascii a)) (list_ascii_of_string s).
Arguments lit s%string.

(** The classes error, parse_error and logic_error (errors.hpp 115-275), code() and what(). *)
Inductive xclass := XError | XParse | XLogic.
Record exn := mk_exn { x_class : xclass; x_code : ec; x_what : list Z }.

(** ** Printing *)
(** print_symbol_code, unicode.hpp 294-296: setw(4), setfill('0'), hex, a uint32_t. *)
Definition print_symbol_code (symbol : Z) : list Z :=
  let s := ostream_u64 16 (w32 symbol) in
  lit "{U+" ++ repeat 48 (Z.to_nat (4 - zlen s)) ++ s ++ lit "}".
(** error::print of an array, unicode.hpp 305-326: [str] has all N units. *)
Fixpoint print_loop (k : nat) (next : reader) (str : list Z) (it : Z) : res (list Z) :=
  if it <? zlen str then
    match k with
    | O => UB OutOfFuel
    | S k' =>
        '(t, it) <- next str (zlen str) it ;;
        match t with
        | Ch result => if result =? 0 then Ret [] else r <- print_loop k' next str it ;; Ret (result :: r)
        | Bad _ error_symbol =>
            if error_symbol =? 0 then Ret []
            else r <- print_loop k' next str it ;; Ret (print_symbol_code error_symbol ++ r)
        end
    end
  else Ret [].
Definition print_array (T : chtype) (str : list Z) : res (list Z) := print_loop (List.length str) (reader_of T) str 0.

(** The arguments of an exception constructor: a literal (const char[N], with
    its NUL), a uint32_t, an error::symbol, or the local array [str]. *)
Inductive arg := Lit (s : list Z) | Num (n : Z) | Sym (v : Z) | Str.
(** error::print, errors.hpp 173-182 and unicode.hpp 300-326. *)
Definition print_arg (T : chtype) (str : list Z) (a : arg) : res (list Z) :=
  match a with
  | Lit s => print_array TChar (s ++ [0])
  | Num n => Ret (ostream_u64 10 (w32 n))
  | Sym v => Ret (print_symbol_code v)
  | Str => print_array T str
  end.
(** error::concatenate and concat, errors.hpp 154-171 (with a single literal the
    constructor from const char*, 142-143, gives the same text). *)
Fixpoint concat_args (T : chtype) (str : list Z) (l : list arg) : res (list Z) :=
  match l with
  | [] => Ret []
  | [a] => print_arg T str a
  | a :: l' => x <- print_arg T str a ;; y <- concat_args T str l' ;; Ret (x ++ 32 :: y)
  end.

(** ** raise_error, errors.hpp 300-388 *)
(** The switch, errors.hpp 315-380. *)
Definition throw_args (code : ec) (value : Z) : xclass * list arg :=
  match code with
  | empty_address => (XParse, [Lit (lit "address cannot be empty")])
  | empty_netmask => (XParse, [Lit (lit "empty mask in address"); Str])
  | invalid_netmask => (XParse, [Lit (lit "is not a valid netmask in address"); Str])
  | netmask_pattern_mixes_zeroes_and_ones => (XParse, [Lit (lit "netmask pattern mixes zeroes & ones in address"); Str])
  | has_host_bits_set => (XParse, [Lit (lit "has host bits set in address"); Str])
  | only_one_slash_permitted => (XParse, [Lit (lit "only one '/' permitted in address"); Str])
  | string_is_too_long => (XParse, [Lit (lit "input string is too long"); Str])
  | empty_octet => (XParse, [Lit (lit "empty octet"); Num value; Lit (lit "in address"); Str])
  | expected_4_octets => (XParse, [Lit (lit "expected 4 octets in"); Str])
  | leading_0_are_not_permitted =>
      (XParse, [Lit (lit "leading zeros are not permitted in octet"); Num value; Lit (lit "of address"); Str])
  | octet_more_3_characters =>
      (XParse, [Lit (lit "in octet"); Num value; Lit (lit "of address"); Str; Lit (lit "more 3 characters")])
  | octet_has_invalid_symbol =>
      (XParse, [Lit (lit "in octet"); Num value; Lit (lit "of address"); Str; Lit (lit "has invalid symbol")])
  | octet_exceeded_255 => (XParse, [Lit (lit "octet"); Num value; Lit (lit "of address"); Str; Lit (lit "exceeded 255")])
  | least_3_parts => (XParse, [Lit (lit "least 3 parts in address"); Str])
  | most_8_colons_permitted => (XParse, [Lit (lit "most 8 colons permitted in address"); Str])
  | part_is_more_4_chars =>
      (XParse, [Lit (lit "in part"); Num value; Lit (lit "of address"); Str; Lit (lit "more 4 characters")])
  | part_has_invalid_symbol =>
      (XParse, [Lit (lit "in part"); Num value; Lit (lit "of address"); Str; Lit (lit "has invalid symbols")])
  | most_one_double_colon_permitted => (XParse, [Lit (lit "at most one '::' permitted in address"); Str])
  | leading_colon_only_permitted_as_part_of_double_colon =>
      (XParse, [Lit (lit "at leading ':' only permitted as part of '::' in address"); Str])
  | trailing_colon_only_permitted_as_part_of_double_colon =>
      (XParse, [Lit (lit "at trailing ':' only permitted as part of '::' in address"); Str])
  | expected_at_most_7_other_parts_with_double_colon =>
      (XParse, [Lit (lit "expected at most 7 other parts with '::' in address"); Str])
  | exactly_8_parts_expected_without_double_colon =>
      (XParse, [Lit (lit "exactly 8 parts expected without '::' in address"); Str])
  | scope_id_is_too_long => (XParse, [Lit (lit "scope id is too long in address"); Str])
  | invalid_scope_id => (XParse, [Lit (lit "invalid scope id in address"); Str])
  | invalid_version => (XLogic, [Lit (lit "versions don't match")])
  | invalid_prefixlen_diff => (XLogic, [Lit (lit "invalid prefixlen_diff")])
  | new_prefix_must_be_shorter => (XLogic, [Lit (lit "new prefix must be shorter")])
  | new_prefix_must_be_longer => (XLogic, [Lit (lit "new prefix must be longer")])
  | cannot_set_prefixlen_diff_and_new_prefix => (XLogic, [Lit (lit "cannot set prefixlen_diff and new_prefix")])
  | not_contained_network => (XLogic, [Lit (lit "network is not a subnet of other")])
  | unexpected_symbol =>
      (XParse, [Lit (lit "unexpected next unicode symbol"); Sym value; Lit (lit "in string"); Str])
  | wrong_encoding_sequence => (XParse, [Lit (lit "incorrect sequence of bytes in unicode encoding for string"); Str])
  | no_error => (XError, [Lit (lit "unknown error")])
  end.
(** The loop copying into [str], errors.hpp 307-309. *)
Fixpoint copy_loop (k : nat) (i : Z) (address str : list Z) : res (list Z) :=
  match k with
  | O => Ret str
  | S k' => c <- rd address i ;; str <- wr str i c ;; copy_loop k' (i + 1) address str
  end.
(** T str[104], errors.hpp 302-314. *)
Definition error_text (address : list Z) (length : Z) : res (list Z) :=
  let max_len := if length >? 100 then 100 else length in
  str <- copy_loop (Z.to_nat max_len) 0 address (repeat 0 104) ;;
  if length >? 100 then str <- wr str 100 46 ;; str <- wr str 101 46 ;; wr str 102 46
  else Ret str.
(** raise_error<T>, errors.hpp 300-388: the exception thrown. *)
Definition raise_error (T : chtype) (code : ec) (value : Z) (address : list Z) (length : Z) : res exn :=
  str <- error_text address length ;;
  let (cls, args) := throw_args code value in
  what <- concat_args T str args ;;
  Ret (mk_exn cls code what).

(** ** The throwing functions *)
(** What a caller of a throwing function sees: a value or an exception, raised
    with the units [s] ([data], [size]). *)
Definition raising {A} (T : chtype) (s : list Z) (r : res A) : res (A + exn) :=
  match r with
  | Ret a => Ret (inl a)
  | Err code value => x <- raise_error T code value s (zlen s) ;; Ret (inr x)
  | UB u => UB u
  end.
(** parse of a string: parse_string ip-address-base.hpp 763-771,
    parse_address_with_prefix ip-network-base.hpp 1246-1254, ip_any_parser
    ip-any-address.hpp 33-40, net_any_parser ip-any-network.hpp 35-42. *)
Definition addr_parse_x (T : chtype) (v : ver) (s : list Z) : res (addr + exn) :=
  ts <- tokens (reader_of T) s ;; raising T s (parse_throw v ts).
Definition net_parse_x (T : chtype) (v : ver) (s : list Z) (strict : bool) : res (net + exn) :=
  ts <- tokens (reader_of T) s ;; raising T s (net_parse_throw v ts strict).
Definition any_parse_x (T : chtype) (s : list Z) : res (aaddr + exn) :=
  ts <- tokens (reader_of T) s ;; raising T s (any_parse_throw ts).
Definition anet_parse_x (T : chtype) (s : list Z) (strict : bool) : res (anet + exn) :=
  ts <- tokens (reader_of T) s ;; raising T s (anet_parse_throw ts strict).
(** set_scope_id of a string, ipv6-address.hpp 26-37. *)
Definition set_scope_x (T : chtype) (a : addr) (s : list Z) : res (addr + exn) :=
  ts <- tokens (reader_of T) s ;; raising T s (set_scope_throw a (zlen s) ts).
(** parse(const T(&)[N]), ip-address-base.hpp 403-414, ip-network-base.hpp
    378-389: the fixed string raises with [begin, end) = the first N - 1 units
    ([n] = N - 1; fixed-string.hpp 58-70, unicode.hpp 25-37), the parser with the fixed
    string. *)
Definition array_x {A} (T : chtype) (n : nat) (data : list Z) (f : fstr -> res (A + exn)) : res (A + exn) :=
  r <- raising T (firstn n data) (fs_make (reader_of T) n data) ;;
  match r with inl x => f x | inr e => Ret (inr e) end.
Definition addr_array_x (T : chtype) (v : ver) (n : nat) (data : list Z) : res (addr + exn) :=
  array_x T n data (fun f => raising TChar (fs_chars f) (parse_throw v (chars (fs_chars f)))).
Definition net_array_x (T : chtype) (v : ver) (n : nat) (data : list Z) (strict : bool) : res (net + exn) :=
  array_x T n data (fun f => raising TChar (fs_chars f) (net_parse_throw v (chars (fs_chars f)) strict)).
(** parse_ip_from_literal<TChar>, ip-address-base.hpp 786-795: [data] has at
    least [size] units. *)
Definition addr_literal_x (T : chtype) (v : ver) (s : list Z) : res (addr + exn) :=
  if zlen s >? max_string_len v then x <- raise_error T string_is_too_long 0 s (zlen s) ;; Ret (inr x)
  else addr_array_x T v (Z.to_nat (max_string_len v)) (s ++ repeat 0 (Z.to_nat (max_string_len v + 1 - zlen s))).
(** from_address, ip-network-base.hpp 425-438: raised with the text of the address. *)
Definition from_address_x (v : ver) (a : addr) (prefixlen : Z) (strict : bool) : res (net + exn) :=
  match from_address_throw v a prefixlen strict with
  | Err code value => s <- addr_to_string v a compressed ;; x <- raise_error TChar code 0 s (zlen s) ;; Ret (inr x)
  | r => raising TChar [] r
  end.
(** supernet, subnets and address_exclude, ip-network-base.hpp 1072-1079,
    983-990, 904-911: raised with an empty text. *)
Definition supernet_x (v : ver) (n : net) (d : Z) (np : option Z) : res (net + exn) := raising TChar [] (supernet_throw v n d np).
Definition subnets_x (sp : bool) (v : ver) (n : net) (d : Z) (np : option Z) : res (subnets_seq + exn) := raising TChar [] (subnets sp v n d np).
Definition exclude_x (sp : bool) (v : ver) (n other : net) : res (exclude_seq + exn) := raising TChar [] (address_exclude sp v n other).
