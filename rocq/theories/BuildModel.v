(** The classification tables, the scope class and the exceptions of builds where
    the macros are set differently (MacroModel).  Models: ip-networks.hpp 53-400,
    ipv6-address.hpp 25-37 and 286-294, ip-any-address.hpp 1193-1198, errors.hpp
    300-388, unicode.hpp 305-326.  What does not depend on the build is that of
    ClassifyModel, ScopeModel and ErrorModel. *)
From Coq Require Import String Ascii.
From Verif Require Import Base UnicodeModel FixedStringModel V4Model V6Model Uint128Model SpecInt AddressModel NetworkModel IterModel ClassifyModel AnyModel CodeModel StreamModel
  ScopeModel ErrorModel LiteralModel ConfigModel NetConfigModel Utf8Model MacroModel.
Import ListNotations.
Open Scope list_scope.

Section Build.
Context (b : build).
Notation g := (b_cfg b).

(** ** Classification *)
(** An entry of a table: ipv4_network::parse("...") and ipv6_network::parse("...") of
    an array of chars, ip-networks.hpp 53-181.  The tables are constexpr variables:
    an entry that throws does not compile. *)
Definition entry_b (v : ver) (s : string) : res net := net_array_t_b b TChar v true (codes s ++ [0]).
Fixpoint entries_b (v : ver) (l : list string) : res (list net) :=
  match l with
  | [] => Ret []
  | s :: l' => n <- entry_b v s ;; ns <- entries_b v l' ;; Ret (n :: ns)
  end.
(** The loops, ip-networks.hpp 275-281, 314-321, 333-339. *)
Definition in_table_b (v : ver) (l : list string) (a : addr) : res bool := ns <- entries_b v l ;; Ret (any_contains ns a).
Definition in_entry_b (v : ver) (s : string) (a : addr) : res bool := n <- entry_b v s ;; Ret (contains n a).
(** props<ipv4_address>, ip-networks.hpp 274-302; props<ipv6_address>, 307-352. *)
Definition is_private_b (v : ver) (a : addr) : res bool :=
  match v with
  | V4 => in_table_b V4 (private_texts V4) a
  | V6 =>
      m <- v6_ipv4_mapped (a_bytes a) ;;
      match m with
      | Some q => in_table_b V4 (private_texts V4) (mk_addr q [])
      | None => in_table_b V6 (private_texts V6) a
      end
  end.
Definition is_global_b (v : ver) (a : addr) : res bool :=
  match v with
  | V4 => s <- in_entry_b V4 public_text a ;; p <- is_private_b V4 a ;; Ret (negb s && negb p)
  | V6 => p <- is_private_b V6 a ;; Ret (negb p)
  end.
Definition is_multicast_b (v : ver) (a : addr) : res bool := in_entry_b v (multicast_text v) a.
Definition is_reserved_b (v : ver) (a : addr) : res bool := in_table_b v (reserved_texts v) a.
Definition is_loopback_b (v : ver) (a : addr) : res bool :=
  match v with V4 => in_entry_b V4 loopback_text a | V6 => Ret (zeros_then_one (a_bytes a)) end.
Definition is_link_local_b (v : ver) (a : addr) : res bool := in_entry_b v (link_local_text v) a.
Definition is_site_local_b (a : addr) : res bool := in_entry_b V6 site_local_text (mk_addr (a_bytes a) []).
(** Networks, ip-network-base.hpp 752-831, ipv6-network.hpp 41-44. *)
Definition ends_b (f : addr -> res bool) (n : net) : res bool := x <- f (n_addr n) ;; if x : bool then f (broadcast n) else Ret false.
Definition net_is_multicast_b (v : ver) := ends_b (is_multicast_b v).
Definition net_is_reserved_b (v : ver) := ends_b (is_reserved_b v).
Definition net_is_loopback_b (v : ver) := ends_b (is_loopback_b v).
Definition net_is_link_local_b (v : ver) := ends_b (is_link_local_b v).
Definition net_is_site_local_b := ends_b is_site_local_b.
(** props<ipv4_network> ip-networks.hpp 233-250 and props<ipv6_network> 255-269. *)
Definition net_is_private_b (v : ver) (n : net) : res bool :=
  ns <- entries_b v (private_texts v) ;; Ret (existsb (fun m => contains m (n_addr n) && contains m (broadcast n)) ns).
Definition net_is_global_b (v : ver) (n : net) : res bool :=
  match v with
  | V4 => m <- entry_b V4 public_text ;; p <- net_is_private_b V4 n ;; Ret (negb (contains m (n_addr n) && contains m (broadcast n)) && negb p)
  | V6 => p <- net_is_private_b V6 n ;; Ret (negb p)
  end.

(** ** The scope class *)
(** get_scope_id, ipv6-address.hpp 286-294: make_fixed_string("") without scope
    ids; of a version-erased address, ip-any-address.hpp 1193-1198. *)
Definition get_scope_b (a : addr) : res scope :=
  if c_max g >? 0 then scope_make (scope_fs_c g (a_scope a))
  else f <- fs_make_b b (inner_b b) 0 [0] ;; scope_make f.
Definition any_get_scope_b (x : aaddr) : res scope :=
  if ver_eqb (aa_ver x) V4 then scope_make (fs_empty (Z.to_nat (c_max g))) else get_scope_b (aa_addr x).

(** ** Exceptions *)
(** (array_x_b and addr_literal_x_b are for builds with exceptions.) *)
(** error::print of an array, unicode.hpp 305-326, with the reader of the build. *)
Definition print_array_b (T : chtype) (str : list Z) : res (list Z) := print_loop (List.length str) (reader_b b T) str 0.
Definition print_arg_b (T : chtype) (str : list Z) (a : arg) : res (list Z) :=
  match a with
  | Lit s => print_array_b TChar (s ++ [0])
  | Num n => Ret (ostream_u64 10 (w32 n))
  | Sym v => Ret (print_symbol_code v)
  | Str => print_array_b T str
  end.
Fixpoint concat_args_b (T : chtype) (str : list Z) (l : list arg) : res (list Z) :=
  match l with
  | [] => Ret []
  | [a] => print_arg_b T str a
  | a :: l' => x <- print_arg_b T str a ;; y <- concat_args_b T str l' ;; Ret (x ++ 32 :: y)
  end.
(** raise_error<T>, errors.hpp 300-388. *)
Definition raise_error_b (T : chtype) (code : ec) (value : Z) (address : list Z) (length : Z) : res exn :=
  str <- error_text address length ;;
  let (cls, args) := throw_args code value in
  what <- concat_args_b T str args ;;
  Ret (mk_exn cls code what).
(** What a caller sees (ErrorModel.raising). *)
Definition raising_b {A} (T : chtype) (s : list Z) (r : res A) : res (A + exn) :=
  match r with
  | Ret a => Ret (inl a)
  | Err code value => x <- raise_error_b T code value s (zlen s) ;; Ret (inr x)
  | UB u => UB u
  end.
(** parse of a string: ip-address-base.hpp 763-771, ip-network-base.hpp 1246-1254,
    ip-any-address.hpp 33-40, ip-any-network.hpp 35-42. *)
Definition addr_parse_x_b (T : chtype) (v : ver) (s : list Z) : res (addr + exn) :=
  ts <- tokens (reader_b b T) s ;; raising_b T s (parse_b b v ts).
Definition net_parse_x_b (T : chtype) (v : ver) (s : list Z) (strict : bool) : res (net + exn) :=
  ts <- tokens (reader_b b T) s ;; raising_b T s (net_parse_b b v ts strict).
Definition any_parse_x_b (T : chtype) (s : list Z) : res (aaddr + exn) :=
  ts <- tokens (reader_b b T) s ;; raising_b T s (any_parse_b b ts).
Definition anet_parse_x_b (T : chtype) (s : list Z) (strict : bool) : res (anet + exn) :=
  ts <- tokens (reader_b b T) s ;; raising_b T s (anet_parse_b b ts strict).
(** set_scope_id of a string, ipv6-address.hpp 25-37. *)
Definition set_scope_x_b (T : chtype) (a : addr) (s : list Z) : res (addr + exn) :=
  ts <- tokens (reader_b b T) s ;; raising_b T s (set_scope_b b a (zlen s) ts).
(** parse(const T(&)[N]), ip-address-base.hpp 403-414, ip-network-base.hpp 378-389
    (ErrorModel.array_x). *)
Definition array_x_b {A} (T : chtype) (n : nat) (data : list Z) (f : fstr -> res (A + exn)) : res (A + exn) :=
  r <- raising_b T (firstn n data) (fs_make (reader_b b T) n data) ;;
  match r with inl x => f x | inr e => Ret (inr e) end.
Definition addr_array_x_b (T : chtype) (v : ver) (data : list Z) : res (addr + exn) :=
  array_x_b T (cap data) data (fun f => ts <- tokens (inner_b b) (fs_chars f) ;; raising_b TChar (fs_chars f) (parse_b b v ts)).
Definition net_array_x_b (T : chtype) (v : ver) (strict : bool) (data : list Z) : res (net + exn) :=
  array_x_b T (cap data) data (fun f => ts <- tokens (inner_b b) (fs_chars f) ;; raising_b TChar (fs_chars f) (net_parse_b b v ts strict)).
(** parse_ip_from_literal<TChar>, ip-address-base.hpp 786-795: [s] has [size] units. *)
Definition addr_literal_x_b (T : chtype) (v : ver) (s : list Z) : res (addr + exn) :=
  if zlen s >? max_len_b b v then x <- raise_error_b T string_is_too_long 0 s (zlen s) ;; Ret (inr x)
  else addr_array_x_b T v (s ++ repeat 0 (Z.to_nat (max_len_b b v + 1 - zlen s))).
End Build.

(** ** The tables of a big-endian host *)
(** An entry on a host of the given endianness (HostModel). *)
From Verif Require Import HostModel.
Definition entry_h (le : bool) (v : ver) (s : string) : res net := net_parse_h le v (chars (codes s)) true.
