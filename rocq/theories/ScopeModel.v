(** The class scope and set_scope_id in the five character types.  Models:
    include/ipaddress/ipv6-address.hpp 89-657, ip-any-address.hpp 748-943, 1178-1198. *)
From Verif Require Import Base UnicodeModel FixedStringModel V6Model AddressModel AnyModel CodeModel StreamModel LiteralModel.

(** scope, ipv6-address.hpp 89-263: the members 260-262. *)
Record scope := mk_scope { sc_id : fstr; sc_value : Z; sc_has : bool }.
(** parse_value, ipv6-address.hpp 242-258: the loop over the characters ([k]: how
    many are left), [None] when it meets something else than a digit. *)
Fixpoint parse_value (k : nat) (i : Z) (f : fstr) (value : Z) : res (option Z) :=
  match k with
  | O => Ret (Some value)
  | S k' =>
      c <- fs_at f i ;;
      if (c >=? 48) && (c <=? 57) then parse_value k' (i + 1) f (w32 (w32 (value * 10) + (c - 48)))
      else Ret None
  end.
(** Constructor, ipv6-address.hpp 96-100. *)
Definition scope_make (f : fstr) : res scope :=
  if negb (fs_empty_b f) then
    r <- parse_value (Z.to_nat (fs_size f)) 0 f 0 ;;
    Ret (match r with Some value => mk_scope f value true | None => mk_scope f 0 false end)
  else Ret (mk_scope f 0 false).
(** get_string ipv6-address.hpp 107-109 and the conversion 152-154; get_uint32 116-118 and the
    conversion 161-163; has_string 125-127; has_uint32 134-136; operator bool 143-145. *)
Definition scope_string (s : scope) : list Z := fs_chars (sc_id s).
Definition scope_uint32 (s : scope) : Z := sc_value s.
Definition scope_has_string (s : scope) : bool := negb (fs_empty_b (sc_id s)).
Definition scope_has_uint32 (s : scope) : bool := sc_has s.
Definition scope_bool (s : scope) : bool := scope_has_string s.
(** == ipv6-address.hpp 171-173, <=> 193-195, < 205-207. *)
Definition scope_eqb (a b : scope) : res bool := fs_eqb (sc_id a) (sc_id b).
Definition scope_cmp3 (a b : scope) : res comparison := fs_cmp (sc_id a) (sc_id b).
Definition scope_ltb (a b : scope) : res bool := fs_ltb (sc_id a) (sc_id b).

(** get_scope_id, ipv6-address.hpp 286-294, and of a version-erased address, ip-any-address.hpp 1193-1198. *)
Definition get_scope (a : addr) : res scope := scope_make (scope_fs (a_scope a)).
Definition any_get_scope (x : aaddr) : res scope :=
  if ver_eqb (aa_ver x) V4 then scope_make (fs_empty 16) else get_scope (aa_addr x).

(** set_scope_id of a string of units of type [T]: the overloads ipv6-address.hpp
    364-455 and 569-609 without and 472-559 and 617-657 with an error code, which
    all call change. *)
Definition scope_set (T : chtype) (a : addr) (s : list Z) : res addr :=
  ts <- tokens (reader_of T) s ;; set_scope_throw a (zlen s) ts.
Definition scope_set_code (T : chtype) (a : addr) (s : list Z) (code : ec) : res (addr * ec) :=
  ts <- tokens (reader_of T) s ;; set_scope_st a (zlen s) ts code.
(** set_scope_id of an array, ipv6-address.hpp 308-321 and 336-344; an array of
    more than 17 units does not compile. *)
Definition scope_set_array (T : chtype) (a : addr) (data : list Z) : res addr :=
  set_scope_array_throw a (reader_of T) (cap data) data.
Definition scope_set_array_code (T : chtype) (a : addr) (data : list Z) (code : ec) : res (addr * ec) :=
  set_scope_array_st a (reader_of T) (cap data) data code.
(** The same for a version-erased address, ip-any-address.hpp 748-943 and 1178-1182. *)
Definition any_scope_set (T : chtype) (x : aaddr) (s : list Z) : res aaddr :=
  if ver_eqb (aa_ver x) V6 then a <- scope_set T (aa_addr x) s ;; Ret (mk_aa V6 a) else Ret x.
Definition any_scope_set_code (T : chtype) (x : aaddr) (s : list Z) (code : ec) : res (aaddr * ec) :=
  if ver_eqb (aa_ver x) V6 then '(a, code) <- scope_set_code T (aa_addr x) s code ;; Ret (mk_aa V6 a, code) else Ret (x, code).
Definition any_scope_set_array (T : chtype) (x : aaddr) (data : list Z) : res aaddr :=
  if ver_eqb (aa_ver x) V6 then a <- scope_set_array T (aa_addr x) data ;; Ret (mk_aa V6 a) else Ret x.
