(** What is expected of exceptions and their messages. *)
From Coq Require Import String.
From Verif Require Import Base UnicodeModel SpecStr SpecText SpecV6 SpecInt SpecOrder SpecNet SpecAny Uint128Model AddressModel NetworkModel AnyModel
  CodeModel StreamModel SpecStream ErrorModel.

(** The codes of operations on networks and versions; all the others are
    about a text. *)
Definition logic_code (c : ec) : Prop :=
  match c with
  | invalid_version | invalid_prefixlen_diff | new_prefix_must_be_shorter | new_prefix_must_be_longer
  | cannot_set_prefixlen_diff_and_new_prefix | not_contained_network => True
  | _ => False
  end.
(** The codes whose message quotes the text, and those which name a place in it. *)
Definition quoting (c : ec) : Prop := c <> no_error /\ c <> empty_address /\ ~ logic_code c.
Definition numbered (c : ec) : Prop :=
  match c with
  | empty_octet | leading_0_are_not_permitted | octet_more_3_characters | octet_has_invalid_symbol | octet_exceeded_255
  | part_is_more_4_chars | part_has_invalid_symbol => True
  | _ => False
  end.
Definition class_of (c : ec) (k : xclass) : Prop :=
  (k = XLogic <-> logic_code c) /\ (k = XError <-> c = no_error).

(** A code point written as {U+hhhh}: hexadecimal, at least four digits. *)
Definition code_name (c : Z) (t : list Z) : Prop :=
  exists z h, t = 123 :: 85 :: 43 :: repeat 48 z ++ h ++ [125] /\ numeral 16 h c /\ Z.of_nat z = Z.max 0 (4 - zlen h).

(** Unicode scalar values other than NUL, and their encoding forms (Unicode
    standard, 3.9).  A char array has no encoding here: one char is one symbol. *)
Definition scalar (c : Z) : Prop := 0 < c < 0x110000 /\ ~ 0xD800 <= c < 0xE000.
Definition symbol_ok (T : chtype) (c : Z) : Prop := match T with TChar => is_char c /\ c <> 0 | _ => scalar c end.
Definition enc (T : chtype) (c : Z) : list Z :=
  match T with
  | TChar8 =>
      if c <? 0x80 then [c]
      else if c <? 0x800 then [0xC0 + c / 64; 0x80 + c mod 64]
      else if c <? 0x10000 then [0xE0 + c / 4096; 0x80 + c / 64 mod 64; 0x80 + c mod 64]
      else [0xF0 + c / 262144; 0x80 + c / 4096 mod 64; 0x80 + c / 64 mod 64; 0x80 + c mod 64]
  | TChar16 => if c <? 0x10000 then [c] else [0xD800 + (c - 0x10000) / 1024; 0xDC00 + (c - 0x10000) mod 1024]
  | _ => [c]
  end.
Definition encode (T : chtype) (cs : list Z) : list Z := flat_map (enc T) cs.
(** How symbols are shown: [char]s and ASCII as they are, others by their names. *)
Definition pictured1 (T : chtype) (c : Z) (t : list Z) : Prop :=
  if match T with TChar => true | _ => c <? 128 end then t = [c] else code_name c t.
Inductive pictured (T : chtype) : list Z -> list Z -> Prop :=
| pic_nil : pictured T [] []
| pic_cons c cs t ts : pictured1 T c t -> pictured T cs ts -> pictured T (c :: cs) (t ++ ts).

(** How much of a text of symbols [cs] is shown: all of it when it has at most
    100 units; otherwise the symbols in the first 100 units and "...", or,
    when a symbol straddles the limit, the symbols before it and nothing. *)
Inductive excerpt (T : chtype) (cs : list Z) : list Z -> list Z -> Prop :=
| ex_whole : zlen (encode T cs) <= 100 -> excerpt T cs cs []
| ex_cut p q : cs = p ++ q -> zlen (encode T p) = 100 -> q <> [] -> excerpt T cs p [46; 46; 46]
| ex_straddle p c q : cs = p ++ c :: q -> zlen (encode T p) < 100 < zlen (encode T (p ++ [c])) -> excerpt T cs p [].

(** [shows T s t]: [t] is how the text [s] appears in a message. *)
Definition shows (T : chtype) (s t : list Z) : Prop :=
  exists cs p dots tp, Forall (symbol_ok T) cs /\ s = encode T cs /\ excerpt T cs p dots /\ pictured T p tp /\ t = tp ++ dots.

(** [throws_as o t]: the overload with an error code [o] and the throwing one
    [t] agree: a value, or an exception of the given class with that code. *)
Definition throws_as {A} (k : xclass) (o : res (A * ec)) (t : res (A + exn)) : Prop :=
  match o with
  | Ret (a, e) => (e = no_error -> t = Ret (inl a)) /\ (e <> no_error -> exists w, t = Ret (inr (mk_exn k e w)))
  | Err _ _ => False
  | UB u => t = UB u
  end.

(** The parsers of strings, by class. *)
Definition obj_throw (T : chtype) (k : kind) (strict : bool) (s : list Z) : res (obj + exn) :=
  let f {A} (g : A -> obj) (r : res (A + exn)) := rmap (fun x => match x with inl a => inl (g a) | inr e => inr e end) r in
  match k with
  | KAddr v => f (OAddr v) (addr_parse_x T v s)
  | KNet v => f (ONet v) (net_parse_x T v s strict)
  | KAny => f OAny (any_parse_x T s)
  | KAnyNet => f OAnyNet (anet_parse_x T s strict)
  end.
Definition obj_code (T : chtype) (k : kind) (strict : bool) (s : list Z) (code : ec) : res (obj * ec) :=
  let f {A} (g : A -> obj) (r : res (A * ec)) := rmap (fun '(a, e) => (g a, e)) r in
  ts <- tokens (reader_of T) s ;;
  match k with
  | KAddr v => f (OAddr v) (parse_st v ts code)
  | KNet v => f (ONet v) (net_parse_st v ts strict code)
  | KAny => f OAny (any_parse_st ts code)
  | KAnyNet => f OAnyNet (anet_parse_st ts strict code)
  end.
