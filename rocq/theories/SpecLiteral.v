(** Vocabulary for the ways a constant text becomes an object. *)
From Verif Require Import Base SpecStr SpecAny StreamModel SpecStream LiteralModel.

(** The functions, by class. *)
Definition string_of (T : chtype) (k : kind) (strict : bool) (s : list Z) : res obj :=
  match k with
  | KAddr v => rmap (OAddr v) (addr_string T v s)
  | KNet v => rmap (ONet v) (net_string T v strict s)
  | KAny => rmap OAny (any_string T s)
  | KAnyNet => rmap OAnyNet (anet_string T strict s)
  end.
Definition array_of (T : chtype) (k : kind) (strict : bool) (data : list Z) : res obj :=
  match k with
  | KAddr v => rmap (OAddr v) (addr_array T v data)
  | KNet v => rmap (ONet v) (net_array T v strict data)
  | KAny => rmap OAny (any_array T data)
  | KAnyNet => rmap OAnyNet (anet_array T strict data)
  end.
Definition literal_of (T : chtype) (k : kind) (s : list Z) : res obj :=
  match k with
  | KAddr v => rmap (OAddr v) (addr_literal_t T v s)
  | KNet v => rmap (ONet v) (net_literal_t T v s)
  | KAny => rmap OAny (any_literal_t T s)
  | KAnyNet => rmap OAnyNet (anet_literal_t T s)
  end.
Definition template_of (T : chtype) (k : kind) (strict : bool) (data : list Z) : res obj :=
  match k with
  | KAddr v => rmap (OAddr v) (addr_template T v data)
  | KNet v => rmap (ONet v) (net_template T v strict data)
  | KAny => rmap OAny (any_template T data)
  | KAnyNet => rmap OAnyNet (anet_template T strict data)
  end.
(** The longest text a literal operator takes. *)
Definition longest (k : kind) : Z :=
  match k with KAddr V4 => 15 | KAddr V6 => 57 | KNet V4 => 31 | KNet V6 => 61 | KAny => 57 | KAnyNet => 115 end.
(** Texts every unit of which is a character for the reader. *)
Definition plain (T : chtype) (s : list Z) : Prop := T = TChar \/ Forall is_ascii s.
(** Types whose reader takes a unit above 127 for an error. *)
Definition wide (T : chtype) : Prop := T = TChar16 \/ T = TChar32 \/ T = TWchar.
Definition encoding_error (e : ec) : Prop := e = unexpected_symbol \/ e = wrong_encoding_sequence.
