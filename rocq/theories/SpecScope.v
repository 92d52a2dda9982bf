(** What scope ids are, whatever the character type of their text: specification. *)
From Verif Require Import Base SpecStr SpecText SpecV6 SpecStream StreamModel ScopeModel.

(** [reads T s cs]: the units [s] of type [T] stand for the characters [cs]. *)
Definition reads (T : chtype) (s cs : list Z) : Prop :=
  match T with
  | TChar => cs = s
  | TChar8 => lax_utf8 s cs
  | _ => Forall is_ascii s /\ cs = s
  end.
(** A decimal number and its digits. *)
Definition decimal (t ds : list Z) : Prop := t <> [] /\ digits_of 10 t ds.
(** What the members of a scope show: it is the text [t]. *)
Definition sees (s : scope) (t : list Z) : Prop :=
  scope_string s = t /\ (scope_has_string s = true <-> t <> []) /\ (scope_bool s = true <-> t <> []) /\
  (scope_has_uint32 s = true <-> exists ds, decimal t ds) /\
  (forall ds, decimal t ds -> scope_uint32 s = horner 10 0 ds mod 2 ^ 32) /\
  (scope_has_uint32 s = false -> scope_uint32 s = 0).
