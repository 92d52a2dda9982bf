(** What is expected of the six relational operators. *)
From Verif Require Import Base Uint128OpsModel FixedStringModel SpecStr FixedStringProofs SpecOrder AddressModel NetworkModel IterModel SpecIter.

(** The call returns, and says whether [P]. *)
Definition decides (x : res bool) (P : Prop) : Prop := exists r, x = Ret r /\ (r = true <-> P).
(** The operators of an order [before] with the equality [same]. *)
Definition in_order {A} (same before : A -> A -> Prop) (op : cop) (a b : A) : Prop :=
  match op with
  | CEq => same a b
  | CNe => ~ same a b
  | CLt => before a b
  | CGt => before b a
  | CLe => before a b \/ same a b
  | CGe => before b a \/ same a b
  end.
(** The operators derived from [<] whatever relation that is. *)
Definition from_less {A} (same less : A -> A -> Prop) (op : cop) (a b : A) : Prop :=
  match op with
  | CEq => same a b
  | CNe => ~ same a b
  | CLt => less a b
  | CGt => less b a
  | CLe => ~ less b a
  | CGe => ~ less a b
  end.
(** A strict total order on the objects in [D]. *)
Definition strict_order {A} (D : A -> Prop) (same before : A -> A -> Prop) : Prop :=
  (forall a b, D a -> D b -> before a b -> ~ same a b) /\
  (forall a b, D a -> D b -> before a b -> ~ before b a) /\
  (forall a b c, D a -> D b -> D c -> before a b -> before b c -> before a c) /\
  (forall a b, D a -> D b -> before a b \/ same a b \/ before b a).
(** Strings: by their characters. *)
Definition string_in (f : fstr) : Prop := (exists n, wf_fs n f) /\ Forall is_char (fs_chars f).
Definition text_same (f g : fstr) : Prop := fs_chars f = fs_chars g.
Definition text_before (f g : fstr) : Prop := lex_lt (fs_chars f) (fs_chars g).
(** Iterators: by position; network iterators then by the length of the prefix. *)
Definition pos_same (v : ver) (a b : ait) : Prop := ait_pos v a = ait_pos v b.
Definition pos_before (v : ver) (a b : ait) : Prop := ait_pos v a < ait_pos v b.
Definition npos_same (v : ver) (a b : nit) : Prop := nit_pos v a = nit_pos v b /\ ni_prefix a = ni_prefix b.
Definition npos_before (v : ver) (a b : nit) : Prop := nit_pos v a < nit_pos v b \/ nit_pos v a = nit_pos v b /\ ni_prefix a < ni_prefix b.
