(** Independent specification of addresses as values and of their order. *)
From Verif Require Import Base SpecAddr SpecStr SpecV6 AddressModel.

(** The number an address stands for. *)
Definition val (a : addr) : Z := be_value (a_bytes a).

(** Addresses that can exist: 4 or 16 bytes, and for IPv6 a scope id that is
    empty or an allowed text of at most 16 [char]s. *)
Definition wf_addr (v : ver) (a : addr) : Prop :=
  bytes_ok v (a_bytes a) /\
  match v with V4 => a_scope a = [] | V6 => storable (a_scope a) /\ Forall is_char (a_scope a) end.

(** Numeric order first, then the scope ids in lexicographic order. *)
Definition addr_before (a b : addr) : Prop :=
  val a < val b \/ (val a = val b /\ lex_lt (a_scope a) (a_scope b)).
