(** What is expected of the operators in Uint128OpsModel, in terms of the
    numbers the operands stand for. *)
From Verif Require Import Base Uint128Model SpecInt Uint128OpsModel.

(** The values of the built-in integer types of the platform (char and wchar_t
    signed, wchar_t of 32 bits, long of 64). *)
Definition in_type (t : ity) (x : Z) : Prop :=
  match t with
  | IBool => 0 <= x < 2
  | IChar | ISChar => - 2 ^ 7 <= x < 2 ^ 7
  | IUChar | IChar8 => 0 <= x < 2 ^ 8
  | IShort => - 2 ^ 15 <= x < 2 ^ 15
  | IUShort | IChar16 => 0 <= x < 2 ^ 16
  | IInt | IWchar => - 2 ^ 31 <= x < 2 ^ 31
  | IUInt | IChar32 => 0 <= x < 2 ^ 32
  | ILong | ILLong => - 2 ^ 63 <= x < 2 ^ 63
  | IULong | IULLong => 0 <= x < 2 ^ 64
  end.
(** Operators on numbers below 2^128; dividing by 0 gives 0 and the dividend as
    the rest. *)
Definition op_Z (op : bop) (x y : Z) : Z :=
  match op with
  | OAdd => (x + y) mod 2 ^ 128
  | OSub => (x - y) mod 2 ^ 128
  | OMul => (x * y) mod 2 ^ 128
  | ODiv => if y =? 0 then 0 else x / y
  | OMod => if y =? 0 then x else x mod y
  | OAnd => Z.land x y
  | OOr => Z.lor x y
  | OXor => Z.lxor x y
  end.
Definition rel_Z (op : cop) (x y : Z) : Prop :=
  match op with CEq => x = y | CNe => x <> y | CLt => x < y | CGt => x > y | CLe => x <= y | CGe => x >= y end.
(** The variables hold representable numbers. *)
Definition wf_store (s : store) : Prop := forall k, wf128 (s k).
(** [s'] is [s] but for variable [i], which holds [x]. *)
Definition changed (s : store) (i x : Z) (s' : store) : Prop :=
  wf_store s' /\ to_Z (s' i) = x /\ forall k, k <> i -> s' k = s k.
