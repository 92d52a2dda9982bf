(** Shared vocabulary of the model: outcomes, error codes, checked arrays,
    machine integers and the token stream read by the parsers. *)
From Coq Require Export List ZArith Bool Lia.
Export ListNotations.
Open Scope Z_scope.

(** Error codes.  Models: include/ipaddress/errors.hpp 52-94 (enum error_code). *)
Inductive ec :=
| no_error | empty_address | empty_netmask | invalid_netmask
| netmask_pattern_mixes_zeroes_and_ones | has_host_bits_set
| only_one_slash_permitted | string_is_too_long
| empty_octet | expected_4_octets | leading_0_are_not_permitted
| octet_more_3_characters | octet_has_invalid_symbol | octet_exceeded_255
| least_3_parts | most_8_colons_permitted | part_is_more_4_chars
| part_has_invalid_symbol | most_one_double_colon_permitted
| leading_colon_only_permitted_as_part_of_double_colon
| trailing_colon_only_permitted_as_part_of_double_colon
| expected_at_most_7_other_parts_with_double_colon
| exactly_8_parts_expected_without_double_colon
| scope_id_is_too_long | invalid_scope_id
| invalid_version | invalid_prefixlen_diff | new_prefix_must_be_shorter
| new_prefix_must_be_longer | cannot_set_prefixlen_diff_and_new_prefix
| not_contained_network
| unexpected_symbol | wrong_encoding_sequence.

Definition ec_eq_dec (a b : ec) : {a = b} + {a <> b}.
Proof. decide equality. Defined.
Definition ec_eqb (a b : ec) : bool := if ec_eq_dec a b then true else false.

(** Kinds of undefined behaviour (and failed [assert]) the model can exhibit.
    [OutOfFuel] is not C++ behaviour: it is the explicit outcome of a bounded
    model loop whose bound was too small; theorems exclude it like the others. *)
Inductive ub :=
| OutOfBounds | BadShift | DivByZero | SignedOverflow | AssertFailed
| NullDeref | OutOfFuel.

(** Outcome of a call: a value, a reported error (code and the numeric detail
    that accompanies it), or undefined behaviour. *)
Inductive res (A : Type) :=
| Ret (a : A)
| Err (e : ec) (v : Z)
| UB (u : ub).
Arguments Ret {A} a.
Arguments Err {A} e v.
Arguments UB {A} u.

Definition bind {A B} (m : res A) (k : A -> res B) : res B :=
  match m with Ret a => k a | Err e v => Err e v | UB u => UB u end.
Notation "x <- m ;; k" := (bind m (fun x => k))
  (at level 61, m at next level, right associativity).
Notation "' p <- m ;; k" := (bind m (fun p => k))
  (at level 61, p pattern, m at next level, right associativity).

(** [is_defined r]: the call did not exhibit undefined behaviour. *)
Definition is_defined {A} (r : res A) : Prop :=
  match r with UB _ => False | _ => True end.

(** ** Checked arrays *)
Definition zlen {A} (l : list A) : Z := Z.of_nat (length l).

Definition rd {A} (a : list A) (i : Z) : res A :=
  if i <? 0 then UB OutOfBounds
  else match nth_error a (Z.to_nat i) with
       | Some x => Ret x
       | None => UB OutOfBounds
       end.

Fixpoint upd {A} (a : list A) (i : nat) (x : A) : option (list A) :=
  match a, i with
  | [], _ => None
  | _ :: a', O => Some (x :: a')
  | y :: a', S i' => match upd a' i' x with
                     | Some a'' => Some (y :: a'')
                     | None => None
                     end
  end.

Definition wr {A} (a : list A) (i : Z) (x : A) : res (list A) :=
  if i <? 0 then UB OutOfBounds
  else match upd a (Z.to_nat i) x with
       | Some a' => Ret a'
       | None => UB OutOfBounds
       end.

(** ** Machine integers *)
Definition w8 (x : Z) : Z := x mod 2 ^ 8.
Definition w16 (x : Z) : Z := x mod 2 ^ 16.
Definition w32 (x : Z) : Z := x mod 2 ^ 32.
Definition w64 (x : Z) : Z := x mod 2 ^ 64.

(** Native shifts: the count must be non-negative and below the width. *)
Definition shl32 (x n : Z) : res Z :=
  if (0 <=? n) && (n <? 32) then Ret (w32 (Z.shiftl x n)) else UB BadShift.
Definition shr32 (x n : Z) : res Z :=
  if (0 <=? n) && (n <? 32) then Ret (Z.shiftr x n) else UB BadShift.
Definition shl64 (x n : Z) : res Z :=
  if (0 <=? n) && (n <? 64) then Ret (w64 (Z.shiftl x n)) else UB BadShift.
Definition shr64 (x n : Z) : res Z :=
  if (0 <=? n) && (n <? 64) then Ret (Z.shiftr x n) else UB BadShift.

(** Native unsigned division. *)
Definition udiv (x y : Z) : res Z := if y =? 0 then UB DivByZero else Ret (x / y).
Definition umod (x y : Z) : res Z := if y =? 0 then UB DivByZero else Ret (x mod y).

(** Range check of an [int] result. *)
Definition int32 (x : Z) : res Z :=
  if (- 2 ^ 31 <=? x) && (x <? 2 ^ 31) then Ret x else UB SignedOverflow.

(** [assert(c)]. *)
Definition assert (c : bool) : res unit := if c then Ret tt else UB AssertFailed.

(** ** Characters and tokens *)
(** One call of [internal::next_char_or_error] on the input: either a character
    or an encoding error with the offending symbol (unicode.hpp 275-278). *)
Inductive tok := Ch (c : Z) | Bad (e : ec) (v : Z).

Definition chars (s : list Z) : list tok := map Ch s.

(** ** Address families *)
Inductive ver := V4 | V6.
Definition ver_eqb (a b : ver) : bool :=
  match a, b with V4, V4 | V6, V6 => true | _, _ => false end.
(** base_max_prefixlen and base_size (base-v4.hpp 36-38, base-v6.hpp 48-50). *)
Definition width (v : ver) : Z := match v with V4 => 32 | V6 => 128 end.
Definition nbytes (v : ver) : nat := match v with V4 => 4%nat | V6 => 16%nat end.

(** Textual formats: ip-address-base.hpp 40-44. *)
Inductive format := full | compact | compressed.
