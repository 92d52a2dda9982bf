(** Specification of byte_array and optional. *)
From Verif Require Import Base SpecAddr Uint128OpsModel ContainerModel.

(** The values of byte_array<N>. *)
Definition ba_array (N : Z) (a : list Z) : Prop := zlen a = N /\ Forall is_byte a.
(** The option an optional stands for. *)
Definition as_option {T} (o : opt T) : option T := if o_has o then Some (o_val o) else None.
(** The statements of the model on variables holding options; a write through
    the reference to an empty one does not make it full. *)
Definition spec_step {T} (s : Z -> option T) (st : opt_stmt T) (k : Z) : option T :=
  match st with
  | SNull i => if k =? i then None else s k
  | SValue i x => if k =? i then Some x else s k
  | SCopy i j => if k =? i then s j else s k
  | SWrite i x => if k =? i then match s i with Some _ => Some x | None => None end else s k
  end.
Fixpoint spec_run {T} (s : Z -> option T) (p : list (opt_stmt T)) : Z -> option T :=
  match p with [] => s | st :: p' => spec_run (spec_step s st) p' end.
