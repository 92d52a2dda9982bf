(** What is expected of the pairs of overloads, one with an error code and one
    that throws. *)
From Verif Require Import Base UnicodeModel.

(** [agree o t]: the call [o] with an error code returned an object and left a
    code; the call [t] throws iff that code is not no_error, then with that
    code, and otherwise returns that object.  Exceptions thrown and undefined
    behaviour met inside [o] are those of [t]. *)
Definition agree {A} (o : res (A * ec)) (t : res A) : Prop :=
  match o with
  | Ret (a, code) => (code = no_error -> t = Ret a) /\ (code <> no_error -> exists x, t = Err code x)
  | Err e x => t = Err e x
  | UB u => t = UB u
  end.
(** The object returned with an error is [d]. *)
Definition on_error {A} (d : A) (o : res (A * ec)) : Prop := forall a code, o = Ret (a, code) -> code <> no_error -> a = d.
(** What the call does is the same whatever the code variable holds before. *)
Definition blind {A} (F : ec -> res (A * ec)) : Prop := forall c c', F c = F c'.
(** Readers of characters: they do not throw, and never call an error "no error". *)
Definition reader_genuine (next : reader) : Prop :=
  forall data n it, match next data n it with Ret (Bad e _, _) => e <> no_error | Err _ _ => False | _ => True end.
