(** What a correct conversion between integers and IEEE doubles means. *)
From Coq Require Import Reals.
From Flocq Require Import Core IEEE754.Binary IEEE754.Bits.
From Verif Require Import Base FloatModel.

(** The real number a finite double or float stands for. *)
Definition dval (x : double) : R := B2R 53 1024 x.
Definition fval (x : float) : R := B2R 24 128 x.
Definition dfinite (x : double) : Prop := is_finite 53 1024 x = true.
Definition ffinite (x : float) : Prop := is_finite 24 128 x = true.

(** No finite double is closer to [x] than [r] is. *)
Definition closest (x : R) (r : double) : Prop :=
  dfinite r /\ forall y, dfinite y -> (Rabs (dval r - x) <= Rabs (dval y - x))%R.
(** [r] is [x] rounded to nearest, ties to even, in the IEEE sense. *)
Definition nearest_even (x : R) (r : double) : Prop :=
  dfinite r /\ dval r = round radix2 (FLT_exp (-1074) 53) ZnearestE x.
(** Some finite double is exactly [x]. *)
Definition exact (x : R) : Prop := exists y, dfinite y /\ dval y = x.
