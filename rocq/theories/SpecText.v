(** Independent specification of numerals in positional notation (characters
    are their ASCII codes). *)
From Verif Require Import Base.

(** [digit_char r c d]: character [c] is the (lower case) digit of value [d] in
    radix [r]. *)
Definition digit_char (r c d : Z) : Prop :=
  0 <= d < r /\ ((d <= 9 /\ c = 48 + d) \/ (10 <= d <= 35 /\ c = 97 + (d - 10))).

(** [digits_of r s ds]: [s] is the string of the digit values [ds]. *)
Definition digits_of (r : Z) (s ds : list Z) : Prop := Forall2 (digit_char r) s ds.

(** Value of a list of digit values, most significant first. *)
Fixpoint horner (r : Z) (acc : Z) (ds : list Z) : Z :=
  match ds with [] => acc | d :: ds' => horner r (acc * r + d) ds' end.

(** Canonical numeral: non-empty, no superfluous leading zero. *)
Definition numeral (r : Z) (s : list Z) (v : Z) : Prop :=
  exists ds, digits_of r s ds /\ ds <> [] /\ (hd 0 ds = 0 -> length ds = 1%nat) /\ horner r 0 ds = v.

Definition is_dec_digit (c : Z) : Prop := 48 <= c <= 57.
