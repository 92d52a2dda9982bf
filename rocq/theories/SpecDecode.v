(** What one call of a character reader should do; [enc] and [encode] of SpecError are
    the encoding forms of Unicode. *)
From Verif Require Import Base SpecStr StreamModel SpecError.

(** Unicode scalar values. *)
Definition code_point (c : Z) : Prop := c = 0 \/ scalar c.
(** An ASCII character, or the error that carries the code point. *)
Definition read_as (c : Z) : tok := if c <? 128 then Ch c else Bad unexpected_symbol c.

(** How many units the first unit of a sequence announces. *)
Definition lead8 (b : Z) : option Z :=
  if b <? 0x80 then Some 1 else if b <? 0xC0 then None else if b <? 0xE0 then Some 2
  else if b <? 0xF0 then Some 3 else if b <? 0xF8 then Some 4 else None.
Definition high (u : Z) : Prop := 0xD800 <= u < 0xDC00.
Definition low (u : Z) : Prop := 0xDC00 <= u < 0xE000.
Definition span (T : chtype) (u : Z) : Z :=
  match T with
  | TChar8 => match lead8 u with Some n => n | None => 1 end
  | TChar16 => if (0xD800 <=? u) && (u <? 0xDC00) then 2 else 1
  | _ => 1
  end.
(** The unit at index [i], if before the end. *)
Definition unit_at (s : list Z) (e i : Z) : option Z := if i <? e then nth_error s (Z.to_nat i) else None.
(** Sequences the readers take for ill-formed: a byte that cannot start one, or the last
    unit announced is missing or of the wrong kind. *)
Definition broken (T : chtype) (s : list Z) (e it u : Z) : Prop :=
  match T with
  | TChar8 => match lead8 u with
              | None => True
              | Some n => 1 < n /\ match unit_at s e (it + n - 1) with Some t => ~ cont t | None => True end
              end
  | TChar16 => high u /\ match unit_at s e (it + 1) with Some t => ~ low t | None => True end
  | _ => False
  end.
