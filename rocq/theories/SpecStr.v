(** Independent specifications about character sequences. *)
From Verif Require Import Base.

(** Strict lexicographic order: a proper prefix, or a smaller character at the
    first difference. *)
Definition lex_lt (a b : list Z) : Prop :=
  exists p, (exists y b', a = p /\ b = p ++ y :: b') \/
            (exists x y a' b', a = p ++ x :: a' /\ b = p ++ y :: b' /\ x < y).

(** [c_string n data s]: [s] is what precedes the first NUL among the first [n]
    units of [data]. *)
Definition c_string (n : nat) (data s : list Z) : Prop :=
  ~ In 0 s /\ exists rest, data = s ++ rest /\
    (length s = n \/ (length s < n)%nat /\ exists rest', rest = 0 :: rest').

Definition is_ascii (c : Z) : Prop := 0 <= c < 128.
Definition is_char (c : Z) : Prop := -128 <= c < 128.
Definition is_u8 (c : Z) : Prop := 0 <= c < 256.
Definition is_u16 (c : Z) : Prop := 0 <= c < 2 ^ 16.
Definition is_u32 (c : Z) : Prop := 0 <= c < 2 ^ 32.

(** Byte sequences that decode to one ASCII character when neither the minimal
    length nor the continuation markers of inner bytes are checked.  Strict
    UTF-8 (RFC 3629) allows the first form only. *)
Definition cont (t : Z) : Prop := 0x80 <= t < 0xC0.
Definition inner (x v : Z) : Prop := (cont x /\ v = x - 0x80) \/ (~ cont x /\ v = 0).
Inductive lax_seq : list Z -> Z -> Prop :=
| lax1 c : is_ascii c -> lax_seq [c] c
| lax2 l t c : l = 0xC0 \/ l = 0xC1 -> cont t -> c = (l - 0xC0) * 64 + (t - 0x80) -> lax_seq [l; t] c
| lax3 x v t c : inner x v -> v <= 1 -> cont t -> c = v * 64 + (t - 0x80) -> lax_seq [0xE0; x; t] c
| lax4 x y v t c : inner x 0 -> inner y v -> v <= 1 -> cont t -> c = v * 64 + (t - 0x80) ->
    lax_seq [0xF0; x; y; t] c.
Inductive lax_utf8 : list Z -> list Z -> Prop :=
| lu_nil : lax_utf8 [] []
| lu_cons seq c s p : lax_seq seq c -> lax_utf8 s p -> lax_utf8 (seq ++ s) (c :: p).
