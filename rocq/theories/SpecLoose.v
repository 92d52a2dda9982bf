(** The texts the parsers really take, characters after NUL, long texts and
    large prefix numbers included: specification.  '.' is 46, '/' 47, '%' 37,
    ':' 58. *)
From Verif Require Import Base SpecText SpecV4 SpecAddr SpecV6 SpecStr NetworkModel SpecNet.

(** [t] is the text [s] up to its first NUL. *)
Definition before_nul (s t : list Z) : Prop := ~ In 0 t /\ (s = t \/ exists r, s = t ++ 0 :: r).

(** [v6_loose s gs]: the pieces between colons, each cut at its first NUL, form
    an address text.  What follows the NUL still counts for the length of the
    piece and for deciding that the last one is a dotted quad. *)
Definition v6_loose (s gs : list Z) : Prop :=
  exists ps q ps' q', s = join (ps ++ [q]) /\
    Forall (fun p => ~ In 58 p /\ zlen p <= 4) ps /\ ~ In 58 q /\
    Forall2 before_nul ps ps' /\ before_nul q q' /\
    ((~ In 46 q /\ zlen q <= 4) \/ (In 46 q' /\ zlen q <= 16)) /\
    v6_text (join (ps' ++ [q'])) gs /\ ~ long_quad (join (ps' ++ [q'])).
(** With a scope id: at most 16 allowed characters, cut at the first NUL, not empty. *)
Definition v6_loose_scoped (s gs t : list Z) : Prop :=
  (~ In 37 s /\ v6_loose s gs /\ t = []) \/
  (exists a u, s = a ++ 37 :: u /\ ~ In 37 a /\ v6_loose a gs /\
     zlen u <= 16 /\ Forall scope_char u /\ before_nul u t /\ t <> []).

(** A mask text and the prefix length the parser takes it for: a number is
    reduced modulo 2^64. *)
Definition loose_mask (v : ver) (m : list Z) (p : Z) : Prop :=
  (exists x, dec_text m x /\ p = x mod 2 ^ 64 /\ p <= width v) \/
  (v = V4 /\ exists q, dotted_quad m q /\
     ((1 <= p <= 32 /\ be_value q = 2 ^ 32 - 2 ^ (32 - p)) \/ (1 <= p <= 31 /\ be_value q = 2 ^ (32 - p) - 1))).

(** A network text, the address text [t] and the prefix length the parser takes
    from it: without '/' among the first 16 (58) characters, the first 15 (57)
    characters; otherwise what is before '/', cut at its first NUL. *)
Definition longest_address (v : ver) : Z := match v with V4 => 15 | V6 => 57 end.
Definition net_loose (v : ver) (s t : list Z) (p : Z) : Prop :=
  (~ In 47 (firstn (Z.to_nat (longest_address v + 1)) s) /\ before_nul (firstn (Z.to_nat (longest_address v)) s) t /\ p = width v) \/
  (exists r m, s = r ++ 47 :: m /\ ~ In 47 r /\ zlen r <= longest_address v /\ before_nul r t /\ loose_mask v m p).
