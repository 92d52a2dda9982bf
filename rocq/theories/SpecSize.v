(** Hosts with another size_t: specification.  '/' is 47. *)
From Verif Require Import Base SpecText SpecV4 SpecAddr NetworkModel SpecNet SpecLoose SpecNetErr.

(** The widths of size_t considered, in bits. *)
Definition size_bits (w : Z) : Prop := 32 <= w <= 64.

(** A host whose size_t has [w] bits reads the network text [ts] as [ts']: a
    prefix number is replaced by its remainder modulo 2^w. *)
Inductive read_as (w : Z) (v : ver) : list tok -> list tok -> Prop :=
| ra_number r m x m' : before_slash v r -> dec_text m x -> dec_text m' (x mod 2 ^ w) -> read_as w v (chars (r ++ 47 :: m)) (chars (r ++ 47 :: m'))
| ra_other ts : (forall r m x, ts = chars (r ++ 47 :: m) -> before_slash v r -> ~ dec_text m x) -> read_as w v ts ts.

(** The mask texts and network texts taken, as in SpecLoose. *)
Definition loose_mask_z (w : Z) (v : ver) (m : list Z) (p : Z) : Prop :=
  (exists x, dec_text m x /\ p = x mod 2 ^ w /\ p <= width v) \/
  (v = V4 /\ exists q, dotted_quad m q /\
     ((1 <= p <= 32 /\ be_value q = 2 ^ 32 - 2 ^ (32 - p)) \/ (1 <= p <= 31 /\ be_value q = 2 ^ (32 - p) - 1))).
Definition net_loose_z (w : Z) (v : ver) (s t : list Z) (p : Z) : Prop :=
  (~ In 47 (firstn (Z.to_nat (longest_address v + 1)) s) /\ before_nul (firstn (Z.to_nat (longest_address v)) s) t /\ p = width v) \/
  (exists r m, s = r ++ 47 :: m /\ ~ In 47 r /\ zlen r <= longest_address v /\ before_nul r t /\ loose_mask_z w v m p).

(** Texts without a prefix number of 2^w or more. *)
Definition small_number (w : Z) (ts : list tok) : Prop := forall r m x, ts = chars (r ++ 47 :: m) -> dec_text m x -> x < 2 ^ w.
(** A difference of prefix lengths whose sum with that of the network does not fit in size_t. *)
Definition overflows (w : Z) (v : ver) (n : net) (d : Z) (np : option Z) : Prop := n_prefix n < width v /\ np = None /\ 2 ^ w <= n_prefix n + d.
(** Arguments of type size_t. *)
Definition size_args (w d : Z) (np : option Z) : Prop := 0 <= d < 2 ^ w /\ match np with Some q => 0 <= q < 2 ^ w | None => True end.
