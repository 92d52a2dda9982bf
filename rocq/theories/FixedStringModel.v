(** Bounded strings.  Models: include/ipaddress/fixed-string.hpp.
    [fs_data] is the whole array of N characters ([fs_length] of them used). *)
From Verif Require Import Base UnicodeModel.

Record fstr := mkfs { fs_length : Z; fs_data : list Z }.

(** Default constructor, fixed-string.hpp 38-47. *)
Definition fs_empty (n : nat) : fstr := mkfs 0 (repeat 0 n).

(** Constructors from an array of N+1 units, fixed-string.hpp 58-70 (throwing) and 81-94 (with
    an error code): the loop [for i < N]; [Err] stands for the raised or
    reported error.  Note the loop does not test [it < end].  The throwing
    loop stores the character before testing it, so does this model.
    fixed_string<0> (379-505) is the case N = 0. *)
Fixpoint fs_fill (k : nat) (next : reader) (data : list Z) (n it i : Z) (f : fstr) : res fstr :=
  match k with
  | O => Ret f
  | S k' =>
      '(t, it) <- next data n it ;;
      match t with
      | Bad e v => Err e v
      | Ch c =>
          d <- wr (fs_data f) i c ;;
          if c =? 0 then Ret (mkfs (fs_length f) d)
          else fs_fill k' next data n it (i + 1) (mkfs (fs_length f + 1) d)
      end
  end.
Definition fs_make (next : reader) (n : nat) (data : list Z) : res fstr :=
  fs_fill n next data (Z.of_nat n) 0 0 (fs_empty n).

(** Observers fixed-string.hpp 207-302. *)
Definition fs_size (f : fstr) : Z := fs_length f.
Definition fs_empty_b (f : fstr) : bool := fs_size f =? 0.
Definition fs_at (f : fstr) (i : Z) : res Z := rd (fs_data f) i.
Definition fs_front (f : fstr) : res Z := rd (fs_data f) 0.
Definition fs_back (f : fstr) : res Z := rd (fs_data f) (zlen (fs_data f) - 1).
(** The characters [begin(), end()), fixed-string.hpp 105-120. *)
Definition fs_chars (f : fstr) : list Z := firstn (Z.to_nat (fs_length f)) (fs_data f).

(** A loop over begin() and end(), 105-120, or cbegin() and cend(), 157-172; and over rbegin() and
    rend(), 131-146, or crbegin() and crend(), 183-198, which read the element
    before their position (std::reverse_iterator).  Positions are offsets in the array. *)
Definition fs_begin (f : fstr) : Z := 0.
Definition fs_end (f : fstr) : Z := 0 + fs_length f.
Fixpoint fs_walk (k : nat) (f : fstr) (it : Z) : res (list Z) :=
  if it =? fs_end f then Ret []
  else match k with
       | O => UB OutOfFuel
       | S k' => c <- rd (fs_data f) it ;; r <- fs_walk k' f (it + 1) ;; Ret (c :: r)
       end.
Fixpoint fs_rwalk (k : nat) (f : fstr) (base : Z) : res (list Z) :=
  if base =? fs_begin f then Ret []
  else match k with
       | O => UB OutOfFuel
       | S k' => c <- rd (fs_data f) (base - 1) ;; r <- fs_rwalk k' f (base - 1) ;; Ret (c :: r)
       end.

(** compare, fixed-string.hpp 313-331.  [char] is a signed 8-bit value, the difference fits. *)
Fixpoint fs_compare_loop (k : nat) (i : Z) (a b : fstr) : res Z :=
  if (i <? fs_size a) && (i <? fs_size b) then
    match k with
    | O => UB OutOfFuel
    | S k' =>
        c1 <- fs_at a i ;; c2 <- fs_at b i ;;
        if negb (c1 =? c2) then int32 (c1 - c2) else fs_compare_loop k' (i + 1) a b
    end
  else if (i =? fs_size a) && (i =? fs_size b) then Ret 0
  else if (i =? fs_size a) && (i <? fs_size b) then Ret (-1)
  else Ret 1.
Definition fs_compare (a b : fstr) : res Z :=
  fs_compare_loop (length (fs_data a)) 0 a b.

(** operator==, fixed-string.hpp 519-522; <=> 554-563 and < 578-581 on the compare result. *)
Definition fs_eqb (a b : fstr) : res bool := c <- fs_compare a b ;; Ret (c =? 0).
Definition fs_cmp (a b : fstr) : res comparison :=
  c <- fs_compare a b ;; Ret (if c =? 0 then Eq else if c <? 0 then Lt else Gt).
Definition fs_ltb (a b : fstr) : res bool := c <- fs_compare a b ;; Ret (c <? 0).

(** hash, fixed-string.hpp 340-357, for a size_t of 64 ([true]) or 32 bits;
    of fixed_string<0>, 499-501. *)
Fixpoint fs_hash_loop (k : nat) (i : Z) (bits prime value : Z) (f : fstr) : res Z :=
  match k with
  | O => Ret value
  | S k' => c <- fs_at f i ;;
            fs_hash_loop k' (i + 1) bits prime
              ((Z.lxor value (c mod 2 ^ bits) * prime) mod 2 ^ bits) f
  end.
Definition fs_hash (is64 : bool) (f : fstr) : res Z :=
  if zlen (fs_data f) =? 0 then Ret 0
  else fs_hash_loop (Z.to_nat (fs_size f)) 0 (if is64 then 64 else 32)
    (if is64 then 1099511628211 else 16777619)
    (if is64 then 14695981039346656037 else 2166136261) f.

(** swap, fixed-string.hpp 366-376. *)
Fixpoint fs_swap_loop (k : nat) (i : Z) (a b : list Z) : res (list Z * list Z) :=
  match k with
  | O => Ret (a, b)
  | S k' => x <- rd a i ;; y <- rd b i ;;
            a <- wr a i y ;; b <- wr b i x ;; fs_swap_loop k' (i + 1) a b
  end.
Definition fs_swap (a b : fstr) : res (fstr * fstr) :=
  let count := if fs_size a <? fs_size b then fs_size b else fs_size a in
  '(x, y) <- fs_swap_loop (Z.to_nat count) 0 (fs_data a) (fs_data b) ;;
  Ret (mkfs (fs_length b) x, mkfs (fs_length a) y).
