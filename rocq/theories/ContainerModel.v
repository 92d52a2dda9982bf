(** The two small containers of the library: byte_array and optional. *)
From Verif Require Import Base Uint128OpsModel.

(** ** byte_array<N>, byte-array.hpp 33-259, and its specialisation for N = 0, 262-364 *)
(** An array is the list of its [N] bytes; variables are named by numbers.
    byte_array<0> has no storage and data() is null. *)
Definition ba_store := Z -> list Z.
Definition ba_set (s : ba_store) (p : Z) (a : list Z) : ba_store := fun k => if k =? p then a else s k.

(** empty 127-129 and 310-312, size 136-138 and 314-316, max_size 145-147 and 318-320. *)
Definition ba_empty (N : Z) : bool := if N =? 0 then true else false.
Definition ba_size (N : Z) : Z := N.
Definition ba_max_size (N : Z) : Z := N.
(** at 178-191 and 330-336 (no check of the index), operator[] 156-169 and 322-328. *)
Definition ba_at (N : Z) (a : list Z) (n : Z) : res Z := if N =? 0 then UB NullDeref else rd a n.
Definition ba_index (N : Z) (a : list Z) (n : Z) : res Z := ba_at N a n.
(** [a[n] = x] through the reference returned by at. *)
Definition ba_put (N : Z) (a : list Z) (n x : Z) : res (list Z) := if N =? 0 then UB NullDeref else wr a n x.
(** front 198-209 and 338-344, back 216-227 and 346-352; [N - 1] is computed in size_t. *)
Definition ba_front (N : Z) (a : list Z) : res Z := if N =? 0 then UB NullDeref else rd a 0.
Definition ba_back (N : Z) (a : list Z) : res Z := if N =? 0 then UB NullDeref else rd a (w64 (N - 1)).

(** Walking from begin() 55-57 (278-280) to end() 64-66 (282-284): positions are
    offsets from data(); the null pointers of byte_array<0> are equal.  rbegin()
    73-75 to rend() 82-84 are std::reverse_iterators, whose [*] reads before the
    position. *)
Definition ba_begin (N : Z) : Z := 0.
Definition ba_end (N : Z) : Z := if N =? 0 then 0 else 0 + N.
Fixpoint ba_walk (fuel : nat) (a : list Z) (it end_ : Z) : res (list Z) :=
  if it =? end_ then Ret []
  else match fuel with
       | O => UB OutOfFuel
       | S fuel' => x <- rd a it ;; l <- ba_walk fuel' a (it + 1) end_ ;; Ret (x :: l)
       end.
Fixpoint ba_rwalk (fuel : nat) (a : list Z) (it rend_ : Z) : res (list Z) :=
  if it =? rend_ then Ret []
  else match fuel with
       | O => UB OutOfFuel
       | S fuel' => x <- rd a (it - 1) ;; l <- ba_rwalk fuel' a (it - 1) rend_ ;; Ret (x :: l)
       end.
Definition ba_elements (N : Z) (a : list Z) : res (list Z) := ba_walk (Z.to_nat N) a (ba_begin N) (ba_end N).
Definition ba_reversed (N : Z) (a : list Z) : res (list Z) := ba_rwalk (Z.to_nat N) a (ba_end N) (ba_begin N).

(** swap 252-258 (362-363 does nothing): [this] is variable [p], [other] is [q]. *)
Fixpoint ba_swap_loop (steps : nat) (i : Z) (s : ba_store) (p q : Z) : res ba_store :=
  match steps with
  | O => Ret s
  | S steps' =>
      tmp <- rd (s p) i ;;
      x <- rd (s q) i ;;
      a <- wr (s p) i x ;;
      let s := ba_set s p a in
      b <- wr (s q) i tmp ;;
      ba_swap_loop steps' (i + 1) (ba_set s q b) p q
  end.
Definition ba_swap (N : Z) (s : ba_store) (p q : Z) : res ba_store :=
  if N =? 0 then Ret s else ba_swap_loop (Z.to_nat N) 0 s p q.

(** operator== 379-386, operator!= 401-403. *)
Fixpoint ba_eq_loop (steps : nat) (N i : Z) (a b : list Z) : res bool :=
  match steps with
  | O => Ret true
  | S steps' => x <- ba_index N a i ;; y <- ba_index N b i ;;
      if negb (x =? y) then Ret false else ba_eq_loop steps' N (i + 1) a b
  end.
Definition ba_eq (N : Z) (a b : list Z) : res bool := ba_eq_loop (Z.to_nat N) N 0 a b.
(** operator<=> 423-430. *)
Fixpoint ba_cmp_loop (steps : nat) (N i : Z) (a b : list Z) : res comparison :=
  match steps with
  | O => Ret Eq
  | S steps' => x <- ba_index N a i ;; y <- ba_index N b i ;;
      match x ?= y with Eq => ba_cmp_loop steps' N (i + 1) a b | c => Ret c end
  end.
Definition ba_cmp (N : Z) (a b : list Z) : res comparison := ba_cmp_loop (Z.to_nat N) N 0 a b.
(** operator< 447-456 (it reads _data, so it does not exist for N = 0). *)
Fixpoint ba_lt_loop (steps : nat) (i : Z) (a b : list Z) : res bool :=
  match steps with
  | O => Ret false
  | S steps' => x <- rd a i ;; y <- rd b i ;;
      if x <? y then Ret true else if negb (x =? y) then Ret false else ba_lt_loop steps' (i + 1) a b
  end.
Definition ba_lt (N : Z) (a b : list Z) : res bool := ba_lt_loop (Z.to_nat N) 0 a b.
(** The relational operators: in C++20 rewritten with <=>, otherwise > 467-469,
    <= 480-482, >= 493-495. *)
Definition ba_rel (sp : bool) (N : Z) (op : cop) (a b : list Z) : res bool :=
  match op with
  | CEq => ba_eq N a b
  | CNe => r <- ba_eq N a b ;; Ret (negb r)
  | CLt => if sp then c <- ba_cmp N a b ;; Ret (match c with Lt => true | _ => false end) else ba_lt N a b
  | CGt => if sp then c <- ba_cmp N a b ;; Ret (match c with Gt => true | _ => false end) else ba_lt N b a
  | CLe => if sp then c <- ba_cmp N a b ;; Ret (match c with Gt => false | _ => true end) else r <- ba_lt N b a ;; Ret (negb r)
  | CGe => if sp then c <- ba_cmp N a b ;; Ret (match c with Lt => false | _ => true end) else r <- ba_lt N a b ;; Ret (negb r)
  end.

(** ** optional<T>, optional.hpp 35-241 *)
(** The two members; [dflt] is [value_type{}].  Moves of the library's value types
    are copies. *)
Record opt (T : Type) := mk_opt { o_has : bool; o_val : T }.
Arguments mk_opt {T}. Arguments o_has {T}. Arguments o_val {T}.
(** Constructors 42-81. *)
Definition opt_default {T} (dflt : T) : opt T := mk_opt false dflt.
Definition opt_null {T} (dflt : T) : opt T := mk_opt false dflt.
Definition opt_of {T} (x : T) : opt T := mk_opt true x.
Definition opt_copy {T} (o : opt T) : opt T := mk_opt (o_has o) (o_val o).
(** has_value 186-188, operator bool 175-177; value 198-236, operator* 152-166 and
    operator-> 128-142 return the member without looking at the flag. *)
Definition opt_has {T} (o : opt T) : bool := o_has o.
Definition opt_bool {T} (o : opt T) : bool := opt_has o.
Definition opt_value {T} (o : opt T) : T := o_val o.
(** Variables of type optional, and the statements that change them: = nullptr
    88-92, = value 100-104, = another optional 112-118 (skipped when it is the same
    object), and a write through value() or operator*. *)
Definition opt_store (T : Type) := Z -> opt T.
Definition opt_set {T} (s : opt_store T) (i : Z) (o : opt T) : opt_store T := fun k => if k =? i then o else s k.
Inductive opt_stmt (T : Type) := SNull (i : Z) | SValue (i : Z) (x : T) | SCopy (i j : Z) | SWrite (i : Z) (x : T).
Arguments SNull {T}. Arguments SValue {T}. Arguments SCopy {T}. Arguments SWrite {T}.
Definition opt_step {T} (dflt : T) (s : opt_store T) (st : opt_stmt T) : opt_store T :=
  match st with
  | SNull i => opt_set (opt_set s i (mk_opt false (o_val (s i)))) i (mk_opt false dflt)
  | SValue i x => let s := opt_set s i (mk_opt true (o_val (s i))) in opt_set s i (mk_opt (o_has (s i)) x)
  | SCopy i j =>
      if i =? j then s
      else let s := opt_set s i (mk_opt (o_has (s j)) (o_val (s i))) in opt_set s i (mk_opt (o_has (s i)) (o_val (s j)))
  | SWrite i x => opt_set s i (mk_opt (o_has (s i)) x)
  end.
Definition opt_run {T} (dflt : T) (s : opt_store T) (p : list (opt_stmt T)) : opt_store T := fold_left (opt_step dflt) p s.
