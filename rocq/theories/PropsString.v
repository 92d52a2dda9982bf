(** Theorems about bounded strings: property C53.  [wf_fs n f]: the array of [f]
    has [n] characters and its length field is between 0 and [n]. *)
From Verif Require Import Base UnicodeModel FixedStringModel SpecStr StrProofs FixedStringProofs.

(** ** C53: fixed_string *)
(** Construction from an array of at least [n] chars keeps what precedes the
    first NUL. *)
Theorem C53_construct : forall n data, (n <= length data)%nat ->
  exists f, fs_make char_next n data = Ret f /\ wf_fs n f /\ c_string n data (fs_chars f) /\
            fs_size f = zlen (fs_chars f).
Proof. exact fs_make_chars. Qed.
Print Assumptions C53_construct.
Theorem C53_contents_unique : forall n data s s', c_string n data s -> c_string n data s' -> s = s'.
Proof. exact c_string_unique. Qed.
Print Assumptions C53_contents_unique.
Example C53_construct_ex : (* "ab\0cd" in an array of 6 units, N = 5 *)
  (match fs_make char_next 5 [97; 98; 0; 99; 100; 0] with Ret f => fs_chars f | _ => [] end) = [97; 98] /\
  c_string 5 [97; 98; 0; 99; 100; 0] [97; 98].
Proof.
  split; [reflexivity|]. split; [cbn; lia|]. exists [0; 99; 100; 0]. split; [reflexivity|right].
  split; [cbn; lia|]. exists [99; 100; 0]. reflexivity.
Qed.

(** Comparison (of any two capacities) is lexicographic and total. *)
Theorem C53_equal : forall n m f g, wf_fs n f -> wf_fs m g ->
  Forall is_char (fs_chars f) -> Forall is_char (fs_chars g) ->
  exists b, fs_eqb f g = Ret b /\ (b = true <-> fs_chars f = fs_chars g).
Proof. exact fs_eqb_ok. Qed.
Print Assumptions C53_equal.
Theorem C53_less : forall n m f g, wf_fs n f -> wf_fs m g ->
  Forall is_char (fs_chars f) -> Forall is_char (fs_chars g) ->
  exists b, fs_ltb f g = Ret b /\ (b = true <-> lex_lt (fs_chars f) (fs_chars g)).
Proof. exact fs_ltb_ok. Qed.
Print Assumptions C53_less.
Theorem C53_three_way : forall n m f g, wf_fs n f -> wf_fs m g ->
  Forall is_char (fs_chars f) -> Forall is_char (fs_chars g) ->
  exists c, fs_cmp f g = Ret c /\
    match c with Eq => fs_chars f = fs_chars g | Lt => lex_lt (fs_chars f) (fs_chars g)
               | Gt => lex_lt (fs_chars g) (fs_chars f) end.
Proof. exact fs_cmp_ok. Qed.
Print Assumptions C53_three_way.
Theorem C53_order_total : forall a b, lex_lt a b \/ a = b \/ lex_lt b a.
Proof. exact lex_total. Qed.
Print Assumptions C53_order_total.
Theorem C53_order_irreflexive : forall a, ~ lex_lt a a.
Proof. exact lex_irrefl. Qed.
Print Assumptions C53_order_irreflexive.
Theorem C53_order_transitive : forall a b c, lex_lt a b -> lex_lt b c -> lex_lt a c.
Proof. exact lex_trans. Qed.
Print Assumptions C53_order_transitive.
Example C53_compare_ex : (* "ab" < "abc" < "b"; different capacities *)
  fs_cmp (mkfs 2 [97; 98; 0; 0]) (mkfs 3 [97; 98; 99]) = Ret Lt /\
  fs_cmp (mkfs 3 [97; 98; 99]) (mkfs 1 [98; 0]) = Ret Lt /\
  fs_eqb (mkfs 1 [97; 0; 0]) (mkfs 1 [97; 7]) = Ret true.
Proof. repeat split; reflexivity. Qed.

Theorem C53_swap : forall n f g, wf_fs n f -> wf_fs n g ->
  exists f' g', fs_swap f g = Ret (f', g') /\ wf_fs n f' /\ wf_fs n g' /\
    fs_chars f' = fs_chars g /\ fs_chars g' = fs_chars f.
Proof. exact fs_swap_ok. Qed.
Print Assumptions C53_swap.
Example C53_swap_ex : fs_swap (mkfs 1 [97; 0; 0]) (mkfs 3 [98; 99; 100]) = Ret (mkfs 3 [98; 99; 100], mkfs 1 [97; 0; 0]).
Proof. reflexivity. Qed.

Theorem C53_hash : forall n m f g is64, wf_fs n f -> wf_fs m g -> (n = O <-> m = O) -> fs_chars f = fs_chars g ->
  exists h, fs_hash is64 f = Ret h /\ fs_hash is64 g = Ret h.
Proof. exact fs_hash_ok. Qed.
Print Assumptions C53_hash.
Example C53_hash_ex : fs_hash true (mkfs 1 [97; 0; 0]) = Ret 12638187200555641996 /\ fs_hash true (mkfs 1 [97; 7]) = Ret 12638187200555641996.
Proof. split; vm_compute; reflexivity. Qed.
(** fixed_string<0> compares equal to an empty fixed_string<1> but hashes differently. *)
Theorem C53_hash_capacity_refuted : exists f g, wf_fs 0 f /\ wf_fs 1 g /\ fs_eqb f g = Ret true /\
  forall is64, exists h, fs_hash is64 f = Ret 0 /\ fs_hash is64 g = Ret h /\ h <> 0.
Proof. exact fs_hash_zero. Qed.
Print Assumptions C53_hash_capacity_refuted.

(** [back] is the last character only of a completely filled string ... *)
Theorem C53_back_partial : forall n f, wf_fs n f -> (0 < n)%nat -> fs_size f = Z.of_nat n ->
  exists c s, fs_back f = Ret c /\ fs_chars f = s ++ [c].
Proof. exact fs_back_full. Qed.
Print Assumptions C53_back_partial.
(** ... of a shorter one it is the last array element. *)
Theorem C53_back_refuted : exists f, fs_make char_next 3 [97; 98; 0; 0] = Ret f /\
  wf_fs 3 f /\ fs_chars f = [97; 98] /\ fs_back f = Ret 0.
Proof. exact fs_back_wrong. Qed.
Print Assumptions C53_back_refuted.

(** Access, and iteration in both directions. *)
Theorem C53_at : forall n f i, wf_fs n f -> 0 <= i < fs_size f -> exists c, fs_at f i = Ret c /\ nth_error (fs_chars f) (Z.to_nat i) = Some c.
Proof. exact fs_at_ok. Qed.
Print Assumptions C53_at.
Theorem C53_front : forall n f c s, wf_fs n f -> fs_chars f = c :: s -> fs_front f = Ret c.
Proof. exact fs_front_ok. Qed.
Print Assumptions C53_front.
Theorem C53_walk : forall n f, wf_fs n f -> fs_walk (Z.to_nat (fs_size f)) f (fs_begin f) = Ret (fs_chars f).
Proof. exact fs_walk_ok. Qed.
Print Assumptions C53_walk.
Theorem C53_walk_back : forall n f, wf_fs n f -> fs_rwalk (Z.to_nat (fs_size f)) f (fs_end f) = Ret (rev (fs_chars f)).
Proof. exact fs_rwalk_ok. Qed.
Print Assumptions C53_walk_back.
Example C53_walk_ex : let f := mkfs 2 [97; 98; 0; 7] in wf_fs 4 f /\ fs_front f = Ret 97 /\ fs_at f 1 = Ret 98 /\
  fs_walk 2 f (fs_begin f) = Ret [97; 98] /\ fs_rwalk 2 f (fs_end f) = Ret [98; 97].
Proof. split; [split; cbn; lia|]. repeat split; reflexivity. Qed.
