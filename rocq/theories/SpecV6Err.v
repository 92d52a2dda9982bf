(** Independent specification of the errors of IPv6 texts: what is wrong with
    a text, and which number belongs to it.  ':' is 58, '%' is 37, '.' is 46.
    A text is seen as its fields, the texts between the colons. *)
From Verif Require Import Base SpecText SpecV4 SpecV6.

Definition short (f : list Z) : Prop := zlen f <= 4.
(** The fields of a text. *)
Definition fields (s : list Z) (fs : list (list Z)) : Prop := fs <> [] /\ s = join fs /\ Forall (fun f => ~ In 58 f) fs.

(** The parts the fields stand for: a dotted quad at the end is the two
    hexadecimal groups of its value. *)
Inductive parts_of : list (list Z) -> list (list Z) -> Prop :=
| po_plain p f : Forall short p -> short f -> zlen p <= 8 -> ~ In 46 f -> parts_of (p ++ [f]) (p ++ [f])
| po_quad p f a b c d g h : Forall short p -> zlen p <= 6 -> dotted_quad f [a; b; c; d] ->
    padded_group g (a * 256 + b) -> padded_group h (c * 256 + d) -> parts_of (p ++ [f]) (p ++ [g; h]).

(** Exactly one empty part between the first and the last one, and an empty
    first (last) part only beside it: the empty parts are one "::". *)
Definition one_gap (ps : list (list Z)) : Prop :=
  exists a x y b, ps = a :: x ++ [] :: y ++ [b] /\ ~ In [] x /\ ~ In [] y /\ (a = [] -> x = []) /\ (b = [] -> y = []).
Definition written (ps : list (list Z)) : Z := zlen (filter (fun p => negb (zlen p =? 0)) ps).
(** Eight parts, or one gap and at most seven. *)
Definition well_formed (ps : list (list Z)) : Prop :=
  (zlen ps = 8 /\ ~ In [] ps) \/ (one_gap ps /\ written ps <= 7).

(** What is wrong with parts. *)
Inductive parts_defect (ps : list (list Z)) : ec -> Prop :=
| pd_few : zlen ps < 3 -> parts_defect ps least_3_parts
| pd_two_gaps a x y z b : ps = a :: x ++ [] :: y ++ [] :: z ++ [b] -> parts_defect ps most_one_double_colon_permitted
| pd_leading x y b : ps = [] :: x ++ [] :: y ++ [b] -> ~ In [] x -> ~ In [] y -> x <> [] ->
    parts_defect ps leading_colon_only_permitted_as_part_of_double_colon
| pd_trailing a x y : ps = a :: x ++ [] :: y ++ [[]] -> ~ In [] x -> ~ In [] y -> (a = [] -> x = []) -> y <> [] ->
    parts_defect ps trailing_colon_only_permitted_as_part_of_double_colon
| pd_crowded : one_gap ps -> 7 < written ps -> parts_defect ps expected_at_most_7_other_parts_with_double_colon
| pd_not_8 a m b : ps = a :: m ++ [b] -> ~ In [] m -> 3 <= zlen ps -> zlen ps <> 8 ->
    parts_defect ps exactly_8_parts_expected_without_double_colon
| pd_leading_8 m b : ps = [] :: m ++ [b] -> ~ In [] m -> zlen ps = 8 ->
    parts_defect ps leading_colon_only_permitted_as_part_of_double_colon
| pd_trailing_8 a m : ps = a :: m ++ [[]] -> a <> [] -> ~ In [] m -> zlen ps = 8 ->
    parts_defect ps trailing_colon_only_permitted_as_part_of_double_colon
| pd_symbol p c : well_formed ps -> In p ps -> In c p -> (forall d, ~ hex_char c d) -> parts_defect ps part_has_invalid_symbol.

(** Nine colons and more after them; are two of them adjacent, as far as one
    character after the ninth? *)
Definition adjacent (p q : list (list Z)) : Prop := In [] (tl p) \/ exists r, q = [] :: r.
(** What is wrong with fields, and the number which goes with it. *)
Inductive v6_defect (fs : list (list Z)) : ec -> Z -> Prop :=
| vd_long p f q : fs = p ++ f :: q -> Forall short p -> zlen p <= 8 -> ~ short f -> (q <> [] \/ zlen f > 16 \/ ~ In 46 f) ->
    v6_defect fs part_is_more_4_chars (zlen p)
| vd_colons p q : fs = p ++ q -> Forall short p -> zlen p = 9 -> q <> [] -> q <> [[]] -> ~ adjacent p q ->
    v6_defect fs most_8_colons_permitted 9
| vd_colons_gap p q : fs = p ++ q -> Forall short p -> zlen p = 9 -> q <> [[]] -> adjacent p q -> q <> [] ->
    v6_defect fs expected_at_most_7_other_parts_with_double_colon 9
| vd_ninth_leading p f r : fs = p ++ [[]] -> Forall short p -> zlen p = 9 -> p = [] :: f :: r -> f <> [] ->
    v6_defect fs leading_colon_only_permitted_as_part_of_double_colon 9
| vd_ninth_trailing p : fs = p ++ [[]] -> Forall short p -> zlen p = 9 -> (forall f r, p = [] :: f :: r -> f = []) ->
    v6_defect fs trailing_colon_only_permitted_as_part_of_double_colon 9
| vd_quad_late p f : fs = p ++ [f] -> Forall short p -> 7 <= zlen p <= 8 -> zlen f <= 16 -> In 46 f ->
    v6_defect fs most_8_colons_permitted (zlen p)
| vd_quad p f e i : fs = p ++ [f] -> Forall short p -> zlen p <= 6 -> zlen f <= 16 -> In 46 f -> v4_error (chars f) e i ->
    v6_defect fs e (zlen p)
| vd_parts ps e : parts_of fs ps -> parts_defect ps e -> v6_defect fs e (zlen ps).

(** What is wrong with a scope id. *)
Inductive scope_defect : list Z -> ec -> Prop :=
| sd_empty : scope_defect [] invalid_scope_id
| sd_symbol p c q : Forall scope_char p -> zlen p <= 15 -> ~ scope_char c -> scope_defect (p ++ c :: q) invalid_scope_id
| sd_long p q : Forall scope_char p -> zlen p = 16 -> q <> [] -> scope_defect (p ++ q) scope_id_is_too_long.

(** The error of a text: that of its scope id, else that of its address. *)
Inductive v6_error : list Z -> ec -> Z -> Prop :=
| v6e_empty : v6_error [] empty_address 0
| v6e_plain s fs e x : s <> [] -> ~ In 37 s -> fields s fs -> v6_defect fs e x -> v6_error s e x
| v6e_scope a t e : ~ In 37 a -> scope_defect t e -> v6_error (a ++ 37 :: t) e 0
| v6e_scoped a t fs e x : ~ In 37 a -> scope_text t -> fields a fs -> v6_defect fs e x -> v6_error (a ++ 37 :: t) e x.

(** The text before the mask of a network text; [p/m] with a dotted quad [m]. *)
Definition dotted_mask_text (p s : list Z) : Prop := exists m bs, s = p ++ 47 :: m /\ ~ In 47 p /\ dotted_quad m bs.
(** The address of a text, without the scope id. *)
Definition address_part (s a : list Z) : Prop := ~ In 37 a /\ (s = a \/ exists t, s = a ++ 37 :: t).
