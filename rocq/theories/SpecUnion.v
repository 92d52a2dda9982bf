(** What it means for a tag and a union to agree, and for code on unions to do
    what the versioned code does.  Independent of the functions of UnionModel. *)
From Verif Require Import Base AddressModel NetworkModel IterModel AnyModel UnionModel.

(** The active member is the one the version tag names. *)
Definition agree {A : Type} (v : ver) (u : un A) : Prop :=
  match v, u with V4, M4 _ => True | V6, M6 _ => True | _, _ => False end.
(** The contents of a union, whichever member is active. *)
Definition held {A : Type} (u : un A) : A := match u with M4 a => a | M6 a => a end.

Definition a_ok (x : uaddr) : Prop := agree (ua_ver x) (ua_un x).
Definition a_plain (x : uaddr) : aaddr := mk_aa (ua_ver x) (held (ua_un x)).
Definition n_ok (x : unet) : Prop := agree (un_ver x) (un_un x).
Definition n_plain (x : unet) : anet := mk_an (un_ver x) (held (un_un x)).
(** An iterator: its own union and the one of its current element. *)
Definition i_ok {I E : Type} (P : E -> Prop) (x : uiter I E) : Prop := agree (ui_ver x) (ui_un x) /\ P (ui_cur x).
Definition i_plain {I E F : Type} (f : E -> F) (x : uiter I E) : aiter I F := mk_ai (ui_ver x) (held (ui_un x)) (f (ui_cur x)).
Definition x_ok (x : uxit) : Prop := n_ok (ux_other x) /\ n_ok (ux_s1 x) /\ n_ok (ux_s2 x) /\ n_ok (ux_current x).
Definition x_plain (x : uxit) : axit :=
  mk_axit (n_plain (ux_other x)) (n_plain (ux_s1 x)) (n_plain (ux_s2 x)) (n_plain (ux_current x)).

(** The call touched only active members and no empty optional; its outcome is
    [r] up to [f], and an object it returns satisfies [P]. *)
Definition lawful {A B : Type} (P : A -> Prop) (f : A -> B) (m : ures A) (r : res B) : Prop :=
  match m with
  | Val (Ret a) => P a /\ r = Ret (f a)
  | Val (Err e v) => r = Err e v
  | Val (UB u) => r = UB u
  | Inactive => False
  | NoValue => False
  end.
(** A pair of an object and an error code. *)
Definition with_code {A B : Type} (f : A -> B) (p : A * ec) : B * ec := (f (fst p), snd p).
Definition both {A : Type} (P : A -> Prop) (p : A * A) : Prop := P (fst p) /\ P (snd p).
Definition seq_plain {I E F : Type} (f : E -> F) (p : uiter I E * uiter I E) : aseq I F :=
  mk_aseq (i_plain f (fst p)) (i_plain f (snd p)).
(** The begin and end of an exclusion, and its error code. *)
Definition ex_plain (p : uxit * uxit * ec) : aexclude * ec := (mk_aexclude (x_plain (fst (fst p))) (x_plain (snd (fst p))), snd p).

(** Objects a program can hold: built by the constructors and by every function
    that returns or changes one. *)
Inductive made_a : uaddr -> Prop :=
| ma_default : made_a ua_default
| ma_of4 a : made_a (ua_of4 a)
| ma_of6 a : made_a (ua_of6 a)
| ma_bytes4 b : made_a (ua_bytes4 b)
| ma_bytes6 b : made_a (ua_bytes6 b)
| ma_from_bytes s n v x : ua_from_bytes s n v = Val (Ret x) -> made_a x
| ma_parse ts x : ua_parse ts = Val (Ret x) -> made_a x
| ma_parse_code ts c x c' : ua_parse_code ts c = Val (Ret (x, c')) -> made_a x
| ma_scope T x s y : made_a x -> ua_scope_set T x s = Val (Ret y) -> made_a y
| ma_scope_code T x s c y c' : made_a x -> ua_scope_set_code T x s c = Val (Ret (y, c')) -> made_a y
| ma_scope_array T x s y : made_a x -> ua_scope_set_array T x s = Val (Ret y) -> made_a y
| ma_swap1 x y : made_a x -> made_a y -> made_a (fst (ua_swap x y))
| ma_swap2 x y : made_a x -> made_a y -> made_a (snd (ua_swap x y))
| ma_address n y : made_n n -> un_address n = Val (Ret y) -> made_a y
| ma_broadcast n y : made_n n -> un_broadcast n = Val (Ret y) -> made_a y
| ma_netmask n y : made_n n -> un_netmask n = Val (Ret y) -> made_a y
| ma_hostmask n y : made_n n -> un_hostmask n = Val (Ret y) -> made_a y
| ma_host i : made_h i -> made_a (ui_cur i)
| ma_host_at i n y : made_h i -> ui_at host_uops i n = Val (Ret y) -> made_a y
with made_n : unet -> Prop :=
| mn_default : made_n un_default
| mn_of4 n : made_n (un_of4 n)
| mn_of6 n : made_n (un_of6 n)
| mn_parse ts s x : un_parse ts s = Val (Ret x) -> made_n x
| mn_parse_code ts c s x c' : un_parse_code ts c s = Val (Ret (x, c')) -> made_n x
| mn_from_address a p s x : made_a a -> un_from_address a p s = Val (Ret x) -> made_n x
| mn_from_address_code a c p s x c' : made_a a -> un_from_address_code a c p s = Val (Ret (x, c')) -> made_n x
| mn_supernet n d np x : made_n n -> un_supernet d np n = Val (Ret x) -> made_n x
| mn_supernet_code n c d np x c' : made_n n -> un_supernet_code c d np n = Val (Ret (x, c')) -> made_n x
| mn_subnet i : made_s i -> made_n (ui_cur i)
| mn_subnet_at i n y : made_s i -> ui_at net_uops i n = Val (Ret y) -> made_n y
| mn_left x : made_x x -> made_n (ux_current x)
with made_h : uiter ait uaddr -> Prop :=
| mh_default : made_h host_uiter_default
| mh_of4 i : made_h (ui_of4 host_uops i)
| mh_of6 i : made_h (ui_of6 host_uops i)
| mh_begin sp n b e : made_n n -> un_hosts sp n = Val (Ret (b, e)) -> made_h b
| mh_end sp n b e : made_n n -> un_hosts sp n = Val (Ret (b, e)) -> made_h e
| mh_add i n j : made_h i -> ui_add host_uops i n = Val (Ret j) -> made_h j
| mh_sub i n j : made_h i -> ui_sub host_uops i n = Val (Ret j) -> made_h j
| mh_base i j : made_h i -> ui_base host_uops i = Val (Ret j) -> made_h j
| mh_reverse i j : made_h i -> ui_reverse host_uops i = Val (Ret j) -> made_h j
with made_s : uiter nit unet -> Prop :=
| ms_default : made_s net_uiter_default
| ms_of4 i : made_s (ui_of4 net_uops i)
| ms_of6 i : made_s (ui_of6 net_uops i)
| ms_begin sp n d np b e : made_n n -> un_subnets sp n d np = Val (Ret (b, e)) -> made_s b
| ms_end sp n d np b e : made_n n -> un_subnets sp n d np = Val (Ret (b, e)) -> made_s e
| ms_begin_code sp n c d np b e c' : made_n n -> un_subnets_code sp n c d np = Val (Ret (b, e, c')) -> made_s b
| ms_end_code sp n c d np b e c' : made_n n -> un_subnets_code sp n c d np = Val (Ret (b, e, c')) -> made_s e
| ms_add i n j : made_s i -> ui_add net_uops i n = Val (Ret j) -> made_s j
| ms_sub i n j : made_s i -> ui_sub net_uops i n = Val (Ret j) -> made_s j
| ms_base i j : made_s i -> ui_base net_uops i = Val (Ret j) -> made_s j
| ms_reverse i j : made_s i -> ui_reverse net_uops i = Val (Ret j) -> made_s j
with made_x : uxit -> Prop :=
| mx_default : made_x uxit_default
| mx_begin sp n m c b e c' : made_n n -> made_n m -> un_exclude_code sp n m c = Val (Ret (b, e, c')) -> made_x b
| mx_end sp n m c b e c' : made_n n -> made_n m -> un_exclude_code sp n m c = Val (Ret (b, e, c')) -> made_x e
| mx_next sp x y : made_x x -> uxit_next sp x = Val (Ret y) -> made_x y.
