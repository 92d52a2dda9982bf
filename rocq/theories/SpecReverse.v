(** Specification of reverse iterators: the mirror image of an iterator. *)
From Verif Require Import Base SpecAddr AddressModel NetworkModel IterModel AnyModel SpecNet SpecIter ReverseModel.

(** [r] is the reverse iterator of [it], and [it] is its base. *)
Definition mirrors {I E} (o : bops I E) (wf : I -> Prop) (r : rit I) (it : I) : Prop :=
  wf it /\ rit_make o it = Ret r /\ rit_base o r = Ret it.
(** Moving the reverse iterator by [f] moves the base by [g], without error. *)
Definition mirrored_move {I E} (o : bops I E) (wf : I -> Prop) (f : rit I -> res (rit I)) (g : I -> res I) : Prop :=
  forall r it, mirrors o wf r it -> exists r' it', f r = Ret r' /\ g it = Ret it' /\ mirrors o wf r' it'.
(** Iterators of version-erased sequences over well-formed iterators of their version. *)
Definition wf_aiter {I E} (o : iops I E) (wf : ver -> I -> Prop) (a : aiter I E) : Prop := exists v it, wf v it /\ a = aiter_make o v it.
(** The comparison of the reverse iterators of [a] and [b], at positions [pa] and
    [pb]: reversed, unless exactly one of them is at position 0, before which there
    is no place. *)
Definition rev_cmp (pa pb : Z) : comparison := if Bool.eqb (pa =? 0) (pb =? 0) then pb ?= pa else pa ?= pb.
(** Every well-formed iterator has a reverse iterator, every reverse iterator a base. *)
Definition reverse_base {I E} (o : bops I E) (wf : I -> Prop) : Prop :=
  (forall it, wf it -> exists r, mirrors o wf r it) /\ (forall r, wf (r_it r) -> exists it, mirrors o wf r it).
(** Moving forward moves the base backward and conversely; [okd] are the values of
    difference_type, [oku] those of uint_type. *)
Definition reverse_moves {I E} (o : bops I E) (wf : I -> Prop) (okd oku : Z -> Prop) : Prop :=
  mirrored_move o wf (rit_next o) (b_prev o) /\ mirrored_move o wf (rit_prev o) (b_next o) /\
  (forall n, okd n -> mirrored_move o wf (fun r => rit_plus o r n) (fun it => b_minus o it n) /\ mirrored_move o wf (fun r => rit_minus o r n) (fun it => b_plus o it n) /\
     mirrored_move o wf (fun r => plus_rit o n r) (fun it => b_minus o it n)) /\
  (forall n, oku n -> mirrored_move o wf (fun r => rit_add o r n) (fun it => b_sub o it n) /\ mirrored_move o wf (fun r => rit_sub o r n) (fun it => b_add o it n) /\
     mirrored_move o wf (fun r => add_rit o n r) (fun it => b_sub o it n)) /\
  (forall r it, mirrors o wf r it -> (exists r' it', rit_postinc o r = Ret (r, r') /\ b_prev o it = Ret it' /\ mirrors o wf r' it') /\
     (exists r' it', rit_postdec o r = Ret (r, r') /\ b_next o it = Ret it' /\ mirrors o wf r' it')).
(** A reverse iterator reads the element before its base; r[n] is *(r + n). *)
Definition reverse_reads {I E} (o : bops I E) (wf : I -> Prop) (okd oku : Z -> Prop) : Prop :=
  forall r it, mirrors o wf r it ->
  (exists p, b_prev o it = Ret p /\ rit_get o r = b_get o p) /\
  (forall n, okd n -> exists a, rit_index o r n = Ret a /\ (exists r', rit_plus o r n = Ret r' /\ rit_get o r' = a) /\
     (exists x p, b_minus o it n = Ret x /\ b_prev o x = Ret p /\ b_get o p = a)) /\
  (forall n, oku n -> exists a, rit_at o r n = Ret a /\ (exists r', rit_add o r n = Ret r' /\ rit_get o r' = a) /\
     (exists x p, b_sub o it n = Ret x /\ b_prev o x = Ret p /\ b_get o p = a)).
Definition reverse_laws {I E} (o : bops I E) (wf : I -> Prop) (okd oku : Z -> Prop) : Prop :=
  reverse_base o wf /\ reverse_moves o wf okd oku /\ reverse_reads o wf okd oku.
(** Equality and differences of reverse iterators are those of their bases, in
    reverse, for bases that [same] relates. *)
Definition reverse_distances {I E} (o : bops I E) (wf : I -> Prop) (same : I -> I -> Prop) : Prop :=
  forall r s a b, mirrors o wf r a -> mirrors o wf s b -> same a b ->
  rit_diff o r s = b_diff o b a /\ rit_udiff o r s = b_udiff o b a /\
  (exists e, b_eqb o a b = Ret e /\ rit_eqb o r s = Ret e /\ rit_neb o r s = Ret (negb e) /\ (e = true <-> r = s)).
(** The values of the unsigned type. *)
Definition is_u (v : ver) (n : Z) : Prop := 0 <= n < 2 ^ width v.
Definition is_u128 (n : Z) : Prop := 0 <= n < 2 ^ 128.
(** All the comparison operators of two reverse iterators answer as [c] says. *)
Definition compares {I E} (o : bops I E) (r s : rit I) (c : comparison) : Prop :=
  rit_cmp o r s = Ret c /\ rit_ltb o r s = Ret (match c with Lt => true | _ => false end) /\ rit_leb o r s = Ret (match c with Gt => false | _ => true end) /\
  rit_gtb o r s = Ret (match c with Gt => true | _ => false end) /\ rit_geb o r s = Ret (match c with Lt => false | _ => true end).
Definition same_prefix (a b : nit) : Prop := ni_prefix a = ni_prefix b.
Definition same_prefix_any (a b : aiter nit anet) : Prop := ai_ver a = ai_ver b -> same_prefix (ai_it a) (ai_it b).
(** The postfix operators of the iterators themselves return the iterator as it was
    and move it by one; moving back restores it.  n + it is it + n. *)
Definition forward_laws {I E} (o : bops I E) (wf : I -> Prop) (okd oku : Z -> Prop) : Prop := forall it, wf it ->
  (exists x, post_inc o it = Ret (it, x) /\ b_next o it = Ret x /\ wf x /\ post_dec o x = Ret (x, it)) /\
  (exists x, post_dec o it = Ret (it, x) /\ b_prev o it = Ret x /\ wf x /\ post_inc o x = Ret (x, it)) /\
  (forall n, okd n -> exists x, plus_it o n it = Ret x /\ b_plus o it n = Ret x /\ wf x /\ b_minus o x n = Ret it) /\
  (forall n, oku n -> exists x, add_it o n it = Ret x /\ b_add o it n = Ret x /\ wf x /\ b_sub o x n = Ret it).
