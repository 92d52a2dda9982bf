(** Distances and order of reverse iterators. *)
From Coq Require Import String.
From Verif Require Import Base Tac V4Model V6Model SpecInt SpecAddr AddressModel SpecOrder NetworkModel IterModel SpecNet SpecIter
  Uint128Model NetProofs NetProofs2 NetProofs3 NetLemmas NetWitness IterProofs IterProofs2 IterProofs3 IterProofs4 IterLemmas AnyModel SpecAny AnyProofs AnyIter
  ReverseModel SpecReverse ReverseProofs.

Lemma mirrors_eq {I E} (o : bops I E) wf r s a b : mirrors o wf r a -> mirrors o wf s b -> (r = s <-> a = b).
Proof.
  intros (_ & M1 & B1) (_ & M2 & B2). split; intros ->.
  - rewrite B1 in B2. apply ret_inj in B2. exact B2.
  - rewrite M1 in M2. apply ret_inj in M2. exact M2.
Qed.
Lemma bool_iff (x y : bool) : (x = true <-> y = true) -> x = y. Proof. destruct x, y; intuition congruence. Qed.
Lemma hneg b : (e <- Ret b ;; Ret (negb e)) = Ret (negb b). Proof. reflexivity. Qed.
Lemma eq_clause {I E} (o : bops I E) wf r s a b (q : I -> I -> Prop) : (forall x y, wf x -> wf y -> q x y -> exists e, b_eqb o x y = Ret e /\ (e = true <-> x = y)) ->
  wf a -> wf b -> q a b -> wf (r_it r) -> wf (r_it s) -> q (r_it s) (r_it r) -> (r = s <-> a = b) ->
  exists e, b_eqb o a b = Ret e /\ rit_eqb o r s = Ret e /\ rit_neb o r s = Ret (negb e) /\ (e = true <-> r = s).
Proof.
  intros H Wa Wb Q Wr Ws Q' K. destruct (H a b Wa Wb Q) as (e & E1 & F1). destruct (H _ _ Ws Wr Q') as (e' & E2 & F2).
  assert (L : r_it s = r_it r <-> r = s). { destruct r as [r0], s as [s0]. cbn [r_it]. split; intros X; [f_equal; symmetry; exact X|injection X as ->; reflexivity]. }
  assert (e = e') as ->. { apply bool_iff. rewrite F1, F2, L, K. reflexivity. }
  exists e'. split; [exact E1|]. unfold rit_neb, rit_eqb. rewrite E2. split; [reflexivity|]. split; [reflexivity|]. rewrite F2. exact L.
Qed.
(** *** hosts *)
Lemma hm v r a : mirrors (host_bops v) (wf_ait v) r a -> wf_ait v a /\ wf_ait v (r_it r) /\ moved v a (-1) (r_it r).
Proof.
  intros (W & M & _). unfold rit_make in M. cbn [host_bops b_reverse] in M. destruct (ait_reverse_ok v a W) as (x & E & Mx). rewrite E in M. cbn [bind] in M. apply ret_inj in M. subst r.
  cbn [r_it]. split; [exact W|]. split; [apply Mx|exact Mx].
Qed.
Lemma held_offset v a d h : wf_ait v a -> moved v a d h -> it_offset h = (it_offset a + d) mod 2 ^ width v.
Proof.
  intros W M. rewrite (proj1 (proj2 (proj2 (proj1 M)))), (moved_val _ _ _ _ M). rewrite <- Zplus_mod_idemp_l. rewrite (pos_mod v a W). destruct W as (_ & _ & -> & _). reflexivity.
Qed.
Lemma held_usub v a b d x y : wf_ait v a -> wf_ait v b -> moved v a d x -> moved v b d y -> usub v (it_offset y) (it_offset x) = usub v (it_offset b) (it_offset a).
Proof.
  intros Wa Wb Mx My. rewrite !usub_ok, (held_offset _ _ _ _ Wa Mx), (held_offset _ _ _ _ Wb My). rewrite <- Zminus_mod. f_equal. lia.
Qed.
Lemma ait_eqb_iff v x y : wf_ait v x -> wf_ait v y -> exists e, ait_eqb v x y = Ret e /\ (e = true <-> x = y).
Proof.
  intros Wx Wy. rewrite ait_eqb_ok by assumption. eexists. split; [reflexivity|]. rewrite Z.eqb_eq. split; [apply ait_ext; assumption|intros ->; reflexivity].
Qed.
Lemma host_distances v : reverse_distances (host_bops v) (wf_ait v) (fun _ _ => True).
Proof.
  intros r s a b Kr Ks _. pose proof (mirrors_eq _ _ _ _ _ _ Kr Ks) as K. destruct (hm v r a Kr) as (Wa & Wr & Mr). destruct (hm v s b Ks) as (Wb & Ws & Ms).
  unfold rit_diff, rit_udiff. cbn [host_bops b_diff b_udiff]. unfold ait_diff, ait_uint_diff. rewrite (held_usub v a b (-1)) by assumption. split; [reflexivity|]. split; [reflexivity|].
  apply (eq_clause (host_bops v) (wf_ait v) r s a b (fun _ _ => True)); auto. intros x y Wx Wy _. apply ait_eqb_iff; assumption.
Qed.
(** *** subnets *)
Lemma nm v r a : mirrors (net_bops v) (wf_nit v) r a -> wf_nit v a /\ wf_nit v (r_it r) /\ nmoved v a (- ni_step a) (r_it r).
Proof.
  intros (W & M & _). unfold rit_make in M. cbn [net_bops b_reverse] in M. destruct (nit_reverse_ok v a W) as (x & E & Mx). rewrite E in M. cbn [bind] in M. apply ret_inj in M. subst r.
  cbn [r_it]. split; [exact W|]. split; [apply Mx|exact Mx].
Qed.
Lemma same_step v a b : wf_nit v a -> wf_nit v b -> same_prefix a b -> ni_step a = ni_step b.
Proof. intros (_ & _ & _ & Pa & ->) (_ & _ & _ & Pb & ->) E. unfold same_prefix in E. f_equal. apply same_size. congruence. Qed.
Lemma nit_eqb_iff v x y : wf_nit v x -> wf_nit v y -> same_prefix x y -> exists e, nit_eqb v x y = Ret e /\ (e = true <-> x = y).
Proof.
  intros Wx Wy E. rewrite nit_eqb_ok by assumption. eexists. split; [reflexivity|]. rewrite Z.eqb_eq. split; [apply nit_ext; assumption|intros ->; reflexivity].
Qed.
Lemma held_prefix v a b x y d e : nmoved v a d x -> nmoved v b e y -> same_prefix a b -> same_prefix y x.
Proof. intros (_ & P1 & _) (_ & P2 & _) E. unfold same_prefix in *. congruence. Qed.
Lemma subnet_distances v : reverse_distances (net_bops v) (wf_nit v) same_prefix.
Proof.
  intros r s a b Kr Ks Hs. pose proof (mirrors_eq _ _ _ _ _ _ Kr Ks) as K. destruct (nm v r a Kr) as (Wa & Wr & Mr). destruct (nm v s b Ks) as (Wb & Ws & Ms).
  pose proof (same_step v a b Wa Wb Hs) as St. pose proof (held_prefix _ _ _ _ _ _ _ Mr Ms Hs) as Hh.
  pose proof (held_usub v (ni_it a) (ni_it b) (- ni_step a) (ni_it (r_it r)) (ni_it (r_it s)) (proj1 (proj2 Wa)) (proj1 (proj2 Wb))) as U.
  specialize (U (proj2 (proj2 (proj2 Mr)))). rewrite St in U. specialize (U (proj2 (proj2 (proj2 Ms)))).
  unfold rit_diff, rit_udiff. cbn [net_bops b_diff b_udiff]. unfold nit_diff, nit_uint_diff, ait_diff, ait_uint_diff. rewrite U. split; [reflexivity|]. split; [f_equal; apply Ms|].
  apply (eq_clause (net_bops v) (wf_nit v) r s a b same_prefix); auto. intros x y Wx Wy. apply nit_eqb_iff; assumption.
Qed.
(** *** Version-erased *)
Lemma other_ver v w : v <> w -> ver_eqb v w = false. Proof. destruct v, w; try reflexivity; congruence. Qed.
Lemma any_distances {I E} (o : iops I E) (wf : ver -> I -> Prop) {F} (base : ver -> bops I F) (q : I -> I -> Prop) :
  (forall v, reverse_distances (base v) (wf v) q) ->
  (forall r a, mirrors (any_bops o) (wf_aiter o wf) r a -> exists v x y, a = aiter_make o v y /\ r = mk_rit (aiter_make o v x) /\ mirrors (base v) (wf v) (mk_rit x) y) ->
  (forall v x y, b_diff (base v) x y = o_diff o v x y) -> (forall v x y, b_udiff (base v) x y = o_udiff o v x y) -> (forall v x y, b_eqb (base v) x y = o_eqb o v x y) ->
  reverse_distances (any_bops o) (wf_aiter o wf) (fun a b => ai_ver a = ai_ver b -> q (ai_it a) (ai_it b)).
Proof.
  intros Hd Hm Ed Eu Ee r s a b Kr Ks Q. pose proof (mirrors_eq _ _ _ _ _ _ Kr Ks) as K.
  destruct (Hm r a Kr) as (v & x & y & -> & -> & M1). destruct (Hm s b Ks) as (w & x' & y' & -> & -> & M2). cbn [aiter_make ai_ver ai_it] in Q.
  assert (v = w \/ v <> w) as [<-|N] by (destruct v, w; auto; right; discriminate).
  - destruct (Hd v _ _ _ _ M1 M2 (Q eq_refl)) as (A & B & e & C1 & C2 & C3 & C4). unfold rit_diff, rit_udiff, rit_eqb, rit_neb, rit_eqb in *. cbn [any_bops b_diff b_udiff b_eqb r_it] in *.
    rewrite !adiff, !audiff, !aeqb. rewrite <- !Ed, <- !Eu, <- !Ee. split; [exact A|]. split; [exact B|]. exists e. split; [exact C1|]. rewrite C2 in *. split; [reflexivity|]. split; [exact C3|].
    rewrite C4. split; intros X; [injection X as ->; reflexivity|]. f_equal. exact (f_equal (fun t => ai_it (r_it t)) X).
  - unfold rit_diff, rit_udiff, rit_neb, rit_eqb. cbn [any_bops b_diff b_udiff b_eqb r_it]. unfold aiter_diff, aiter_udiff, aiter_eqb. cbn [aiter_make ai_ver].
    rewrite (other_ver v w N), (other_ver w v) by congruence. cbn [negb]. split; [reflexivity|]. split; [reflexivity|]. exists false. split; [reflexivity|]. split; [reflexivity|]. split; [reflexivity|].
    split; [discriminate|]. intros X. exfalso. apply N. exact (f_equal (fun t => ai_ver (r_it t)) X).
Qed.
Lemma any_down {I E F} (o : iops I E) (wf : ver -> I -> Prop) (base : ver -> bops I F) r a : (forall v it, b_reverse (base v) it = o_reverse o v it) -> (forall v it, b_base (base v) it = o_base o v it) ->
  mirrors (any_bops o) (wf_aiter o wf) r a -> exists v x y, a = aiter_make o v y /\ r = mk_rit (aiter_make o v x) /\ mirrors (base v) (wf v) (mk_rit x) y.
Proof.
  intros Hr Hb ((v & y & W & ->) & M & B). unfold rit_make in M. cbn [any_bops b_reverse] in M. rewrite areverse in M. destruct (o_reverse o v y) as [x| |] eqn:Ex; cbn [rmap bind] in M; try discriminate.
  apply ret_inj in M. subst r. exists v, x, y. split; [reflexivity|]. split; [reflexivity|]. split; [exact W|]. unfold rit_make, rit_base in *. cbn [any_bops b_base r_it] in *.
  rewrite Hr, Ex. split; [reflexivity|]. rewrite Hb. rewrite abase in B. destruct (o_base o v x) as [z| |]; cbn [rmap] in B; try discriminate. apply ret_inj in B. f_equal. exact (f_equal ai_it B).
Qed.
Lemma any_host_down r a : mirrors (any_bops host_ops) (wf_aiter host_ops wf_ait) r a -> exists v x y, a = aiter_make host_ops v y /\ r = mk_rit (aiter_make host_ops v x) /\ mirrors (host_bops v) (wf_ait v) (mk_rit x) y.
Proof. apply any_down; reflexivity. Qed.
Lemma any_net_down r a : mirrors (any_bops net_ops) (wf_aiter net_ops wf_nit) r a -> exists v x y, a = aiter_make net_ops v y /\ r = mk_rit (aiter_make net_ops v x) /\ mirrors (net_bops v) (wf_nit v) (mk_rit x) y.
Proof. apply any_down; reflexivity. Qed.
Lemma any_host_distances : reverse_distances (any_bops host_ops) (wf_aiter host_ops wf_ait) (fun _ _ => True).
Proof.
  intros r s a b Kr Ks _. apply (any_distances host_ops wf_ait host_bops (fun _ _ => True) host_distances any_host_down) with (r := r) (s := s); try reflexivity; auto.
Qed.
Lemma any_subnet_distances : reverse_distances (any_bops net_ops) (wf_aiter net_ops wf_nit) same_prefix_any.
Proof. exact (any_distances net_ops wf_nit net_bops same_prefix subnet_distances any_net_down ltac:(reflexivity) ltac:(reflexivity) ltac:(reflexivity)). Qed.

(** *** Order *)
Lemma mod_before m p k : 0 < k <= m -> 0 <= p < m -> (k | p) -> (p + - k) mod m = if p =? 0 then m - k else p - k.
Proof.
  intros Hk Hp [q ->]. destruct (Z.eqb_spec (q * k) 0) as [E|E].
  - rewrite E. symmetry. apply (Z.mod_unique_pos _ _ (-1)); lia.
  - apply Z.mod_small. assert (1 <= q) by nia. nia.
Qed.
Lemma rev_order m a b k : 0 < k <= m -> 0 <= a < m -> 0 <= b < m -> (k | a) -> (k | b) -> (k | m) -> ((b + - k) mod m ?= (a + - k) mod m) = rev_cmp a b.
Proof.
  intros Hk Ha Hb Da Db Dm. rewrite !mod_before by assumption. unfold rev_cmp. destruct Da as [x ->], Db as [y ->], Dm as [z ->].
  destruct (Z.eqb_spec (x * k) 0) as [E|E], (Z.eqb_spec (y * k) 0) as [F|F]; cbn [Bool.eqb].
  - rewrite E, F, !Z.compare_refl. reflexivity.
  - rewrite E. assert (0 < y * k) by nia. replace (0 ?= y * k) with Lt by (symmetry; apply Z.compare_lt_iff; assumption). apply Z.compare_lt_iff. nia.
  - rewrite F. assert (0 < x * k) by nia. replace (x * k ?= 0) with Gt by (symmetry; apply Z.compare_gt_iff; assumption). apply Z.compare_gt_iff. nia.
  - destruct (Z.compare_spec (y * k) (x * k)); [apply Z.compare_eq_iff|apply Z.compare_lt_iff|apply Z.compare_gt_iff]; lia.
Qed.
Lemma ltb_compare x y : (x <? y) = match x ?= y with Lt => true | _ => false end. Proof. reflexivity. Qed.
Lemma compares_of {I E} (o : bops I E) r s c : rit_cmp o r s = Ret c -> rit_ltb o r s = Ret (match c with Lt => true | _ => false end) -> rit_ltb o s r = Ret (match c with Gt => true | _ => false end) -> compares o r s c.
Proof. intros A B C. unfold compares, rit_leb, rit_gtb, rit_geb. rewrite A, B, C. cbn [bind]. destruct c; repeat split. Qed.
Lemma host_order v r s a b : mirrors (host_bops v) (wf_ait v) r a -> mirrors (host_bops v) (wf_ait v) s b -> compares (host_bops v) r s (rev_cmp (ait_pos v a) (ait_pos v b)).
Proof.
  intros Kr Ks. destruct (hm v r a Kr) as (Wa & Wr & Mr). destruct (hm v s b Ks) as (Wb & Ws & Ms). pose proof (M_pos v).
  assert (C : (ait_pos v (r_it s) ?= ait_pos v (r_it r)) = rev_cmp (ait_pos v a) (ait_pos v b)).
  { rewrite (proj2 Mr), (proj2 Ms). apply (rev_order _ _ _ 1); try (apply pos_range; assumption); try apply Z.divide_1_l. lia. }
  apply compares_of; unfold rit_cmp, rit_ltb; cbn [host_bops b_cmp b_ltb]; rewrite ?ait_cmp_ok, ?ait_ltb_ok by assumption; rewrite ?ltb_compare; [rewrite C; reflexivity|rewrite C; reflexivity|].
  rewrite Z.compare_antisym, C. destruct (rev_cmp _ _); reflexivity.
Qed.
Lemma npos_div v it : wf_nit v it -> (size v (ni_current it) | nit_pos v it).
Proof.
  intros W. pose proof W as (Wn & Wi & En & _). unfold nit_pos, ait_pos. destruct (size_div v _ Wn) as [D _]. apply Z.divide_add_r; [apply Z.divide_mul_r; exact D|]. rewrite <- En. apply (first_div v). exact Wn.
Qed.
Lemma subnet_order v r s a b : mirrors (net_bops v) (wf_nit v) r a -> mirrors (net_bops v) (wf_nit v) s b -> same_prefix a b ->
  compares (net_bops v) r s (if ni_prefix a =? 0 then nit_pos v b ?= nit_pos v a else rev_cmp (nit_pos v a) (nit_pos v b)).
Proof.
  intros Kr Ks Hs. destruct (nm v r a Kr) as (Wa & Wr & Mr). destruct (nm v s b Ks) as (Wb & Ws & Ms). pose proof (M_pos v) as HM.
  pose proof (held_prefix _ _ _ _ _ _ _ Mr Ms Hs) as Hh. assert (Hh' : ni_prefix (r_it r) = ni_prefix (r_it s)) by (symmetry; exact Hh).
  assert (Pr : nit_pos v (r_it r) = (nit_pos v a + - ni_step a) mod (2 * 2 ^ width v)) by apply Mr.
  assert (Ps : nit_pos v (r_it s) = (nit_pos v b + - ni_step b) mod (2 * 2 ^ width v)) by apply Ms.
  pose proof (same_step v a b Wa Wb Hs) as St. rewrite <- St in Ps.
  assert (C : (nit_pos v (r_it s) ?= nit_pos v (r_it r)) = (if ni_prefix a =? 0 then nit_pos v b ?= nit_pos v a else rev_cmp (nit_pos v a) (nit_pos v b))).
  { rewrite Pr, Ps. pose proof (npos_range v a Wa). pose proof (npos_range v b Wb). destruct (Z.eqb_spec (ni_prefix a) 0) as [P0|P0].
    - assert (ni_step a = 0) as ->. { destruct Wa as (_ & _ & _ & Pa & ->). unfold size. rewrite <- Pa, P0, Z.sub_0_r. apply Z_mod_same_full. }
      change (- 0) with 0. rewrite !Z.add_0_r, !Z.mod_small by assumption. reflexivity.
    - assert (Es : ni_step a = size v (ni_current a)) by (rewrite (step_size v a) by assumption; destruct Wa as (_ & _ & _ & -> & _); reflexivity).
      assert (Ez : size v (ni_current a) = size v (ni_current b)). { apply same_size. destruct Wa as (_ & _ & _ & <- & _), Wb as (_ & _ & _ & <- & _). exact Hs. }
      destruct (size_div v _ (proj1 Wa)) as [D K]. rewrite Es. apply rev_order; try assumption.
      + split; [exact K|]. apply Z.divide_pos_le in D; [lia|exact HM].
      + apply npos_div. exact Wa.
      + rewrite Ez. apply npos_div. exact Wb.
      + apply Z.divide_mul_r. exact D. }
  apply compares_of; unfold rit_cmp, rit_ltb; cbn [net_bops b_cmp b_ltb]; rewrite ?nit_cmp_ok, ?nit_ltb_ok by assumption; rewrite ?ltb_compare; [rewrite C; reflexivity|rewrite C; reflexivity|].
  rewrite Z.compare_antisym, C. destruct (if ni_prefix a =? 0 then _ else _); reflexivity.
Qed.
(** Positions other than 0: the order is reversed. *)
Lemma rev_cmp_positive pa pb : 0 < pa -> 0 < pb -> rev_cmp pa pb = (pb ?= pa).
Proof. intros Ha Hb. unfold rev_cmp. replace (pa =? 0) with false by lia. replace (pb =? 0) with false by lia. reflexivity. Qed.
Lemma any_host_order r s a b : mirrors (any_bops host_ops) (wf_aiter host_ops wf_ait) r a -> mirrors (any_bops host_ops) (wf_aiter host_ops wf_ait) s b ->
  (ai_ver a = ai_ver b -> compares (any_bops host_ops) r s (rev_cmp (ait_pos (ai_ver a) (ai_it a)) (ait_pos (ai_ver b) (ai_it b)))) /\
  (ai_ver a <> ai_ver b -> rit_cmp (any_bops host_ops) r s = Ret (ver_num (ai_ver b) ?= ver_num (ai_ver a)) /\ rit_ltb (any_bops host_ops) r s = Ret false).
Proof.
  intros Kr Ks. destruct (any_host_down r a Kr) as (v & x & y & -> & -> & M1). destruct (any_host_down s b Ks) as (w & x' & y' & -> & -> & M2). cbn [aiter_make ai_ver ai_it]. split.
  - intros <-. destruct (host_order v _ _ _ _ M1 M2) as (A & B & C & D & F). unfold compares, rit_cmp, rit_ltb, rit_leb, rit_gtb, rit_geb, rit_ltb in *. cbn [any_bops host_bops b_cmp b_ltb r_it] in *.
    rewrite !acmp, !altb. cbn [host_ops o_cmp o_ltb]. auto.
  - intros N. unfold rit_cmp, rit_ltb. cbn [any_bops b_cmp b_ltb r_it]. unfold aiter_cmp, aiter_ltb, aiter_make. cbn [ai_ver]. rewrite (other_ver w v) by congruence. cbn [negb].
    destruct v, w; try (exfalso; apply N; reflexivity); split; reflexivity.
Qed.
Lemma any_subnet_order r s a b : mirrors (any_bops net_ops) (wf_aiter net_ops wf_nit) r a -> mirrors (any_bops net_ops) (wf_aiter net_ops wf_nit) s b ->
  (ai_ver a = ai_ver b -> same_prefix (ai_it a) (ai_it b) -> compares (any_bops net_ops) r s
     (if ni_prefix (ai_it a) =? 0 then nit_pos (ai_ver b) (ai_it b) ?= nit_pos (ai_ver a) (ai_it a) else rev_cmp (nit_pos (ai_ver a) (ai_it a)) (nit_pos (ai_ver b) (ai_it b)))) /\
  (ai_ver a <> ai_ver b -> rit_cmp (any_bops net_ops) r s = Ret (ver_num (ai_ver b) ?= ver_num (ai_ver a)) /\ rit_ltb (any_bops net_ops) r s = Ret false).
Proof.
  intros Kr Ks. destruct (any_net_down r a Kr) as (v & x & y & -> & -> & M1). destruct (any_net_down s b Ks) as (w & x' & y' & -> & -> & M2). cbn [aiter_make ai_ver ai_it]. split.
  - intros <- Q. destruct (subnet_order v _ _ _ _ M1 M2 Q) as (A & B & C & D & F). unfold compares, rit_cmp, rit_ltb, rit_leb, rit_gtb, rit_geb, rit_ltb in *. cbn [any_bops net_bops b_cmp b_ltb r_it] in *.
    rewrite !acmp, !altb. cbn [net_ops o_cmp o_ltb]. auto.
  - intros N. unfold rit_cmp, rit_ltb. cbn [any_bops b_cmp b_ltb r_it]. unfold aiter_cmp, aiter_ltb, aiter_make. cbn [ai_ver]. rewrite (other_ver w v) by congruence. cbn [negb].
    destruct v, w; try (exfalso; apply N; reflexivity); split; reflexivity.
Qed.
(** rbegin() < rend() is false for a sequence that begins at address 0 although
    rbegin() reaches rend() in two steps. *)
Lemma host_order_bad : exists n s rb re r1 r2, wf_net V4 n /\ hosts true V4 n = Ret s /\ rit_make (host_bops V4) (h_end s) = Ret rb /\ rit_make (host_bops V4) (h_begin s) = Ret re /\
  rit_next (host_bops V4) rb = Ret r1 /\ rit_next (host_bops V4) r1 = Ret r2 /\ rit_eqb (host_bops V4) r2 re = Ret true /\
  rit_cmp (host_bops V4) rb re = Ret Gt /\ rit_ltb (host_bops V4) rb re = Ret false /\ rit_ltb (host_bops V4) re rb = Ret true.
Proof. exists (net_at V4 "0.0.0.0/31"). eexists _, _, _, _, _. split; [wfn|]. calc. Qed.
Lemma subnet_order_bad : exists n s rb re r1 r2, wf_net V6 n /\ subnets true V6 n 1 None = Ret s /\ rit_make (net_bops V6) (s_end s) = Ret rb /\ rit_make (net_bops V6) (s_begin s) = Ret re /\
  rit_next (net_bops V6) rb = Ret r1 /\ rit_next (net_bops V6) r1 = Ret r2 /\ rit_eqb (net_bops V6) r2 re = Ret true /\
  rit_cmp (net_bops V6) rb re = Ret Gt /\ rit_ltb (net_bops V6) rb re = Ret false /\ rit_ltb (net_bops V6) re rb = Ret true.
Proof. exists (net_at V6 "::/16"). eexists _, _, _, _, _. split; [wfn|]. calc. Qed.
(** Moving there and back, written out. *)
Lemma forward_undo :
  (forall v it n, wf_ait v it -> is_i64 n -> exists x, b_plus (host_bops v) it n = Ret x /\ plus_it (host_bops v) n it = Ret x /\ b_minus (host_bops v) x n = Ret it) /\
  (forall v it n, wf_nit v it -> is_i64 n -> exists x, b_plus (net_bops v) it n = Ret x /\ plus_it (net_bops v) n it = Ret x /\ b_minus (net_bops v) x n = Ret it) /\
  (forall it n, wf_aiter host_ops wf_ait it -> is_i64 n -> exists x, b_plus (any_bops host_ops) it n = Ret x /\ plus_it (any_bops host_ops) n it = Ret x /\ b_minus (any_bops host_ops) x n = Ret it) /\
  (forall it n, wf_aiter net_ops wf_nit it -> is_i64 n -> exists x, b_plus (any_bops net_ops) it n = Ret x /\ plus_it (any_bops net_ops) n it = Ret x /\ b_minus (any_bops net_ops) x n = Ret it).
Proof.
  split; [|split; [|split]].
  - intros v it n W Hn. destruct (host_fwd v it W) as (_ & _ & H & _). destruct (H n Hn) as (x & A & B & _ & D). exists x. auto.
  - intros v it n W Hn. destruct (subnet_fwd v it W) as (_ & _ & H & _). destruct (H n Hn) as (x & A & B & _ & D). exists x. auto.
  - intros it n W Hn. destruct (any_host_fwd it W) as (_ & _ & H & _). destruct (H n Hn) as (x & A & B & _ & D). exists x. auto.
  - intros it n W Hn. destruct (any_subnet_fwd it W) as (_ & _ & H & _). destruct (H n Hn) as (x & A & B & _ & D). exists x. auto.
Qed.
