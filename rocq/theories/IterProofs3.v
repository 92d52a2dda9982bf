(** Network iterators and subnets(). *)
From Coq Require Import Znumtheory.
From Verif Require Import Base Tac V4Model V6Model Uint128Model SpecInt Uint128Proofs SpecAddr SpecStr SpecV6 StrProofs V4Proofs AddressModel SpecOrder
  AddressProofs NetworkModel IterModel SpecNet SpecIter NetProofs NetProofs2 NetProofs3 NetLemmas IterProofs IterProofs2.

Lemma size_div v n : wf_net v n -> (size v n | 2 ^ width v) /\ 0 < size v n.
Proof.
  intros (_ & _ & _ & Hp & _). unfold size. split; [|apply pow2_pos; lia]. exists (2 ^ n_prefix n).
  rewrite (pow_div (width v) (n_prefix n) Hp). lia.
Qed.
Lemma step_aligned k m s n : 0 < k -> 0 < m -> (k | m) -> s = k mod m -> (k | (s * n) mod m).
Proof.
  intros Hk Hm D ->. apply Z.mod_divide; [lia|]. rewrite <- Zmod_div_mod by assumption. apply Z.mod_divide; [lia|].
  apply Z.divide_mul_l. apply Z.mod_divide; [lia|]. rewrite <- Zmod_div_mod by assumption. apply Z_mod_same_full.
Qed.
Definition nmoved v (it : nit) d (it' : nit) : Prop := wf_nit v it' /\ ni_prefix it' = ni_prefix it /\ ni_step it' = ni_step it /\ moved v (ni_it it) d (ni_it it').
Lemma nit_rebuild v it d x : wf_nit v it -> moved v (ni_it it) d x -> (size v (ni_current it) | d) ->
  exists n, from_address v (it_current x) (ni_prefix it) true = Ret n /\ nmoved v it d (mk_nit n x (ni_step it) (ni_prefix it)).
Proof.
  intros (Wn & Wi & En & Ep & Es) Mx Dv. destruct (size_div v _ Wn) as [D K]. pose proof (M_pos v) as HM. rewrite Ep.
  assert (A : val (it_current x) mod 2 ^ (width v - n_prefix (ni_current it)) = 0).
  { rewrite (moved_val _ _ _ _ Mx). change (2 ^ (width v - n_prefix (ni_current it))) with (size v (ni_current it)). rewrite <- Zmod_div_mod by assumption.
    apply Z.mod_divide; [lia|]. apply Z.divide_add_r; [|exact Dv]. unfold ait_pos. apply Z.divide_add_r; [apply Z.divide_mul_r; exact D|].
    rewrite <- En. apply Z.mod_divide; [lia|]. apply Wn. }
  assert (Hp : 0 <= n_prefix (ni_current it) <= width v) by apply Wn.
  rewrite from_address_spec by (exact Hp || apply Mx). rewrite A, Z.eqb_refl. eexists. split; [reflexivity|].
  split; [|split; [symmetry; exact Ep|split; [reflexivity|exact Mx]]]. split; [apply net_of_wf; auto; apply Mx|]. split; [apply Mx|]. cbn [ni_current ni_it ni_prefix ni_step].
  split; [reflexivity|]. split; [reflexivity|]. rewrite Es. reflexivity.
Qed.
Lemma nit_amount v it n : wf_nit v it -> let d := umul v (ni_step it) n in
  0 <= d < 2 ^ width v /\ d = (ni_step it * n) mod 2 ^ width v /\ (size v (ni_current it) | d).
Proof.
  intros (Wn & _ & _ & _ & Es). cbv zeta. rewrite umul_ok. pose proof (M_pos v) as HM. destruct (size_div v _ Wn) as [D K].
  split; [apply Z.mod_pos_bound; exact HM|]. split; [reflexivity|]. apply step_aligned; assumption.
Qed.
Lemma nit_add_ok v it n : wf_nit v it -> exists it', nit_add v it n = Ret it' /\ nmoved v it ((ni_step it * n) mod 2 ^ width v) it'.
Proof.
  intros W. destruct (nit_amount v it n W) as (R & E & D). unfold nit_add. destruct (ait_add_ok v (ni_it it) _ (proj1 (proj2 W)) R) as (x & -> & Mx). cbn [bind].
  destruct (nit_rebuild v it _ x W Mx D) as (m & -> & H). cbn [bind]. eexists. split; [reflexivity|]. rewrite <- E. exact H.
Qed.
Lemma nit_sub_ok v it n : wf_nit v it -> exists it', nit_sub v it n = Ret it' /\ nmoved v it (- ((ni_step it * n) mod 2 ^ width v)) it'.
Proof.
  intros W. destruct (nit_amount v it n W) as (R & E & D). unfold nit_sub. destruct (ait_sub_ok v (ni_it it) _ (proj1 (proj2 W)) R) as (x & -> & Mx). cbn [bind].
  destruct (nit_rebuild v it _ x W Mx) as (m & -> & H); [apply Z.divide_opp_r; exact D|]. cbn [bind]. eexists. split; [reflexivity|]. rewrite <- E. exact H.
Qed.
Lemma nit_at_ok v it n : wf_nit v it -> exists x, nit_add v it n = Ret x /\ nit_at v it n = Ret (ni_current x).
Proof.
  intros W. destruct (nit_amount v it n W) as (R & E & D). unfold nit_add, nit_at. destruct (ait_add_ok v (ni_it it) _ (proj1 (proj2 W)) R) as (x & -> & Mx). cbn [bind].
  destruct (nit_rebuild v it _ x W Mx D) as (m & -> & H). cbn [bind]. eauto.
Qed.
Lemma nit_net v a b : wf_nit v a -> wf_nit v b -> ni_prefix a = ni_prefix b -> it_current (ni_it a) = it_current (ni_it b) -> ni_current a = ni_current b.
Proof.
  intros (Wa & _ & Ea & Pa & _) (Wb & _ & Eb & Pb & _) E1 E2. apply (net_ext v); congruence.
Qed.
Lemma nit_ext v a b : wf_nit v a -> wf_nit v b -> ni_prefix a = ni_prefix b -> nit_pos v a = nit_pos v b -> a = b.
Proof.
  intros Wa Wb E1 E2. assert (E : ni_it a = ni_it b) by (apply (ait_ext v); [apply Wa|apply Wb|exact E2]).
  assert (En : ni_current a = ni_current b) by (apply (nit_net v); congruence). destruct Wa as (_ & _ & _ & Pa & Sa), Wb as (_ & _ & _ & Pb & Sb).
  destruct a as [a1 a2 a3 a4], b as [b1 b2 b3 b4]. cbn [ni_current ni_it ni_step ni_prefix] in *. congruence.
Qed.
Lemma nmoved_ext v it d a b : nmoved v it d a -> nmoved v it d b -> a = b.
Proof. intros (Wa & Pa & _ & _ & Ma) (Wb & Pb & _ & _ & Mb). apply (nit_ext v); unfold nit_pos; congruence. Qed.
Lemma nmoved_eq v it d e x : d = e -> nmoved v it d x -> nmoved v it e x. Proof. intros ->. auto. Qed.
Lemma nmoved_trans v it d a e b : nmoved v it d a -> nmoved v a e b -> nmoved v it (d + e) b.
Proof. intros (Wa & Pa & Sa & Ma) (Wb & Pb & Sb & Mb). split; [exact Wb|]. split; [congruence|]. split; [congruence|]. eapply moved_trans; eassumption. Qed.
Lemma nmoved_0 v it : wf_nit v it -> nmoved v it 0 it.
Proof. intros W. split; [exact W|]. do 2 (split; [reflexivity|]). apply moved_0. apply W. Qed.
Lemma nit_add_sub v it n : wf_nit v it -> (x <- nit_add v it n ;; nit_sub v x n) = Ret it /\ (x <- nit_sub v it n ;; nit_add v x n) = Ret it.
Proof.
  intros W. destruct (nit_add_ok v it n W) as (x & -> & Mx). destruct (nit_sub_ok v it n W) as (y & -> & My). cbn [bind].
  destruct (nit_sub_ok v x n (proj1 Mx)) as (x' & -> & Mx'). destruct (nit_add_ok v y n (proj1 My)) as (y' & -> & My').
  pose proof (nmoved_0 v it W) as M0. pose proof Mx as (_ & _ & Sx & _). pose proof My as (_ & _ & Sy & _). rewrite Sx in Mx'. rewrite Sy in My'.
  split; f_equal; apply (nmoved_ext v it 0); auto; [pose proof (nmoved_trans _ _ _ _ _ _ Mx Mx') as K|pose proof (nmoved_trans _ _ _ _ _ _ My My') as K];
    (eapply nmoved_eq; [|exact K]); lia.
Qed.

(** *** Comparison *)
Lemma same_size v a b : n_prefix a = n_prefix b -> size v a = size v b. Proof. unfold size. congruence. Qed.
Lemma unsc v it : wf_nit v it -> unscoped (ni_current it) /\ first (ni_current it) = val (it_current (ni_it it)).
Proof. intros (_ & (_ & Sc & _) & E & _). unfold unscoped, first. rewrite E. auto. Qed.
Lemma nit_eqb_ok v a b : wf_nit v a -> wf_nit v b -> ni_prefix a = ni_prefix b -> nit_eqb v a b = Ret (nit_pos v a =? nit_pos v b).
Proof.
  intros Wa Wb E. unfold nit_eqb. pose proof (proj1 (proj2 Wa)) as Ia. pose proof (proj1 (proj2 Wb)) as Ib.
  destruct (Z.eqb_spec (it_carry (ni_it a)) (it_carry (ni_it b))) as [Ec|Ec].
  - destruct (net_eqb_ok v _ _ (proj1 Wa) (proj1 Wb)) as (r & -> & Hr). f_equal. destruct (Z.eqb_spec (nit_pos v a) (nit_pos v b)) as [K|K].
    + apply Hr. f_equal. apply (nit_ext v); assumption.
    + destruct r; [|reflexivity]. exfalso. apply K. pose proof (proj1 Hr eq_refl) as Q. unfold nit_pos, ait_pos. rewrite Ec. destruct Wa as (_ & _ & <- & _), Wb as (_ & _ & <- & _). rewrite Q. reflexivity.
  - f_equal. symmetry. apply Z.eqb_neq. intros K. apply Ec. f_equal. apply (ait_ext v); assumption.
Qed.
Lemma same_before v a b : wf_nit v a -> wf_nit v b -> ni_prefix a = ni_prefix b ->
  (net_before (ni_current a) (ni_current b) <-> val (it_current (ni_it a)) < val (it_current (ni_it b))).
Proof.
  intros Wa Wb E. destruct (unsc v a Wa) as [Ua Fa], (unsc v b Wb) as [Ub Fb]. unfold net_before.
  rewrite before_unscoped by (unfold unscoped in *; congruence). unfold first in *. rewrite Fa, Fb.
  destruct Wa as (_ & _ & _ & <- & _), Wb as (_ & _ & _ & <- & _). lia.
Qed.
Lemma nit_cmp_ok v a b : wf_nit v a -> wf_nit v b -> ni_prefix a = ni_prefix b -> nit_cmp v a b = Ret (nit_pos v a ?= nit_pos v b).
Proof.
  intros Wa Wb E. unfold nit_cmp, nit_pos, ait_pos. pose proof (wf_val v _ (proj1 (proj2 Wa))). pose proof (wf_val v _ (proj1 (proj2 Wb))).
  pose proof (proj1 (proj2 Wa)) as (_ & _ & _ & Ka). pose proof (proj1 (proj2 Wb)) as (_ & _ & _ & Kb).
  destruct (Z.compare_spec (it_carry (ni_it a)) (it_carry (ni_it b))) as [Ec|Ec|Ec].
  - destruct (net_cmp_ok v _ _ (proj1 Wa) (proj1 Wb)) as (c & -> & Hc). f_equal. rewrite Ec. destruct c.
    + destruct (unsc v a Wa) as [_ <-], (unsc v b Wb) as [_ <-]. rewrite Hc. symmetry. apply Z.compare_refl.
    + apply (same_before v) in Hc; auto. symmetry. apply Z.compare_lt_iff. lia.
    + apply (same_before v) in Hc; auto. symmetry. apply Z.compare_gt_iff. lia.
  - f_equal. symmetry. apply Z.compare_lt_iff. destruct Ka as [Ka|Ka], Kb as [Kb|Kb]; rewrite Ka, Kb in *; lia.
  - f_equal. symmetry. apply Z.compare_gt_iff. destruct Ka as [Ka|Ka], Kb as [Kb|Kb]; rewrite Ka, Kb in *; lia.
Qed.
Lemma nit_ltb_ok v a b : wf_nit v a -> wf_nit v b -> ni_prefix a = ni_prefix b -> nit_ltb v a b = Ret (nit_pos v a <? nit_pos v b).
Proof.
  intros Wa Wb E. unfold nit_ltb, nit_pos, ait_pos. pose proof (wf_val v _ (proj1 (proj2 Wa))). pose proof (wf_val v _ (proj1 (proj2 Wb))).
  pose proof (proj1 (proj2 Wa)) as (_ & _ & _ & Ka). pose proof (proj1 (proj2 Wb)) as (_ & _ & _ & Kb).
  destruct (Z.ltb_spec (it_carry (ni_it a)) (it_carry (ni_it b))) as [Ec|Ec].
  - f_equal. symmetry. apply Z.ltb_lt. destruct Ka as [Ka|Ka], Kb as [Kb|Kb]; rewrite Ka, Kb in *; lia.
  - destruct (Z.eqb_spec (it_carry (ni_it a)) (it_carry (ni_it b))) as [Eq|Eq].
    + destruct (unsc v a Wa) as [Ua Fa], (unsc v b Wb) as [Ub Fb]. destruct (net_ltb_ok v _ _ (proj1 Wa) (proj1 Wb)) as (r & -> & Hr); [unfold unscoped in *; congruence|].
      rewrite (same_before v) in Hr by assumption. f_equal. rewrite Eq. destruct r.
      * symmetry. apply Z.ltb_lt. pose proof (proj1 Hr eq_refl). lia.
      * symmetry. apply Z.ltb_ge. destruct (Z.ltb_spec (val (it_current (ni_it a))) (val (it_current (ni_it b)))) as [L|L]; [apply Hr in L; discriminate|lia].
    + f_equal. symmetry. apply Z.ltb_ge. destruct Ka as [Ka|Ka], Kb as [Kb|Kb]; rewrite Ka, Kb in *; lia.
Qed.

(** *** subnets() *)
Lemma v4_scope a : wf_addr V4 a -> a_scope a = []. Proof. intros [_ H]. exact H. Qed.
Lemma remove_scope_ok v a : wf_addr v a -> remove_scope v a = Ret (addr_of v (val a)).
Proof.
  intros W. pose proof (val_range v a W) as R. destruct v.
  - cbn [remove_scope]. rewrite addr_of_eq; auto using v4_scope.
  - cbn [remove_scope]. change (v6_set_scope 0 []) with (@Ret (list Z) []). cbn [bind]. f_equal.
    apply (addr_eq V6); [apply empty_scope; apply W|apply addr_of_wf; exact R| |].
    + rewrite addr_of_val by exact R. reflexivity.
    + rewrite addr_of_scope by exact R. reflexivity.
Qed.
Definition mk_nt v x st p c : nit := mk_nit (net_of v (addr_of v x) p) (mk_it v x c) st p.
Lemma nit_make_ok v x st p c : 0 <= x < 2 ^ width v -> 0 <= p <= width v -> x mod 2 ^ (width v - p) = 0 -> c = 0 \/ c = 1 -> st = 2 ^ (width v - p) mod 2 ^ width v ->
  nit_make v (addr_of v x) st p c = Ret (mk_nt v x st p c) /\ wf_nit v (mk_nt v x st p c) /\ nit_pos v (mk_nt v x st p c) = c * 2 ^ width v + x.
Proof.
  intros Hx Hp A Hc Hs. destruct (mk_it_wf v x c Hx Hc) as [Wi Pi]. pose proof (addr_of_wf v x Hx) as Wx. split; [|split].
  - unfold nit_make. rewrite from_address_spec by assumption. rewrite addr_of_val, A, Z.eqb_refl by exact Hx. cbn [bind]. rewrite ait_make_ok by exact Hx. reflexivity.
  - unfold wf_nit, mk_nt. cbn [ni_current ni_it ni_step ni_prefix]. split; [apply net_of_wf; auto; rewrite addr_of_val; auto|]. split; [exact Wi|]. split; [reflexivity|]. split; [reflexivity|exact Hs].
  - exact Pi.
Qed.
Definition subnets_stop v n : Z := if (n_prefix n =? 0) || (n_prefix n =? width v) then first n + size v n else (first n + size v n) mod 2 ^ width v.
Lemma pow_step w p d : 0 <= p -> 0 <= d -> p + d <= w -> 2 ^ (w - p) = 2 ^ d * 2 ^ (w - (p + d)).
Proof. intros. rewrite <- pow2_split by lia. f_equal. lia. Qed.
Lemma step_value k m : 0 < k -> 0 < m -> (k * m - 1) / k = m - 1.
Proof. intros Hk Hm. symmetry. apply (Z.div_unique_pos _ _ _ (k - 1)); lia. Qed.
Lemma size_pow v n d : wf_net v n -> 0 <= d -> n_prefix n + d <= width v -> size v n = 2 ^ d * 2 ^ (width v - (n_prefix n + d)).
Proof. intros W Hd Hp. apply pow_step; auto. apply W. Qed.
Lemma sub_aligned v n d x : wf_net v n -> 0 <= d -> n_prefix n + d <= width v -> (size v n | x) -> x mod 2 ^ (width v - (n_prefix n + d)) = 0.
Proof.
  intros W Hd Hp D. pose proof (pow2_pos (width v - (n_prefix n + d)) ltac:(lia)). apply Z.mod_divide; [lia|]. eapply Z.divide_trans; [|exact D].
  rewrite (size_pow v n d W Hd Hp). apply Z.divide_factor_r.
Qed.
Lemma first_div v n : wf_net v n -> (size v n | first n).
Proof. intros W. destruct (size_div v n W) as [_ K]. apply Z.mod_divide; [lia|]. apply W. Qed.
Definition sub_ok v n q s : Prop :=
  wf_nit v (s_begin s) /\ nit_pos v (s_begin s) = first n /\ ni_prefix (s_begin s) = q /\
  wf_nit v (s_end s) /\ nit_pos v (s_end s) = subnets_stop v n /\ ni_prefix (s_end s) = q.
Lemma subnets_make_ok v n d : wf_net v n -> n_prefix n < width v -> 0 <= d < width v -> n_prefix n + d <= width v -> (v = V6 \/ n_prefix n <> 0 \/ d <> 0) ->
  exists s, subnets_make v (addr_of v (first n)) (broadcast n) (hostmask n) d (n_prefix n + d) = Ret s /\ sub_ok v n (n_prefix n + d) s /\ s_size s = 2 ^ d.
Proof.
  intros W Hp Hd Hq Hz. pose proof (net_top v n W) as T. destruct (broadcast_spec v n W) as (Wb & Vb & _). destruct (hostmask_spec v n W) as (Wh & Vh & _).
  pose proof (M_pos v) as HM. pose proof (val_range v _ (proj1 W)) as R. fold (first n) in R. assert (P0 : 0 <= n_prefix n) by apply W.
  assert (Q0 : 0 <= n_prefix n + d <= width v) by lia.
  unfold subnets_make. rewrite !to_uint_val by (assumption || apply addr_of_wf; assumption). rewrite Vb, Vh, addr_of_val by exact R. cbn [bind].
  rewrite from_uint_of by exact R. cbn [bind]. rewrite !uadd_ok. set (y := (first n + size v n - 1 + 1) mod 2 ^ width v).
  assert (Ry : 0 <= y < 2 ^ width v) by (apply Z.mod_pos_bound; exact HM). rewrite from_uint_of by exact Ry. cbn [bind].
  rewrite ushr_ok by lia. cbn [bind].
  pose proof (size_pow v n d W ltac:(lia) Hq) as Sz. set (k := 2 ^ (width v - (n_prefix n + d))) in *. assert (Kp : 0 < k) by (apply pow2_pos; lia). pose proof (pow2_pos d ltac:(lia)) as Dp.
  assert (St : (size v n - 1) / 2 ^ d = k - 1) by (rewrite Sz; apply step_value; lia). rewrite uadd_ok, St. replace (k - 1 + 1) with k by lia.
  assert (A1 : first n mod k = 0) by (apply sub_aligned; try lia; auto using first_div).
  destruct (size_div v n W) as [Dv Sp].
  assert (A2 : y mod k = 0).
  { apply sub_aligned; try lia; auto. apply Z.mod_divide; [lia|]. unfold y. rewrite <- Zmod_div_mod by assumption. apply Z.mod_divide; [lia|].
    replace (first n + size v n - 1 + 1) with (first n + size v n) by lia. apply Z.divide_add_r; [auto using first_div|apply Z.divide_refl]. }
  destruct (nit_make_ok v (first n) (k mod 2 ^ width v) (n_prefix n + d) 0 R Q0 A1 ltac:(lia) eq_refl) as (-> & Wx & Px). cbn [bind].
  destruct (addr_eqb_ok v _ _ (addr_of_wf v _ R) (addr_of_wf v _ Ry)) as (r & -> & Hr). cbn [bind].
  assert (C : (if r then 1 else 0) = 0 \/ (if r then 1 else 0) = 1) by (destruct r; lia).
  destruct (nit_make_ok v y (k mod 2 ^ width v) (n_prefix n + d) _ Ry Q0 A2 C eq_refl) as (-> & Wy & Py). cbn [bind].
  rewrite usub_ok. replace (first n + size v n - 1 - first n) with (size v n - 1) by lia. rewrite (Z.mod_small (size v n - 1)) by lia.
  assert (Dlt : 2 ^ d < 2 ^ width v) by (apply Z.pow_lt_mono_r; lia).
  assert (Sm : exists s, (q <- udivide v (size v n - 1) (k mod 2 ^ width v) ;; Ret (mk_subnets (mk_nt v (first n) (k mod 2 ^ width v) (n_prefix n + d) 0)
     (mk_nt v y (k mod 2 ^ width v) (n_prefix n + d) (if r then 1 else 0)) (uadd v q 1))) = Ret s /\ s_begin s = mk_nt v (first n) (k mod 2 ^ width v) (n_prefix n + d) 0 /\
     s_end s = mk_nt v y (k mod 2 ^ width v) (n_prefix n + d) (if r then 1 else 0) /\ s_size s = 2 ^ d).
  { destruct (Z.eq_dec (n_prefix n + d) 0) as [Z0|Z0].
    - destruct Hz as [->|Hz]; [|lia]. assert (d = 0) as -> by lia. assert (k = 2 ^ width V6) as -> by (unfold k; rewrite Z0, Z.sub_0_r; reflexivity).
      rewrite Z.mod_same by lia. assert (udivide V6 (size V6 n - 1) 0 = Ret 0) as ->.
      { cbn [udivide]. unfold u128_div. change (of_Z 0) with (mk128 0 0). cbn [up lo]. rewrite Z.eqb_refl. reflexivity. }
      cbn [bind]. eexists. do 3 (split; [reflexivity|]). reflexivity.
    - assert (k < 2 ^ width v) by (unfold k; apply Z.pow_lt_mono_r; lia). rewrite (Z.mod_small k) by lia. rewrite udivide_ok by lia. cbn [bind].
      rewrite Sz. rewrite (Z.mul_comm (2 ^ d)). rewrite step_value by lia. rewrite uadd_ok. rewrite (Z.mod_small (2 ^ d - 1 + 1)) by lia.
      eexists. do 3 (split; [reflexivity|]). cbn [s_size]. lia. }
  destruct Sm as (s & -> & E1 & E2 & E3). exists s. split; [reflexivity|]. split; [|exact E3]. unfold sub_ok. rewrite E1, E2, Px, Py.
  split; [exact Wx|]. split; [lia|]. split; [reflexivity|]. split; [exact Wy|]. split; [|reflexivity].
  unfold subnets_stop. unfold y in *. replace (first n + size v n - 1 + 1) with (first n + size v n) in * by lia.
  assert (E : r = true <-> first n = (first n + size v n) mod 2 ^ width v).
  { rewrite Hr. split; [intros K; apply (f_equal val) in K; rewrite !addr_of_val in K by assumption; exact K|intros <-; reflexivity]. }
  replace (n_prefix n =? width v) with false by lia. rewrite orb_false_r. destruct (Z.eqb_spec (n_prefix n) 0) as [K|K].
  - assert (size v n = 2 ^ width v) as S0 by (unfold size; rewrite K, Z.sub_0_r; reflexivity). assert (first n = 0) as F0 by lia. rewrite S0, F0 in *.
    rewrite Z.add_0_l, Z.mod_same in * by lia. rewrite (proj2 E eq_refl). lia.
  - assert (size v n < 2 ^ width v) by (unfold size; apply Z.pow_lt_mono_r; lia).
    destruct r; [|lia]. exfalso. pose proof (proj1 E eq_refl) as Q. destruct (Z.eq_dec (first n + size v n) (2 ^ width v)) as [X|X].
    + rewrite X, Z.mod_same in Q by lia. lia.
    + rewrite Z.mod_small in Q by lia. lia.
Qed.
Lemma subnets_single_ok sp v n : wf_net v n -> n_prefix n = width v -> exists s, subnets_single sp v (addr_of v (first n)) (width v) = Ret s /\
  sub_ok v n (width v) s /\ s_size s = 1.
Proof.
  intros W Hp. pose proof (val_range v _ (proj1 W)) as R. fold (first n) in R. pose proof (M_big v) as HB. pose proof (width_pos v).
  unfold subnets_single. rewrite to_uint_val by (apply addr_of_wf; exact R). rewrite addr_of_val by exact R. cbn [bind].
  replace (mk_addr (a_bytes (addr_of v (first n))) []) with (addr_of v (first n)).
  2:{ pose proof (addr_of_scope v _ R) as Sc. destruct (addr_of v (first n)) as [bb ss]. cbn [a_scope a_bytes] in *. rewrite Sc. reflexivity. }
  rewrite uadd_ok. set (y := (first n + 1) mod 2 ^ width v). assert (Ry : 0 <= y < 2 ^ width v) by (apply Z.mod_pos_bound; lia). rewrite from_uint_of by exact Ry. cbn [bind].
  assert (One : 1 = 2 ^ (width v - width v) mod 2 ^ width v) by (rewrite Z.sub_diag, Z.mod_small; lia).
  assert (A : forall x, x mod 2 ^ (width v - width v) = 0) by (intros x; rewrite Z.sub_diag; apply Z.mod_1_r).
  destruct (nit_make_ok v (first n) 1 (width v) 0 R ltac:(lia) (A _) ltac:(lia) One) as (-> & Wx & Px). cbn [bind].
  pose proof (le_unscoped sp v (addr_of v y) (addr_of v (first n)) (addr_of_wf v y Ry) (addr_of_wf v _ R)) as L.
  destruct L as (_ & _ & L & _); [rewrite !addr_of_scope by (lia || assumption); reflexivity|]. rewrite L. rewrite !addr_of_val by (lia || assumption). cbn [bind].
  assert (K : (if y <? first n then 1 else 0) = 0 \/ (if y <? first n then 1 else 0) = 1) by (destruct (y <? first n); lia).
  destruct (nit_make_ok v y 1 (width v) _ Ry ltac:(lia) (A _) K One) as (-> & Wy & Py). cbn [bind].
  eexists. split; [reflexivity|]. split; [|reflexivity]. unfold sub_ok, subnets_stop. cbn [s_begin s_end s_size]. rewrite Px, Py. split; [exact Wx|]. split; [lia|]. split; [reflexivity|]. split; [exact Wy|]. split; [|auto].
  assert (size v n = 1) as -> by (unfold size; rewrite Hp, Z.sub_diag; reflexivity). rewrite Hp, Z.eqb_refl, orb_true_r.
  unfold y. rewrite (mod2 (2 ^ width v) (first n + 1)) by lia. destruct (Z.ltb_spec (first n + 1) (2 ^ width v)); match goal with |- context [?a <? ?b] => destruct (Z.ltb_spec a b) end; lia.
Qed.

Lemma subnets_spec sp v n d np q : wf_net v n -> args_ok d np -> asked v n d np q -> q - n_prefix n < width v -> (v = V6 \/ q <> 0) ->
  exists s, subnets sp v n d np = Ret s /\ sub_ok v n q s /\ s_size s = 2 ^ (q - n_prefix n).
Proof.
  intros W (Hd & Hnp) Ha Hw Hz. pose proof (val_range v _ (proj1 W)) as R. fold (first n) in R. assert (P0 : 0 <= n_prefix n <= width v) by apply W.
  unfold subnets, subnets_code. rewrite remove_scope_ok by apply W. fold (first n). cbn [bind]. destruct Ha as [(Hp & ->)|(Hp & d' & Ha & D0 & -> & Hq)].
  - rewrite Hp, Z.eqb_refl. destruct (subnets_single_ok sp v n W Hp) as (s & -> & H & S1). cbn [bind]. exists s. split; [reflexivity|]. split; [exact H|]. rewrite S1, Z.sub_diag. reflexivity.
  - replace (n_prefix n =? width v) with false by lia.
    assert (K : (match np with Some np0 => if np0 <? n_prefix n then inl new_prefix_must_be_longer else if negb (d =? 1) then inl cannot_set_prefixlen_diff_and_new_prefix else inr (np0 - n_prefix n) | None => inr d end) = inr d').
    { unfold asked_diff in Ha. exact Ha. } rewrite K.
    assert (width v <= 128) by (destruct v; cbn [width]; lia). unfold w64. rewrite Z.mod_small by lia. replace (n_prefix n + d' >? width v) with false by lia.
    destruct (subnets_make_ok v n d' W Hp ltac:(lia) Hq) as (s & -> & H1 & H2); [destruct Hz as [->|Hz]; [auto|right; lia]|].
    cbn [bind]. exists s. split; [reflexivity|]. split; [exact H1|]. rewrite H2. f_equal. lia.
Qed.
Lemma asked_range v n d np q : wf_net v n -> asked v n d np q -> n_prefix n <= q <= width v.
Proof. intros W [[E ->]|(L & d' & _ & D & -> & H)]; lia. Qed.

Lemma sub_geom v n q : wf_net v n -> n_prefix n <= q <= width v -> let k := 2 ^ (width v - q) in
  0 < k /\ size v n = 2 ^ (q - n_prefix n) * k /\ 0 < 2 ^ (q - n_prefix n) /\ (q <> 0 -> k < 2 ^ width v) /\ 0 <= first n /\ first n + size v n <= 2 ^ width v.
Proof.
  intros W Hq. cbv zeta. pose proof (net_top v n W) as T. assert (P0 : 0 <= n_prefix n <= width v) by apply W. split; [apply pow2_pos; lia|].
  split; [|split; [apply pow2_pos; lia|split; [intros; apply Z.pow_lt_mono_r; lia|lia]]].
  rewrite (size_pow v n (q - n_prefix n) W) by lia. f_equal. f_equal. lia.
Qed.
Lemma subnets_at_ok v n q s i : wf_net v n -> n_prefix n <= q <= width v -> sub_ok v n q s -> 0 <= i < 2 ^ (q - n_prefix n) ->
  exists m, subnets_at v s i = Ret m /\ nth_subnet v n q i m.
Proof.
  intros W Hq (Wb & Pb & Qb & _) Hi. destruct (sub_geom v n q W Hq) as (K & Sz & D & KM & F & T). set (k := 2 ^ (width v - q)) in *.
  pose proof (M_pos v) as HM. unfold subnets_at. destruct (nit_add_ok v _ i Wb) as (x & -> & Mx). cbn [bind]. eexists. split; [reflexivity|].
  pose proof Mx as (Wx & Px & _ & Mv). destruct (unsc v x Wx) as [U Fx]. split; [apply Wx|]. split; [exact U|].
  assert (Ep : n_prefix (ni_current x) = q) by (destruct Wx as (_ & _ & _ & <- & _); congruence). split; [exact Ep|].
  rewrite Fx, (moved_val _ _ _ _ Mv). fold (nit_pos v (s_begin s)). rewrite Pb. fold k.
  assert (Es : ni_step (s_begin s) = k mod 2 ^ width v).
  { pose proof Wb as (_ & _ & _ & E1 & ->). unfold size. rewrite <- E1, Qb. reflexivity. }
  rewrite Es, Zmult_mod_idemp_l, Zplus_mod_idemp_r. assert (k * i + k <= size v n) by nia. rewrite Z.mod_small by nia. lia.
Qed.
Lemma nth_cover v n q x : wf_net v n -> n_prefix n <= q <= width v -> in_net v n x ->
  exists i, 0 <= i < 2 ^ (q - n_prefix n) /\ forall m, nth_subnet v n q i m -> in_net v m x.
Proof.
  intros W Hq Hx. destruct (sub_geom v n q W Hq) as (K & Sz & D & _). set (k := 2 ^ (width v - q)) in *. unfold in_net in *.
  exists ((x - first n) / k). pose proof (Z.div_mod (x - first n) k ltac:(lia)) as E. pose proof (Z.mod_pos_bound (x - first n) k K) as R. set (j := (x - first n) / k) in *. split.
  - split; [apply Z.div_pos; lia|]. nia.
  - intros m (_ & _ & Ep & Ef). unfold size. rewrite Ep, Ef. fold k. lia.
Qed.
Lemma nth_inside v n q i m x : wf_net v n -> n_prefix n <= q <= width v -> 0 <= i < 2 ^ (q - n_prefix n) -> nth_subnet v n q i m -> in_net v m x -> in_net v n x.
Proof.
  intros W Hq Hi (_ & _ & Ep & Ef). destruct (sub_geom v n q W Hq) as (K & Sz & D & _). unfold in_net, size at 1. rewrite Ep, Ef.
  set (k := 2 ^ (width v - q)) in *. rewrite Sz. intros H. nia.
Qed.
Lemma nth_order v n q i j m m' : n_prefix n <= q <= width v -> i < j -> nth_subnet v n q i m -> nth_subnet v n q j m' ->
  first m + size v m <= first m'.
Proof.
  intros Hq Hi (_ & _ & Ep & Ef) (_ & _ & Ep' & Ef'). unfold size. rewrite Ep, Ef, Ef'. pose proof (pow2_pos (width v - q) ltac:(lia)). nia.
Qed.
Lemma nth_unique v n q i m m' : nth_subnet v n q i m -> nth_subnet v n q i m' -> m = m'.
Proof.
  intros (W & U & Ep & Ef) (W' & U' & Ep' & Ef'). apply (net_ext v); auto; [|congruence]. unfold unscoped, first in *.
  apply (addr_eq v); [apply W|apply W'|congruence|congruence].
Qed.
