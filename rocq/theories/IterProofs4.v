(** Loops over subnets(), validation of its arguments. *)
From Coq Require Import Znumtheory.
From Verif Require Import Base Tac V4Model V6Model Uint128Model SpecInt Uint128Proofs SpecAddr SpecStr SpecV6 StrProofs V4Proofs AddressModel SpecOrder
  AddressProofs NetworkModel IterModel SpecNet SpecIter NetProofs NetProofs2 NetProofs3 NetLemmas IterProofs IterProofs2 IterProofs3.

Lemma walk_gen {A B} (eqb : A -> A -> res bool) next (get : A -> B) last (P : nat -> A -> Prop) :
  (forall r it, P r it -> eqb it last = Ret (r =? 0)%nat) ->
  (forall r it, P (S r) it -> exists it', next it = Ret it' /\ P r it') ->
  forall k r it, P r it ->
  if (r <=? k)%nat then exists l, walk eqb next get k it last = Ret l /\ length l = r /\
      forall i, (i < r)%nat -> exists x, P (r - i)%nat x /\ nth_error l i = Some (get x)
  else walk eqb next get k it last = UB OutOfFuel.
Proof.
  intros He Hn. induction k as [|k IH]; intros r it Hp; cbn [walk]; rewrite (He r it Hp); cbn [bind]; destruct r as [|r]; cbn [Nat.eqb Nat.leb].
  - exists []. split; [reflexivity|]. split; [reflexivity|]. intros i Hi. lia.
  - reflexivity.
  - exists []. split; [reflexivity|]. split; [reflexivity|]. intros i Hi. lia.
  - destruct (Hn r it Hp) as (it' & -> & Hp'). cbn [bind]. specialize (IH r it' Hp'). destruct (r <=? k)%nat; [|rewrite IH; reflexivity].
    destruct IH as (l & -> & Hl & Hi). cbn [bind]. eexists. split; [reflexivity|]. split; [cbn [length]; congruence|].
    intros [|i] Hlt; [exists it; auto|]. destruct (Hi i ltac:(lia)) as (x & Px & Ex). exists x. auto.
Qed.

Lemma nit_next_ok v it : wf_nit v it -> exists it', nit_next v it = Ret it' /\ nmoved v it (ni_step it) it'.
Proof.
  intros W. destruct (nit_add_ok v it 1 W) as (x & E & M). exists x. split; [exact E|]. eapply nmoved_eq; [|exact M]. rewrite Z.mul_1_r.
  destruct W as (_ & _ & _ & _ & ->). apply Z.mod_mod. pose proof (M_pos v). lia.
Qed.
Lemma nit_prev_ok v it : wf_nit v it -> exists it', nit_prev v it = Ret it' /\ nmoved v it (- ni_step it) it'.
Proof.
  intros W. destruct (nit_sub_ok v it 1 W) as (x & E & M). exists x. split; [exact E|]. eapply nmoved_eq; [|exact M]. rewrite Z.mul_1_r.
  destruct W as (_ & _ & _ & _ & ->). f_equal. apply Z.mod_mod. pose proof (M_pos v). lia.
Qed.
Lemma step_facts v it : wf_nit v it -> 0 <= ni_step it < 2 ^ width v /\ (size v (ni_current it) | ni_step it).
Proof.
  intros W. pose proof (M_pos v) as HM. destruct W as (Wn & _ & _ & _ & ->). split; [apply Z.mod_pos_bound; exact HM|]. destruct (size_div v _ Wn) as [D K].
  apply Z.mod_divide; [lia|]. rewrite <- Zmod_div_mod by assumption. apply Z_mod_same_full.
Qed.
Lemma nit_reverse_ok v it : wf_nit v it -> exists it', nit_reverse v it = Ret it' /\ nmoved v it (- ni_step it) it'.
Proof.
  intros W. destruct (step_facts v it W) as [R D]. unfold nit_reverse. destruct (step_sub v (ni_it it) (ni_step it) (proj1 (proj2 W)) R) as (c & -> & Mx). cbn [bind].
  destruct (nit_rebuild v it _ _ W Mx) as (m & E & H); [apply Z.divide_opp_r; exact D|]. cbn [it_current] in E. rewrite E. cbn [bind]. eauto.
Qed.
Lemma nit_base_ok v it : wf_nit v it -> exists it', nit_base v it = Ret it' /\ nmoved v it (ni_step it) it'.
Proof.
  intros W. destruct (step_facts v it W) as [R D]. unfold nit_base. destruct (step_add v (ni_it it) (ni_step it) (proj1 (proj2 W)) R) as (c & -> & Mx). cbn [bind].
  destruct (nit_rebuild v it _ _ W Mx D) as (m & E & H). cbn [it_current] in E. rewrite E. cbn [bind]. eauto.
Qed.
Lemma nit_base_reverse v it : wf_nit v it -> (x <- nit_reverse v it ;; nit_base v x) = Ret it.
Proof.
  intros W. destruct (nit_reverse_ok v it W) as (x & -> & Mx). cbn [bind]. destruct (nit_base_ok v x (proj1 Mx)) as (y & -> & My). f_equal.
  apply (nmoved_ext v it 0); [|apply nmoved_0; exact W]. pose proof Mx as (_ & _ & Sx & _). rewrite Sx in My. eapply nmoved_eq; [|exact (nmoved_trans _ _ _ _ _ _ Mx My)]. lia.
Qed.

(** The number of steps left. *)
Definition left_up v q last (r : nat) (it : nit) : Prop :=
  wf_nit v it /\ ni_prefix it = q /\ (nit_pos v last - nit_pos v it) mod (2 * 2 ^ width v) = Z.of_nat r * 2 ^ (width v - q).
Definition left_down v q last (r : nat) (it : nit) : Prop :=
  wf_nit v it /\ ni_prefix it = q /\ (nit_pos v it - nit_pos v last) mod (2 * 2 ^ width v) = Z.of_nat r * 2 ^ (width v - q).
Lemma left_eq v q r it a b : 0 <= q <= width v -> 0 <= a < 2 * 2 ^ width v -> 0 <= b < 2 * 2 ^ width v -> (b - a) mod (2 * 2 ^ width v) = Z.of_nat r * 2 ^ (width v - q) ->
  it = (a =? b) -> it = (r =? 0)%nat.
Proof.
  intros Hq Ha Hb E ->. pose proof (M_pos v). pose proof (pow2_pos (width v - q) ltac:(lia)). pose proof (mod_zero_iff (2 * 2 ^ width v) a b ltac:(lia) Ha Hb) as Z0. rewrite E in Z0.
  destruct r as [|r]; cbn [Nat.eqb]; [apply Z.eqb_eq, Z0; reflexivity|]. apply Z.eqb_neq. intros K. apply Z0 in K. nia.
Qed.
Lemma mod_sub m x r d : 0 < m -> x mod m = r -> 0 <= d <= r -> (x - d) mod m = r - d.
Proof.
  intros Hm <- Hr. symmetry. apply (Z.mod_unique_pos (x - d) m (x / m)); [pose proof (Z.mod_pos_bound x m Hm); lia|]. pose proof (Z.div_mod x m). lia.
Qed.
Lemma prefix_range v it : wf_nit v it -> 0 <= ni_prefix it <= width v.
Proof. intros (W & _ & _ & -> & _). apply W. Qed.
Lemma step_size v it : wf_nit v it -> ni_prefix it <> 0 -> ni_step it = 2 ^ (width v - ni_prefix it).
Proof.
  intros W H. pose proof (prefix_range v it W). destruct W as (Wn & _ & _ & E & ->). unfold size. rewrite <- E. apply Z.mod_small. split; [apply Z.lt_le_incl, pow2_pos; lia|]. apply Z.pow_lt_mono_r; lia.
Qed.
Lemma npos_range v it : wf_nit v it -> 0 <= nit_pos v it < 2 * 2 ^ width v.
Proof. intros W. apply pos_range. apply W. Qed.
Lemma left_up_eqb v q last : wf_nit v last -> ni_prefix last = q -> forall r it, left_up v q last r it -> nit_eqb v it last = Ret (r =? 0)%nat.
Proof.
  intros Wl El r it (W & E & L). rewrite nit_eqb_ok by congruence. f_equal. eapply left_eq; [|apply npos_range; exact W|apply npos_range; exact Wl|exact L|reflexivity].
  rewrite <- E. apply prefix_range. exact W.
Qed.
Lemma left_down_eqb v q last : wf_nit v last -> ni_prefix last = q -> forall r it, left_down v q last r it -> nit_eqb v it last = Ret (r =? 0)%nat.
Proof.
  intros Wl El r it (W & E & L). rewrite nit_eqb_ok by congruence. f_equal. eapply left_eq; [|apply npos_range; exact Wl|apply npos_range; exact W|exact L|apply Z.eqb_sym].
  rewrite <- E. apply prefix_range. exact W.
Qed.
Lemma left_up_next v q last : wf_nit v last -> q <> 0 -> forall r it, left_up v q last (S r) it -> exists it', nit_next v it = Ret it' /\ left_up v q last r it'.
Proof.
  intros Wl Hq r it (W & E & L). destruct (nit_next_ok v it W) as (x & -> & M). exists x. split; [reflexivity|]. pose proof M as (Wx & Ex & _ & _ & Px). fold (nit_pos v x) in Px. fold (nit_pos v it) in Px.
  pose proof (M_pos v). split; [exact Wx|]. split; [congruence|]. rewrite (step_size v) in Px by congruence. rewrite E in Px. rewrite Px, Zminus_mod_idemp_r.
  pose proof (prefix_range v it W). rewrite E in *. pose proof (pow2_pos (width v - q) ltac:(lia)). replace (nit_pos v last - (nit_pos v it + 2 ^ (width v - q))) with (nit_pos v last - nit_pos v it - 2 ^ (width v - q)) by lia.
  rewrite (mod_sub (2 * 2 ^ width v) _ _ (2 ^ (width v - q)) ltac:(lia) L) by nia. lia.
Qed.
Lemma left_down_prev v q last : wf_nit v last -> q <> 0 -> forall r it, left_down v q last (S r) it -> exists it', nit_prev v it = Ret it' /\ left_down v q last r it'.
Proof.
  intros Wl Hq r it (W & E & L). destruct (nit_prev_ok v it W) as (x & -> & M). exists x. split; [reflexivity|]. pose proof M as (Wx & Ex & _ & _ & Px). fold (nit_pos v x) in Px. fold (nit_pos v it) in Px.
  pose proof (M_pos v). split; [exact Wx|]. split; [congruence|]. rewrite (step_size v) in Px by congruence. rewrite E in Px. rewrite Px, Zminus_mod_idemp_l.
  pose proof (prefix_range v it W). rewrite E in *. pose proof (pow2_pos (width v - q) ltac:(lia)). replace (nit_pos v it + - 2 ^ (width v - q) - nit_pos v last) with (nit_pos v it - nit_pos v last - 2 ^ (width v - q)) by lia.
  rewrite (mod_sub (2 * 2 ^ width v) _ _ (2 ^ (width v - q)) ltac:(lia) L) by nia. lia.
Qed.
Lemma npos_val v it : wf_nit v it -> first (ni_current it) = nit_pos v it mod 2 ^ width v.
Proof. intros W. rewrite (proj2 (unsc v it W)). symmetry. apply pos_mod. apply W. Qed.
Lemma mod_half m x : 0 < m -> x mod (2 * m) mod m = x mod m.
Proof. intros Hm. rewrite (Z.mul_comm 2), Z.rem_mul_r by lia. rewrite (Z.mul_comm m), Z_mod_plus_full. apply Z.mod_mod. lia. Qed.
Lemma sub_stop_mod v n : wf_net v n -> subnets_stop v n mod 2 ^ width v = (first n + size v n) mod 2 ^ width v.
Proof. intros W. unfold subnets_stop. destruct (_ || _); [reflexivity|]. apply Z.mod_mod. pose proof (M_pos v). lia. Qed.
Definition sub_steps v n : Z := (subnets_stop v n - first n) mod (2 * 2 ^ width v).
Lemma sub_steps_good v n : wf_net v n -> ~ subnets_short v n -> sub_steps v n = size v n.
Proof.
  intros W G. unfold sub_steps, subnets_stop, subnets_short, at_top in *. pose proof (net_top v n W) as T. pose proof (M_pos v) as HM. assert (P0 : 0 <= n_prefix n <= width v) by apply W.
  assert (S0 : (if (n_prefix n =? 0) || (n_prefix n =? width v) then first n + size v n else (first n + size v n) mod 2 ^ width v) = first n + size v n).
  { destruct (Z.eqb_spec (n_prefix n) 0), (Z.eqb_spec (n_prefix n) (width v)); try reflexivity. cbn [orb]. apply Z.mod_small. lia. }
  rewrite S0. replace (first n + size v n - first n) with (size v n) by lia. apply Z.mod_small. lia.
Qed.
Lemma sub_steps_short v n : wf_net v n -> subnets_short v n -> sub_steps v n = 2 ^ width v + size v n.
Proof.
  intros W [A P]. unfold sub_steps, subnets_stop, at_top in *. pose proof (net_top v n W) as T. pose proof (M_pos v) as HM.
  replace (n_prefix n =? 0) with false by lia. replace (n_prefix n =? width v) with false by lia. cbn [orb]. rewrite A, Z.mod_same by lia.
  rewrite mod_neg by lia. assert (size v n < 2 ^ width v) by (unfold size; apply Z.pow_lt_mono_r; lia). destruct (Z.ltb_spec (0 - first n) 0); lia.
Qed.
Lemma count_pow v n q : wf_net v n -> n_prefix n <= q <= width v -> size v n = Z.of_nat (Z.to_nat (2 ^ (q - n_prefix n))) * 2 ^ (width v - q) /\
  2 ^ width v + size v n = Z.of_nat (Z.to_nat (2 ^ q + 2 ^ (q - n_prefix n))) * 2 ^ (width v - q).
Proof.
  intros W Hq. destruct (sub_geom v n q W Hq) as (K & Sz & D & _). assert (P0 : 0 <= n_prefix n <= width v) by apply W. pose proof (pow2_pos q ltac:(lia)). rewrite !Z2Nat.id by lia. split; [exact Sz|].
  rewrite Sz, Z.mul_add_distr_r. f_equal. rewrite <- pow2_split by lia. f_equal. lia.
Qed.
Lemma in_block f k c i m : 0 <= f -> 0 < k -> 0 <= i < c -> f + c * k <= m -> 0 <= f + (c - 1 - i) * k < m.
Proof. intros. nia. Qed.
Lemma subnets_loop v n q s : wf_net v n -> n_prefix n <= q <= width v -> q <> 0 -> sub_ok v n q s -> ~ subnets_short v n ->
  (exists l, subnets_walk v (Z.to_nat (2 ^ (q - n_prefix n))) (s_begin s) (s_end s) = Ret l /\ length l = Z.to_nat (2 ^ (q - n_prefix n)) /\
     forall i, (i < length l)%nat -> exists m, nth_error l i = Some m /\ nth_subnet v n q (Z.of_nat i) m) /\
  forall k, Z.of_nat k < 2 ^ (q - n_prefix n) -> subnets_walk v k (s_begin s) (s_end s) = UB OutOfFuel.
Proof.
  intros W Hq Q0 (Wb & Pb & Qb & We & Pe & Qe) G. destruct (count_pow v n q W Hq) as [Cn _]. pose proof (sub_steps_good v n W G) as St. destruct (sub_geom v n q W Hq) as (K & Sz & D & KM & F & T).
  set (r := Z.to_nat (2 ^ (q - n_prefix n))) in *. pose proof (M_pos v) as HM.
  assert (L : left_up v q (s_end s) r (s_begin s)) by (split; [exact Wb|]; split; [exact Qb|]; rewrite Pb, Pe, <- Cn, <- St; reflexivity).
  pose proof (walk_gen (nit_eqb v) (nit_next v) ni_current (s_end s) _ (left_up_eqb v q _ We Qe) (left_up_next v q _ We Q0)) as G'.
  split; [|intros k Hk; specialize (G' k r _ L); destruct (Nat.leb_spec r k); [lia|exact G']].
  specialize (G' r r _ L). rewrite Nat.leb_refl in G'. destruct G' as (l & El & Hl & Hi). exists l. split; [exact El|]. split; [exact Hl|].
  intros i Hlt. rewrite Hl in Hlt. destruct (Hi i Hlt) as (x & (Wx & Qx & Lx) & Ex). exists (ni_current x). split; [exact Ex|].
  destruct (unsc v x Wx) as [U _]. assert (Ep : n_prefix (ni_current x) = q) by (destruct Wx as (_ & _ & _ & <- & _); exact Qx).
  split; [apply Wx|]. split; [exact U|]. split; [exact Ep|]. rewrite (npos_val v) by exact Wx.
  apply (f_equal (fun z => z mod 2 ^ width v)) in Lx. rewrite mod_half, Pe in Lx by exact HM.
  set (k := 2 ^ (width v - q)) in *. set (X := nit_pos v x) in *.
  assert (E : X mod 2 ^ width v = (subnets_stop v n - Z.of_nat (r - i) * k) mod 2 ^ width v).
  { replace X with (subnets_stop v n - (subnets_stop v n - X)) by lia. rewrite (Zminus_mod _ (_ - X)), Lx, <- Zminus_mod. reflexivity. }
  rewrite E, Zminus_mod, sub_stop_mod, <- Zminus_mod by exact W. rewrite Cn. rewrite Nat2Z.inj_sub by lia.
  replace (first n + Z.of_nat r * k - (Z.of_nat r - Z.of_nat i) * k) with (first n + Z.of_nat i * k) by lia. apply Z.mod_small. nia.
Qed.
Lemma subnets_loop_short v n q s : wf_net v n -> n_prefix n <= q <= width v -> sub_ok v n q s -> subnets_short v n ->
  (exists l, subnets_walk v (Z.to_nat (2 ^ q + 2 ^ (q - n_prefix n))) (s_begin s) (s_end s) = Ret l /\ Z.of_nat (length l) = 2 ^ q + 2 ^ (q - n_prefix n)) /\
  forall k, Z.of_nat k < 2 ^ q + 2 ^ (q - n_prefix n) -> subnets_walk v k (s_begin s) (s_end s) = UB OutOfFuel.
Proof.
  intros W Hq (Wb & Pb & Qb & We & Pe & Qe) G. destruct (count_pow v n q W Hq) as [_ Cn]. pose proof (sub_steps_short v n W G) as St. destruct G as [_ Hp]. assert (Q0 : q <> 0) by lia.
  pose proof (pow2_pos q ltac:(lia)). pose proof (pow2_pos (q - n_prefix n) ltac:(lia)).
  set (r := Z.to_nat (2 ^ q + 2 ^ (q - n_prefix n))) in *.
  assert (L : left_up v q (s_end s) r (s_begin s)) by (split; [exact Wb|]; split; [exact Qb|]; rewrite Pb, Pe, <- Cn, <- St; reflexivity).
  pose proof (walk_gen (nit_eqb v) (nit_next v) ni_current (s_end s) _ (left_up_eqb v q _ We Qe) (left_up_next v q _ We Q0)) as G'.
  split; [|intros k Hk; specialize (G' k r _ L); destruct (Nat.leb_spec r k); [lia|exact G']].
  specialize (G' r r _ L). rewrite Nat.leb_refl in G'. destruct G' as (l & El & Hl & Hi). exists l. split; [exact El|]. rewrite Hl. unfold r. rewrite Z2Nat.id; lia.
Qed.
Lemma subnets_rloop v n q s : wf_net v n -> n_prefix n <= q <= width v -> q <> 0 -> sub_ok v n q s -> ~ subnets_short v n ->
  exists rb re, subnets_rbegin v s = Ret rb /\ subnets_rend v s = Ret re /\
  (exists l, subnets_rwalk v (Z.to_nat (2 ^ (q - n_prefix n))) rb re = Ret l /\ length l = Z.to_nat (2 ^ (q - n_prefix n)) /\
     forall i, (i < length l)%nat -> exists m, nth_error l i = Some m /\ nth_subnet v n q (2 ^ (q - n_prefix n) - 1 - Z.of_nat i) m) /\
  forall k, Z.of_nat k < 2 ^ (q - n_prefix n) -> subnets_rwalk v k rb re = UB OutOfFuel.
Proof.
  intros W Hq Q0 (Wb & Pb & Qb & We & Pe & Qe) G. destruct (count_pow v n q W Hq) as [Cn _]. pose proof (sub_steps_good v n W G) as St. destruct (sub_geom v n q W Hq) as (K & Sz & D & _ & F & T).
  unfold subnets_rbegin, subnets_rend. destruct (nit_reverse_ok v _ We) as (rb & -> & Mb). destruct (nit_reverse_ok v _ Wb) as (re & -> & Me). exists rb, re. do 2 (split; [reflexivity|]).
  rewrite (step_size v) in Mb, Me by congruence. rewrite Qe in Mb. rewrite Qb in Me.
  pose proof Mb as (Wrb & Qrb & _ & _ & Prb). pose proof Me as (Wre & Qre & _ & _ & Pre). fold (nit_pos v rb) (nit_pos v (s_end s)) in Prb. fold (nit_pos v re) (nit_pos v (s_begin s)) in Pre. rewrite Pe in Prb. rewrite Pb in Pre.
  set (r := Z.to_nat (2 ^ (q - n_prefix n))) in *. pose proof (M_pos v) as HM. set (k := 2 ^ (width v - q)) in *.
  assert (L : left_down v q re r rb).
  { split; [exact Wrb|]. split; [congruence|]. fold k. rewrite Prb, Pre, <- Zminus_mod, <- Cn, <- St. unfold sub_steps. f_equal. lia. }
  pose proof (walk_gen (nit_eqb v) (nit_prev v) ni_current re _ (left_down_eqb v q _ Wre ltac:(congruence)) (left_down_prev v q _ Wre Q0)) as G'.
  split; [|intros j Hk; specialize (G' j r _ L); destruct (Nat.leb_spec r j); [lia|exact G']].
  specialize (G' r r _ L). rewrite Nat.leb_refl in G'. destruct G' as (l & El & Hl & Hi). exists l. split; [exact El|]. split; [exact Hl|].
  intros i Hlt. rewrite Hl in Hlt. destruct (Hi i Hlt) as (x & (Wx & Qx & Lx) & Ex). exists (ni_current x). split; [exact Ex|].
  destruct (unsc v x Wx) as [U _]. assert (Ep : n_prefix (ni_current x) = q) by (destruct Wx as (_ & _ & _ & <- & _); exact Qx).
  split; [apply Wx|]. split; [exact U|]. split; [exact Ep|]. rewrite (npos_val v) by exact Wx.
  apply (f_equal (fun z => z mod 2 ^ width v)) in Lx. rewrite mod_half in Lx by exact HM. fold k in Lx. fold k. set (X := nit_pos v x) in *.
  assert (Er : nit_pos v re mod 2 ^ width v = (first n - k) mod 2 ^ width v) by (rewrite Pre, mod_half by exact HM; f_equal; lia).
  assert (E : X mod 2 ^ width v = (first n - k + Z.of_nat (r - i) * k) mod 2 ^ width v).
  { replace X with (nit_pos v re + (X - nit_pos v re)) by lia. rewrite Z.add_mod, Lx, Er, <- Z.add_mod by lia. reflexivity. }
  rewrite E. assert (Rz : Z.of_nat r = 2 ^ (q - n_prefix n)) by (unfold r; apply Z2Nat.id; lia). rewrite Nat2Z.inj_sub, Rz by lia.
  replace (first n - k + (2 ^ (q - n_prefix n) - Z.of_nat i) * k) with (first n + (2 ^ (q - n_prefix n) - 1 - Z.of_nat i) * k) by lia.
  apply Z.mod_small. assert (Hi' : 0 <= Z.of_nat i < 2 ^ (q - n_prefix n)) by (rewrite <- Rz; lia). rewrite Sz in T.
  apply (in_block (first n) k (2 ^ (q - n_prefix n)) (Z.of_nat i)); assumption.
Qed.

Lemma subnets_front_ok v n q s : wf_net v n -> n_prefix n <= q <= width v -> sub_ok v n q s -> nth_subnet v n q 0 (subnets_front s).
Proof.
  intros W Hq (Wb & Pb & Qb & _). destruct (sub_geom v n q W Hq) as (K & Sz & D & _ & F & T). unfold subnets_front. destruct (unsc v _ Wb) as [U _].
  split; [apply Wb|]. split; [exact U|]. split; [destruct Wb as (_ & _ & _ & <- & _); exact Qb|]. rewrite (npos_val v) by exact Wb. rewrite Pb, Z.mul_0_l, Z.add_0_r. apply Z.mod_small. nia.
Qed.
Lemma subnets_back_ok v n q s : wf_net v n -> n_prefix n <= q <= width v -> sub_ok v n q s ->
  exists m, subnets_back v s = Ret m /\ nth_subnet v n q (2 ^ (q - n_prefix n) - 1) m.
Proof.
  intros W Hq (_ & _ & _ & We & Pe & Qe). destruct (sub_geom v n q W Hq) as (K & Sz & D & _ & F & T). pose proof (M_pos v) as HM. unfold subnets_back.
  destruct (nit_sub_ok v _ 1 We) as (x & -> & Mx). cbn [bind]. eexists. split; [reflexivity|]. pose proof Mx as (Wx & Px & _ & Mv). destruct (unsc v x Wx) as [U Fx].
  split; [apply Wx|]. split; [exact U|]. split; [destruct Wx as (_ & _ & _ & <- & _); congruence|].
  rewrite Fx, (moved_val _ _ _ _ Mv). fold (nit_pos v (s_end s)). rewrite Pe, Z.mul_1_r.
  assert (Es : ni_step (s_end s) = 2 ^ (width v - q) mod 2 ^ width v).
  { pose proof We as (_ & _ & _ & E1 & ->). unfold size. rewrite <- E1, Qe. reflexivity. }
  rewrite Es, Z.mod_mod, Z.add_opp_r, Zminus_mod_idemp_r, Zminus_mod, sub_stop_mod, <- Zminus_mod by (exact W || lia).
  set (k := 2 ^ (width v - q)) in *. rewrite Sz. replace (first n + 2 ^ (q - n_prefix n) * k - k) with (first n + (2 ^ (q - n_prefix n) - 1) * k) by lia.
  rewrite Sz in T. apply Z.mod_small. nia.
Qed.
(** With prefix length 0 the step is 0: the loop stays at its first element. *)
Lemma subnets_loop_zero v n s k : wf_net v n -> n_prefix n = 0 -> sub_ok v n 0 s -> subnets_walk v k (s_begin s) (s_end s) = UB OutOfFuel.
Proof.
  intros W Hp (Wb & Pb & Qb & We & Pe & Qe). pose proof (M_pos v) as HM. pose proof (net_top v n W) as T.
  assert (size v n = 2 ^ width v) as S0 by (unfold size; rewrite Hp, Z.sub_0_r; reflexivity). unfold subnets_stop in Pe. rewrite Hp, S0 in Pe. cbn [Z.eqb orb] in Pe.
  assert (Nx : nit_next v (s_begin s) = Ret (s_begin s)).
  { destruct (nit_next_ok v _ Wb) as (x & -> & Mx). f_equal. apply (nmoved_ext v (s_begin s) 0); [|apply nmoved_0; exact Wb]. eapply nmoved_eq; [|exact Mx].
    pose proof Wb as (_ & _ & _ & E1 & ->). unfold size. rewrite <- E1, Qb, Z.sub_0_r. apply Z_mod_same_full. }
  assert (Ne : nit_eqb v (s_begin s) (s_end s) = Ret false) by (rewrite nit_eqb_ok by congruence; f_equal; apply Z.eqb_neq; rewrite Pb, Pe; lia).
  unfold subnets_walk. induction k as [|k IH]; cbn [walk]; rewrite Ne; cbn [bind]; [reflexivity|]. rewrite Nx. cbn [bind]. rewrite IH. reflexivity.
Qed.

(** *** Validation *)
Definition not_err {A} (r : res A) : Prop := forall e x, r <> Err e x.
Lemma asked_diff_pos p d np d' : 0 <= p -> args_ok d np -> asked_diff p d np = inr d' -> 0 <= d'.
Proof.
  intros Hp ((Hd & _) & Hn) H. unfold asked_diff in H. destruct np as [q|]; [|injection H as <-; exact Hd]. destruct (Z.ltb_spec q p); [discriminate|]. destruct (negb _); [discriminate|]. injection H as <-. lia.
Qed.
Lemma subnets_checks sp v n d np : wf_net v n -> args_ok d np -> n_prefix n < width v -> (np = None -> n_prefix n + d < 2 ^ 64) ->
  match asked_diff (n_prefix n) d np with
  | inl e => subnets sp v n d np = Err e 0
  | inr d' => if n_prefix n + d' >? width v then subnets sp v n d np = Err invalid_prefixlen_diff 0
              else if (n_prefix n =? 0) && (d' =? width v) then subnets sp v n d np = UB BadShift
              else match v with
                   | V4 => if (n_prefix n =? 0) && (d' =? 0) then subnets sp v n d np = UB DivByZero else exists s, subnets sp v n d np = Ret s
                   | V6 => exists s, subnets sp v n d np = Ret s
                   end
  end.
Proof.
  intros W Ha Hp Hw. assert (P0 : 0 <= n_prefix n) by apply W. destruct (asked_diff (n_prefix n) d np) as [e|d'] eqn:Ea.
  - unfold subnets, subnets_code. rewrite remove_scope_ok by apply W. cbn [bind]. replace (n_prefix n =? width v) with false by lia. unfold asked_diff in Ea. rewrite Ea.
    assert (e = new_prefix_must_be_longer \/ e = cannot_set_prefixlen_diff_and_new_prefix) as [->| ->].
    { destruct np as [q|]; [|discriminate]. destruct (q <? n_prefix n); [injection Ea as <-; auto|]. destruct (negb _); [injection Ea as <-; auto|discriminate]. }
    all: reflexivity.
  - pose proof (asked_diff_pos _ _ _ _ P0 Ha Ea) as D0. assert (Dw : n_prefix n + d' < 2 ^ 64).
    { unfold asked_diff in Ea. destruct np as [q|]; [|injection Ea as <-; auto]. destruct Ha as (_ & Hq). unfold is_size in Hq. destruct (q <? n_prefix n); [discriminate|]. destruct (negb _); [discriminate|]. injection Ea as <-. lia. }
    assert (C : n_prefix n + d' <= width v -> asked v n d np (n_prefix n + d')) by (right; split; [exact Hp|]; exists d'; auto).
    destruct (Z.gtb_spec (n_prefix n + d') (width v)) as [G|G].
    + unfold subnets, subnets_code. rewrite remove_scope_ok by apply W. cbn [bind]. replace (n_prefix n =? width v) with false by lia. pose proof Ea as Ea'. unfold asked_diff in Ea'. rewrite Ea'.
      unfold w64. rewrite Z.mod_small by lia. replace (n_prefix n + d' >? width v) with true by lia. reflexivity.
    + specialize (C ltac:(lia)). pose proof (width_pos v) as WP.
      destruct (Z.eqb_spec (n_prefix n) 0) as [Z0|Z0], (Z.eqb_spec d' (width v)) as [Dv|Dv]; cbn [andb].
      * unfold subnets, subnets_code. rewrite remove_scope_ok by apply W. cbn [bind]. replace (n_prefix n =? width v) with false by lia. pose proof Ea as Ea'. unfold asked_diff in Ea'. rewrite Ea'.
        unfold w64. rewrite Z.mod_small by lia. replace (n_prefix n + d' >? width v) with false by lia.
        pose proof (net_top v n W) as T. destruct (broadcast_spec v n W) as (Wb & Vb & _). destruct (hostmask_spec v n W) as (Wh & Vh & _). pose proof (M_pos v) as HM. pose proof (val_range v _ (proj1 W)) as R.
        unfold subnets_make. rewrite !to_uint_val by (assumption || apply addr_of_wf; assumption). cbn [bind]. rewrite addr_of_val by exact R. rewrite from_uint_of by exact R. cbn [bind]. rewrite uadd_ok.
        rewrite from_uint_of by (apply Z.mod_pos_bound; exact HM). cbn [bind]. rewrite Dv, ushr_width. reflexivity.
      * destruct v; [|destruct (subnets_spec sp V6 n d np _ W Ha C ltac:(lia) ltac:(auto)) as (s & E & _); eauto].
        destruct (Z.eqb_spec d' 0) as [D1|D1]; [|destruct (subnets_spec sp V4 n d np _ W Ha C ltac:(lia) ltac:(right; lia)) as (s & E & _); eauto].
        subst d'. unfold subnets, subnets_code. rewrite remove_scope_ok by apply W. cbn [bind]. replace (n_prefix n =? width V4) with false by lia. pose proof Ea as Ea'. unfold asked_diff in Ea'. rewrite Ea'.
        unfold w64. rewrite Z.mod_small by lia. replace (n_prefix n + 0 >? width V4) with false by lia. rewrite Z0.
        pose proof (net_top V4 n W) as T. destruct (broadcast_spec V4 n W) as (Wb & Vb & _). destruct (hostmask_spec V4 n W) as (Wh & Vh & _). pose proof (val_range V4 _ (proj1 W)) as R. fold (first n) in *.
        assert (S0 : size V4 n = 2 ^ 32) by (unfold size; rewrite Z0; reflexivity). assert (F0 : first n = 0) by (change (2 ^ width V4) with (2 ^ 32) in T; lia).
        unfold subnets_make. rewrite !to_uint_val by (assumption || apply addr_of_wf; assumption). rewrite Vb, Vh, addr_of_val by exact R. rewrite F0, S0. reflexivity.
      * lia.
      * destruct (subnets_spec sp v n d np _ W Ha C ltac:(lia) ltac:(right; lia)) as (s & E & _). destruct v; eauto.
Qed.
Lemma subnets_single_any sp v n d np : wf_net v n -> args_ok d np -> n_prefix n = width v -> exists s, subnets sp v n d np = Ret s /\ s_size s = 1.
Proof.
  intros W Ha Hp. pose proof (width_pos v). destruct (subnets_spec sp v n d np (width v) W Ha) as (s & E & _ & S1); [left; auto|lia|right; lia|].
  exists s. split; [exact E|]. rewrite S1, Hp, Z.sub_diag. reflexivity.
Qed.

(** *** Laws of network iterators *)
Lemma nit_index_plus v it n : wf_nit v it -> exists x, nit_plus v it n = Ret x /\ nit_index v it n = Ret (ni_current x).
Proof. intros W. unfold nit_plus, nit_index. apply nit_at_ok. exact W. Qed.
Lemma nit_plus_minus v it n : wf_nit v it -> (x <- nit_plus v it n ;; nit_minus v x n) = Ret it /\ (x <- nit_minus v it n ;; nit_plus v x n) = Ret it.
Proof. intros W. unfold nit_plus, nit_minus. apply nit_add_sub. exact W. Qed.
Lemma nit_next_plus v it : nit_next v it = nit_plus v it 1 /\ nit_prev v it = nit_minus v it 1.
Proof.
  unfold nit_next, nit_prev, nit_plus, nit_minus. replace (u_of_i64 v 1) with 1; [split; reflexivity|]. destruct v; reflexivity.
Qed.
