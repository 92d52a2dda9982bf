(** Loops over hosts() and subnets() of networks at the top of the address space,
    element by element; the reserved IPv6 networks. *)
From Coq Require Import String.
From Verif Require Import Base Tac V4Model V6Model Uint128Model SpecInt Uint128Proofs SpecAddr SpecStr SpecV6 StrProofs V4Proofs AddressModel SpecOrder
  AddressProofs NetworkModel IterModel ClassifyModel SpecNet SpecIter SpecClass NetProofs NetProofs2 NetProofs3 NetLemmas NetWitness IterProofs IterProofs2 IterProofs3 IterProofs4 IterLemmas
  ClassifyProofs ClassifyProofs2 SpecEdge.

Lemma ring_up_length m : forall k x, length (ring_up m k x) = k.
Proof. induction k as [|k IH]; intros x; cbn [ring_up length]; [|rewrite IH]; reflexivity. Qed.
Lemma ring_down_length m : forall k x, length (ring_down m k x) = k.
Proof. induction k as [|k IH]; intros x; cbn [ring_down length]; [|rewrite IH]; reflexivity. Qed.
Lemma ring_up_nth m : forall k x i, (i < k)%nat -> nth_error (ring_up m k x) i = Some ((x + Z.of_nat i) mod m).
Proof.
  induction k as [|k IH]; intros x i H; [lia|]. cbn [ring_up]. destruct i as [|i]; cbn [nth_error]; [rewrite Z.add_0_r; reflexivity|]. rewrite IH by lia. do 2 f_equal. lia.
Qed.
Lemma ring_down_nth m : forall k x i, (i < k)%nat -> nth_error (ring_down m k x) i = Some ((x - Z.of_nat i) mod m).
Proof.
  induction k as [|k IH]; intros x i H; [lia|]. cbn [ring_down]. destruct i as [|i]; cbn [nth_error]; [rewrite Z.sub_0_r; reflexivity|]. rewrite IH by lia. do 2 f_equal. lia.
Qed.
Lemma map_nth_addr v l (r : list Z) (g : nat -> Z) x : Forall (plain v) l -> map val l = r -> (forall i, (i < length r)%nat -> nth_error r i = Some ((x + g i) mod 2 ^ width v)) ->
  forall i, (i < length l)%nat -> exists a, nth_error l i = Some a /\ nth_addr_round v x (g i) a.
Proof.
  intros F E N i Hi. destruct (nth_error l i) as [a|] eqn:Ea; [|apply nth_error_None in Ea; lia]. exists a. split; [reflexivity|]. split; [exact (proj1 (Forall_forall _ _) F a (nth_error_In _ _ Ea))|].
  rewrite <- E, map_length in N. specialize (N i Hi). rewrite (map_nth_error val _ _ Ea) in N. injection N as N. exact N.
Qed.

(** hosts() *)
Lemma hosts_round sp v n s : wf_net v n -> hosts sp v n = Ret s -> hosts_short v n ->
  exists l, hosts_walk v (Z.to_nat (2 ^ width v + hosts_cnt v n)) (h_begin s) (h_end s) = Ret l /\ Z.of_nat (length l) = 2 ^ width v + hosts_cnt v n /\
    forall i, (i < length l)%nat -> exists a, nth_error l i = Some a /\ nth_addr_round v (hosts_lo v n) (Z.of_nat i) a.
Proof.
  intros W Hs G. hosts_of sp v n W Hs. pose proof (hosts_cnt_pos v n W) as (C & L & T). pose proof (steps_short v n W G) as St. pose proof (M_pos v) as HM. rewrite <- Pb, <- Pe in St.
  set (r := 2 ^ width v + hosts_cnt v n) in *.
  assert (R : (ait_pos v (h_end s) - ait_pos v (h_begin s)) mod (2 * 2 ^ width v) = Z.of_nat (Z.to_nat r)) by (rewrite St, Z2Nat.id; lia).
  pose proof (walk_ok v _ We (Z.to_nat r) _ _ Wb R) as K. rewrite Nat.leb_refl in K. destruct K as (l & El & F & V). exists l. split; [exact El|].
  split; [rewrite <- (map_length val), V, ring_up_length; apply Z2Nat.id; lia|].
  apply (map_nth_addr v l _ Z.of_nat _ F V). intros i Hi. rewrite ring_up_length in Hi. rewrite ring_up_nth by exact Hi. rewrite Pb. reflexivity.
Qed.
Lemma hosts_rround sp v n s : wf_net v n -> hosts sp v n = Ret s -> hosts_short v n ->
  exists rb re, hosts_rbegin v s = Ret rb /\ hosts_rend v s = Ret re /\
  exists l, hosts_rwalk v (Z.to_nat (2 ^ width v + hosts_cnt v n)) rb re = Ret l /\ Z.of_nat (length l) = 2 ^ width v + hosts_cnt v n /\
    forall i, (i < length l)%nat -> exists a, nth_error l i = Some a /\ nth_addr_round v (2 ^ width v - 1) (- Z.of_nat i) a.
Proof.
  intros W Hs G. hosts_of sp v n W Hs. pose proof (hosts_cnt_pos v n W) as (C & L & T). pose proof (steps_short v n W G) as St. pose proof (M_pos v) as HM.
  unfold hosts_rbegin, hosts_rend. destruct (ait_reverse_ok v _ We) as (rb & -> & Mb). destruct (ait_reverse_ok v _ Wb) as (re & -> & Me).
  exists rb, re. do 2 (split; [reflexivity|]). set (r := 2 ^ width v + hosts_cnt v n) in *.
  assert (R : (ait_pos v rb - ait_pos v re) mod (2 * 2 ^ width v) = Z.of_nat (Z.to_nat r)).
  { rewrite (proj2 Mb), (proj2 Me), Pb, Pe, <- Zminus_mod. rewrite Z2Nat.id by lia. rewrite <- St. f_equal. lia. }
  pose proof (rwalk_ok v _ (proj1 Me) (Z.to_nat r) _ _ (proj1 Mb) R) as K. rewrite Nat.leb_refl in K. destruct K as (l & El & F & V). exists l. split; [exact El|].
  split; [rewrite <- (map_length val), V, ring_down_length; apply Z2Nat.id; lia|].
  apply (map_nth_addr v l _ (fun i => - Z.of_nat i) _ F V). intros i Hi. rewrite ring_down_length in Hi. rewrite ring_down_nth by exact Hi. f_equal.
  apply short_iff in G; [|exact W]. destruct G as [_ G]. rewrite Zminus_mod, (pos_mod v rb (proj1 Mb)), (moved_val _ _ _ _ Mb), Pe. rewrite (Z.add_mod (hosts_stop v n)), stop_mod, <- Z.add_mod by (exact W || lia). rewrite G.
  rewrite <- Zminus_mod. reflexivity.
Qed.

(** subnets() *)
Lemma subnets_round v n q s : wf_net v n -> n_prefix n <= q <= width v -> sub_ok v n q s -> subnets_short v n ->
  exists l, subnets_walk v (Z.to_nat (2 ^ q + 2 ^ (q - n_prefix n))) (s_begin s) (s_end s) = Ret l /\ Z.of_nat (length l) = 2 ^ q + 2 ^ (q - n_prefix n) /\
    forall i, (i < length l)%nat -> exists m, nth_error l i = Some m /\ nth_net_round v (first n) q (Z.of_nat i) m.
Proof.
  intros W Hq (Wb & Pb & Qb & We & Pe & Qe) G. destruct (count_pow v n q W Hq) as [_ Cn]. pose proof (sub_steps_short v n W G) as St. destruct G as [_ Hp]. assert (Q0 : q <> 0) by lia.
  pose proof (pow2_pos q ltac:(lia)). pose proof (pow2_pos (q - n_prefix n) ltac:(lia)). pose proof (M_pos v) as HM.
  set (r := Z.to_nat (2 ^ q + 2 ^ (q - n_prefix n))) in *.
  assert (L : left_up v q (s_end s) r (s_begin s)) by (split; [exact Wb|]; split; [exact Qb|]; rewrite Pb, Pe, <- Cn, <- St; reflexivity).
  pose proof (walk_gen (nit_eqb v) (nit_next v) ni_current (s_end s) _ (left_up_eqb v q _ We Qe) (left_up_next v q _ We Q0)) as G'.
  specialize (G' r r _ L). rewrite Nat.leb_refl in G'. destruct G' as (l & El & Hl & Hi). exists l. split; [exact El|]. split; [rewrite Hl; unfold r; rewrite Z2Nat.id; lia|].
  intros i Hlt. rewrite Hl in Hlt. destruct (Hi i Hlt) as (x & (Wx & Qx & Lx) & Ex). exists (ni_current x). split; [exact Ex|].
  destruct (unsc v x Wx) as [U _]. assert (Ep : n_prefix (ni_current x) = q) by (destruct Wx as (_ & _ & _ & <- & _); exact Qx).
  split; [apply Wx|]. split; [exact U|]. split; [exact Ep|]. rewrite (npos_val v) by exact Wx.
  apply (f_equal (fun z => z mod 2 ^ width v)) in Lx. rewrite mod_half, Pe in Lx by exact HM.
  set (k := 2 ^ (width v - q)) in *. set (X := nit_pos v x) in *.
  assert (E : X mod 2 ^ width v = (subnets_stop v n - Z.of_nat (r - i) * k) mod 2 ^ width v).
  { replace X with (subnets_stop v n - (subnets_stop v n - X)) by lia. rewrite (Zminus_mod _ (_ - X)), Lx, <- Zminus_mod. reflexivity. }
  rewrite E, Zminus_mod, sub_stop_mod, <- Zminus_mod by exact W. rewrite Nat2Z.inj_sub by lia.
  replace (first n + size v n - (Z.of_nat r - Z.of_nat i) * k) with (first n + Z.of_nat i * k + (-1) * 2 ^ width v) by lia. apply Z_mod_plus_full.
Qed.
Lemma subnets_rround v n q s : wf_net v n -> n_prefix n <= q <= width v -> sub_ok v n q s -> subnets_short v n ->
  exists rb re, subnets_rbegin v s = Ret rb /\ subnets_rend v s = Ret re /\
  (exists l, subnets_rwalk v (Z.to_nat (2 ^ q + 2 ^ (q - n_prefix n))) rb re = Ret l /\ Z.of_nat (length l) = 2 ^ q + 2 ^ (q - n_prefix n) /\
     forall i, (i < length l)%nat -> exists m, nth_error l i = Some m /\ nth_net_round v (2 ^ width v) q (- 1 - Z.of_nat i) m) /\
  forall k, Z.of_nat k < 2 ^ q + 2 ^ (q - n_prefix n) -> subnets_rwalk v k rb re = UB OutOfFuel.
Proof.
  intros W Hq (Wb & Pb & Qb & We & Pe & Qe) G. destruct (count_pow v n q W Hq) as [_ Cn]. pose proof (sub_steps_short v n W G) as St. pose proof G as [At Hp]. assert (Q0 : q <> 0) by lia.
  pose proof (pow2_pos q ltac:(lia)). pose proof (pow2_pos (q - n_prefix n) ltac:(lia)).
  unfold subnets_rbegin, subnets_rend. destruct (nit_reverse_ok v _ We) as (rb & -> & Mb). destruct (nit_reverse_ok v _ Wb) as (re & -> & Me). exists rb, re. do 2 (split; [reflexivity|]).
  rewrite (step_size v) in Mb, Me by congruence. rewrite Qe in Mb. rewrite Qb in Me.
  pose proof Mb as (Wrb & Qrb & _ & _ & Prb). pose proof Me as (Wre & Qre & _ & _ & Pre). fold (nit_pos v rb) (nit_pos v (s_end s)) in Prb. fold (nit_pos v re) (nit_pos v (s_begin s)) in Pre. rewrite Pe in Prb. rewrite Pb in Pre.
  set (r := Z.to_nat (2 ^ q + 2 ^ (q - n_prefix n))) in *. pose proof (M_pos v) as HM. set (k := 2 ^ (width v - q)) in *.
  assert (L : left_down v q re r rb).
  { split; [exact Wrb|]. split; [congruence|]. fold k. rewrite Prb, Pre, <- Zminus_mod, <- Cn, <- St. unfold sub_steps. f_equal. lia. }
  pose proof (walk_gen (nit_eqb v) (nit_prev v) ni_current re _ (left_down_eqb v q _ Wre ltac:(congruence)) (left_down_prev v q _ Wre Q0)) as G'.
  split; [|intros j Hk; specialize (G' j r _ L); destruct (Nat.leb_spec r j); [lia|exact G']].
  specialize (G' r r _ L). rewrite Nat.leb_refl in G'. destruct G' as (l & El & Hl & Hi). exists l. split; [exact El|]. split; [rewrite Hl; unfold r; rewrite Z2Nat.id; lia|].
  intros i Hlt. rewrite Hl in Hlt. destruct (Hi i Hlt) as (x & (Wx & Qx & Lx) & Ex). exists (ni_current x). split; [exact Ex|].
  destruct (unsc v x Wx) as [U _]. assert (Ep : n_prefix (ni_current x) = q) by (destruct Wx as (_ & _ & _ & <- & _); exact Qx).
  split; [apply Wx|]. split; [exact U|]. split; [exact Ep|]. rewrite (npos_val v) by exact Wx.
  apply (f_equal (fun z => z mod 2 ^ width v)) in Lx. rewrite mod_half in Lx by exact HM. fold k in Lx. fold k. set (X := nit_pos v x) in *.
  assert (Er : nit_pos v re mod 2 ^ width v = (first n - k) mod 2 ^ width v) by (rewrite Pre, mod_half by exact HM; f_equal; lia).
  assert (E : X mod 2 ^ width v = (first n - k + Z.of_nat (r - i) * k) mod 2 ^ width v).
  { replace X with (nit_pos v re + (X - nit_pos v re)) by lia. rewrite Z.add_mod, Lx, Er, <- Z.add_mod by lia. reflexivity. }
  rewrite E. rewrite Nat2Z.inj_sub by lia. unfold at_top in At.
  replace (first n - k + (Z.of_nat r - Z.of_nat i) * k) with (2 ^ width v + (- 1 - Z.of_nat i) * k + 1 * 2 ^ width v) by (clear - Cn At; generalize dependent (2 ^ width v); generalize dependent (Z.of_nat r); generalize (Z.of_nat i); intros; lia).
  rewrite Z_mod_plus_full. reflexivity.
Qed.
Section Sub.
Context sp v n d np q s (W : wf_net v n) (Ha : args_ok d np) (Hq : asked v n d np q) (Hd : defined v n q) (Hs : subnets sp v n d np = Ret s).
Lemma sub_round_ : subnets_short v n ->
  exists l, subnets_walk v (Z.to_nat (2 ^ q + s_size s)) (s_begin s) (s_end s) = Ret l /\ Z.of_nat (length l) = 2 ^ q + s_size s /\
    forall i, (i < length l)%nat -> exists m, nth_error l i = Some m /\ nth_net_round v (first n) q (Z.of_nat i) m.
Proof. intros G. destruct (subnets_good _ _ _ _ _ _ _ W Ha Hq Hd Hs) as (R & Sk & Sz). rewrite Sz. exact (subnets_round v n q s W R Sk G). Qed.
Lemma sub_rround_ : subnets_short v n -> exists rb re, subnets_rbegin v s = Ret rb /\ subnets_rend v s = Ret re /\
  (exists l, subnets_rwalk v (Z.to_nat (2 ^ q + s_size s)) rb re = Ret l /\ Z.of_nat (length l) = 2 ^ q + s_size s /\
     forall i, (i < length l)%nat -> exists m, nth_error l i = Some m /\ nth_net_round v (2 ^ width v) q (- 1 - Z.of_nat i) m) /\
  forall k, Z.of_nat k < 2 ^ q + s_size s -> subnets_rwalk v k rb re = UB OutOfFuel.
Proof. intros G. destruct (subnets_good _ _ _ _ _ _ _ W Ha Hq Hd Hs) as (R & Sk & Sz). rewrite Sz. exact (subnets_rround v n q s W R Sk G). Qed.
End Sub.
Lemma sub_round sp v n d np q s : wf_net v n -> args_ok d np -> asked v n d np q -> defined v n q -> subnets sp v n d np = Ret s -> subnets_short v n ->
  exists l, subnets_walk v (Z.to_nat (2 ^ q + s_size s)) (s_begin s) (s_end s) = Ret l /\ Z.of_nat (length l) = 2 ^ q + s_size s /\
    forall i, (i < length l)%nat -> exists m, nth_error l i = Some m /\ nth_net_round v (first n) q (Z.of_nat i) m.
Proof. exact (sub_round_ sp v n d np q s). Qed.
Lemma sub_rround sp v n d np q s : wf_net v n -> args_ok d np -> asked v n d np q -> defined v n q -> subnets sp v n d np = Ret s -> subnets_short v n ->
  exists rb re, subnets_rbegin v s = Ret rb /\ subnets_rend v s = Ret re /\
  (exists l, subnets_rwalk v (Z.to_nat (2 ^ q + s_size s)) rb re = Ret l /\ Z.of_nat (length l) = 2 ^ q + s_size s /\
     forall i, (i < length l)%nat -> exists m, nth_error l i = Some m /\ nth_net_round v (2 ^ width v) q (- 1 - Z.of_nat i) m) /\
  forall k, Z.of_nat k < 2 ^ q + s_size s -> subnets_rwalk v k rb re = UB OutOfFuel.
Proof. exact (sub_rround_ sp v n d np q s). Qed.
(** 255.255.255.128/25 has two subnets of prefix length 26. *)
Lemma sub_rforever : exists v n s rb re, wf_net v n /\ subnets true v n 1 None = Ret s /\ s_size s = 2 /\ subnets_rbegin v s = Ret rb /\ subnets_rend v s = Ret re /\
  forall k, Z.of_nat k < 2 ^ 26 -> subnets_rwalk v k rb re = UB OutOfFuel.
Proof.
  assert (W : wf_net V4 (net_at V4 "255.255.255.128/25")) by wfn.
  destruct (subnets true V4 (net_at V4 "255.255.255.128/25") 1 None) as [s| |] eqn:Es; [|vm_compute in Es; discriminate|vm_compute in Es; discriminate].
  destruct (sub_rround true V4 _ 1 None 26 s W) as (rb & re & E1 & E2 & _ & K); [split; [split; vm_compute; congruence|exact I]| | |exact Es| |].
  - right. split; [reflexivity|]. exists 1. repeat split; discriminate.
  - split; [reflexivity|right; discriminate].
  - split; [reflexivity|split; reflexivity].
  - exists V4, (net_at V4 "255.255.255.128/25"), s, rb, re. split; [exact W|]. split; [exact Es|]. split; [vm_compute in Es; apply ret_inj in Es; subst s; reflexivity|]. split; [exact E1|]. split; [exact E2|].
    intros k Hk. apply K. assert (0 <= s_size s); [vm_compute in Es; apply ret_inj in Es; subst s; cbn [s_size]; lia|lia].
Qed.

(** is_reserved of IPv6 networks: exactly right but for ::/1. *)
Lemma net_reserved6_exact n : wf_net V6 n -> (net_is_reserved V6 n = true <-> every V6 n (is_reserved V6) \/ half_space n).
Proof.
  intros W. destruct (Z.eqb_spec (n_prefix n) 1) as [P|P]; [destruct (Z.eqb_spec (first n) 0) as [F|F]|].
  - split; [intros _; right; split; assumption|]. intros _. assert (Sz : size V6 n = 2 ^ 127) by (unfold size; rewrite P; reflexivity).
    apply (both_iff V6 n (is_reserved V6) (in_ranges v6_reserved_ranges) W); [intros a Wa; exact (reserved_ok V6 a Wa)|]. rewrite F, Sz.
    split; apply in_rangesb_ok; vm_compute; reflexivity.
  - rewrite net_reserved6 by (exact W || intros [_ K]; contradiction). split; [auto|intros [K|[_ K]]; [exact K|contradiction]].
  - rewrite net_reserved6 by (exact W || intros [K _]; contradiction). split; [auto|intros [K|[K _]]; [exact K|contradiction]].
Qed.
