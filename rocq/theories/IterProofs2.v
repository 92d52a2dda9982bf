(** Loops over hosts(), laws of address iterators. *)
From Verif Require Import Base Tac V4Model V6Model Uint128Model SpecInt Uint128Proofs SpecAddr SpecStr SpecV6 StrProofs V4Proofs AddressModel SpecOrder
  AddressProofs NetworkModel IterModel SpecNet SpecIter NetProofs NetProofs2 NetProofs3 NetLemmas IterProofs.

Lemma pow_split v : 2 ^ width v = match v with V4 => 2 ^ 32 | V6 => 2 ^ 128 end. Proof. destruct v; reflexivity. Qed.
(** Number of increments from begin() to end(). *)
Lemma short_iff v n : wf_net v n -> (hosts_short v n <-> n_prefix n <> width v /\ hosts_lo v n + hosts_cnt v n = 2 ^ width v).
Proof.
  intros W. pose proof (net_top v n W) as T. unfold hosts_short, at_top, hosts_lo, hosts_cnt.
  destruct (size_cases v n W) as [(Hp & Hs)|[(Hp & Hs)|(Hp & Hs)]].
  - rewrite Hp. lia.
  - rewrite Hp, Z.eqb_refl. replace (width v - 1 =? width v) with false by lia. replace (width v - 1 >=? width v - 1) with true by lia. lia.
  - replace (n_prefix n =? width v - 1) with false by lia. replace (n_prefix n =? width v) with false by lia. replace (n_prefix n >=? width v - 1) with false by lia.
    destruct v; [split; intros H; exfalso; [destruct H as (_ & _ & [H|H]); [discriminate|lia]|lia]|split; intros H; [lia|split; [lia|split; [lia|auto]]]].
Qed.
Lemma steps_good v n : wf_net v n -> ~ hosts_short v n -> (hosts_stop v n - hosts_lo v n) mod (2 * 2 ^ width v) = hosts_cnt v n.
Proof.
  intros W G. rewrite short_iff in G by exact W. pose proof (hosts_cnt_pos v n W) as (C & L & T). pose proof (M_pos v).
  assert (hosts_stop v n = hosts_lo v n + hosts_cnt v n) as ->.
  { unfold hosts_stop. destruct (Z.eqb_spec (n_prefix n) (width v)) as [E|E]; [|apply Z.mod_small; lia].
    unfold hosts_lo, hosts_cnt. rewrite E, Z.eqb_refl. replace (width v >=? width v - 1) with true by lia. reflexivity. }
  replace (hosts_lo v n + hosts_cnt v n - hosts_lo v n) with (hosts_cnt v n) by lia. apply Z.mod_small. lia.
Qed.
Lemma steps_short v n : wf_net v n -> hosts_short v n -> (hosts_stop v n - hosts_lo v n) mod (2 * 2 ^ width v) = 2 ^ width v + hosts_cnt v n.
Proof.
  intros W G. apply short_iff in G; [|exact W]. pose proof (hosts_cnt_pos v n W) as (C & L & T). pose proof (M_pos v).
  unfold hosts_stop. destruct (Z.eqb_spec (n_prefix n) (width v)) as [E|E]; [lia|]. destruct G as [_ G]. rewrite G. rewrite Z.mod_same by lia.
  rewrite mod_neg by lia. destruct (Z.ltb_spec (0 - hosts_lo v n) 0); lia.
Qed.
Ltac hosts_of sp v n W Hs := let s' := fresh in let E := fresh in destruct (hosts_ok sp v n W) as (s' & E & Wb & Pb & We & Pe); rewrite E in Hs; apply ret_inj in Hs; subst s'; clear E.
Lemma hosts_loop sp v n s : wf_net v n -> hosts sp v n = Ret s -> ~ hosts_short v n ->
  (exists l, hosts_walk v (Z.to_nat (hosts_cnt v n)) (h_begin s) (h_end s) = Ret l /\ Forall (plain v) l /\
     map val l = count_up (Z.to_nat (hosts_cnt v n)) (hosts_lo v n)) /\
  forall k, Z.of_nat k < hosts_cnt v n -> hosts_walk v k (h_begin s) (h_end s) = UB OutOfFuel.
Proof.
  intros W Hs G. hosts_of sp v n W Hs. pose proof (hosts_cnt_pos v n W) as (C & L & T). pose proof (steps_good v n W G) as St. rewrite <- Pb, <- Pe in St.
  assert (R : (ait_pos v (h_end s) - ait_pos v (h_begin s)) mod (2 * 2 ^ width v) = Z.of_nat (Z.to_nat (hosts_cnt v n))) by (rewrite St, Z2Nat.id; lia).
  split.
  - pose proof (walk_ok v _ We (Z.to_nat (hosts_cnt v n)) _ _ Wb R) as K. rewrite Nat.leb_refl in K. destruct K as (l & El & F & V). exists l. split; [exact El|]. split; [exact F|].
    rewrite V, Pb. apply ring_count; rewrite ?Z2Nat.id; lia.
  - intros k Hk. pose proof (walk_ok v _ We k _ _ Wb R) as K. destruct (Nat.leb_spec (Z.to_nat (hosts_cnt v n)) k); [lia|exact K].
Qed.
(** The loop over a short sequence runs through the whole address space once more. *)
Lemma hosts_loop_short sp v n s : wf_net v n -> hosts sp v n = Ret s -> hosts_short v n ->
  (exists l, hosts_walk v (Z.to_nat (2 ^ width v + hosts_cnt v n)) (h_begin s) (h_end s) = Ret l /\ Z.of_nat (length l) = 2 ^ width v + hosts_cnt v n) /\
  forall k, Z.of_nat k < 2 ^ width v + hosts_cnt v n -> hosts_walk v k (h_begin s) (h_end s) = UB OutOfFuel.
Proof.
  intros W Hs G. hosts_of sp v n W Hs. pose proof (hosts_cnt_pos v n W) as (C & L & T). pose proof (steps_short v n W G) as St. rewrite <- Pb, <- Pe in St.
  set (r := 2 ^ width v + hosts_cnt v n) in *.
  assert (R : (ait_pos v (h_end s) - ait_pos v (h_begin s)) mod (2 * 2 ^ width v) = Z.of_nat (Z.to_nat r)) by (rewrite St, Z2Nat.id; lia).
  assert (RL : forall m k x, length (ring_up m k x) = k) by (intros m; induction k as [|k IH]; intros x; cbn [ring_up length]; [|rewrite IH]; reflexivity).
  split.
  - pose proof (walk_ok v _ We (Z.to_nat r) _ _ Wb R) as K. rewrite Nat.leb_refl in K. destruct K as (l & El & F & V). exists l. split; [exact El|].
    rewrite <- (map_length val), V, RL. apply Z2Nat.id. lia.
  - intros k Hk. pose proof (walk_ok v _ We k _ _ Wb R) as K. destruct (Nat.leb_spec (Z.to_nat r) k); [lia|exact K].
Qed.
Lemma ait_reverse_ok v it : wf_ait v it -> exists it', ait_reverse v it = Ret it' /\ moved v it (-1) it'.
Proof.
  intros W. pose proof (M_big v). unfold ait_reverse. destruct (step_sub v it 1 W ltac:(lia)) as (c & -> & H'). cbn [bind]. eauto.
Qed.
Lemma ait_base_ok v it : wf_ait v it -> exists it', ait_base v it = Ret it' /\ moved v it 1 it'.
Proof.
  intros W. pose proof (M_big v). unfold ait_base. destruct (step_add v it 1 W ltac:(lia)) as (c & -> & H'). cbn [bind]. eauto.
Qed.
Lemma base_reverse v it : wf_ait v it -> (x <- ait_reverse v it ;; ait_base v x) = Ret it.
Proof.
  intros W. destruct (ait_reverse_ok v it W) as (x & -> & Mx). cbn [bind]. destruct (ait_base_ok v x (proj1 Mx)) as (y & -> & My). f_equal.
  apply (moved_ext v it 0); [|apply moved_0; exact W]. exact (moved_trans v it (-1) x 1 y Mx My).
Qed.
Lemma hosts_rloop sp v n s : wf_net v n -> hosts sp v n = Ret s -> ~ hosts_short v n ->
  exists rb re, hosts_rbegin v s = Ret rb /\ hosts_rend v s = Ret re /\
  (exists l, hosts_rwalk v (Z.to_nat (hosts_cnt v n)) rb re = Ret l /\ Forall (plain v) l /\
     map val l = rev (count_up (Z.to_nat (hosts_cnt v n)) (hosts_lo v n))) /\
  forall k, Z.of_nat k < hosts_cnt v n -> hosts_rwalk v k rb re = UB OutOfFuel.
Proof.
  intros W Hs G. hosts_of sp v n W Hs. pose proof (hosts_cnt_pos v n W) as (C & L & T). pose proof (steps_good v n W G) as St. pose proof (M_pos v) as HM.
  unfold hosts_rbegin, hosts_rend. destruct (ait_reverse_ok v _ We) as (rb & -> & Mb). destruct (ait_reverse_ok v _ Wb) as (re & -> & Me).
  exists rb, re. do 2 (split; [reflexivity|]).
  assert (R : (ait_pos v rb - ait_pos v re) mod (2 * 2 ^ width v) = Z.of_nat (Z.to_nat (hosts_cnt v n))).
  { rewrite (proj2 Mb), (proj2 Me), Pb, Pe, <- Zminus_mod. rewrite Z2Nat.id by lia. rewrite <- St. f_equal. lia. }
  split.
  - pose proof (rwalk_ok v _ (proj1 Me) (Z.to_nat (hosts_cnt v n)) _ _ (proj1 Mb) R) as K. rewrite Nat.leb_refl in K. destruct K as (l & El & F & V). exists l. split; [exact El|]. split; [exact F|].
    rewrite V. rewrite <- (ring_down_count (2 ^ width v)); rewrite ?Z2Nat.id; try lia. apply ring_down_mod; [exact HM|].
    rewrite pos_mod by exact (proj1 Mb). rewrite (moved_val _ _ _ _ Mb), Pe. rewrite Z.add_mod, stop_mod, <- Z.add_mod by (exact W || lia). f_equal.
  - intros k Hk. pose proof (rwalk_ok v _ (proj1 Me) k _ _ (proj1 Mb) R) as K. destruct (Nat.leb_spec (Z.to_nat (hosts_cnt v n)) k); [lia|exact K].
Qed.
Lemma hosts_rloop_short sp v n s : wf_net v n -> hosts sp v n = Ret s -> hosts_short v n ->
  exists rb re, hosts_rbegin v s = Ret rb /\ hosts_rend v s = Ret re /\
  forall k, Z.of_nat k < 2 ^ width v + hosts_cnt v n -> hosts_rwalk v k rb re = UB OutOfFuel.
Proof.
  intros W Hs G. hosts_of sp v n W Hs. pose proof (hosts_cnt_pos v n W) as (C & L & T). pose proof (steps_short v n W G) as St. pose proof (M_pos v) as HM.
  unfold hosts_rbegin, hosts_rend. destruct (ait_reverse_ok v _ We) as (rb & -> & Mb). destruct (ait_reverse_ok v _ Wb) as (re & -> & Me).
  exists rb, re. do 2 (split; [reflexivity|]). set (r := 2 ^ width v + hosts_cnt v n) in *.
  assert (R : (ait_pos v rb - ait_pos v re) mod (2 * 2 ^ width v) = Z.of_nat (Z.to_nat r)).
  { rewrite (proj2 Mb), (proj2 Me), Pb, Pe, <- Zminus_mod. rewrite Z2Nat.id by lia. rewrite <- St. f_equal. lia. }
  intros k Hk. pose proof (rwalk_ok v _ (proj1 Me) k _ _ (proj1 Mb) R) as K. destruct (Nat.leb_spec (Z.to_nat r) k); [lia|exact K].
Qed.

(** *** Laws *)
Lemma u_of_i64_ok v n : is_i64 n -> u_of_i64 v n = n mod 2 ^ width v.
Proof.
  intros H. unfold is_i64 in H. destruct v; [reflexivity|]. cbn [u_of_i64 width].
  apply of_i64_ok. exact H.
Qed.
Lemma u_of_i64_range v n : is_i64 n -> 0 <= u_of_i64 v n < 2 ^ width v.
Proof. intros H. rewrite u_of_i64_ok by exact H. apply Z.mod_pos_bound, M_pos. Qed.
Lemma plus_ok v it n : wf_ait v it -> is_i64 n -> exists it', ait_plus v it n = Ret it' /\ moved v it (n mod 2 ^ width v) it'.
Proof. intros W Hn. unfold ait_plus. rewrite u_of_i64_ok by exact Hn. apply ait_add_ok; [exact W|]. apply Z.mod_pos_bound, M_pos. Qed.
Lemma minus_ok v it n : wf_ait v it -> is_i64 n -> exists it', ait_minus v it n = Ret it' /\ moved v it (- (n mod 2 ^ width v)) it'.
Proof. intros W Hn. unfold ait_minus. rewrite u_of_i64_ok by exact Hn. apply ait_sub_ok; [exact W|]. apply Z.mod_pos_bound, M_pos. Qed.
Lemma moved_eq v it d e x : d = e -> moved v it d x -> moved v it e x. Proof. intros ->. auto. Qed.
Lemma plus_minus v it n : wf_ait v it -> is_i64 n ->
  (x <- ait_plus v it n ;; ait_minus v x n) = Ret it /\ (x <- ait_minus v it n ;; ait_plus v x n) = Ret it.
Proof.
  intros W Hn. destruct (plus_ok v it n W Hn) as (x & -> & Mx). destruct (minus_ok v it n W Hn) as (y & -> & My). cbn [bind].
  destruct (minus_ok v x n (proj1 Mx) Hn) as (x' & -> & Mx'). destruct (plus_ok v y n (proj1 My) Hn) as (y' & -> & My').
  pose proof (moved_0 v it W) as M0.
  split; f_equal; apply (moved_ext v it 0); auto; [pose proof (moved_trans _ _ _ _ _ _ Mx Mx') as K|pose proof (moved_trans _ _ _ _ _ _ My My') as K];
    (eapply moved_eq; [|exact K]); lia.
Qed.

Lemma next_plus v it : ait_next v it = ait_plus v it 1 /\ ait_prev v it = ait_minus v it 1.
Proof. destruct v; split; reflexivity. Qed.
Lemma index_plus v it n : wf_ait v it -> is_i64 n -> exists x, ait_plus v it n = Ret x /\ ait_index v it n = Ret (it_current x).
Proof.
  intros W Hn. destruct (plus_ok v it n W Hn) as (x & E & Mx). exists x. split; [exact E|]. unfold ait_index, ait_at.
  destruct (step_add v it (u_of_i64 v n) W (u_of_i64_range v n Hn)) as (c & -> & Mc). f_equal.
  rewrite u_of_i64_ok in Mc by exact Hn. rewrite (moved_ext _ _ _ _ _ Mx Mc). reflexivity.
Qed.
Lemma ring_back m n x : 0 < m -> 0 < n mod m -> (- n) mod m = m - n mod m /\ (x + (- n) mod m) mod (2 * m) = (x - n mod m + m) mod (2 * m).
Proof. intros Hm Hn. rewrite Z.mod_opp_l_nz by lia. split; [reflexivity|]. f_equal. lia. Qed.
(** [it += -n] and [it -= n] reach the same address on different turns. *)
Lemma plus_neg v it n : wf_ait v it -> is_i64 n -> is_i64 (- n) -> exists x y, ait_plus v it (- n) = Ret x /\ ait_minus v it n = Ret y /\
  it_current x = it_current y /\ (ait_eqb v x y = Ret true <-> n mod 2 ^ width v = 0).
Proof.
  intros W Hn Hm. destruct (plus_ok v it _ W Hm) as (x & Ex & Mx). destruct (minus_ok v it n W Hn) as (y & Ey & My).
  exists x, y. split; [exact Ex|]. split; [exact Ey|]. pose proof (M_pos v) as HM. split.
  - apply (addr_eq v); [apply Mx|apply My| |].
    + rewrite (moved_val _ _ _ _ Mx), (moved_val _ _ _ _ My). rewrite Zplus_mod_idemp_r. rewrite !Z.add_opp_r, Zminus_mod_idemp_r. reflexivity.
    + destruct Mx as ((_ & -> & _) & _), My as ((_ & -> & _) & _). reflexivity.
  - rewrite ait_eqb_ok by (apply Mx || apply My). rewrite (proj2 Mx), (proj2 My).
    pose proof (Z.mod_pos_bound n (2 ^ width v) HM) as R. pose proof (pos_range v it W) as P.
    destruct (Z.eq_dec (n mod 2 ^ width v) 0) as [E|E].
    + rewrite (Z.mod_opp_l_z n) by (lia || exact E). rewrite E. split; [reflexivity|]. intros _. change (- 0) with 0. rewrite Z.eqb_refl. reflexivity.
    + destruct (ring_back (2 ^ width v) n (ait_pos v it) HM ltac:(lia)) as [_ ->]. split; [|lia]. intros K. apply ret_inj in K. apply Z.eqb_eq in K. exfalso.
      set (m := 2 ^ width v) in *. set (z := ait_pos v it - n mod m). fold z in K. change (ait_pos v it + - (n mod m)) with z in K.
      apply (f_equal (fun q => (q - z mod (2 * m)) mod (2 * m))) in K. rewrite <- !Zminus_mod in K. replace (z + m - z) with m in K by lia. rewrite Z.sub_diag in K.
      rewrite (Z.mod_small m) in K by lia. rewrite Z.mod_0_l in K by lia. lia.
Qed.

Lemma i64_of_ok x : 0 <= x < 2 ^ 64 -> i64_of x = if x <? 2 ^ 63 then x else x - 2 ^ 64.
Proof. intros H. unfold i64_of, w64. rewrite Z.mod_small by exact H. reflexivity. Qed.
Lemma diff_ok v a b : wf_ait v a -> wf_ait v b -> let g := (val (it_current b) - val (it_current a)) mod 2 ^ width v in
  is_i64 (ait_diff v b a) /\ (ait_diff v b a) mod 2 ^ width v = match v with V4 => g | V6 => if g mod 2 ^ 64 <? 2 ^ 63 then g mod 2 ^ 64 else g mod 2 ^ 64 + (2 ^ 128 - 2 ^ 64) end.
Proof.
  intros Wa Wb g. pose proof (Z.mod_pos_bound (val (it_current b) - val (it_current a)) _ (M_pos v)) as R. fold g in R.
  unfold ait_diff. rewrite usub_ok. destruct Wa as (_ & _ & -> & _), Wb as (_ & _ & -> & _). fold g.
  destruct v; cbn [i64_of_u width] in *.
  - split; [unfold is_i64; lia|apply Z.mod_small; exact R].
  - rewrite to_unsigned_ok, to_of_Z, (Z.mod_small g) by lia. pose proof (Z.mod_pos_bound g (2 ^ 64) ltac:(lia)). rewrite i64_of_ok by assumption. destruct (Z.ltb_spec (g mod 2 ^ 64) (2 ^ 63)).
    + split; [unfold is_i64; lia|]. apply Z.mod_small. lia.
    + split; [unfold is_i64; lia|]. symmetry. apply (Z.mod_unique_pos _ _ (-1)); lia.
Qed.
Lemma diff_law v a b : wf_ait v a -> wf_ait v b -> exists x, ait_plus v a (ait_diff v b a) = Ret x /\
  (ait_eqb v x b = Ret true <-> reachable v ((ait_pos v b - ait_pos v a) mod (2 * 2 ^ width v))).
Proof.
  intros Wa Wb. destruct (diff_ok v a b Wa Wb) as [I D]. destruct (plus_ok v a _ Wa I) as (x & E & Mx). exists x. split; [exact E|].
  rewrite ait_eqb_ok by (apply Mx || assumption). rewrite (proj2 Mx), D. clear D I E. pose proof (M_pos v) as HM. pose proof (pos_range v a Wa). pose proof (pos_range v b Wb).
  assert (G : (val (it_current b) - val (it_current a)) mod 2 ^ width v = (ait_pos v b - ait_pos v a) mod (2 * 2 ^ width v) mod 2 ^ width v).
  { rewrite <- !(pos_mod v) by assumption. rewrite <- Zminus_mod. set (z := ait_pos v b - ait_pos v a).
    rewrite (Z.mul_comm 2), Z.rem_mul_r by lia. rewrite (Z.mul_comm (2 ^ width v)), Z_mod_plus_full. symmetry. apply Z.mod_mod. lia. }
  rewrite G. clear G. set (m := 2 ^ width v) in *. set (A := ait_pos v a) in *. set (B := ait_pos v b) in *.
  pose proof (Z.mod_pos_bound (B - A) (2 * m) ltac:(lia)) as R. set (g := (B - A) mod (2 * m)) in *.
  assert (Q : forall d, 0 <= d < 2 * m -> (Ret ((A + d) mod (2 * m) =? B) = Ret true <-> d = g)).
  { intros d Hd. split.
    - intros K. apply ret_inj, Z.eqb_eq in K. unfold g. rewrite <- K, Zminus_mod_idemp_l. replace (A + d - A) with d by lia. symmetry. apply Z.mod_small. exact Hd.
    - intros ->. f_equal. apply Z.eqb_eq. unfold g. rewrite Zplus_mod_idemp_r. replace (A + (B - A)) with B by lia. apply Z.mod_small. assumption. }
  pose proof (Z.mod_pos_bound g m ltac:(lia)) as Rg. pose proof (Z.mod_small g m) as Sg. clearbody A B g. subst m. destruct v; cbn [reachable width] in *.
  - rewrite Q by lia. split; [lia|]. intros K. apply Sg. lia.
  - set (h := g mod 2 ^ 128) in *. assert (Dh : g = h \/ (2 ^ 128 <= g /\ h = g - 2 ^ 128)).
    { destruct (Z.ltb_spec g (2 ^ 128)); [left; symmetry; apply Sg; lia|right]. split; [lia|]. unfold h. symmetry. apply (Z.mod_unique_pos _ _ 1); lia. }
    clearbody h. pose proof (Z.div_mod h (2 ^ 64) ltac:(lia)). pose proof (Z.mod_pos_bound h (2 ^ 64) ltac:(lia)). set (l := h mod 2 ^ 64) in *. set (q := h / 2 ^ 64) in *. clearbody l q.
    destruct (Z.ltb_spec l (2 ^ 63)); rewrite Q by lia; lia.
Qed.
Lemma diff_value v a b : wf_ait v a -> wf_ait v b -> ait_diff v b a = distance v (val (it_current b) - val (it_current a)).
Proof.
  intros Wa Wb. unfold ait_diff. rewrite usub_ok. destruct Wa as (_ & _ & -> & _), Wb as (_ & _ & -> & _).
  set (z := val (it_current b) - val (it_current a)). clearbody z. destruct v; unfold distance; cbn [i64_of_u width]; [reflexivity|].
  rewrite to_unsigned_ok, to_of_Z, Z.mod_mod by lia. assert (E : (z mod 2 ^ 128) mod 2 ^ 64 = z mod 2 ^ 64).
  { change (2 ^ 128) with (2 ^ 64 * 2 ^ 64). rewrite Z.rem_mul_r by lia. rewrite Z.mul_comm, Z_mod_plus_full. apply Z.mod_mod. lia. }
  rewrite E. clear E. pose proof (Z.mod_pos_bound z (2 ^ 64) ltac:(lia)) as R. rewrite i64_of_ok by exact R. pose proof (Z.div_mod z (2 ^ 64) ltac:(lia)) as D.
  set (l := z mod 2 ^ 64) in *. set (q := z / 2 ^ 64) in *. clearbody l q. destruct (Z.ltb_spec l (2 ^ 63)).
  - rewrite <- (Z.mod_unique_pos (z + 2 ^ 63) (2 ^ 64) q (l + 2 ^ 63)) by lia. lia.
  - rewrite <- (Z.mod_unique_pos (z + 2 ^ 63) (2 ^ 64) (q + 1) (l - 2 ^ 63)) by lia. lia.
Qed.
Lemma net_diff_value v a b : wf_nit v a -> wf_nit v b -> nit_diff v b a = distance v (first (ni_current b) - first (ni_current a)).
Proof.
  intros (_ & Wa & Ea & _) (_ & Wb & Eb & _). unfold nit_diff. rewrite diff_value by assumption. unfold first. rewrite Ea, Eb. reflexivity.
Qed.
