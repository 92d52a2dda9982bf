(** Address iterators and hosts(). *)
From Verif Require Import Base Tac V4Model V6Model Uint128Model SpecInt Uint128Proofs SpecAddr SpecStr SpecV6 StrProofs V4Proofs AddressModel SpecOrder
  AddressProofs NetworkModel IterModel SpecNet SpecIter NetProofs NetProofs2 NetProofs3 NetLemmas.

Lemma M_pos v : 0 < 2 ^ width v. Proof. destruct v; reflexivity. Qed.
Lemma wf_val v it : wf_ait v it -> 0 <= val (it_current it) < 2 ^ width v.
Proof. intros (W & _). apply val_range. exact W. Qed.
Definition mk_it (v : ver) (o c : Z) : ait := mk_ait (addr_of v o) o c.
Lemma mk_it_wf v o c : 0 <= o < 2 ^ width v -> c = 0 \/ c = 1 -> wf_ait v (mk_it v o c) /\ ait_pos v (mk_it v o c) = c * 2 ^ width v + o.
Proof.
  intros H Hc. unfold wf_ait, ait_pos, mk_it. cbn [it_current it_offset it_carry]. rewrite addr_of_val, addr_of_scope by exact H.
  repeat split; auto. all: apply addr_of_wf; exact H.
Qed.
Lemma ait_ext v a b : wf_ait v a -> wf_ait v b -> ait_pos v a = ait_pos v b -> a = b.
Proof.
  intros Wa Wb E. pose proof (wf_val v a Wa). pose proof (wf_val v b Wb). destruct a as [ca oa ka], b as [cb ob kb].
  destruct Wa as (A & Sa & Oa & Ka), Wb as (B & Sb & Ob & Kb). unfold ait_pos in E. cbn [it_current it_offset it_carry] in *.
  assert (val ca = val cb /\ ka = kb) as [Ev ->] by (destruct Ka, Kb; subst; lia).
  assert (ca = cb) as -> by (apply (addr_eq v); congruence). congruence.
Qed.
Lemma mod2 m y : 0 < m -> 0 <= y < 2 * m -> y mod m = if y <? m then y else y - m.
Proof.
  intros Hm Hy. destruct (Z.ltb_spec y m); [apply Z.mod_small; lia|]. symmetry. apply (Z.mod_unique_pos y m 1); lia.
Qed.
Lemma mod4 m y : 0 < m -> 0 <= y < 4 * m -> y mod (2 * m) = if y <? 2 * m then y else y - 2 * m.
Proof. intros Hm Hy. rewrite mod2 by lia. reflexivity. Qed.
Lemma mod_neg m y : 0 < m -> - m <= y < m -> y mod m = if y <? 0 then y + m else y.
Proof.
  intros Hm Hy. destruct (Z.ltb_spec y 0); [|apply Z.mod_small; lia]. symmetry. apply (Z.mod_unique_pos y m (-1)); lia.
Qed.
Lemma wrap_add m x n c : 0 <= x < m -> 0 <= n < m -> c = 0 \/ c = 1 ->
  (if (x + n) mod m <? x then 1 - c else c) * m + (x + n) mod m = (c * m + x + n) mod (2 * m).
Proof.
  intros Hx Hn Hc. rewrite (mod2 m (x + n)) by lia. rewrite mod4 by (destruct Hc; subst; lia).
  destruct (Z.ltb_spec (x + n) m), (Z.ltb_spec (c * m + x + n) (2 * m)); match goal with |- context [?a <? x] => destruct (Z.ltb_spec a x) end; destruct Hc; subst; lia.
Qed.
Lemma wrap_sub m x n c : 0 <= x < m -> 0 <= n < m -> c = 0 \/ c = 1 ->
  (if (x - n) mod m >? x then 1 - c else c) * m + (x - n) mod m = (c * m + x - n) mod (2 * m).
Proof.
  intros Hx Hn Hc. rewrite (mod_neg m (x - n)) by lia. rewrite mod_neg by (destruct Hc; subst; lia).
  destruct (Z.ltb_spec (x - n) 0), (Z.ltb_spec (c * m + x - n) 0); match goal with |- context [?a >? x] => destruct (Z.gtb_spec a x) end; destruct Hc; subst; lia.
Qed.
Lemma flip_carry (b : bool) c : c = 0 \/ c = 1 -> (if b then 1 - c else c) = 0 \/ (if b then 1 - c else c) = 1.
Proof. destruct b; lia. Qed.
Definition moved v it d it' := wf_ait v it' /\ ait_pos v it' = (ait_pos v it + d) mod (2 * 2 ^ width v).
Lemma pos_range v it : wf_ait v it -> 0 <= ait_pos v it < 2 * 2 ^ width v.
Proof. intros W. pose proof (wf_val v it W). unfold ait_pos. destruct W as (_ & _ & _ & [->| ->]); lia. Qed.
Lemma moved_0 v it : wf_ait v it -> moved v it 0 it.
Proof. intros W. split; [exact W|]. rewrite Z.add_0_r, Z.mod_small; [reflexivity|apply pos_range; exact W]. Qed.
Lemma step_add v it n : wf_ait v it -> 0 <= n < 2 ^ width v ->
  let o := uadd v (it_offset it) n in
  exists c, addr_from_uint v o = Ret c /\ moved v it n (mk_ait c o (if o <? it_offset it then 1 - it_carry it else it_carry it)).
Proof.
  intros W Hn. pose proof (wf_val v it W) as V. pose proof (M_pos v) as HM. destruct W as (W & S0 & E & K). cbv zeta.
  rewrite uadd_ok, E. set (x := val (it_current it)) in *. set (m := 2 ^ width v) in *.
  assert (R : 0 <= (x + n) mod m < m) by (apply Z.mod_pos_bound; lia). rewrite from_uint_of by exact R.
  eexists. split; [reflexivity|]. pose proof (flip_carry ((x + n) mod m <? x) _ K) as F. destruct (mk_it_wf v ((x + n) mod m) _ R F) as [W' P'].
  split; [exact W'|]. fold (mk_it v ((x + n) mod m) (if (x + n) mod m <? x then 1 - it_carry it else it_carry it)). rewrite P'.
  unfold ait_pos. fold m x. rewrite wrap_add by assumption. f_equal; lia.
Qed.
Lemma step_sub v it n : wf_ait v it -> 0 <= n < 2 ^ width v ->
  let o := usub v (it_offset it) n in
  exists c, addr_from_uint v o = Ret c /\ moved v it (- n) (mk_ait c o (if o >? it_offset it then 1 - it_carry it else it_carry it)).
Proof.
  intros W Hn. pose proof (wf_val v it W) as V. pose proof (M_pos v) as HM. destruct W as (W & S0 & E & K). cbv zeta.
  rewrite usub_ok, E. set (x := val (it_current it)) in *. set (m := 2 ^ width v) in *.
  assert (R : 0 <= (x - n) mod m < m) by (apply Z.mod_pos_bound; lia). rewrite from_uint_of by exact R.
  eexists. split; [reflexivity|]. pose proof (flip_carry ((x - n) mod m >? x) _ K) as F. destruct (mk_it_wf v ((x - n) mod m) _ R F) as [W' P'].
  split; [exact W'|]. fold (mk_it v ((x - n) mod m) (if (x - n) mod m >? x then 1 - it_carry it else it_carry it)). rewrite P'.
  unfold ait_pos. fold m x. rewrite wrap_sub by assumption. f_equal; lia.
Qed.
Lemma ait_add_ok v it n : wf_ait v it -> 0 <= n < 2 ^ width v -> exists it', ait_add v it n = Ret it' /\ moved v it n it'.
Proof.
  intros W Hn. unfold ait_add. destruct (Z.eqb_spec n 0) as [->|_]; cbn [negb]; [exists it; split; [reflexivity|apply moved_0; exact W]|].
  destruct (step_add v it n W Hn) as (c & -> & H). cbn [bind]. eauto.
Qed.
Lemma ait_sub_ok v it n : wf_ait v it -> 0 <= n < 2 ^ width v -> exists it', ait_sub v it n = Ret it' /\ moved v it (- n) it'.
Proof.
  intros W Hn. unfold ait_sub. destruct (Z.eqb_spec n 0) as [->|_]; cbn [negb]; [exists it; split; [reflexivity|apply moved_0; exact W]|].
  destruct (step_sub v it n W Hn) as (c & -> & H). cbn [bind]. eauto.
Qed.
Lemma M_big v : 2 ^ 32 <= 2 ^ width v. Proof. apply Z.pow_le_mono_r; destruct v; cbn [width]; lia. Qed.
Lemma ait_next_ok v it : wf_ait v it -> exists it', ait_next v it = Ret it' /\ moved v it 1 it'.
Proof. intros W. apply ait_add_ok; [exact W|]. pose proof (M_big v). lia. Qed.
Lemma ait_prev_ok v it : wf_ait v it -> exists it', ait_prev v it = Ret it' /\ moved v it (-1) it'.
Proof. intros W. apply ait_sub_ok; [exact W|]. pose proof (M_big v). lia. Qed.
Lemma moved_ext v it d a b : moved v it d a -> moved v it d b -> a = b.
Proof. intros [Wa Ea] [Wb Eb]. apply (ait_ext v); congruence. Qed.
Lemma moved_trans v it d a e b : moved v it d a -> moved v a e b -> moved v it (d + e) b.
Proof.
  intros [Wa Ea] [Wb Eb]. split; [exact Wb|]. rewrite Eb, Ea, Zplus_mod_idemp_l. f_equal. lia.
Qed.
Lemma moved_val v it d it' : moved v it d it' -> val (it_current it') = (ait_pos v it + d) mod 2 ^ width v.
Proof.
  intros [W E]. pose proof (wf_val v it' W). pose proof (M_pos v). apply (f_equal (fun z => z mod 2 ^ width v)) in E.
  assert (ait_pos v it' mod 2 ^ width v = val (it_current it')) as <-.
  { unfold ait_pos. rewrite Z.add_comm, Z_mod_plus_full. apply Z.mod_small. exact H. }
  rewrite E. set (m := 2 ^ width v) in *. set (y := ait_pos v it + d).
  rewrite (Z.div_mod y (2 * m)) at 2 by lia. replace (2 * m * (y / (2 * m)) + y mod (2 * m)) with (y mod (2 * m) + (2 * (y / (2 * m))) * m) by lia.
  rewrite Z_mod_plus_full. reflexivity.
Qed.

(** *** Comparison *)
Lemma ait_eqb_ok v a b : wf_ait v a -> wf_ait v b -> ait_eqb v a b = Ret (ait_pos v a =? ait_pos v b).
Proof.
  intros Wa Wb. pose proof (wf_val v a Wa). pose proof (wf_val v b Wb). unfold ait_eqb.
  destruct (Z.eqb_spec (it_carry a) (it_carry b)) as [E|E].
  - destruct (addr_eqb_ok v (it_current a) (it_current b)) as (r & -> & Hr); [apply Wa|apply Wb|]. f_equal. unfold ait_pos. rewrite E.
    destruct (Z.eqb_spec (it_carry b * 2 ^ width v + val (it_current a)) (it_carry b * 2 ^ width v + val (it_current b))) as [K|K].
    + apply Hr. apply (addr_eq v); [apply Wa|apply Wb|lia|]. destruct Wa as (_ & -> & _), Wb as (_ & -> & _). reflexivity.
    + destruct r; [|reflexivity]. exfalso. apply K. assert (it_current a = it_current b) as -> by (apply Hr; reflexivity). reflexivity.
  - f_equal. symmetry. apply Z.eqb_neq. unfold ait_pos. destruct Wa as (_ & _ & _ & Ka), Wb as (_ & _ & _ & Kb). destruct Ka as [Ka|Ka], Kb as [Kb|Kb]; rewrite Ka, Kb in *; lia.
Qed.
Lemma ait_cmp_ok v a b : wf_ait v a -> wf_ait v b -> ait_cmp v a b = Ret (ait_pos v a ?= ait_pos v b).
Proof.
  intros Wa Wb. pose proof (wf_val v a Wa). pose proof (wf_val v b Wb). unfold ait_cmp, ait_pos.
  pose proof Wa as (Aa & Sa & _ & Ka). pose proof Wb as (Ab & Sb & _ & Kb).
  destruct (Z.compare_spec (it_carry a) (it_carry b)) as [E|E|E].
  - destruct (addr_cmp_ok v (it_current a) (it_current b) Aa Ab) as (c & -> & Hc). f_equal. rewrite E. destruct c.
    + rewrite Hc. symmetry. apply Z.compare_refl.
    + apply before_unscoped in Hc; [|congruence]. symmetry. apply Z.compare_lt_iff. lia.
    + apply before_unscoped in Hc; [|congruence]. symmetry. apply Z.compare_gt_iff. lia.
  - f_equal. symmetry. apply Z.compare_lt_iff. destruct Ka as [Ka|Ka], Kb as [Kb|Kb]; rewrite Ka, Kb in *; lia.
  - f_equal. symmetry. apply Z.compare_gt_iff. destruct Ka as [Ka|Ka], Kb as [Kb|Kb]; rewrite Ka, Kb in *; lia.
Qed.
Lemma ait_ltb_ok v a b : wf_ait v a -> wf_ait v b -> ait_ltb v a b = Ret (ait_pos v a <? ait_pos v b).
Proof.
  intros Wa Wb. pose proof (wf_val v a Wa). pose proof (wf_val v b Wb). unfold ait_ltb, ait_pos.
  pose proof Wa as (Aa & Sa & _ & Ka). pose proof Wb as (Ab & Sb & _ & Kb).
  destruct (Z.ltb_spec (it_carry a) (it_carry b)).
  - f_equal. symmetry. apply Z.ltb_lt. destruct Ka as [Ka|Ka], Kb as [Kb|Kb]; rewrite Ka, Kb in *; lia.
  - destruct (Z.eqb_spec (it_carry a) (it_carry b)) as [E|E].
    + pose proof (le_unscoped false v _ _ Aa Ab ltac:(congruence)) as (_ & _ & L & _). cbn [op_lt] in L. rewrite L. f_equal. rewrite E.
      destruct (Z.ltb_spec (val (it_current a)) (val (it_current b))); symmetry; [apply Z.ltb_lt|apply Z.ltb_ge]; lia.
    + f_equal. symmetry. apply Z.ltb_ge. destruct Ka as [Ka|Ka], Kb as [Kb|Kb]; rewrite Ka, Kb in *; lia.
Qed.

(** *** hosts() *)
Lemma ait_make_ok v x c : 0 <= x < 2 ^ width v -> ait_make v (addr_of v x) c = Ret (mk_it v x c).
Proof. intros H. unfold ait_make. rewrite to_uint_val by (apply addr_of_wf; exact H). cbn [bind]. rewrite addr_of_val by exact H. reflexivity. Qed.
Lemma size_cases v n : wf_net v n ->
  (n_prefix n = width v /\ size v n = 1) \/ (n_prefix n = width v - 1 /\ size v n = 2) \/ (n_prefix n < width v - 1 /\ 4 <= size v n).
Proof.
  intros (_ & _ & _ & Hp & _). unfold size. destruct (Z.eq_dec (n_prefix n) (width v)) as [->|]; [left; split; [reflexivity|rewrite Z.sub_diag; reflexivity]|].
  destruct (Z.eq_dec (n_prefix n) (width v - 1)) as [E|]; [right; left; split; [exact E|rewrite E; replace (width v - (width v - 1)) with 1 by lia; reflexivity]|].
  right; right. split; [lia|]. change 4 with (2 ^ 2). apply Z.pow_le_mono_r; lia.
Qed.
Definition hosts_stop v n : Z := if n_prefix n =? width v then first n + 1 else (hosts_lo v n + hosts_cnt v n) mod 2 ^ width v.
Lemma hosts_ok sp v n : wf_net v n -> exists s, hosts sp v n = Ret s /\
  wf_ait v (h_begin s) /\ ait_pos v (h_begin s) = hosts_lo v n /\ wf_ait v (h_end s) /\ ait_pos v (h_end s) = hosts_stop v n.
Proof.
  intros W. pose proof (net_top v n W) as T. destruct (broadcast_spec v n W) as (Wb & Vb & _). pose proof (M_pos v) as HM. pose proof (width_pos v) as HW.
  pose proof (val_range v _ (proj1 W)) as R. fold (first n) in *. unfold hosts, hosts_make, hosts_stop, hosts_lo, hosts_cnt.
  rewrite !to_uint_val by (assumption || apply W). fold (first n) in *. rewrite Vb. destruct (size_cases v n W) as [(Hp & Hs)|[(Hp & Hs)|(Hp & Hs)]]; rewrite ?Hp, ?Hs.
  - destruct (Z.eqb_spec (width v) (width v - 1)); [lia|]. rewrite Z.eqb_refl. cbn [bind]. replace (width v >=? width v - 1) with true by lia.
    rewrite uadd_ok. set (y := (first n + 1) mod 2 ^ width v). assert (Ry : 0 <= y < 2 ^ width v) by (apply Z.mod_pos_bound; lia).
    rewrite !from_uint_of by (lia || assumption). cbn [bind].
    pose proof (le_unscoped sp v (addr_of v y) (addr_of v (first n)) (addr_of_wf v y Ry) (addr_of_wf v _ R)) as L.
    destruct L as (_ & _ & L & _); [rewrite !addr_of_scope by (lia || assumption); reflexivity|]. rewrite L. rewrite !addr_of_val by (lia || assumption). cbn [bind].
    rewrite !ait_make_ok by (lia || assumption). cbn [bind]. eexists. split; [reflexivity|]. cbn [h_begin h_end].
    destruct (mk_it_wf v (first n) 0 R ltac:(lia)) as [A B]. rewrite B.
    assert (K : (if y <? first n then 1 else 0) = 0 \/ (if y <? first n then 1 else 0) = 1) by (destruct (y <? first n); lia).
    destruct (mk_it_wf v y _ Ry K) as [C D]. rewrite D. split; [exact A|]. split; [lia|]. split; [exact C|].
    assert (2 ^ 32 <= 2 ^ width v) by (apply Z.pow_le_mono_r; destruct v; cbn [width]; lia).
    unfold y. rewrite (mod2 (2 ^ width v) (first n + 1)) by lia. destruct (Z.ltb_spec (first n + 1) (2 ^ width v)); match goal with |- context [?a <? ?b] => destruct (Z.ltb_spec a b) end; lia.
  - rewrite Z.eqb_refl. cbn [bind]. replace (width v - 1 >=? width v - 1) with true by lia. replace (width v - 1 =? width v) with false by lia.
    rewrite uadd_ok. set (y := (first n + 2 - 1 + 1) mod 2 ^ width v). assert (Ry : 0 <= y < 2 ^ width v) by (apply Z.mod_pos_bound; lia).
    rewrite !from_uint_of by (lia || assumption). cbn [bind]. rewrite !ait_make_ok by (lia || assumption). cbn [bind]. eexists. split; [reflexivity|]. cbn [h_begin h_end].
    destruct (mk_it_wf v (first n) 0 R ltac:(lia)) as [A B]. rewrite B. destruct (mk_it_wf v y 0 Ry ltac:(lia)) as [C D]. rewrite D.
    split; [exact A|]. split; [lia|]. split; [exact C|]. unfold y. rewrite Z.mul_0_l, Z.add_0_l. f_equal. lia.
  - replace (n_prefix n =? width v - 1) with false by lia. replace (n_prefix n =? width v) with false by lia. cbn [bind].
    replace (n_prefix n >=? width v - 1) with false by lia.
    rewrite !uadd_ok. rewrite (Z.mod_small (first n + 1)) by lia. set (y := (first n + size v n - 1 + match v with V4 => 0 | V6 => 1 end) mod 2 ^ width v).
    assert (Ry : 0 <= y < 2 ^ width v) by (apply Z.mod_pos_bound; lia).
    rewrite !from_uint_of by (lia || assumption). cbn [bind]. rewrite !ait_make_ok by (lia || assumption). cbn [bind]. eexists. split; [reflexivity|]. cbn [h_begin h_end].
    destruct (mk_it_wf v (first n + 1) 0 ltac:(lia) ltac:(lia)) as [A B]. rewrite B. destruct (mk_it_wf v y 0 Ry ltac:(lia)) as [C D]. rewrite D.
    split; [exact A|]. split; [lia|]. split; [exact C|]. unfold y. rewrite Z.mul_0_l, Z.add_0_l. f_equal. destruct v; lia.
Qed.

Lemma hosts_cnt_pos v n : wf_net v n -> 0 < hosts_cnt v n < 2 ^ width v /\ 0 <= hosts_lo v n /\ hosts_lo v n + hosts_cnt v n <= 2 ^ width v.
Proof.
  intros W. pose proof (net_top v n W) as T. assert (2 ^ 32 <= 2 ^ width v) by (apply Z.pow_le_mono_r; destruct v; cbn [width]; lia). unfold hosts_lo, hosts_cnt.
  destruct (size_cases v n W) as [(Hp & Hs)|[(Hp & Hs)|(Hp & Hs)]].
  - rewrite Hp, Z.eqb_refl. replace (width v >=? width v - 1) with true by lia. lia.
  - rewrite Hp, Z.eqb_refl. replace (width v - 1 =? width v) with false by lia. replace (width v - 1 >=? width v - 1) with true by lia. lia.
  - replace (n_prefix n =? width v - 1) with false by lia. replace (n_prefix n =? width v) with false by lia. replace (n_prefix n >=? width v - 1) with false by lia. destruct v; lia.
Qed.
Lemma usable_iff v n x : wf_net v n -> (usable v n x <-> hosts_lo v n <= x < hosts_lo v n + hosts_cnt v n).
Proof.
  intros W. unfold usable, in_net, hosts_lo, hosts_cnt.
  destruct (size_cases v n W) as [(Hp & Hs)|[(Hp & Hs)|(Hp & Hs)]].
  - rewrite Hp, Z.eqb_refl. replace (width v >=? width v - 1) with true by lia. lia.
  - rewrite Hp, Z.eqb_refl. replace (width v - 1 =? width v) with false by lia. replace (width v - 1 >=? width v - 1) with true by lia. lia.
  - replace (n_prefix n =? width v - 1) with false by lia. replace (n_prefix n =? width v) with false by lia. replace (n_prefix n >=? width v - 1) with false by lia.
    destruct v; [|split; [intros [? K]; destruct (K Hp)|intros ?; split; [|split; [|discriminate]]]; lia].
    split; [intros [? K]; destruct (K Hp) as [? L]; pose proof (L eq_refl); lia|intros ?; split; [|split; [|intros _]]; lia].
Qed.
Lemma pos_mod v it : wf_ait v it -> ait_pos v it mod 2 ^ width v = val (it_current it).
Proof.
  intros W. pose proof (wf_val v it W). unfold ait_pos. rewrite Z.add_comm, Z_mod_plus_full. apply Z.mod_small. assumption.
Qed.
Lemma stop_mod v n : wf_net v n -> hosts_stop v n mod 2 ^ width v = (hosts_lo v n + hosts_cnt v n) mod 2 ^ width v.
Proof.
  intros W. unfold hosts_stop. destruct (Z.eqb_spec (n_prefix n) (width v)) as [E|E]; [|apply Z.mod_mod; pose proof (M_pos v); lia].
  unfold hosts_lo, hosts_cnt. rewrite E, Z.eqb_refl. replace (width v >=? width v - 1) with true by lia. reflexivity.
Qed.
Lemma hosts_size_ok sp v n s : wf_net v n -> hosts sp v n = Ret s -> hosts_size v s = hosts_cnt v n.
Proof.
  intros W Hs. destruct (hosts_ok sp v n W) as (s' & E & Wb & Pb & We & Pe). rewrite E in Hs. apply ret_inj in Hs. subst s'.
  destruct (hosts_cnt_pos v n W) as (C & L & T). pose proof (M_pos v). unfold hosts_size, ait_uint_diff. rewrite usub_ok.
  pose proof (pos_mod v _ Wb) as Mb. pose proof (pos_mod v _ We) as Me. destruct Wb as (_ & _ & -> & _), We as (_ & _ & -> & _).
  rewrite <- Mb, <- Me, Pb, Pe, stop_mod by exact W. rewrite <- Zminus_mod. replace (hosts_lo v n + hosts_cnt v n - hosts_lo v n) with (hosts_cnt v n) by lia.
  apply Z.mod_small. lia.
Qed.
Lemma hosts_at_ok sp v n s i : wf_net v n -> hosts sp v n = Ret s -> 0 <= i < hosts_cnt v n ->
  exists a, hosts_at v s i = Ret a /\ wf_addr v a /\ a_scope a = [] /\ val a = hosts_lo v n + i.
Proof.
  intros W Hs Hi. destruct (hosts_ok sp v n W) as (s' & E & Wb & Pb & _). rewrite E in Hs. apply ret_inj in Hs. subst s'.
  destruct (hosts_cnt_pos v n W) as (C & L & T). unfold hosts_at. destruct (ait_add_ok v _ i Wb ltac:(lia)) as (it' & -> & Mv). cbn [bind].
  eexists. split; [reflexivity|]. pose proof (moved_val _ _ _ _ Mv) as V. destruct Mv as ((W1 & W2 & _) & _). split; [exact W1|]. split; [exact W2|].
  rewrite V, Pb. apply Z.mod_small. lia.
Qed.
Lemma hosts_front_ok sp v n s : wf_net v n -> hosts sp v n = Ret s -> val (hosts_front s) = hosts_lo v n /\ wf_addr v (hosts_front s) /\ a_scope (hosts_front s) = [].
Proof.
  intros W Hs. destruct (hosts_ok sp v n W) as (s' & E & Wb & Pb & _). rewrite E in Hs. apply ret_inj in Hs. subst s'.
  destruct (hosts_cnt_pos v n W) as (C & L & T). unfold hosts_front. rewrite <- (pos_mod v) by exact Wb. rewrite Pb. split; [apply Z.mod_small; lia|]. split; apply Wb.
Qed.
Lemma hosts_back_ok sp v n s : wf_net v n -> hosts sp v n = Ret s ->
  exists a, hosts_back v s = Ret a /\ wf_addr v a /\ a_scope a = [] /\ val a = hosts_lo v n + hosts_cnt v n - 1.
Proof.
  intros W Hs. destruct (hosts_ok sp v n W) as (s' & E & _ & _ & We & Pe). rewrite E in Hs. apply ret_inj in Hs. subst s'.
  destruct (hosts_cnt_pos v n W) as (C & L & T). unfold hosts_back. destruct (ait_sub_ok v _ 1 We ltac:(lia)) as (it' & -> & Mv). cbn [bind].
  eexists. split; [reflexivity|]. pose proof (moved_val _ _ _ _ Mv) as V. destruct Mv as ((W1 & W2 & _) & _). split; [exact W1|]. split; [exact W2|].
  rewrite V, Pe, Z.add_mod, stop_mod by (exact W || lia). rewrite <- Z.add_mod by lia. apply Z.mod_small. lia.
Qed.

(** *** Loops *)
(** The addresses met from position [x] on. *)
Fixpoint ring_up (m : Z) (k : nat) (x : Z) : list Z := match k with O => [] | S k' => x mod m :: ring_up m k' (x + 1) end.
Fixpoint ring_down (m : Z) (k : nat) (x : Z) : list Z := match k with O => [] | S k' => x mod m :: ring_down m k' (x - 1) end.
Lemma ring_up_mod m : forall k x y, 0 < m -> x mod m = y mod m -> ring_up m k x = ring_up m k y.
Proof.
  induction k as [|k IH]; intros x y Hm E; [reflexivity|]. cbn [ring_up]. rewrite E. f_equal. apply IH; [exact Hm|].
  rewrite Z.add_mod, E, <- Z.add_mod by lia. reflexivity.
Qed.
Lemma ring_down_mod m : forall k x y, 0 < m -> x mod m = y mod m -> ring_down m k x = ring_down m k y.
Proof.
  induction k as [|k IH]; intros x y Hm E; [reflexivity|]. cbn [ring_down]. rewrite E. f_equal. apply IH; [exact Hm|].
  rewrite Zminus_mod, E, <- Zminus_mod by lia. reflexivity.
Qed.
Lemma mod_zero_iff m a b : 0 < m -> 0 <= a < m -> 0 <= b < m -> ((b - a) mod m = 0 <-> a = b).
Proof.
  intros Hm Ha Hb. rewrite mod_neg by lia. destruct (Z.ltb_spec (b - a) 0); lia.
Qed.
Lemma mod_step m x r : 0 < m -> x mod m = r -> 0 < r -> (x - 1) mod m = r - 1.
Proof.
  intros Hm <- Hr. symmetry. apply (Z.mod_unique_pos (x - 1) m (x / m)); [pose proof (Z.mod_pos_bound x m Hm); lia|].
  pose proof (Z.div_mod x m). lia.
Qed.
Lemma diff_step v it last it' r : moved v it 1 it' -> wf_ait v last -> (ait_pos v last - ait_pos v it) mod (2 * 2 ^ width v) = r -> 0 < r ->
  (ait_pos v last - ait_pos v it') mod (2 * 2 ^ width v) = r - 1.
Proof.
  intros [_ E] _ Hr Hp. rewrite E, Zminus_mod_idemp_r. pose proof (M_pos v). rewrite <- (mod_step (2 * 2 ^ width v) (ait_pos v last - ait_pos v it) r) by (assumption || lia).
  f_equal. lia.
Qed.
Lemma diff_step_back v it last it' r : moved v it (-1) it' -> wf_ait v last -> (ait_pos v it - ait_pos v last) mod (2 * 2 ^ width v) = r -> 0 < r ->
  (ait_pos v it' - ait_pos v last) mod (2 * 2 ^ width v) = r - 1.
Proof.
  intros [_ E] _ Hr Hp. rewrite E, Zminus_mod_idemp_l. pose proof (M_pos v). rewrite <- (mod_step (2 * 2 ^ width v) (ait_pos v it - ait_pos v last) r) by (assumption || lia).
  f_equal. lia.
Qed.
Lemma walk_ok v last : wf_ait v last -> forall k it r, wf_ait v it ->
  (ait_pos v last - ait_pos v it) mod (2 * 2 ^ width v) = Z.of_nat r ->
  if (r <=? k)%nat then exists l, hosts_walk v k it last = Ret l /\ Forall (plain v) l /\ map val l = ring_up (2 ^ width v) r (ait_pos v it)
  else hosts_walk v k it last = UB OutOfFuel.
Proof.
  intros Wl. pose proof (M_pos v) as HM. induction k as [|k IH]; intros it r W Hr; unfold hosts_walk; cbn [walk]; rewrite ait_eqb_ok by assumption; cbn [bind].
  - pose proof (mod_zero_iff (2 * 2 ^ width v) (ait_pos v it) (ait_pos v last) ltac:(lia) (pos_range v it W) (pos_range v last Wl)) as Z0. rewrite Hr in Z0.
    destruct (Z.eqb_spec (ait_pos v it) (ait_pos v last)) as [E|E]; destruct r as [|r]; cbn [Nat.leb]; try lia; [exists []; auto|reflexivity].
  - pose proof (mod_zero_iff (2 * 2 ^ width v) (ait_pos v it) (ait_pos v last) ltac:(lia) (pos_range v it W) (pos_range v last Wl)) as Z0. rewrite Hr in Z0.
    destruct (Z.eqb_spec (ait_pos v it) (ait_pos v last)) as [E|E]; destruct r as [|r]; cbn [Nat.leb]; try lia; [exists []; auto|].
    destruct (ait_next_ok v it W) as (it' & -> & Mv). cbn [bind].
    pose proof (diff_step v it last it' _ Mv Wl Hr ltac:(lia)) as D. specialize (IH it' r (proj1 Mv)). rewrite D in IH. specialize (IH ltac:(lia)). unfold hosts_walk in IH.
    destruct (r <=? k)%nat; [|rewrite IH; reflexivity]. destruct IH as (l & -> & F & V). cbn [bind]. eexists. split; [reflexivity|].
    split; [constructor; [split; apply W|exact F]|]. cbn [map ring_up]. rewrite V, pos_mod by exact W. f_equal. destruct Mv as [_ ->]. apply ring_up_mod; [exact HM|].
    rewrite Z.mul_comm, Z.rem_mul_r by lia. rewrite Z.add_mod, (Z.mul_comm (2 ^ width v)), Z.mod_mul, Z.add_0_r, !Z.mod_mod by lia. reflexivity.
Qed.
Lemma rwalk_ok v last : wf_ait v last -> forall k it r, wf_ait v it ->
  (ait_pos v it - ait_pos v last) mod (2 * 2 ^ width v) = Z.of_nat r ->
  if (r <=? k)%nat then exists l, hosts_rwalk v k it last = Ret l /\ Forall (plain v) l /\ map val l = ring_down (2 ^ width v) r (ait_pos v it)
  else hosts_rwalk v k it last = UB OutOfFuel.
Proof.
  intros Wl. pose proof (M_pos v) as HM. induction k as [|k IH]; intros it r W Hr; unfold hosts_rwalk; cbn [walk]; rewrite ait_eqb_ok by assumption; cbn [bind].
  - pose proof (mod_zero_iff (2 * 2 ^ width v) (ait_pos v last) (ait_pos v it) ltac:(lia) (pos_range v last Wl) (pos_range v it W)) as Z0. rewrite Hr in Z0.
    destruct (Z.eqb_spec (ait_pos v it) (ait_pos v last)) as [E|E]; destruct r as [|r]; cbn [Nat.leb]; try lia; [exists []; auto|reflexivity].
  - pose proof (mod_zero_iff (2 * 2 ^ width v) (ait_pos v last) (ait_pos v it) ltac:(lia) (pos_range v last Wl) (pos_range v it W)) as Z0. rewrite Hr in Z0.
    destruct (Z.eqb_spec (ait_pos v it) (ait_pos v last)) as [E|E]; destruct r as [|r]; cbn [Nat.leb]; try lia; [exists []; auto|].
    destruct (ait_prev_ok v it W) as (it' & -> & Mv). cbn [bind].
    pose proof (diff_step_back v it last it' _ Mv Wl Hr ltac:(lia)) as D. specialize (IH it' r (proj1 Mv)). rewrite D in IH. specialize (IH ltac:(lia)). unfold hosts_rwalk in IH.
    destruct (r <=? k)%nat; [|rewrite IH; reflexivity]. destruct IH as (l & -> & F & V). cbn [bind]. eexists. split; [reflexivity|].
    split; [constructor; [split; apply W|exact F]|]. cbn [map ring_down]. rewrite V, pos_mod by exact W. f_equal. destruct Mv as [_ ->]. apply ring_down_mod; [exact HM|].
    rewrite Z.mul_comm, Z.rem_mul_r by lia. rewrite Z.add_mod, (Z.mul_comm (2 ^ width v)), Z.mod_mul, Z.add_0_r, !Z.mod_mod by lia. reflexivity.
Qed.
Lemma ring_count m : forall k x, 0 <= x -> x + Z.of_nat k <= m -> ring_up m k x = count_up k x.
Proof.
  induction k as [|k IH]; intros x Hx Hm; [reflexivity|]. cbn [ring_up count_up]. rewrite Z.mod_small by lia. f_equal. apply IH; lia.
Qed.
Lemma ring_down_count m : forall k x, 0 <= x -> x + Z.of_nat k <= m -> ring_down m k (x + Z.of_nat k - 1) = rev (count_up k x).
Proof.
  induction k as [|k IH]; intros x Hx Hm; [reflexivity|].
  assert (U : forall j y, count_up (S j) y = count_up j y ++ [y + Z.of_nat j]).
  { induction j as [|j IHj]; intros y; [cbn [count_up app]; f_equal; lia|]. change (count_up (S (S j)) y) with (y :: count_up (S j) (y + 1)). rewrite IHj. cbn [count_up app]. do 2 f_equal. f_equal. lia. }
  rewrite U, rev_app_distr. cbn [ring_down rev app]. rewrite Z.mod_small by lia. f_equal; [lia|]. rewrite <- IH by lia. f_equal. lia.
Qed.
