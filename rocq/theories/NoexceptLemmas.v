(** Functions declared noexcept. *)
From Coq Require Import Znumtheory String.
From Verif Require Import Base Tac UnicodeModel FixedStringModel V4Model V6Model Uint128Model SpecInt Uint128Proofs SpecAddr SpecOrder AddressModel
  AddressProofs NetworkModel IterModel ClassifyModel SpecNet SpecIter NetProofs NetProofs2 NetProofs3 NetLemmas IterProofs IterProofs2 IterProofs3 IterProofs4 IterProofs5
  IterLemmas AnyModel SpecAny AnyProofs AnyIter NoThrowModel SpecNoThrow NoThrowProofs DefaultLemmas SpecExact ExactProofs Uint128Div2 CodeModel SpecCode CodeLemmas V4Proofs V6Full NetText3 NetText SpecText SpecStr SpecNoexcept NetWitness.
Open Scope string_scope.
Open Scope Z_scope.
Open Scope list_scope.

Lemma calm_ret {A} (a : A) : ~ throws (Ret a). Proof. intros [(e & x & K)|K]; discriminate. Qed.
Lemma calm_returns {A} (r : res A) : returns r -> ~ throws r. Proof. intros (a & ->). apply calm_ret. Qed.
Lemma calm_ub {A} u : u <> AssertFailed -> ~ throws (@UB A u). Proof. intros N [(e & x & K)|K]; [discriminate|]. injection K as K. contradiction. Qed.
Lemma throws_err {A} e x : throws (@Err A e x). Proof. left. eauto. Qed.
Lemma throws_bind {A B} (r : res A) (f : A -> B) : throws (x <- r ;; Ret (f x)) <-> throws r.
Proof.
  destruct r; cbn [bind]; split; intros H; try exact H; try (exfalso; exact (calm_ret _ H)).
  - apply throws_err.
  - apply throws_err.
  - destruct H as [(e & x & K)|K]; [discriminate|]. injection K as ->. right. reflexivity.
  - destruct H as [(e & x & K)|K]; [discriminate|]. injection K as ->. right. reflexivity.
Qed.
Lemma throws_rmap {A B} (f : A -> B) (r : res A) : throws (rmap f r) <-> throws r.
Proof. destruct r; cbn [rmap]; split; intros [(e0 & x0 & K)|K]; try discriminate; try (left; eauto; fail); right; injection K as ->; reflexivity. Qed.

(** *** supernet *)
Lemma calm_supernet v n c d np : wf_net v n -> 0 <= d -> (forall q, np = Some q -> 0 <= q) -> ~ throws (supernet_code v n c d np).
Proof.
  intros W Hd Hq. rewrite supernet_code_spec by assumption. destruct (n_prefix n =? 0); [apply calm_ret|]. destruct (super_diff _ _ _); [apply calm_ret|]. destruct (_ =? _); [apply calm_ub; discriminate|apply calm_ret].
Qed.
Lemma calm_any_supernet v n c d np : wf_net v n -> 0 <= d -> (forall q, np = Some q -> 0 <= q) -> ~ throws (anet_supernet_code (mk_an v n) c d np).
Proof.
  intros W Hd Hq H. apply (calm_supernet v n c d np W Hd Hq). unfold anet_supernet_code in H. destruct v; cbn [anet_is_v4 an_ver an_net ver_eqb ver_num Z.eqb Pos.eqb] in H.
  - destruct (supernet_code V4 n c d np) as [[m c']|e x|u]; cbn [bind] in H; [exfalso; exact (calm_ret _ H)|apply throws_err|]. destruct H as [(e & x & K)|K]; [discriminate|]. injection K as ->. right; reflexivity.
  - destruct (supernet_code V6 n c d np) as [[m c']|e x|u]; cbn [bind] in H; [exfalso; exact (calm_ret _ H)|apply throws_err|]. destruct H as [(e & x & K)|K]; [discriminate|]. injection K as ->. right; reflexivity.
Qed.

(** *** subnets *)
Lemma code_make sp v n c d np d' : wf_net v n -> n_prefix n < width v -> asked_diff (n_prefix n) d np = inr d' -> w64 (n_prefix n + d') <= width v ->
  subnets_code sp v n c d np = (s <- subnets_make v (addr_of v (val (n_addr n))) (broadcast n) (hostmask n) d' (w64 (n_prefix n + d')) ;; Ret (s, c)) /\
  subnets sp v n d np = subnets_make v (addr_of v (val (n_addr n))) (broadcast n) (hostmask n) d' (w64 (n_prefix n + d')).
Proof.
  intros W Hp Ea Hw.
  assert (E : forall c, subnets_code sp v n c d np = (s <- subnets_make v (addr_of v (val (n_addr n))) (broadcast n) (hostmask n) d' (w64 (n_prefix n + d')) ;; Ret (s, c))).
  { intros c'. unfold subnets_code. rewrite remove_scope_ok by apply W. cbn [bind]. replace (n_prefix n =? width v) with false by lia. unfold asked_diff in Ea. rewrite Ea.
    replace (w64 (n_prefix n + d') >? width v) with false by lia. reflexivity. }
  split; [apply E|]. unfold subnets. rewrite E. destruct (subnets_make _ _ _ _ _ _); reflexivity.
Qed.
Lemma wrap_new v n d : wf_net v n -> is_size d -> wraps v n d None -> w64 (n_prefix n + d) = n_prefix n + d - 2 ^ 64 /\ 0 <= n_prefix n + d - 2 ^ 64 < n_prefix n /\ 129 <= d.
Proof.
  intros W Hd (Hp & _ & Hw). unfold is_size in Hd. assert (P0 : 0 <= n_prefix n) by apply W. assert (width v <= 128) by (destruct v; cbn [width]; lia). unfold w64. lia.
Qed.
Lemma wrap_code4 sp n c d : wf_net V4 n -> is_size d -> wraps V4 n d None -> subnets_code sp V4 n c d None = UB BadShift.
Proof.
  intros W Hd Hw. destruct (wrap_new V4 n d W Hd Hw) as (Ew & Hn & Hl). assert (Pw : n_prefix n <= width V4) by apply W.
  destruct (code_make sp V4 n c d None d W (proj1 Hw) eq_refl ltac:(lia)) as [-> _].
  destruct (broadcast_spec V4 n W) as (Wb & Vb & _). destruct (hostmask_spec V4 n W) as (Wh & Vh & _). pose proof (M_pos V4) as HM. pose proof (val_range V4 _ (proj1 W)) as R.
  unfold subnets_make. rewrite !to_uint_val by (assumption || apply addr_of_wf; assumption). cbn [bind]. rewrite addr_of_val by exact R. rewrite from_uint_of by exact R. cbn [bind]. rewrite uadd_ok.
  rewrite from_uint_of by (apply Z.mod_pos_bound; exact HM). cbn [bind]. unfold ushr, shr32. replace ((0 <=? d) && (d <? 32)) with false by lia. reflexivity.
Qed.
(** The begin has host bits, or the end has: they are one block apart and the blocks
    of the new prefix length are larger. *)
Lemma apart f s m M : 0 < s -> s < m -> 0 < M -> (m | M) -> f mod m = 0 -> (f + s) mod M mod m <> 0.
Proof.
  intros Hs Hm HM Hd Hf. rewrite <- Zmod_div_mod by (assumption || lia). rewrite Zplus_mod, Hf, Z.add_0_l, Z.mod_mod, Z.mod_small by lia. lia.
Qed.
Lemma wrap_code6 sp n c d : wf_net V6 n -> is_size d -> wraps V6 n d None -> subnets_code sp V6 n c d None = Err has_host_bits_set 0.
Proof.
  intros W Hd Hw. destruct (wrap_new V6 n d W Hd Hw) as (Ew & Hn & Hl). assert (Pw : n_prefix n <= width V6) by apply W.
  destruct (code_make sp V6 n c d None d W (proj1 Hw) eq_refl ltac:(lia)) as [-> _]. rewrite Ew. set (q := n_prefix n + d - 2 ^ 64) in *. clearbody q.
  destruct (broadcast_spec V6 n W) as (Wb & Vb & _). destruct (hostmask_spec V6 n W) as (Wh & Vh & _). pose proof (M_pos V6) as HM. pose proof (val_range V6 _ (proj1 W)) as R.
  pose proof (val_range V6 _ Wh) as Rh.
  unfold subnets_make. rewrite !to_uint_val by (assumption || apply addr_of_wf; assumption). cbn [bind]. rewrite addr_of_val by exact R. rewrite from_uint_of by exact R. cbn [bind]. rewrite uadd_ok.
  assert (Rl : 0 <= (val (broadcast n) + 1) mod 2 ^ width V6 < 2 ^ width V6) by (apply Z.mod_pos_bound; exact HM).
  rewrite from_uint_of by exact Rl. cbn [bind].
  assert (Es : exists s, ushr V6 (val (hostmask n)) d = Ret s).
  { unfold ushr, u128_shr. replace (d =? 0) with false by lia. replace ((d >=? 64) && (d <=? 128)) with false by lia. replace ((d <? 64) && (d >? 0)) with false by lia. cbn [bind]. eauto. }
  destruct Es as (s & ->). cbn [bind]. unfold nit_make at 1. pose proof (addr_of_wf V6 _ R) as Wf. pose proof (addr_of_wf V6 _ Rl) as Wl.
  rewrite from_address_spec by (exact Wf || lia). rewrite addr_of_val by exact R.
  destruct (Z.eqb_spec (val (n_addr n) mod 2 ^ (width V6 - q)) 0) as [E|E]; [|reflexivity]. cbn [bind].
  rewrite ait_make_ok by exact R. cbn [bind].
  destruct (addr_eqb_ok V6 _ _ Wf Wl) as (b & -> & _). cbn [bind]. unfold nit_make. rewrite from_address_spec by (exact Wl || lia). rewrite addr_of_val by exact Rl.
  assert (N : (val (broadcast n) + 1) mod 2 ^ width V6 mod 2 ^ (width V6 - q) <> 0).
  { rewrite Vb. replace (first n + size V6 n - 1 + 1) with (val (n_addr n) + size V6 n) by (unfold first; lia). apply apart; [apply size_pos; apply W| |exact HM| |exact E].
    - unfold size. apply Z.pow_lt_mono_r; lia.
    - exists (2 ^ q). rewrite <- Z.pow_add_r by lia. f_equal. lia. }
  destruct (Z.eqb_spec ((val (broadcast n) + 1) mod 2 ^ width V6 mod 2 ^ (width V6 - q)) 0); [contradiction|]. reflexivity.
Qed.
(** Exactly when an exception would leave subnets. *)
Lemma subnets_throw sp v n c d np : wf_net v n -> args_ok d np -> (throws (subnets_code sp v n c d np) <-> v = V6 /\ wraps v n d np).
Proof.
  intros W Ha. destruct (Z.eq_dec (n_prefix n) (width v)) as [Ep|Ep].
  { destruct (subnets_single_any sp v n d np W Ha Ep) as (s & E & _). split; [|intros (_ & H & _); lia]. intros H. exfalso. revert H.
    unfold subnets, subnets_code in E |- *. rewrite remove_scope_ok in E |- * by apply W. cbn [bind] in E |- *. replace (n_prefix n =? width v) with true in E |- * by lia.
    destruct (subnets_single _ _ _ _); cbn [bind] in E |- *; try discriminate. apply calm_ret. }
  assert (Hp : n_prefix n < width v) by (assert (n_prefix n <= width v) by apply W; lia).
  assert (Cw : wraps v n d np \/ (np = None -> n_prefix n + d < 2 ^ 64)).
  { destruct np as [q|]; [right; discriminate|]. destruct (Z.ltb_spec (n_prefix n + d) (2 ^ 64)); [right; auto|left; split; [exact Hp|auto]]. }
  destruct Cw as [Hw|Hw].
  - pose proof Hw as (_ & -> & _). destruct v.
    + rewrite wrap_code4 by (exact W || apply Ha || exact Hw). split; [intros H; exfalso; revert H; apply calm_ub; discriminate|intros [K _]; discriminate].
    + rewrite wrap_code6 by (exact W || apply Ha || exact Hw). split; [auto|intros _; apply throws_err].
  - split; [|intros (_ & _ & -> & K); specialize (Hw eq_refl); lia]. intros H. exfalso. revert H.
    pose proof (subnets_checks sp v n d np W Ha Hp Hw) as K. assert (P0 : 0 <= n_prefix n) by apply W. destruct (asked_diff (n_prefix n) d np) as [e|d'] eqn:Ea.
    + unfold subnets_code. rewrite remove_scope_ok by apply W. cbn [bind]. replace (n_prefix n =? width v) with false by lia. unfold asked_diff in Ea. rewrite Ea. apply calm_ret.
    + pose proof (asked_diff_pos _ _ _ _ P0 Ha Ea) as D0. assert (Dw : n_prefix n + d' < 2 ^ 64).
      { unfold asked_diff in Ea. destruct np as [q|]; [|injection Ea as <-; auto]. destruct Ha as (_ & Hq). unfold is_size in Hq. destruct (q <? n_prefix n); [discriminate|]. destruct (negb _); [discriminate|]. injection Ea as <-. lia. }
      assert (Es : w64 (n_prefix n + d') = n_prefix n + d') by (unfold w64; apply Z.mod_small; lia).
      destruct (Z.gtb_spec (n_prefix n + d') (width v)) as [G|G].
      * unfold subnets_code. rewrite remove_scope_ok by apply W. cbn [bind]. replace (n_prefix n =? width v) with false by lia. unfold asked_diff in Ea. rewrite Ea, Es.
        replace (n_prefix n + d' >? width v) with true by lia. apply calm_ret.
      * destruct (code_make sp v n c d np d' W Hp Ea ltac:(lia)) as [E1 E2]. rewrite E1, throws_bind, <- E2.
        destruct ((n_prefix n =? 0) && (d' =? width v)); [rewrite K; apply calm_ub; discriminate|].
        destruct v; [destruct ((n_prefix n =? 0) && (d' =? 0)); [rewrite K; apply calm_ub; discriminate|]|]; destruct K as (s & ->); apply calm_ret.
Qed.
Lemma any_subnets_throw sp v n c d np : wf_net v n -> args_ok d np -> (throws (any_subnets_code sp (mk_an v n) c d np) <-> v = V6 /\ wraps v n d np).
Proof.
  intros W Ha. rewrite <- (subnets_throw sp v n c d np W Ha). unfold any_subnets_code. destruct v; cbn [anet_is_v4 an_ver an_net ver_eqb ver_num Z.eqb Pos.eqb].
  - destruct (subnets_code sp V4 n c d np) as [[s c']|e x|u]; cbn [bind]; split; intros H; try (exfalso; exact (calm_ret _ H)); try apply throws_err; (destruct H as [(e & x & K)|K]; [discriminate|injection K as ->; right; reflexivity]).
  - destruct (subnets_code sp V6 n c d np) as [[s c']|e x|u]; cbn [bind]; split; intros H; try (exfalso; exact (calm_ret _ H)); try apply throws_err; (destruct H as [(e & x & K)|K]; [discriminate|injection K as ->; right; reflexivity]).
Qed.

(** *** Iterators over subnets *)
Lemma everything_wf v : wf_net v (everything v). Proof. destruct v; wfn. Qed.
Lemma start_wf v : wf_ait v (ait_default v).
Proof. unfold wf_ait, ait_default. cbn [it_current it_offset it_carry]. split; [apply addr_default_wf|]. destruct v; vm_compute; repeat split; auto; discriminate. Qed.
Lemma net_ltb_ret v a b : wf_net v a -> wf_net v b -> returns (net_ltb v a b).
Proof.
  intros Wa Wb. unfold returns, net_ltb. destruct (addr_eqb_ok v _ _ (proj1 Wa) (proj1 Wb)) as (r & -> & _). cbn [bind].
  destruct (less_exact v _ _ (proj1 Wa) (proj1 Wb)) as (x & -> & _). destruct (negb r); [eauto|].
  destruct (addr_eqb_ok v _ _ (proj1 (proj2 Wa)) (proj1 (proj2 Wb))) as (r' & -> & _). cbn [bind].
  destruct (less_exact v _ _ (proj1 (proj2 Wa)) (proj1 (proj2 Wb))) as (x' & -> & _). destruct (negb r'); eauto.
Qed.
Lemma calm_div a b : wf128 a -> wf128 b -> returns (u128_div a b).
Proof.
  intros Wa Wb. destruct (Z.eq_dec (to_Z b) 0) as [E|E]; [rewrite div_zero by assumption; eexists; reflexivity|]. destruct (div_ok a b Wa Wb E) as (q & -> & _). eexists; reflexivity.
Qed.
Lemma subnets_asked sp v n d np s : wf_net v n -> args_ok d np -> subnets sp v n d np = Ret s -> exists q, asked v n d np q /\ defined v n q.
Proof.
  intros W Ha Hs. destruct (Z.eq_dec (n_prefix n) (width v)) as [Ep|Ep].
  { exists (width v). split; [left; auto|]. pose proof (width_pos v). split; [lia|right; lia]. }
  assert (Hp : n_prefix n < width v) by (assert (n_prefix n <= width v) by apply W; lia).
  assert (Cw : np = None -> n_prefix n + d < 2 ^ 64).
  { intros ->. destruct (Z.ltb_spec (n_prefix n + d) (2 ^ 64)) as [L|L]; [exact L|exfalso]. assert (Hw : wraps v n d None) by (split; [exact Hp|auto]).
    unfold subnets in Hs. destruct v; [rewrite wrap_code4 in Hs|rewrite wrap_code6 in Hs]; try exact W; try apply Ha; try exact Hw; discriminate. }
  pose proof (subnets_checks sp v n d np W Ha Hp Cw) as K. assert (P0 : 0 <= n_prefix n) by apply W.
  destruct (asked_diff (n_prefix n) d np) as [e|d'] eqn:Ea; [rewrite K in Hs; discriminate|]. pose proof (asked_diff_pos _ _ _ _ P0 Ha Ea) as D0.
  destruct (Z.gtb_spec (n_prefix n + d') (width v)); [rewrite K in Hs; discriminate|].
  exists (n_prefix n + d'). split; [right; split; [exact Hp|]; exists d'; auto|].
  destruct (Z.eqb_spec (n_prefix n) 0) as [Z0|Z0], (Z.eqb_spec d' (width v)) as [Dv|Dv]; cbn [andb] in K; try (rewrite K in Hs; discriminate); (split; [lia|]).
  - destruct v; [|auto]. right. destruct (Z.eqb_spec d' 0); [rewrite K in Hs; discriminate|lia].
  - right. lia.
  - right. lia.
Qed.
Lemma iter_wf sp v it : subnets_iter sp v it -> wf_nit v it \/ it = nit_default v.
Proof.
  assert (S : forall k, exists x, nit_add v (nit_default v) k = Ret x /\ nit_sub v (nit_default v) k = Ret x /\ nit_base v (nit_default v) = Ret x /\ nit_reverse v (nit_default v) = Ret x /\ wf_nit v x).
  { intros k. destruct (nit_stay v (net_default v) k) as [E1 E2]. exists (mk_nit (everything v) (ait_default v) 0 0). split; [exact E1|]. split; [exact E2|].
    split; [destruct v; vm_compute; reflexivity|]. split; [destruct v; vm_compute; reflexivity|].
    unfold wf_nit. cbn [ni_current ni_it ni_prefix ni_step]. split; [apply everything_wf|]. split; [apply start_wf|]. destruct v; repeat split; reflexivity. }
  induction 1 as [|n d np s W Ha Hs|n d np s W Ha Hs|it k it' _ IH E|it k it' _ IH E|it it' _ IH E|it it' _ IH E].
  - right; reflexivity.
  - left. destruct (subnets_asked sp v n d np s W Ha Hs) as (q & Hq & Hd). apply (sub_iterators sp v n d np q s W Ha Hq Hd Hs).
  - left. destruct (subnets_asked sp v n d np s W Ha Hs) as (q & Hq & Hd). apply (sub_iterators sp v n d np q s W Ha Hq Hd Hs).
  - left. destruct IH as [IH| ->]; [destruct (nit_add_ok v it k IH) as (x & E' & M)|destruct (S k) as (x & E' & _ & _ & _ & M)]; rewrite E' in E; apply ret_inj in E; subst; apply M.
  - left. destruct IH as [IH| ->]; [destruct (nit_sub_ok v it k IH) as (x & E' & M)|destruct (S k) as (x & _ & E' & _ & _ & M)]; rewrite E' in E; apply ret_inj in E; subst; apply M.
  - left. destruct IH as [IH| ->]; [destruct (nit_base_ok v it IH) as (x & E' & M)|destruct (S 0) as (x & _ & _ & E' & _ & M)]; rewrite E' in E; apply ret_inj in E; subst; apply M.
  - left. destruct IH as [IH| ->]; [destruct (nit_reverse_ok v it IH) as (x & E' & M)|destruct (S 0) as (x & _ & _ & _ & E' & M)]; rewrite E' in E; apply ret_inj in E; subst; apply M.
Qed.
Lemma iter_net sp v it : subnets_iter sp v it -> wf_net v (ni_current it).
Proof. intros H. destruct (iter_wf sp v it H) as [K| ->]; [apply K|apply net_default_wf]. Qed.
Lemma iter_moves sp v it k : subnets_iter sp v it -> returns (nit_add v it k) /\ returns (nit_sub v it k) /\ returns (nit_at v it k) /\ returns (nit_base v it) /\ returns (nit_reverse v it).
Proof.
  intros H. destruct (iter_wf sp v it H) as [W| ->].
  - destruct (nit_add_ok v it k W) as (x1 & E1 & _). destruct (nit_sub_ok v it k W) as (x2 & E2 & _). destruct (nit_at_ok v it k W) as (x3 & _ & E3).
    destruct (nit_base_ok v it W) as (x4 & E4 & _). destruct (nit_reverse_ok v it W) as (x5 & E5 & _). unfold returns. repeat split; eauto.
  - destruct (nit_stay v (net_default v) k) as [E1 E2]. unfold returns. split; [eexists; exact E1|]. split; [eexists; exact E2|]. split.
    { unfold nit_at. unfold nit_add in E1. change (mk_nit (net_default v) (ait_default v) 0 0) with (nit_default v) in E1. destruct (ait_add v (ni_it (nit_default v)) _) as [x| |]; cbn [bind] in E1 |- *; try discriminate.
      destruct (from_address v (it_current x) (ni_prefix (nit_default v)) true); cbn [bind] in E1; try discriminate. eauto. }
    split; destruct v; eexists; vm_compute; reflexivity.
Qed.
Lemma iter_compares sp v a b : subnets_iter sp v a -> subnets_iter sp v b -> returns (nit_eqb v a b) /\ returns (nit_cmp v a b) /\ returns (nit_ltb v a b).
Proof.
  intros Ha Hb. pose proof (iter_net sp v a Ha) as Wa. pose proof (iter_net sp v b Hb) as Wb. unfold nit_eqb, nit_cmp, nit_ltb, returns.
  destruct (net_eqb_ok v _ _ Wa Wb) as (r1 & E1 & _). destruct (net_cmp_ok v _ _ Wa Wb) as (r2 & E2 & _). destruct (net_ltb_ret v _ _ Wa Wb) as (r3 & E3).
  rewrite E1, E2, E3. repeat split; repeat match goal with |- context [if ?x then _ else _] => destruct x | |- context [match ?x with Eq => _ | Lt => _ | Gt => _ end] => destruct x end; eauto.
Qed.
(** The unsigned difference divides by the step: undefined, but no exception. *)
Lemma iter_udiff v a b : ~ throws (nit_uint_diff v a b).
Proof.
  unfold nit_uint_diff, udivide. destruct v.
  - unfold udiv. destruct (_ =? 0); [apply calm_ub; discriminate|apply calm_ret].
  - rewrite throws_bind. apply calm_returns, calm_div; apply of_Z_wf.
Qed.
Lemma aiter_is sp x : asubnets_iter sp x -> exists v it, x = aiter_make net_ops v it /\ subnets_iter sp v it.
Proof.
  assert (M : forall v n d np s, any_subnets sp (mk_an v n) d np = Ret s -> exists s0, subnets sp v n d np = Ret s0 /\ s = aseq_make net_ops v (s_begin s0) (s_end s0)).
  { intros v n d np s H. rewrite any_subnets_eq in H. apply rmap_ret in H as (s0 & E & ->). eauto. }
  induction 1 as [|v n d np s W Ha Hs|v n d np s W Ha Hs|it k it' _ IH Hk E|it k it' _ IH Hk E|it it' _ IH E|it it' _ IH E].
  - exists V4, (nit_default V4). split; [reflexivity|constructor].
  - destruct (M _ _ _ _ _ Hs) as (s0 & E & ->). exists v, (s_begin s0). split; [reflexivity|]. eapply si_begin; eassumption.
  - destruct (M _ _ _ _ _ Hs) as (s0 & E & ->). exists v, (s_end s0). split; [reflexivity|]. eapply si_end; eassumption.
  - destruct IH as (v & i & -> & Hi). rewrite aadd_mod in E by exact Hk. apply rmap_ret in E as (i' & E & ->). exists v, i'. split; [reflexivity|]. eapply si_add; eassumption.
  - destruct IH as (v & i & -> & Hi). rewrite asub_mod in E by exact Hk. apply rmap_ret in E as (i' & E & ->). exists v, i'. split; [reflexivity|]. eapply si_sub; eassumption.
  - destruct IH as (v & i & -> & Hi). rewrite abase in E. apply rmap_ret in E as (i' & E & ->). exists v, i'. split; [reflexivity|]. eapply si_base; eassumption.
  - destruct IH as (v & i & -> & Hi). rewrite areverse in E. apply rmap_ret in E as (i' & E & ->). exists v, i'. split; [reflexivity|]. eapply si_reverse; eassumption.
Qed.
Lemma returns_rmap {A B} (f : A -> B) (r : res A) : returns r -> returns (rmap f r).
Proof. intros (a & ->). eexists. reflexivity. Qed.
Lemma aiter_moves sp x k : asubnets_iter sp x -> 0 <= k < 2 ^ 128 ->
  returns (aiter_add net_ops x k) /\ returns (aiter_sub net_ops x k) /\ returns (aiter_at net_ops x k) /\ returns (aiter_base net_ops x) /\ returns (aiter_reverse net_ops x).
Proof.
  intros H Hk. destruct (aiter_is sp x H) as (v & it & -> & Hi). destruct (iter_moves sp v it (k mod 2 ^ width v) Hi) as (M1 & M2 & (m & M3) & M4 & M5).
  rewrite aadd_mod, asub_mod, aat, abase, areverse by exact Hk. split; [apply returns_rmap, M1|]. split; [apply returns_rmap, M2|]. split; [|split; apply returns_rmap; assumption].
  cbn [o_at net_ops]. rewrite M3. eexists. reflexivity.
Qed.
Lemma aiter_compares sp a b : asubnets_iter sp a -> asubnets_iter sp b ->
  returns (aiter_eqb net_ops a b) /\ returns (aiter_cmp net_ops a b) /\ returns (aiter_ltb net_ops a b) /\ ~ throws (aiter_udiff net_ops a b).
Proof.
  intros Ha Hb. destruct (aiter_is sp a Ha) as (v & i & -> & Hi). destruct (aiter_is sp b Hb) as (v' & j & -> & Hj).
  destruct (ver_eqb v v') eqn:Ev.
  - assert (v' = v) as -> by (destruct v, v'; (reflexivity || discriminate)). rewrite aeqb, acmp, altb, audiff. destruct (iter_compares sp v i j Hi Hj) as (C1 & C2 & C3).
    split; [exact C1|]. split; [exact C2|]. split; [exact C3|]. apply iter_udiff.
  - unfold aiter_eqb, aiter_cmp, aiter_ltb, aiter_udiff, aiter_make. cbn [ai_ver ai_it]. rewrite Ev. cbn [negb]. destruct v, v'; try discriminate; cbn [ver_num Z.compare Pos.compare Pos.compare_cont];
      (split; [eexists; reflexivity|]; split; [eexists; reflexivity|]; split; [eexists; reflexivity|apply calm_ret]).
Qed.

(** *** Exclusions *)
Lemma xiter_state sp v it : exclude_iter sp v it -> exists o r, wf_net v o /\ unscoped o /\ xstate v o r it.
Proof.
  assert (D : exists o r, wf_net v o /\ unscoped o /\ xstate v o r (xit_default v)).
  { exists (net_default v), 0%nat. split; [apply net_default_wf|]. split; [destruct v; reflexivity|]. left; auto. }
  assert (M : forall n o s, wf_net v n -> wf_net v o -> address_exclude sp v n o = Ret s -> (exists o r, wf_net v o /\ unscoped o /\ xstate v o r (e_begin s)) /\ e_end s = xit_default v).
  { intros n o s Wn Wo E. destruct (bare_ok v n Wn) as (Wbn & Ubn & _ & Pn). destruct (bare_ok v o Wo) as (Wbo & Ubo & Fo & Po).
    unfold address_exclude, exclude_code in E. rewrite !remove_scope_net_ok in E by assumption. cbn [bind] in E.
    destruct (subnet_spec sp v (bare v o) (bare v n) Wbo Wbn Ubo Ubn) as (b & Eb & _ & Hb). rewrite Eb in E. cbn [bind] in E. destruct b; [|discriminate]. cbn [negb] in E. pose proof (proj1 Hb eq_refl) as So.
    destruct (net_eqb_ok v (bare v n) (bare v o) Wbn Wbo) as (e & Ee & He). rewrite Ee in E. cbn [bind] in E. destruct e.
    { apply ret_inj in E. subst s. split; [exact D|reflexivity]. }
    assert (Ne : bare v n <> bare v o) by (intros K; apply He in K; discriminate).
    destruct (exclude_core sp v (bare v n) (bare v o) Wbn Wbo Ubn Ubo So (subset_cases v _ _ Wbn Wbo Ubn Ubo So Ne)) as (it' & Ei & H). rewrite Ei in E. cbn [bind] in E. apply ret_inj in E. subst s.
    split; [|reflexivity]. exists (bare v o), (Z.to_nat (xcount (bare v n) (bare v o))). auto. }
  induction 1 as [|n o s Wn Wo E|n o s Wn Wo E|it it' _ IH E].
  - exact D.
  - exact (proj1 (M n o s Wn Wo E)).
  - rewrite (proj2 (M n o s Wn Wo E)). exact D.
  - destruct IH as (o & r & Wo & Uo & H). destruct r as [|r].
    + destruct H as [[_ ->]|[K _]]; [|lia]. replace it' with (xit_default v); [exact D|]. apply ret_inj. rewrite <- E. destruct sp, v; vm_compute; reflexivity.
    + destruct (xstate_next sp v o Wo Uo r it H) as (x & E' & K). rewrite E' in E. apply ret_inj in E. subst x. exists o, r. auto.
Qed.
Lemma xiter_next sp v it : exclude_iter sp v it -> returns (xit_next sp v it).
Proof.
  intros H. destruct (xiter_state sp v it H) as (o & r & Wo & Uo & K). destruct r as [|r].
  - destruct K as [[_ ->]|[K _]]; [|lia]. exists (xit_default v). destruct sp, v; vm_compute; reflexivity.
  - destruct (xstate_next sp v o Wo Uo r it K) as (x & E' & _). exists x. exact E'.
Qed.
Lemma xstate_wf v o r it : wf_net v o -> xstate v o r it -> wf_net v (x_current it).
Proof. intros Wo [[_ ->]|(_ & B & _)]; [apply net_default_wf|apply B]. Qed.
Lemma xiter_compares sp v a b : exclude_iter sp v a -> exclude_iter sp v b -> returns (xit_eqb v a b) /\ returns (xit_cmp v a b) /\ returns (xit_ltb v a b).
Proof.
  intros Ha Hb. destruct (xiter_state sp v a Ha) as (o & r & Wo & _ & Ka). destruct (xiter_state sp v b Hb) as (o' & r' & Wo' & _ & Kb).
  apply xstate_wf in Ka; [|exact Wo]. apply xstate_wf in Kb; [|exact Wo']. unfold xit_eqb, xit_cmp, xit_ltb.
  destruct (net_eqb_ok v _ _ Ka Kb) as (r1 & E1 & _). destruct (net_cmp_ok v _ _ Kb Ka) as (r2 & E2 & _). split; [eexists; exact E1|]. split; [eexists; exact E2|]. apply net_ltb_ret; assumption.
Qed.
Lemma axiter_state sp x : aexclude_iter sp x -> x = axit_default \/ exists v o r it, wf_net v o /\ unscoped o /\ rel v o (S r) it x.
Proof.
  assert (M : forall v n v' o s, wf_net v n -> wf_net v' o -> any_exclude sp (mk_an v n) (mk_an v' o) = Ret s ->
     (ae_begin s = axit_default \/ exists v o r it, wf_net v o /\ unscoped o /\ rel v o (S r) it (ae_begin s)) /\ ae_end s = axit_default).
  { intros v n v' o s Wn Wo E. unfold any_exclude in E. destruct (ver_eqb v v') eqn:Ev; [|unfold any_exclude_code in E; cbn [an_ver] in E; rewrite Ev in E; discriminate].
    assert (v' = v) as -> by (destruct v, v'; (reflexivity || discriminate)).
    destruct (bare_ok v n Wn) as (Wbn & Ubn & _ & Pn). destruct (bare_ok v o Wo) as (Wbo & Ubo & Fo & Po). rewrite any_exclude_open in E by assumption.
    destruct (subnet_spec sp v (bare v o) (bare v n) Wbo Wbn Ubo Ubn) as (b & Eb & _ & Hb). rewrite Eb in E. cbn [bind] in E. destruct b; [|discriminate]. cbn [negb] in E. pose proof (proj1 Hb eq_refl) as So.
    destruct (net_eqb_ok v (bare v n) (bare v o) Wbn Wbo) as (e & Ee & He). rewrite Ee in E. cbn [bind] in E. destruct e.
    { apply ret_inj in E. subst s. split; [left; reflexivity|reflexivity]. }
    assert (Ne : bare v n <> bare v o) by (intros K; apply He in K; discriminate). pose proof (subset_cases v _ _ Wbn Wbo Ubn Ubo So Ne) as Lp.
    destruct (any_exclude_core sp v (bare v n) (bare v o) Wbn Wbo Ubn Ubo So Lp) as (it & x0 & _ & Ex & H). rewrite Ex in E. cbn [bind] in E. apply ret_inj in E. subst s.
    split; [|reflexivity]. right. cbn [ae_begin]. assert (0 < xcount (bare v n) (bare v o)) by (unfold xcount; lia). destruct (Z.to_nat (xcount (bare v n) (bare v o))) as [|r] eqn:Er; [lia|].
    exists v, (bare v o), r, it. auto. }
  induction 1 as [|v n v' o s Wn Wo E|v n v' o s Wn Wo E|it it' _ IH E].
  - left; reflexivity.
  - exact (proj1 (M v n v' o s Wn Wo E)).
  - left. exact (proj2 (M v n v' o s Wn Wo E)).
  - destruct IH as [->|(v & o & r & i & Wo & Uo & H)].
    + left. apply ret_inj. rewrite <- E. destruct sp; vm_compute; reflexivity.
    + destruct (rel_next sp v o Wo Uo r i it H) as (i' & x' & _ & E' & K). rewrite E' in E. apply ret_inj in E. subst x'. destruct r as [|r].
      * left. destruct K as (_ & [[_ K]|[K _]]); [exact K|lia].
      * right. exists v, o, r, i'. auto.
Qed.
Lemma axiter_next sp x : aexclude_iter sp x -> returns (axit_next sp x).
Proof.
  intros H. destruct (axiter_state sp x H) as [->|(v & o & r & i & Wo & Uo & K)].
  - exists axit_default. destruct sp; vm_compute; reflexivity.
  - destruct (rel_next sp v o Wo Uo r i x K) as (i' & x' & _ & E' & _). exists x'. exact E'.
Qed.
Lemma axiter_cur sp x : aexclude_iter sp x -> wf_anet (ax_current x).
Proof.
  intros H. destruct (axiter_state sp x H) as [->|(v & o & r & i & Wo & Uo & (K & [[K1 _]|[_ ->]]))]; [apply (net_default_wf V4)|discriminate|].
  apply xstate_wf in K; [|exact Wo]. exact K.
Qed.
Lemma axiter_compares sp a b : aexclude_iter sp a -> aexclude_iter sp b -> returns (axit_eqb a b).
Proof.
  intros Ha Hb. apply axiter_cur in Ha, Hb. unfold axit_eqb, anet_eqb. destruct (ax_current a) as [va na], (ax_current b) as [vb nb]. unfold wf_anet in *. cbn [an_ver an_net] in *.
  destruct va, vb; cbn [ver_eqb ver_num Z.eqb Pos.eqb negb]; try (eexists; reflexivity).
  - destruct (net_eqb_ok V4 _ _ Ha Hb) as (r & E & _). exists r. exact E.
  - destruct (net_eqb_ok V6 _ _ Ha Hb) as (r & E & _). exists r. exact E.
Qed.
Lemma calm_exclude sp v n o c : wf_net v n -> wf_net v o -> returns (exclude_code sp v n o c).
Proof. intros Wn Wo. destruct (exclude_code_ret sp v n o c Wn Wo) as (s & c' & E & _). eexists. exact E. Qed.
Lemma calm_any_exclude sp v n v' o c : wf_net v n -> wf_net v' o -> returns (any_exclude_code sp (mk_an v n) (mk_an v' o) c).
Proof. intros Wn Wo. destruct (any_exclude_code_ret sp v n v' o c Wn Wo) as (s & c' & E & _). eexists. exact E. Qed.

(** *** The public constructors *)
Lemma ait_make_any v a c : wf_addr v a -> returns (ait_make v a c).
Proof. intros W. unfold ait_make. rewrite to_uint_val by exact W. eexists. reflexivity. Qed.
Lemma make_throw v a step p carry : wf_addr v a -> 0 <= p <= width v -> (throws (nit_make v a step p carry) <-> val a mod 2 ^ (width v - p) <> 0).
Proof.
  intros W Hp. unfold nit_make. rewrite from_address_spec by assumption. destruct (Z.eqb_spec (val a mod 2 ^ (width v - p)) 0) as [E|E]; cbn [bind].
  - split; [|contradiction]. intros H. exfalso. revert H. destruct (ait_make_any v a carry W) as (x & ->). apply calm_ret.
  - split; [intros _; exact E|]. intros _. apply throws_err.
Qed.
Lemma stuck_self sp v n : wf_net v n -> unscoped n -> n_prefix n < width v -> xit_make sp v n n = UB AssertFailed.
Proof.
  intros Wn Un Hp. destruct (halves_ok sp v n Wn Hp) as (a & b & E & Ha & Hb).
  assert (Wa : wf_net v a) by apply Ha. assert (Wb : wf_net v b) by apply Hb. assert (Ua : unscoped a) by apply Ha. assert (Ub : unscoped b) by apply Hb.
  assert (Pa : n_prefix a = n_prefix n + 1) by apply Ha. assert (Pb : n_prefix b = n_prefix n + 1) by apply Hb.
  assert (Na : ~ subset v n a) by (intros K; apply subset_prefix in K as [K _]; auto; lia).
  assert (Nb : ~ subset v n b) by (intros K; apply subset_prefix in K as [K _]; auto; lia).
  unfold xit_make. rewrite E. cbn [bind]. unfold xit_next. cbn [x_s1 x_s2 x_other x_current].
  rewrite (eqb_false v a n Wa Wn) by (intros ->; lia). rewrite (eqb_false v b n Wb Wn) by (intros ->; lia). cbn [bind negb andb].
  rewrite (subnet_false sp v n a) by assumption. cbn [bind]. rewrite (subnet_false sp v n b) by assumption. reflexivity.
Qed.
Lemma xmake_throw sp v n o : wf_net v n -> wf_net v o -> unscoped n -> unscoped o -> n_prefix n < width v ->
  (throws (xit_make sp v n o) <-> ~ (subset v o n /\ n <> o)).
Proof.
  intros Wn Wo Un Uo Hp. split.
  - intros H (So & Ne). revert H. destruct (exclude_core sp v n o Wn Wo Un Uo So (subset_cases v _ _ Wn Wo Un Uo So Ne)) as (it & -> & _). apply calm_ret.
  - intros H. right. destruct (net_eqb_ok v n o Wn Wo) as (e & _ & He). destruct e; [|destruct (subnet_spec sp v o n Wo Wn Uo Un) as (b & _ & _ & Hb); destruct b].
    + assert (n = o) as <- by (apply He; reflexivity). apply stuck_self; assumption.
    + exfalso. apply H. split; [apply Hb; reflexivity|]. intros K. apply He in K. discriminate.
    + apply nx_stuck; try assumption. intros K. apply Hb in K. discriminate.
Qed.

(** For a single address the halves are the address itself and its successor. *)
Lemma halves_host sp v n : wf_net v n -> n_prefix n = width v -> exists a b, halves sp v n = Ret (a, b) /\
  (wf_net v a /\ unscoped a /\ n_prefix a = width v /\ first a = first n) /\ (wf_net v b /\ unscoped b /\ n_prefix b = width v /\ first b = (first n + 1) mod 2 ^ width v).
Proof.
  intros W Hp. pose proof (M_big v) as HB. pose proof (val_range v _ (proj1 W)) as R. fold (first n) in R.
  destruct (subnets_spec sp v n 1 None (width v) W) as (s & E & (Wb & Pb & Qb & _) & _);
    [split; [unfold is_size; lia|exact I]|left; auto|pose proof (width_pos v); lia|right; pose proof (width_pos v); lia|].
  assert (Es : ni_step (s_begin s) = 1) by (pose proof Wb as (_ & _ & _ & E1 & ->); unfold size; rewrite <- E1, Qb, Z.sub_diag, Z.mod_small; [reflexivity|]; clear - HB; lia).
  assert (At : forall i, 0 <= i < 2 -> exists m, subnets_at v s i = Ret m /\ wf_net v m /\ unscoped m /\ n_prefix m = width v /\ first m = (first n + i) mod 2 ^ width v).
  { intros i Hi. unfold subnets_at. destruct (nit_add_ok v _ i Wb) as (x & -> & Mx). cbn [bind]. eexists. split; [reflexivity|].
    pose proof Mx as (Wx & Px & _ & Mv). destruct (unsc v x Wx) as [U Fx]. split; [apply Wx|]. split; [exact U|].
    split; [destruct Wx as (_ & _ & _ & <- & _); congruence|]. rewrite Fx, (moved_val _ _ _ _ Mv). fold (nit_pos v (s_begin s)). rewrite Pb, Es, Z.mul_1_l, Zplus_mod_idemp_r. reflexivity. }
  destruct (At 0 ltac:(lia)) as (a & Ea & Wa & Ua & Pa & Fa). destruct (At 1 ltac:(lia)) as (b & Eb & Kb). rewrite Z.add_0_r, Z.mod_small in Fa by exact R.
  exists a, b. unfold halves. rewrite E. cbn [bind]. rewrite Ea. cbn [bind]. rewrite Eb. cbn [bind]. split; [reflexivity|]. split; [|exact Kb]. split; [exact Wa|]. split; [exact Ua|]. split; [exact Pa|exact Fa].
Qed.
Lemma host_ext v a o : wf_net v a -> wf_net v o -> unscoped a -> unscoped o -> n_prefix a = width v -> n_prefix o = width v -> first a = first o -> a = o.
Proof. intros Wa Wo Ua Uo Pa Po F. apply (net_eq_of v); try assumption. congruence. Qed.
Lemma host_out v a o : wf_net v a -> wf_net v o -> unscoped a -> unscoped o -> n_prefix a = width v -> a <> o -> ~ subset v o a.
Proof.
  intros Wa Wo Ua Uo Pa Ne K. apply Ne. apply subset_prefix in K as [K1 K2]; auto. assert (Po : n_prefix o = width v) by (assert (n_prefix o <= width v) by apply Wo; lia).
  apply (host_ext v); auto. unfold in_net, size in K2. rewrite Pa, Z.sub_diag in K2. change (2 ^ 0) with 1 in K2. lia.
Qed.
Lemma xmake_host sp v n o : wf_net v n -> wf_net v o -> unscoped n -> unscoped o -> n_prefix n = width v ->
  (throws (xit_make sp v n o) <-> ~ (o = n \/ (n_prefix o = width v /\ first o = (first n + 1) mod 2 ^ width v))).
Proof.
  intros Wn Wo Un Uo Hp. destruct (halves_host sp v n Wn Hp) as (a & b & E & (Wa & Ua & Pa & Fa) & (Wb & Ub & Pb & Fb)).
  unfold xit_make. rewrite E. cbn [bind]. unfold xit_next. cbn [x_s1 x_s2 x_other x_current].
  destruct (net_eqb_ok v a o Wa Wo) as (e1 & -> & H1). destruct (net_eqb_ok v b o Wb Wo) as (e2 & -> & H2). cbn [bind].
  destruct (net_eqb_ok v n b Wn Wb) as (e3 & -> & _). destruct (net_eqb_ok v n a Wn Wa) as (e4 & -> & _). cbn [bind].
  destruct e1; [|destruct e2]; cbn [negb andb].
  - assert (a = o) as Eo by (apply H1; reflexivity). split; [intros H; exfalso; revert H; destruct e3; cbn [negb]; apply calm_ret|].
    intros K. exfalso. apply K. left. subst o. apply (host_ext v); auto.
  - assert (b = o) as Eo by (apply H2; reflexivity). split; [intros H; exfalso; revert H; destruct e4; cbn [negb]; apply calm_ret|].
    intros K. exfalso. apply K. right. subst o. auto.
  - assert (Na : a <> o) by (intros K; apply H1 in K; discriminate). assert (Nb : b <> o) by (intros K; apply H2 in K; discriminate).
    rewrite (subnet_false sp v o a) by (assumption || apply host_out; assumption). cbn [bind]. rewrite (subnet_false sp v o b) by (assumption || apply host_out; assumption). cbn [bind].
    split; [|intros _; right; reflexivity]. intros _ [K|[K1 K2]].
    + apply Na. subst o. apply (host_ext v); auto.
    + apply Nb. apply (host_ext v); auto. congruence.
Qed.
(** The overflow of the new prefix length: undefined for IPv4, the wrong error for IPv6. *)
Lemma subnets_overflow sp v n d : wf_net v n -> is_size d -> n_prefix n < width v -> 2 ^ 64 <= n_prefix n + d ->
  subnets sp v n d None = match v with V4 => UB BadShift | V6 => Err has_host_bits_set 0 end.
Proof.
  intros W Hd Hp Hw. assert (K : wraps v n d None) by (split; [exact Hp|auto]). unfold subnets. destruct v; [rewrite wrap_code4 by assumption|rewrite wrap_code6 by assumption]; reflexivity.
Qed.
Lemma any_subnets_overflow sp v n d : wf_net v n -> is_size d -> n_prefix n < width v -> 2 ^ 64 <= n_prefix n + d ->
  any_subnets sp (mk_an v n) d None = match v with V4 => UB BadShift | V6 => Err has_host_bits_set 0 end.
Proof. intros W Hd Hp Hw. pose proof (subnets_overflow sp v n d W Hd Hp Hw) as E. unfold any_subnets. destruct v; cbn [anet_is_v4 an_ver ver_eqb ver_num Z.eqb Pos.eqb an_net]; rewrite E; reflexivity. Qed.

(** *** Parsers with an error code *)
Lemma addr_parse_sure v ts : (exists a, addr_parse v ts = Ret a) \/ exists e x, addr_parse v ts = Err e x.
Proof.
  unfold addr_parse. destruct v.
  - pose proof (v4_defined ts) as D. destruct (v4_from_string ts); cbn [bind]; [left; eauto|right; eauto|contradiction].
  - pose proof (v6_defined ts) as D. destruct (v6_from_string true ts) as [[b s]|e x|u]; cbn [bind]; [left; eauto|right; eauto|contradiction].
Qed.
Lemma addr_code_ret v ts code : returns (addr_parse_code v ts code).
Proof. unfold addr_parse_code. destruct (addr_parse_sure v ts) as [(a & ->)|(e & x & ->)]; eexists; reflexivity. Qed.
Lemma calm_parse v ts code : Forall tok_genuine ts -> returns (parse_st v ts code) /\ returns (any_parse_st ts code).
Proof.
  intros H. split; [rewrite (proj2 (parsers_address v ts code H)); apply addr_code_ret|]. rewrite (proj1 (proj2 (parsers_any ts true code H))). unfold any_parse_code.
  destruct (addr_code_ret V4 ts no_error) as ([a c] & ->). cbn [bind]. destruct (ec_eqb c no_error); [eexists; reflexivity|].
  destruct (addr_code_ret V6 ts c) as ([b c'] & ->). cbn [bind]. destruct (ec_eqb c' no_error); eexists; reflexivity.
Qed.
Lemma net_code_calm v ts code strict : Forall tok_char ts -> returns (net_parse_code v ts code strict) \/ net_parse_code v ts code strict = UB BadShift.
Proof.
  intros H. unfold net_parse_code. pose proof (fun u => net_parse_safe v ts strict u H) as K. unfold net_parse in K. destruct (net_parse_res v ts strict) as [n|e x|u]; [left; eexists; reflexivity|left; eexists; reflexivity|].
  right. destruct (K u eq_refl) as (-> & _). reflexivity.
Qed.
Lemma calm_net_parse v ts strict code : Forall tok_genuine ts -> Forall tok_char ts -> ~ throws (net_parse_st v ts strict code) /\ ~ throws (anet_parse_st ts strict code).
Proof.
  intros H C. assert (U : forall A, ~ throws (@UB A BadShift)) by (intros A; apply calm_ub; discriminate). split.
  - rewrite (proj2 (parsers_network v ts strict code H)). destruct (net_code_calm v ts code strict C) as [K| ->]; [apply calm_returns, K|apply U].
  - rewrite (proj2 (proj2 (proj2 (parsers_any ts strict code H)))). unfold anet_parse_code. destruct (net_code_calm V4 ts no_error strict C) as [([n c] & ->)| ->]; cbn [bind]; [|apply U].
    destruct (ec_eqb c no_error); [apply calm_ret|]. destruct (net_code_calm V6 ts c strict C) as [([m c'] & ->)| ->]; cbn [bind]; [|apply U]. destruct (ec_eqb c' no_error); apply calm_ret.
Qed.

(** *** Witnesses *)
Lemma subnets_terminates : exists n d, wf_net V6 n /\ is_size d /\ throws (subnets_code true V6 n no_error d None) /\ throws (any_subnets_code true (mk_an V6 n) no_error d None).
Proof.
  exists (net_at V6 "2001:db8::/32"), (2 ^ 64 - 1). split; [wfn|]. split; [unfold is_size; lia|]. split; left; exists has_host_bits_set, 0; vm_compute; reflexivity.
Qed.
Lemma constructor_terminates : exists a, wf_addr V4 a /\ throws (nit_make V4 a 256 24 0).
Proof. exists (addr_at V4 "10.0.0.1"). split; [wfn|]. left. exists has_host_bits_set, 0. vm_compute. reflexivity. Qed.
Lemma exclusion_terminates : exists n o, wf_net V4 n /\ wf_net V4 o /\ throws (xit_make true V4 n o) /\ throws (xit_make true V4 n n).
Proof. exists (net_at V4 "10.0.0.0/8"), (net_at V4 "11.0.0.0/16"). split; [wfn|]. split; [wfn|]. split; right; vm_compute; reflexivity. Qed.
