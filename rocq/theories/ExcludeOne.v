(** address_exclude() of 0.0.0.1/32 and ::1/128, whose last piece is the end marker. *)
From Verif Require Import Base Tac V4Model V6Model Uint128Model AddressModel SpecAddr SpecOrder AddressProofs NetworkModel SpecNet NetProofs NetProofs2 NetProofs3 NetLemmas
  IterModel SpecIter IterProofs IterProofs2 IterProofs3 IterProofs4 IterProofs5 AnyModel SpecAny AnyProofs AnyIter.

Section One.
Variables (v : ver) (o : net).
Hypotheses (Wo : wf_net v o) (Ho : is_one v o).
Lemma beside_last m : beside v o (n_prefix o) m -> m = net_default v.
Proof.
  destruct Ho as [Po Fo]. intros (Wm & Um & Pm & D & a & Wa & Pa & So & Sm). destruct (default_first v o Wo) as [F0 P0].
  apply (net_eq_of v); [exact Wm|apply net_default_wf|exact Um|destruct v; reflexivity| |lia]. rewrite F0.
  pose proof (Sm _ (in_first v m Wm)) as X. pose proof (So _ (in_first v o Wo)) as Y. unfold in_net in X, Y.
  assert (Sz : size v a = 2) by (unfold size; rewrite Pa; replace (width v - (n_prefix o - 1)) with 1 by lia; reflexivity). rewrite Sz, Fo in *.
  assert (first m <> 1). { intros K. apply (D 1); [rewrite <- K; apply in_first; exact Wm|rewrite <- Fo; apply in_first; exact Wo]. }
  assert (A : first a mod 2 = 0). { pose proof Wa as (_ & _ & _ & _ & _ & A). rewrite Sz in A. exact A. }
  assert (0 <= first a) by (pose proof (net_top v a Wa); lia). pose proof (Z.div_mod (first a) 2 ltac:(lia)). lia.
Qed.
Lemma one_eqb r it : xstate v o (S r) it -> xit_eqb v it (xit_default v) = Ret (r =? 0)%nat.
Proof.
  intros [[K _]|(_ & B & _)]; [discriminate|]. unfold xit_eqb. cbn [xit_default x_current]. destruct r as [|r]; cbn [Nat.eqb].
  - replace (n_prefix o + 1 - Z.of_nat 1) with (n_prefix o) in B by lia. apply eqb_true; [apply B|apply net_default_wf|exact (beside_last _ B)].
  - apply eqb_false; [apply B|apply net_default_wf|]. destruct (default_first v o Wo) as [_ P0]. intros K. destruct B as (_ & _ & B & _). rewrite K, P0 in B. destruct Ho. lia.
Qed.
End One.
Lemma exclude_one_list sp v n o : wf_net v n -> wf_net v o -> subset v o n -> n_prefix n < n_prefix o -> is_one v o ->
  exists s l, address_exclude sp v n o = Ret s /\
    exclude_walk sp v (Z.to_nat (n_prefix o - n_prefix n - 1)) (e_begin s) (e_end s) = Ret l /\ Z.of_nat (length l) = n_prefix o - n_prefix n - 1 /\
    (exists m, beside v o (n_prefix o) m /\ listed v o (n_prefix n) (l ++ [m])) /\
    forall k, Z.of_nat k < n_prefix o - n_prefix n - 1 -> exclude_walk sp v k (e_begin s) (e_end s) = UB OutOfFuel.
Proof.
  intros Wn Wo H Hp G. destruct (bare_ok v n Wn) as (Wbn & Ubn & _ & Pn). destruct (bare_ok v o Wo) as (Wbo & Ubo & Fo & Po). unfold address_exclude, exclude_code.
  rewrite !remove_scope_net_ok by assumption. cbn [bind]. rewrite <- subset_bare in H by assumption. rewrite subnet_true by assumption. cbn [bind negb].
  rewrite eqb_false by (auto; apply prefix_ne; lia). cbn [bind]. destruct (exclude_core sp v (bare v n) (bare v o) Wbn Wbo Ubn Ubo H ltac:(lia)) as (it & -> & X). cbn [bind].
  assert (G' : is_one v (bare v o)) by (unfold is_one; rewrite Fo, Po; exact G). unfold xcount in X. rewrite Pn, Po in X.
  set (r := Z.to_nat (n_prefix o - n_prefix n - 1)) in *. replace (Z.to_nat (n_prefix o - n_prefix n)) with (S r) in X by lia.
  pose proof (walk_gen (xit_eqb v) (xit_next sp v) x_current (xit_default v) (fun r => xstate v (bare v o) (S r)) (one_eqb v (bare v o) Wbo G')
    (fun r => xstate_next sp v (bare v o) Wbo Ubo (S r))) as Wk.
  pose proof (Wk r r it X) as Wr. rewrite Nat.leb_refl in Wr. destruct Wr as (l & El & Hl & Hi). eexists. exists l. split; [reflexivity|]. split; [exact El|].
  split; [rewrite Hl; unfold r; lia|].
  assert (B0 : exists it0, xstate v (bare v o) 1 it0).
  { clear -X Wbo Ubo. revert it X. induction r as [|k IH]; intros it X; [eauto|]. destruct (xstate_next true v (bare v o) Wbo Ubo (S k) it X) as (it' & _ & X'). eauto. }
  split.
  - destruct B0 as (it0 & X0). destruct X0 as [[? _]|(_ & Bs0 & _)]; [lia|]. apply (proj1 (beside_bare v o _ _ Wo)) in Bs0. rewrite Po in Bs0.
    replace (n_prefix o + 1 - Z.of_nat 1) with (n_prefix o) in Bs0 by lia. exists (x_current it0). split; [exact Bs0|].
    intros i Hlt. rewrite app_length in Hlt. cbn [length] in Hlt. destruct (Nat.eq_dec i (length l)) as [->|Ne].
    + exists (x_current it0). rewrite nth_error_app2, Nat.sub_diag by lia. split; [reflexivity|]. replace (n_prefix n + 1 + Z.of_nat (length l)) with (n_prefix o) by (rewrite Hl; unfold r; lia). exact Bs0.
    + destruct (Hi i ltac:(lia)) as (x & Px & Ex). exists (x_current x). rewrite nth_error_app1 by lia. split; [exact Ex|].
      destruct Px as [[? _]|(_ & Bs & _)]; [discriminate|]. apply (proj1 (beside_bare v o _ _ Wo)) in Bs. rewrite Po in Bs.
      replace (n_prefix n + 1 + Z.of_nat i) with (n_prefix o + 1 - Z.of_nat (S (r - i))) by lia. exact Bs.
  - intros k Hk. pose proof (Wk k r it X) as Wr. destruct (Nat.leb_spec r k); [lia|exact Wr].
Qed.
Lemma exclude_one_all sp v n o : wf_net v n -> wf_net v o -> subset v o n -> n_prefix n < n_prefix o -> is_one v o ->
  exists s l, address_exclude sp v n o = Ret s /\
    exclude_walk sp v (Z.to_nat (n_prefix o - n_prefix n - 1)) (e_begin s) (e_end s) = Ret l /\
    Z.of_nat (length l) = n_prefix o - n_prefix n - 1 /\
    (forall i, (i < length l)%nat -> exists m, nth_error l i = Some m /\ wf_net v m /\ n_prefix m = n_prefix n + 1 + Z.of_nat i /\ disjoint v m o) /\
    (forall i j a b, (i < j)%nat -> nth_error l i = Some a -> nth_error l j = Some b -> disjoint v a b) /\
    (forall x, (exists m, In m l /\ in_net v m x) <-> in_net v n x /\ 2 <= x) /\
    (forall k, Z.of_nat k < n_prefix o - n_prefix n - 1 -> exclude_walk sp v k (e_begin s) (e_end s) = UB OutOfFuel).
Proof.
  intros Wn Wo H Hp G. destruct (exclude_one_list sp v n o Wn Wo H Hp G) as (s & l & E & Ew & Len & (m0 & B0 & Li) & K). exists s, l.
  split; [exact E|]. split; [exact Ew|]. split; [exact Len|].
  assert (Lm : Z.of_nat (length (l ++ [m0])) = n_prefix o - n_prefix n) by (rewrite app_length; cbn [length]; lia).
  pose proof (fun i j a b => listed_disjoint v n o (l ++ [m0]) i j a b Wn Wo Li Lm) as Dj.
  pose proof (beside_last v o Wo G m0 B0) as Em. destruct (default_first v o Wo) as [F0 P0].
  split; [|split; [|split; [|exact K]]].
  - intros i Hi. destruct (Li i) as (m & Em' & Wm & _ & Pm & D & _); [rewrite app_length; lia|]. rewrite nth_error_app1 in Em' by exact Hi. exists m. auto.
  - intros i j a b Hij Ha Hb. apply (Dj i j a b Hij).
    + rewrite nth_error_app1; [exact Ha|]. apply nth_error_Some. congruence.
    + rewrite nth_error_app1; [exact Hb|]. apply nth_error_Some. congruence.
  - assert (I0 : forall x, in_net v m0 x <-> x = 0).
    { intros x. rewrite Em. unfold in_net, size. rewrite F0, P0, Z.sub_diag. change (2 ^ 0) with 1. lia. }
    assert (I1 : forall x, in_net v o x <-> x = 1).
    { intros x. destruct G as [G1 G2]. unfold in_net, size. rewrite G1, G2, Z.sub_diag. change (2 ^ 0) with 1. lia. }
    intros x. pose proof (listed_cover v n o (l ++ [m0]) x Wn Wo H Li Lm) as C. rewrite I1 in C. split.
    + intros (m & Im & Hm). split; [apply C; right; exists m; split; [apply in_app_iff; left; exact Im|exact Hm]|].
      destruct (In_nth_error l m Im) as (i & Ei). assert (Hi : (i < length l)%nat) by (apply nth_error_Some; congruence).
      assert (Wm : wf_net v m /\ disjoint v m o). { destruct (Li i) as (m' & E' & Wm & _ & _ & D & _); [rewrite app_length; lia|]. rewrite nth_error_app1, Ei in E' by exact Hi. injection E' as <-. auto. }
      assert (X1 : x <> 1) by (intros ->; apply (proj2 Wm 1 Hm), I1; reflexivity).
      assert (X0 : x <> 0). { intros ->. apply (Dj i (length l) m m0 Hi) with (x := 0); [rewrite nth_error_app1 by exact Hi; exact Ei|rewrite nth_error_app2, Nat.sub_diag by lia; reflexivity|exact Hm|apply I0; reflexivity]. }
      pose proof (net_top v m (proj1 Wm)). unfold in_net in Hm. lia.
    + intros [Hn Hx]. destruct (proj1 C Hn) as [->|(m & Im & Hm)]; [lia|]. apply in_app_iff in Im as [Im|[<-|[]]]; [eauto|]. apply I0 in Hm. lia.
Qed.

(** The version-erased networks: as the versioned ones for IPv4. *)
Section Walk4.
Variables (sp : bool) (o : net).
Hypotheses (Wo : wf_net V4 o) (Uo : unscoped o).
Lemma rel_walk4 : forall k r it x, rel V4 o r it x -> aexclude_walk sp k x axit_default = rmap (map (mk_an V4)) (exclude_walk sp V4 k it (xit_default V4)).
Proof.
  assert (Q : forall r it x, rel V4 o r it x -> exists b, axit_eqb x axit_default = Ret b /\ xit_eqb V4 it (xit_default V4) = Ret b /\ (r = 0%nat -> b = true)).
  { intros r it x (X & [[-> ->]|[Hr ->]]).
    - destruct X as [[_ ->]|(K & _)]; [|lia]. exists true. split; [reflexivity|]. split; [reflexivity|auto].
    - destruct X as [[-> _]|(_ & B & _)]; [lia|]. unfold axit_eqb, xit_eqb, xlift. cbn [ax_current axit_default xit_default x_current].
      destruct (net_eqb_ok V4 (x_current it) (net_default V4) (proj1 B) (net_default_wf V4)) as (b & Eb & _). exists b. split; [exact Eb|]. split; [exact Eb|lia]. }
  unfold aexclude_walk, exclude_walk. induction k as [|k IH]; intros r it x R; cbn [walk]; destruct (Q r it x R) as (b & -> & -> & Hb); cbn [bind]; destruct b; try reflexivity.
  destruct r as [|r]; [discriminate (Hb eq_refl)|].
  destruct (rel_next sp V4 o Wo Uo r it x R) as (it' & x' & -> & -> & R'). cbn [bind]. rewrite (IH r it' x' R'). destruct (walk _ _ _ k it' _) as [l| |]; cbn [bind rmap]; try reflexivity.
  destruct R as (_ & [[K _]|[_ ->]]); [discriminate|reflexivity].
Qed.
End Walk4.
Lemma any_exclude_mirror4 sp n o : wf_net V4 n -> wf_net V4 o ->
  match address_exclude sp V4 n o with
  | Ret s => exists s', any_exclude sp (mk_an V4 n) (mk_an V4 o) = Ret s' /\ forall k, aexclude_walk sp k (ae_begin s') (ae_end s') = rmap (map (mk_an V4)) (exclude_walk sp V4 k (e_begin s) (e_end s))
  | Err e x => any_exclude sp (mk_an V4 n) (mk_an V4 o) = Err e x
  | UB u => False
  end.
Proof.
  intros Wn Wo. destruct (bare_ok V4 n Wn) as (Wbn & Ubn & _ & Pn). destruct (bare_ok V4 o Wo) as (Wbo & Ubo & Fo & Po).
  unfold any_exclude. rewrite any_exclude_open by assumption. unfold address_exclude, exclude_code. rewrite !remove_scope_net_ok by assumption. cbn [bind].
  destruct (subnet_spec sp V4 (bare V4 o) (bare V4 n) Wbo Wbn Ubo Ubn) as (b & -> & _ & Hb). cbn [bind]. destruct b; [|reflexivity]. cbn [negb]. pose proof (proj1 Hb eq_refl) as So.
  destruct (net_eqb_ok V4 (bare V4 n) (bare V4 o) Wbn Wbo) as (e & -> & He). cbn [bind]. destruct e.
  - eexists. split; [reflexivity|]. intros k. unfold aexclude_walk, exclude_walk. destruct k; reflexivity.
  - assert (Lt : n_prefix (bare V4 n) < n_prefix (bare V4 o)).
    { destruct (Z.lt_ge_cases (n_prefix (bare V4 n)) (n_prefix (bare V4 o))) as [K|K]; [exact K|exfalso].
      assert (Sn : subset V4 (bare V4 n) (bare V4 o)). { apply (nested V4 (bare V4 n) (bare V4 o) (first (bare V4 o))); auto; [apply So|]; apply in_first; exact Wbo. }
      assert (bare V4 n = bare V4 o) by (apply (subset_antisym V4); auto). apply He in H. discriminate. }
    destruct (any_exclude_core sp V4 (bare V4 n) (bare V4 o) Wbn Wbo Ubn Ubo So Lt) as (it & x & -> & -> & R). cbn [bind]. eexists. split; [reflexivity|].
    intros k. cbn [ae_begin ae_end e_begin e_end]. exact (rel_walk4 sp (bare V4 o) Wbo Ubo k _ it x R).
Qed.
