(** Excluding version-erased networks on a big-endian host. *)
From Coq Require Import String.
From Verif Require Import Base Tac UnicodeModel V4Model V6Model Uint128Model SpecAddr AddressModel SpecOrder NetworkModel SpecNet NetProofs NetProofs2 NetProofs3 NetLemmas
  IterModel SpecAny AnyModel AnyProofs AnyIter HostModel SpecEndian EndianProofs EndianProofs6 EndianLemmas EndianProofs10 AnyHostModel SpecAnyEndian AnyEndianProofs2.
Open Scope Z_scope.
Open Scope list_scope.

Lemma any_halves4 le sp n : any_halves_h le sp (mk_an V4 n) = rmap (fun p => (mk_an V4 (fst p), mk_an V4 (snd p))) (halves_h le sp V4 n).
Proof.
  unfold any_halves_h, halves_h, any_subnets_h. cbn [anet_is_v4 an_ver an_net ver_eqb ver_num Z.eqb Pos.eqb].
  destruct (subnets_h le sp V4 n 1 None) as [s| |]; cbn [bind rmap]; [|reflexivity|reflexivity].
  unfold aseq_at, aseq_make, aiter_add, aiter_make, subnets_at_h. cbn [q_begin ai_ver ai_it ver_eqb ver_num Z.eqb Pos.eqb o_add o_get net_ops_h].
  change (u32_of_u128 0) with 0. change (u32_of_u128 1) with 1.
  destruct (nit_add_h le V4 (s_begin s) 0); cbn [bind rmap ai_cur]; [|reflexivity|reflexivity]. destruct (nit_add_h le V4 (s_begin s) 1); reflexivity.
Qed.
Lemma any_xnext4 le sp x : axit_next_h le sp (xlift V4 x) = rmap (xlift V4) (xit_next_h le sp V4 x).
Proof.
  unfold axit_next_h, xit_next_h, xlift. cbn [ax_other ax_s1 ax_s2 ax_current]. rewrite !any_net_eqb, !any_net_sub, !any_halves4.
  destruct (net_eqb V4 (x_s1 x) (x_other x)) as [e1| |]; cbn [bind rmap]; [|reflexivity|reflexivity].
  destruct (net_eqb V4 (x_s2 x) (x_other x)) as [e2| |]; cbn [bind rmap]; [|reflexivity|reflexivity].
  destruct e1, e2; cbn [negb andb].
  1-3: destruct (net_eqb V4 (x_current x) (x_s2 x)) as [[|]| |]; destruct (net_eqb V4 (x_current x) (x_s1 x)) as [[|]| |]; reflexivity.
  destruct (subnet_of sp V4 (x_other x) (x_s1 x)) as [[|]| |]; cbn [bind rmap]; [| |reflexivity|reflexivity].
  - destruct (net_eqb V4 (x_current x) (x_s2 x)) as [[|]| |]; cbn [bind negb rmap]; [reflexivity| |reflexivity|reflexivity].
    destruct (halves_h le sp V4 (x_s1 x)) as [[a b]| |]; reflexivity.
  - destruct (subnet_of sp V4 (x_other x) (x_s2 x)) as [[|]| |]; cbn [bind rmap]; [|reflexivity|reflexivity|reflexivity].
    destruct (net_eqb V4 (x_current x) (x_s1 x)) as [[|]| |]; cbn [bind negb rmap]; [reflexivity| |reflexivity|reflexivity].
    destruct (halves_h le sp V4 (x_s2 x)) as [[a b]| |]; reflexivity.
Qed.
Lemma any_xwalk4 le sp : forall k x y, aexclude_walk_h le sp k (xlift V4 x) (xlift V4 y) = rmap (map (mk_an V4)) (exclude_walk_h le sp V4 k x y).
Proof.
  unfold aexclude_walk_h, exclude_walk_h. induction k as [|k IH]; intros x y; cbn [walk].
  all: change (axit_eqb (xlift V4 x) (xlift V4 y)) with (xit_eqb V4 x y); destruct (xit_eqb V4 x y) as [[|]| |]; cbn [bind]; [reflexivity| |reflexivity|reflexivity].
  - reflexivity.
  - rewrite any_xnext4. destruct (xit_next_h le sp V4 x) as [x'| |]; cbn [bind rmap]; [|reflexivity|reflexivity]. rewrite IH.
    destruct (walk (xit_eqb V4) (xit_next_h le sp V4) x_current k x' y); reflexivity.
Qed.
Definition elift (s : exclude_seq) : aexclude := mk_aexclude (xlift V4 (e_begin s)) (xlift V4 (e_end s)).
Lemma any_exclude4 le sp m o : from_address_h le V4 (n_addr m) (n_prefix m) true = Ret m -> from_address_h le V4 (n_addr o) (n_prefix o) true = Ret o ->
  any_exclude_h le sp (mk_an V4 m) (mk_an V4 o) = rmap elift (exclude_h le sp V4 m o).
Proof.
  intros Em Eo. unfold any_exclude_h, any_exclude_code_h, exclude_h, remove_scope_net_h. cbn [an_ver ver_eqb ver_num Z.eqb Pos.eqb negb].
  unfold anet_address, anet_is_v4, any_clear_scope, anet_from_address_h, anet_prefixlen. cbn [an_ver an_net ver_eqb ver_num Z.eqb Pos.eqb aa_ver aa_addr bind].
  rewrite Em. cbn [bind]. rewrite Eo. cbn [bind]. rewrite any_net_sub. destruct (subnet_of sp V4 o m) as [[|]| |]; cbn [bind negb rmap]; [|reflexivity|reflexivity|reflexivity].
  rewrite any_net_eqb. destruct (net_eqb V4 m o) as [[|]| |]; cbn [bind negb rmap]; [reflexivity| |reflexivity|reflexivity].
  unfold axit_make_h, xit_make_h. rewrite any_halves4. destruct (halves_h le sp V4 m) as [[a b]| |]; cbn [bind rmap fst snd]; [|reflexivity|reflexivity].
  change (mk_axit (mk_an V4 o) (mk_an V4 a) (mk_an V4 b) (mk_an V4 m)) with (xlift V4 (mk_xit o a b m)). rewrite any_xnext4.
  destruct (xit_next_h le sp V4 (mk_xit o a b m)); reflexivity.
Qed.
Lemma remake4 n : wf_net V4 n -> from_address V4 (n_addr n) (n_prefix n) true = Ret n.
Proof.
  intros W. rewrite from_address_spec by apply W. assert (val (n_addr n) mod 2 ^ (width V4 - n_prefix n) = 0) as -> by apply W. cbn [Z.eqb]. f_equal.
  symmetry. apply (net_ext V4); try reflexivity; try assumption. apply net_of_wf; apply W.
Qed.
Lemma any_big_exclude4 sp m o : wf_net V4 m -> wf_net V4 o -> subset V4 o m -> 24 <= n_prefix m \/ first o = first m ->
  exists s t, any_exclude sp (mk_an V4 m) (mk_an V4 o) = Ret s /\ any_exclude_h false sp (mirror_anet (mk_an V4 m)) (mirror_anet (mk_an V4 o)) = Ret t /\
    forall k, aexclude_walk_h false sp k (ae_begin t) (ae_end t) = rmap (map mirror_anet) (aexclude_walk sp k (ae_begin s) (ae_end s)).
Proof.
  intros Wm Wo So C. destruct (big_exclude4_all sp m o Wm Wo So C) as (s & t & Es & Et & Hk).
  destruct any_exclude_little as (_ & L & Lw).
  assert (Bm : from_address_h false V4 (n_addr (mirror_net V4 m)) (n_prefix (mirror_net V4 m)) true = Ret (mirror_net V4 m)).
  { cbn [mirror_net n_addr n_prefix]. rewrite big_from_address4 by first [apply mirror_addr_ok, Wm|apply Wm]. rewrite mirror_addr_twice by apply Wm. rewrite remake4 by exact Wm. reflexivity. }
  assert (Bo : from_address_h false V4 (n_addr (mirror_net V4 o)) (n_prefix (mirror_net V4 o)) true = Ret (mirror_net V4 o)).
  { cbn [mirror_net n_addr n_prefix]. rewrite big_from_address4 by first [apply mirror_addr_ok, Wo|apply Wo]. rewrite mirror_addr_twice by apply Wo. rewrite remake4 by exact Wo. reflexivity. }
  exists (elift s), (elift t). rewrite <- L. split; [|split].
  - rewrite any_exclude4; [rewrite le_exclude, Es; reflexivity|..]; rewrite le_from_address; apply remake4; assumption.
  - change (mirror_anet (mk_an V4 m)) with (mk_an V4 (mirror_net V4 m)). change (mirror_anet (mk_an V4 o)) with (mk_an V4 (mirror_net V4 o)).
    rewrite any_exclude4 by assumption. rewrite Et. reflexivity.
  - intros k. cbn [elift ae_begin ae_end]. rewrite any_xwalk4, Hk, <- Lw, any_xwalk4, le_exclude_walk.
    destruct (exclude_walk sp V4 k (e_begin s) (e_end s)); cbn [rmap]; [|reflexivity|reflexivity]. f_equal. rewrite !map_map. reflexivity.
Qed.
