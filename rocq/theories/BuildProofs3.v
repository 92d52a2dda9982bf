(** Proofs about the classes and the scope ids of every build. *)
From Coq Require Import String.
From Verif Require Import Base Tac UnicodeModel FixedStringModel FixedStringProofs V4Model V6Model AddressModel SpecText SpecV6 SpecAddr SpecStr SpecOrder NetworkModel SpecNet NetProofs NetProofs2 SpecClass ClassifyModel ClassifyProofs ClassifyProofs2 SpecAny
  AnyModel ScopeModel SpecScope ScopeProofs ConfigModel ConfigProofs SpecNetConfig SpecAnyConfig SpecNetOpsConfig NetConfigModel NetConfigProofs NetConfigProofs2 MacroModel BuildModel SpecBuild BuildProofs NetWitness.
Import ListNotations.
Close Scope string_scope.
Open Scope list_scope.

Lemma wf_fs_empty n : wf_fs n (fs_empty n).
Proof. unfold wf_fs, fs_empty. cbn. split; [apply repeat_length|lia]. Qed.
Definition bare (a : addr) : addr := mk_addr (a_bytes a) [].
Lemma bare_wf b v a : lives b v a -> wf_addr v (bare a).
Proof.
  destruct v; cbn [lives]; intros H; [split; [apply H|reflexivity]|]. split; [apply H|]. split; [|constructor].
  left. reflexivity.
Qed.
Lemma tells_same r x P : r = Ret x -> (x = true <-> P) -> tells r P.
Proof. intros E H. exists x. auto. Qed.

(** ** Addresses *)
Lemma b_private b v a : possible b -> lives b v a -> tells (is_private_b b v a) (private_number v (val a)).
Proof.
  intros Hb W. rewrite same_private by exact Hb. apply bare_wf in W. change (val a) with (val (bare a)). change (is_private v a) with (is_private v (bare a)).
  replace (is_private v a) with (is_private v (bare a)) by (destruct v; reflexivity). destruct v.
  - destruct (v4_private_ok _ W) as [P (x & E)]. exists x. split; [exact E|]. rewrite E in P. split; intros H; [apply P; rewrite H; reflexivity|]. apply P in H. apply ret_inj in H. exact H.
  - destruct (v6_private_ok _ W) as (x & E & _ & P). exists x. split; [exact E|exact P].
Qed.
Lemma b_global b v a : possible b -> lives b v a -> tells (is_global_b b v a) (global_number v (val a)).
Proof.
  intros Hb W. rewrite same_global by exact Hb. apply bare_wf in W. change (val a) with (val (bare a)).
  replace (is_global v a) with (is_global v (bare a)) by (destruct v; reflexivity). destruct v.
  - destruct (v4_global_ok _ W) as [P (x & E)]. exists x. split; [exact E|]. rewrite E in P. unfold global_number. cbn [private_number]. split; intros H; [apply P; rewrite H; reflexivity|].
    apply P in H. apply ret_inj in H. exact H.
  - destruct (v6_private_ok _ W) as (x & _ & E & P). exists (negb x). split; [exact E|]. unfold global_number. change (private_number V6 (val (bare a))) with
      ((looks_mapped (val (bare a)) /\ in_ranges v4_private_ranges (val (bare a) mod 2 ^ 32)) \/ (~ looks_mapped (val (bare a)) /\ in_ranges v6_private_ranges (val (bare a)))).
    rewrite <- P. destruct x; cbn [negb]; split; intros H; try discriminate; try reflexivity; [destruct H as [H _]; destruct H; reflexivity|split; [discriminate|exact I]].
Qed.
Lemma b_multicast b v a : possible b -> lives b v a -> tells (is_multicast_b b v a) (multicast_number v (val a)).
Proof. intros Hb W. apply bare_wf in W. eapply tells_same; [apply same_multicast, Hb|]. exact (multicast_ok v (bare a) W). Qed.
Lemma b_reserved b v a : possible b -> lives b v a -> tells (is_reserved_b b v a) (reserved_number v (val a)).
Proof. intros Hb W. apply bare_wf in W. eapply tells_same; [apply same_reserved, Hb|]. exact (reserved_ok v (bare a) W). Qed.
Lemma b_loopback b v a : possible b -> lives b v a -> tells (is_loopback_b b v a) (loopback_number v (val a)).
Proof.
  intros Hb W. apply bare_wf in W. eapply tells_same; [apply same_loopback, Hb|]. pose proof (loopback_ok v (bare a) W) as H.
  replace (is_loopback v a) with (is_loopback v (bare a)) by (destruct v; reflexivity). exact H.
Qed.
Lemma b_link_local b v a : possible b -> lives b v a -> tells (is_link_local_b b v a) (link_local_number v (val a)).
Proof. intros Hb W. apply bare_wf in W. eapply tells_same; [apply same_link_local, Hb|]. exact (link_local_ok v (bare a) W). Qed.
Lemma b_site_local b a : possible b -> lives b V6 a -> tells (is_site_local_b b a) (within v6_site_local (val a)).
Proof. intros Hb W. apply bare_wf in W. eapply tells_same; [apply same_site_local, Hb|]. exact (site_local_ok (bare a) W). Qed.

(** ** Networks *)
Lemma without_wf b v n : net_lives b v n -> wf_net v (without_scope n).
Proof.
  destruct v; cbn [net_lives].
  - intros (H1 & H2 & H3 & H4 & H5 & H6). split; [|split; [exact H2|split; [exact H3|split; [exact H4|split; [exact H5|exact H6]]]]]. split; [apply H1|reflexivity].
  - intros (H1 & H2 & H3 & H4 & H5 & H6). split; [apply (bare_wf b V6); exact H1|]. split.
    { split; [exact H2|]. cbn [without_scope n_mask]. rewrite H3. split; [left; reflexivity|constructor]. }
    split; [exact H3|]. split; [exact H4|]. split; [exact H5|exact H6].
Qed.
Lemma ends_range b v n f r : net_lives b v n -> (forall a, wf_addr v a -> (f a = true <-> within r (val a))) -> (forall a, f a = f (bare a)) ->
  (both_ends f n = true <-> forall x, in_net v n x -> within r x).
Proof.
  intros W H E. apply without_wf in W. replace (both_ends f n) with (both_ends f (without_scope n)).
  - rewrite (one_range v _ f r W H), (every_iff v _ f (within r) W H). reflexivity.
  - unfold both_ends. change (broadcast (without_scope n)) with (broadcast n). rewrite (E (n_addr n)). reflexivity.
Qed.
Lemma b_net_multicast b v n : possible b -> net_lives b v n -> tells (net_is_multicast_b b v n) (forall x, in_net v n x -> multicast_number v x).
Proof.
  intros Hb W. eapply tells_same; [apply ends_same; intros a; apply same_multicast, Hb|]. apply (ends_range b v n _ _ W); [intros a Wa; apply multicast_ok, Wa|reflexivity].
Qed.
Lemma b_net_loopback b v n : possible b -> net_lives b v n -> tells (net_is_loopback_b b v n) (forall x, in_net v n x -> loopback_number v x).
Proof.
  intros Hb W. eapply tells_same; [apply ends_same; intros a; apply same_loopback, Hb|]. apply (ends_range b v n _ _ W); [intros a Wa; apply loopback_ok, Wa|destruct v; reflexivity].
Qed.
Lemma b_net_link_local b v n : possible b -> net_lives b v n -> tells (net_is_link_local_b b v n) (forall x, in_net v n x -> link_local_number v x).
Proof.
  intros Hb W. eapply tells_same; [apply ends_same; intros a; apply same_link_local, Hb|]. apply (ends_range b v n _ _ W); [intros a Wa; apply link_local_ok, Wa|reflexivity].
Qed.
Lemma b_net_site_local b n : possible b -> net_lives b V6 n -> tells (net_is_site_local_b b n) (forall x, in_net V6 n x -> within v6_site_local x).
Proof.
  intros Hb W. eapply tells_same; [apply ends_same; intros a; apply same_site_local, Hb|]. apply (ends_range b V6 n _ _ W); [intros a Wa; apply site_local_ok, Wa|reflexivity].
Qed.
Lemma b_net_reserved b v n : possible b -> net_lives b v n -> (v = V6 -> ~ half_space n) -> tells (net_is_reserved_b b v n) (forall x, in_net v n x -> reserved_number v x).
Proof.
  intros Hb W NH. eapply tells_same; [apply ends_same; intros a; apply same_reserved, Hb|]. apply without_wf in W.
  change (both_ends (is_reserved v) n) with (net_is_reserved v (without_scope n)).
  assert (R : every v (without_scope n) (is_reserved v) <-> forall x, in_net v n x -> reserved_number v x).
  { rewrite (every_iff v _ _ (reserved_number v) W); [reflexivity|]. intros a Wa. exact (reserved_ok v a Wa). }
  rewrite <- R. destruct v; [exact (net_reserved4 _ W)|exact (net_reserved6 _ W (NH eq_refl))].
Qed.
Lemma b_net_private b v n : possible b -> net_lives b v n ->
  tells (net_is_private_b b v n) (exists r, In r (match v with V4 => v4_private_ranges | V6 => v6_private_ranges end) /\ forall x, in_net v n x -> within r x).
Proof. intros Hb W. eapply tells_same; [apply same_net_private, Hb|]. apply without_wf in W. exact (net_private_spec v _ W). Qed.
Lemma b_net_private4 b n : possible b -> net_lives b V4 n -> tells (net_is_private_b b V4 n) (forall x, in_net V4 n x -> private_number V4 x).
Proof.
  intros Hb W. eapply tells_same; [apply same_net_private, Hb|]. apply without_wf in W. change (net_is_private V4 n) with (net_is_private V4 (without_scope n)).
  rewrite (net_private4 _ W), (every_iff V4 _ _ (private_number V4) W); [reflexivity|]. intros a Wa. destruct (v4_private_ok a Wa) as [P _]. cbn [private_number]. rewrite <- P.
  cbn [is_private]. split; [intros ->; reflexivity|intros E; apply ret_inj in E; exact E].
Qed.
Lemma b_net_global b v n x : possible b -> net_lives b v n -> net_is_private_b b v n = Ret x ->
  tells (net_is_global_b b v n) (x = false /\ (v = V4 -> ~ forall y, in_net V4 n y -> within v4_shared y)).
Proof.
  intros Hb W E. rewrite same_net_private in E by exact Hb. apply ret_inj in E. eapply tells_same; [apply same_net_global, Hb|]. apply without_wf in W. destruct v.
  - change (net_is_global V4 n) with (net_is_global V4 (without_scope n)). rewrite (net_global4 _ W). change (net_is_private V4 (without_scope n)) with (net_is_private V4 n). rewrite E.
    change (in_net V4 (without_scope n)) with (in_net V4 n). tauto.
  - cbn [net_is_global]. rewrite E. destruct x; cbn [negb]; (split; intros H; [|]); [discriminate H|destruct H as [H _]; discriminate H|split; [reflexivity|discriminate]|reflexivity].
Qed.

(** ** Scope ids *)
Lemma b_scope b a : possible b -> lives b V6 a -> exists s, get_scope_b b a = Ret s /\ sees s (a_scope a).
Proof.
  intros Hb (_ & (HL & _) & _). unfold get_scope_b. destruct (c_max (b_cfg b) >? 0) eqn:E.
  - destruct (scope_fs_c_wf (b_cfg b) (a_scope a) HL) as [Wf Ef]. destruct (scope_sees _ _ Wf) as (s & Es & _ & Hs). exists s. split; [exact Es|]. rewrite <- Ef. exact Hs.
  - assert (Z : a_scope a = []) by (destruct (a_scope a) as [|c l]; [reflexivity|]; unfold possible in Hb; rewrite zlen_cons in HL; pose proof (zlen_nonneg l); lia). rewrite Z.
    assert (Wf : wf_fs 0 (fs_empty 0)) by (apply wf_fs_empty). destruct (scope_sees _ _ Wf) as (s & Es & _ & Hs).
    exists s. split; [|exact Hs]. unfold fs_make_b. destruct (b_throws b); exact Es.
Qed.
Lemma b_any_scope b x : possible b -> any_for (c_max (b_cfg b)) (c_spaces (b_cfg b)) x -> exists s, any_get_scope_b b x = Ret s /\ sees s (a_scope (aa_addr x)).
Proof.
  intros Hb H. unfold any_get_scope_b. unfold any_for in H. destruct (aa_ver x); cbn [ver_eqb].
  - destruct H as [_ H]. cbn in H. rewrite H. assert (Wf : wf_fs (Z.to_nat (c_max (b_cfg b))) (fs_empty (Z.to_nat (c_max (b_cfg b))))) by apply wf_fs_empty.
    destruct (scope_sees _ _ Wf) as (s & Es & _ & Hs). exists s. split; [exact Es|]. unfold fs_chars, fs_empty in Hs. cbn in Hs. exact Hs.
  - apply b_scope; assumption.
Qed.
Lemma b_half_reserved : exists n y, forall b, possible b -> net_lives b V6 n /\ net_is_reserved_b b V6 n = Ret true /\ in_net V6 n y /\ ~ reserved_number V6 y.
Proof.
  set (x := net_at V6 "::/1"). exists x, (2 ^ 125). assert (W : wf_net V6 x) by (apply net_at_wf; vm_compute; reflexivity).
  assert (S : a_scope (n_addr x) = []) by (vm_compute; reflexivity). assert (R : net_is_reserved V6 x = true) by (vm_compute; reflexivity).
  assert (F : first x = 0 /\ size V6 x = 2 ^ 127) by (split; vm_compute; reflexivity).
  assert (NR : ~ reserved_number V6 (2 ^ 125)).
  { intros H. apply in_rangesb_ok in H. revert H. vm_compute. discriminate. }
  clearbody x. intros b Hb. split.
  - destruct W as ((W1 & _) & (W2 & _) & W3 & W4 & W5 & W6). split; [|split; [exact W2|split; [exact W3|split; [exact W4|split; [exact W5|exact W6]]]]].
    split; [exact W1|]. rewrite S. split; [|constructor]. split; [unfold possible in Hb; unfold zlen; cbn; lia|]. split; [intros []|constructor].
  - split; [|split; [unfold in_net; destruct F as [-> ->]; lia|exact NR]]. unfold net_is_reserved_b. rewrite (ends_same _ (is_reserved V6)) by (intros a; apply same_reserved, Hb).
    f_equal. exact R.
Qed.
