(** The relational operators of every class. *)
From Verif Require Import Base Tac FixedStringModel FixedStringProofs SpecStr StrProofs SpecAddr SpecV6 AddressModel SpecOrder AddressProofs NetworkModel SpecNet NetProofs NetProofs2 NetProofs3
  IterModel SpecIter IterProofs IterProofs3 AnyModel SpecAny AnyProofs SpecExact ExactProofs Uint128OpsModel ScopeModel ScopeProofs RelModel SpecRel.

(** ** In general *)
Section Rel.
  Context {A : Type} (r : rels A) (D : A -> Prop) (same before : A -> A -> Prop).
  Lemma decides_neg x P : decides x P -> decides (e <- x ;; Ret (negb e)) (~ P).
  Proof.
    intros (q & -> & H). exists (negb q). split; [reflexivity|]. destruct q; cbn [negb].
    - split; [discriminate|]. intros K. destruct K. apply H. reflexivity.
    - split; [intros _ K; apply H in K; discriminate|reflexivity].
  Qed.
  Lemma rel_cpp20 : strict_order D same before -> (forall a b, same a b -> same b a) -> forall a b, D a -> D b ->
    decides (r_eqb r a b) (same a b) ->
    (exists c, r_cmp r a b = Ret c /\ match c with Eq => same a b | Lt => before a b | Gt => before b a end) ->
    forall op, decides (rel_op r true op a b) (in_order same before op a b).
  Proof.
    intros (O1 & O2 & _ & _) Sy a b Da Db He (c & Hc & H) op.
    pose proof (O1 a b Da Db) as A1. pose proof (O1 b a Db Da) as A2. pose proof (O2 a b Da Db) as A3. pose proof (Sy a b) as A4. pose proof (Sy b a) as A5.
    destruct op; cbn [rel_op in_order]; [exact He|apply decides_neg; exact He|..]; rewrite Hc; cbn [bind]; eexists; (split; [reflexivity|]);
      destruct c; (split; [try discriminate; tauto|intros K; try reflexivity; exfalso; tauto]).
  Qed.
  Lemma rel_older (less : A -> A -> Prop) a b : decides (r_eqb r a b) (same a b) -> decides (r_ltb r a b) (less a b) -> decides (r_ltb r b a) (less b a) ->
    forall op, decides (rel_op r false op a b) (from_less same less op a b).
  Proof. intros He Hl Hg op. destruct op; cbn [rel_op from_less]; try assumption; apply decides_neg; assumption. Qed.
  Lemma less_order : strict_order D same before -> (forall a b, same a b -> same b a) -> forall a b, D a -> D b ->
    forall op, from_less same before op a b <-> in_order same before op a b.
  Proof.
    intros (O1 & O2 & _ & O4) Sy a b Da Db op.
    pose proof (O1 a b Da Db) as A1. pose proof (O1 b a Db Da) as A2. pose proof (O2 a b Da Db) as A3. pose proof (O4 a b Da Db) as A4. pose proof (Sy a b) as A5. pose proof (Sy b a) as A6.
    destruct op; cbn [from_less in_order]; tauto.
  Qed.
End Rel.
Lemma decides_iff x P Q : decides x P -> (P <-> Q) -> decides x Q.
Proof. intros (q & E & H) I. exists q. split; [exact E|]. rewrite H. exact I. Qed.

(** ** Strings and scopes *)
Lemma string_order : strict_order string_in text_same text_before.
Proof.
  unfold text_same, text_before. repeat split.
  - intros a b _ _ H E. rewrite E in H. exact (lex_irrefl _ H).
  - intros a b _ _ H K. exact (lex_irrefl _ (lex_trans _ _ _ H K)).
  - intros a b c _ _ _ H K. exact (lex_trans _ _ _ H K).
  - intros a b _ _. apply lex_total.
Qed.
Lemma string_ops sp op f g : string_in f -> string_in g -> decides (rel_op string_rels sp op f g) (in_order text_same text_before op f g).
Proof.
  intros Df Dg. pose proof Df as [[n Wf] Cf]. pose proof Dg as [[m Wg] Cg]. assert (Sy : forall a b, text_same a b -> text_same b a) by (unfold text_same; congruence). destruct sp.
  - apply (rel_cpp20 _ string_in); try assumption; [exact string_order|exact (fs_eqb_ok n m f g Wf Wg Cf Cg)|exact (fs_cmp_ok n m f g Wf Wg Cf Cg)].
  - eapply decides_iff; [apply (rel_older _ text_same text_before); [exact (fs_eqb_ok n m f g Wf Wg Cf Cg)|exact (fs_ltb_ok n m f g Wf Wg Cf Cg)|exact (fs_ltb_ok m n g f Wg Wf Cg Cf)]|].
    apply (less_order string_in); try assumption. exact string_order.
Qed.
Lemma scope_ops sp op f g s t : string_in f -> string_in g -> scope_make f = Ret s -> scope_make g = Ret t ->
  decides (rel_op scope_rels sp op s t) (in_order (fun s t => scope_string s = scope_string t) (fun s t => lex_lt (scope_string s) (scope_string t)) op s t).
Proof.
  intros Df Dg Es Et. pose proof Df as [[n Wf] _]. pose proof Dg as [[m Wg] _].
  rewrite (scope_make_ok n f Wf) in Es. rewrite (scope_make_ok m g Wg) in Et. injection Es as <-. injection Et as <-.
  pose proof (string_ops sp op f g Df Dg) as H. unfold scope_string. cbn [sc_id].
  assert (Er : rel_op scope_rels sp op (mk_scope f (snd (V6Model.scope_value (fs_chars f))) (fst (V6Model.scope_value (fs_chars f))))
    (mk_scope g (snd (V6Model.scope_value (fs_chars g))) (fst (V6Model.scope_value (fs_chars g)))) = rel_op string_rels sp op f g) by (destruct op, sp; reflexivity).
  rewrite Er. destruct op; exact H.
Qed.

(** ** Addresses and networks *)
Lemma addr_order v : strict_order (wf_addr v) eq addr_before.
Proof.
  repeat split.
  - intros a b _ _ H ->. exact (before_irrefl _ H).
  - intros a b _ _ H K. exact (before_irrefl _ (before_trans _ _ _ H K)).
  - intros a b c _ _ _. apply before_trans.
  - intros a b Wa Wb. apply (before_total v); assumption.
Qed.
Lemma net_order v : strict_order (wf_net v) eq net_before.
Proof.
  repeat split.
  - intros a b _ _ H ->. exact (net_before_irrefl _ H).
  - intros a b _ _ H K. exact (net_before_irrefl _ (net_before_trans _ _ _ H K)).
  - intros a b c _ _ _. apply net_before_trans.
  - intros a b Wa Wb. apply (net_before_total v); assumption.
Qed.
Lemma any_order : strict_order wf_any eq any_before.
Proof.
  repeat split.
  - intros a b _ _ H ->. exact (any_irrefl _ H).
  - intros a b _ _ H K. exact (any_irrefl _ (any_trans _ _ _ H K)).
  - intros a b c _ _ _. apply any_trans.
  - intros a b Wa Wb. apply any_total; assumption.
Qed.
Lemma anet_irrefl x : ~ anet_before x x.
Proof. intros [[? ?]|[_ H]]; [congruence|exact (net_before_irrefl _ H)]. Qed.
Lemma anet_trans x y z : anet_before x y -> anet_before y z -> anet_before x z.
Proof.
  intros [[P Q]|[P Q]] [[K L]|[K L]]; [congruence|left; split; congruence|left; split; congruence|right]. split; [congruence|]. exact (net_before_trans _ _ _ Q L).
Qed.
Lemma anet_total x y : wf_anet x -> wf_anet y -> anet_before x y \/ x = y \/ anet_before y x.
Proof. intros Wx Wy. destruct (anet_cmp_ok x y Wx Wy) as (c & _ & H). destruct c; auto. Qed.
Lemma anet_order : strict_order wf_anet eq anet_before.
Proof.
  repeat split.
  - intros a b _ _ H ->. exact (anet_irrefl _ H).
  - intros a b _ _ H K. exact (anet_irrefl _ (anet_trans _ _ _ H K)).
  - intros a b c _ _ _. apply anet_trans.
  - intros a b Wa Wb. apply anet_total; assumption.
Qed.
Lemma addr_ops20 v op a b : wf_addr v a -> wf_addr v b -> decides (rel_op (addr_rels v) true op a b) (in_order eq addr_before op a b).
Proof. intros Wa Wb. apply (rel_cpp20 _ (wf_addr v)); auto using addr_order; [apply addr_eqb_ok|apply addr_cmp_ok]; assumption. Qed.
Lemma addr_ops11 v op a b : wf_addr v a -> wf_addr v b -> decides (rel_op (addr_rels v) false op a b) (from_less eq either_before op a b).
Proof. intros Wa Wb. apply (rel_older _ eq either_before); [apply addr_eqb_ok|apply (less_exact v)|apply (less_exact v)]; assumption. Qed.
Lemma net_ops20 v op a b : wf_net v a -> wf_net v b -> decides (rel_op (net_rels v) true op a b) (in_order eq net_before op a b).
Proof. intros Wa Wb. apply (rel_cpp20 _ (wf_net v)); auto using net_order; [apply net_eqb_ok|apply net_cmp_ok]; assumption. Qed.
Lemma net_ops11 v op a b : wf_net v a -> wf_net v b -> decides (rel_op (net_rels v) false op a b) (from_less eq net_either_before op a b).
Proof. intros Wa Wb. apply (rel_older _ eq net_either_before); [apply net_eqb_ok|apply (net_less_exact v)|apply (net_less_exact v)]; assumption. Qed.
Lemma any_rel20 op a b : wf_any a -> wf_any b -> decides (rel_op any_rels true op a b) (in_order eq any_before op a b).
Proof. intros Wa Wb. apply (rel_cpp20 _ wf_any); auto using any_order; [apply any_eqb_ok|apply any_cmp_ok]; assumption. Qed.
Lemma any_rel11 op a b : wf_any a -> wf_any b -> decides (rel_op any_rels false op a b) (from_less eq any_either_before op a b).
Proof. intros Wa Wb. apply (rel_older _ eq any_either_before); [apply any_eqb_ok|apply any_less_exact|apply any_less_exact]; assumption. Qed.
Lemma anet_rel20 op a b : wf_anet a -> wf_anet b -> decides (rel_op anet_rels true op a b) (in_order eq anet_before op a b).
Proof. intros Wa Wb. apply (rel_cpp20 _ wf_anet); auto using anet_order; [apply anet_eqb_ok|apply anet_cmp_ok]; assumption. Qed.
Lemma anet_rel11 op a b : wf_anet a -> wf_anet b -> decides (rel_op anet_rels false op a b) (from_less eq anet_either_before op a b).
Proof. intros Wa Wb. apply (rel_older _ eq anet_either_before); [apply anet_eqb_ok|apply anet_less_exact|apply anet_less_exact]; assumption. Qed.

(** Without different scope ids the two families agree. *)
Lemma addr_ops_same v op a b : wf_addr v a -> wf_addr v b -> a_scope a = a_scope b -> decides (rel_op (addr_rels v) false op a b) (in_order eq addr_before op a b).
Proof.
  intros Wa Wb E. eapply decides_iff; [apply addr_ops11; assumption|]. rewrite <- (less_order (wf_addr v) eq addr_before (addr_order v) ltac:(auto) a b Wa Wb op).
  pose proof (lex_irrefl (a_scope b)) as L. unfold either_before, addr_before. destruct op; cbn [from_less]; unfold either_before, addr_before; rewrite ?E; tauto.
Qed.
Lemma net_ops_same v op a b : wf_net v a -> wf_net v b -> a_scope (n_addr a) = a_scope (n_addr b) ->
  decides (rel_op (net_rels v) false op a b) (in_order eq net_before op a b).
Proof.
  intros Wa Wb E. eapply decides_iff; [apply net_ops11; assumption|]. rewrite <- (less_order (wf_net v) eq net_before (net_order v) ltac:(auto) a b Wa Wb op).
  pose proof (lex_irrefl (a_scope (n_addr b))) as L.
  destruct op; cbn [from_less]; unfold net_either_before, net_before, either_before, addr_before; rewrite ?E; tauto.
Qed.

(** ** Iterators *)
Lemma ait_order v : strict_order (wf_ait v) (pos_same v) (pos_before v).
Proof. unfold pos_same, pos_before. repeat split; intros; lia. Qed.
Lemma pos_same_eq v a b : wf_ait v a -> wf_ait v b -> (pos_same v a b <-> a = b).
Proof. intros Wa Wb. split; [apply (ait_ext v); assumption|intros ->; reflexivity]. Qed.
Lemma ait_ops v sp op a b : wf_ait v a -> wf_ait v b -> decides (rel_op (ait_rels v) sp op a b) (in_order (pos_same v) (pos_before v) op a b).
Proof.
  intros Wa Wb. assert (Sy : forall a b, pos_same v a b -> pos_same v b a) by (unfold pos_same; auto).
  assert (He : decides (r_eqb (ait_rels v) a b) (pos_same v a b)) by (eexists; split; [apply ait_eqb_ok; assumption|apply Z.eqb_eq]). destruct sp.
  - apply (rel_cpp20 _ (wf_ait v)); auto using ait_order. eexists. split; [apply ait_cmp_ok; assumption|].
    unfold pos_same, pos_before. destruct (Z.compare_spec (ait_pos v a) (ait_pos v b)); assumption.
  - eapply decides_iff; [apply (rel_older _ (pos_same v) (pos_before v)); [exact He|..]|apply (less_order (wf_ait v)); auto using ait_order];
      (eexists; split; [apply ait_ltb_ok; assumption|apply Z.ltb_lt]).
Qed.
Lemma nit_order v : strict_order (wf_nit v) (npos_same v) (npos_before v).
Proof. unfold npos_same, npos_before. repeat split; intros; lia. Qed.
Lemma nit_net v a b : wf_nit v a -> wf_nit v b -> it_carry (ni_it a) = it_carry (ni_it b) ->
  (ni_current a = ni_current b <-> npos_same v a b) /\ (net_before (ni_current a) (ni_current b) <-> npos_before v a b) /\
  (net_either_before (ni_current a) (ni_current b) <-> npos_before v a b).
Proof.
  intros Wa Wb Ec. destruct (unsc v a Wa) as [Ua Fa], (unsc v b Wb) as [Ub Fb].
  assert (P : nit_pos v a - nit_pos v b = first (ni_current a) - first (ni_current b)).
  { unfold nit_pos, ait_pos, first. rewrite Ec. pose proof (proj1 (proj2 (proj2 Wa))) as <-. pose proof (proj1 (proj2 (proj2 Wb))) as <-. lia. }
  pose proof (proj1 (proj2 (proj2 (proj2 Wa)))) as Pa. pose proof (proj1 (proj2 (proj2 (proj2 Wb)))) as Pb.
  assert (Q : n_addr (ni_current a) = n_addr (ni_current b) <-> first (ni_current a) = first (ni_current b)).
  { split; [unfold first; congruence|]. intros H. apply (addr_eq v); [apply Wa|apply Wb|exact H|unfold unscoped in *; congruence]. }
  assert (S0 : ~ lex_lt [] []) by apply lex_irrefl.
  unfold npos_same, npos_before, net_before, net_either_before, either_before, addr_before. unfold unscoped in Ua, Ub. rewrite Ua, Ub.
  fold (first (ni_current a)). fold (first (ni_current b)). rewrite Pa, Pb. split; [|split].
  - split; [intros E; rewrite E in *; lia|]. intros [E E']. apply (net_ext v); [apply Wa|apply Wb|apply Q; lia|exact E'].
  - rewrite Q. intuition lia.
  - rewrite Q. intuition lia.
Qed.
Lemma nit_carry v a b : wf_nit v a -> wf_nit v b -> it_carry (ni_it a) < it_carry (ni_it b) -> nit_pos v a < nit_pos v b.
Proof.
  intros Wa Wb H. unfold nit_pos, ait_pos. pose proof (wf_val v _ (proj1 (proj2 Wa))). pose proof (wf_val v _ (proj1 (proj2 Wb))).
  pose proof (proj1 (proj2 Wa)) as (_ & _ & _ & Ka). pose proof (proj1 (proj2 Wb)) as (_ & _ & _ & Kb).
  destruct Ka as [Ka|Ka], Kb as [Kb|Kb]; rewrite Ka, Kb in *; lia.
Qed.
Lemma nit_ops v sp op a b : wf_nit v a -> wf_nit v b -> decides (rel_op (nit_rels v) sp op a b) (in_order (npos_same v) (npos_before v) op a b).
Proof.
  intros Wa Wb. assert (Sy : forall a b, npos_same v a b -> npos_same v b a) by (unfold npos_same; intuition congruence).
  pose proof (nit_carry v a b Wa Wb) as Lab. pose proof (nit_carry v b a Wb Wa) as Lba.
  assert (He : decides (r_eqb (nit_rels v) a b) (npos_same v a b)).
  { cbn [nit_rels r_eqb]. unfold nit_eqb. destruct (Z.eqb_spec (it_carry (ni_it a)) (it_carry (ni_it b))) as [Ec|Ec].
    - eapply decides_iff; [apply net_eqb_ok; [apply Wa|apply Wb]|]. apply nit_net; assumption.
    - exists false. split; [reflexivity|]. unfold npos_same. split; [discriminate|]. lia. }
  assert (Hl : forall a b, wf_nit v a -> wf_nit v b -> decides (r_ltb (nit_rels v) a b) (npos_before v a b)).
  { clear. intros a b Wa Wb. pose proof (nit_carry v a b Wa Wb) as Lab. pose proof (nit_carry v b a Wb Wa) as Lba. cbn [nit_rels r_ltb]. unfold nit_ltb.
    destruct (Z.ltb_spec (it_carry (ni_it a)) (it_carry (ni_it b))) as [Hc|Hc].
    - exists true. split; [reflexivity|]. unfold npos_before. split; [lia|reflexivity].
    - destruct (Z.eqb_spec (it_carry (ni_it a)) (it_carry (ni_it b))) as [Ec|Ec].
      + eapply decides_iff; [apply (net_less_exact v); [apply Wa|apply Wb]|]. apply nit_net; assumption.
      + exists false. split; [reflexivity|]. unfold npos_before. split; [discriminate|lia]. }
  destruct sp.
  - apply (rel_cpp20 _ (wf_nit v)); auto using nit_order. cbn [nit_rels r_cmp]. unfold nit_cmp.
    destruct (Z.compare_spec (it_carry (ni_it a)) (it_carry (ni_it b))) as [Ec|Ec|Ec].
    + destruct (net_cmp_ok v _ _ (proj1 Wa) (proj1 Wb)) as (c & -> & Hc). exists c. split; [reflexivity|].
      destruct (nit_net v a b Wa Wb Ec) as (N1 & N2 & _). destruct (nit_net v b a Wb Wa (eq_sym Ec)) as (_ & N3 & _). destruct c; tauto.
    + exists Lt. split; [reflexivity|]. left. apply Lab. exact Ec.
    + exists Gt. split; [reflexivity|]. left. apply Lba. exact Ec.
  - eapply decides_iff; [apply (rel_older _ (npos_same v) (npos_before v)); [exact He|apply Hl; assumption|apply Hl; assumption]|apply (less_order (wf_nit v)); auto using nit_order].
Qed.
(** The exclusion iterators have the reverse order of their networks. *)
Lemma xit_ops20 v op a b : wf_net v (x_current a) -> wf_net v (x_current b) ->
  decides (rel_op (xit_rels v) true op a b) (in_order eq (fun x y => net_before y x) op (x_current a) (x_current b)).
Proof.
  intros Wa Wb. pose proof (net_ops20 v op (x_current a) (x_current b) Wa Wb) as H1. pose proof (net_order v) as (O1 & O2 & O3 & O4).
  change (decides (rel_op (mk_rels (net_eqb v) (fun x y => net_cmp v y x) (fun x y => net_ltb v y x)) true op (x_current a) (x_current b))
    (in_order eq (fun x y => net_before y x) op (x_current a) (x_current b))).
  apply (rel_cpp20 _ (wf_net v)); auto.
  - repeat split; intros.
    + intros ->. eapply net_before_irrefl. eassumption.
    + apply O2; assumption.
    + eapply net_before_trans; eassumption.
    + destruct (O4 a0 b0) as [K|[K|K]]; auto.
  - cbn [r_eqb]. apply net_eqb_ok; assumption.
  - cbn [r_cmp]. destruct (net_cmp_ok v _ _ Wb Wa) as (c & -> & Hc). exists c. split; [reflexivity|]. destruct c; auto.
Qed.
Lemma xit_ops11 v op a b : wf_net v (x_current a) -> wf_net v (x_current b) ->
  decides (rel_op (xit_rels v) false op a b) (from_less eq (fun x y => net_either_before y x) op (x_current a) (x_current b)).
Proof.
  intros Wa Wb. change (decides (rel_op (mk_rels (net_eqb v) (fun x y => net_cmp v y x) (fun x y => net_ltb v y x)) false op (x_current a) (x_current b))
    (from_less eq (fun x y => net_either_before y x) op (x_current a) (x_current b))).
  apply (rel_older _ eq (fun x y => net_either_before y x)); cbn [r_eqb r_ltb]; [apply net_eqb_ok|apply (net_less_exact v)|apply (net_less_exact v)]; assumption.
Qed.
Lemma axit_ops20 op a b : wf_anet (ax_current a) -> wf_anet (ax_current b) ->
  decides (rel_op axit_rels true op a b) (in_order eq (fun x y => anet_before y x) op (ax_current a) (ax_current b)).
Proof.
  intros Wa Wb. pose proof anet_order as (O1 & O2 & O3 & O4).
  change (decides (rel_op (mk_rels anet_eqb (fun x y => anet_cmp y x) (fun x y => anet_ltb y x)) true op (ax_current a) (ax_current b))
    (in_order eq (fun x y => anet_before y x) op (ax_current a) (ax_current b))).
  apply (rel_cpp20 _ wf_anet); auto.
  - repeat split; intros.
    + intros ->. eapply anet_irrefl. eassumption.
    + apply O2; assumption.
    + eapply anet_trans; eassumption.
    + destruct (O4 a0 b0) as [K|[K|K]]; auto.
  - cbn [r_eqb]. apply anet_eqb_ok; assumption.
  - cbn [r_cmp]. destruct (anet_cmp_ok _ _ Wb Wa) as (c & -> & Hc). exists c. split; [reflexivity|]. destruct c; auto.
Qed.
Lemma axit_ops11 op a b : wf_anet (ax_current a) -> wf_anet (ax_current b) ->
  decides (rel_op axit_rels false op a b) (from_less eq (fun x y => anet_either_before y x) op (ax_current a) (ax_current b)).
Proof.
  intros Wa Wb. change (decides (rel_op (mk_rels anet_eqb (fun x y => anet_cmp y x) (fun x y => anet_ltb y x)) false op (ax_current a) (ax_current b))
    (from_less eq (fun x y => anet_either_before y x) op (ax_current a) (ax_current b))).
  apply (rel_older _ eq (fun x y => anet_either_before y x)); cbn [r_eqb r_ltb]; [apply anet_eqb_ok|apply anet_less_exact|apply anet_less_exact]; assumption.
Qed.

(** Version-erased iterators. *)
Section AnyIter.
  Context {I E : Type} (o : iops I E) (wf : ver -> I -> Prop) (same before : ver -> I -> I -> Prop).
  Hypothesis R : forall v sp op a b, wf v a -> wf v b -> decides (rel_op (mk_rels (o_eqb o v) (o_cmp o v) (o_ltb o v)) sp op a b) (in_order (same v) (before v) op a b).
  Lemma aiter_one sp op a b : ai_ver a = ai_ver b -> wf (ai_ver a) (ai_it a) -> wf (ai_ver b) (ai_it b) ->
    decides (rel_op (aiter_rels o) sp op a b) (in_order (same (ai_ver a)) (before (ai_ver a)) op (ai_it a) (ai_it b)).
  Proof.
    intros Ev Wa Wb. rewrite <- Ev in Wb. pose proof (R (ai_ver a) sp op (ai_it a) (ai_it b) Wa Wb) as H. clear Wa Wb R.
    destruct a as [[|] a x], b as [[|] b y]; cbn [ai_ver ai_it] in *; try discriminate; destruct op, sp; exact H.
  Qed.
End AnyIter.
Lemma aiter_two (I E : Type) (o : iops I E) sp op a b : ai_ver a = V4 -> ai_ver b = V6 ->
  rel_op (aiter_rels o) sp op a b = Ret (match op with CNe | CLe => true | CLt => sp | CGe => negb sp | CEq | CGt => false end) /\
  rel_op (aiter_rels o) sp op b a = Ret (match op with CNe | CGe => true | CGt => sp | CLe => negb sp | CEq | CLt => false end) /\
  aiter_diff o a b = 0 /\ aiter_diff o b a = 0.
Proof.
  intros Ea Eb. destruct a as [va a x], b as [vb b y]. cbn [ai_ver] in Ea, Eb. subst. destruct op, sp; repeat split; reflexivity.
Qed.
Lemma host_iter_ops sp op (a b : aiter ait aaddr) : ai_ver a = ai_ver b -> wf_ait (ai_ver a) (ai_it a) -> wf_ait (ai_ver b) (ai_it b) ->
  decides (rel_op (aiter_rels host_ops) sp op a b) (in_order (pos_same (ai_ver a)) (pos_before (ai_ver a)) op (ai_it a) (ai_it b)).
Proof. apply (aiter_one host_ops wf_ait pos_same pos_before). intros v sp' op' x y. exact (ait_ops v sp' op' x y). Qed.
Lemma net_iter_ops sp op (a b : aiter nit anet) : ai_ver a = ai_ver b -> wf_nit (ai_ver a) (ai_it a) -> wf_nit (ai_ver b) (ai_it b) ->
  decides (rel_op (aiter_rels net_ops) sp op a b) (in_order (npos_same (ai_ver a)) (npos_before (ai_ver a)) op (ai_it a) (ai_it b)).
Proof. apply (aiter_one net_ops wf_nit npos_same npos_before). intros v sp' op' x y. exact (nit_ops v sp' op' x y). Qed.

(** ** Swaps and conversions *)
Lemma net_swap_ok v a b : wf_net v a -> wf_net v b -> net_swap a b = Ret (b, a).
Proof.
  intros Wa Wb. unfold net_swap. rewrite (addr_swap_ok v) by (apply Wa || apply Wb). cbn [bind]. rewrite (addr_swap_ok v) by (apply Wa || apply Wb).
  cbn [bind]. destruct a, b. reflexivity.
Qed.
Lemma anet_swap_ok x y : anet_swap x y = (y, x).
Proof. reflexivity. Qed.
Lemma anet_versions x : (forall n, anet_v4 x = Some n <-> an_ver x = V4 /\ n = an_net x) /\ (forall n, anet_v6 x = Some n <-> an_ver x = V6 /\ n = an_net x) /\
  (anet_v4 x = None <-> anet_v6 x <> None).
Proof.
  destruct x as [[|] n]; unfold anet_v4, anet_v6; cbn [an_ver an_net];
    [change (ver_eqb V4 V4) with true; change (ver_eqb V4 V6) with false|change (ver_eqb V6 V4) with false; change (ver_eqb V6 V6) with true]; cbv iota;
    repeat split; try discriminate; try congruence; intuition congruence.
Qed.
Lemma older_not_order : exists a b : aiter ait aaddr, wf_ait (ai_ver a) (ai_it a) /\ wf_ait (ai_ver b) (ai_it b) /\
  rel_op (aiter_rels host_ops) false CEq a b = Ret false /\ rel_op (aiter_rels host_ops) false CLt a b = Ret false /\
  rel_op (aiter_rels host_ops) false CGt a b = Ret false /\ rel_op (aiter_rels host_ops) false CLe a b = Ret true /\ rel_op (aiter_rels host_ops) false CGe a b = Ret true.
Proof.
  exists (mk_ai V4 (ait_default V4) (mk_aa V4 (addr_default V4))), (mk_ai V6 (ait_default V6) (mk_aa V6 (addr_default V6))).
  assert (W : forall v, wf_ait v (ait_default v)).
  { intros v. split; [|split; [reflexivity|split; [|left; reflexivity]]].
    - split; [split; [destruct v; reflexivity|]|destruct v; [reflexivity|split; [left; reflexivity|constructor]]].
      apply Forall_forall. intros y Hy. apply repeat_spec in Hy. subst. vm_compute. split; congruence.
    - destruct v; reflexivity. }
  split; [apply W|]. split; [apply W|]. repeat split; reflexivity.
Qed.
