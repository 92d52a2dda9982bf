(** Relations between networks, supernets, order and hash. *)
From Verif Require Import Base Tac TextProofs UnicodeModel FixedStringModel V4Model V6Model Uint128Model SpecInt Uint128Proofs Uint128Div2
  SpecText SpecAddr SpecStr SpecV6 StrProofs V4Proofs BufProofs BitProofs FixedStringProofs V4Lemmas V6Proofs V6Full V6Lemmas
  AddressModel SpecOrder AddressProofs NetworkModel SpecNet NetProofs NetProofs2.

(** *** Blocks *)
Lemma subset_ends v a b : wf_net v a -> wf_net v b ->
  (subset v a b <-> first b <= first a /\ first a + size v a <= first b + size v b).
Proof.
  intros Wa Wb. destruct (net_top v a Wa) as (_ & Sa & _). unfold subset, in_net. split.
  - intros H. pose proof (H (first a)). pose proof (H (first a + size v a - 1)). lia.
  - intros H x Hx. lia.
Qed.
Lemma size_le v a b : wf_net v a -> wf_net v b -> (size v a <= size v b <-> n_prefix b <= n_prefix a).
Proof.
  intros (_ & _ & _ & Pa & _) (_ & _ & _ & Pb & _). unfold size. split.
  - intros H. apply Z.pow_le_mono_r_iff in H; lia.
  - intros H. apply Z.pow_le_mono_r; lia.
Qed.
Lemma size_split v a b : wf_net v a -> wf_net v b -> n_prefix b <= n_prefix a ->
  size v b = 2 ^ (n_prefix a - n_prefix b) * size v a.
Proof.
  intros (_ & _ & _ & Pa & _) (_ & _ & _ & Pb & _) H. unfold size. rewrite <- pow2_split by lia. f_equal. lia.
Qed.
(** Two blocks that meet are nested. *)
Lemma nested v a b x : wf_net v a -> wf_net v b -> n_prefix b <= n_prefix a -> in_net v a x -> in_net v b x -> subset v a b.
Proof.
  intros Wa Wb H Ha Hb. apply subset_ends; auto. pose proof (size_split v a b Wa Wb H) as E.
  destruct (net_top v a Wa) as (Fa & Sa & _). destruct (net_top v b Wb) as (Fb & Sb & _).
  destruct Wa as (_ & _ & _ & _ & _ & Aa). destruct Wb as (_ & _ & _ & _ & _ & Ab).
  unfold in_net in *. apply Z.mod_divide in Aa as [r Er]; [|lia]. apply Z.mod_divide in Ab as [q Eq]; [|lia].
  rewrite E in Eq, Hb, Sb |- *. set (m := 2 ^ _) in *. set (s := size v a) in *. clearbody m s.
  rewrite Er, Eq in *. assert (q * m < r + 1) by nia. assert (r < q * m + m) by nia. split; nia.
Qed.
Lemma subset_prefix v a b : wf_net v a -> wf_net v b -> (subset v a b <-> n_prefix b <= n_prefix a /\ in_net v b (first a)).
Proof.
  intros Wa Wb. destruct (net_top v a Wa) as (Fa & Sa & _). split.
  - intros H. pose proof (proj1 (subset_ends v a b Wa Wb) H). split; [apply size_le with (v := v); auto; lia|].
    apply H. unfold in_net. lia.
  - intros [H1 H2]. apply (nested v a b (first a)); auto. unfold in_net. lia.
Qed.
Lemma subset_same v a b : wf_net v a -> wf_net v b -> subset v a b -> subset v b a -> first a = first b /\ n_prefix a = n_prefix b.
Proof.
  intros Wa Wb H1 H2. apply subset_ends in H1, H2; auto. split; [lia|].
  pose proof (size_le v a b Wa Wb). pose proof (size_le v b a Wb Wa). lia.
Qed.

(** *** overlaps *)
Lemma overlaps_spec v a b : wf_net v a -> wf_net v b -> (overlaps a b = true <-> exists x, in_net v a x /\ in_net v b x).
Proof.
  intros Wa Wb. destruct (broadcast_spec v a Wa) as (Wba & Vba & _). destruct (broadcast_spec v b Wb) as (Wbb & Vbb & _).
  destruct (net_top v a Wa) as (Fa & Sa & _). destruct (net_top v b Wb) as (Fb & Sb & _).
  unfold overlaps. rewrite !orb_true_iff. rewrite !(contains_spec v) by (try assumption; first [apply Wa | apply Wb]).
  rewrite Vba, Vbb. fold (first a). fold (first b). unfold in_net. split.
  - intros [[[H|H]|H]|H]; [exists (first a)|exists (first a + size v a - 1)|exists (first b)|exists (first b + size v b - 1)]; lia.
  - intros (x & H1 & H2). destruct (Z.leb_spec (first b) (first a)); [left; left; left; lia|left; right; lia].
Qed.
Lemma overlaps_refl v a : wf_net v a -> overlaps a a = true.
Proof.
  intros W. apply (overlaps_spec v); auto. destruct (net_top v a W) as (_ & S & _). exists (first a). unfold in_net. lia.
Qed.
Lemma overlaps_sym v a b : wf_net v a -> wf_net v b -> overlaps a b = overlaps b a.
Proof.
  intros Wa Wb. apply eq_true_iff_eq. rewrite !(overlaps_spec v) by assumption. split; intros (x & ? & ?); exists x; auto.
Qed.
Lemma overlaps_nested v a b : wf_net v a -> wf_net v b -> overlaps a b = true -> subset v a b \/ subset v b a.
Proof.
  intros Wa Wb H. apply (overlaps_spec v) in H as (x & Ha & Hb); auto.
  destruct (Z.leb_spec (n_prefix b) (n_prefix a)).
  - left. apply (nested v a b x); auto.
  - right. apply (nested v b a x); auto. lia.
Qed.

(** *** subnet_of and supernet_of *)
Lemma before_unscoped a b : a_scope a = a_scope b -> (addr_before a b <-> val a < val b).
Proof.
  intros E. unfold addr_before. rewrite E. split; [|auto]. intros [H|[_ H]]; [exact H|]. exfalso. exact (lex_irrefl _ H).
Qed.
Lemma le_unscoped sp v a b : wf_addr v a -> wf_addr v b -> a_scope a = a_scope b ->
  op_le sp v a b = Ret (val a <=? val b) /\ op_ge sp v a b = Ret (val b <=? val a) /\
  op_lt sp v a b = Ret (val a <? val b) /\ op_gt sp v a b = Ret (val b <? val a).
Proof.
  intros Wa Wb E. assert (X : op_le true v a b = Ret (val a <=? val b) /\ op_ge true v a b = Ret (val b <=? val a) /\
    op_lt true v a b = Ret (val a <? val b) /\ op_gt true v a b = Ret (val b <? val a)).
  { destruct (op_cpp20 v a b Wa Wb) as (lt & gt & le & ge & -> & -> & -> & -> & Hlt & Hgt & Hle & Hge).
    rewrite before_unscoped in Hlt, Hle by exact E. rewrite before_unscoped in Hgt, Hge by (symmetry; exact E).
    assert (Q : a = b <-> val a = val b) by (split; [intros ->; reflexivity|intros H; apply (addr_eq v); auto]).
    rewrite Q in *. repeat split; f_equal; apply eq_true_iff_eq; rewrite ?Z.leb_le, ?Z.ltb_lt, ?Hlt, ?Hgt, ?Hle, ?Hge; lia. }
  destruct sp; [exact X|]. destruct (op_cpp17 v a b Wa Wb E) as (-> & -> & -> & ->). exact X.
Qed.
Lemma subnet_spec sp v a b : wf_net v a -> wf_net v b -> unscoped a -> unscoped b ->
  exists r, subnet_of sp v a b = Ret r /\ supernet_of sp v b a = Ret r /\ (r = true <-> subset v a b).
Proof.
  intros Wa Wb Ua Ub. destruct (broadcast_spec v a Wa) as (Wba & Vba & Sba). destruct (broadcast_spec v b Wb) as (Wbb & Vbb & Sbb).
  unfold subnet_of, supernet_of, is_subnet_of.
  destruct (le_unscoped sp v (n_addr b) (n_addr a) (proj1 Wb) (proj1 Wa)) as (-> & _); [unfold unscoped in *; congruence|].
  destruct (le_unscoped sp v (broadcast b) (broadcast a) Wbb Wba) as (_ & -> & _); [congruence|].
  cbn [bind]. rewrite Vba, Vbb. change (val (n_addr a)) with (first a). change (val (n_addr b)) with (first b).
  destruct (Z.leb_spec (first b) (first a)); (eexists; split; [reflexivity|]; split; [reflexivity|]);
    rewrite (subset_ends v a b Wa Wb); [rewrite Z.leb_le; lia|split; [discriminate|lia]].
Qed.
(** With scope ids (C++20 operators) the network addresses are compared with
    their scope ids. *)
Lemma subnet_scoped v a b : wf_net v a -> wf_net v b ->
  exists r, subnet_of true v a b = Ret r /\
    (r = true <-> (addr_before (n_addr b) (n_addr a) \/ n_addr b = n_addr a) /\ first a + size v a <= first b + size v b).
Proof.
  intros Wa Wb. destruct (broadcast_spec v a Wa) as (Wba & Vba & Sba). destruct (broadcast_spec v b Wb) as (Wbb & Vbb & Sbb).
  unfold subnet_of, is_subnet_of.
  destruct (op_cpp20 v (n_addr b) (n_addr a) (proj1 Wb) (proj1 Wa)) as (_ & _ & le & _ & _ & _ & -> & _ & _ & _ & H & _).
  destruct (le_unscoped true v (broadcast b) (broadcast a) Wbb Wba) as (_ & -> & _); [congruence|].
  cbn [bind]. rewrite Vba, Vbb. destruct le.
  - eexists. split; [reflexivity|]. rewrite Z.leb_le. apply proj1 in H. specialize (H eq_refl). lia || (split; [intros; split; [exact H|lia]|lia]).
  - exists false. split; [reflexivity|]. split; [discriminate|]. intros [K _]. apply H in K. discriminate.
Qed.

(** *** supernet *)
Lemma shifted_mask w p d : 0 <= d <= p -> p <= w -> ((2 ^ w - 2 ^ (w - p)) * 2 ^ d) mod 2 ^ w = (2 ^ w - 2 ^ (w - (p - d))) mod 2 ^ w.
Proof.
  intros Hd Hp. rewrite Z.mul_sub_distr_r, <- (Z.pow_add_r 2 (w - p) d) by lia.
  replace (w - p + d) with (w - (p - d)) by lia.
  rewrite (Zminus_mod (2 ^ w * 2 ^ d)), (Zminus_mod (2 ^ w)). rewrite Z.mul_comm, Z_mod_mult, Z_mod_same_full. reflexivity.
Qed.
Lemma mask_small w q : 0 <= q <= w -> 0 <= 2 ^ w - 2 ^ (w - q) < 2 ^ w.
Proof. intros H. pose proof (pow2_pos (w - q) ltac:(lia)). pose proof (Z.pow_le_mono_r 2 (w - q) w ltac:(lia) ltac:(lia)). lia. Qed.
Definition super_net (v : ver) (n : net) (d : Z) : net :=
  net_of v (addr_of v (clear v (first n) (n_prefix n - d))) (n_prefix n - d).
Lemma super_net_wf v n d : wf_net v n -> 0 <= d <= n_prefix n ->
  wf_net v (super_net v n d) /\ unscoped (super_net v n d) /\ n_prefix (super_net v n d) = n_prefix n - d /\ subset v n (super_net v n d).
Proof.
  intros W Hd. pose proof W as (Wn & _ & _ & P & _). pose proof (val_range v _ Wn) as R.
  destruct (clear_range v (first n) (n_prefix n - d) ltac:(lia) R) as [Rc Ec].
  assert (Ws : wf_net v (super_net v n d)).
  { apply net_of_wf; [lia|apply addr_of_wf; exact Rc|]. rewrite addr_of_val by exact Rc. exact Ec. }
  split; [exact Ws|]. split; [unfold unscoped; cbn; apply addr_of_scope; exact Rc|]. split; [reflexivity|].
  apply subset_prefix; auto. split; [cbn [super_net net_of n_prefix]; lia|].
  assert (F : first (super_net v n d) = clear v (first n) (n_prefix n - d)) by (apply addr_of_val; exact Rc).
  unfold in_net, size. rewrite F. cbn [super_net net_of n_prefix].
  apply block_in; [apply pow2_pos; lia|exact Ec|reflexivity].
Qed.
Lemma supernet_core v n d : wf_net v n -> 0 <= d <= n_prefix n -> d < width v ->
  (a <- addr_to_uint v (n_addr n) ;;
   m <- addr_to_uint v (n_mask n) ;;
   s <- ushl v m d ;;
   address <- addr_from_uint v (uand v a s) ;;
   r <- from_address v address (n_prefix n - d) true ;;
   Ret (r, no_error)) = Ret (super_net v n d, no_error).
Proof.
  intros W Hd Hw. pose proof W as (Wn & Wm & _ & P & Vm & _). pose proof (val_range v _ Wn) as R. pose proof (val_range v _ Wm) as Rm.
  destruct (clear_range v (first n) (n_prefix n - d) ltac:(lia) R) as [Rc Ec].
  rewrite (to_uint_val v (n_addr n)) by exact Wn. cbn [bind]. rewrite (to_uint_val v (n_mask n)) by exact Wm. cbn [bind].
  rewrite ushl_ok by (try exact Rm; lia). cbn [bind]. rewrite Vm. unfold size. rewrite shifted_mask by lia.
  pose proof (mask_small (width v) (n_prefix n - d) ltac:(lia)). rewrite Z.mod_small by assumption.
  rewrite uand_ok by assumption. rewrite land_mask by (try exact R; lia). fold (clear v (val (n_addr n)) (n_prefix n - d)).
  rewrite from_uint_of by exact Rc. cbn [bind]. rewrite from_address_spec by (try lia; apply addr_of_wf; exact Rc).
  rewrite addr_of_val by exact Rc. change (val (n_addr n)) with (first n). rewrite Ec. cbn [Z.eqb bind]. reflexivity.
Qed.
(** The difference the arguments stand for, or the error. *)
Definition super_diff (p d : Z) (np : option Z) : ec + Z :=
  match np with
  | Some q => if q >? p then inl new_prefix_must_be_shorter
              else if negb (d =? 1) then inl cannot_set_prefixlen_diff_and_new_prefix else inr (p - q)
  | None => if d >? p then inl invalid_prefixlen_diff else inr d
  end.
Lemma supernet_code_spec v n code d np : wf_net v n -> 0 <= d -> (forall q, np = Some q -> 0 <= q) ->
  supernet_code v n code d np =
    if n_prefix n =? 0 then Ret (n, no_error)
    else match super_diff (n_prefix n) d np with
         | inl e => Ret (net_default v, e)
         | inr d => if d =? width v then UB BadShift else Ret (super_net v n d, no_error)
         end.
Proof.
  intros W Hd Hq. pose proof W as (Wn & Wm & _ & P & _). unfold supernet_code. destruct (Z.eqb_spec (n_prefix n) 0); [reflexivity|].
  assert (K : forall d', 0 <= d' -> d' <= n_prefix n ->
    (a <- addr_to_uint v (n_addr n) ;; m <- addr_to_uint v (n_mask n) ;; s <- ushl v m d' ;;
     address <- addr_from_uint v (uand v a s) ;; r <- from_address v address (n_prefix n - d') true ;; Ret (r, no_error)) =
    if d' =? width v then UB BadShift else Ret (super_net v n d', no_error)).
  { intros d' H0 H1. destruct (Z.eqb_spec d' (width v)) as [->|E].
    - rewrite (to_uint_val v (n_addr n)) by exact Wn. cbn [bind]. rewrite (to_uint_val v (n_mask n)) by exact Wm. cbn [bind].
      rewrite ushl_width. reflexivity.
    - apply supernet_core; [exact W|lia|lia]. }
  destruct np as [q|]; cbn [super_diff].
  - specialize (Hq q eq_refl). destruct (Z.gtb_spec q (n_prefix n)); [reflexivity|]. destruct (d =? 1); cbn [negb]; [|reflexivity].
    destruct (Z.gtb_spec (n_prefix n - q) (n_prefix n)); [lia|]. apply K; lia.
  - destruct (Z.gtb_spec d (n_prefix n)); [reflexivity|]. apply K; lia.
Qed.
Lemma super_unique v n m : wf_net v n -> wf_net v m -> subset v n m -> n_prefix m <= n_prefix n /\
  first m = first (super_net v n (n_prefix n - n_prefix m)).
Proof.
  intros Wn Wm H. pose proof (proj1 (subset_prefix v n m Wn Wm) H) as [Hp Hf]. split; [exact Hp|].
  pose proof (proj1 Wn) as Wa. pose proof Wn as (_ & _ & _ & P & _). pose proof Wm as (_ & _ & _ & Pm & _ & Am). pose proof (val_range v _ Wa) as R.
  destruct (clear_range v (first n) (n_prefix m) Pm R) as [Rc Ec].
  unfold first at 2. cbn [super_net net_of n_addr].
  replace (n_prefix n - (n_prefix n - n_prefix m)) with (n_prefix m) by lia. rewrite addr_of_val by exact Rc.
  symmetry. apply block_in; [apply size_pos; exact Pm|exact Am|exact Hf].
Qed.

(** *** Order and hash *)
Lemma mask_cmp v a b : wf_net v a -> wf_net v b ->
  (addr_before (n_mask a) (n_mask b) <-> n_prefix a < n_prefix b) /\ (n_mask a = n_mask b <-> n_prefix a = n_prefix b).
Proof.
  intros Wa Wb. rewrite (before_unscoped (n_mask a) (n_mask b)).
  2:{ destruct Wa as (_ & _ & -> & _). destruct Wb as (_ & _ & -> & _). reflexivity. }
  pose proof (size_le v a b Wa Wb). pose proof (size_le v b a Wb Wa). pose proof (net_mask_eq v a Wa). pose proof (net_mask_eq v b Wb).
  destruct Wa as (_ & _ & Sa & Pa & Va & _). destruct Wb as (_ & _ & Sb & Pb & Vb & _). split; [lia|].
  split; [|congruence]. intros E. rewrite E in Va. lia.
Qed.
Lemma net_before_iff v a b : wf_net v a -> wf_net v b ->
  (net_before a b <-> addr_before (n_addr a) (n_addr b) \/ (n_addr a = n_addr b /\ addr_before (n_mask a) (n_mask b))).
Proof. intros Wa Wb. unfold net_before. rewrite (proj1 (mask_cmp v a b Wa Wb)). tauto. Qed.
Lemma net_eq_iff v a b : wf_net v a -> wf_net v b -> (a = b <-> n_addr a = n_addr b /\ n_mask a = n_mask b).
Proof.
  intros Wa Wb. split; [intros ->; auto|]. intros [E1 E2]. apply (net_ext v); auto. apply (mask_cmp v a b Wa Wb). exact E2.
Qed.
Lemma net_cmp_ok v a b : wf_net v a -> wf_net v b ->
  exists c, net_cmp v a b = Ret c /\ match c with Eq => a = b | Lt => net_before a b | Gt => net_before b a end.
Proof.
  intros Wa Wb. unfold net_cmp. pose proof (net_before_iff v a b Wa Wb) as L. pose proof (net_before_iff v b a Wb Wa) as G.
  pose proof (net_eq_iff v a b Wa Wb) as Q.
  destruct (addr_cmp_ok v _ _ (proj1 Wa) (proj1 Wb)) as (c & -> & H). cbn [bind]. destruct c.
  - destruct (addr_cmp_ok v _ _ (proj1 (proj2 Wa)) (proj1 (proj2 Wb))) as (c & -> & H'). exists c. split; [reflexivity|].
    destruct c; rewrite ?Q, ?L, ?G; auto.
  - eexists. split; [reflexivity|]. cbv beta iota. rewrite L. auto.
  - eexists. split; [reflexivity|]. cbv beta iota. rewrite G. auto.
Qed.
Lemma net_eqb_ok v a b : wf_net v a -> wf_net v b -> exists r, net_eqb v a b = Ret r /\ (r = true <-> a = b).
Proof.
  intros Wa Wb. unfold net_eqb. pose proof (net_eq_iff v a b Wa Wb) as Q.
  destruct (addr_eqb_ok v _ _ (proj1 Wa) (proj1 Wb)) as (r & -> & H). cbn [bind]. destruct r.
  - destruct (addr_eqb_ok v _ _ (proj1 (proj2 Wa)) (proj1 (proj2 Wb))) as (r & -> & H'). exists r. split; [reflexivity|]. rewrite H', Q. tauto.
  - exists false. split; [reflexivity|]. split; [discriminate|]. intros K. apply Q in K as [K _]. apply H in K. discriminate.
Qed.
Lemma net_equality v a b : wf_net v a -> wf_net v b -> (a = b <-> n_addr a = n_addr b /\ n_prefix a = n_prefix b).
Proof. intros Wa Wb. split; [intros ->; auto|]. intros [? ?]. apply (net_ext v); auto. Qed.
Lemma net_before_irrefl a : ~ net_before a a.
Proof. intros [H|[_ H]]; [exact (before_irrefl _ H)|lia]. Qed.
Lemma net_before_trans a b c : net_before a b -> net_before b c -> net_before a c.
Proof.
  intros [H|[E H]] [K|[F K]]; unfold net_before.
  - left. eapply before_trans; eassumption.
  - left. rewrite <- F. exact H.
  - left. rewrite E. exact K.
  - right. split; [congruence|lia].
Qed.
Lemma net_before_total v a b : wf_net v a -> wf_net v b -> net_before a b \/ a = b \/ net_before b a.
Proof.
  intros Wa Wb. destruct (net_cmp_ok v a b Wa Wb) as (c & _ & H). destruct c; auto.
Qed.
Lemma nop_cpp20 v a b : wf_net v a -> wf_net v b ->
  exists lt gt le ge, nop_lt true v a b = Ret lt /\ nop_gt true v a b = Ret gt /\ nop_le true v a b = Ret le /\ nop_ge true v a b = Ret ge /\
    (lt = true <-> net_before a b) /\ (gt = true <-> net_before b a) /\
    (le = true <-> net_before a b \/ a = b) /\ (ge = true <-> net_before b a \/ a = b).
Proof.
  intros Ha Hb. unfold nop_lt, nop_gt, nop_le, nop_ge. destruct (net_cmp_ok v a b Ha Hb) as (c & -> & H). cbn [bind].
  do 4 eexists. do 4 (split; [reflexivity|]).
  pose proof (net_before_irrefl a) as Ia. pose proof (net_before_irrefl b) as Ib.
  assert (As : net_before a b -> net_before b a -> False) by (intros; eapply Ia, net_before_trans; eassumption).
  destruct c; subst; intuition (try discriminate; subst; intuition).
Qed.
Lemma net_ltb_ok v a b : wf_net v a -> wf_net v b -> a_scope (n_addr a) = a_scope (n_addr b) ->
  exists r, net_ltb v a b = Ret r /\ (r = true <-> net_before a b).
Proof.
  intros Wa Wb E. unfold net_ltb. cut (exists r, (x <- addr_eqb v (n_addr a) (n_addr b) ;;
    if negb x then addr_ltb v (n_addr a) (n_addr b)
    else y <- addr_eqb v (n_mask a) (n_mask b) ;; if negb y then addr_ltb v (n_mask a) (n_mask b) else Ret false) = Ret r /\
    (r = true <-> addr_before (n_addr a) (n_addr b) \/ (n_addr a = n_addr b /\ addr_before (n_mask a) (n_mask b)))).
  { intros (r & Hr & H). exists r. split; [exact Hr|]. rewrite (net_before_iff v a b Wa Wb). exact H. }
  destruct (addr_eqb_ok v _ _ (proj1 Wa) (proj1 Wb)) as (r & -> & H). cbn [bind]. destruct r; cbn [negb].
  - assert (Ea : n_addr a = n_addr b) by (apply H; reflexivity).
    assert (Sm : a_scope (n_mask a) = a_scope (n_mask b)).
    { destruct Wa as (_ & _ & -> & _). destruct Wb as (_ & _ & -> & _). reflexivity. }
    assert (I : ~ addr_before (n_addr a) (n_addr b)) by (rewrite Ea; apply before_irrefl).
    destruct (addr_eqb_ok v _ _ (proj1 (proj2 Wa)) (proj1 (proj2 Wb))) as (r & -> & H'). cbn [bind]. destruct r; cbn [negb].
    + exists false. split; [reflexivity|]. split; [discriminate|]. intros [K|[_ K]]; [contradiction|].
      rewrite (proj1 H' eq_refl) in K. exfalso. exact (before_irrefl _ K).
    + destruct (less_ok v _ _ (proj1 (proj2 Wa)) (proj1 (proj2 Wb)) Sm) as (r & -> & Hr). exists r. split; [reflexivity|].
      rewrite Hr. tauto.
  - destruct (less_ok v _ _ (proj1 Wa) (proj1 Wb) E) as (r & -> & Hr). exists r. split; [reflexivity|]. rewrite Hr.
    assert (n_addr a <> n_addr b) by (intros K; apply H in K; discriminate). tauto.
Qed.
Lemma nop_cpp17 v a b : wf_net v a -> wf_net v b -> a_scope (n_addr a) = a_scope (n_addr b) ->
  nop_lt false v a b = nop_lt true v a b /\ nop_gt false v a b = nop_gt true v a b /\
  nop_le false v a b = nop_le true v a b /\ nop_ge false v a b = nop_ge true v a b.
Proof.
  intros Ha Hb Es. destruct (nop_cpp20 v a b Ha Hb) as (lt & gt & le & ge & -> & -> & -> & -> & H1 & H2 & H3 & H4).
  unfold nop_lt, nop_gt, nop_le, nop_ge.
  destruct (net_ltb_ok v a b Ha Hb Es) as (r & -> & Hr). destruct (net_ltb_ok v b a Hb Ha (eq_sym Es)) as (r' & -> & Hr'). cbn [bind].
  pose proof (net_before_irrefl a) as Ia. pose proof (net_before_irrefl b) as Ib.
  assert (As : net_before a b -> net_before b a -> False) by (intros; eapply Ia, net_before_trans; eassumption).
  pose proof (net_before_total v a b Ha Hb) as T.
  assert (N : forall x y : bool, (x = true <-> y = true) -> Ret x = Ret y) by (intros; f_equal; apply eq_true_iff_eq; assumption).
  repeat split; apply N; rewrite ?negb_true_iff, ?H1, ?H2, ?H3, ?H4; try assumption.
  - rewrite <- not_true_iff_false, Hr'. split; [intuition|]. intros [K|K] L; [eauto|subst; contradiction].
  - rewrite <- not_true_iff_false, Hr. split; [intuition|]. intros [K|K] L; [eauto|subst; contradiction].
Qed.
Lemma net_hash_eq is64 v a b : wf_net v a -> wf_net v b -> net_eqb v a b = Ret true ->
  exists h, net_hash is64 v a = Ret h /\ net_hash is64 v b = Ret h.
Proof.
  intros Wa Wb E. destruct (net_eqb_ok v a b Wa Wb) as (r & Er & H). rewrite E in Er. apply ret_inj in Er. subst r.
  rewrite <- (proj1 H eq_refl). unfold net_hash.
  destruct (addr_hash_defined is64 v _ (proj1 Wa)) as (h & ->). cbn [bind].
  destruct (addr_hash_defined is64 v _ (proj1 (proj2 Wa))) as (h' & ->). cbn [bind]. eauto.
Qed.
