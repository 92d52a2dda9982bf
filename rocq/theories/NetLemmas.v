(** Final forms of the network lemmas. *)
From Verif Require Import Base Tac TextProofs UnicodeModel FixedStringModel V4Model V6Model Uint128Model SpecInt Uint128Proofs Uint128Div2
  SpecText SpecAddr SpecStr SpecV4 SpecV6 StrProofs V4Proofs BufProofs BitProofs FixedStringProofs V4Lemmas V6Proofs V6Full V6Format V6Lemmas
  AddressModel SpecOrder AddressProofs NetworkModel SpecNet NetProofs NetProofs2 NetProofs3 MaskProofs NetText NetText2 ErrProofs NetText3.

Lemma from_address_wf v a p strict n : 0 <= p <= width v -> wf_addr v a -> from_address v a p strict = Ret n -> wf_net v n /\ n_prefix n = p.
Proof.
  intros Hp Wa H. rewrite from_address_spec in H by assumption. destruct (Z.eqb_spec (val a mod 2 ^ (width v - p)) 0).
  - apply ret_inj in H. subst n. split; [apply net_of_wf; assumption|reflexivity].
  - destruct strict; [discriminate|]. apply ret_inj in H. subst n. split; [apply net_clear_wf; assumption|reflexivity].
Qed.
Lemma net_parse_wf v ts strict n : Forall tok_char ts -> net_parse v ts strict = Ret n -> wf_net v n.
Proof.
  intros C H. apply net_parse_ret in H as [H|(x & _ & ->)]; [exact (res_wf v ts strict n C H)|apply net_default_wf].
Qed.
Lemma supernet_spec v n d np : wf_net v n -> 0 <= d -> (forall q, np = Some q -> 0 <= q) ->
  supernet v n d np =
    if n_prefix n =? 0 then Ret n
    else match super_diff (n_prefix n) d np with
         | inl e => Err e 0
         | inr d => if d =? width v then UB BadShift else Ret (super_net v n d)
         end.
Proof.
  intros W Hd Hq. unfold supernet. rewrite supernet_code_spec by assumption. destruct (n_prefix n =? 0); [reflexivity|].
  destruct (super_diff (n_prefix n) d np) as [e|d'] eqn:E.
  - assert (e <> no_error). { unfold super_diff in E. destruct np; repeat match goal with H : context [if ?b then _ else _] |- _ => destruct b end; congruence. }
    cbn [bind]. unfold raise_if, ec_eqb. destruct (ec_eq_dec e no_error); [contradiction|reflexivity].
  - destruct (d' =? width v); reflexivity.
Qed.
Lemma super_diff_range v n d np d' : wf_net v n -> 0 <= d -> (forall q, np = Some q -> 0 <= q) -> super_diff (n_prefix n) d np = inr d' -> 0 <= d' <= n_prefix n.
Proof.
  intros (_ & _ & _ & Hp & _) Hd Hq E. unfold super_diff in E. destruct np as [q|].
  - specialize (Hq q eq_refl). destruct (Z.gtb_spec q (n_prefix n)); [discriminate|]. destruct (negb (d =? 1)); [discriminate|]. injection E as <-. lia.
  - destruct (Z.gtb_spec d (n_prefix n)); [discriminate|]. injection E as <-. lia.
Qed.
Lemma supernet_wf v n d np m : wf_net v n -> 0 <= d -> (forall q, np = Some q -> 0 <= q) -> supernet v n d np = Ret m -> wf_net v m.
Proof.
  intros W Hd Hq H. rewrite supernet_spec in H by assumption. destruct (n_prefix n =? 0); [apply ret_inj in H; subst; exact W|].
  destruct (super_diff (n_prefix n) d np) as [e|d'] eqn:E; [discriminate|]. destruct (d' =? width v); [discriminate|]. apply ret_inj in H. subst m.
  apply super_net_wf; [exact W|]. eapply super_diff_range; eassumption.
Qed.
(** Bit forms. *)
Lemma mask_bits v n i : wf_net v n -> 0 <= i < width v -> Z.testbit (val (n_mask n)) i = (width v - n_prefix n <=? i).
Proof.
  intros (_ & _ & _ & Hp & Em & _) Hi. rewrite Em. unfold size. set (k := width v - n_prefix n). assert (Hk : 0 <= k <= width v) by lia.
  replace (2 ^ width v - 2 ^ k) with (Z.ones (width v - k) * 2 ^ k).
  - destruct (Z.leb_spec k i).
    + rewrite Z.mul_pow2_bits by lia. apply Z.ones_spec_low. lia.
    + apply Z.mul_pow2_bits_low. lia.
  - rewrite Z.ones_equiv. replace (width v) with ((width v - k) + k) at 2 by lia. rewrite Z.pow_add_r by lia. lia.
Qed.
Lemma host_bits v n i : wf_net v n -> 0 <= i < width v - n_prefix n -> Z.testbit (first n) i = false.
Proof.
  intros (_ & _ & _ & Hp & _ & Ef) Hi. unfold size in Ef. rewrite <- (Z.mod_pow2_bits_low (first n) (width v - n_prefix n) i) by lia.
  rewrite Ef. apply Z.bits_0.
Qed.
Lemma contains_bits v n a : wf_net v n -> wf_addr v a ->
  (contains n a = true <-> forall i, width v - n_prefix n <= i -> Z.testbit (val a) i = Z.testbit (first n) i).
Proof.
  intros W Wa. rewrite (contains_spec v n a W Wa). pose proof W as (_ & _ & _ & Hp & _ & Ef). unfold in_net.
  pose proof (net_top v n W) as (N0 & N1 & _). rewrite <- (block_in (val a) (first n) (size v n)) by (lia || exact Ef).
  unfold size in *. set (k := width v - n_prefix n) in *. assert (Hk : 0 <= k) by lia.
  assert (D : val a - val a mod 2 ^ k = first n <-> val a / 2 ^ k = first n / 2 ^ k).
  { pose proof (Z.div_mod (val a) (2 ^ k) ltac:(lia)). pose proof (Z.div_mod (first n) (2 ^ k) ltac:(lia)). split; [|nia].
    intros E. assert (2 ^ k * (val a / 2 ^ k) = 2 ^ k * (first n / 2 ^ k)) by lia. nia. }
  rewrite D. split.
  - intros E i Hi. replace i with ((i - k) + k) by lia. rewrite <- !Z.div_pow2_bits by lia. rewrite E. reflexivity.
  - intros H. apply Z.bits_inj'. intros i Hi. rewrite !Z.div_pow2_bits by lia. apply H. lia.
Qed.
Lemma contains_ends v n a : wf_net v n -> wf_addr v a ->
  (contains n a = true <-> val (n_addr n) <= val a <= val (broadcast n)).
Proof.
  intros W Wa. rewrite (contains_spec v n a W Wa). destruct (broadcast_spec v n W) as (_ & -> & _). unfold in_net, first. lia.
Qed.
Lemma from_address_hosts v a p : 0 <= p <= width v -> wf_addr v a -> val a mod 2 ^ (width v - p) <> 0 -> from_address v a p true = Err has_host_bits_set 0.
Proof. intros Hp Wa H. rewrite from_address_spec by assumption. destruct (Z.eqb_spec (val a mod 2 ^ (width v - p)) 0); [contradiction|reflexivity]. Qed.
(** Addresses past the maximum prefix length. *)
Lemma prefix_too_long v a p strict : width v < p -> exists u, from_address v a p strict = UB u.
Proof.
  intros H. destruct v; cbn [width] in H.
  - exists BadShift. unfold from_address, from_address_code, ip_from_prefix, v4_from_prefix, shr32. destruct (Z.eqb_spec p 0); [lia|]. cbn [negb].
    destruct (Z.ltb_spec (p - 1) 32); [lia|]. rewrite andb_false_r. reflexivity.
  - exists OutOfBounds. unfold from_address, from_address_code, ip_from_prefix. assert (E : v6_from_prefix p = UB OutOfBounds); [|rewrite E; reflexivity].
    unfold v6_from_prefix. rewrite Z.shiftr_div_pow2 by lia. change (2 ^ 3) with 8. destruct (Z.eq_dec (p / 8) 16) as [E|E].
    + rewrite E. change (Z.to_nat (Z.min 16 17)) with 16%nat. replace (prefix_ones 16 0 (repeat 0 16)) with (Ret (repeat 255 16)) by reflexivity.
      cbn [bind]. rewrite Z.shiftl_mul_pow2 by lia. change (16 * 2 ^ 3) with 128. destruct (Z.gtb_spec (p - 128) 0); [|lia]. reflexivity.
    + replace (Z.min (p / 8) 17) with 17 by lia. reflexivity.
Qed.
Lemma hostmask_bits v n : wf_net v n -> val (hostmask n) = 2 ^ width v - 1 - val (n_mask n).
Proof. intros W. destruct (hostmask_spec v n W) as (_ & -> & _). destruct W as (_ & _ & _ & _ & -> & _). unfold size. lia. Qed.
Lemma broadcast_largest v n : wf_net v n -> wf_addr v (broadcast n) /\ val (broadcast n) = first n + (size v n - 1) /\
  in_net v n (val (broadcast n)) /\ forall x, in_net v n x -> x <= val (broadcast n).
Proof.
  intros W. destruct (broadcast_spec v n W) as (Wb & Eb & _). pose proof (net_top v n W). split; [exact Wb|]. rewrite Eb. unfold in_net.
  split; [lia|]. split; [lia|]. intros; lia.
Qed.
Lemma count_ok v n : wf_net v n -> 1 <= n_prefix n -> addresses_count v n = Ret (size v n).
Proof.
  intros W H. rewrite count_spec by exact W. f_equal. apply Z.mod_small. destruct W as (_ & _ & _ & Hp & _). unfold size.
  pose proof (pow2_pos (width v - n_prefix n) ltac:(lia)). split; [lia|]. apply Z.pow_lt_mono_r; lia.
Qed.
Lemma count_zero v n : wf_net v n -> n_prefix n = 0 -> addresses_count v n = Ret 0.
Proof. intros W H. rewrite count_spec by exact W. f_equal. unfold size. rewrite H, Z.sub_0_r. apply Z.mod_same. destruct v; cbn; lia. Qed.
Lemma everything v : let n := mk_net (addr_default v) (addr_default v) 0 in wf_net v n.
Proof.
  cbv zeta. split; [apply addr_default_wf|]. split; [apply addr_default_wf|]. destruct v; (split; [reflexivity|]); (split; [cbn; lia|]); split; reflexivity.
Qed.
(** supernet *)
Definition super_of v n m p := wf_net v m /\ unscoped m /\ n_prefix m = p /\ subset v n m.
Lemma super_of_unique v n m m' p : wf_net v n -> super_of v n m p -> super_of v n m' p -> m = m'.
Proof.
  intros W (W1 & U1 & P1 & S1) (W2 & U2 & P2 & S2). destruct (super_unique v n m W W1 S1) as [_ E1]. destruct (super_unique v n m' W W2 S2) as [_ E2].
  rewrite P1 in E1. rewrite P2 in E2. assert (first m = first m') by congruence. apply (net_equality v m m' W1 W2). split; [|congruence].
  unfold unscoped in *. destruct W1 as (A1 & _). destruct W2 as (A2 & _). unfold first in H. apply (addr_eq v); [assumption|assumption|assumption|congruence].
Qed.
Lemma supernet_diff v n d : wf_net v n -> 0 < n_prefix n -> 0 <= d <= n_prefix n -> d < width v ->
  exists m, supernet v n d None = Ret m /\ wf_net v m /\ unscoped m /\ n_prefix m = n_prefix n - d /\ subset v n m.
Proof.
  intros W Hp Hd Hw. exists (super_net v n d). split; [|apply super_net_wf; assumption]. rewrite supernet_spec by (try assumption; try lia; discriminate).
  destruct (Z.eqb_spec (n_prefix n) 0); [lia|]. cbn [super_diff]. destruct (Z.gtb_spec d (n_prefix n)); [lia|]. destruct (Z.eqb_spec d (width v)); [lia|]. reflexivity.
Qed.
Lemma supernet_prefix v n q : wf_net v n -> 0 < n_prefix n -> 0 <= q <= n_prefix n -> n_prefix n - q < width v ->
  exists m, supernet v n 1 (Some q) = Ret m /\ wf_net v m /\ unscoped m /\ n_prefix m = q /\ subset v n m.
Proof.
  intros W Hp Hd Hw. destruct (super_net_wf v n (n_prefix n - q) W ltac:(lia)) as (A & B & C & D). exists (super_net v n (n_prefix n - q)).
  split; [|split; [exact A|]; split; [exact B|]; split; [lia|exact D]]. rewrite supernet_spec by (try assumption; try lia; intros ? [= <-]; lia).
  destruct (Z.eqb_spec (n_prefix n) 0); [lia|]. cbn [super_diff]. destruct (Z.gtb_spec q (n_prefix n)); [lia|].
  change (negb (1 =? 1)) with false. cbv iota. destruct (Z.eqb_spec (n_prefix n - q) (width v)); [lia|]. reflexivity.
Qed.
Lemma supernet_errors v n d : wf_net v n -> 0 < n_prefix n -> 0 <= d ->
  (n_prefix n < d -> supernet v n d None = Err invalid_prefixlen_diff 0) /\
  (forall q, n_prefix n < q -> supernet v n d (Some q) = Err new_prefix_must_be_shorter 0) /\
  (forall q, 0 <= q <= n_prefix n -> d <> 1 -> supernet v n d (Some q) = Err cannot_set_prefixlen_diff_and_new_prefix 0).
Proof.
  intros W Hp Hd. split; [|split].
  - intros H. rewrite supernet_spec by (try assumption; discriminate). destruct (Z.eqb_spec (n_prefix n) 0); [lia|]. cbn [super_diff].
    destruct (Z.gtb_spec d (n_prefix n)); [reflexivity|lia].
  - intros q H. rewrite supernet_spec by (try assumption; intros ? [= <-]; lia). destruct (Z.eqb_spec (n_prefix n) 0); [lia|]. cbn [super_diff].
    destruct (Z.gtb_spec q (n_prefix n)); [reflexivity|lia].
  - intros q H Hn. rewrite supernet_spec by (try assumption; intros ? [= <-]; lia). destruct (Z.eqb_spec (n_prefix n) 0); [lia|]. cbn [super_diff].
    destruct (Z.gtb_spec q (n_prefix n)); [lia|]. destruct (Z.eqb_spec d 1); [contradiction|reflexivity].
Qed.
Lemma supernet_whole v n d np : wf_net v n -> n_prefix n = 0 -> supernet v n d np = Ret n.
Proof. intros W H. unfold supernet, supernet_code. rewrite H. reflexivity. Qed.
Lemma supernet_ub v n d np u : wf_net v n -> 0 <= d -> (forall q, np = Some q -> 0 <= q) -> supernet v n d np = UB u ->
  n_prefix n = width v /\ ((np = None /\ d = width v) \/ np = Some 0).
Proof.
  intros W Hd Hq H. pose proof W as (_ & _ & _ & Hp & _). rewrite supernet_spec in H by assumption. destruct (n_prefix n =? 0); [discriminate|].
  destruct (super_diff (n_prefix n) d np) as [e|d'] eqn:E; [discriminate|].
  pose proof (super_diff_range v n d np d' W Hd Hq E) as R. destruct (Z.eqb_spec d' (width v)); [|discriminate].
  split; [lia|]. unfold super_diff in E. destruct np as [q|].
  - specialize (Hq q eq_refl). destruct (q >? n_prefix n); [discriminate|]. destruct (negb (d =? 1)); [discriminate|]. injection E as E. right. f_equal. lia.
  - destruct (d >? n_prefix n); [discriminate|]. injection E as E. left. split; [reflexivity|lia].
Qed.
(** subset is a partial order *)
Lemma subset_refl v a : subset v a a. Proof. intros x H. exact H. Qed.
Lemma subset_trans v a b c : subset v a b -> subset v b c -> subset v a c. Proof. intros H K x Hx. apply K, H, Hx. Qed.
Lemma subset_antisym v a b : wf_net v a -> wf_net v b -> unscoped a -> unscoped b -> subset v a b -> subset v b a -> a = b.
Proof.
  intros Wa Wb Ua Ub H K. destruct (subset_same v a b Wa Wb H K) as [E P]. apply (net_equality v a b Wa Wb). split; [|exact P].
  destruct Wa as (A1 & _). destruct Wb as (A2 & _). unfold first in E. apply (addr_eq v); [assumption|assumption|assumption|unfold unscoped in *; congruence].
Qed.
