(** Construction of networks, their members and their order. *)
From Verif Require Import Base Tac TextProofs UnicodeModel FixedStringModel V4Model V6Model Uint128Model SpecInt Uint128Proofs Uint128Div2
  SpecText SpecAddr SpecStr SpecV6 StrProofs V4Proofs BufProofs BitProofs FixedStringProofs V4Lemmas V6Proofs V6Full V6Lemmas
  AddressModel SpecOrder AddressProofs NetworkModel SpecNet NetProofs.

Lemma and_loop_ok a m : length a = 16%nat -> length m = 16%nat ->
  and_loop 16 0 a m (repeat 0 16) = Ret (and_bytes a m).
Proof.
  intros A M. do 17 (destruct a as [|? a]; try discriminate A). do 17 (destruct m as [|? m]; try discriminate M). reflexivity.
Qed.
Lemma ret_inj {A} (x y : A) : Ret x = Ret y -> x = y. Proof. intros H. injection H. auto. Qed.
Lemma len_of v a : bytes_ok v a -> length a = nbytes v. Proof. intros [H _]. exact H. Qed.
Lemma byte_of v a : bytes_ok v a -> Forall is_byte a. Proof. intros [_ H]. exact H. Qed.

(** *** strict_netmask *)
Definition clear (v : ver) (a p : Z) : Z := a - a mod 2 ^ (width v - p).
Lemma clear_range v a p : 0 <= p <= width v -> 0 <= a < 2 ^ width v ->
  0 <= clear v a p < 2 ^ width v /\ clear v a p mod 2 ^ (width v - p) = 0.
Proof.
  intros Hp Ha. unfold clear. pose proof (pow2_pos (width v - p) ltac:(lia)) as P. pose proof (Z.mod_pos_bound a _ P).
  assert (a mod 2 ^ (width v - p) <= a) by (apply Z.mod_le; lia). split; [lia|].
  rewrite Zminus_mod, Zmod_mod, Z.sub_diag. apply Z.mod_0_l. lia.
Qed.
Lemma land_mask_val v a p : 0 <= p <= width v -> 0 <= a < 2 ^ width v ->
  Z.land a (val (mask_of v p)) = clear v a p.
Proof. intros Hp Ha. rewrite mask_of_val by exact Hp. apply land_mask; [lia|exact Ha]. Qed.
Lemma strict_netmask_spec v a p strict : 0 <= p <= width v -> wf_addr v a ->
  strict_netmask v a (mask_of v p) strict =
    if val a mod 2 ^ (width v - p) =? 0 then Ret a
    else if strict then Err has_host_bits_set 0 else Ret (addr_of v (clear v (val a) p)).
Proof.
  intros Hp Wa. pose proof (mask_of_wf v p Hp) as Wm. pose proof (val_range v a Wa) as Ra.
  pose proof (land_mask_val v (val a) p Hp Ra) as L. destruct (clear_range v (val a) p Hp Ra) as [Rc _].
  destruct v; cbn [strict_netmask].
  - unfold v4_strict_netmask. rewrite v4_to_uint_ok by apply Wa. cbn [bind].
    rewrite v4_to_uint_ok by apply Wm. cbn [bind]. change (be_value (a_bytes a)) with (val a).
    change (be_value (a_bytes (mask_of V4 p))) with (val (mask_of V4 p)). rewrite L.
    unfold clear at 1. destruct (Z.eqb_spec (val a mod 2 ^ (width V4 - p)) 0) as [E|E].
    + rewrite E, Z.sub_0_r, Z.eqb_refl. cbn [negb bind]. destruct a as [b s]. destruct Wa as [_ S0]. cbn in *. rewrite S0. reflexivity.
    + destruct (Z.eqb_spec (val a - val a mod 2 ^ (width V4 - p)) (val a)); [lia|]. cbn [negb].
      destruct strict; [reflexivity|]. cbn [bind]. rewrite <- (from_uint_of V4) by exact Rc. reflexivity.
  - unfold v6_strict_netmask.
    rewrite and_loop_ok by (apply len_of with (v := V6); [apply Wa||apply Wm]). cbn [bind].
    assert (Wl : bytes_ok V6 (and_bytes (a_bytes a) (a_bytes (mask_of V6 p)))).
    { split; [rewrite and_bytes_length by (rewrite (len_of V6) by apply Wa; rewrite (len_of V6) by apply Wm; reflexivity);
              apply Wa|apply and_bytes_ok; [apply Wa|apply Wm]]. }
    assert (E : be_value (and_bytes (a_bytes a) (a_bytes (mask_of V6 p))) = clear V6 (val a) p).
    { rewrite be_land; [exact L| |apply Wa|apply Wm]. rewrite (len_of V6) by apply Wa. rewrite (len_of V6) by apply Wm. reflexivity. }
    destruct (Z.eqb_spec (val a mod 2 ^ (width V6 - p)) 0) as [E0|E0].
    + assert (X : and_bytes (a_bytes a) (a_bytes (mask_of V6 p)) = a_bytes a).
      { apply (be_value_inj V6); [exact Wl|apply Wa|]. rewrite E. unfold clear. rewrite E0. apply Z.sub_0_r. }
      rewrite X. replace (list_eqb (a_bytes a) (a_bytes a)) with true by (symmetry; apply list_eqb_eq; reflexivity).
      cbn [negb bind]. destruct a; reflexivity.
    + replace (list_eqb (and_bytes (a_bytes a) (a_bytes (mask_of V6 p))) (a_bytes a)) with false.
      2:{ symmetry. apply not_true_is_false. intros T. apply list_eqb_eq in T. rewrite T in E. unfold clear, val in *. lia. }
      cbn [negb]. destruct strict; [reflexivity|]. cbn [bind]. f_equal.
      apply (addr_eq V6); [apply empty_scope; exact Wl|apply addr_of_wf; exact Rc| |].
      * rewrite addr_of_val by exact Rc. exact E.
      * rewrite addr_of_scope by exact Rc. reflexivity.
Qed.

(** *** from_address *)
Definition net_of (v : ver) (a : addr) (p : Z) : net := mk_net a (mask_of v p) p.
Lemma net_of_wf v a p : 0 <= p <= width v -> wf_addr v a -> val a mod 2 ^ (width v - p) = 0 -> wf_net v (net_of v a p).
Proof.
  intros Hp Wa E. unfold net_of. split; [exact Wa|]. split; [apply mask_of_wf; exact Hp|]. split; [apply mask_of_scope; exact Hp|].
  split; [exact Hp|]. split; [apply mask_of_val; exact Hp|exact E].
Qed.
Lemma net_of_eq v n : wf_net v n -> n = net_of v (n_addr n) (n_prefix n).
Proof. intros W. unfold net_of. rewrite <- net_mask_eq by exact W. destruct n; reflexivity. Qed.
Lemma from_address_code_spec v a code p strict : 0 <= p <= width v -> wf_addr v a ->
  from_address_code v a code p strict = Ret
    (if val a mod 2 ^ (width v - p) =? 0 then (net_of v a p, no_error)
     else if strict then (net_default v, has_host_bits_set) else (net_of v (addr_of v (clear v (val a) p)) p, no_error)).
Proof.
  intros Hp Wa. unfold from_address_code. rewrite from_prefix_of by exact Hp. cbn [bind].
  rewrite strict_netmask_spec by assumption. destruct (_ =? 0); [reflexivity|]. destruct strict; reflexivity.
Qed.
Lemma from_address_spec v a p strict : 0 <= p <= width v -> wf_addr v a ->
  from_address v a p strict =
    if val a mod 2 ^ (width v - p) =? 0 then Ret (net_of v a p)
    else if strict then Err has_host_bits_set 0 else Ret (net_of v (addr_of v (clear v (val a) p)) p).
Proof.
  intros Hp Wa. unfold from_address. rewrite from_address_code_spec by assumption. cbn [bind].
  destruct (_ =? 0); [reflexivity|]. destruct strict; reflexivity.
Qed.
Lemma from_address_strict v a p n : 0 <= p <= width v -> wf_addr v a ->
  (from_address v a p true = Ret n <-> val a mod 2 ^ (width v - p) = 0 /\ wf_net v n /\ n_addr n = a /\ n_prefix n = p).
Proof.
  intros Hp Wa. rewrite from_address_spec by assumption. destruct (Z.eqb_spec (val a mod 2 ^ (width v - p)) 0) as [E|E].
  - split.
    + intros H. apply ret_inj in H. subst n. auto using net_of_wf.
    + intros (_ & W & <- & <-). rewrite <- net_of_eq by exact W. reflexivity.
  - split; [discriminate|]. intros [H _]. contradiction.
Qed.
Lemma from_address_nonstrict v a p : 0 <= p <= width v -> wf_addr v a ->
  exists n, from_address v a p false = Ret n /\ wf_net v n /\ n_prefix n = p /\
    first n = val a - val a mod 2 ^ (width v - p) /\
    a_scope (n_addr n) = if val a mod 2 ^ (width v - p) =? 0 then a_scope a else [].
Proof.
  intros Hp Wa. pose proof (val_range v a Wa) as Ra. destruct (clear_range v (val a) p Hp Ra) as [Rc Ec].
  rewrite from_address_spec by assumption. destruct (Z.eqb_spec (val a mod 2 ^ (width v - p)) 0) as [E|E]; eexists; (split; [reflexivity|]).
  - split; [apply net_of_wf; assumption|]. unfold first. cbn [net_of n_prefix n_addr]. rewrite E. auto using Z.sub_0_r.
  - split; [apply net_of_wf; auto using addr_of_wf; rewrite addr_of_val by exact Rc; exact Ec|].
    unfold first. cbn [net_of n_prefix n_addr]. split; [reflexivity|].
    split; [apply addr_of_val; exact Rc|apply addr_of_scope; exact Rc].
Qed.

(** *** contains *)
Lemma contains_loop_ok : forall a m n, length a = length m -> length m = length n ->
  (contains_loop a m n = true <-> and_bytes a m = n).
Proof.
  induction a as [|x a IH]; intros [|y m] [|z n] A M; try discriminate; cbn [contains_loop and_bytes]; [tauto|].
  cbn in A, M. destruct (Z.eqb_spec (Z.land x y) z) as [E|E]; cbn [negb].
  - rewrite IH by lia. subst z. split; [intros ->; reflexivity|intros H; injection H; auto].
  - split; [discriminate|]. intros H. injection H. contradiction.
Qed.
Lemma block_in x y k : 0 < k -> y mod k = 0 -> (x - x mod k = y <-> y <= x < y + k).
Proof.
  intros Hk Hy. pose proof (Z.mod_pos_bound x k Hk). split; [lia|]. intros H'.
  apply Z.mod_divide in Hy as [q Hq]; [|lia]. subst y.
  replace (x mod k) with (x - q * k); [lia|]. apply Z.mod_unique with q; lia.
Qed.
Lemma contains_spec v n a : wf_net v n -> wf_addr v a -> (contains n a = true <-> in_net v n (val a)).
Proof.
  intros W Wa. pose proof (net_mask_eq v n W) as Em. destruct W as (Wn & Wm & Sm & P & Vm & Al).
  pose proof (val_range v a Wa) as Ra. unfold contains. rewrite contains_loop_ok.
  2:{ rewrite (len_of v) by apply Wa. rewrite (len_of v) by apply Wm. reflexivity. }
  2:{ rewrite (len_of v) by apply Wm. rewrite (len_of v) by apply Wn. reflexivity. }
  assert (Wl : bytes_ok v (and_bytes (a_bytes a) (a_bytes (n_mask n)))).
  { split; [rewrite and_bytes_length by (rewrite (len_of v) by apply Wa; rewrite (len_of v) by apply Wm; reflexivity);
            apply Wa|apply and_bytes_ok; [apply Wa|apply Wm]]. }
  assert (E : be_value (and_bytes (a_bytes a) (a_bytes (n_mask n))) = clear v (val a) (n_prefix n)).
  { rewrite be_land; [|rewrite (len_of v) by apply Wa; rewrite (len_of v) by apply Wm; reflexivity|apply Wa|apply Wm].
    rewrite Em. apply land_mask_val; assumption. }
  pose proof (size_pos v n P). unfold in_net, first, size in *. rewrite <- block_in by assumption.
  fold (clear v (val a) (n_prefix n)). rewrite <- E. unfold val. split; [intros ->; reflexivity|].
  intros H'. apply (be_value_inj v); [exact Wl|apply Wn|exact H'].
Qed.

(** *** hostmask, broadcast address, number of addresses *)
Lemma map_not_ok v b : bytes_ok v b -> bytes_ok v (map (fun b => w8 (Z.lxor b 0xFF)) b).
Proof. intros [L F]. split; [rewrite map_length; exact L|]. apply Forall_forall. intros x H. apply in_map_iff in H as (y & <- & _). apply w8_byte. Qed.
Lemma hostmask_spec v n : wf_net v n -> wf_addr v (hostmask n) /\ val (hostmask n) = size v n - 1 /\ a_scope (hostmask n) = [].
Proof.
  intros (Wn & Wm & Sm & P & Vm & Al). unfold hostmask. split; [apply empty_scope, map_not_ok, Wm|]. split; [|reflexivity].
  unfold val. cbn [a_bytes]. rewrite be_not by apply Wm. unfold zlen. rewrite (len_of v) by apply Wm. rewrite pow256.
  unfold val in Vm. lia.
Qed.
Lemma lor_block w k x : 0 <= k <= w -> 0 <= x -> x mod 2 ^ k = 0 -> Z.lor x (2 ^ k - 1) = x + 2 ^ k - 1.
Proof.
  intros Hk Hx Hm. pose proof (pow2_pos k ltac:(lia)). apply Z.mod_divide in Hm as [q ->]; [|lia].
  rewrite lor_add by lia. lia.
Qed.
Lemma broadcast_spec v n : wf_net v n ->
  wf_addr v (broadcast n) /\ val (broadcast n) = first n + size v n - 1 /\ a_scope (broadcast n) = [].
Proof.
  intros W. destruct (hostmask_spec v n W) as (Wh & Vh & _). destruct W as (Wn & Wm & Sm & P & Vm & Al). unfold broadcast.
  assert (L : length (a_bytes (n_addr n)) = length (a_bytes (hostmask n))).
  { rewrite (len_of v) by apply Wn. rewrite (len_of v) by apply Wh. reflexivity. }
  split; [apply empty_scope; split; [rewrite or_bytes_length by exact L; apply Wn|apply or_bytes_ok]|]. split; [|reflexivity].
  unfold val at 1. cbn [a_bytes]. rewrite be_lor; [|exact L|apply Wn|apply Wh]. fold (val (n_addr n)). fold (val (hostmask n)).
  rewrite Vh. unfold size, first in *. pose proof (val_range v _ Wn). apply (lor_block (width v)); [lia|lia|exact Al].
Qed.
Lemma net_top v n : wf_net v n -> 0 <= first n /\ 0 < size v n /\ first n + size v n <= 2 ^ width v.
Proof.
  intros (Wn & Wm & Sm & P & Vm & Al). pose proof (val_range v _ Wn) as R. split; [apply R|]. split; [apply size_pos; exact P|].
  apply block_end; [lia|exact R|exact Al].
Qed.
Lemma count_spec v n : wf_net v n -> addresses_count v n = Ret (size v n mod 2 ^ width v).
Proof.
  intros W. destruct (broadcast_spec v n W) as (Wb & Vb & _). destruct (net_top v n W) as (R1 & R2 & R3). pose proof (val_range v _ Wb).
  unfold addresses_count. rewrite to_uint_val by exact Wb. cbn [bind]. rewrite to_uint_val by apply W. cbn [bind].
  rewrite uadd_ok, usub_ok, Vb. unfold first in *. rewrite Zplus_mod_idemp_l. do 2 f_equal. lia.
Qed.
