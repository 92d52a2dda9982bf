(** Iteration, IPv6 networks and IPv4 mask texts on a big-endian host. *)
From Verif Require Import Base Tac TextProofs UnicodeModel FixedStringModel V4Model V6Model Uint128Model SpecInt Uint128Proofs Uint128Div2
  SpecText SpecAddr SpecStr SpecV6 StrProofs V4Proofs BufProofs BitProofs FixedStringProofs V4Lemmas V6Proofs V6Full V6Lemmas
  AddressModel SpecOrder AddressProofs NetworkModel SpecNet NetProofs NetProofs2 NetProofs3 NetLemmas IterModel SpecAny HostModel SpecEndian EndianProofs.

Lemma add_range v x y : 0 <= uadd v x y < 2 ^ width v.
Proof. rewrite uadd_ok. apply Z.mod_pos_bound. destruct v; reflexivity. Qed.
Lemma be_step v a k : wf_addr v a ->
  (n <- to_uint_h false v a ;; from_uint_h false v (uadd v n k)) =
  rmap (mirror_addr v) (n <- addr_to_uint v (mirror_addr v a) ;; addr_from_uint v (uadd v n k)).
Proof.
  intros W. rewrite (be_to v a (proj1 W)). rewrite (to_uint_val v _ (mirror_addr_ok v a W)). cbn [bind]. apply be_from, add_range.
Qed.

(** An iterator on a big-endian host stands for the mirrored one. *)
Definition stands (v : ver) (x y : ait) : Prop := it_offset x = it_offset y /\ it_current x = mirror_addr v (it_current y).
Lemma be_make v n c : 0 <= n < 2 ^ width v -> exists x, (f <- from_uint_h false v n ;; ait_make_h false v f c) = Ret x /\
  exists y, (f <- addr_from_uint v n ;; ait_make v f c) = Ret y /\ stands v x y /\ it_carry x = it_carry y.
Proof.
  intros H. rewrite (be_from_of v n H), (from_uint_of v n H). cbn [bind]. unfold ait_make_h, ait_make. pose proof (addr_of_wf v n H) as W.
  rewrite (be_to_val v _ (mirror_addr_ok v _ W)), (mirror_addr_twice v _ W), (to_uint_val v _ W). cbn [bind].
  eexists. split; [reflexivity|]. eexists. split; [reflexivity|]. split; [split; reflexivity|reflexivity].
Qed.
Lemma be_add v x y k : stands v x y -> 
  rmap it_current (ait_add_h false v x k) = rmap (fun z => mirror_addr v (it_current z)) (ait_add v y k).
Proof.
  intros [Eo Ec]. unfold ait_add_h, ait_add. destruct (k =? 0); cbn [negb]; [cbn [rmap]; rewrite Ec; reflexivity|]. cbv zeta. rewrite Eo.
  pose proof (add_range v (it_offset y) k) as R. rewrite (be_from_of v _ R), (from_uint_of v _ R). reflexivity.
Qed.
Lemma be_hosts sp v n : bytes_net v n -> exists s t, hosts_h false sp v n = Ret s /\ hosts sp v (mirror_net v n) = Ret t /\
  stands v (h_begin s) (h_begin t) /\ stands v (h_end s) (h_end t).
Proof.
  intros B. pose proof (broadcast_wf v n B) as Wb. pose proof (broadcast_wf v _ (mirror_bytes_net v n B)) as Wb'.
  pose proof (mirror_bytes_net v n B) as B'. unfold hosts_h, hosts, hosts_make_h, hosts_make.
  rewrite (be_to v _ (proj1 Wb)), (be_to v _ (proj1 (proj1 B))), (be_broadcast v n B).
  change (n_addr (mirror_net v n)) with (mirror_addr v (n_addr n)) in *. change (n_prefix (mirror_net v n)) with (n_prefix n).
  assert (Wa' : wf_addr v (mirror_addr v (n_addr n))) by apply B'.
  rewrite (to_uint_val v _ Wa'), (to_uint_val v _ Wb'). cbn [bind].
  pose proof (val_range v _ Wa') as R. pose proof (val_range v _ Wb') as Rb.
  assert (K : forall a b c d, 0 <= a < 2 ^ width v -> 0 <= b < 2 ^ width v -> exists s t,
    (first <- from_uint_h false v a ;; last <- from_uint_h false v b ;; x <- ait_make_h false v first c ;; y <- ait_make_h false v last d ;; Ret (mk_hosts x y)) = Ret s /\
    (first <- addr_from_uint v a ;; last <- addr_from_uint v b ;; x <- ait_make v first c ;; y <- ait_make v last d ;; Ret (mk_hosts x y)) = Ret t /\
    stands v (h_begin s) (h_begin t) /\ stands v (h_end s) (h_end t)).
  { intros a b c d Ha Hb. destruct (be_make v a c Ha) as (x & X & x' & X' & Sx & _). destruct (be_make v b d Hb) as (y & Y & y' & Y' & Sy & _).
    rewrite (be_from_of v a Ha), (from_uint_of v a Ha) in *. rewrite (be_from_of v b Hb), (from_uint_of v b Hb) in *. cbn [bind] in *.
    rewrite X, X', Y, Y'. cbn [bind]. eexists _, _. split; [reflexivity|]. split; [reflexivity|]. split; assumption. }
  destruct (n_prefix n =? width v - 1); [apply K; auto using add_range|]. destruct (n_prefix n =? width v).
  2:{ apply K; auto using add_range. }
  pose proof (add_range v (val (mirror_addr v (n_addr n))) 1) as Ry. set (x := val _) in *. set (y := uadd v x 1) in *.
  destruct (be_make v x 0 R) as (p & P & p' & P' & Sp & _). 
  rewrite (be_from_of v x R), (from_uint_of v x R) in *. rewrite (be_from_of v y Ry), (from_uint_of v y Ry). cbn [bind] in *.
  pose proof (addr_of_wf v x R) as Wx. pose proof (addr_of_wf v y Ry) as Wy.
  assert (Ex : a_scope (mirror_addr v (addr_of v x)) = []) by (apply addr_of_scope; exact R).
  assert (Ey : a_scope (mirror_addr v (addr_of v y)) = []) by (apply addr_of_scope; exact Ry).
  destruct (le_unscoped sp v _ _ (mirror_addr_ok v _ Wy) (mirror_addr_ok v _ Wx)) as (_ & _ & -> & _); [rewrite Ex, Ey; reflexivity|].
  destruct (le_unscoped sp v _ _ Wy Wx) as (_ & _ & -> & _); [rewrite !addr_of_scope by assumption; reflexivity|]. cbn [bind].
  rewrite P, P'. cbn [bind].
  set (c := if _ <? _ then 1 else 0). set (d := if _ <? _ then 1 else 0).
  unfold ait_make_h, ait_make. rewrite (be_to_val v _ (mirror_addr_ok v _ Wy)), (mirror_addr_twice v _ Wy), (to_uint_val v _ Wy). cbn [bind].
  eexists _, _. split; [reflexivity|]. split; [reflexivity|]. split; [exact Sp|split; reflexivity].
Qed.
Lemma be_hosts_at sp v n k : bytes_net v n -> exists s t, hosts_h false sp v n = Ret s /\ hosts sp v (mirror_net v n) = Ret t /\
  hosts_size v s = hosts_size v t /\ hosts_at_h false v s k = rmap (mirror_addr v) (hosts_at v t k).
Proof.
  intros B. destruct (be_hosts sp v n B) as (s & t & Hs & Ht & S1 & S2). exists s, t. split; [exact Hs|]. split; [exact Ht|]. split.
  - unfold hosts_size, ait_uint_diff. rewrite (proj1 S1), (proj1 S2). reflexivity.
  - unfold hosts_at_h, hosts_at. pose proof (be_add v _ _ k S1) as K.
    destruct (ait_add_h false v (h_begin s) k), (ait_add v (h_begin t) k); cbn [rmap bind] in *; congruence.
Qed.

(** *** IPv6 networks: the number of addresses *)
Lemma and_bytes_rev : forall a b, length a = length b -> and_bytes (rev a) (rev b) = rev (and_bytes a b).
Proof.
  induction a as [|x a IH]; intros [|y b] L; try discriminate; [reflexivity|]. cbn [rev and_bytes]. cbn [length] in L.
  rewrite and_bytes_app by (rewrite !rev_length; lia). rewrite IH by lia. reflexivity.
Qed.
Lemma and_bytes_first : forall k a b, firstn k (and_bytes a b) = and_bytes (firstn k a) (firstn k b).
Proof. induction k as [|k IH]; intros [|x a] [|y b]; cbn; try reflexivity. rewrite IH. reflexivity. Qed.
Lemma and_bytes_skip : forall k a b, length a = length b -> skipn k (and_bytes a b) = and_bytes (skipn k a) (skipn k b).
Proof. induction k as [|k IH]; intros [|x a] [|y b] L; cbn in *; try reflexivity; try discriminate. apply IH. lia. Qed.
Lemma mirror_and v a b : length a = length b -> mirror v (and_bytes a b) = and_bytes (mirror v a) (mirror v b).
Proof.
  intros L. destruct v; cbn [mirror]; [symmetry; apply and_bytes_rev, L|].
  rewrite and_bytes_first, and_bytes_skip by exact L. rewrite <- !and_bytes_rev by (rewrite ?firstn_length, ?skipn_length; lia).
  rewrite and_bytes_app by (rewrite !rev_length, !firstn_length; lia). reflexivity.
Qed.
Lemma hostmask_val v n : wf_net v n -> be_value (a_bytes (hostmask n)) = size v n - 1 /\ bytes_ok v (a_bytes (hostmask n)).
Proof.
  intros (_ & [[Lm Fm] _] & _ & _ & E & _). unfold hostmask. cbn [a_bytes]. rewrite be_not by exact Fm. fold (val (n_mask n)). rewrite E.
  unfold zlen. rewrite Lm, pow256. split; [lia|]. apply not_bytes_ok. split; assumption.
Qed.
Lemma disjoint_bytes v n : wf_net v n -> and_bytes (a_bytes (n_addr n)) (a_bytes (hostmask n)) = repeat 0 (nbytes v).
Proof.
  intros W. destruct (hostmask_val v n W) as [Eh [Lh Fh]]. pose proof W as ([[La Fa] _] & _ & _ & Hp & _ & Ef).
  assert (L : length (a_bytes (n_addr n)) = length (a_bytes (hostmask n))) by congruence.
  apply (be_value_inj v).
  - split; [rewrite and_bytes_length by exact L; exact La|apply and_bytes_ok; assumption].
  - split; [apply repeat_length|]. apply Forall_forall. intros x Hx. apply repeat_spec in Hx. subst. unfold is_byte. lia.
  - rewrite be_land, Eh by assumption. fold (val (n_addr n)). fold (first n). unfold size in *.
    replace (2 ^ (width v - n_prefix n) - 1) with (Z.ones (width v - n_prefix n)) by (rewrite Z.ones_equiv; lia).
    rewrite Z.land_ones by lia. rewrite Ef. destruct v; reflexivity.
Qed.
Lemma mirror_zeros v : mirror v (repeat 0 (nbytes v)) = repeat 0 (nbytes v).
Proof. destruct v; reflexivity. Qed.
Lemma be_count_exact v n : wf_net v n -> addresses_count_h false v n = Ret ((be_value (mirror v (a_bytes (hostmask n))) + 1) mod 2 ^ width v).
Proof.
  intros W. assert (B : bytes_net v n) by (split; apply W). rewrite be_count by exact B. unfold addresses_count.
  pose proof (mirror_bytes_net v n B) as B'. rewrite (to_uint_val v _ (broadcast_wf v _ B')), (to_uint_val v _ (proj1 B')). cbn [bind].
  destruct (hostmask_val v n W) as [_ Bh]. pose proof (proj1 (proj1 B)) as Ba. pose proof (mirror_ok v _ Bh) as Mh. pose proof (mirror_ok v _ Ba) as Ma.
  assert (E : val (broadcast (mirror_net v n)) = val (n_addr (mirror_net v n)) + be_value (mirror v (a_bytes (hostmask n)))).
  { rewrite mirror_broadcast by exact B. unfold val. cbn [mirror_net mirror_addr n_addr a_bytes]. unfold broadcast. cbn [a_bytes].
    rewrite mirror_or by (rewrite (proj1 Ba), (proj1 Bh); reflexivity).
    assert (L : length (mirror v (a_bytes (n_addr n))) = length (mirror v (a_bytes (hostmask n)))) by (rewrite (proj1 Mh), (proj1 Ma); reflexivity).
    rewrite be_lor by (try exact L; first [apply Mh|apply Ma]).
    assert (Z0 : Z.land (be_value (mirror v (a_bytes (n_addr n)))) (be_value (mirror v (a_bytes (hostmask n)))) = 0).
    { rewrite <- be_land by (try exact L; first [apply Mh|apply Ma]). rewrite <- mirror_and by (rewrite (proj1 Ba), (proj1 Bh); reflexivity).
      rewrite (disjoint_bytes v n W). rewrite mirror_zeros. destruct v; reflexivity. }
    rewrite <- Z.lxor_lor by exact Z0. symmetry. apply Z.add_nocarry_lxor. exact Z0. }
  rewrite uadd_ok, usub_ok, E, Zplus_mod_idemp_l. do 2 f_equal. lia.
Qed.
Definition count_at (v : ver) (p : Z) : Z := (be_value (mirror v (a_bytes (hostmask (mk_net (addr_default v) (mask_of v p) p)))) + 1) mod 2 ^ width v.
Lemma be_count6 n : wf_net V6 n -> (addresses_count_h false V6 n = addresses_count V6 n <-> n_prefix n = 0 \/ n_prefix n = 64 \/ n_prefix n = 128).
Proof.
  intros W. rewrite be_count_exact, count_spec by exact W. unfold size, hostmask. cbn [a_bytes width]. rewrite (net_mask_eq V6 n W).
  assert (C : forallb (fun p => Bool.eqb (count_at V6 p =? 2 ^ (128 - p) mod 2 ^ 128) ((p =? 0) || (p =? 64) || (p =? 128))) (upto 129) = true) by (vm_compute; reflexivity).
  pose proof W as (_ & _ & _ & Hp & _). cbn [width] in Hp. rewrite forallb_forall in C. specialize (C (n_prefix n) (in_upto 129 (n_prefix n) ltac:(lia))).
  apply Bool.eqb_prop in C. unfold count_at, hostmask in C. cbn [a_bytes n_mask width] in C.
  set (x := _ mod 2 ^ 128) in C |- *. set (y := (2 ^ (128 - n_prefix n)) mod 2 ^ 128) in *.
  split.
  - intros K. assert (K' : x = y) by congruence. rewrite K', Z.eqb_refl in C. lia.
  - intros K. f_equal. apply Z.eqb_eq. rewrite C. lia.
Qed.
