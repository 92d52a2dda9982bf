(** Loops, subnets and exclusions on a big-endian host: the statements of C74. *)
From Coq Require Import String.
From Verif Require Import Base Tac TextProofs UnicodeModel FixedStringModel V4Model V6Model Uint128Model SpecInt Uint128Proofs Uint128Div2
  SpecText SpecAddr SpecStr SpecV6 StrProofs V4Proofs BufProofs BitProofs FixedStringProofs V4Lemmas V6Proofs V6Full V6Lemmas
  AddressModel SpecOrder AddressProofs NetworkModel SpecNet NetProofs NetProofs2 NetProofs3 NetLemmas IterModel SpecAny NetWitness HostModel SpecEndian EndianProofs EndianProofs2 EndianProofs6 EndianProofs7.
Open Scope string_scope.
Open Scope Z_scope.
Open Scope list_scope.

Lemma host_little2 :
  (forall v k x y, hosts_walk_h true v k x y = hosts_walk v k x y) /\ (forall sp v n d np, subnets_h true sp v n d np = subnets sp v n d np) /\
  (forall v s k, subnets_at_h true v s k = subnets_at v s k) /\ (forall v k x y, subnets_walk_h true v k x y = subnets_walk v k x y) /\
  (forall sp v n o, exclude_h true sp v n o = address_exclude sp v n o) /\ (forall sp v k x y, exclude_walk_h true sp v k x y = exclude_walk sp v k x y).
Proof.
  split; [exact le_walk|]. split; [exact le_subnets|]. split; [exact le_subnets_at|]. split; [exact le_subnets_walk|]. split; [exact le_exclude|exact le_exclude_walk].
Qed.
Lemma big_hosts_walk sp v n k : bytes_net v n -> n_prefix n <> width v ->
  exists s t, hosts_h false sp v n = Ret s /\ hosts sp v (mirror_net v n) = Ret t /\
    hosts_walk_h false v k (h_begin s) (h_end s) = rmap (map (mirror_addr v)) (hosts_walk v k (h_begin t) (h_end t)).
Proof.
  intros B Hp. destruct (be_hosts sp v n B) as (s & t & Hs & Ht & _). exists s, t. split; [exact Hs|]. split; [exact Ht|].
  pose proof (be_hosts_same sp v n B Hp) as K. rewrite Hs, Ht in K. destruct K as [K1 K2]. apply be_hosts_walk; assumption.
Qed.
Lemma big_subnets4 sp n d np : bytes_net V4 n -> 0 <= n_prefix n <= 32 ->
  match subnets_h false sp V4 n d np, subnets sp V4 (mirror_net V4 n) d np with
  | Ret s, Ret t => s_size s = s_size t /\ (forall k, subnets_at_h false V4 s k = rmap (mirror_net V4) (subnets_at V4 t k)) /\
      (n_prefix n <> 32 -> forall k, subnets_walk_h false V4 k (s_begin s) (s_end s) = rmap (map (mirror_net V4)) (subnets_walk V4 k (s_begin t) (s_end t)))
  | Err e x, Err e' x' => e = e' /\ x = x'
  | UB u, UB u' => u = u'
  | _, _ => False
  end.
Proof.
  intros B Hp. pose proof (be_subnets4 sp n d np B Hp) as K. destruct (subnets_h false sp V4 n d np), (subnets sp V4 (mirror_net V4 n) d np); cbn [related] in K; try exact K.
  destruct K as (K1 & K2 & K3). split; [exact K1|]. split.
  - intros k. unfold subnets_at_h, subnets_at. pose proof (be_nit_add _ _ k K2) as Q.
    destruct (nit_add_h false V4 (s_begin a) k), (nit_add V4 (s_begin a0) k); cbn [related] in Q; try contradiction; cbn [bind rmap]; [f_equal; apply Q|destruct Q; congruence|congruence].
  - intros N k. apply be_subnets_walk; [exact K2|exact (K3 N)].
Qed.

(** *** The loop over one address *)
Definition M4 := 2 ^ 32.
Definition pos (o i : Z) : ait := mk_ait (mirror_addr V4 (addr_of V4 ((o + i) mod M4))) ((o + i) mod M4) (if o + i <? M4 then 0 else 1).
Lemma pos_range o i : 0 <= (o + i) mod M4 < 2 ^ width V4.
Proof. apply Z.mod_pos_bound. reflexivity. Qed.
Lemma pos_next o i : 0 <= o < M4 -> 0 <= i -> o + i + 1 < 2 * M4 -> ait_next_h false V4 (pos o i) = Ret (pos o (i + 1)).
Proof.
  intros Ho Hi Hl. unfold ait_next_h, ait_add_h. change (negb (1 =? 0)) with true. cbv iota zeta. unfold pos at 1 2 3 4 5 6. cbn [it_offset it_carry].
  rewrite (be_from_of V4 _ (add_range V4 _ 1)). cbn [bind]. rewrite uadd_ok. cbn [width]. fold M4. rewrite Zplus_mod_idemp_l.
  replace (o + i + 1) with (o + (i + 1)) by lia. unfold pos. f_equal. f_equal. change M4 with 4294967296 in *.
  destruct (Z.ltb_spec (o + i) 4294967296); destruct (Z.ltb_spec (o + (i + 1)) 4294967296); try lia.
  - rewrite !Z.mod_small by lia. destruct (Z.ltb_spec (o + (i + 1)) (o + i)); lia.
  - replace (o + (i + 1)) with 4294967296 by lia. rewrite Z.mod_same by lia. rewrite Z.mod_small by lia. destruct (Z.ltb_spec 0 (o + i)); lia.
  - rewrite (Z.mod_eq (o + i)), (Z.mod_eq (o + (i + 1))) by lia. replace ((o + i) / 4294967296) with 1 by lia. replace ((o + (i + 1)) / 4294967296) with 1 by lia.
    destruct (Z.ltb_spec (o + (i + 1) - 4294967296 * 1) (o + i - 4294967296 * 1)); lia.
Qed.
Lemma pos_eqb o i p j c : ait_eqb V4 (pos o i) (mk_ait (mirror_addr V4 (addr_of V4 ((p + j) mod M4))) ((p + j) mod M4) c) =
  Ret ((c =? (if o + i <? M4 then 0 else 1)) && ((o + i) mod M4 =? (p + j) mod M4)).
Proof.
  unfold ait_eqb, pos. cbn [it_carry it_current]. rewrite (Z.eqb_sym _ c). destruct (c =? _); cbn [andb]; [|reflexivity].
  rewrite mirror_eqb by apply addr_of_wf, pos_range.
  destruct (addr_eqb_ok V4 _ _ (addr_of_wf V4 _ (pos_range o i)) (addr_of_wf V4 _ (pos_range p j))) as (r & -> & Hr). f_equal. apply Bool.eq_iff_eq_true. rewrite Hr, Z.eqb_eq. split.
  - intros E. rewrite <- (addr_of_val V4 _ (pos_range o i)), E, addr_of_val by apply pos_range. reflexivity.
  - congruence.
Qed.
Lemma runs_on o : 0 <= o < M4 - 1 -> forall k i, 0 <= i -> i + Z.of_nat k <= M4 ->
  hosts_walk_h false V4 k (pos o i) (mk_ait (mirror_addr V4 (addr_of V4 ((o + 1) mod M4))) ((o + 1) mod M4) 1) = UB OutOfFuel.
Proof.
  intros Ho. unfold hosts_walk_h. induction k as [|k IH]; intros i Hi Hk; cbn [walk]; rewrite pos_eqb.
  all: assert (E : (1 =? (if o + i <? M4 then 0 else 1)) && ((o + i) mod M4 =? (o + 1) mod M4) = false).
  1,3: destruct (Z.ltb_spec (o + i) M4); [reflexivity|]; cbn [andb Z.eqb Pos.eqb]; apply Z.eqb_neq; rewrite (Z.mod_small (o + 1)) by lia;
       rewrite Z.mod_eq by discriminate; change M4 with 4294967296 in *; replace ((o + i) / 4294967296) with 1 by lia; lia.
  - rewrite E. reflexivity.
  - rewrite E. cbn [bind]. rewrite pos_next by (change M4 with 4294967296 in *; lia). cbn [bind]. rewrite IH by (change M4 with 4294967296 in *; lia). reflexivity.
Qed.

Lemma mirror_val y : 0 <= y < M4 -> exists p q r s, is_byte p /\ is_byte q /\ is_byte r /\ is_byte s /\ y = p * 16777216 + q * 65536 + r * 256 + s /\
  val (mirror_addr V4 (addr_of V4 y)) = s * 16777216 + r * 65536 + q * 256 + p /\ addr_of V4 y = mk_addr [p; q; r; s] [].
Proof.
  intros H. pose proof (addr_of_wf V4 y H) as W. pose proof (addr_of_val V4 y H) as V. pose proof (addr_of_scope V4 y H) as S0. destruct (bytes4 _ (proj1 W)) as (p & q & r & s & E & P & Q & R & S1).
  exists p, q, r, s. do 4 (split; [assumption|]). destruct (addr_of V4 y) as [bs sc]. cbn [a_bytes a_scope] in *. subst bs sc. unfold val in *. cbn [a_bytes mirror_addr mirror rev app] in *.
  rewrite be_value4 in *. unfold pack4 in *. split; [lia|]. split; [lia|reflexivity].
Qed.
Lemma big_single4 sp n a b c d : bytes_net V4 n -> n_prefix n = 32 -> a_bytes (n_addr n) = [a; b; c; d] -> exists s, hosts_h false sp V4 n = Ret s /\
  (a < 255 \/ [a; b; c; d] = [255; 255; 255; 255] -> hosts_walk_h false V4 1 (h_begin s) (h_end s) = Ret [n_addr n]) /\
  (a = 255 -> [a; b; c; d] <> [255; 255; 255; 255] -> forall k, Z.of_nat k <= 2 ^ 32 -> hosts_walk_h false V4 k (h_begin s) (h_end s) = UB OutOfFuel).
Proof.
  intros B Hp Eb. unfold hosts_h, hosts_make_h. cbn [width]. rewrite Hp. change (32 =? 32 - 1) with false. change (32 =? 32) with true. cbv iota.
  pose proof (proj1 B) as Wa. pose proof (mirror_addr_ok V4 _ Wa) as Wa'. rewrite (be_to_val V4 _ Wa). cbn [bind].
  assert (Sa : a_scope (n_addr n) = []) by (destruct Wa as [_ S0]; exact S0).
  pose proof (val_range V4 _ Wa') as Rx. cbn [width] in Rx. fold M4 in Rx.
  assert (Ex : addr_of V4 (val (mirror_addr V4 (n_addr n))) = mirror_addr V4 (n_addr n)) by (apply addr_of_eq; [exact Wa'|exact Sa]).
  assert (Vx : val (mirror_addr V4 (n_addr n)) = d * 16777216 + c * 65536 + b * 256 + a) by (unfold val; cbn [mirror_addr a_bytes]; rewrite Eb; cbn [mirror rev app]; rewrite be_value4; unfold pack4; lia).
  set (x := val (mirror_addr V4 (n_addr n))) in *.
  assert (Ea : mirror_addr V4 (addr_of V4 x) = n_addr n) by (rewrite Ex; apply mirror_addr_twice; exact Wa).
  assert (Va : val (n_addr n) = a * 16777216 + b * 65536 + c * 256 + d) by (unfold val; rewrite Eb, be_value4; unfold pack4; lia).
  assert (Ba : is_byte a /\ is_byte b /\ is_byte c /\ is_byte d).
  { pose proof (proj1 Wa) as [_ F]. rewrite Eb in F. inversion F as [|? ? F1 G1]. inversion G1 as [|? ? F2 G2]. inversion G2 as [|? ? F3 G3]. inversion G3. auto. }
  destruct Ba as (A1 & B1 & C1 & D1). clearbody x. unfold is_byte in A1, B1, C1, D1.
  rewrite (be_from_of V4 x Rx). cbn [bind]. rewrite (be_from_of V4 _ (add_range V4 x 1)). cbn [bind]. rewrite uadd_ok. cbn [width]. fold M4.
  pose proof (pos_range x 1) as Ry. change (2 ^ width V4) with M4 in Ry. set (y := (x + 1) mod M4) in *.
  pose proof (addr_of_wf V4 x Rx) as Wx. pose proof (addr_of_wf V4 y Ry) as Wy.
  destruct (le_unscoped sp V4 _ _ (mirror_addr_ok V4 _ Wy) (mirror_addr_ok V4 _ Wx)) as (_ & _ & -> & _).
  { cbn [mirror_addr a_scope]. rewrite !addr_of_scope by assumption. reflexivity. }
  cbn [bind]. unfold ait_make_h. rewrite (be_to_val V4 _ (mirror_addr_ok V4 _ Wx)), (mirror_addr_twice V4 _ Wx), (addr_of_val V4 x Rx). cbn [bind].
  rewrite (be_to_val V4 _ (mirror_addr_ok V4 _ Wy)), (mirror_addr_twice V4 _ Wy), (addr_of_val V4 y Ry). cbn [bind].
  eexists. split; [reflexivity|]. cbn [h_begin h_end]. rewrite Ea, Va.
  assert (P0 : mk_ait (n_addr n) x 0 = pos x 0).
  { unfold pos. rewrite Z.add_0_r, Z.mod_small by exact Rx. rewrite Ea. destruct (Z.ltb_spec x M4); [reflexivity|lia]. }
  rewrite P0. destruct (mirror_val y Ry) as (p & q & r & s & P & Q & R & S & Vy & Vm & _). rewrite Vm. unfold is_byte in P, Q, R, S.
  assert (Yv : (x + 1 < M4 /\ y = x + 1) \/ (x + 1 = M4 /\ y = 0)).
  { unfold y. destruct (Z.eq_dec (x + 1) M4) as [K|K]; [right; rewrite K; split; reflexivity|left; rewrite Z.mod_small by lia; lia]. }
  split.
  - intros Hc. set (cc := if _ <? _ then 1 else 0).
    assert (Ec : cc = if x + 1 <? M4 then 0 else 1).
    { unfold cc. clear - Hc Vx Vy Yv A1 B1 C1 D1 P Q R S. change M4 with 4294967296 in *. clearbody y.
      destruct Hc as [Hc|Hc]; [|assert (a = 255 /\ b = 255 /\ c = 255 /\ d = 255) as (-> & -> & -> & ->) by (repeat split; congruence)];
      destruct (Z.ltb_spec (x + 1) 4294967296); match goal with |- context [?u <? ?w] => destruct (Z.ltb_spec u w) end; lia. }
    unfold hosts_walk_h, y. cbn [walk]. rewrite pos_eqb. fold y.
    assert (N0 : ((x + 0) mod M4 =? y) = false).
    { apply Z.eqb_neq. rewrite Z.add_0_r, Z.mod_small by exact Rx. change M4 with 4294967296 in *. clearbody y. lia. }
    rewrite N0, Bool.andb_false_r. cbn [bind]. rewrite pos_next by (clearbody y; change M4 with 4294967296 in *; lia). cbn [bind]. unfold y. rewrite pos_eqb. rewrite Ec.
    change (0 + 1) with 1. rewrite !Z.eqb_refl. cbn [andb bind]. rewrite <- P0. reflexivity.
  - intros Ha Hn k Hk. clearbody y. assert (x + 1 < M4).
    { change M4 with 4294967296 in *. destruct Yv as [Yv|Yv]; [lia|]. exfalso. apply Hn. assert (b = 255 /\ c = 255 /\ d = 255) as (-> & -> & ->) by lia. subst a. reflexivity. }
    assert (L : (s * 16777216 + r * 65536 + q * 256 + p <? a * 16777216 + b * 65536 + c * 256 + d) = true).
    { apply Z.ltb_lt. change M4 with 4294967296 in *. lia. }
    rewrite L. fold M4 in Hk. assert (Ey : y = (x + 1) mod M4) by (rewrite Z.mod_small by lia; lia). rewrite Ey. apply runs_on; lia.
Qed.

(** *** Differences *)
Lemma big_subnets6_refuted : exists n s, wf_net V6 n /\ subnets true V6 n 1 None = Ret s /\ s_size s = 2 /\ subnets_h false true V6 n 1 None = Err has_host_bits_set 0.
Proof. exists (net_at V6 "2001:db8::/32"). eexists. split; [wfn|]. split; [vm_compute; reflexivity|]. split; vm_compute; reflexivity. Qed.
Lemma big_exclude4_refuted : exists m o s l, wf_net V4 m /\ wf_net V4 o /\ address_exclude true V4 m o = Ret s /\ exclude_walk true V4 16 (e_begin s) (e_end s) = Ret l /\
  exists t, exclude_h false true V4 (mirror_net V4 m) (mirror_net V4 o) = Ret t /\ exclude_walk_h false true V4 16 (e_begin t) (e_end t) = UB AssertFailed.
Proof.
  exists (net_at V4 "10.0.0.0/8"), (net_at V4 "10.1.1.0/24"). eexists _, _. split; [wfn|]. split; [wfn|]. split; [vm_compute; reflexivity|]. split; [vm_compute; reflexivity|].
  eexists. split; [vm_compute; reflexivity|]. vm_compute. reflexivity.
Qed.
Lemma big_subnet_of_refuted : exists m o, wf_net V4 m /\ wf_net V4 o /\ subnet_of true V4 o m = Ret false /\ overlaps (mirror_net V4 o) (mirror_net V4 m) = false /\
  subnet_of true V4 (mirror_net V4 o) (mirror_net V4 m) = Ret true.
Proof. exists (net_at V4 "10.0.0.0/8"), (net_at V4 "11.1.0.0/16"). split; [wfn|]. split; [wfn|]. split; [vm_compute; reflexivity|]. split; vm_compute; reflexivity. Qed.
