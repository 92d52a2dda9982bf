(** Laws between the operations of addresses and networks. *)
From Coq Require Import String.
From Verif Require Import Base Tac V4Model V6Model Uint128Model SpecInt SpecAddr SpecOrder AddressModel AddressProofs NetworkModel IterModel ClassifyModel SpecNet SpecIter SpecClass
  NetProofs NetProofs2 NetProofs3 NetLemmas NetWitness IterProofs IterProofs2 IterProofs3 IterProofs4 IterProofs5 IterLemmas ClassifyProofs ClassifyProofs2 EdgeLemmas.

Lemma subset_iff sp v a b : wf_net v a -> wf_net v b -> unscoped a -> unscoped b -> (subnet_of sp v a b = Ret true <-> subset v a b).
Proof.
  intros Wa Wb Ua Ub. destruct (subnet_spec sp v a b Wa Wb Ua Ub) as (r & -> & _ & K). rewrite <- K. split; [congruence|intros ->; reflexivity].
Qed.
Lemma if_nil (c : bool) : (if c then [] else []) = ([] : list Z). Proof. destruct c; reflexivity. Qed.
(** *** Networks of an address *)
Lemma law_own v a p n : wf_addr v a -> 0 <= p <= width v -> from_address v a p false = Ret n -> contains n a = true.
Proof.
  intros W Hp E. destruct (from_address_nonstrict v a p Hp W) as (m & E' & Wm & Pm & Fm & _). rewrite E' in E. apply ret_inj in E. subst m.
  apply (contains_spec v); auto. unfold in_net, size. rewrite Fm, Pm. pose proof (pow2_pos (width v - p) ltac:(lia)) as P.
  pose proof (Z.mod_pos_bound (val a) _ P). lia.
Qed.
Lemma law_same v a b p n m : wf_addr v a -> wf_addr v b -> a_scope a = [] -> a_scope b = [] -> 0 <= p <= width v ->
  from_address v a p false = Ret n -> from_address v b p false = Ret m -> (contains n b = true <-> n = m).
Proof.
  intros Wa Wb Sa Sb Hp Ea Eb. destruct (from_address_nonstrict v a p Hp Wa) as (n' & E & Wn & Pn & Fn & Un). rewrite E in Ea. apply ret_inj in Ea. subst n'. clear E.
  pose proof (law_own v b p m Wb Hp Eb) as O. destruct (from_address_nonstrict v b p Hp Wb) as (m' & E & Wm & Pm & Fm & Um). rewrite E in Eb. apply ret_inj in Eb. subst m'. clear E.
  split; [|intros ->; exact O]. intros C. apply (contains_spec v) in C, O; auto.
  assert (U1 : unscoped n) by (unfold unscoped; rewrite Un, Sa; apply if_nil). assert (U2 : unscoped m) by (unfold unscoped; rewrite Um, Sb; apply if_nil).
  apply (subset_eq v); auto; [|congruence]. apply (nested v n m (val b)); auto. lia.
Qed.
Lemma law_host sp v n a h : wf_net v n -> unscoped n -> wf_addr v a -> a_scope a = [] -> from_address v a (width v) true = Ret h ->
  (subnet_of sp v h n = Ret true <-> contains n a = true).
Proof.
  intros Wn Un Wa Sa E. assert (Hw : 0 <= width v) by (destruct v; discriminate). apply from_address_strict in E; [|lia|exact Wa]. destruct E as (_ & Wh & Ah & Ph).
  rewrite (subset_iff sp v h n Wh Wn) by (unfold unscoped; congruence). rewrite (contains_spec v) by auto.
  assert (F : first h = val a) by (unfold first; rewrite Ah; reflexivity). assert (Sz : size v h = 1) by (unfold size; rewrite Ph, Z.sub_diag; reflexivity).
  split; [intros H; apply H; unfold in_net; lia|]. intros H x Hx. unfold in_net in Hx. replace x with (val a) by lia. exact H.
Qed.
(** *** Inclusion *)
Lemma law_contains sp v a b x : wf_net v a -> wf_net v b -> unscoped a -> unscoped b -> wf_addr v x ->
  subnet_of sp v a b = Ret true -> contains a x = true -> contains b x = true.
Proof.
  intros Wa Wb Ua Ub Wx H C. apply subset_iff in H; auto. apply (contains_spec v) in C; auto. apply (contains_spec v); auto.
Qed.
Lemma law_contains_all sp v a b : wf_net v a -> wf_net v b -> unscoped a -> unscoped b ->
  (forall x, wf_addr v x -> contains a x = true -> contains b x = true) -> subnet_of sp v a b = Ret true.
Proof.
  intros Wa Wb Ua Ub H. apply subset_iff; auto. intros x Hx. destruct (in_addr v a x Wa Hx) as [Wx Vx]. rewrite <- Vx. apply (contains_spec v); auto. apply H; [exact Wx|].
  apply (contains_spec v); auto. rewrite Vx. exact Hx.
Qed.
Lemma law_overlaps sp v a b : wf_net v a -> wf_net v b -> unscoped a -> unscoped b ->
  (overlaps a b = true <-> subnet_of sp v a b = Ret true \/ subnet_of sp v b a = Ret true).
Proof.
  intros Wa Wb Ua Ub. rewrite !(subset_iff sp v) by auto. split; [apply overlaps_nested; auto|]. intros [H|H]; apply (overlaps_spec v); auto.
  - exists (first a). split; [apply in_first; exact Wa|apply H, in_first; exact Wa].
  - exists (first b). split; [apply H, in_first; exact Wb|apply in_first; exact Wb].
Qed.
Lemma law_sorted sp v a b : wf_net v a -> wf_net v b -> unscoped a -> unscoped b -> subnet_of sp v a b = Ret true -> nop_le true v b a = Ret true.
Proof.
  intros Wa Wb Ua Ub H. apply subset_iff in H; auto. destruct (nop_cpp20 v b a Wb Wa) as (lt & gt & le & ge & _ & _ & E & _ & _ & _ & K & _). rewrite E. f_equal. apply K.
  destruct (subset_prefix v a b Wa Wb) as [P _]. destruct (P H) as [P1 P2]. unfold in_net in P2. unfold net_before, addr_before, unscoped, first in *.
  destruct (Z.eq_dec (val (n_addr b)) (val (n_addr a))) as [V|V]; [|left; left; left; lia].
  assert (Ea : n_addr b = n_addr a) by (apply (addr_eq v); [apply Wb|apply Wa|exact V|congruence]).
  destruct (Z.eq_dec (n_prefix b) (n_prefix a)) as [Q|Q]; [right; apply (net_equality v); auto|left; right; split; [exact Ea|lia]].
Qed.
(** *** supernet and subnets *)
Lemma law_super sp v n d m : wf_net v n -> unscoped n -> 0 < n_prefix n -> 0 <= d <= n_prefix n -> d < width v -> supernet v n d None = Ret m ->
  subnet_of sp v n m = Ret true.
Proof.
  intros W U P D Dw E. destruct (supernet_diff v n d W P D Dw) as (m' & E' & Wm & Um & _ & H). rewrite E' in E. apply ret_inj in E. subst m'. apply subset_iff; auto.
Qed.
Lemma sub_inside v n q i m : wf_net v n -> n_prefix n <= q <= width v -> 0 <= i < 2 ^ (q - n_prefix n) -> nth_subnet v n q i m -> subset v m n.
Proof.
  intros W Hq Hi (Wm & Um & Pm & Fm). destruct (sub_geom v n q W Hq) as (K & Sz & D & _). intros x Hx. unfold in_net in *. assert (Sm : size v m = 2 ^ (width v - q)) by (unfold size; rewrite Pm; reflexivity).
  rewrite Fm, Sm in Hx. rewrite Sz. generalize dependent (2 ^ (width v - q)). generalize dependent (2 ^ (q - n_prefix n)). clear. intros. nia.
Qed.
Lemma asked_diff_of v n d q : wf_net v n -> asked v n d None q -> n_prefix n < width v -> q = n_prefix n + d.
Proof. intros W [[K _]|(_ & d' & K & _ & Q & _)] L; [lia|]. cbn in K. injection K as ->. exact Q. Qed.
Lemma law_sub sp v n d np q s i m : wf_net v n -> unscoped n -> args_ok d np -> asked v n d np q -> defined v n q -> subnets sp v n d np = Ret s -> 0 <= i < s_size s -> subnets_at v s i = Ret m ->
  subnet_of sp v m n = Ret true.
Proof.
  intros W U Ha Hq Hd Hs Hi Em. destruct (subnets_good _ _ _ _ _ _ _ W Ha Hq Hd Hs) as (R & _ & Sz). destruct (sub_element sp v n d np q s W Ha Hq Hd Hs i Hi) as (m' & E & N). rewrite E in Em. apply ret_inj in Em. subst m'.
  rewrite Sz in Hi. pose proof N as (Wm & Um & _). apply subset_iff; auto. exact (sub_inside v n q i m W R Hi N).
Qed.
Lemma law_sub_super sp v n d q s i m : wf_net v n -> unscoped n -> n_prefix n < width v -> args_ok d None -> asked v n d None q -> defined v n q -> subnets sp v n d None = Ret s -> 0 <= i < s_size s -> subnets_at v s i = Ret m ->
  supernet v m d None = Ret n.
Proof.
  intros W U Lw Ha Hq Hd Hs Hi Em. pose proof (asked_diff_of v n d q W Hq Lw) as Q. destruct (subnets_good _ _ _ _ _ _ _ W Ha Hq Hd Hs) as (R & _ & Sz). destruct (sub_element sp v n d None q s W Ha Hq Hd Hs i Hi) as (m' & E & N). rewrite E in Em. apply ret_inj in Em. subst m'.
  rewrite Sz in Hi. pose proof (sub_inside v n q i m W R Hi N) as Sub. pose proof N as (Wm & Um & Pm & _). assert (P0 : 0 <= n_prefix n) by apply W.
  destruct (Z.eq_dec q 0) as [Q0|Q0].
  - rewrite supernet_whole by (auto; lia). f_equal. apply (subset_eq v); auto. lia.
  - destruct Hd as [Dw _]. destruct (supernet_diff v m d Wm) as (k & Ek & Wk & Uk & Pk & Sk); [lia|lia|lia|]. rewrite Ek. f_equal.
    apply (super_of_unique v m k n (n_prefix n) Wm); (split; [assumption|split; [assumption|split; [lia|assumption]]]).
Qed.
Lemma law_sub_sorted sp v n d np q s i j a b : wf_net v n -> args_ok d np -> asked v n d np q -> defined v n q -> subnets sp v n d np = Ret s -> 0 <= i < j -> j < s_size s ->
  subnets_at v s i = Ret a -> subnets_at v s j = Ret b -> nop_lt true v a b = Ret true /\ overlaps a b = false.
Proof.
  intros W Ha Hq Hd Hs Hi Hj Ea Eb. pose proof (sub_sorted sp v n d np q s W Ha Hq Hd Hs i j a b (proj1 Hi) (proj2 Hi) Hj Ea Eb) as L.
  destruct (sub_element sp v n d np q s W Ha Hq Hd Hs i ltac:(lia)) as (a' & E & (Wa & Ua & _)). rewrite E in Ea. apply ret_inj in Ea. subst a'. clear E.
  destruct (sub_element sp v n d np q s W Ha Hq Hd Hs j ltac:(lia)) as (b' & E & (Wb & Ub & _)). rewrite E in Eb. apply ret_inj in Eb. subst b'. clear E.
  pose proof (net_top v a Wa) as T. split.
  - destruct (nop_cpp20 v a b Wa Wb) as (lt & gt & le & ge & E & _ & _ & _ & K & _). rewrite E. f_equal. apply K. left. left. unfold first in *. lia.
  - destruct (overlaps a b) eqn:O; [|reflexivity]. apply (overlaps_spec v) in O; auto. destruct O as (x & X & Y). unfold in_net in *. lia.
Qed.
(** *** hosts and exclusion *)
Lemma law_hosts sp v n s i a : wf_net v n -> hosts sp v n = Ret s -> 0 <= i < hosts_size v s -> hosts_at v s i = Ret a ->
  contains n a = true /\ (v = V4 -> n_prefix n < 31 -> a <> n_addr n /\ a <> broadcast n).
Proof.
  intros W Hs Hi Ea. assert (U : usable v n (val a)) by (apply (hosts_set sp v n s); auto; exists i, a; auto). rewrite (hosts_size_ok sp v n s W Hs) in Hi.
  destruct (hosts_at_ok sp v n s i W Hs Hi) as (a' & E & Wa & _). rewrite E in Ea. apply ret_inj in Ea. subst a'. destruct U as [I X]. split; [apply (contains_spec v); auto|].
  intros -> L. destruct X as [X1 X2]; [cbn [width]; lia|]. specialize (X2 eq_refl). split; intros ->; [apply X1; reflexivity|]. apply X2. destruct (broadcast_largest V4 n W) as (_ & -> & _). lia.
Qed.
Lemma law_exclude sp v n o s l : wf_net v n -> wf_net v o -> unscoped n -> unscoped o -> subnet_of sp v o n = Ret true -> n_prefix n < n_prefix o -> ~ is_one v o ->
  address_exclude sp v n o = Ret s -> exclude_walk sp v (Z.to_nat (n_prefix o - n_prefix n)) (e_begin s) (e_end s) = Ret l ->
  (forall m, In m l -> overlaps m o = false) /\ (forall a, wf_addr v a -> contains n a = contains o a || existsb (fun m => contains m a) l).
Proof.
  intros Wn Wo Un Uo H P G Es El. apply subset_iff in H; auto. destruct (exclude_all sp v n o Wn Wo H P G) as (s' & l' & E1 & E2 & _ & Hi & _ & Hx). rewrite E1 in Es. apply ret_inj in Es. subst s'. rewrite E2 in El. apply ret_inj in El. subst l'.
  assert (F : forall m, In m l -> wf_net v m /\ disjoint v m o).
  { intros m Hm. destruct (In_nth_error _ _ Hm) as (i & Ei). destruct (Hi i) as (m' & E & Wm & _ & D); [apply nth_error_Some; congruence|]. replace m with m' by congruence. auto. }
  split.
  - intros m Hm. destruct (F m Hm) as [Wm D]. destruct (overlaps m o) eqn:O; [|reflexivity]. apply (overlaps_spec v) in O; auto. destruct O as (x & X & Y). destruct (D x X Y).
  - intros a Wa. apply Bool.eq_true_iff_eq. rewrite Bool.orb_true_iff, existsb_exists, !(contains_spec v) by auto. rewrite Hx. split; (intros [K|(m & Hm & K)]; [left; exact K|right; exists m; split; [exact Hm|]]);
    [apply (contains_spec v); auto; apply F; exact Hm|apply (contains_spec v) in K; auto; apply F; exact Hm].
Qed.
Lemma law_exclude_error sp v n o : wf_net v n -> wf_net v o -> unscoped n -> unscoped o ->
  (address_exclude sp v n o = Err not_contained_network 0 <-> subnet_of sp v o n = Ret false).
Proof.
  intros Wn Wo Un Uo. destruct (subnet_spec sp v o n Wo Wn Uo Un) as (r & -> & _ & K). destruct r.
  - assert (H : subset v o n) by (apply K; reflexivity). split; [|discriminate]. intros E. exfalso. pose proof (proj1 (proj1 (subset_prefix v o n Wo Wn) H)) as P.
    destruct (Z.eq_dec (n_prefix n) (n_prefix o)) as [Q|Q]; [destruct (exclude_same sp v n o 0 Wn Wo H Q) as (s & Es & _); congruence|].
    destruct (bare_ok v n Wn) as (Wbn & Ubn & _ & Pn). destruct (bare_ok v o Wo) as (Wbo & Ubo & _ & Po). unfold address_exclude, exclude_code in E. rewrite !remove_scope_net_ok in E by assumption. cbn [bind] in E.
    rewrite subnet_true in E by (auto; apply subset_bare; auto). cbn [bind negb] in E. rewrite eqb_false in E by (auto; apply prefix_ne; lia). cbn [bind] in E.
    destruct (exclude_core sp v (bare v n) (bare v o) Wbn Wbo Ubn Ubo) as (it & Eit & _); [apply subset_bare; auto|lia|]. rewrite Eit in E. cbn [bind] in E. discriminate.
  - split; [reflexivity|]. intros _. apply exclude_not; auto. intros H. apply K in H. discriminate.
Qed.
(** *** Classification of subnets *)
Lemma every_sub v a b f : subset v a b -> every v b f -> every v a f.
Proof. intros H F x Wx Hx. apply F; auto. Qed.
Lemma law_class sp v a b : wf_net v a -> wf_net v b -> unscoped a -> unscoped b -> subnet_of sp v a b = Ret true ->
  (net_is_multicast v b = true -> net_is_multicast v a = true) /\ (net_is_loopback v b = true -> net_is_loopback v a = true) /\
  (net_is_link_local v b = true -> net_is_link_local v a = true) /\ (net_is_unspecified b = true -> net_is_unspecified a = true) /\
  (net_is_private v b = true -> net_is_private v a = true) /\ (net_is_global v a = true -> net_is_global v b = true) /\
  (v = V6 -> v6_net_is_site_local b = true -> v6_net_is_site_local a = true) /\
  (~ (v = V6 /\ half_space b) -> net_is_reserved v b = true -> net_is_reserved v a = true).
Proof.
  intros Wa Wb Ua Ub H. apply subset_iff in H; auto.
  assert (Pr : net_is_private v b = true -> net_is_private v a = true).
  { rewrite !net_private_spec by auto. intros (r & Hr & K). exists r. split; [exact Hr|]. intros x Hx. apply K, H, Hx. }
  split; [rewrite !net_multicast by auto; apply every_sub; exact H|]. split; [rewrite !net_loopback by auto; apply every_sub; exact H|].
  split; [rewrite !net_link_local by auto; apply every_sub; exact H|]. split; [rewrite !(net_unspecified v) by auto; apply every_sub; exact H|]. split; [exact Pr|]. split; [|split].
  - destruct v.
    + rewrite !net_global4 by auto. intros [K1 K2]. split; [intros K; apply K1; intros x Hx; apply K, H, Hx|]. destruct (net_is_private V4 b); [|reflexivity]. rewrite Pr in K2 by reflexivity. discriminate.
    + cbn [net_is_global]. destruct (net_is_private V6 b); [rewrite Pr by reflexivity; discriminate|reflexivity].
  - intros ->. rewrite !net_site_local by auto. apply every_sub. exact H.
  - intros G. destruct v; [rewrite !net_reserved4 by auto; apply every_sub; exact H|]. rewrite !net_reserved6_exact by auto. intros [K|K]; [left; exact (every_sub V6 a b _ H K)|]. exfalso. apply G. auto.
Qed.
Lemma law_class_wrong : exists a b, wf_net V6 a /\ wf_net V6 b /\ subnet_of true V6 a b = Ret true /\ net_is_reserved V6 b = true /\ net_is_reserved V6 a = false.
Proof. exists (net_at V6 "2000::/3"), (net_at V6 "::/1"). split; [wfn|]. split; [wfn|]. repeat split; vm_compute; reflexivity. Qed.
(** *** Counting *)
Lemma law_count sp v n d np q s i m : wf_net v n -> 0 < n_prefix n -> args_ok d np -> asked v n d np q -> defined v n q -> subnets sp v n d np = Ret s -> 0 <= i < s_size s -> subnets_at v s i = Ret m ->
  exists c k, addresses_count v n = Ret c /\ addresses_count v m = Ret k /\ c = s_size s * k.
Proof.
  intros W P Ha Hq Hd Hs Hi Em. destruct (subnets_good _ _ _ _ _ _ _ W Ha Hq Hd Hs) as (R & _ & Sz). destruct (sub_element sp v n d np q s W Ha Hq Hd Hs i Hi) as (m' & E & (Wm & _ & Pm & _)). rewrite E in Em. apply ret_inj in Em. subst m'.
  destruct (sub_geom v n q W R) as (_ & S1 & _). exists (size v n), (size v m). split; [apply count_ok; auto; lia|]. split; [apply count_ok; auto; lia|]. rewrite Sz, S1. unfold size. rewrite Pm. reflexivity.
Qed.
