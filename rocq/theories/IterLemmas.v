(** Statements about sequences in the form used by the theorems, and witnesses. *)
From Coq Require Import String.
From Verif Require Import Base Tac V4Model V6Model SpecInt SpecAddr AddressModel SpecOrder NetworkModel IterModel SpecNet SpecIter
  NetProofs NetProofs2 NetProofs3 NetLemmas NetWitness IterProofs IterProofs2 IterProofs3 IterProofs4 IterProofs5.

(** *** hosts() *)
Lemma hosts_exists sp v n : wf_net v n -> exists s, hosts sp v n = Ret s.
Proof. intros W. destruct (hosts_ok sp v n W) as (s & E & _). eauto. Qed.
Lemma hosts_set sp v n s x : wf_net v n -> hosts sp v n = Ret s ->
  (usable v n x <-> exists i a, 0 <= i < hosts_size v s /\ hosts_at v s i = Ret a /\ val a = x).
Proof.
  intros W Hs. rewrite usable_iff by exact W. rewrite (hosts_size_ok sp v n s W Hs). split.
  - intros Hx. destruct (hosts_at_ok sp v n s (x - hosts_lo v n) W Hs ltac:(lia)) as (a & E & _ & _ & V). exists (x - hosts_lo v n), a. split; [lia|]. split; [exact E|lia].
  - intros (i & a & Hi & E & <-). destruct (hosts_at_ok sp v n s i W Hs Hi) as (a' & E' & _ & _ & V). rewrite E in E'. apply ret_inj in E'. subst a'. lia.
Qed.
Lemma hosts_count sp v n s : wf_net v n -> hosts sp v n = Ret s ->
  hosts_size v s = if n_prefix n >=? width v - 1 then size v n else match v with V4 => size v n - 2 | V6 => size v n - 1 end.
Proof.
  intros W Hs. rewrite (hosts_size_ok sp v n s W Hs). unfold hosts_cnt. destruct (size_cases v n W) as [(Hp & ->)|[(Hp & ->)|(Hp & _)]].
  - rewrite Hp, Z.eqb_refl. replace (width v >=? width v - 1) with true by lia. reflexivity.
  - rewrite Hp, Z.eqb_refl. replace (width v - 1 =? width v) with false by lia. replace (width v - 1 >=? width v - 1) with true by lia. reflexivity.
  - replace (n_prefix n =? width v - 1) with false by lia. replace (n_prefix n =? width v) with false by lia. replace (n_prefix n >=? width v - 1) with false by lia. reflexivity.
Qed.
Lemma hosts_begin_at sp v n s i : wf_net v n -> hosts sp v n = Ret s -> 0 <= i < 2 ^ width v -> ait_at v (h_begin s) i = hosts_at v s i.
Proof.
  intros W Hs Hi. destruct (hosts_ok sp v n W) as (s' & E & Wb & _). rewrite E in Hs. apply ret_inj in Hs. subst s'. unfold hosts_at, ait_at.
  destruct (ait_add_ok v _ i Wb Hi) as (x & -> & Mx). cbn [bind]. destruct (step_add v _ i Wb Hi) as (c & -> & Mc). f_equal. rewrite (moved_ext _ _ _ _ _ Mx Mc). reflexivity.
Qed.
Lemma hosts_iterators sp v n s : wf_net v n -> hosts sp v n = Ret s -> wf_ait v (h_begin s) /\ wf_ait v (h_end s).
Proof. intros W Hs. destruct (hosts_ok sp v n W) as (s' & E & Wb & _ & We & _). rewrite E in Hs. apply ret_inj in Hs. subst s'. auto. Qed.
Lemma hosts_nonempty sp v n s : wf_net v n -> hosts sp v n = Ret s -> hosts_empty v s = Ret false.
Proof.
  intros W Hs. destruct (hosts_ok sp v n W) as (s' & E & Wb & Pb & We & Pe). rewrite E in Hs. apply ret_inj in Hs. subst s'. unfold hosts_empty. rewrite ait_eqb_ok by assumption. f_equal.
  apply Z.eqb_neq. rewrite Pb, Pe. intros K. pose proof (stop_mod v n W) as Q. pose proof (hosts_cnt_pos v n W) as (C & L & T). rewrite <- K in Q. pose proof (M_pos v).
  rewrite (Z.mod_small (hosts_lo v n)) in Q by lia. destruct (Z.eq_dec (hosts_lo v n + hosts_cnt v n) (2 ^ width v)) as [X|X]; [rewrite X, Z.mod_same in Q; lia|rewrite Z.mod_small in Q; lia].
Qed.

(** *** subnets() *)
Lemma subnets_good sp v n d np q s : wf_net v n -> args_ok d np -> asked v n d np q -> defined v n q -> subnets sp v n d np = Ret s ->
  n_prefix n <= q <= width v /\ sub_ok v n q s /\ s_size s = 2 ^ (q - n_prefix n).
Proof.
  intros W Ha Hq [H1 H2] Hs. split; [eapply asked_range; eassumption|]. destruct (subnets_spec sp v n d np q W Ha Hq H1 H2) as (s' & E & K). rewrite E in Hs. apply ret_inj in Hs. subst s'. exact K.
Qed.
Section Sub.
Variables (sp : bool) (v : ver) (n : net) (d : Z) (np : option Z) (q : Z) (s : subnets_seq).
Hypotheses (W : wf_net v n) (Ha : args_ok d np) (Hq : asked v n d np q) (Hd : defined v n q) (Hs : subnets sp v n d np = Ret s).
Lemma sub_size : s_size s = 2 ^ (q - n_prefix n).
Proof. exact (proj2 (proj2 (subnets_good _ _ _ _ _ _ _ W Ha Hq Hd Hs))). Qed.
Lemma sub_element i : 0 <= i < s_size s -> exists m, subnets_at v s i = Ret m /\ nth_subnet v n q i m.
Proof. destruct (subnets_good _ _ _ _ _ _ _ W Ha Hq Hd Hs) as (R & Sk & Sz). intros Hi. rewrite Sz in Hi. apply subnets_at_ok; assumption. Qed.
Lemma sub_cover x : in_net v n x <-> exists i m, 0 <= i < s_size s /\ subnets_at v s i = Ret m /\ in_net v m x.
Proof.
  destruct (subnets_good _ _ _ _ _ _ _ W Ha Hq Hd Hs) as (R & Sk & Sz). rewrite Sz. split.
  - intros Hx. destruct (nth_cover v n q x W R Hx) as (i & Hi & K). destruct (subnets_at_ok v n q s i W R Sk Hi) as (m & E & Nm). exists i, m. auto.
  - intros (i & m & Hi & E & Hx). destruct (subnets_at_ok v n q s i W R Sk Hi) as (m' & E' & Nm). rewrite E in E'. apply ret_inj in E'. subst m'. eapply nth_inside; eassumption.
Qed.
Lemma sub_sorted i j a b : 0 <= i -> i < j -> j < s_size s -> subnets_at v s i = Ret a -> subnets_at v s j = Ret b -> first a + size v a <= first b.
Proof.
  destruct (subnets_good _ _ _ _ _ _ _ W Ha Hq Hd Hs) as (R & Sk & Sz). intros H0 Hij Hj Ea Eb. rewrite Sz in Hj.
  destruct (subnets_at_ok v n q s i W R Sk ltac:(lia)) as (a' & Ea' & Na). rewrite Ea in Ea'. apply ret_inj in Ea'. subst a'.
  destruct (subnets_at_ok v n q s j W R Sk ltac:(lia)) as (b' & Eb' & Nb). rewrite Eb in Eb'. apply ret_inj in Eb'. subst b'. exact (nth_order v n q i j a b R Hij Na Nb).
Qed.
Lemma sub_ends : nth_subnet v n q 0 (subnets_front s) /\ exists m, subnets_back v s = Ret m /\ nth_subnet v n q (s_size s - 1) m.
Proof.
  destruct (subnets_good _ _ _ _ _ _ _ W Ha Hq Hd Hs) as (R & Sk & Sz). rewrite Sz. split; [apply subnets_front_ok; assumption|apply subnets_back_ok; assumption].
Qed.
Lemma sub_iterators : wf_nit v (s_begin s) /\ wf_nit v (s_end s) /\ ni_prefix (s_begin s) = ni_prefix (s_end s).
Proof. destruct (subnets_good _ _ _ _ _ _ _ W Ha Hq Hd Hs) as (R & (A & _ & B & C & _ & D) & Sz). split; [exact A|]. split; [exact C|congruence]. Qed.
Lemma sub_loop : q <> 0 -> ~ subnets_short v n ->
  (exists l, subnets_walk v (Z.to_nat (s_size s)) (s_begin s) (s_end s) = Ret l /\ Z.of_nat (length l) = s_size s /\
     forall i, (i < length l)%nat -> exists m, nth_error l i = Some m /\ nth_subnet v n q (Z.of_nat i) m) /\
  forall k, Z.of_nat k < s_size s -> subnets_walk v k (s_begin s) (s_end s) = UB OutOfFuel.
Proof.
  intros Q0 G. destruct (subnets_good _ _ _ _ _ _ _ W Ha Hq Hd Hs) as (R & Sk & Sz). rewrite Sz. destruct (subnets_loop v n q s W R Q0 Sk G) as ((l & E & Hl & Hi) & K).
  split; [|exact K]. exists l. split; [exact E|]. split; [|exact Hi]. rewrite Hl. apply Z2Nat.id. pose proof (pow2_pos (q - n_prefix n) ltac:(lia)). lia.
Qed.
Lemma sub_rloop : q <> 0 -> ~ subnets_short v n -> exists rb re, subnets_rbegin v s = Ret rb /\ subnets_rend v s = Ret re /\
  (exists l, subnets_rwalk v (Z.to_nat (s_size s)) rb re = Ret l /\ Z.of_nat (length l) = s_size s /\
     forall i, (i < length l)%nat -> exists m, nth_error l i = Some m /\ nth_subnet v n q (s_size s - 1 - Z.of_nat i) m) /\
  forall k, Z.of_nat k < s_size s -> subnets_rwalk v k rb re = UB OutOfFuel.
Proof.
  intros Q0 G. destruct (subnets_good _ _ _ _ _ _ _ W Ha Hq Hd Hs) as (R & Sk & Sz). rewrite Sz. destruct (subnets_rloop v n q s W R Q0 Sk G) as (rb & re & E1 & E2 & (l & E & Hl & Hi) & K).
  exists rb, re. split; [exact E1|]. split; [exact E2|]. split; [|exact K]. exists l. split; [exact E|]. split; [|exact Hi]. rewrite Hl. apply Z2Nat.id. pose proof (pow2_pos (q - n_prefix n) ltac:(lia)). lia.
Qed.
Lemma sub_loop_short : subnets_short v n ->
  (exists l, subnets_walk v (Z.to_nat (2 ^ q + s_size s)) (s_begin s) (s_end s) = Ret l /\ Z.of_nat (length l) = 2 ^ q + s_size s) /\
  forall k, Z.of_nat k < 2 ^ q + s_size s -> subnets_walk v k (s_begin s) (s_end s) = UB OutOfFuel.
Proof.
  intros G. destruct (subnets_good _ _ _ _ _ _ _ W Ha Hq Hd Hs) as (R & Sk & Sz). rewrite Sz. exact (subnets_loop_short v n q s W R Sk G).
Qed.
End Sub.

(** *** Witnesses *)
Ltac calc := lazymatch goal with |- _ /\ _ => split; [calc|calc] | |- @ex _ _ => eexists; calc | _ => vm_compute; reflexivity end.
Lemma top31 : wf_net V4 (net_at V4 "255.255.255.254/31") /\ hosts_short V4 (net_at V4 "255.255.255.254/31").
Proof. split; [wfn|]. split; [reflexivity|]. split; [reflexivity|]. right. reflexivity. Qed.
Lemma top64 : wf_net V6 (net_at V6 "ffff:ffff:ffff:ffff::/64") /\ hosts_short V6 (net_at V6 "ffff:ffff:ffff:ffff::/64").
Proof. split; [wfn|]. split; [reflexivity|]. split; [reflexivity|]. left. reflexivity. Qed.
Lemma hosts_forever : exists v n s, wf_net v n /\ hosts true v n = Ret s /\ hosts_size v s = 2 /\
  forall k, Z.of_nat k < 2 ^ 32 -> hosts_walk v k (h_begin s) (h_end s) = UB OutOfFuel.
Proof.
  destruct top31 as [W G]. destruct (hosts_exists true V4 _ W) as (s & E). exists V4, (net_at V4 "255.255.255.254/31"), s. split; [exact W|]. split; [exact E|].
  split; [rewrite (hosts_count true V4 _ s W E); reflexivity|]. intros k Hk. apply (hosts_loop_short true V4 _ s W E G). change (hosts_cnt V4 (net_at V4 "255.255.255.254/31")) with 2. change (2 ^ width V4) with (2 ^ 32). lia.
Qed.
Lemma hosts_forever6 : exists n s, wf_net V6 n /\ hosts true V6 n = Ret s /\ hosts_size V6 s = 2 ^ 64 - 1 /\
  forall k, Z.of_nat k < 2 ^ 128 -> hosts_walk V6 k (h_begin s) (h_end s) = UB OutOfFuel.
Proof.
  destruct top64 as [W G]. destruct (hosts_exists true V6 _ W) as (s & E). exists (net_at V6 "ffff:ffff:ffff:ffff::/64"), s. split; [exact W|]. split; [exact E|].
  split; [rewrite (hosts_count true V6 _ s W E); reflexivity|]. intros k Hk. apply (hosts_loop_short true V6 _ s W E G). change (hosts_cnt V6 (net_at V6 "ffff:ffff:ffff:ffff::/64")) with (2 ^ 64 - 1). change (2 ^ width V6) with (2 ^ 128). lia.
Qed.
Lemma hosts_rforever : exists v n s rb re, wf_net v n /\ hosts true v n = Ret s /\ hosts_size v s = 2 /\ hosts_rbegin v s = Ret rb /\ hosts_rend v s = Ret re /\
  forall k, Z.of_nat k < 2 ^ 32 -> hosts_rwalk v k rb re = UB OutOfFuel.
Proof.
  destruct top31 as [W G]. destruct (hosts_exists true V4 _ W) as (s & E). destruct (hosts_rloop_short true V4 _ s W E G) as (rb & re & E1 & E2 & K).
  exists V4, (net_at V4 "255.255.255.254/31"), s, rb, re. split; [exact W|]. split; [exact E|].
  split; [rewrite (hosts_count true V4 _ s W E); reflexivity|]. split; [exact E1|]. split; [exact E2|]. intros k Hk. apply K. change (hosts_cnt V4 (net_at V4 "255.255.255.254/31")) with 2. change (2 ^ width V4) with (2 ^ 32). lia.
Qed.
Definition ait_at_text (v : ver) (s : string) : ait := match ait_make v (addr_at v s) 0 with Ret a => a | _ => ait_default v end.
Arguments ait_at_text v s%string.
Lemma plus_negative : exists v it x y, wf_ait v it /\ ait_plus v it (-1) = Ret x /\ ait_minus v it 1 = Ret y /\ ait_eqb v x y = Ret false.
Proof.
  exists V4, (ait_at_text V4 "10.0.0.2"). do 2 eexists. split; [|split; [vm_compute; reflexivity|split; [vm_compute; reflexivity|vm_compute; reflexivity]]].
  split; [apply (addr_at_wf V4 "10.0.0.2"); reflexivity|]. split; [vm_compute; reflexivity|]. split; [vm_compute; reflexivity|]. left. vm_compute; reflexivity.
Qed.
Lemma diff_negative : exists v a b x, wf_ait v a /\ wf_ait v b /\ ait_plus v a (ait_diff v b a) = Ret x /\ ait_eqb v x b = Ret false.
Proof.
  exists V4, (ait_at_text V4 "10.0.0.2"), (ait_at_text V4 "10.0.0.1"). eexists. split; [|split; [|split; [vm_compute; reflexivity|vm_compute; reflexivity]]].
  - split; [apply (addr_at_wf V4 "10.0.0.2"); reflexivity|]. split; [vm_compute; reflexivity|]. split; [vm_compute; reflexivity|]. left. vm_compute; reflexivity.
  - split; [apply (addr_at_wf V4 "10.0.0.1"); reflexivity|]. split; [vm_compute; reflexivity|]. split; [vm_compute; reflexivity|]. left. vm_compute; reflexivity.
Qed.
Lemma net_diff_wrong : exists v n s x y, wf_net v n /\ subnets true v n 1 None = Ret s /\ nit_next v (s_begin s) = Ret x /\
  nit_diff v x (s_begin s) = 128 /\ nit_plus v (s_begin s) (nit_diff v x (s_begin s)) = Ret y /\ nit_eqb v y x = Ret false.
Proof.
  exists V4, (net_at V4 "10.0.0.0/24"). do 3 eexists. split; [wfn|]. split; [vm_compute; reflexivity|]. split; [vm_compute; reflexivity|]. split; [vm_compute; reflexivity|]. split; [vm_compute; reflexivity|]. vm_compute; reflexivity.
Qed.
Lemma sub_all_ub : exists v n, wf_net v n /\ n_prefix n = 0 /\ subnets true v n (width v) None = UB BadShift /\ subnets true v n 0 None = UB DivByZero.
Proof. exists V4, (net_at V4 "0.0.0.0/0"). split; [wfn|]. split; [vm_compute; reflexivity|]. split; reflexivity. Qed.
Lemma sub_all_ub6 : exists n, wf_net V6 n /\ n_prefix n = 0 /\ subnets true V6 n 128 None = UB BadShift.
Proof. exists (net_at V6 "::/0"). split; [wfn|]. split; reflexivity. Qed.
Lemma sub_forever : exists v n s, wf_net v n /\ subnets true v n 1 None = Ret s /\ s_size s = 2 /\
  forall k, Z.of_nat k < 2 ^ 25 -> subnets_walk v k (s_begin s) (s_end s) = UB OutOfFuel.
Proof.
  assert (W : wf_net V4 (net_at V4 "255.255.255.0/24")) by wfn.
  assert (A : args_ok 1 None) by (split; [unfold is_size; lia|exact I]).
  assert (Q : asked V4 (net_at V4 "255.255.255.0/24") 1 None 25) by (right; split; [vm_compute; reflexivity|]; exists 1; repeat split; discriminate).
  assert (D : defined V4 (net_at V4 "255.255.255.0/24") 25) by (split; [vm_compute; reflexivity|right; discriminate]).
  assert (G : subnets_short V4 (net_at V4 "255.255.255.0/24")) by (split; [vm_compute; reflexivity|split; reflexivity]).
  destruct (subnets_spec true V4 _ 1 None 25 W A Q (proj1 D) (proj2 D)) as (s & E & _ & Sz). exists V4, (net_at V4 "255.255.255.0/24"), s.
  split; [exact W|]. split; [exact E|]. split; [exact Sz|]. intros k Hk. apply (sub_loop_short true V4 _ 1 None 25 s W A Q D E G). rewrite Sz. change (2 ^ (25 - n_prefix (net_at V4 "255.255.255.0/24"))) with 2. lia.
Qed.
Lemma sub_stuck : exists n s, wf_net V6 n /\ subnets true V6 n 0 None = Ret s /\ s_size s = 1 /\ forall k, subnets_walk V6 k (s_begin s) (s_end s) = UB OutOfFuel.
Proof.
  assert (W : wf_net V6 (net_at V6 "::/0")) by wfn.
  assert (A : args_ok 0 None) by (split; [unfold is_size; lia|exact I]).
  assert (Q : asked V6 (net_at V6 "::/0") 0 None 0) by (right; split; [vm_compute; reflexivity|]; exists 0; repeat split; discriminate).
  destruct (subnets_spec true V6 _ 0 None 0 W A Q ltac:(reflexivity) ltac:(auto)) as (s & E & Sk & Sz). exists (net_at V6 "::/0"), s.
  split; [exact W|]. split; [exact E|]. split; [exact Sz|]. intros k. apply (subnets_loop_zero V6 (net_at V6 "::/0")); auto.
Qed.
(** A difference that wraps around: no error, undefined behaviour (IPv4) or an
    unrelated error (IPv6). *)
Lemma sub_wrap : exists n, wf_net V4 n /\ n_prefix n < 32 /\ subnets true V4 n (2 ^ 64 - 1) None = UB BadShift.
Proof. exists (net_at V4 "10.0.0.0/8"). split; [wfn|]. split; reflexivity. Qed.
Lemma sub_wrap6 : exists n, wf_net V6 n /\ n_prefix n < 128 /\ subnets true V6 n (2 ^ 64 - 1) None = Err has_host_bits_set 0.
Proof. exists (net_at V6 "2001:db8::/32"). split; [wfn|]. split; reflexivity. Qed.
Lemma exclude_one : exists v n o s, wf_net v n /\ wf_net v o /\ subset v o n /\ n_prefix o = n_prefix n + 1 /\ address_exclude true v n o = Ret s /\
  exclude_walk true v 1 (e_begin s) (e_end s) = Ret [].
Proof.
  exists V4, (net_at V4 "0.0.0.0/31"), (net_at V4 "0.0.0.1/32"). eexists. split; [wfn|]. split; [wfn|]. split; [|split; [vm_compute; reflexivity|split; [vm_compute; reflexivity|vm_compute; reflexivity]]].
  intros x. unfold in_net. change (first (net_at V4 "0.0.0.0/31")) with 0. change (first (net_at V4 "0.0.0.1/32")) with 1. change (size V4 (net_at V4 "0.0.0.0/31")) with 2. change (size V4 (net_at V4 "0.0.0.1/32")) with 1. lia.
Qed.

(** *** Iterator laws in terms of positions *)
Lemma plus_position v it n : wf_ait v it -> is_i64 n ->
  (exists x, ait_plus v it n = Ret x /\ wf_ait v x /\ ait_pos v x = (ait_pos v it + n mod 2 ^ width v) mod (2 * 2 ^ width v)) /\
  (exists x, ait_minus v it n = Ret x /\ wf_ait v x /\ ait_pos v x = (ait_pos v it - n mod 2 ^ width v) mod (2 * 2 ^ width v)).
Proof.
  intros W Hn. split.
  - destruct (plus_ok v it n W Hn) as (x & E & Wx & Px). eauto.
  - destruct (minus_ok v it n W Hn) as (x & E & Wx & Px). eauto.
Qed.
Lemma exclude_all sp v n o : wf_net v n -> wf_net v o -> subset v o n -> n_prefix n < n_prefix o -> ~ is_one v o ->
  exists s l, address_exclude sp v n o = Ret s /\
    exclude_walk sp v (Z.to_nat (n_prefix o - n_prefix n)) (e_begin s) (e_end s) = Ret l /\
    Z.of_nat (length l) = n_prefix o - n_prefix n /\
    (forall i, (i < length l)%nat -> exists m, nth_error l i = Some m /\ wf_net v m /\ n_prefix m = n_prefix n + 1 + Z.of_nat i /\ disjoint v m o) /\
    (forall i j a b, (i < j)%nat -> nth_error l i = Some a -> nth_error l j = Some b -> disjoint v a b) /\
    (forall x, in_net v n x <-> in_net v o x \/ exists m, In m l /\ in_net v m x).
Proof.
  intros Wn Wo Hs Hp H1. destruct (exclude_list sp v n o Wn Wo Hs Hp H1) as (s & l & E & Ew & Len & Li & _). exists s, l. split; [exact E|]. split; [exact Ew|]. split; [exact Len|].
  split; [|split].
  - intros i Hi. destruct (Li i Hi) as (m & Em & Wm & _ & Pm & D & _). exists m. auto.
  - intros i j a b Hij Ha Hb. exact (listed_disjoint v n o l i j a b Wn Wo Li Len Hij Ha Hb).
  - intros x. exact (listed_cover v n o l x Wn Wo Hs Li Len).
Qed.
Lemma exclude_fuel sp v n o s : wf_net v n -> wf_net v o -> subset v o n -> n_prefix n < n_prefix o -> ~ is_one v o ->
  address_exclude sp v n o = Ret s -> forall k, Z.of_nat k < n_prefix o - n_prefix n -> exclude_walk sp v k (e_begin s) (e_end s) = UB OutOfFuel.
Proof.
  intros Wn Wo Hs Hp H1 E. destruct (exclude_list sp v n o Wn Wo Hs Hp H1) as (s' & l & E' & _ & _ & _ & K). rewrite E in E'. apply ret_inj in E'. subst s'. exact K.
Qed.
Lemma subnets_sized sp v n d np q : wf_net v n -> args_ok d np -> asked v n d np q -> defined v n q ->
  exists s, subnets sp v n d np = Ret s /\ s_size s = 2 ^ (q - n_prefix n).
Proof. intros W Ha Hq [H1 H2]. destruct (subnets_spec sp v n d np q W Ha Hq H1 H2) as (s & E & _ & Sz). eauto. Qed.

(** *** Every network listed by address_exclude is well formed *)
Definition xwf v (x : xit) : Prop := wf_net v (x_s1 x) /\ wf_net v (x_s2 x) /\ wf_net v (x_current x).
Lemma halves_wf sp v n a b : wf_net v n -> halves sp v n = Ret (a, b) -> wf_net v a /\ wf_net v b.
Proof.
  intros W. pose proof (width_pos v). assert (2 <= width v) by (destruct v; cbn [width]; lia). assert (0 <= n_prefix n <= width v) by apply W.
  assert (X : exists q, asked v n 1 None q /\ q - n_prefix n < width v /\ q <> 0).
  { destruct (Z.eq_dec (n_prefix n) (width v)) as [E|E].
    - exists (width v). split; [left; auto|lia].
    - exists (n_prefix n + 1). split; [right; split; [lia|]; exists 1; repeat split; lia|lia]. }
  destruct X as (q & Hq & Q1 & Q2). destruct (subnets_spec sp v n 1 None q W ltac:(split; [unfold is_size; lia|exact I]) Hq Q1 (or_intror Q2)) as (s & E & (Wb & _) & _).
  unfold halves. rewrite E. cbn [bind]. unfold subnets_at. destruct (nit_add_ok v _ 0 Wb) as (x & -> & Mx). cbn [bind]. destruct (nit_add_ok v _ 1 Wb) as (y & -> & My). cbn [bind].
  intros K. apply ret_inj in K. injection K as <- <-. split; [apply Mx|apply My].
Qed.
Lemma xit_next_wf sp v x y : xwf v x -> xit_next sp v x = Ret y -> xwf v y.
Proof.
  destruct x as [o s1 s2 c]. intros (W1 & W2 & Wc). cbn [x_s1 x_s2 x_current] in *. unfold xit_next. cbn [x_s1 x_s2 x_current x_other].
  assert (D : xwf v (xit_default v)) by (split; [|split]; apply net_default_wf).
  destruct (net_eqb v s1 o) as [e1| |]; try discriminate. cbn [bind]. destruct (net_eqb v s2 o) as [e2| |]; try discriminate. cbn [bind].
  destruct (negb e1 && negb e2).
  - destruct (subnet_of sp v o s1) as [[|]| |]; try discriminate; cbn [bind].
    + destruct (net_eqb v c s2) as [[|]| |]; try discriminate; cbn [bind negb]; [intros K; apply ret_inj in K; subst y; exact D|].
      destruct (halves sp v s1) as [[a b]| |] eqn:E; try discriminate. cbn [bind]. intros K. apply ret_inj in K. subst y. destruct (halves_wf _ _ _ _ _ W1 E). split; [|split]; assumption.
    + destruct (subnet_of sp v o s2) as [[|]| |]; try discriminate; cbn [bind].
      destruct (net_eqb v c s1) as [[|]| |]; try discriminate; cbn [bind negb]; [intros K; apply ret_inj in K; subst y; exact D|].
      destruct (halves sp v s2) as [[a b]| |] eqn:E; try discriminate. cbn [bind]. intros K. apply ret_inj in K. subst y. destruct (halves_wf _ _ _ _ _ W2 E). split; [|split]; assumption.
  - destruct e1; [|destruct e2; [|discriminate]].
    + destruct (net_eqb v c s2) as [[|]| |]; try discriminate; cbn [bind negb]; intros K; apply ret_inj in K; subst y; [exact D|]. split; [|split]; assumption.
    + destruct (net_eqb v c s1) as [[|]| |]; try discriminate; cbn [bind negb]; intros K; apply ret_inj in K; subst y; [exact D|]. split; [|split]; assumption.
Qed.
Lemma exclude_walk_wf sp v : forall k x e l, xwf v x -> exclude_walk sp v k x e = Ret l -> Forall (wf_net v) l.
Proof.
  unfold exclude_walk. induction k as [|k IH]; intros x e l W; cbn [walk]; destruct (xit_eqb v x e) as [[|]| |]; try discriminate; cbn [bind].
  - intros K. apply ret_inj in K. subst l. constructor.
  - intros K. apply ret_inj in K. subst l. constructor.
  - destruct (xit_next sp v x) as [y| |] eqn:E; try discriminate. cbn [bind]. destruct (walk _ _ _ k y e) as [r| |] eqn:R; try discriminate. cbn [bind].
    intros K. apply ret_inj in K. subst l. constructor; [apply W|]. exact (IH _ _ _ (xit_next_wf _ _ _ _ W E) R).
Qed.
Lemma exclude_elements_wf sp v n o s k l : wf_net v n -> wf_net v o -> address_exclude sp v n o = Ret s ->
  exclude_walk sp v k (e_begin s) (e_end s) = Ret l -> Forall (wf_net v) l.
Proof.
  intros Wn Wo Hs Hw. apply (exclude_walk_wf sp v k _ _ _) in Hw; [exact Hw|]. clear Hw. revert Hs. destruct (bare_ok v n Wn) as (Wbn & _). destruct (bare_ok v o Wo) as (Wbo & _).
  assert (D : xwf v (xit_default v)) by (split; [|split]; apply net_default_wf).
  unfold address_exclude, exclude_code. rewrite !remove_scope_net_ok by assumption. cbn [bind]. destruct (subnet_of sp v (bare v o) (bare v n)) as [[|]| |]; try discriminate; cbn [bind negb].
  destruct (net_eqb v (bare v n) (bare v o)) as [[|]| |]; try discriminate; cbn [bind]; [intros K; apply ret_inj in K; subst s; exact D|].
  unfold xit_make. destruct (halves sp v (bare v n)) as [[a b]| |] eqn:E; try discriminate. cbn [bind]. destruct (halves_wf _ _ _ _ _ Wbn E) as [Wa Wb].
  destruct (xit_next sp v _) as [y| |] eqn:X; try discriminate. cbn [bind]. intros K. apply ret_inj in K. subst s. apply xit_next_wf in X; [exact X|]. split; [|split]; assumption.
Qed.
