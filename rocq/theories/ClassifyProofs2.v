(** Classification of networks against that of their addresses. *)
From Coq Require Import String.
From Verif Require Import Base Tac V4Model V6Model AddressModel SpecText SpecAddr SpecStr SpecV4 SpecOrder NetworkModel SpecNet SpecClass ClassifyModel
  V6Lemmas AddressProofs NetProofs NetProofs2 NetProofs3 NetWitness ClassifyProofs.

Lemma in_first v n : wf_net v n -> in_net v n (first n).
Proof. intros W. pose proof (net_top v n W). unfold in_net. lia. Qed.
Lemma in_last v n : wf_net v n -> in_net v n (first n + size v n - 1).
Proof. intros W. pose proof (net_top v n W). unfold in_net. lia. Qed.
Lemma in_addr v n x : wf_net v n -> in_net v n x -> wf_addr v (addr_of v x) /\ val (addr_of v x) = x.
Proof. intros W H. pose proof (net_top v n W). unfold in_net in H. assert (R : 0 <= x < 2 ^ width v) by lia. split; [apply addr_of_wf|apply addr_of_val]; exact R. Qed.
Lemma every_iff v n f (P : Z -> Prop) : wf_net v n -> (forall a, wf_addr v a -> (f a = true <-> P (val a))) -> (every v n f <-> forall x, in_net v n x -> P x).
Proof.
  intros W H. split.
  - intros E x Hx. destruct (in_addr v n x W Hx) as [Wa Va]. rewrite <- Va. apply H; [exact Wa|]. apply E; [exact Wa|]. rewrite Va. exact Hx.
  - intros E a Wa Ha. apply H; auto.
Qed.
Lemma both_iff v n f (P : Z -> Prop) : wf_net v n -> (forall a, wf_addr v a -> (f a = true <-> P (val a))) ->
  (both_ends f n = true <-> P (first n) /\ P (first n + size v n - 1)).
Proof.
  intros W H. unfold both_ends. destruct (broadcast_spec v n W) as (Wb & Vb & _). rewrite andb_true_iff, H, (H (broadcast n)), Vb by (exact Wb || apply W). reflexivity.
Qed.
(** One range: the ends decide. *)
Lemma ends_within v n r : wf_net v n -> (within r (first n) /\ within r (first n + size v n - 1) <-> forall x, in_net v n x -> within r x).
Proof.
  intros W. split.
  - unfold within, in_net. lia.
  - intros H. split; apply H; [apply in_first|apply in_last]; exact W.
Qed.
Lemma one_range v n f r : wf_net v n -> (forall a, wf_addr v a -> (f a = true <-> within r (val a))) -> (both_ends f n = true <-> every v n f).
Proof. intros W H. rewrite (both_iff v n f (within r)), (every_iff v n f (within r)) by assumption. apply ends_within. exact W. Qed.
Lemma net_multicast v n : wf_net v n -> (net_is_multicast v n = true <-> every v n (is_multicast v)).
Proof. intros W. eapply one_range; [exact W|]. intros a Wa. apply multicast_ok. exact Wa. Qed.
Lemma net_loopback v n : wf_net v n -> (net_is_loopback v n = true <-> every v n (is_loopback v)).
Proof. intros W. eapply one_range; [exact W|]. intros a Wa. apply loopback_ok. exact Wa. Qed.
Lemma net_link_local v n : wf_net v n -> (net_is_link_local v n = true <-> every v n (is_link_local v)).
Proof. intros W. eapply one_range; [exact W|]. intros a Wa. apply link_local_ok. exact Wa. Qed.
Lemma net_unspecified v n : wf_net v n -> (net_is_unspecified n = true <-> every v n is_unspecified).
Proof. intros W. eapply one_range; [exact W|]. intros a Wa. apply (unspecified_ok v). exact Wa. Qed.
Lemma net_site_local n : wf_net V6 n -> (v6_net_is_site_local n = true <-> every V6 n v6_is_site_local).
Proof. intros W. eapply one_range; [exact W|]. intros a Wa. apply site_local_ok. exact Wa. Qed.
Lemma net_reserved4 n : wf_net V4 n -> (net_is_reserved V4 n = true <-> every V4 n (is_reserved V4)).
Proof. intros W. eapply one_range; [exact W|]. intros a Wa. rewrite (reserved_ok V4) by exact Wa. apply in_ranges_one. Qed.

(** The unallocated IPv6 ranges: the ends decide except for ::/1. *)
Lemma reserved_cases x : in_ranges v6_reserved_ranges x <->
  0 <= x < 42535295865117307932921825928971026432 \/ 85070591730234615865843651857942052864 <= x < 334965454937798799971759379190646833152 \/
  337623910929368631717566993311207522304 <= x < 338288524927261089654018896841347694592.
Proof.
  unfold v6_reserved_ranges. rewrite !in_ranges_cons. pose proof (in_ranges_nil x) as N. change (@nil (Z * Z)) with (@nil range). rewrite !(or_iff _ N). unfold within. cbn [fst snd].
  repeat match goal with |- context [grp ?a ?b] => let c := eval vm_compute in (grp a b) in change (grp a b) with c end. reflexivity.
Qed.
Lemma aligned_ex v n : wf_net v n -> exists k, first n = k * size v n.
Proof. intros (_ & _ & _ & P & _ & A). pose proof (size_pos v n P). exists (first n / size v n). pose proof (Z.div_mod (first n) (size v n)). nia. Qed.
Lemma net_reserved6 n : wf_net V6 n -> ~ half_space n -> (net_is_reserved V6 n = true <-> every V6 n (is_reserved V6)).
Proof.
  intros W G. unfold net_is_reserved. rewrite (both_iff V6 n _ (in_ranges v6_reserved_ranges) W) by (intros a Wa; apply (reserved_ok V6 a Wa)).
  rewrite (every_iff V6 n _ (in_ranges v6_reserved_ranges) W) by (intros a Wa; apply (reserved_ok V6 a Wa)). split.
  - intros [A B] x Hx. rewrite reserved_cases in *. unfold in_net in Hx.
    assert (P : 0 <= n_prefix n) by apply W. destruct (aligned_ex V6 n W) as [k Ek]. pose proof (net_top V6 n W) as (F0 & S0 & T). cbn [width] in T. change (2 ^ 128) with 340282366920938463463374607431768211456 in T.
    destruct (Z.le_gt_cases (n_prefix n) 6) as [P6|P6].
    + unfold half_space in G.
      assert (Q : n_prefix n = 0 \/ n_prefix n = 1 \/ n_prefix n = 2 \/ n_prefix n = 3 \/ n_prefix n = 4 \/ n_prefix n = 5 \/ n_prefix n = 6) by lia.
      revert A B Hx Ek T G. unfold size. generalize (first n) as f. cbn [width]. clear - Q. intros f.
      destruct Q as [->|[->|[->|[->|[->|[->| ->]]]]]];
        match goal with |- context [2 ^ ?b] => let c := eval vm_compute in (2 ^ b) in change (2 ^ b) with c end; intros; lia.
    + assert (C : size V6 n <= 2 ^ 121) by (unfold size; cbn [width]; apply Z.pow_le_mono_r; lia). change (2 ^ 121) with 2658455991569831745807614120560689152 in C.
      clear - A B Hx C. revert A B Hx C. generalize (first n) (size V6 n). intros f s. lia.
  - intros H. split; apply H; [apply in_first|apply in_last]; exact W.
Qed.

(** *** Private networks *)
Lemma net_private_spec v n : wf_net v n ->
  (net_is_private v n = true <-> exists r, In r (match v with V4 => v4_private_ranges | V6 => v6_private_ranges end) /\ forall x, in_net v n x -> within r x).
Proof.
  intros W. rewrite <- private_rngs. unfold net_is_private. rewrite existsb_exists. pose proof (private_wf v) as Wp. rewrite Forall_forall in Wp.
  destruct (broadcast_spec v n W) as (Wb & Vb & _). split.
  - intros (m & Hm & K). apply andb_true_iff in K as [A B]. exists (rng v m). split; [apply in_map; exact Hm|].
    apply (contains_within v m _ _ (Wp m Hm) (proj1 W) eq_refl) in A. apply (contains_within v m _ _ (Wp m Hm) Wb eq_refl) in B. rewrite Vb in B. apply (ends_within v n); auto.
  - intros (r & Hr & K). apply in_map_iff in Hr as (m & <- & Hm). exists m. split; [exact Hm|]. apply (ends_within v n) in K as [A B]; [|exact W].
    apply andb_true_iff. split; [apply (contains_within v m (rng v m) _ (Wp m Hm) (proj1 W) eq_refl); exact A|].
    apply (contains_within v m (rng v m) _ (Wp m Hm) Wb eq_refl). rewrite Vb. exact B.
Qed.
(** Ranges none of which ends where another one starts or goes on. *)
Definition in_rangesb (l : list range) (x : Z) : bool := existsb (fun r => (fst r <=? x) && (x <? snd r)) l.
Lemma in_rangesb_ok l x : in_rangesb l x = true <-> in_ranges l x.
Proof.
  unfold in_rangesb, in_ranges. rewrite existsb_exists. split.
  - intros ([lo hi] & H & K). cbn [fst snd] in K. exists lo, hi. split; [exact H|lia].
  - intros (lo & hi & H & K). exists (lo, hi). split; [exact H|]. cbn [fst snd]. lia.
Qed.
Lemma single_range v n l : wf_net v n -> forallb (fun r => (2 ^ width v <=? snd r) || negb (in_rangesb l (snd r))) l = true ->
  (forall x, in_net v n x -> in_ranges l x) -> exists r, In r l /\ forall x, in_net v n x -> within r x.
Proof.
  intros W Sep H. destruct (H (first n) (in_first v n W)) as (lo & hi & Hin & K). exists (lo, hi). split; [exact Hin|].
  rewrite forallb_forall in Sep. pose proof (Sep _ Hin) as E. cbn [snd] in E. pose proof (net_top v n W) as (F0 & S0 & T).
  intros x Hx. unfold within, in_net in *. cbn [fst snd]. destruct (Z.lt_ge_cases x hi) as [L|L]; [lia|exfalso].
  apply orb_true_iff in E as [E|E]; [apply Z.leb_le in E; lia|]. apply negb_true_iff in E. rewrite <- not_true_iff_false in E. apply E. apply in_rangesb_ok. apply H. lia.
Qed.
Lemma net_private4 n : wf_net V4 n -> (net_is_private V4 n = true <-> every V4 n v4_is_private).
Proof.
  intros W. rewrite (net_private_spec V4 n W). rewrite (every_iff V4 n _ (in_ranges v4_private_ranges) W).
  - split.
    + intros (r & Hr & H) x Hx. exists (fst r), (snd r). split; [destruct r; exact Hr|]. apply H. exact Hx.
    + apply single_range; [exact W|vm_compute; reflexivity].
  - intros a Wa. destruct (v4_private_ok a Wa) as [P _]. rewrite <- P. cbn [is_private]. split; [intros ->; reflexivity|intros K; apply ret_inj in K; exact K].
Qed.
Definition v6_maximal : list range := [(1, 2); (0, 1); (0xFFFF * 2 ^ 32, 0x10000 * 2 ^ 32); blk6 0x100 0 64; blk6 0x2001 0 23; blk6 0x2001 0xDB8 32; blk6 0xFC00 0 7; blk6 0xFE80 0 10].
Lemma v6_maximal_ok x : in_ranges v6_private_ranges x <-> in_ranges v6_maximal x.
Proof.
  unfold v6_private_ranges, v6_maximal. rewrite !in_ranges_cons. pose proof (in_ranges_nil x) as N. change (@nil (Z * Z)) with (@nil range). rewrite !(or_iff _ N). clear N. unfold within, blk6. cbn [fst snd].
  repeat match goal with |- context [grp ?a ?b] => let c := eval vm_compute in (grp a b) in change (grp a b) with c end.
  repeat match goal with |- context [?a * 2 ^ ?b] => let c := eval vm_compute in (a * 2 ^ b) in change (a * 2 ^ b) with c end.
  repeat match goal with |- context [2 ^ ?b] => let c := eval vm_compute in (2 ^ b) in change (2 ^ b) with c end. lia.
Qed.
Lemma net_private6_table n : wf_net V6 n -> ~ first_two n -> (net_is_private V6 n = true <-> forall x, in_net V6 n x -> in_ranges v6_private_ranges x).
Proof.
  intros W G. rewrite (net_private_spec V6 n W). split.
  - intros (r & Hr & H) x Hx. exists (fst r), (snd r). split; [destruct r; exact Hr|]. apply H. exact Hx.
  - intros H. pose proof (net_top V6 n W) as (F0 & S0 & T).
    assert (X : forall x, in_net V6 n x -> in_ranges v6_maximal x) by (intros x Hx; apply v6_maximal_ok; auto). clear H.
    assert (Y : exists r, In r v6_maximal /\ forall x, in_net V6 n x -> within r x).
    { destruct (Z.eq_dec (first n) 0) as [E|E].
      - exists (0, 1). split; [right; left; reflexivity|]. destruct (Z.lt_ge_cases (size V6 n) 2) as [L|L]; [unfold in_net, within; cbn [fst snd]; lia|exfalso].
        destruct (Z.eq_dec (size V6 n) 2) as [E2|E2].
        + apply G. split; [|exact E]. unfold size in E2. cbn [width] in E2. change 2 with (2 ^ 1) in E2 at 2. assert (P : 0 <= n_prefix n <= width V6) by apply W. cbn [width] in P. apply Z.pow_inj_r in E2; lia.
        + assert (K : in_ranges v6_maximal 2) by (apply X; unfold in_net; lia). apply in_rangesb_ok in K. vm_compute in K. discriminate.
      - destruct (X (first n) (in_first V6 n W)) as (lo & hi & Hin & K). exists (lo, hi). split; [exact Hin|]. intros x Hx. unfold within, in_net in *. cbn [fst snd].
        destruct (Z.lt_ge_cases x hi) as [L|L]; [lia|exfalso].
        assert (Z0 : in_ranges v6_maximal hi) by (apply X; lia). apply in_rangesb_ok in Z0. clear - Hin Z0 K E F0.
        assert (Q : hi = 1 \/ in_rangesb v6_maximal hi = false).
        { destruct Hin as [Hi|[Hi|Hi]]; [right|left|right]; [injection Hi as <- <-; vm_compute; reflexivity|injection Hi as <- <-; reflexivity|].
          repeat (destruct Hi as [Hi|Hi]; [injection Hi as <- <-; vm_compute; reflexivity|]). destruct Hi. }
        destruct Q as [Q|Q]; [|congruence].
        destruct Hin as [Hi|[Hi|Hi]]; [injection Hi as <- <-; lia|injection Hi as <- <-; lia|]. repeat (destruct Hi as [Hi|Hi]; [injection Hi as <- <-; vm_compute in Q; discriminate|]). destruct Hi. }
    destruct Y as (r & Hr & Y). exists r. split; [|exact Y]. clear - Hr. unfold v6_maximal, v6_private_ranges in *. cbn [In] in *. tauto.
Qed.
Definition v6_private_b (a : addr) : bool := match is_private V6 a with Ret b => b | _ => false end.
Lemma net_private6 n : wf_net V6 n -> ~ first_two n -> (forall x, in_net V6 n x -> ~ looks_mapped x) -> (net_is_private V6 n = true <-> every V6 n v6_private_b).
Proof.
  intros W G M. rewrite (net_private6_table n W G). split.
  - intros H a Wa Ha. destruct (v6_private_ok a Wa) as (b & E & _ & K). unfold v6_private_b. rewrite E. apply K. right. auto.
  - intros H x Hx. destruct (in_addr V6 n x W Hx) as [Wa Va]. destruct (v6_private_ok _ Wa) as (b & E & _ & K). rewrite Va in K.
    assert (Hb : b = true). { specialize (H _ Wa). rewrite Va in H. specialize (H Hx). unfold v6_private_b in H. rewrite E in H. exact H. }
    apply K in Hb as [[L _]|[_ R]]; [destruct (M x Hx L)|exact R].
Qed.

(** *** Refutations *)
Lemma odd_mapped : exists a, wf_addr V6 a /\ ~ v4_mapped (val a) /\ in_ranges v6_private_ranges (val a) /\ is_private V6 a = Ret false /\ is_global V6 a = Ret true.
Proof.
  exists (addr_at V6 "2001:db8::ffff:8.8.8.8"). split; [wfn|]. split; [|split; [|split; vm_compute; reflexivity]].
  - intros [_ K]. vm_compute in K. discriminate.
  - apply in_rangesb_ok. vm_compute. reflexivity.
Qed.
Lemma two_private : exists n, wf_net V6 n /\ net_is_private V6 n = false /\ every V6 n v6_private_b.
Proof.
  exists (net_at V6 "::/127"). split; [wfn|]. split; [vm_compute; reflexivity|]. intros a Wa Ha.
  destruct (v6_private_ok a Wa) as (b & E & _ & K). unfold v6_private_b. rewrite E. apply K. right.
  assert (V : val a = 0 \/ val a = 1). { unfold in_net in Ha. change (first (net_at V6 "::/127")) with 0 in Ha. change (size V6 (net_at V6 "::/127")) with 2 in Ha. lia. }
  destruct V as [-> | ->]; (split; [vm_compute; discriminate|apply in_rangesb_ok; vm_compute; reflexivity]).
Qed.
Lemma mapped_private : exists n a, wf_net V6 n /\ wf_addr V6 a /\ in_net V6 n (val a) /\ net_is_private V6 n = true /\ is_private V6 a = Ret false.
Proof.
  exists (net_at V6 "::ffff:0:0/96"), (addr_at V6 "::ffff:8.8.8.8"). split; [wfn|]. split; [wfn|]. split; [vm_compute; split; congruence|]. split; vm_compute; reflexivity.
Qed.
Lemma half_reserved : exists n a, wf_net V6 n /\ wf_addr V6 a /\ in_net V6 n (val a) /\ net_is_reserved V6 n = true /\ is_reserved V6 a = false.
Proof.
  exists (net_at V6 "::/1"), (addr_at V6 "2000::"). split; [wfn|]. split; [wfn|]. split; [vm_compute; split; congruence|]. split; vm_compute; reflexivity.
Qed.
(** IPv4-mapped addresses. *)
Lemma mapped_inherit a : wf_addr V6 a -> v4_mapped (val a) -> exists q, wf_addr V4 q /\ val q = val a mod 2 ^ 32 /\ is_private V6 a = is_private V4 q.
Proof.
  intros W M. assert (R : 0 <= val a mod 2 ^ 32 < 2 ^ width V4) by (apply Z.mod_pos_bound; reflexivity). exists (addr_of V4 (val a mod 2 ^ 32)). pose proof (addr_of_wf V4 _ R) as Wq. pose proof (addr_of_val V4 _ R) as Vq.
  split; [exact Wq|]. split; [exact Vq|]. destruct (v6_private_ok a W) as (b & E & _ & K). destruct (v4_private_ok _ Wq) as [P (c & Ec)]. rewrite E, Ec. rewrite Ec, Vq in P. f_equal.
  assert (L : looks_mapped (val a)). { unfold looks_mapped. unfold v4_mapped in M. replace (val a / 2 ^ 32) with 0xFFFF; [reflexivity|]. apply Z.div_unique with (val a - 0xFFFF * 2 ^ 32); lia. }
  apply eq_true_iff_eq. rewrite K. split.
  - intros [[_ X]|[X _]]; [|destruct (X L)]. apply P in X. apply ret_inj in X. exact X.
  - intros ->. left. split; [exact L|]. apply P. reflexivity.
Qed.
(** Networks: is_global. *)
Lemma net_global4 n : wf_net V4 n -> (net_is_global V4 n = true <-> ~ (forall x, in_net V4 n x -> within v4_shared x) /\ net_is_private V4 n = false).
Proof.
  intros W. destruct (broadcast_spec V4 n W) as (Wb & Vb & _). cbn [net_is_global]. rewrite andb_true_iff, !negb_true_iff. rewrite <- (ends_within V4 n v4_shared W), <- not_true_iff_false, andb_true_iff.
  rewrite (public_ok (n_addr n)) by apply W. rewrite (public_ok (broadcast n)) by exact Wb. rewrite Vb. reflexivity.
Qed.
