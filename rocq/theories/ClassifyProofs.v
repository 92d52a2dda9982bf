(** Proofs about the classification predicates. *)
From Coq Require Import String.
From Verif Require Import Base Tac V4Model V6Model AddressModel SpecText SpecAddr SpecStr SpecV4 SpecOrder NetworkModel SpecNet SpecClass ClassifyModel
  V6Lemmas AddressProofs NetProofs NetProofs2 NetProofs3 NetWitness.

Definition rng (v : ver) (n : net) : range := (first n, first n + size v n).
Lemma entry_wf v s : forallb is_charb (codes s) = true -> wf_net v (entry v s).
Proof. exact (net_at_wf v s). Qed.
Definition parses v s : bool := match net_parse v (chars (codes s)) true with Ret _ => true | _ => false end.
Lemma tables_parse : forall v, forallb (parses v) (private_texts v) = true /\ forallb (parses v) (reserved_texts v) = true /\
  parses v (multicast_text v) = true /\ parses v (link_local_text v) = true /\ parses V4 public_text = true /\ parses V4 loopback_text = true /\ parses V6 site_local_text = true.
Proof. intros []; repeat split; vm_compute; reflexivity. Qed.
Lemma table_wf v l : forallb (fun s => forallb is_charb (codes s)) l = true -> Forall (wf_net v) (map (entry v) l).
Proof. intros H. rewrite Forall_map, Forall_forall. intros s Hs. rewrite forallb_forall in H. apply entry_wf. auto. Qed.
Lemma private_wf v : Forall (wf_net v) (private_nets v). Proof. apply table_wf. destruct v; vm_compute; reflexivity. Qed.
Lemma reserved_wf v : Forall (wf_net v) (reserved_nets v). Proof. apply table_wf. destruct v; vm_compute; reflexivity. Qed.
Lemma private_rngs v : map (rng v) (private_nets v) = match v with V4 => v4_private_ranges | V6 => v6_private_ranges end.
Proof. destruct v; vm_compute; reflexivity. Qed.
Definition v6_reserved_blocks : list range :=
  [blk6 0 0 8; blk6 0x100 0 8; blk6 0x200 0 7; blk6 0x400 0 6; blk6 0x800 0 5; blk6 0x1000 0 4; blk6 0x4000 0 3; blk6 0x6000 0 3; blk6 0x8000 0 3;
   blk6 0xA000 0 3; blk6 0xC000 0 3; blk6 0xE000 0 4; blk6 0xF000 0 5; blk6 0xF800 0 6; blk6 0xFE00 0 9].
Lemma reserved_rngs v : map (rng v) (reserved_nets v) = match v with V4 => [v4_reserved] | V6 => v6_reserved_blocks end.
Proof. destruct v; vm_compute; reflexivity. Qed.
Lemma in_rng v n x : in_net v n x <-> within (rng v n) x. Proof. reflexivity. Qed.
Lemma in_ranges_cons r l x : in_ranges (r :: l) x <-> within r x \/ in_ranges l x.
Proof.
  unfold in_ranges, within. split.
  - intros (lo & hi & [->|H] & K); [left; exact K|right; eauto].
  - intros [K|(lo & hi & H & K)]; [exists (fst r), (snd r); split; [left; destruct r; reflexivity|exact K]|exists lo, hi; split; [right; exact H|exact K]].
Qed.
Lemma in_ranges_nil x : ~ in_ranges [] x. Proof. intros (lo & hi & [] & _). Qed.
Lemma in_ranges_one r x : in_ranges [r] x <-> within r x.
Proof. rewrite in_ranges_cons. split; [intros [H|H]; [exact H|destruct (in_ranges_nil x H)]|auto]. Qed.
Lemma contains_within v n r a : wf_net v n -> wf_addr v a -> rng v n = r -> (contains n a = true <-> within r (val a)).
Proof. intros W Wa <-. rewrite contains_spec by eassumption. reflexivity. Qed.
Lemma any_contains_spec v l a : Forall (wf_net v) l -> wf_addr v a -> (any_contains l a = true <-> in_ranges (map (rng v) l) (val a)).
Proof.
  intros H Wa. induction H as [|n l W _ IH]; cbn [map any_contains existsb].
  - split; [discriminate|]. intros K. destruct (in_ranges_nil _ K).
  - rewrite in_ranges_cons, orb_true_iff, (contains_within v n _ a W Wa eq_refl), <- IH. reflexivity.
Qed.
Ltac bool_iff := apply eq_true_iff_eq.

(** *** IPv4 *)
Lemma v4_private_ok a : wf_addr V4 a -> (is_private V4 a = Ret true <-> in_ranges v4_private_ranges (val a)) /\ exists b, is_private V4 a = Ret b.
Proof.
  intros W. cbn [is_private]. split; [|eauto]. unfold v4_is_private. rewrite <- (private_rngs V4), <- any_contains_spec by (apply private_wf || exact W). split; [intros K; apply ret_inj in K; exact K|intros ->; reflexivity].
Qed.
Lemma public_ok a : wf_addr V4 a -> (contains public_net a = true <-> within v4_shared (val a)).
Proof. intros W. apply (contains_within V4); [apply entry_wf; reflexivity|exact W|vm_compute; reflexivity]. Qed.
Lemma v4_global_ok a : wf_addr V4 a -> (is_global V4 a = Ret true <-> ~ in_ranges v4_private_ranges (val a) /\ ~ within v4_shared (val a)) /\ exists b, is_global V4 a = Ret b.
Proof.
  intros W. destruct (v4_private_ok a W) as [P _]. pose proof (public_ok a W) as S. cbn [is_private is_global] in *. split; [|eauto]. unfold v4_is_global.
  destruct (contains public_net a) eqn:E1, (v4_is_private a) eqn:E2; cbn [negb andb]; split; intros K; try discriminate; try reflexivity.
  - destruct K as [_ K]. destruct K. apply S. reflexivity.
  - destruct K as [_ K]. destruct K. apply S. reflexivity.
  - destruct K as [K _]. destruct K. apply P. reflexivity.
  - split; intros X; [apply P in X|apply S in X]; discriminate.
Qed.
Definition disjointb (r s : range) : bool := (snd r <=? fst s) || (snd s <=? fst r).
Lemma disjoint_ranges l r x : forallb (disjointb r) l = true -> in_ranges l x -> within r x -> False.
Proof.
  intros H (lo & hi & Hin & K) [A B]. rewrite forallb_forall in H. apply H in Hin. unfold disjointb in Hin. cbn [fst snd] in Hin. apply orb_true_iff in Hin. destruct Hin as [Hin|Hin]; apply Z.leb_le in Hin; lia.
Qed.
Lemma v4_exactly_one a : wf_addr V4 a ->
  (is_private V4 a = Ret true /\ is_global V4 a = Ret false /\ ~ within v4_shared (val a)) \/
  (is_private V4 a = Ret false /\ is_global V4 a = Ret true /\ ~ within v4_shared (val a)) \/
  (is_private V4 a = Ret false /\ is_global V4 a = Ret false /\ within v4_shared (val a)).
Proof.
  intros W. destruct (v4_private_ok a W) as [P [p Ep]]. destruct (v4_global_ok a W) as [G [g Eg]]. rewrite Ep, Eg in *.
  assert (D : in_ranges v4_private_ranges (val a) -> within v4_shared (val a) -> False) by (apply disjoint_ranges; vm_compute; reflexivity).
  assert (Dec : within v4_shared (val a) \/ ~ within v4_shared (val a)) by (unfold within; lia).
  destruct p, g.
  - destruct (proj1 G eq_refl) as [K _]. destruct K. apply P. reflexivity.
  - left. split; [reflexivity|]. split; [reflexivity|]. exact (D (proj1 P eq_refl)).
  - right; left. split; [reflexivity|]. split; [reflexivity|]. exact (proj2 (proj1 G eq_refl)).
  - right; right. split; [reflexivity|]. split; [reflexivity|]. destruct Dec as [K|K]; [exact K|]. assert (X : Ret false = Ret true); [|discriminate]. apply G. split; [|exact K]. intros X. apply P in X. discriminate.
Qed.
Lemma multicast_ok v a : wf_addr v a -> (is_multicast v a = true <-> within (match v with V4 => v4_multicast | V6 => v6_multicast end) (val a)).
Proof. intros W. apply (contains_within v); [apply entry_wf; destruct v; reflexivity|exact W|destruct v; vm_compute; reflexivity]. Qed.
Lemma link_local_ok v a : wf_addr v a -> (is_link_local v a = true <-> within (match v with V4 => v4_link_local | V6 => v6_link_local end) (val a)).
Proof. intros W. apply (contains_within v); [apply entry_wf; destruct v; reflexivity|exact W|destruct v; vm_compute; reflexivity]. Qed.
Lemma site_local_ok a : wf_addr V6 a -> (v6_is_site_local a = true <-> within v6_site_local (val a)).
Proof.
  intros W. unfold v6_is_site_local. rewrite (contains_within V6 _ v6_site_local).
  - reflexivity.
  - apply entry_wf. reflexivity.
  - split; [apply W|]. split; [left; reflexivity|constructor].
  - vm_compute. reflexivity.
Qed.
Lemma be_pos b : Forall is_byte b -> 0 <= be_value b.
Proof. intros H. induction H as [|x b Hx Hb IH]; [cbn; lia|]. rewrite be_cons. unfold is_byte in Hx. pose proof (Z.pow_nonneg 256 (zlen b) ltac:(lia)). nia. Qed.
Lemma pow256_pos (b : list Z) : 0 < 256 ^ zlen b. Proof. apply Z.pow_pos_nonneg; [lia|unfold zlen; lia]. Qed.
Lemma forallb_zero b : Forall is_byte b -> (forallb (fun x => x =? 0) b = true <-> be_value b = 0).
Proof.
  intros H. induction H as [|x b Hx Hb IH]; [cbn; intuition|]. cbn [forallb]. rewrite be_cons, andb_true_iff, IH, Z.eqb_eq. pose proof (be_pos b Hb). pose proof (pow256_pos b).
  unfold is_byte in Hx. split; [intros [-> ->]; lia|]. intros E. nia.
Qed.
Lemma zeros_one b : b <> [] -> Forall is_byte b -> (zeros_then_one b = true <-> be_value b = 1).
Proof.
  intros N H. induction H as [|x b Hx Hb IH]; [congruence|]. destruct b as [|y b].
  - cbn [zeros_then_one]. rewrite be_cons. cbn [zlen length be_value horner fold_left]. rewrite Z.eqb_eq. change (256 ^ zlen []) with 1. change (be_value []) with 0. lia.
  - change (zeros_then_one (x :: y :: b)) with ((x =? 0) && zeros_then_one (y :: b)). rewrite andb_true_iff, IH by discriminate. rewrite (be_cons x), Z.eqb_eq. pose proof (be_pos _ Hb).
    unfold is_byte in Hx. assert (256 <= 256 ^ zlen (y :: b)). { change 256 with (256 ^ 1) at 1. apply Z.pow_le_mono_r; [lia|]. unfold zlen. cbn [length]. lia. }
    split; [intros [-> ->]; lia|]. intros E. assert (x = 0) by nia. subst x. lia.
Qed.
Lemma unspecified_ok v a : wf_addr v a -> (is_unspecified a = true <-> within unspecified (val a)).
Proof. intros [[_ H] _]. unfold is_unspecified. rewrite forallb_zero by exact H. fold (val a). unfold within, unspecified. cbn [fst snd]. lia. Qed.
Lemma loopback_ok v a : wf_addr v a -> (is_loopback v a = true <-> within (match v with V4 => v4_loopback | V6 => v6_loopback end) (val a)).
Proof.
  intros W. destruct v.
  - apply (contains_within V4); [apply entry_wf; reflexivity|exact W|vm_compute; reflexivity].
  - destruct W as [[L H] _]. cbn [is_loopback]. rewrite zeros_one; [|intros K; rewrite K in L; discriminate L|exact H]. fold (val a). unfold within, v6_loopback. cbn [fst snd]. lia.
Qed.
Lemma or_iff P : ~ P -> forall Q, Q \/ P <-> Q. Proof. tauto. Qed.
Lemma reserved_merge x : in_ranges v6_reserved_blocks x <-> in_ranges v6_reserved_ranges x.
Proof.
  unfold v6_reserved_blocks, v6_reserved_ranges. rewrite !in_ranges_cons. pose proof (in_ranges_nil x) as N. unfold within, blk6, grp. cbn [fst snd].
  repeat match goal with |- context [?a * 2 ^ ?b] => let c := eval vm_compute in (a * 2 ^ b) in change (a * 2 ^ b) with c end.
  repeat match goal with |- context [2 ^ ?b] => let c := eval vm_compute in (2 ^ b) in change (2 ^ b) with c end.
  change (@nil (Z * Z)) with (@nil range). rewrite !(or_iff _ N). clear N. lia.
Qed.
Lemma reserved_ok v a : wf_addr v a -> (is_reserved v a = true <-> in_ranges (match v with V4 => [v4_reserved] | V6 => v6_reserved_ranges end) (val a)).
Proof.
  intros W. unfold is_reserved. rewrite (any_contains_spec v) by (apply reserved_wf || exact W). rewrite reserved_rngs. destruct v; [reflexivity|apply reserved_merge].
Qed.

(** *** IPv6 is_private *)
Lemma v6_private_ok a : wf_addr V6 a -> exists b, is_private V6 a = Ret b /\ is_global V6 a = Ret (negb b) /\
  (b = true <-> (looks_mapped (val a) /\ in_ranges v4_private_ranges (val a mod 2 ^ 32)) \/ (~ looks_mapped (val a) /\ in_ranges v6_private_ranges (val a))).
Proof.
  intros W. cbn [is_private is_global]. unfold v6_is_private. destruct (v6_mapped_ok (a_bytes a) (proj1 W)) as (o & -> & Ho). cbn [bind]. fold (val a) in Ho. fold (looks_mapped (val a)) in Ho.
  destruct o as [q|].
  - destruct (proj1 (Ho q) eq_refl) as (L & Wq & Vq). exists (v4_is_private (mk_addr q [])). split; [reflexivity|]. split; [reflexivity|].
    assert (Wa : wf_addr V4 (mk_addr q [])) by (split; [exact Wq|reflexivity]).
    destruct (v4_private_ok _ Wa) as [P _]. cbn [is_private] in P. change (val (mk_addr q [])) with (be_value q) in P. rewrite Vq in P. split.
    + intros E. rewrite E in P. left. split; [exact L|]. apply P. reflexivity.
    + intros [[_ K]|[K _]]; [|destruct (K L)]. apply P in K. apply ret_inj in K. exact K.
  - exists (any_contains (private_nets V6) a). split; [reflexivity|]. split; [reflexivity|].
    assert (L : ~ looks_mapped (val a)).
    { intros L. assert (R : 0 <= val a mod 2 ^ 32 < 2 ^ width V4) by (apply Z.mod_pos_bound; reflexivity).
      assert (X : None = Some (a_bytes (addr_of V4 (val a mod 2 ^ 32)))); [|discriminate].
      apply Ho. split; [exact L|]. split; [apply (addr_of_wf V4 _ R)|exact (addr_of_val V4 _ R)]. }
    rewrite any_contains_spec by (apply private_wf || exact W). rewrite private_rngs. tauto.
Qed.
