(** IPv6 networks of whole halves on a big-endian host: the statements of C74. *)
From Coq Require Import String.
From Verif Require Import Base Tac UnicodeModel FixedStringModel V4Model V6Model Uint128Model SpecInt SpecText SpecAddr SpecStr SpecV4 SpecV6
  StrProofs BitProofs AddressModel SpecOrder AddressProofs NetworkModel SpecNet NetProofs NetProofs2 NetProofs3 NetLemmas IterModel SpecIter SpecAny NetWitness
  HostModel SpecEndian EndianProofs EndianProofs2 EndianProofs6.
Open Scope Z_scope.
Open Scope list_scope.

Lemma half_mask p : p = 0 \/ p = 64 \/ p = 128 -> mirror_addr V6 (mask_of V6 p) = mask_of V6 p.
Proof. intros [-> | [-> | ->]]; vm_compute; reflexivity. Qed.
Lemma half_bytes p : p = 0 \/ p = 64 \/ p = 128 -> mirror V6 (a_bytes (mask_of V6 p)) = a_bytes (mask_of V6 p).
Proof. intros H. pose proof (half_mask p H) as K. apply (f_equal a_bytes) in K. exact K. Qed.
Lemma and_bytes_ok a b : length a = length b -> length (and_bytes a b) = length a.
Proof. revert b. induction a as [|x a IH]; intros [|y b] L; cbn in *; try discriminate; [reflexivity|]. rewrite IH; lia. Qed.
Lemma mirror_len16 (bs : list Z) : length bs = 16%nat -> mirror V6 (mirror V6 bs) = bs.
Proof. intros L. do 17 (destruct bs as [|? bs]; try discriminate). reflexivity. Qed.
Lemma big_from_half a p s : wf_addr V6 a -> p = 0 \/ p = 64 \/ p = 128 ->
  from_address_h false V6 a p s = rmap (mirror_net V6) (from_address V6 (mirror_addr V6 a) p s).
Proof.
  intros W H. rewrite <- le_from_address. unfold from_address_h. change (ip_from_prefix_h false V6 p) with (ip_from_prefix V6 p). rewrite (le_prefix V6 p).
  assert (Hp : 0 <= p <= width V6) by (cbn; lia). rewrite (from_prefix_of V6 p Hp). cbn [bind strict_netmask_h]. pose proof (mask_of_wf V6 p Hp) as Wm.
  unfold v6_strict_netmask. pose proof (mirror_addr_ok V6 a W) as W'.
  assert (La : length (a_bytes a) = 16%nat) by apply W. assert (Lm : length (a_bytes (mask_of V6 p)) = 16%nat) by apply Wm.
  assert (La' : length (a_bytes (mirror_addr V6 a)) = 16%nat) by apply W'.
  rewrite !and_loop_ok by assumption. cbn [bind].
  assert (E : and_bytes (a_bytes (mirror_addr V6 a)) (a_bytes (mask_of V6 p)) = mirror V6 (and_bytes (a_bytes a) (a_bytes (mask_of V6 p)))).
  { rewrite mirror_and by lia. rewrite (half_bytes p H). reflexivity. }
  rewrite E. set (c := and_bytes (a_bytes a) _) in *. assert (Lc : length c = 16%nat) by (unfold c; rewrite and_bytes_ok; lia).
  assert (Q : list_eqb (mirror V6 c) (a_bytes (mirror_addr V6 a)) = list_eqb c (a_bytes a)).
  { apply Bool.eq_true_iff_eq. rewrite !list_eqb_eq. cbn [mirror_addr a_bytes]. split; [|intros ->; reflexivity].
    intros K. apply (f_equal (mirror V6)) in K. rewrite !mirror_len16 in K by assumption. exact K. }
  rewrite Q. destruct (list_eqb c (a_bytes a)); cbn [negb bind rmap].
  - unfold mirror_net. cbn [n_addr n_mask n_prefix]. rewrite (half_mask p H). do 2 f_equal. unfold mirror_addr. cbn [a_bytes a_scope]. rewrite mirror_len16 by assumption. reflexivity.
  - destruct s; cbn [bind rmap]; [reflexivity|]. unfold mirror_net. cbn [n_addr n_mask n_prefix]. rewrite (half_mask p H). do 2 f_equal. unfold mirror_addr. cbn [a_bytes a_scope].
    rewrite mirror_len16 by assumption. reflexivity.
Qed.
Lemma big_supernet_half n p : bytes_net V6 n -> n_prefix n <= 128 -> 0 < p <= n_prefix n -> p = 64 \/ p = 128 ->
  supernet_h false V6 n 1 (Some p) = rmap (mirror_net V6) (supernet V6 (mirror_net V6 n) 1 (Some p)).
Proof.
  intros B Hn Hp Hh. rewrite <- le_supernet. unfold supernet_h. cbn [mirror_net n_prefix]. destruct (Z.eqb_spec (n_prefix n) 0); [lia|].
  destruct (Z.gtb_spec p (n_prefix n)); [lia|]. cbn [Z.eqb Pos.eqb negb]. destruct (Z.gtb_spec (n_prefix n - p) (n_prefix n)); [lia|]. cbv zeta.
  pose proof (mirror_bytes_net _ _ B) as B'. destruct B as [Wa Wm]. destruct B' as [Wa' Wm']. cbn [mirror_net n_addr n_mask] in Wa', Wm'. change (n_addr (mirror_net V6 n)) with (mirror_addr V6 (n_addr n)). change (n_mask (mirror_net V6 n)) with (mirror_addr V6 (n_mask n)).
  rewrite (be_to V6 _ (proj1 Wa)), (be_to V6 _ (proj1 Wm)). change (to_uint_h true V6) with (addr_to_uint V6).
  rewrite (to_uint_val V6 _ Wa'), (to_uint_val V6 _ Wm'). cbn [bind].
  set (x := val (mirror_addr V6 (n_addr n))) in *. set (y := val (mirror_addr V6 (n_mask n))) in *.
  assert (X : 0 <= x < 2 ^ width V6) by (apply (val_range V6); exact Wa'). assert (Y : 0 <= y < 2 ^ width V6) by (apply (val_range V6); exact Wm').
  rewrite (ushl_ok V6 y (n_prefix n - p) Y) by (cbn [width]; lia). cbn [bind]. change (from_uint_h true V6) with (addr_from_uint V6).
  set (w := (y * 2 ^ (n_prefix n - p)) mod 2 ^ width V6). assert (R : 0 <= w < 2 ^ width V6) by (apply Z.mod_pos_bound; reflexivity). clearbody w.
  rewrite (uand_ok V6 x w X R). assert (K : 0 <= Z.land x w < 2 ^ width V6) by (cbn [width] in *; apply land_lt; lia).
  rewrite (be_from V6 _ K), (from_uint_of V6 _ K). cbn [bind rmap]. pose proof (addr_of_wf V6 _ K) as WK.
  replace (n_prefix n - (n_prefix n - p)) with p by lia.
  rewrite big_from_half by (try apply mirror_addr_ok; auto; lia). rewrite (mirror_addr_twice V6 _ WK). rewrite (le_from_address V6). reflexivity.
Qed.
Lemma super_from n p : wf_net V6 n -> 0 <= p <= n_prefix n ->
  from_address V6 (mk_addr (a_bytes (n_addr n)) []) p false = Ret (super_net V6 n (n_prefix n - p)).
Proof.
  intros W Hp. pose proof W as (Wa & _ & _ & P & _). cbn [width] in P. set (a := mk_addr (a_bytes (n_addr n)) []).
  assert (W0 : wf_addr V6 a) by (apply empty_scope; apply Wa). rewrite (from_address_spec V6 a p false) by (try exact W0; cbn; lia).
  unfold super_net. replace (n_prefix n - (n_prefix n - p)) with p by lia. change (val a) with (first n).
  destruct (Z.eqb_spec (first n mod 2 ^ (width V6 - p)) 0) as [E|E]; [|reflexivity].
  assert (C : clear V6 (first n) p = first n) by (unfold clear; lia). rewrite C. change (first n) with (val a). rewrite (addr_of_eq V6 a W0 eq_refl). reflexivity.
Qed.
(** The network of sixty-four bits around a single address is the right one. *)
Lemma big_supernet_64 n : wf_net V6 n -> n_prefix n = 128 -> supernet_h false V6 n 1 (Some 64) = supernet V6 n 1 (Some 64).
Proof.
  intros W E. pose proof W as (Wa & Wm & _). assert (B : bytes_net V6 n) by (split; assumption).
  rewrite (big_supernet_half n 64 B) by lia.
  assert (Hm : n_mask n = mask_of V6 128).
  { pose proof (net_of_eq V6 n W) as K. rewrite E in K. apply (f_equal n_mask) in K. exact K. }
  assert (W' : wf_net V6 (mirror_net V6 n)).
  { replace (mirror_net V6 n) with (net_of V6 (mirror_addr V6 (n_addr n)) 128).
    - apply net_of_wf; [cbn; lia|apply mirror_addr_ok, Wa|]. cbn [width]. apply Z.mod_1_r.
    - unfold mirror_net, net_of. rewrite Hm, E, half_mask by auto. reflexivity. }
  assert (P' : n_prefix (mirror_net V6 n) = 128) by exact E.
  assert (S : forall m, wf_net V6 m -> n_prefix m = 128 -> supernet V6 m 1 (Some 64) = Ret (super_net V6 m (n_prefix m - 64))).
  { intros m V Em. rewrite supernet_spec by (try exact V; try lia; intros ? [= <-]; lia). rewrite Em. reflexivity. }
  rewrite (S n W E), (S _ W' P'). rewrite <- (super_from n 64 W), <- (super_from _ 64 W') by lia.
  set (a := mk_addr (a_bytes (n_addr n)) []). assert (W0 : wf_addr V6 a) by (apply empty_scope; apply Wa).
  change (mk_addr (a_bytes (n_addr (mirror_net V6 n))) []) with (mirror_addr V6 a).
  rewrite <- (big_from_half a 64 false W0) by auto. rewrite <- (le_from_address V6). reflexivity.
Qed.
