(** Containment on a big-endian host: the statements of C74. *)
From Coq Require Import String.
From Verif Require Import Base Tac UnicodeModel FixedStringModel V4Model V6Model Uint128Model SpecInt SpecText SpecAddr SpecStr SpecV4 SpecV6
  StrProofs AddressModel SpecOrder AddressProofs NetworkModel SpecNet NetProofs NetProofs2 NetProofs3 NetLemmas IterModel SpecAny NetWitness
  SpecExact ExactProofs HostModel SpecEndian EndianProofs.
Open Scope Z_scope.
Open Scope list_scope.

Lemma four (b : list Z) : bytes_ok V4 b -> exists x y z t, b = [x; y; z; t] /\ is_byte x /\ is_byte y /\ is_byte z /\ is_byte t.
Proof.
  intros [L F]. destruct b as [|x [|y [|z [|t [|u b]]]]]; try discriminate L. exists x, y, z, t.
  split; [reflexivity|]. inversion_clear F as [|? ? Hx F1]. inversion_clear F1 as [|? ? Hy F2]. inversion_clear F2 as [|? ? Hz F3].
  inversion_clear F3 as [|? ? Ht _]. auto.
Qed.
Lemma big_contains4 n a : bytes_net V4 n -> wf_addr V4 a -> contains (mirror_net V4 n) (mirror_addr V4 a) = contains n a.
Proof.
  intros [[A _] [M _]] [B _]. destruct (four _ A) as (a1 & a2 & a3 & a4 & EA & _). destruct (four _ M) as (m1 & m2 & m3 & m4 & EM & _).
  destruct (four _ B) as (b1 & b2 & b3 & b4 & EB & _). unfold contains, mirror_net, mirror_addr. cbn [n_addr n_mask a_bytes mirror].
  rewrite EA, EM, EB. cbn [rev app contains_loop].
  destruct (Z.land b1 m1 =? a1), (Z.land b2 m2 =? a2), (Z.land b3 m3 =? a3), (Z.land b4 m4 =? a4); reflexivity.
Qed.
Lemma big_overlaps4 m o : bytes_net V4 m -> bytes_net V4 o -> overlaps (mirror_net V4 m) (mirror_net V4 o) = overlaps m o.
Proof.
  intros Bm Bo. unfold overlaps. rewrite <- !be_broadcast by assumption.
  change (n_addr (mirror_net V4 m)) with (mirror_addr V4 (n_addr m)). change (n_addr (mirror_net V4 o)) with (mirror_addr V4 (n_addr o)).
  rewrite !big_contains4 by first [assumption|apply Bm|apply Bo|apply broadcast_wf; assumption]. reflexivity.
Qed.

(** Bytes of a contained network: the address has more ones, the broadcast address fewer. *)
Lemma byte_low x m : is_byte x -> Z.land x m <= x.
Proof. intros [L _]. apply Z.ldiff_le; [exact L|]. apply Z.bits_inj'. intros i Hi. rewrite Z.ldiff_spec, Z.land_spec, Z.bits_0. destruct (Z.testbit x i); [apply andb_false_r|reflexivity]. Qed.
Lemma byte_high x m : is_byte x -> x <= w8 (Z.lor (Z.land x m) (w8 (Z.lxor m 0xFF))).
Proof.
  intros Hx. apply Z.ldiff_le; [apply Z.mod_pos_bound; reflexivity|].
  apply Z.bits_inj'. intros i Hi. rewrite Z.ldiff_spec, Z.bits_0. destruct (Z_lt_ge_dec i 8) as [K|K].
  - unfold w8. change 256 with (2 ^ 8). rewrite Z.mod_pow2_bits_low, Z.lor_spec, Z.land_spec, Z.mod_pow2_bits_low, Z.lxor_spec by lia.
    assert (T : Z.testbit 0xFF i = true). { change 0xFF with (Z.ones 8). apply Z.ones_spec_low. lia. }
    rewrite T. destruct (Z.testbit x i), (Z.testbit m i); reflexivity.
  - assert (T : Z.testbit x i = false).
    { destruct (Z.eq_dec x 0) as [->|N]; [apply Z.bits_0|]. apply Z.bits_above_log2; [apply Hx|].
      assert (Z.log2 x < 8); [|lia]. apply Z.log2_lt_pow2; unfold is_byte in Hx; [lia|]. change (2 ^ 8) with 256. lia. }
    rewrite T. reflexivity.
Qed.
Lemma val4 a x y z t : a_bytes a = [x; y; z; t] -> val a = ((x * 256 + y) * 256 + z) * 256 + t.
Proof. intros E. unfold val, be_value. rewrite E. cbn [horner]. ring. Qed.

Lemma le4 sp a b : wf_addr V4 a -> wf_addr V4 b -> val a <= val b -> op_le sp V4 a b = Ret true /\ op_ge sp V4 b a = Ret true.
Proof.
  intros Wa Wb L. destruct sp; unfold op_le, op_ge.
  - destruct (addr_cmp_ok V4 a b Wa Wb) as (c & -> & H). destruct (addr_cmp_ok V4 b a Wb Wa) as (d & -> & H'). cbn [bind].
    unfold addr_before in H, H'. destruct Wa as [_ Sa], Wb as [_ Sb]. cbn in Sa, Sb. rewrite Sa, Sb in H, H'.
    split; [destruct c|destruct d]; try reflexivity; exfalso; [destruct H as [K|[_ K]]|destruct H' as [K|[_ K]]]; try lia; exact (lex_irrefl _ K).
  - destruct (less_exact V4 b a Wb Wa) as (r & -> & H). cbn [bind]. destruct r; [|split; reflexivity]. exfalso.
    destruct Wa as [_ Sa], Wb as [_ Sb]. cbn in Sa, Sb. destruct (proj1 H eq_refl) as [K|K]; [lia|]. rewrite Sa, Sb in K. exact (lex_irrefl _ K).
Qed.
Lemma big_subnet4 sp m o : wf_net V4 m -> wf_net V4 o -> subset V4 o m ->
  subnet_of sp V4 (mirror_net V4 o) (mirror_net V4 m) = Ret true /\ supernet_of sp V4 (mirror_net V4 m) (mirror_net V4 o) = Ret true.
Proof.
  intros Wm Wo S. change (supernet_of sp V4 (mirror_net V4 m) (mirror_net V4 o)) with (subnet_of sp V4 (mirror_net V4 o) (mirror_net V4 m)).
  cut (subnet_of sp V4 (mirror_net V4 o) (mirror_net V4 m) = Ret true); [auto|].
  assert (Bm : bytes_net V4 m) by (split; apply Wm). assert (Bo : bytes_net V4 o) by (split; apply Wo).
  destruct (broadcast_spec V4 o Wo) as (Wbo & Vbo & _). pose proof (broadcast_wf V4 m Bm) as Wbm.
  assert (0 < size V4 o) by (unfold size; apply Z.pow_pos_nonneg; [lia|]; destruct Wo as (_ & _ & _ & P & _); lia).
  assert (C1 : contains m (n_addr o) = true). { apply (contains_spec V4 m _ Wm (proj1 Wo)), S. unfold in_net, first. lia. }
  assert (C2 : contains m (broadcast o) = true). { apply (contains_spec V4 m _ Wm Wbo), S. unfold in_net. lia. }
  destruct (four _ (proj1 (proj1 Bm))) as (a1 & a2 & a3 & a4 & EA & A1 & A2 & A3 & A4).
  destruct (four _ (proj1 (proj2 Bm))) as (m1 & m2 & m3 & m4 & EM & M1 & M2 & M3 & M4).
  destruct (four _ (proj1 (proj1 Bo))) as (b1 & b2 & b3 & b4 & EB & B1 & B2 & B3 & B4).
  destruct (four _ (proj1 Wbo)) as (c1 & c2 & c3 & c4 & EC & K1 & K2 & K3 & K4).
  assert (Eb : a_bytes (broadcast m) = [w8 (Z.lor a1 (w8 (Z.lxor m1 0xFF))); w8 (Z.lor a2 (w8 (Z.lxor m2 0xFF))); w8 (Z.lor a3 (w8 (Z.lxor m3 0xFF))); w8 (Z.lor a4 (w8 (Z.lxor m4 0xFF)))]).
  { unfold broadcast, hostmask. cbn [a_bytes]. rewrite EA, EM. reflexivity. }
  unfold contains in C1, C2. rewrite EA, EM, EB in C1. rewrite EA, EM, EC in C2. cbn [contains_loop] in C1, C2.
  destruct (Z.eqb_spec (Z.land b1 m1) a1) as [<-|]; [|discriminate C1]. destruct (Z.eqb_spec (Z.land b2 m2) a2) as [<-|]; [|discriminate C1].
  destruct (Z.eqb_spec (Z.land b3 m3) a3) as [<-|]; [|discriminate C1]. destruct (Z.eqb_spec (Z.land b4 m4) a4) as [<-|]; [|discriminate C1].
  destruct (Z.eqb_spec (Z.land c1 m1) (Z.land b1 m1)) as [E1|]; [|discriminate C2]. destruct (Z.eqb_spec (Z.land c2 m2) (Z.land b2 m2)) as [E2|]; [|discriminate C2].
  destruct (Z.eqb_spec (Z.land c3 m3) (Z.land b3 m3)) as [E3|]; [|discriminate C2]. destruct (Z.eqb_spec (Z.land c4 m4) (Z.land b4 m4)) as [E4|]; [|discriminate C2].
  rewrite <- E1, <- E2, <- E3, <- E4 in Eb. unfold subnet_of, is_subnet_of.
  pose proof (byte_low b1 m1 B1). pose proof (byte_low b2 m2 B2). pose proof (byte_low b3 m3 B3). pose proof (byte_low b4 m4 B4).
  pose proof (byte_high c1 m1 K1). pose proof (byte_high c2 m2 K2). pose proof (byte_high c3 m3 K3). pose proof (byte_high c4 m4 K4).
  pose proof (mirror_bytes_net V4 m Bm) as Bm'. pose proof (mirror_bytes_net V4 o Bo) as Bo'.
  assert (L1 : op_le sp V4 (n_addr (mirror_net V4 m)) (n_addr (mirror_net V4 o)) = Ret true).
  { apply le4; [apply Bm'|apply Bo'|].
    rewrite (val4 _ (Z.land b4 m4) (Z.land b3 m3) (Z.land b2 m2) (Z.land b1 m1)) by (cbn [mirror_net mirror_addr n_addr a_bytes mirror]; rewrite EA; reflexivity).
    rewrite (val4 _ b4 b3 b2 b1) by (cbn [mirror_net mirror_addr n_addr a_bytes mirror]; rewrite EB; reflexivity). lia. }
  rewrite L1. cbn [bind]. clear L1.
  apply le4; [apply broadcast_wf, Bo'|apply broadcast_wf, Bm'|]. rewrite <- !be_broadcast by assumption.
  rewrite (val4 _ c4 c3 c2 c1) by (cbn [mirror_addr a_bytes mirror]; rewrite EC; reflexivity).
  erewrite (val4 (mirror_addr V4 (broadcast m))) by (cbn [mirror_addr a_bytes mirror]; rewrite Eb; reflexivity). lia.
Qed.
