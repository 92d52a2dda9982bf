(** IPv6 subnets of whole halves on a big-endian host: the statements of C74. *)
From Coq Require Import String.
From Verif Require Import Base Tac UnicodeModel FixedStringModel V4Model V6Model Uint128Model SpecInt SpecText SpecAddr SpecStr SpecV4 SpecV6
  StrProofs BitProofs AddressModel SpecOrder AddressProofs NetworkModel SpecNet NetProofs NetProofs2 NetProofs3 NetLemmas IterModel SpecIter SpecAny NetWitness
  HostModel SpecEndian EndianProofs EndianProofs2 EndianProofs6 EndianProofs7 EndianProofs11.
Open Scope Z_scope.
Open Scope list_scope.

Definition half (p : Z) : Prop := p = 0 \/ p = 64 \/ p = 128.
Definition nsame6 (x y : nit) : Prop :=
  same V6 (ni_it x) (ni_it y) /\ ni_current x = mirror_net V6 (ni_current y) /\ bytes_net V6 (ni_current y) /\ ni_step x = ni_step y /\ ni_prefix x = ni_prefix y /\ half (ni_prefix y).
Lemma half_range p : half p -> 0 <= p <= 128. Proof. unfold half. lia. Qed.
Lemma related_from6 a p s : wf_addr V6 a -> half p -> related (fun n m => n = mirror_net V6 m /\ bytes_net V6 m) (from_address_h false V6 (mirror_addr V6 a) p s) (from_address V6 a p s).
Proof.
  intros W Hp. rewrite (big_from_half _ p s (mirror_addr_ok V6 a W) Hp), (mirror_addr_twice V6 a W).
  destruct (from_address V6 a p s) as [m|e x|u] eqn:E; cbn; auto. split; [reflexivity|]. apply from_address_wf in E as [Wm _]; [|exact (half_range p Hp)|exact W]. split; apply Wm.
Qed.
Lemma be_nit_add6 x y k : nsame6 x y -> related nsame6 (nit_add_h false V6 x k) (nit_add V6 y k).
Proof.
  intros (Si & Sc & Bc & Es & Ep & Hp). unfold nit_add_h, nit_add. rewrite Es, Ep. apply (related_bind _ _ _ _ _ _ (be_add_same V6 _ _ (umul V6 (ni_step y) k) Si)).
  intros i j Sij. pose proof Sij as ([_ Ec] & _ & Wj & _). rewrite Ec. apply (related_bind _ _ _ _ _ _ (related_from6 _ (ni_prefix y) true Wj Hp)).
  intros c d [Ecd Bd]. cbn [related]. unfold nsame6. cbn [ni_it ni_current ni_step ni_prefix]. auto 10.
Qed.
Lemma be_nit_make6 n c step p : 0 <= n < 2 ^ 128 -> half p ->
  related nsame6 (nit_make_h false V6 (mirror_addr V6 (addr_of V6 n)) step p c) (nit_make V6 (addr_of V6 n) step p c).
Proof.
  intros H Hp. pose proof (addr_of_wf V6 n H) as W. unfold nit_make_h, nit_make. apply (related_bind _ _ _ _ _ _ (related_from6 _ p true W Hp)).
  intros a b [Eab Bb]. pose proof (make_same V6 n c H) as K. rewrite (be_from_of V6 n H), (from_uint_of V6 n H) in K. cbn [bind] in K.
  apply (related_bind _ _ _ _ _ _ K). intros x y Sxy. cbn [related]. unfold nsame6. cbn [ni_it ni_current ni_step ni_prefix]. auto 10.
Qed.
Lemma mirror_net_eqb6 a b : bytes_net V6 a -> bytes_net V6 b -> net_eqb V6 (mirror_net V6 a) (mirror_net V6 b) = net_eqb V6 a b.
Proof. intros [A1 A2] [B1 B2]. unfold net_eqb. cbn [mirror_net n_addr n_mask]. rewrite !mirror_eqb by assumption. reflexivity. Qed.
Lemma be_subnets_walk6 x x' y y' k : nsame6 x x' -> nsame6 y y' -> subnets_walk_h false V6 k x y = rmap (map (mirror_net V6)) (subnets_walk V6 k x' y').
Proof.
  intros Hx Hy. apply (walk_related nsame6); try assumption.
  - intros a a' b b' ((_ & Cx & _) & Ex & Bx & _) ((_ & Cy & _) & Ey & By & _). unfold nit_eqb. rewrite Cx, Cy, Ex, Ey. rewrite mirror_net_eqb6 by assumption. reflexivity.
  - intros. apply be_nit_add6. assumption.
  - intros a b (_ & E & _). exact E.
Qed.
Definition ssame6 (s t : subnets_seq) : Prop := s_size s = s_size t /\ nsame6 (s_begin s) (s_begin t) /\ nsame6 (s_end s) (s_end t).
Lemma remove6 a : remove_scope V6 a = Ret (mk_addr (a_bytes a) []).
Proof. reflexivity. Qed.
Lemma be_make6 a n diff q : wf_addr V6 a -> a_scope a = [] -> bytes_net V6 n -> half q ->
  related ssame6 (subnets_make_h false V6 a (broadcast n) (hostmask n) diff q)
    (subnets_make_h true V6 (mirror_addr V6 a) (broadcast (mirror_net V6 n)) (hostmask (mirror_net V6 n)) diff q).
Proof.
  intros Wa Sa B Hq. pose proof (mirror_addr_ok V6 _ Wa) as Wa'. pose proof (val_range V6 _ Wa') as Ra. cbn [width] in Ra.
  pose proof (broadcast_wf V6 n B) as Wb. pose proof (broadcast_wf V6 _ (mirror_bytes_net V6 n B)) as Wb'.
  pose proof (val_range V6 _ Wb') as Rb. cbn [width] in Rb.
  assert (Wh : wf_addr V6 (hostmask n)) by (apply empty_scope; apply not_bytes_ok; apply B).
  assert (Eh : hostmask (mirror_net V6 n) = mirror_addr V6 (hostmask n)) by (rewrite mirror_hostmask; reflexivity).
  unfold subnets_make_h. rewrite (be_to_val V6 _ Wa), le_to, (to_uint_val V6 _ Wa'). cbn [bind].
  rewrite (be_to_val V6 _ Wb), (be_broadcast V6 n B), le_to, (to_uint_val V6 _ Wb'). cbn [bind].
  set (x := val (mirror_addr V6 a)) in *. set (y := val (broadcast (mirror_net V6 n))) in *. pose proof (add_range V6 y 1) as R1. cbn [width] in R1.
  rewrite (be_from_of V6 _ Ra), le_from, (from_uint_of V6 _ Ra). cbn [bind]. rewrite (be_from_of V6 _ R1), le_from, (from_uint_of V6 _ R1). cbn [bind].
  rewrite (be_to_val V6 _ Wh), Eh, le_to, (to_uint_val V6 _ (mirror_addr_ok V6 _ Wh)). cbn [bind].
  destruct (ushr V6 _ diff) as [s|e z|u]; cbn [bind related]; auto. set (step := uadd V6 s 1).
  rewrite le_nit_make. apply (related_bind _ _ _ _ _ _ (be_nit_make6 x 0 step q Ra Hq)). intros b1 b2 Sb.
  rewrite (mirror_eqb V6 _ _ (addr_of_wf V6 _ Ra) (addr_of_wf V6 _ R1)). destruct (addr_eqb V6 (addr_of V6 x) (addr_of V6 (uadd V6 y 1))) as [e| |]; cbn [bind related]; auto.
  rewrite le_nit_make. apply (related_bind _ _ _ _ _ _ (be_nit_make6 _ (if e then 1 else 0) step q R1 Hq)). intros e1 e2 Se.
  destruct (udivide V6 (usub V6 y x) step) as [t| |]; cbn [bind related]; auto. split; [reflexivity|]. split; [exact Sb|]. exact Se.
Qed.
Lemma be_subnets6 sp n q : bytes_net V6 n -> 0 <= n_prefix n < 128 -> n_prefix n <= q -> half q ->
  related ssame6 (subnets_h false sp V6 n 1 (Some q)) (subnets sp V6 (mirror_net V6 n) 1 (Some q)).
Proof.
  intros B Hp Hn Hq. pose proof (half_range q Hq) as Rq. rewrite <- le_subnets. unfold subnets_h. rewrite !remove6. cbn [bind]. change (n_prefix (mirror_net V6 n)) with (n_prefix n). change (width V6) with 128.
  destruct (Z.eqb_spec (n_prefix n) 128); [lia|]. destruct (Z.ltb_spec q (n_prefix n)); [lia|]. cbn [Z.eqb Pos.eqb negb]. cbv zeta.
  replace (n_prefix n + (q - n_prefix n)) with q by lia. assert (Eq : w64 q = q) by (apply Z.mod_small; lia). rewrite Eq. destruct (Z.gtb_spec q 128); [lia|].
  pose proof (be_make6 (mk_addr (a_bytes (n_addr n)) []) n (q - n_prefix n) q) as K. apply K; [apply empty_scope; apply B|reflexivity|exact B|exact Hq].
Qed.
Lemma big_subnets_halves sp n q : bytes_net V6 n -> 0 <= n_prefix n < 128 -> n_prefix n <= q -> q = 0 \/ q = 64 \/ q = 128 ->
  match subnets_h false sp V6 n 1 (Some q), subnets sp V6 (mirror_net V6 n) 1 (Some q) with
  | Ret s, Ret t => s_size s = s_size t /\ (forall k, subnets_at_h false V6 s k = rmap (mirror_net V6) (subnets_at V6 t k)) /\
      (forall k, subnets_walk_h false V6 k (s_begin s) (s_end s) = rmap (map (mirror_net V6)) (subnets_walk V6 k (s_begin t) (s_end t)))
  | Err e x, Err e' x' => e = e' /\ x = x'
  | UB u, UB u' => u = u'
  | _, _ => False
  end.
Proof.
  intros B Hp Hn Hq. pose proof (be_subnets6 sp n q B Hp Hn Hq) as K. destruct (subnets_h false sp V6 n 1 (Some q)), (subnets sp V6 (mirror_net V6 n) 1 (Some q)); cbn [related] in K; try exact K.
  destruct K as (K1 & K2 & K3). split; [exact K1|]. split.
  - intros k. unfold subnets_at_h, subnets_at. pose proof (be_nit_add6 _ _ k K2) as Q.
    destruct (nit_add_h false V6 (s_begin a) k), (nit_add V6 (s_begin a0) k); cbn [related] in Q; try contradiction; cbn [bind rmap]; [f_equal; apply Q|destruct Q; congruence|congruence].
  - intros k. apply be_subnets_walk6; assumption.
Qed.
