(** Loops, subnets and exclusions on a big-endian host (continued). *)
From Coq Require Import String.
From Verif Require Import Base Tac TextProofs UnicodeModel FixedStringModel V4Model V6Model Uint128Model SpecInt Uint128Proofs Uint128Div2
  SpecText SpecAddr SpecStr SpecV6 StrProofs V4Proofs BufProofs BitProofs FixedStringProofs V4Lemmas V6Proofs V6Full V6Lemmas
  AddressModel SpecOrder AddressProofs NetworkModel SpecNet NetProofs NetProofs2 NetProofs3 NetLemmas IterModel SpecAny NetWitness HostModel SpecEndian EndianProofs EndianProofs2 EndianProofs6.
Open Scope string_scope.
Open Scope Z_scope.
Open Scope list_scope.

Lemma make_same v n c : 0 <= n < 2 ^ width v -> related (same v) (f <- from_uint_h false v n ;; ait_make_h false v f c) (f <- addr_from_uint v n ;; ait_make v f c).
Proof.
  intros H. rewrite (be_from_of v n H), (from_uint_of v n H). cbn [bind]. unfold ait_make_h, ait_make. pose proof (addr_of_wf v n H) as W.
  rewrite (be_to_val v _ (mirror_addr_ok v _ W)), (mirror_addr_twice v _ W), (to_uint_val v _ W). cbn [bind related].
  split; [split; reflexivity|]. split; [reflexivity|]. split; [exact W|apply addr_of_scope, H].
Qed.
Lemma be_hosts_same sp v n : bytes_net v n -> n_prefix n <> width v ->
  related (fun s t => same v (h_begin s) (h_begin t) /\ same v (h_end s) (h_end t)) (hosts_h false sp v n) (hosts sp v (mirror_net v n)).
Proof.
  intros B Hp. pose proof (broadcast_wf v n B) as Wb. pose proof (broadcast_wf v _ (mirror_bytes_net v n B)) as Wb'.
  pose proof (mirror_bytes_net v n B) as B'. unfold hosts_h, hosts, hosts_make_h, hosts_make.
  rewrite (be_to v _ (proj1 Wb)), (be_to v _ (proj1 (proj1 B))), (be_broadcast v n B).
  change (n_addr (mirror_net v n)) with (mirror_addr v (n_addr n)) in *. change (n_prefix (mirror_net v n)) with (n_prefix n).
  assert (Wa' : wf_addr v (mirror_addr v (n_addr n))) by apply B'.
  rewrite (to_uint_val v _ Wa'), (to_uint_val v _ Wb'). cbn [bind].
  pose proof (val_range v _ Wa') as R. pose proof (val_range v _ Wb') as Rb.
  assert (K : forall a b c d, 0 <= a < 2 ^ width v -> 0 <= b < 2 ^ width v -> related (fun s t => same v (h_begin s) (h_begin t) /\ same v (h_end s) (h_end t))
    (first <- from_uint_h false v a ;; last <- from_uint_h false v b ;; x <- ait_make_h false v first c ;; y <- ait_make_h false v last d ;; Ret (mk_hosts x y))
    (first <- addr_from_uint v a ;; last <- addr_from_uint v b ;; x <- ait_make v first c ;; y <- ait_make v last d ;; Ret (mk_hosts x y))).
  { intros a b c d Ha Hb. pose proof (make_same v a c Ha) as X. pose proof (make_same v b d Hb) as Y.
    rewrite (be_from_of v a Ha), (from_uint_of v a Ha) in *. rewrite (be_from_of v b Hb), (from_uint_of v b Hb) in *. cbn [bind] in *.
    apply (related_bind _ _ _ _ _ _ X). intros x x' Hx. apply (related_bind _ _ _ _ _ _ Y). intros y y' Hy. cbn. auto. }
  destruct (n_prefix n =? width v - 1); [apply K; auto using add_range|]. destruct (Z.eqb_spec (n_prefix n) (width v)); [contradiction|]. apply K; auto using add_range.
Qed.

(** *** IPv4 subnets *)
Lemma mirror_hostmask v n : hostmask (mirror_net v n) = mk_addr (mirror v (a_bytes (hostmask n))) [].
Proof. unfold hostmask, mirror_net. cbn [n_mask mirror_addr a_bytes]. rewrite mirror_map. reflexivity. Qed.
Definition nsame (x y : nit) : Prop :=
  same V4 (ni_it x) (ni_it y) /\ ni_current x = mirror_net V4 (ni_current y) /\ bytes_net V4 (ni_current y) /\ ni_step x = ni_step y /\ ni_prefix x = ni_prefix y /\ 0 <= ni_prefix y <= 32.
Lemma related_from a p s : wf_addr V4 a -> 0 <= p <= 32 -> related (fun n m => n = mirror_net V4 m /\ bytes_net V4 m) (from_address_h false V4 (mirror_addr V4 a) p s) (from_address V4 a p s).
Proof.
  intros W Hp. rewrite (be_from_address4 _ p s (mirror_addr_ok V4 a W) Hp), (mirror_addr_twice V4 a W).
  destruct (from_address V4 a p s) as [m|e x|u] eqn:E; cbn; auto. split; [reflexivity|]. apply from_address_wf in E as [Wm _]; [|exact Hp|exact W]. split; apply Wm.
Qed.
Lemma be_nit_add x y k : nsame x y -> related nsame (nit_add_h false V4 x k) (nit_add V4 y k).
Proof.
  intros (Si & Sc & Bc & Es & Ep & Hp). unfold nit_add_h, nit_add. rewrite Es, Ep. apply (related_bind _ _ _ _ _ _ (be_add_same V4 _ _ (umul V4 (ni_step y) k) Si)).
  intros i j Sij. pose proof Sij as ([_ Ec] & _ & Wj & _). rewrite Ec. apply (related_bind _ _ _ _ _ _ (related_from _ (ni_prefix y) true Wj Hp)).
  intros c d [Ecd Bd]. cbn. repeat (split; try assumption; try reflexivity); try apply Hp; try apply Sij; try apply Bd.
Qed.
Lemma be_nit_make n c step p : 0 <= n < 2 ^ 32 -> 0 <= p <= 32 ->
  related nsame (nit_make_h false V4 (mirror_addr V4 (addr_of V4 n)) step p c) (nit_make V4 (addr_of V4 n) step p c).
Proof.
  intros H Hp. pose proof (addr_of_wf V4 n H) as W. unfold nit_make_h, nit_make. apply (related_bind _ _ _ _ _ _ (related_from _ p true W Hp)).
  intros a b [Eab Bb]. pose proof (make_same V4 n c H) as K. rewrite (be_from_of V4 n H), (from_uint_of V4 n H) in K. cbn [bind] in K.
  apply (related_bind _ _ _ _ _ _ K). intros x y Sxy. cbn. repeat (split; try assumption; try reflexivity); try apply Hp; try apply Sxy; try apply Bb.
Qed.
Lemma mirror_net_eqb a b : bytes_net V4 a -> bytes_net V4 b -> net_eqb V4 (mirror_net V4 a) (mirror_net V4 b) = net_eqb V4 a b.
Proof. intros [A1 A2] [B1 B2]. unfold net_eqb. cbn [mirror_net n_addr n_mask]. rewrite !mirror_eqb by assumption. reflexivity. Qed.
Lemma nsame_eqb x x' y y' : nsame x x' -> nsame y y' -> nit_eqb V4 x y = nit_eqb V4 x' y'.
Proof.
  intros ((_ & Cx & _) & Ex & Bx & _) ((_ & Cy & _) & Ey & By & _). unfold nit_eqb. rewrite Cx, Cy, Ex, Ey. rewrite mirror_net_eqb by assumption. reflexivity.
Qed.
Lemma be_subnets_walk x x' y y' k : nsame x x' -> nsame y y' -> subnets_walk_h false V4 k x y = rmap (map (mirror_net V4)) (subnets_walk V4 k x' y').
Proof.
  intros Hx Hy. apply (walk_related nsame); try assumption.
  - intros. apply nsame_eqb; assumption.
  - intros. apply be_nit_add. assumption.
  - intros a b (_ & E & _). exact E.
Qed.
Lemma nit_make_carry v a st p c c' : related (fun _ _ => True) (nit_make v a st p c) (nit_make v a st p c').
Proof. unfold nit_make, ait_make. destruct (from_address v a p true); cbn; auto. destruct (addr_to_uint v a); cbn; auto. Qed.
Lemma related_any {A B C} (R : A -> B -> Prop) (r : res A) (s : res B) (t : res C) : related R r s -> related (fun _ _ => True) s t -> related (fun _ _ => True) r t.
Proof. destruct r, s, t; cbn; intros; try contradiction; try tauto; try congruence. destruct H, H0. split; congruence. Qed.
Definition ssame (full : Prop) (s t : subnets_seq) : Prop := s_size s = s_size t /\ nsame (s_begin s) (s_begin t) /\ (full -> nsame (s_end s) (s_end t)).
Lemma be_subnets4 sp n d np : bytes_net V4 n -> 0 <= n_prefix n <= 32 ->
  related (ssame (n_prefix n <> 32)) (subnets_h false sp V4 n d np) (subnets sp V4 (mirror_net V4 n) d np).
Proof.
  intros B Hp. rewrite <- le_subnets. unfold subnets_h. cbn [remove_scope bind width]. change (n_prefix (mirror_net V4 n)) with (n_prefix n).
  change (n_addr (mirror_net V4 n)) with (mirror_addr V4 (n_addr n)). pose proof (proj1 B) as Wa. pose proof (mirror_addr_ok V4 _ Wa) as Wa'.
  pose proof (val_range V4 _ Wa') as Ra. cbn [width] in Ra.
  assert (Sa : a_scope (n_addr n) = []) by (destruct Wa as [_ S0]; exact S0).
  destruct (Z.eqb_spec (n_prefix n) 32) as [E32|N32].
  - unfold subnets_single_h. cbv zeta. rewrite (be_to_val V4 _ Wa), le_to, (to_uint_val V4 _ Wa'). cbn [bind].
    pose proof (add_range V4 (val (mirror_addr V4 (n_addr n))) 1) as R1. cbn [width] in R1. rewrite (be_from_of V4 _ R1), le_from, (from_uint_of V4 _ R1). cbn [bind].
    set (x := val (mirror_addr V4 (n_addr n))) in *. set (y := uadd V4 x 1) in *.
    assert (Ex : mirror_addr V4 (n_addr n) = addr_of V4 x) by (symmetry; apply addr_of_eq; [exact Wa'|exact Sa]).
    assert (Ey : n_addr n = mirror_addr V4 (addr_of V4 x)) by (rewrite <- Ex, mirror_addr_twice by exact Wa; reflexivity).
    assert (F1 : mk_addr (a_bytes (n_addr n)) [] = mirror_addr V4 (addr_of V4 x)) by (rewrite <- Ey; destruct (n_addr n) as [bb ss]; cbn [a_scope] in Sa; subst ss; reflexivity).
    assert (F2 : mk_addr (a_bytes (mirror_addr V4 (n_addr n))) [] = addr_of V4 x).
    { rewrite Ex. pose proof (addr_of_scope V4 x Ra) as S1. destruct (addr_of V4 x) as [bb ss]. cbn [a_scope] in S1. subst ss. reflexivity. }
    rewrite F1, F2. pose proof (addr_of_wf V4 x Ra) as Wx. pose proof (addr_of_wf V4 y R1) as Wy.
    rewrite le_nit_make. apply (related_bind _ _ _ _ _ _ (be_nit_make x 0 1 (n_prefix n) Ra Hp)). intros p q Spq.
    destruct (le_unscoped sp V4 _ _ (mirror_addr_ok V4 _ Wy) (mirror_addr_ok V4 _ Wx)) as (_ & _ & -> & _); [cbn [mirror_addr a_scope]; rewrite !addr_of_scope by assumption; reflexivity|].
    destruct (le_unscoped sp V4 _ _ Wy Wx) as (_ & _ & -> & _); [rewrite !addr_of_scope by assumption; reflexivity|]. cbn [bind].
    set (c1 := if _ <? _ then 1 else 0). set (c2 := if _ <? _ then 1 else 0).
    rewrite le_nit_make. pose proof (related_any _ _ _ _ (be_nit_make y c1 1 (n_prefix n) R1 Hp) (nit_make_carry V4 (addr_of V4 y) 1 (n_prefix n) c1 c2)) as K.
    apply (related_bind _ _ _ _ _ _ K). intros z w _. cbn [related]. split; [reflexivity|]. split; [exact Spq|]. intros X. contradiction.
  - assert (G : forall diff, related (ssame (n_prefix n <> 32))
      (let new_prefix := w64 (n_prefix n + diff) in
       if new_prefix >? 32 then Err invalid_prefixlen_diff 0 else subnets_make_h false V4 (n_addr n) (broadcast n) (hostmask n) diff new_prefix)
      (let new_prefix := w64 (n_prefix n + diff) in
       if new_prefix >? 32 then Err invalid_prefixlen_diff 0
       else subnets_make_h true V4 (mirror_addr V4 (n_addr n)) (broadcast (mirror_net V4 n)) (hostmask (mirror_net V4 n)) diff new_prefix)).
    { intros diff. cbv zeta. destruct (Z.gtb_spec (w64 (n_prefix n + diff)) 32) as [Q|Q]; [split; reflexivity|].
      assert (Hq : 0 <= w64 (n_prefix n + diff) <= 32) by (split; [apply Z.mod_pos_bound; reflexivity|exact Q]). set (q := w64 _) in *. clearbody q.
      pose proof (broadcast_wf V4 n B) as Wb. pose proof (broadcast_wf V4 _ (mirror_bytes_net V4 n B)) as Wb'.
      pose proof (val_range V4 _ Wb') as Rb. cbn [width] in Rb.
      assert (Wh : wf_addr V4 (hostmask n)) by (split; [apply not_bytes_ok; apply B|reflexivity]).
      assert (Eh : hostmask (mirror_net V4 n) = mirror_addr V4 (hostmask n)) by (rewrite mirror_hostmask; reflexivity).
      unfold subnets_make_h. rewrite (be_to_val V4 _ Wa), le_to, (to_uint_val V4 _ Wa'). cbn [bind].
      rewrite (be_to_val V4 _ Wb), (be_broadcast V4 n B), le_to, (to_uint_val V4 _ Wb'). cbn [bind].
      set (x := val (mirror_addr V4 (n_addr n))) in *. set (y := val (broadcast (mirror_net V4 n))) in *. pose proof (add_range V4 y 1) as R1. cbn [width] in R1.
      rewrite (be_from_of V4 _ Ra), le_from, (from_uint_of V4 _ Ra). cbn [bind]. rewrite (be_from_of V4 _ R1), le_from, (from_uint_of V4 _ R1). cbn [bind].
      rewrite (be_to_val V4 _ Wh), Eh, le_to, (to_uint_val V4 _ (mirror_addr_ok V4 _ Wh)). cbn [bind].
      destruct (ushr V4 _ diff) as [s|e z|u]; cbn [bind related]; auto. set (step := uadd V4 s 1).
      rewrite le_nit_make. apply (related_bind _ _ _ _ _ _ (be_nit_make x 0 step q Ra Hq)). intros b1 b2 Sb.
      rewrite (mirror_eqb V4 _ _ (addr_of_wf V4 _ Ra) (addr_of_wf V4 _ R1)). destruct (addr_eqb V4 (addr_of V4 x) (addr_of V4 (uadd V4 y 1))) as [e| |]; cbn [bind related]; auto.
      rewrite le_nit_make. apply (related_bind _ _ _ _ _ _ (be_nit_make _ (if e then 1 else 0) step q R1 Hq)). intros e1 e2 Se.
      destruct (udivide V4 (usub V4 y x) step) as [t| |]; cbn [bind related]; auto. split; [reflexivity|]. split; [exact Sb|]. intros _. exact Se. }
    destruct np as [k|]; [|apply G]. destruct (k <? n_prefix n); [split; reflexivity|]. destruct (negb (d =? 1)); [split; reflexivity|apply G].
Qed.
