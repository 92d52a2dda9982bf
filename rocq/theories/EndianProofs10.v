(** Excluding networks on a big-endian host: the statements of C74. *)
From Coq Require Import String.
From Verif Require Import Base Tac UnicodeModel FixedStringModel V4Model V6Model Uint128Model SpecInt SpecText SpecAddr SpecStr SpecV4 SpecV6
  StrProofs AddressModel SpecOrder AddressProofs NetworkModel SpecNet NetProofs NetProofs2 NetProofs3 NetLemmas IterModel SpecIter SpecAny NetWitness
  IterProofs5 SpecExact ExactProofs HostModel SpecEndian EndianProofs EndianProofs2 EndianProofs6 EndianProofs7 EndianProofs8 EndianProofs9.
Open Scope Z_scope.
Open Scope list_scope.

Lemma cmp4 sp a b : wf_addr V4 a -> wf_addr V4 b -> op_le sp V4 a b = Ret (val a <=? val b) /\ op_ge sp V4 b a = Ret (val a <=? val b).
Proof.
  intros Wa Wb. assert (N : ~ lex_lt (@nil Z) []) by apply lex_irrefl. destruct sp; unfold op_le, op_ge.
  - destruct (addr_cmp_ok V4 a b Wa Wb) as (c & -> & H). destruct (addr_cmp_ok V4 b a Wb Wa) as (d & -> & H'). cbn [bind].
    unfold addr_before in H, H'. destruct Wa as [_ Sa], Wb as [_ Sb]. cbn in Sa, Sb. rewrite Sa, Sb in H, H'.
    split; f_equal; symmetry; [destruct c|destruct d]; first [apply Z.leb_le|apply Z.leb_gt]; first [subst; lia|intuition lia].
  - destruct (less_exact V4 b a Wb Wa) as (r & -> & H). cbn [bind]. unfold either_before in H. destruct Wa as [_ Sa], Wb as [_ Sb]. cbn in Sa, Sb. rewrite Sa, Sb in H.
    assert (E : negb r = (val a <=? val b)); [|rewrite E; auto]. destruct r; cbn [negb]; symmetry; [apply Z.leb_gt|apply Z.leb_le].
    + destruct (proj1 H eq_refl) as [K|K]; [lia|contradiction].
    + destruct (Z_le_gt_dec (val a) (val b)) as [K|K]; [exact K|]. exfalso. assert (X : false = true) by (apply H; left; lia). discriminate X.
Qed.
(** Addresses in a network of at most 256 differ in the last octet only. *)
Lemma same_top m a x y z t : wf_net V4 m -> 24 <= n_prefix m -> a_bytes (n_addr m) = [x; y; z; t] -> wf_addr V4 a -> in_net V4 m (val a) -> exists u, a_bytes a = [x; y; z; u] /\ is_byte u.
Proof.
  intros Wm Hp E Wa I. destruct (four _ (proj1 Wa)) as (x' & y' & z' & u & E' & Hx & Hy & Hz & Hu).
  destruct (four _ (proj1 (proj1 Wm))) as (p & q & r & s & E2 & Px & Py & Pz & Pt). assert (E3 := E2). rewrite E in E3.
  assert (p = x /\ q = y /\ r = z /\ s = t) as (-> & -> & -> & ->) by (repeat split; congruence). clear E3.
  assert (K : 256 * (first m / 256) <= first m < 256 * (first m / 256) + 256) by (pose proof (Z.div_mod (first m) 256 ltac:(lia)); pose proof (Z.mod_pos_bound (first m) 256 ltac:(lia)); lia).
  assert (D : exists j, 256 = size V4 m * j /\ 0 < j /\ 0 < size V4 m).
  { destruct Wm as (_ & _ & _ & P & _). cbn [width] in P. exists (2 ^ (n_prefix m - 24)). unfold size. cbn [width]. rewrite <- Z.pow_add_r by lia.
    split; [replace (32 - n_prefix m + (n_prefix m - 24)) with 8 by lia; reflexivity|]. split; apply Z.pow_pos_nonneg; lia. }
  destruct D as (j & Dj & Pj & Ps).
  assert (F : first m mod size V4 m = 0) by apply Wm. apply Z.mod_divide in F; [|lia]. destruct F as [c F].
  assert (L : first m + size V4 m <= 256 * (first m / 256) + 256). { rewrite Dj in K |- *. set (d := first m / (size V4 m * j)) in *. clearbody d. set (S := size V4 m) in *. clearbody S. rewrite F in *. assert (c < d * j + j) by nia. nia. }
  unfold in_net in I. assert (G : val a / 256 = first m / 256). { symmetry. apply Z.div_unique with (val a - 256 * (first m / 256)); lia. }
  rewrite (val4 a _ _ _ _ E') in G. unfold first in G. rewrite (val4 _ _ _ _ _ E) in G. unfold is_byte in *.
  rewrite !Z.div_add_l, !Z.div_small in G by lia. exists u. assert (x' = x) by lia. assert (y' = y) by lia. assert (z' = z) by lia. subst. auto.
Qed.
Lemma misled sp m o s : wf_net V4 m -> 24 <= n_prefix m -> wf_net V4 o -> wf_net V4 s -> subset V4 o m -> subset V4 s m -> ~ subset V4 o s ->
  subnet_of sp V4 (mirror_net V4 o) (mirror_net V4 s) = Ret false.
Proof.
  intros Wm Hp Wo Ws So Ss N. destruct (four _ (proj1 (proj1 Wm))) as (x & y & z & t & E & _).
  destruct (broadcast_spec V4 o Wo) as (Wbo & Vbo & _). destruct (broadcast_spec V4 s Ws) as (Wbs & Vbs & _).
  pose proof (net_top V4 o Wo) as To. pose proof (net_top V4 s Ws) as Ts.
  destruct (same_top m (n_addr o) x y z t Wm Hp E (proj1 Wo)) as (u1 & E1 & U1); [apply So; unfold in_net, first in *; lia|].
  destruct (same_top m (n_addr s) x y z t Wm Hp E (proj1 Ws)) as (u2 & E2 & U2); [apply Ss; unfold in_net, first in *; lia|].
  destruct (same_top m (broadcast o) x y z t Wm Hp E Wbo) as (u3 & E3 & U3); [apply So; unfold in_net in *; lia|].
  destruct (same_top m (broadcast s) x y z t Wm Hp E Wbs) as (u4 & E4 & U4); [apply Ss; unfold in_net in *; lia|].
  assert (Bs : bytes_net V4 s) by (split; apply Ws). assert (Bo : bytes_net V4 o) by (split; apply Wo).
  pose proof (mirror_bytes_net V4 s Bs) as Bs'. pose proof (mirror_bytes_net V4 o Bo) as Bo'.
  unfold subnet_of, is_subnet_of. rewrite (proj1 (cmp4 sp _ _ (proj1 Bs') (proj1 Bo'))). cbn [bind].
  rewrite (proj2 (cmp4 sp _ _ (broadcast_wf V4 _ Bo') (broadcast_wf V4 _ Bs'))). rewrite <- !be_broadcast by assumption.
  rewrite (val4 (n_addr (mirror_net V4 s)) u2 z y x) by (cbn [mirror_net mirror_addr n_addr a_bytes mirror]; rewrite E2; reflexivity).
  rewrite (val4 (n_addr (mirror_net V4 o)) u1 z y x) by (cbn [mirror_net mirror_addr n_addr a_bytes mirror]; rewrite E1; reflexivity).
  rewrite (val4 (mirror_addr V4 (broadcast o)) u3 z y x) by (cbn [mirror_addr a_bytes mirror]; rewrite E3; reflexivity).
  rewrite (val4 (mirror_addr V4 (broadcast s)) u4 z y x) by (cbn [mirror_addr a_bytes mirror]; rewrite E4; reflexivity).
  rewrite subset_ends in N by assumption. unfold first in *. rewrite (val4 _ _ _ _ _ E1) in *. rewrite (val4 _ _ _ _ _ E2) in *.
  rewrite (val4 _ _ _ _ _ E3) in Vbo. rewrite (val4 _ _ _ _ _ E4) in Vbs.
  destruct (Z.leb_spec (((u2 * 256 + z) * 256 + y) * 256 + x) (((u1 * 256 + z) * 256 + y) * 256 + x)); [|reflexivity].
  f_equal. apply Z.leb_gt. lia.
Qed.

(** The iterator over mirrored networks. *)
Definition mx (x : xit) : xit := mk_xit (mirror_net V4 (x_other x)) (mirror_net V4 (x_s1 x)) (mirror_net V4 (x_s2 x)) (mirror_net V4 (x_current x)).
Lemma bytes_of n : wf_net V4 n -> bytes_net V4 n. Proof. intros W. split; apply W. Qed.
Lemma mx_default : mx (xit_default V4) = xit_default V4. Proof. reflexivity. Qed.
Lemma be_halves sp n : bytes_net V4 n -> 0 <= n_prefix n <= 32 -> halves_h false sp V4 (mirror_net V4 n) = rmap (fun p => (mirror_net V4 (fst p), mirror_net V4 (snd p))) (halves sp V4 n).
Proof.
  intros B P. unfold halves_h, halves. pose proof (big_subnets4 sp (mirror_net V4 n) 1 None (mirror_bytes_net V4 n B) P) as K.
  rewrite (mirror_net_twice V4 n B) in K.
  destruct (subnets_h false sp V4 (mirror_net V4 n) 1 None) as [s|e x|u], (subnets sp V4 n 1 None) as [t|e' x'|u']; try contradiction; cbn [bind rmap].
  - destruct K as (_ & K & _). rewrite (K 0), (K 1). destruct (subnets_at V4 t 0); cbn [bind rmap]; [|reflexivity|reflexivity].
    destruct (subnets_at V4 t 1); reflexivity.
  - destruct K as [-> ->]. reflexivity.
  - rewrite K. reflexivity.
Qed.
(** A step agrees if the tests for containment do. *)
Lemma be_xnext sp x : wf_net V4 (x_other x) -> wf_net V4 (x_s1 x) -> wf_net V4 (x_s2 x) -> wf_net V4 (x_current x) ->
  (x_s1 x <> x_other x -> x_s2 x <> x_other x ->
    subnet_of sp V4 (mirror_net V4 (x_other x)) (mirror_net V4 (x_s1 x)) = subnet_of sp V4 (x_other x) (x_s1 x) /\
    (subnet_of sp V4 (x_other x) (x_s1 x) <> Ret true -> subnet_of sp V4 (mirror_net V4 (x_other x)) (mirror_net V4 (x_s2 x)) = subnet_of sp V4 (x_other x) (x_s2 x))) ->
  xit_next_h false sp V4 (mx x) = rmap mx (xit_next sp V4 x).
Proof.
  destruct x as [o a b c]. cbn [x_other x_s1 x_s2 x_current]. intros Wo Wa Wb Wc H. unfold xit_next_h, xit_next, mx. cbn [x_other x_s1 x_s2 x_current].
  rewrite !mirror_net_eqb by (apply bytes_of; assumption).
  destruct (net_eqb_ok V4 a o Wa Wo) as (e1 & -> & H1). destruct (net_eqb_ok V4 b o Wb Wo) as (e2 & -> & H2).
  destruct (net_eqb_ok V4 c b Wc Wb) as (e3 & -> & _). destruct (net_eqb_ok V4 c a Wc Wa) as (e4 & -> & _). cbn [bind].
  destruct e1, e2; cbn [negb andb].
  1-3: destruct e3, e4; reflexivity.
  destruct H as [I1 I2]; [intros K; apply H1 in K; discriminate|intros K; apply H2 in K; discriminate|]. rewrite I1.
  rewrite !be_halves by first [apply Wa|apply Wb|apply bytes_of; assumption].
  destruct (subnet_of sp V4 o a) as [[|]| |]; cbn [bind].
  - destruct e3; cbn [negb]; [reflexivity|]. destruct (halves sp V4 a) as [[p q]| |]; reflexivity.
  - rewrite I2 by discriminate. destruct (subnet_of sp V4 o b) as [[|]| |]; cbn [bind]; [|reflexivity|reflexivity|reflexivity].
    destruct e4; cbn [negb]; [reflexivity|]. destruct (halves sp V4 b) as [[p q]| |]; reflexivity.
  - reflexivity.
  - reflexivity.
Qed.

Section Run.
Variables (sp : bool) (m o : net).
Hypotheses (Wm : wf_net V4 m) (Wo : wf_net V4 o) (So : subset V4 o m) (C : 24 <= n_prefix m \/ first o = first m).
Lemma un4 n : wf_net V4 n -> unscoped n. Proof. intros W. exact (proj2 (proj1 W)). Qed.
Lemma inner n : wf_net V4 n -> subset V4 o n -> n_prefix m <= n_prefix n -> subset V4 n m.
Proof.
  intros Wn Sn P. apply subset_ends; [assumption..|]. pose proof (So _ (in_first V4 o Wo)) as X. pose proof (Sn _ (in_first V4 o Wo)) as Y.
  assert (Fm : first m mod size V4 m = 0) by apply Wm. assert (Fn : first n mod size V4 n = 0) by apply Wn.
  assert (Pn : n_prefix n <= 32) by apply Wn. assert (Pm : 0 <= n_prefix m) by apply Wm.
  assert (D : size V4 m = size V4 n * 2 ^ (n_prefix n - n_prefix m)). { unfold size. cbn [width]. rewrite <- Z.pow_add_r by lia. f_equal. lia. }
  assert (0 < size V4 n) by (apply Z.pow_pos_nonneg; cbn [width]; lia). assert (0 < 2 ^ (n_prefix n - n_prefix m)) by (apply Z.pow_pos_nonneg; lia).
  apply Z.mod_divide in Fm; [|nia]. apply Z.mod_divide in Fn; [|lia]. destruct Fm as [i Fm], Fn as [j Fn]. unfold in_net in *.
  rewrite D in *. set (k := 2 ^ (n_prefix n - n_prefix m)) in *. set (s := size V4 n) in *. clearbody k s. rewrite Fm, Fn in *.
  assert (i * k <= j) by nia. assert (j + 1 <= i * k + k) by nia. nia.
Qed.
Lemma agree n it : splitting V4 o n it -> n_prefix m <= n_prefix n -> xit_next_h false sp V4 (mx it) = rmap mx (xit_next sp V4 it).
Proof.
  intros (Wn & Un & Hp & Sn & Eo & Ha & Hb & Wc & Pc) P. pose proof Ha as (Wa & Ua & Pa & Fa). pose proof Hb as (Wb & Ub & Pb & Fb).
  assert (Po : n_prefix o <= 32) by apply Wo. destruct (half_facts V4 n _ _ o Wn ltac:(cbn [width]; lia) Ha Hb Wo Hp Sn) as (U & D & S).
  pose proof (inner n Wn Sn P) as Im.
  apply be_xnext; try assumption; [rewrite Eo; assumption|]. rewrite Eo. intros N1 N2.
  assert (In1 : subset V4 o (x_s1 it) -> subnet_of sp V4 (mirror_net V4 o) (mirror_net V4 (x_s1 it)) = Ret true /\ subnet_of sp V4 o (x_s1 it) = Ret true).
  { intros K. split; [apply big_subnet4; assumption|apply IterProofs5.subnet_true; auto using un4]. }
  destruct S as [S|S].
  - destruct (In1 S) as [-> ->]. split; [reflexivity|congruence].
  - assert (NS : ~ subset V4 o (x_s1 it)). { intros K. exact (D _ (K _ (in_first V4 o Wo)) (S _ (in_first V4 o Wo))). }
    split.
    + rewrite (subnet_false sp V4 o (x_s1 it)) by auto using un4. destruct C as [C1|C1].
      * apply (misled sp m); try assumption. intros x Hx. apply Im, U. auto.
      * exfalso. apply NS. apply subset_ends; [assumption..|]. cbn [width] in *.
        pose proof (S _ (in_first V4 o Wo)) as X. pose proof (Im _ (in_first V4 n Wn)) as Y. unfold in_net in X, Y.
        assert (0 < 2 ^ (32 - (n_prefix n + 1))) by (apply Z.pow_pos_nonneg; lia). rewrite Fb in X. lia.
    + intros _. rewrite (IterProofs5.subnet_true sp V4 o (x_s2 it)) by auto using un4. apply big_subnet4; assumption.
Qed.
Lemma last_step it : x_other it = o -> wf_net V4 (x_s1 it) -> wf_net V4 (x_s2 it) -> wf_net V4 (x_current it) -> x_s1 it = o \/ x_s2 it = o ->
  xit_next_h false sp V4 (mx it) = rmap mx (xit_next sp V4 it).
Proof. intros E W1 W2 Wc K. apply be_xnext; try assumption; rewrite E; [assumption|]. tauto. Qed.
Lemma be_xwalk : forall k r it, xstate V4 o r it -> Z.of_nat r <= 1 + n_prefix o - n_prefix m ->
  exclude_walk_h false sp V4 k (mx it) (xit_default V4) = rmap (map (mirror_net V4)) (exclude_walk sp V4 k it (xit_default V4)).
Proof.
  unfold exclude_walk_h, exclude_walk. induction k as [|k IH]; intros r it X R; cbn [walk].
  all: assert (E : xit_eqb V4 (mx it) (xit_default V4) = xit_eqb V4 it (xit_default V4)) by
    (unfold xit_eqb; cbn [mx x_current xit_default]; change (net_default V4) with (mirror_net V4 (net_default V4)) at 1; apply mirror_net_eqb; apply bytes_of;
     [destruct X as [[_ ->]|(_ & Bs & _)]; [apply net_default_wf|apply Bs]|apply net_default_wf]).
  all: rewrite E; destruct (xit_eqb V4 it (xit_default V4)) as [[|]| |] eqn:Q; cbn [bind]; [reflexivity| |reflexivity|reflexivity].
  - reflexivity.
  - destruct r as [|r].
    { exfalso. destruct X as [[_ ->]|(H & _)]; [|lia]. vm_compute in Q. discriminate. }
    assert (St : xit_next_h false sp V4 (mx it) = rmap mx (xit_next sp V4 it)).
    { destruct X as [[H _]|(_ & Bs & [(n & Sp & En)|(_ & Eo & W1 & W2 & _ & K)])]; [discriminate| |].
      - apply (agree n); [exact Sp|lia].
      - apply last_step; auto; [apply Bs|tauto]. }
    rewrite St. destruct (xstate_next sp V4 o Wo (un4 o Wo) r it X) as (it' & -> & X'). cbn [bind rmap]. rewrite (IH r it' X' ltac:(lia)).
    destruct (walk (xit_eqb V4) (xit_next sp V4) x_current k it' (xit_default V4)); reflexivity.
Qed.
Lemma big_exclude4 : exists s t, address_exclude sp V4 m o = Ret s /\ exclude_h false sp V4 (mirror_net V4 m) (mirror_net V4 o) = Ret t /\
  forall k, exclude_walk_h false sp V4 k (e_begin t) (e_end t) = rmap (map (mirror_net V4)) (exclude_walk sp V4 k (e_begin s) (e_end s)).
Proof.
  unfold address_exclude, exclude_code, exclude_h. cbn [remove_scope_net_h remove_scope_net bind].
  rewrite (IterProofs5.subnet_true sp V4 o m) by auto using un4. rewrite (proj1 (big_subnet4 sp m o Wm Wo So)). cbn [bind negb].
  rewrite mirror_net_eqb by (apply bytes_of; assumption).
  destruct (net_eqb_ok V4 m o Wm Wo) as (e & -> & He). cbn [bind]. destruct e.
  - cbn [bind]. exists (exclude_default V4), (exclude_default V4). split; [reflexivity|]. split; [reflexivity|]. intros k. destruct k; vm_compute; reflexivity.
  - assert (Hp : n_prefix m < n_prefix o).
    { destruct (proj1 (subset_prefix V4 o m Wo Wm) So) as [P _]. destruct (Z.eq_dec (n_prefix m) (n_prefix o)) as [Q|Q]; [|lia].
      exfalso. assert (m = o) by (symmetry; apply (subset_eq V4); auto using un4; lia). apply He in H. discriminate. }
    assert (Po : n_prefix o <= 32) by apply Wo.
    destruct (exclude_core sp V4 m o Wm Wo (un4 m Wm) (un4 o Wo) So Hp) as (it & Ei & X). rewrite Ei. cbn [bind].
    assert (Eh : xit_make_h false sp V4 (mirror_net V4 m) (mirror_net V4 o) = Ret (mx it)).
    { unfold xit_make in Ei. unfold xit_make_h. rewrite be_halves by first [apply bytes_of, Wm|apply Wm].
      destruct (halves_ok sp V4 m Wm ltac:(cbn [width]; lia)) as (a & b & Eh & Ha & Hb). rewrite Eh in Ei |- *. cbn [bind rmap fst snd] in Ei |- *.
      change (mk_xit (mirror_net V4 o) (mirror_net V4 a) (mirror_net V4 b) (mirror_net V4 m)) with (mx (mk_xit o a b m)).
      rewrite (agree m); [rewrite Ei; reflexivity| |lia]. split; [exact Wm|]. split; [exact (un4 m Wm)|]. split; [exact Hp|]. split; [exact So|].
      cbn [x_other x_s1 x_s2 x_current]. auto. }
    rewrite Eh. cbn [bind]. eexists _, _. split; [reflexivity|]. split; [reflexivity|]. intros k. cbn [e_begin e_end].
    apply (be_xwalk k (Z.to_nat (xcount m o))); [exact X|]. unfold xcount. lia.
Qed.
End Run.
Lemma big_exclude4_all sp m o : wf_net V4 m -> wf_net V4 o -> subset V4 o m -> 24 <= n_prefix m \/ first o = first m ->
  exists s t, address_exclude sp V4 m o = Ret s /\ exclude_h false sp V4 (mirror_net V4 m) (mirror_net V4 o) = Ret t /\
    forall k, exclude_walk_h false sp V4 k (e_begin t) (e_end t) = rmap (map (mirror_net V4)) (exclude_walk sp V4 k (e_begin s) (e_end s)).
Proof. exact (big_exclude4 sp m o). Qed.
Lemma ends4 a b : wf_net V4 a -> wf_net V4 b -> first b <= first a /\ first a + size V4 a <= first b + size V4 b -> subset V4 a b.
Proof. intros Wa Wb. apply subset_ends; assumption. Qed.
