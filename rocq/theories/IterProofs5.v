(** address_exclude(). *)
From Verif Require Import Base Tac V4Model V6Model Uint128Model SpecInt Uint128Proofs SpecAddr SpecStr SpecV6 StrProofs V4Proofs AddressModel SpecOrder
  AddressProofs NetworkModel IterModel SpecNet SpecIter NetProofs NetProofs2 NetProofs3 NetLemmas IterProofs IterProofs2 IterProofs3 IterProofs4.

(** *** Without scope id *)
Definition bare v (n : net) : net := net_of v (addr_of v (first n)) (n_prefix n).
Lemma bare_ok v n : wf_net v n -> wf_net v (bare v n) /\ unscoped (bare v n) /\ first (bare v n) = first n /\ n_prefix (bare v n) = n_prefix n.
Proof.
  intros W. pose proof (val_range v _ (proj1 W)) as R. fold (first n) in R. assert (F : first (bare v n) = first n) by (apply addr_of_val; exact R).
  split; [|split; [apply addr_of_scope; exact R|auto]]. apply net_of_wf; [apply W|apply addr_of_wf; exact R|]. change (first (bare v n) mod size v n = 0). rewrite F. apply W.
Qed.
Lemma remove_scope_net_ok v n : wf_net v n -> remove_scope_net v n = Ret (bare v n).
Proof.
  intros W. destruct (bare_ok v n W) as (Wb & Ub & Fb & Pb). destruct v.
  - cbn [remove_scope_net]. f_equal. apply (net_ext V4); auto. pose proof (v4_scope _ (proj1 W)). unfold unscoped, first in *.
    apply (addr_eq V4); [apply W|apply Wb|congruence|congruence].
  - cbn [remove_scope_net]. rewrite remove_scope_ok by apply W. fold (first n). cbn [bind].
    assert (R : 0 <= first n < 2 ^ width V6) by (apply (val_range V6); apply W).
    rewrite from_address_spec by (apply W || apply addr_of_wf; exact R). rewrite addr_of_val by exact R. assert (first n mod 2 ^ (width V6 - n_prefix n) = 0) as -> by apply W. reflexivity.
Qed.
Lemma in_bare v n x : wf_net v n -> (in_net v (bare v n) x <-> in_net v n x).
Proof. intros W. destruct (bare_ok v n W) as (_ & _ & F & P). unfold in_net, size. rewrite F, P. reflexivity. Qed.

(** *** Halves *)
Lemma halves_ok sp v n : wf_net v n -> n_prefix n < width v ->
  exists a b, halves sp v n = Ret (a, b) /\ nth_subnet v n (n_prefix n + 1) 0 a /\ nth_subnet v n (n_prefix n + 1) 1 b.
Proof.
  intros W Hp. assert (P0 : 0 <= n_prefix n) by apply W. assert (2 <= width v) by (destruct v; cbn [width]; lia).
  destruct (subnets_spec sp v n 1 None (n_prefix n + 1) W) as (s & E & Sok & _); [split; [unfold is_size; lia|exact I]|right; split; [exact Hp|exists 1; repeat split; lia]|lia|right; lia|].
  unfold halves. rewrite E. cbn [bind].
  assert (D : 2 ^ (n_prefix n + 1 - n_prefix n) = 2) by (replace (n_prefix n + 1 - n_prefix n) with 1 by lia; reflexivity).
  destruct (subnets_at_ok v n (n_prefix n + 1) s 0 W ltac:(lia) Sok ltac:(lia)) as (a & -> & Ha). destruct (subnets_at_ok v n (n_prefix n + 1) s 1 W ltac:(lia) Sok ltac:(lia)) as (b & -> & Hb). cbn [bind]. eauto.
Qed.
(** What the halves are to a smaller network inside. *)
Lemma half_facts v n a b o : wf_net v n -> n_prefix n < width v -> nth_subnet v n (n_prefix n + 1) 0 a -> nth_subnet v n (n_prefix n + 1) 1 b ->
  wf_net v o -> n_prefix n < n_prefix o -> subset v o n ->
  (forall x, in_net v n x <-> in_net v a x \/ in_net v b x) /\ disjoint v a b /\ (subset v o a \/ subset v o b).
Proof.
  intros W Hp Ha Hb Wo Hpo So. assert (P0 : 0 <= n_prefix n <= width v) by apply W.
  assert (D : 2 ^ (n_prefix n + 1 - n_prefix n) = 2) by (replace (n_prefix n + 1 - n_prefix n) with 1 by lia; reflexivity).
  assert (U : forall x, in_net v n x <-> in_net v a x \/ in_net v b x).
  { intros x. split.
    - intros Hx. destruct (nth_cover v n (n_prefix n + 1) x W ltac:(lia) Hx) as (i & Hi & K). assert (i = 0 \/ i = 1) as [->| ->] by lia; auto.
    - intros [Hx|Hx]; [apply (nth_inside v n (n_prefix n + 1) 0 a x)|apply (nth_inside v n (n_prefix n + 1) 1 b x)]; auto; lia. }
  split; [exact U|]. split.
  - intros x Xa Xb. pose proof (nth_order v n (n_prefix n + 1) 0 1 a b ltac:(lia) ltac:(lia) Ha Hb). unfold in_net in *. lia.
  - assert (Xo : in_net v o (first o)) by (pose proof (net_top v o Wo); unfold in_net; lia).
    assert (Xn : in_net v n (first o)) by (apply So; exact Xo). apply U in Xn. destruct Xn as [Xn|Xn]; [left|right].
    + apply (nested v o a (first o)); auto; [apply Ha|]. destruct Ha as (_ & _ & -> & _). lia.
    + apply (nested v o b (first o)); auto; [apply Hb|]. destruct Hb as (_ & _ & -> & _). lia.
Qed.
Lemma net_eq_of v a b : wf_net v a -> wf_net v b -> unscoped a -> unscoped b -> first a = first b -> n_prefix a = n_prefix b -> a = b.
Proof. intros Wa Wb Ua Ub F P. apply (net_ext v); auto. unfold unscoped, first in *. apply (addr_eq v); [apply Wa|apply Wb|congruence|congruence]. Qed.
Lemma subset_eq v a b : wf_net v a -> wf_net v b -> unscoped a -> unscoped b -> subset v a b -> n_prefix a = n_prefix b -> a = b.
Proof.
  intros Wa Wb Ua Ub H E. apply (subset_antisym v); auto. apply (nested v b a (first a)); auto; [lia| |pose proof (net_top v a Wa); unfold in_net; lia].
  apply H. pose proof (net_top v a Wa). unfold in_net. lia.
Qed.

(** *** States of the iterator *)
Section Run.
Variables (sp : bool) (v : ver) (o : net).
Hypotheses (Wo : wf_net v o) (Uo : unscoped o).
(** [n]: the network still to be split; [c]: the current element. *)
Definition splitting (n : net) (it : xit) : Prop :=
  wf_net v n /\ unscoped n /\ n_prefix n < n_prefix o /\ subset v o n /\ x_other it = o /\
  nth_subnet v n (n_prefix n + 1) 0 (x_s1 it) /\ nth_subnet v n (n_prefix n + 1) 1 (x_s2 it) /\
  wf_net v (x_current it) /\ n_prefix (x_current it) = n_prefix n.
Definition xstate (r : nat) (it : xit) : Prop :=
  (r = 0%nat /\ it = xit_default v) \/
  ((0 < r)%nat /\ beside v o (n_prefix o + 1 - Z.of_nat r) (x_current it) /\
   ((exists n, splitting n it /\ Z.of_nat r = 1 + n_prefix o - n_prefix n) \/
    (r = 1%nat /\ x_other it = o /\ wf_net v (x_s1 it) /\ wf_net v (x_s2 it) /\ x_s1 it <> x_s2 it /\
     ((x_s1 it = o /\ x_current it = x_s2 it) \/ (x_s2 it = o /\ x_current it = x_s1 it))))).
Lemma eqb_true a b : wf_net v a -> wf_net v b -> a = b -> net_eqb v a b = Ret true.
Proof. intros Wa Wb E. destruct (net_eqb_ok v a b Wa Wb) as (r & -> & H). f_equal. apply H. exact E. Qed.
Lemma eqb_false a b : wf_net v a -> wf_net v b -> a <> b -> net_eqb v a b = Ret false.
Proof. intros Wa Wb E. destruct (net_eqb_ok v a b Wa Wb) as (r & -> & H). f_equal. destruct r; [|reflexivity]. exfalso. apply E, H. reflexivity. Qed.
Lemma subnet_true a b : wf_net v a -> wf_net v b -> unscoped a -> unscoped b -> subset v a b -> subnet_of sp v a b = Ret true.
Proof. intros Wa Wb Ua Ub H. destruct (subnet_spec sp v a b Wa Wb Ua Ub) as (r & -> & _ & K). f_equal. apply K. exact H. Qed.
Lemma subnet_false a b : wf_net v a -> wf_net v b -> unscoped a -> unscoped b -> ~ subset v a b -> subnet_of sp v a b = Ret false.
Proof. intros Wa Wb Ua Ub H. destruct (subnet_spec sp v a b Wa Wb Ua Ub) as (r & -> & _ & K). f_equal. destruct r; [|reflexivity]. exfalso. apply H, K. reflexivity. Qed.
Lemma prefix_ne a b : n_prefix a <> n_prefix b -> a <> b. Proof. congruence. Qed.
Lemma in_first a : wf_net v a -> in_net v a (first a). Proof. intros W. pose proof (net_top v a W). unfold in_net. lia. Qed.
Lemma half_beside n a b (Wn : wf_net v n) : wf_net v a -> wf_net v b -> unscoped b -> n_prefix b = n_prefix n + 1 -> disjoint v b a -> subset v o a -> subset v b n -> subset v o n ->
  beside v o (n_prefix n + 1) b.
Proof.
  intros Wa Wb Ub Pb D So Sb Sn. split; [exact Wb|]. split; [exact Ub|]. split; [exact Pb|]. split; [intros x Xb Xo; exact (D x Xb (So x Xo))|].
  exists n. split; [exact Wn|]. split; [lia|]. auto.
Qed.
(** One step: the element beside the half holding [o]. *)
Lemma split_step n it : splitting n it -> exists it', xit_next sp v it = Ret it' /\ xstate (Z.to_nat (n_prefix o - n_prefix n)) it'.
Proof.
  intros (Wn & Un & Hp & Sn & Eo & Ha & Hb & Wc & Pc). assert (P0 : 0 <= n_prefix n) by apply Wn. assert (Po : n_prefix o <= width v) by apply Wo.
  destruct (half_facts v n _ _ o Wn ltac:(lia) Ha Hb Wo Hp Sn) as (U & D & So). pose proof Ha as (Wa & Ua & Pa & _). pose proof Hb as (Wb & Ub & Pb & _).
  destruct it as [o' a b c]. cbn [x_other x_s1 x_s2 x_current] in *. subst o'. unfold xit_next. cbn [x_other x_s1 x_s2 x_current].
  assert (Ca : c <> a) by (apply prefix_ne; lia). assert (Cb : c <> b) by (apply prefix_ne; lia).
  assert (Sa : subset v a n) by (intros x Hx; apply U; auto). assert (Sb : subset v b n) by (intros x Hx; apply U; auto).
  assert (Db : disjoint v b a) by (intros x X1 X2; exact (D x X2 X1)).
  assert (NE : forall h k, wf_net v h -> disjoint v h k -> h <> k).
  { intros h k Wh Dh ->. exact (Dh _ (in_first _ Wh) (in_first _ Wh)). }
  destruct So as [So|So].
  - assert (Nb : b <> o). { intros <-. exact (Db _ (in_first _ Wb) (So _ (in_first _ Wb))). }
    assert (Bs : beside v o (n_prefix n + 1) b) by (apply (half_beside n a b); assumption).
    rewrite (eqb_false b o) by assumption. destruct (Z.eq_dec (n_prefix o) (n_prefix n + 1)) as [E|E].
    + assert (a = o) as -> by (symmetry; apply (subset_eq v); auto; lia). rewrite (eqb_true o o) by auto. cbn [bind negb andb]. rewrite (eqb_false c b) by assumption. cbn [bind negb].
      eexists. split; [reflexivity|]. replace (n_prefix o - n_prefix n) with 1 by lia. right. split; [lia|]. cbn [x_current]. split; [replace (n_prefix o + 1 - Z.of_nat (Z.to_nat 1)) with (n_prefix n + 1) by lia; exact Bs|].
      right. cbn [x_other x_s1 x_s2]. split; [reflexivity|]. split; [reflexivity|]. split; [exact Wo|]. split; [exact Wb|]. split; [intros K; apply Nb; symmetry; exact K|]. left. auto.
    + assert (a <> o) by (apply prefix_ne; lia). rewrite (eqb_false a o) by assumption. cbn [bind negb andb]. rewrite subnet_true by assumption. cbn [bind]. rewrite (eqb_false c b) by assumption. cbn [bind negb].
      destruct (halves_ok sp v a Wa ltac:(lia)) as (a1 & a2 & -> & H1 & H2). cbn [bind]. eexists. split; [reflexivity|].
      right. split; [lia|]. cbn [x_current]. rewrite Z2Nat.id by lia. split; [replace (n_prefix o + 1 - (n_prefix o - n_prefix n)) with (n_prefix n + 1) by lia; exact Bs|].
      left. exists a. split; [|lia]. split; [exact Wa|]. split; [exact Ua|]. split; [lia|]. split; [exact So|]. cbn [x_other x_s1 x_s2 x_current]. split; [reflexivity|]. split; [exact H1|]. split; [exact H2|]. split; [exact Wb|lia].
  - assert (Na : a <> o). { intros <-. exact (D _ (in_first _ Wa) (So _ (in_first _ Wa))). }
    assert (Bs : beside v o (n_prefix n + 1) a) by (apply (half_beside n b a); assumption).
    rewrite (eqb_false a o) by assumption. destruct (Z.eq_dec (n_prefix o) (n_prefix n + 1)) as [E|E].
    + assert (b = o) as -> by (symmetry; apply (subset_eq v); auto; lia). rewrite (eqb_true o o) by auto. cbn [bind negb andb]. rewrite (eqb_false c a) by assumption. cbn [bind negb].
      eexists. split; [reflexivity|]. replace (n_prefix o - n_prefix n) with 1 by lia. right. split; [lia|]. cbn [x_current]. split; [replace (n_prefix o + 1 - Z.of_nat (Z.to_nat 1)) with (n_prefix n + 1) by lia; exact Bs|].
      right. cbn [x_other x_s1 x_s2]. split; [reflexivity|]. split; [reflexivity|]. split; [exact Wa|]. split; [exact Wo|]. split; [exact Na|]. right. auto.
    + assert (b <> o) by (apply prefix_ne; lia). rewrite (eqb_false b o) by assumption. cbn [bind negb andb].
      rewrite (subnet_false o a) by (auto; intros K; exact (D _ (K _ (in_first _ Wo)) (So _ (in_first _ Wo)))). cbn [bind].
      rewrite (subnet_true o b) by assumption. cbn [bind]. rewrite (eqb_false c a) by assumption. cbn [bind negb].
      destruct (halves_ok sp v b Wb ltac:(lia)) as (a1 & a2 & -> & H1 & H2). cbn [bind]. eexists. split; [reflexivity|].
      right. split; [lia|]. cbn [x_current]. rewrite Z2Nat.id by lia. split; [replace (n_prefix o + 1 - (n_prefix o - n_prefix n)) with (n_prefix n + 1) by lia; exact Bs|].
      left. exists b. split; [|lia]. split; [exact Wb|]. split; [exact Ub|]. split; [lia|]. split; [exact So|]. cbn [x_other x_s1 x_s2 x_current]. split; [reflexivity|]. split; [exact H1|]. split; [exact H2|]. split; [exact Wa|lia].
Qed.
Lemma xstate_next r it : xstate (S r) it -> exists it', xit_next sp v it = Ret it' /\ xstate r it'.
Proof.
  intros [[? _]|(_ & Bs & [(n & Sp & E)|(E & Eo & W1 & W2 & Ne & K)])]; [discriminate| |].
  - destruct (split_step n it Sp) as (it' & E1 & E2). exists it'. split; [exact E1|]. replace (Z.to_nat (n_prefix o - n_prefix n)) with r in E2 by lia. exact E2.
  - assert (r = 0%nat) as -> by lia. exists (xit_default v). split; [|left; auto]. unfold xit_next. rewrite Eo. destruct K as [[K1 K2]|[K1 K2]].
    + rewrite K2, K1 in *. rewrite (eqb_true o o) by auto. rewrite (eqb_false (x_s2 it) o) by (auto; congruence). cbn [bind negb andb]. rewrite (eqb_true (x_s2 it) (x_s2 it)) by auto. reflexivity.
    + rewrite K2, K1 in *. rewrite (eqb_true o o) by auto. rewrite (eqb_false (x_s1 it) o) by auto. cbn [bind negb andb]. rewrite (eqb_true (x_s1 it) (x_s1 it)) by auto. reflexivity.
Qed.
Lemma default_first : first (net_default v) = 0 /\ n_prefix (net_default v) = width v.
Proof. destruct v; split; reflexivity. Qed.
Lemma beside_default q m : beside v o q m -> q <= n_prefix o -> m = net_default v -> is_one v o.
Proof.
  intros (Wm & Um & Pm & D & a & Wa & Pa & So & Sm) Hq ->. destruct default_first as [F0 P0]. rewrite P0 in Pm. assert (Po : n_prefix o <= width v) by apply Wo. split; [lia|].
  pose proof (net_top v o Wo) as To. pose proof (net_top v a Wa) as Ta. assert (Sz : size v a = 2) by (unfold size; rewrite Pa, <- Pm; replace (width v - (width v - 1)) with 1 by lia; reflexivity).
  pose proof (Sm _ (in_first _ Wm)) as X. rewrite F0 in X. pose proof (So _ (in_first _ Wo)) as Y. unfold in_net in X, Y.
  assert (first o <> 0). { intros K. apply (D 0); [rewrite <- F0; apply in_first; exact Wm|rewrite <- K; apply in_first; exact Wo]. } lia.
Qed.
Lemma xstate_eqb : ~ is_one v o -> forall r it, xstate r it -> xit_eqb v it (xit_default v) = Ret (r =? 0)%nat.
Proof.
  intros G r it H. unfold xit_eqb. cbn [xit_default x_current]. destruct H as [[-> ->]|(Hr & Bs & _)].
  - apply eqb_true; [apply net_default_wf|apply net_default_wf|reflexivity].
  - destruct r as [|r]; [lia|]. cbn [Nat.eqb]. apply eqb_false; [apply Bs|apply net_default_wf|]. intros K. apply G. apply (beside_default _ _ Bs); [lia|exact K].
Qed.
End Run.

Definition xcount (n o : net) : Z := n_prefix o - n_prefix n.
Lemma exclude_core sp v n o : wf_net v n -> wf_net v o -> unscoped n -> unscoped o -> subset v o n -> n_prefix n < n_prefix o ->
  exists it, xit_make sp v n o = Ret it /\ xstate v o (Z.to_nat (xcount n o)) it.
Proof.
  intros Wn Wo Un Uo So Hp. assert (Po : n_prefix o <= width v) by apply Wo. unfold xit_make. destruct (halves_ok sp v n Wn ltac:(lia)) as (a & b & -> & Ha & Hb). cbn [bind].
  apply split_step; auto. split; [exact Wn|]. split; [exact Un|]. split; [exact Hp|]. split; [exact So|]. cbn [x_other x_s1 x_s2 x_current]. auto.
Qed.

(** *** The elements as blocks *)
Lemma block_iff f k x : 0 < k -> f mod k = 0 -> (f <= x < f + k <-> x / k = f / k).
Proof.
  intros Hk Hf. pose proof (Z.div_mod f k ltac:(lia)) as Ef. pose proof (Z.div_mod x k ltac:(lia)) as Ex. pose proof (Z.mod_pos_bound x k Hk). rewrite Hf in Ef.
  set (a := f / k) in *. set (b := x / k) in *. split; [intros H1|intros ->]; nia.
Qed.
Definition blk (v : ver) (q x : Z) : Z := x / 2 ^ (width v - q).
Lemma in_net_iff v n x : wf_net v n -> (in_net v n x <-> blk v (n_prefix n) x = blk v (n_prefix n) (first n)).
Proof. intros W. apply block_iff; [apply (proj2 (size_div v n W))|apply W]. Qed.
Lemma blk_up v x q : 1 <= q <= width v -> blk v (q - 1) x = blk v q x / 2.
Proof.
  intros H. unfold blk. pose proof (pow2_pos (width v - q) ltac:(lia)). rewrite Z.div_div by lia. f_equal. replace (width v - (q - 1)) with (width v - q + 1) by lia. rewrite pow2_split by lia. reflexivity.
Qed.
Lemma blk_further v x y q r : 0 <= q <= r -> r <= width v -> blk v r x = blk v r y -> blk v q x = blk v q y.
Proof.
  intros Hq Hr. unfold blk. replace (width v - q) with (width v - r + (r - q)) by lia. rewrite pow2_split by lia. pose proof (pow2_pos (width v - r) ltac:(lia)). pose proof (pow2_pos (r - q) ltac:(lia)).
  rewrite <- !Z.div_div by lia. intros ->. reflexivity.
Qed.
Lemma half_block a b c : a / 2 = b / 2 -> a <> b -> (c = a <-> c / 2 = b / 2 /\ c <> b).
Proof. intros H K. lia. Qed.
Lemma beside_in v o q m x : wf_net v o -> 1 <= q <= n_prefix o -> beside v o q m ->
  (in_net v m x <-> blk v (q - 1) x = blk v (q - 1) (first o) /\ blk v q x <> blk v q (first o)).
Proof.
  intros Wo Hq (Wm & _ & Pm & D & a & Wa & Pa & So & Sm). assert (Po : n_prefix o <= width v) by apply Wo. assert (Q : 1 <= q <= width v) by lia.
  pose proof (So _ (in_first v o Wo)) as X. rewrite in_net_iff in X by exact Wa. pose proof (Sm _ (in_first v m Wm)) as Y. rewrite in_net_iff in Y by exact Wa. rewrite Pa in X, Y.
  assert (Ne : blk v q (first m) <> blk v q (first o)).
  { intros K. apply (D (first o)); [|apply in_first; exact Wo]. apply in_net_iff; [exact Wm|]. rewrite Pm. symmetry. exact K. }
  rewrite in_net_iff, Pm by exact Wm. rewrite <- X in Y. rewrite !(blk_up v _ q Q) in *. apply half_block; assumption.
Qed.
Lemma listed_cover v n o l x : wf_net v n -> wf_net v o -> subset v o n -> listed v o (n_prefix n) l -> Z.of_nat (length l) = n_prefix o - n_prefix n ->
  (in_net v n x <-> in_net v o x \/ exists m, In m l /\ in_net v m x).
Proof.
  intros Wn Wo So Hl Len. assert (P0 : 0 <= n_prefix n) by apply Wn. assert (Po : n_prefix o <= width v) by apply Wo.
  pose proof (So _ (in_first v o Wo)) as X. rewrite in_net_iff in X by exact Wn. split.
  - intros Hx. rewrite in_net_iff in Hx by exact Wn. rewrite <- X in Hx.
    assert (K : forall j, (j <= length l)%nat -> blk v (n_prefix n + Z.of_nat j) x = blk v (n_prefix n + Z.of_nat j) (first o) \/ exists m, In m l /\ in_net v m x).
    { induction j as [|j IH]; intros Hj; [left; rewrite Z.add_0_r; exact Hx|]. destruct IH as [IH|IH]; [lia| |auto].
      destruct (Z.eq_dec (blk v (n_prefix n + Z.of_nat (S j)) x) (blk v (n_prefix n + Z.of_nat (S j)) (first o))) as [E|E]; [auto|right].
      destruct (Hl j ltac:(lia)) as (m & Em & Bm). exists m. split; [eapply nth_error_In; exact Em|]. apply (beside_in v o _ m x Wo) in Bm; [|lia]. apply Bm.
      replace (n_prefix n + 1 + Z.of_nat j - 1) with (n_prefix n + Z.of_nat j) by lia. replace (n_prefix n + 1 + Z.of_nat j) with (n_prefix n + Z.of_nat (S j)) by lia. auto. }
    destruct (K (length l) ltac:(lia)) as [E|E]; [left|auto]. apply in_net_iff; [exact Wo|]. replace (n_prefix n + Z.of_nat (length l)) with (n_prefix o) in E by lia. exact E.
  - intros [Hx|(m & Im & Hx)]; [auto|]. apply In_nth_error in Im as (i & Ei). assert (Hi : (i < length l)%nat) by (apply nth_error_Some; congruence).
    destruct (Hl i Hi) as (m' & Em & Bm). assert (m' = m) as -> by congruence. apply (beside_in v o _ m x Wo) in Bm; [|lia]. apply Bm in Hx as [Hx _].
    apply in_net_iff; [exact Wn|]. rewrite <- X. eapply blk_further; [| |exact Hx]; lia.
Qed.
Lemma listed_disjoint v n o l i j a b : wf_net v n -> wf_net v o -> listed v o (n_prefix n) l -> Z.of_nat (length l) = n_prefix o - n_prefix n ->
  (i < j)%nat -> nth_error l i = Some a -> nth_error l j = Some b -> disjoint v a b.
Proof.
  intros Wn Wo Hl Len Hij Ha Hb x Xa Xb. assert (P0 : 0 <= n_prefix n) by apply Wn. assert (Po : n_prefix o <= width v) by apply Wo.
  assert (Hj : (j < length l)%nat) by (apply nth_error_Some; congruence).
  destruct (Hl i ltac:(lia)) as (a' & Ea & Ba). destruct (Hl j Hj) as (b' & Eb & Bb). assert (a' = a) as -> by congruence. assert (b' = b) as -> by congruence.
  apply (beside_in v o _ _ x Wo) in Ba; [|lia]. apply (beside_in v o _ _ x Wo) in Bb; [|lia]. apply Ba in Xa as [_ Xa]. apply Bb in Xb as [Xb _]. apply Xa.
  eapply blk_further; [| |exact Xb]; lia.
Qed.

(** *** address_exclude() *)
Lemma subset_bare v n o : wf_net v n -> wf_net v o -> (subset v (bare v o) (bare v n) <-> subset v o n).
Proof. intros Wn Wo. split; intros H x Hx; apply (in_bare v); auto; apply H; apply (in_bare v); auto. Qed.
Lemma exclude_not sp v n o : wf_net v n -> wf_net v o -> ~ subset v o n -> address_exclude sp v n o = Err not_contained_network 0.
Proof.
  intros Wn Wo H. destruct (bare_ok v n Wn) as (Wbn & Ubn & _). destruct (bare_ok v o Wo) as (Wbo & Ubo & _). unfold address_exclude, exclude_code.
  rewrite !remove_scope_net_ok by assumption. cbn [bind]. rewrite subnet_false; [reflexivity|assumption..|]. rewrite subset_bare by assumption. exact H.
Qed.
Lemma exclude_same sp v n o k : wf_net v n -> wf_net v o -> subset v o n -> n_prefix n = n_prefix o ->
  exists s, address_exclude sp v n o = Ret s /\ exclude_walk sp v k (e_begin s) (e_end s) = Ret [].
Proof.
  intros Wn Wo H E. destruct (bare_ok v n Wn) as (Wbn & Ubn & _ & Pn). destruct (bare_ok v o Wo) as (Wbo & Ubo & _ & Po). unfold address_exclude, exclude_code.
  rewrite !remove_scope_net_ok by assumption. cbn [bind]. rewrite <- subset_bare in H by assumption. rewrite subnet_true by assumption. cbn [bind negb].
  assert (bare v n = bare v o) as -> by (symmetry; apply (subset_eq v); auto; congruence). rewrite eqb_true by auto. cbn [bind]. eexists. split; [reflexivity|].
  unfold exclude_walk. destruct k; cbn [walk e_begin e_end exclude_default]; unfold xit_eqb; rewrite eqb_true by (apply net_default_wf || reflexivity); reflexivity.
Qed.
Lemma beside_bare v o q m : wf_net v o -> (beside v (bare v o) q m <-> beside v o q m).
Proof.
  intros Wo. unfold beside, disjoint, subset. pose proof (in_bare v o) as B. split; intros (W & U & P & D & a & Wa & Pa & So & Sm); (split; [exact W|split; [exact U|split; [exact P|split; [|exists a; split; [exact Wa|split; [exact Pa|split; [|exact Sm]]]]]]]); intros x; specialize (B x Wo).
  - intros X Y. apply (D x X), B, Y.
  - intros X. apply So, B, X.
  - intros X Y. apply (D x X), B, Y.
  - intros X. apply So, B, X.
Qed.
Lemma exclude_list sp v n o : wf_net v n -> wf_net v o -> subset v o n -> n_prefix n < n_prefix o -> ~ is_one v o ->
  exists s l, address_exclude sp v n o = Ret s /\
    exclude_walk sp v (Z.to_nat (n_prefix o - n_prefix n)) (e_begin s) (e_end s) = Ret l /\ Z.of_nat (length l) = n_prefix o - n_prefix n /\ listed v o (n_prefix n) l /\
    forall k, Z.of_nat k < n_prefix o - n_prefix n -> exclude_walk sp v k (e_begin s) (e_end s) = UB OutOfFuel.
Proof.
  intros Wn Wo H Hp G. destruct (bare_ok v n Wn) as (Wbn & Ubn & _ & Pn). destruct (bare_ok v o Wo) as (Wbo & Ubo & Fo & Po). unfold address_exclude, exclude_code.
  rewrite !remove_scope_net_ok by assumption. cbn [bind]. rewrite <- subset_bare in H by assumption. rewrite subnet_true by assumption. cbn [bind negb].
  rewrite eqb_false by (auto; apply prefix_ne; lia). cbn [bind]. destruct (exclude_core sp v (bare v n) (bare v o) Wbn Wbo Ubn Ubo H ltac:(lia)) as (it & -> & X). cbn [bind].
  assert (G' : ~ is_one v (bare v o)) by (unfold is_one; rewrite Fo, Po; exact G). unfold xcount in X. rewrite Pn, Po in X. set (r := Z.to_nat (n_prefix o - n_prefix n)) in *.
  pose proof (walk_gen (xit_eqb v) (xit_next sp v) x_current (xit_default v) _ (xstate_eqb v (bare v o) Wbo G') (xstate_next sp v (bare v o) Wbo Ubo)) as Wk.
  pose proof (Wk r r it X) as Wr. rewrite Nat.leb_refl in Wr. destruct Wr as (l & El & Hl & Hi). eexists. exists l. split; [reflexivity|]. split; [exact El|]. split; [rewrite Hl; unfold r; lia|]. split.
  - intros i Hlt. rewrite Hl in Hlt. destruct (Hi i Hlt) as (x & Px & Ex). exists (x_current x). split; [exact Ex|]. destruct Px as [[? _]|(_ & Bs & _)]; [lia|]. apply (proj1 (beside_bare v o _ _ Wo)) in Bs. rewrite Po in Bs.
    replace (n_prefix n + 1 + Z.of_nat i) with (n_prefix o + 1 - Z.of_nat (r - i)) by lia. exact Bs.
  - intros k Hk. pose proof (Wk k r it X) as Wr. destruct (Nat.leb_spec r k); [lia|exact Wr].
Qed.
