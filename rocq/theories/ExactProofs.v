(** What the comparison operators written before C++20 and subnet_of do with
    different scope ids, exactly. *)
From Verif Require Import Base Tac UnicodeModel FixedStringModel V4Model V6Model Uint128Model SpecInt SpecAddr SpecStr SpecV4 SpecV6
  StrProofs AddressModel SpecOrder AddressProofs NetworkModel IterModel ClassifyModel SpecNet NetProofs NetProofs2 NetProofs3 NetLemmas
  AnyModel SpecAny AnyProofs SpecExact.

Lemma less_exact v a b : wf_addr v a -> wf_addr v b -> exists r, addr_ltb v a b = Ret r /\ (r = true <-> either_before a b).
Proof.
  intros Ha Hb. unfold addr_ltb, either_before. rewrite bytes_ltb_cmp, (bytes_cmp_val v a b Ha Hb). destruct v.
  - pose proof (v4_scope a b Ha Hb) as Es. eexists. split; [reflexivity|]. rewrite Es.
    pose proof (lex_irrefl (a_scope b)) as L.
    destruct (Z.compare_spec (val a) (val b)) as [E|E|E]; (split; [intros K; try discriminate; auto|intros [K|K]; [try lia; reflexivity|contradiction]]).
  - destruct Ha as [Wa [Sa Ca]], Hb as [Wb [Sb Cb]]. destruct (scope_cmp _ _ Sa Sb Ca Cb) as (c & -> & HS). cbn [bind].
    assert (Hc : c <? 0 = true <-> lex_lt (a_scope a) (a_scope b)).
    { rewrite Z.ltb_lt. destruct HS as [[-> HS]|[[Hc HS]|[Hc HS]]].
      - split; [lia|]. rewrite HS. intros K. exfalso. exact (lex_irrefl _ K).
      - tauto.
      - split; [lia|]. intros K. exfalso. exact (lex_irrefl _ (lex_trans _ _ _ K HS)). }
    destruct (Z.compare_spec (val a) (val b)) as [E|E|E]; (eexists; split; [reflexivity|]); rewrite ?Hc; intuition lia.
Qed.
Lemma older_exact v a b : wf_addr v a -> wf_addr v b ->
  exists lt gt le ge, op_lt false v a b = Ret lt /\ op_gt false v a b = Ret gt /\ op_le false v a b = Ret le /\ op_ge false v a b = Ret ge /\
    (lt = true <-> either_before a b) /\ (gt = true <-> either_before b a) /\
    (le = true <-> ~ either_before b a) /\ (ge = true <-> ~ either_before a b).
Proof.
  intros Ha Hb. unfold op_lt, op_gt, op_le, op_ge.
  destruct (less_exact v a b Ha Hb) as (r & -> & Hr). destruct (less_exact v b a Hb Ha) as (q & -> & Hq). cbn [bind].
  do 4 eexists. do 4 (split; [reflexivity|]). rewrite !negb_true_iff, <- !not_true_iff_false, Hr, Hq. tauto.
Qed.
Lemma lex_asym a b : lex_lt a b -> ~ lex_lt b a.
Proof. intros H K. exact (lex_irrefl _ (lex_trans _ _ _ H K)). Qed.
Lemma bool_same (x y : bool) (P Q : Prop) : (x = true <-> P) -> (y = true <-> Q) -> (Ret x = Ret y <-> (P <-> Q)).
Proof.
  intros Hx Hy. rewrite <- Hx, <- Hy. split; [intros E; apply ret_inj in E; subst; tauto|]. intros E. f_equal. apply eq_true_iff_eq. exact E.
Qed.
Lemma either_iff a b : (either_before a b <-> addr_before a b) <-> ~ (val b < val a /\ lex_lt (a_scope a) (a_scope b)).
Proof.
  unfold either_before, addr_before. destruct (Z.lt_trichotomy (val a) (val b)) as [H|[H|H]]; split; intros K; try tauto; try lia.
  - intros [A B]. assert (X : val a < val b \/ val a = val b /\ lex_lt (a_scope a) (a_scope b)) by (apply K; auto). lia.
Qed.
Lemma families_agree v a b : wf_addr v a -> wf_addr v b ->
  (op_lt false v a b = op_lt true v a b <-> ~ (val b < val a /\ lex_lt (a_scope a) (a_scope b))).
Proof.
  intros Ha Hb. destruct (older_exact v a b Ha Hb) as (lt & _ & _ & _ & -> & _ & _ & _ & H & _).
  destruct (op_cpp20 v a b Ha Hb) as (lt' & _ & _ & _ & -> & _ & _ & _ & H' & _).
  rewrite (bool_same _ _ _ _ H H'). apply either_iff.
Qed.
Lemma mask_scope v a b : wf_net v a -> wf_net v b -> a_scope (n_mask a) = a_scope (n_mask b).
Proof. intros (_ & _ & -> & _) (_ & _ & -> & _). reflexivity. Qed.
Lemma net_less_exact v a b : wf_net v a -> wf_net v b ->
  exists r, net_ltb v a b = Ret r /\ (r = true <-> net_either_before a b).
Proof.
  intros Wa Wb. unfold net_ltb, net_either_before.
  assert (M : n_addr a = n_addr b -> (n_prefix a < n_prefix b <-> addr_before (n_mask a) (n_mask b))).
  { intros E. pose proof (net_before_iff v a b Wa Wb) as X. unfold net_before in X. rewrite E in X. pose proof (before_irrefl (n_addr b)). tauto. }
  destruct (addr_eqb_ok v _ _ (proj1 Wa) (proj1 Wb)) as (r & -> & H). cbn [bind]. destruct r; cbn [negb].
  - assert (Ea : n_addr a = n_addr b) by (apply H; reflexivity).
    assert (I : ~ either_before (n_addr a) (n_addr b)).
    { rewrite Ea. intros [K|K]; [lia|exact (lex_irrefl _ K)]. }
    specialize (M Ea).
    destruct (addr_eqb_ok v _ _ (proj1 (proj2 Wa)) (proj1 (proj2 Wb))) as (r & -> & H'). cbn [bind]. destruct r; cbn [negb].
    + exists false. split; [reflexivity|]. split; [discriminate|]. intros [K|[_ K]]; [contradiction|].
      apply M in K. rewrite (proj1 H' eq_refl) in K. exfalso. exact (before_irrefl _ K).
    + destruct (less_ok v _ _ (proj1 (proj2 Wa)) (proj1 (proj2 Wb)) (mask_scope v a b Wa Wb)) as (r & -> & Hr). exists r. split; [reflexivity|].
      rewrite Hr. tauto.
  - destruct (less_exact v _ _ (proj1 Wa) (proj1 Wb)) as (r & -> & Hr). exists r. split; [reflexivity|]. rewrite Hr.
    assert (n_addr a <> n_addr b) by (intros K; apply H in K; discriminate). tauto.
Qed.
Lemma net_older_exact v a b : wf_net v a -> wf_net v b ->
  exists lt gt le ge, nop_lt false v a b = Ret lt /\ nop_gt false v a b = Ret gt /\ nop_le false v a b = Ret le /\ nop_ge false v a b = Ret ge /\
    (lt = true <-> net_either_before a b) /\ (gt = true <-> net_either_before b a) /\
    (le = true <-> ~ net_either_before b a) /\ (ge = true <-> ~ net_either_before a b).
Proof.
  intros Ha Hb. unfold nop_lt, nop_gt, nop_le, nop_ge.
  destruct (net_less_exact v a b Ha Hb) as (r & -> & Hr). destruct (net_less_exact v b a Hb Ha) as (q & -> & Hq). cbn [bind].
  do 4 eexists. do 4 (split; [reflexivity|]). rewrite !negb_true_iff, <- !not_true_iff_false, Hr, Hq. tauto.
Qed.
(** subnet_of: inclusion, and a condition on the scope ids. *)
Lemma subnet_exact sp v a b : wf_net v a -> wf_net v b ->
  exists r, subnet_of sp v a b = Ret r /\ supernet_of sp v b a = Ret r /\ (r = true <-> subset v a b /\ scopes_allow sp a b).
Proof.
  intros Wa Wb. assert (S0 : supernet_of sp v b a = subnet_of sp v a b) by reflexivity. rewrite S0. clear S0.
  cut (exists r, subnet_of sp v a b = Ret r /\ (r = true <-> subset v a b /\ scopes_allow sp a b)).
  { intros (r & E & H). exists r. auto. }
  pose proof (subset_ends v a b Wa Wb) as E. destruct sp; cbn [scopes_allow].
  - destruct (subnet_scoped v a b Wa Wb) as (r & -> & H). exists r. split; [reflexivity|]. rewrite H, E. unfold addr_before.
    change (val (n_addr a)) with (first a). change (val (n_addr b)) with (first b).
    assert (T : first a = first b -> (~ lex_lt (a_scope (n_addr a)) (a_scope (n_addr b)) <-> lex_lt (a_scope (n_addr b)) (a_scope (n_addr a)) \/ n_addr b = n_addr a)).
    { intros F. split.
      - intros N. destruct (before_total v (n_addr a) (n_addr b) (proj1 Wa) (proj1 Wb)) as [[K|[_ K]]|[K|[K|[_ K]]]]; auto; try contradiction;
          unfold first in F; lia.
      - intros [K|K] L; [exact (lex_asym _ _ K L)|rewrite K in L; exact (lex_irrefl _ L)]. }
    split.
    + intros [[[K|[K L]]|K] M]; (split; [split; [try (unfold first; rewrite K); lia|lia]|]); intros [F G]; [lia| |].
      * exact (lex_asym _ _ G L).
      * rewrite K in G. exact (lex_irrefl _ G).
    + intros [[K M] N]. split; [|exact M]. destruct (Z.eq_dec (first a) (first b)) as [F|F]; [|left; left; lia].
      destruct (proj1 (T F) ltac:(tauto)) as [G|G]; [left; right; split; [lia|exact G]|right; exact G].
  - destruct (broadcast_spec v a Wa) as (Wba & Vba & Sba). destruct (broadcast_spec v b Wb) as (Wbb & Vbb & Sbb).
    unfold subnet_of, is_subnet_of.
    destruct (older_exact v (n_addr b) (n_addr a) (proj1 Wb) (proj1 Wa)) as (_ & _ & le & _ & _ & _ & -> & _ & _ & _ & H & _).
    destruct (le_unscoped false v (broadcast b) (broadcast a) Wbb Wba) as (_ & -> & _); [congruence|].
    cbn [bind]. rewrite Vba, Vbb. unfold either_before in H. change (val (n_addr a)) with (first a) in H. change (val (n_addr b)) with (first b) in H.
    destruct le.
    + eexists. split; [reflexivity|]. rewrite Z.leb_le, E. apply proj1 in H. specialize (H eq_refl).
      split; [intros K; split; [split; [lia|lia]|tauto]|intros [[_ K] _]; lia].
    + exists false. split; [reflexivity|]. split; [discriminate|]. intros [K L]. apply H. intros [M|M]; [|contradiction]. apply E in K. lia.
Qed.

(** *** Version-erased *)
Lemma any_less_exact x y : wf_any x -> wf_any y -> exists r, any_ltb x y = Ret r /\ (r = true <-> any_either_before x y).
Proof.
  destruct x as [[|] a], y as [[|] b]; unfold wf_any, any_either_before; cbn [aa_ver aa_addr]; intros Wx Wy; unfold any_ltb;
    cbn [aa_ver aa_addr ver_num Z.ltb Z.gtb Z.compare Pos.compare Pos.compare_cont ver_eqb Z.eqb Pos.eqb].
  2: exists true; split; [reflexivity|]; tauto.
  2: exists false; split; [reflexivity|]; split; [discriminate|]; intros [[? ?]|[? ?]]; discriminate.
  all: destruct (less_exact _ a b Wx Wy) as (r & -> & H); exists r; split; [reflexivity|]; rewrite H; split; [intros K; right; auto|intros [[? ?]|[_ K]]; [discriminate|exact K]].
Qed.
Lemma any_older_exact x y : wf_any x -> wf_any y ->
  exists lt gt le ge, any_lt false x y = Ret lt /\ any_gt false x y = Ret gt /\ any_le false x y = Ret le /\ any_ge false x y = Ret ge /\
    (lt = true <-> any_either_before x y) /\ (gt = true <-> any_either_before y x) /\
    (le = true <-> ~ any_either_before y x) /\ (ge = true <-> ~ any_either_before x y).
Proof.
  intros Ha Hb. unfold any_lt, any_gt, any_le, any_ge.
  destruct (any_less_exact x y Ha Hb) as (r & -> & Hr). destruct (any_less_exact y x Hb Ha) as (q & -> & Hq). cbn [bind].
  do 4 eexists. do 4 (split; [reflexivity|]). rewrite !negb_true_iff, <- !not_true_iff_false, Hr, Hq. tauto.
Qed.
Lemma anet_less_exact x y : wf_anet x -> wf_anet y -> exists r, anet_ltb x y = Ret r /\ (r = true <-> anet_either_before x y).
Proof.
  destruct x as [[|] a], y as [[|] b]; unfold wf_anet, anet_either_before; cbn [an_ver an_net]; intros Wx Wy; unfold anet_ltb;
    cbn [an_ver an_net ver_num Z.ltb Z.gtb Z.compare Pos.compare Pos.compare_cont ver_eqb Z.eqb Pos.eqb].
  2: exists true; split; [reflexivity|]; tauto.
  2: exists false; split; [reflexivity|]; split; [discriminate|]; intros [[? ?]|[? ?]]; discriminate.
  all: destruct (net_less_exact _ a b Wx Wy) as (r & -> & H); exists r; split; [reflexivity|]; rewrite H; split; [intros K; right; auto|intros [[? ?]|[_ K]]; [discriminate|exact K]].
Qed.
Lemma anet_member_subset v n m : wf_net v n -> (subset v n m <-> forall a, any_member (mk_an v n) a -> any_member (mk_an v m) a).
Proof.
  intros Wn. unfold any_member. cbn [an_ver an_net]. split.
  - intros K a [E H]. split; [exact E|]. apply K. exact H.
  - intros K x Hx. destruct (addr_of_any v x (member_range _ _ _ Wn Hx)) as [_ E]. destruct (K (mk_aa v (addr_of v x))) as [_ K']; [cbn [aa_ver aa_addr]; rewrite E; auto|].
    cbn [aa_addr] in K'. rewrite E in K'. exact K'.
Qed.
Lemma anet_subnet_exact sp x y : wf_anet x -> wf_anet y ->
  exists r, anet_subnet_of sp x y = Ret r /\ anet_supernet_of sp y x = Ret r /\
    (r = true <-> (forall a, any_member x a -> any_member y a) /\ scopes_allow sp (an_net x) (an_net y)).
Proof.
  destruct x as [v n], y as [w m]; unfold wf_anet; cbn [an_ver an_net]. intros Wn Wm.
  assert (D : v <> w -> ~ forall a : aaddr, any_member (mk_an v n) a -> any_member (mk_an w m) a).
  { intros Hd K. pose proof (net_top v n Wn) as T. assert (R : in_net v n (first n)) by (unfold in_net; lia).
    destruct (addr_of_any v (first n) (member_range _ _ _ Wn R)) as [_ E]. destruct (K (mk_aa v (addr_of v (first n)))) as [K' _]; [split; [reflexivity|cbn [an_net an_ver aa_addr]; rewrite E; exact R]|].
    cbn in K'. congruence. }
  destruct v, w; unfold anet_subnet_of, anet_supernet_of, anet_is_v4; cbn [an_ver an_net ver_eqb ver_num Z.eqb Pos.eqb].
  2,3: exists false; split; [reflexivity|]; split; [reflexivity|]; split; [discriminate|]; intros [K _]; destruct D; [discriminate|exact K].
  - destruct (subnet_exact sp V4 n m Wn Wm) as (r & -> & -> & H). exists r. split; [reflexivity|]. split; [reflexivity|]. rewrite H, (anet_member_subset V4 n m Wn). reflexivity.
  - destruct (subnet_exact sp V6 n m Wn Wm) as (r & -> & -> & H). exists r. split; [reflexivity|]. split; [reflexivity|]. rewrite H, (anet_member_subset V6 n m Wn). reflexivity.
Qed.
Lemma any_less_wrong : exists x y, wf_any x /\ wf_any y /\ any_lt false x y = Ret true /\ any_lt false y x = Ret true.
Proof.
  destruct ex_ab_wf. exists (mk_aa V6 ex_a), (mk_aa V6 ex_b). do 2 (split; [assumption|]). split; vm_compute; reflexivity.
Qed.

(** *** subnet_of is a partial order whatever the scope ids *)
Lemma subnet_refl sp v a : wf_net v a -> subnet_of sp v a a = Ret true /\ supernet_of sp v a a = Ret true.
Proof.
  intros W. destruct (subnet_exact sp v a a W W) as (r & -> & -> & H).
  assert (R : r = true).
  { apply H. split; [intros x Hx; exact Hx|]. unfold scopes_allow. destruct sp; [intros [_ K]|intros K]; exact (lex_irrefl _ K). }
  subst r. split; reflexivity.
Qed.
Lemma subnet_true sp v a b : wf_net v a -> wf_net v b -> (subnet_of sp v a b = Ret true <-> subset v a b /\ scopes_allow sp a b).
Proof.
  intros Wa Wb. destruct (subnet_exact sp v a b Wa Wb) as (r & -> & _ & H). rewrite <- H. split; [intros K; apply ret_inj in K; exact K|intros ->; reflexivity].
Qed.
Lemma subset_first v a b : wf_net v a -> wf_net v b -> subset v a b -> first b <= first a /\ n_prefix b <= n_prefix a.
Proof.
  intros Wa Wb K. apply (subset_prefix v a b Wa Wb) in K. destruct K as [P [L _]]. auto.
Qed.
Lemma subnet_trans sp v a b c : wf_net v a -> wf_net v b -> wf_net v c ->
  subnet_of sp v a b = Ret true -> subnet_of sp v b c = Ret true -> subnet_of sp v a c = Ret true.
Proof.
  intros Wa Wb Wc. rewrite !subnet_true by assumption. intros [A S] [B T]. split; [exact (subset_trans v a b c A B)|].
  destruct (subset_first v a b Wa Wb A) as [F _]. destruct (subset_first v b c Wb Wc B) as [G _].
  unfold scopes_allow in *. destruct (lex_total (a_scope (n_addr a)) (a_scope (n_addr b))) as [L|[L|L]].
  - destruct sp; [|contradiction]. intros [E _]. apply S. split; [lia|exact L].
  - rewrite L. destruct sp; [|exact T]. intros [E K]. apply T. split; [lia|exact K].
  - destruct sp; [intros [E K]; apply T; split; [lia|]|intros K; apply T]; exact (lex_trans _ _ _ L K).
Qed.
Lemma subnet_antisym sp v a b : wf_net v a -> wf_net v b -> subnet_of sp v a b = Ret true -> subnet_of sp v b a = Ret true -> a = b.
Proof.
  intros Wa Wb. rewrite !subnet_true by assumption. intros [A S] [B T].
  destruct (subset_first v a b Wa Wb A) as [F P]. destruct (subset_first v b a Wb Wa B) as [G Q].
  assert (E : a_scope (n_addr a) = a_scope (n_addr b)).
  { unfold scopes_allow in *. destruct (lex_total (a_scope (n_addr a)) (a_scope (n_addr b))) as [L|[L|L]]; [|exact L|]; exfalso;
      [destruct sp; [apply S; split; [lia|]|apply S]|destruct sp; [apply T; split; [lia|]|apply T]]; exact L. }
  apply (net_ext v); [assumption..| |lia]. destruct Wa as (A1 & _). destruct Wb as (A2 & _). unfold first in F, G. apply (addr_eq v); [assumption|assumption|lia|exact E].
Qed.
