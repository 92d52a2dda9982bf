(** Reverse pointers and networks. *)
From Verif Require Import Base Tac TextProofs UnicodeModel FixedStringModel V4Model V6Model
  SpecText SpecAddr SpecStr SpecV4 SpecV6 V4Proofs BufProofs BitProofs V4Format V4Lemmas V6Proofs V6Full V6Format V6Lemmas
  AddressModel SpecOrder AddressProofs NetworkModel SpecNet NetProofs NetProofs2 AnyModel SpecAny SpecZone.

(** *** Names as lists of labels *)
Definition nodot (l : list Z) : Prop := ~ In 46 l.
Fixpoint dj (ls : list (list Z)) : list Z := match ls with [] => [] | [l] => l | l :: ls' => l ++ 46 :: dj ls' end.
Lemma dj_cons l ls : ls <> [] -> dj (l :: ls) = l ++ 46 :: dj ls.
Proof. destruct ls; [congruence|reflexivity]. Qed.
Lemma dj_app a b : a <> [] -> b <> [] -> dj (a ++ b) = dj a ++ 46 :: dj b.
Proof.
  intros Ha Hb. induction a as [|l a IH]; [congruence|]. destruct a as [|l' a].
  - cbn [app]. rewrite dj_cons by exact Hb. reflexivity.
  - change ((l :: l' :: a) ++ b) with (l :: ((l' :: a) ++ b)). rewrite !dj_cons by discriminate. rewrite IH by discriminate. rewrite <- app_assoc. reflexivity.
Qed.
Lemma dj_inj : forall a b, Forall nodot a -> Forall nodot b -> a <> [] -> b <> [] -> dj a = dj b -> a = b.
Proof.
  assert (One : forall l (m : list (list Z)), nodot l -> m <> [] -> dj [l] = dj m -> m = [l]).
  { intros l [|k m] N Hm E; [congruence|]. destruct m as [|k' m]; [cbn in E; congruence|]. rewrite (dj_cons k) in E by discriminate. cbn [dj] in E.
    destruct N. rewrite E. apply in_app_iff. right. left. reflexivity. }
  induction a as [|l a IH]; intros [|k b] Fa Fb Ha Hb E; try congruence. inversion Fa as [|? ? Nl Fa']. inversion Fb as [|? ? Nk Fb']. subst.
  destruct a as [|l' a]; [symmetry; apply One; [exact Nl|discriminate|exact E]|]. destruct b as [|k' b]; [apply One; [exact Nk|discriminate|symmetry; exact E]|].
  rewrite !dj_cons in E by discriminate. apply sep_unique in E as [-> E]; [|assumption..]. f_equal. apply IH; try assumption; discriminate.
Qed.
Lemma after_dj l ls : nodot l -> ls <> [] -> after_dot (dj (l :: ls)) = dj ls.
Proof.
  intros N H. rewrite dj_cons by exact H. induction l as [|c l IH]; [reflexivity|]. cbn [app after_dot].
  destruct (Z.eqb_spec c 46) as [->|]; [destruct N; left; reflexivity|]. apply IH. intros K. apply N. right. exact K.
Qed.
Lemma drop_dj : forall k ls, Forall nodot ls -> (k < length ls)%nat -> drop_labels k (dj ls) = dj (skipn k ls).
Proof.
  induction k as [|k IH]; intros ls F L; [reflexivity|]. destruct ls as [|l ls]; [cbn in L; lia|]. inversion F as [|? ? N F']. subst. cbn [length] in L.
  cbn [drop_labels skipn]. rewrite after_dj; [|exact N|destruct ls; [cbn in L; lia|discriminate]]. apply IH; [exact F'|lia].
Qed.
Lemma split_dots : forall s, exists ls, ls <> [] /\ Forall nodot ls /\ dj ls = s.
Proof.
  induction s as [|c s (ls & Hl & F & E)].
  - exists [[]]. split; [discriminate|]. split; [constructor; [intros []|constructor]|reflexivity].
  - destruct ls as [|l ls]; [congruence|]. inversion F as [|? ? N F']. subst. destruct (Z.eq_dec c 46) as [->|D].
    + exists ([] :: l :: ls). split; [discriminate|]. split; [constructor; [intros []|exact F]|]. rewrite dj_cons by discriminate. reflexivity.
    + exists ((c :: l) :: ls). split; [discriminate|]. split; [constructor; [|exact F']|].
      * intros [K|K]; [congruence|exact (N K)].
      * destruct ls; [reflexivity|]. rewrite !dj_cons by discriminate. reflexivity.
Qed.
Lemma within_iff ls zs : Forall nodot ls -> Forall nodot zs -> ls <> [] -> zs <> [] -> (within (dj ls) (dj zs) <-> exists pre, ls = pre ++ zs).
Proof.
  intros Fl Fz Nl Nz. split.
  - intros [E|(pre & E)].
    + exists []. apply dj_inj; assumption.
    + destruct (split_dots pre) as (ps & Np & Fp & <-). rewrite <- dj_app in E by assumption. exists ps. apply dj_inj in E; [exact E|exact Fl| |exact Nl|].
      * apply Forall_app. auto.
      * destruct ps; [congruence|discriminate].
  - intros (pre & ->). destruct pre as [|p pre]; [left; reflexivity|]. right. exists (dj (p :: pre)). apply dj_app; [discriminate|exact Nz].
Qed.

(** *** Reverse pointers *)
Definition base (v : ver) : Z := match v with V4 => 256 | V6 => 16 end.
Definition ndigits (v : ver) : nat := match v with V4 => 4 | V6 => 32 end.
Definition lab (v : ver) (d : Z) : list Z := match v with V4 => dec d | V6 => [V6Proofs.hexc d] end.
Definition root (v : ver) : list (list Z) :=
  match v with V4 => [[105;110;45;97;100;100;114]; [97;114;112;97]] | V6 => [[105;112;54]; [97;114;112;97]] end.
Lemma hexc_of c d : digit_char 16 c d -> c = V6Proofs.hexc d.
Proof. unfold digit_char, V6Proofs.hexc. intros H. destruct (Z.ltb_spec d 10); lia. Qed.
Lemma dj_single : forall cs, cs <> [] -> dj (map (fun c => [c]) cs) = dots cs.
Proof.
  induction cs as [|c cs IH]; [congruence|]. intros _. destruct cs as [|c' cs]; [reflexivity|]. cbn [map]. rewrite dj_cons by discriminate.
  change (dots (c :: c' :: cs)) with (c :: 46 :: dots (c' :: cs)). rewrite <- IH by discriminate. reflexivity.
Qed.
Lemma lab_nodot v d : 0 <= d < base v -> nodot (lab v d).
Proof.
  destruct v; cbn [base lab]; intros H C.
  - unfold dec in C. destruct (Z.ltb_spec d 10); [|destruct (Z.ltb_spec d 100)]; cbn [In] in C; lia.
  - cbn [In] in C. unfold V6Proofs.hexc in C. destruct (Z.ltb_spec d 10); lia.
Qed.
Lemma lab_inj v d e : 0 <= d < base v -> 0 <= e < base v -> lab v d = lab v e -> d = e.
Proof.
  destruct v; cbn [base lab]; intros H H' E.
  - unfold dec in E. destruct (Z.ltb_spec d 10); [|destruct (Z.ltb_spec d 100)]; (destruct (Z.ltb_spec e 10); [|destruct (Z.ltb_spec e 100)]); injection E; try discriminate; lia.
  - injection E as E. unfold V6Proofs.hexc in E. destruct (Z.ltb_spec d 10), (Z.ltb_spec e 10); lia.
Qed.
Lemma pointer_labels v a : wf_addr v a -> exists ds, length ds = ndigits v /\ Forall (fun d => 0 <= d < base v) ds /\ horner (base v) 0 ds = val a /\
  any_reverse_pointer (mk_aa v a) = Ret (dj (rev (map (lab v) ds) ++ root v)).
Proof.
  intros [B _]. unfold any_reverse_pointer. destruct v; cbn [aa_ver aa_addr ver_eqb ver_num Z.eqb Pos.eqb].
  - destruct (bytes4 _ B) as (x & y & z & w & E & Hx & Hy & Hz & Hw). exists [x; y; z; w]. split; [reflexivity|].
    split; [repeat constructor; unfold is_byte in *; cbn [base]; lia|]. split; [unfold val; rewrite E; reflexivity|].
    rewrite E in B |- *. destruct (v4_pointer_text true x y z w B) as [-> _]. f_equal. cbn [lab map rev app root dj]. rewrite <- !app_assoc. cbn [app]. rewrite <- !app_assoc. cbn [app]. rewrite <- !app_assoc. reflexivity.
  - destruct (v6_pointer_ok _ B) as (s & -> & (cs & ds & L & D & V & ->)). exists ds.
    assert (M : rev cs = map V6Proofs.hexc ds).
    { clear -D. remember (rev cs) as r. clear Heqr. induction D as [|c d r ds H _ IH]; [reflexivity|]. cbn [map]. rewrite (hexc_of _ _ H), IH. reflexivity. }
    assert (Ld : length ds = 32%nat) by (rewrite <- L, <- (rev_length cs), M, map_length; reflexivity).
    split; [exact Ld|]. split; [exact (digits_of_range _ _ _ D)|]. split; [exact V|]. f_equal.
    assert (Nc : cs <> []) by (destruct cs; [discriminate L|discriminate]).
    change (lab V6) with (fun d => [V6Proofs.hexc d]). rewrite <- (map_map V6Proofs.hexc (fun c => [c])), <- M, map_rev, rev_involutive.
    rewrite dj_app; [|destruct cs; [congruence|discriminate]|discriminate]. rewrite dj_single by exact Nc. reflexivity.
Qed.

(** *** Leading digits *)
Lemma horner_split r ds k : 1 < r -> Forall (fun d => 0 <= d < r) ds -> (k <= length ds)%nat ->
  horner r 0 ds / r ^ Z.of_nat k = horner r 0 (firstn (length ds - k) ds).
Proof.
  intros Hr F K. set (m := (length ds - k)%nat). assert (Lk : length (skipn m ds) = k) by (rewrite skipn_length; lia).
  rewrite <- (firstn_skipn m ds) at 1. assert (G : forall l acc, horner r acc (firstn m ds ++ l) = horner r (horner r acc (firstn m ds)) l).
  { clear. intros l. induction (firstn m ds) as [|x t IH]; intros acc; [reflexivity|]. cbn [app horner]. apply IH. }
  rewrite G, horner_acc by lia. unfold zlen. rewrite Lk.
  assert (R : 0 <= horner r 0 (skipn m ds) < r ^ zlen (skipn m ds)).
  { apply horner_range; [exact Hr|]. rewrite <- (firstn_skipn m ds) in F. apply Forall_app in F. apply F. }
  unfold zlen in R. rewrite Lk in R. symmetry. apply (Z.div_unique_pos _ _ _ (horner r 0 (skipn m ds))); lia.
Qed.
Lemma horner_inj r : 1 < r -> forall xs ys, length xs = length ys -> Forall (fun d => 0 <= d < r) xs -> Forall (fun d => 0 <= d < r) ys ->
  horner r 0 xs = horner r 0 ys -> xs = ys.
Proof.
  intros Hr. induction xs as [|x xs IH]; intros [|y ys] L Fx Fy E; cbn [length] in L; try lia; [reflexivity|].
  inversion Fx as [|? ? Hx Fx']. inversion Fy as [|? ? Hy Fy']. subst. cbn [horner] in E. rewrite (horner_acc r xs), (horner_acc r ys) in E by lia.
  assert (zlen xs = zlen ys) as EL by (unfold zlen; lia). rewrite EL in E. pose proof (horner_range r Hr xs Fx') as Rx. pose proof (horner_range r Hr ys Fy') as Ry. rewrite EL in Rx.
  set (P := r ^ zlen ys) in *. clearbody P. set (u := horner r 0 xs) in *. set (w := horner r 0 ys) in *.
  assert (x = y /\ u = w) as [-> Eu] by (clearbody u w; clear -E Rx Ry; destruct (Z.lt_trichotomy x y) as [|[->|]]; nia).
  f_equal. apply IH; try assumption. lia.
Qed.
Lemma leading r ds es k : 1 < r -> Forall (fun d => 0 <= d < r) ds -> Forall (fun d => 0 <= d < r) es -> length ds = length es -> (k <= length ds)%nat ->
  (horner r 0 ds / r ^ Z.of_nat k = horner r 0 es / r ^ Z.of_nat k <-> firstn (length ds - k) ds = firstn (length ds - k) es).
Proof.
  intros Hr Fd Fe L K. rewrite (horner_split r ds k) by assumption. rewrite (horner_split r es k) by (try assumption; lia). rewrite <- L.
  split; [|intros ->; reflexivity]. intros E. apply (horner_inj r Hr) in E; [exact E| | |].
  - rewrite !firstn_length. lia.
  - rewrite <- (firstn_skipn (length ds - k) ds) in Fd. apply Forall_app in Fd. apply Fd.
  - rewrite <- (firstn_skipn (length ds - k) es) in Fe. apply Forall_app in Fe. apply Fe.
Qed.
Lemma lab_map_inj v : forall ds es, Forall (fun d => 0 <= d < base v) ds -> Forall (fun d => 0 <= d < base v) es -> map (lab v) ds = map (lab v) es -> ds = es.
Proof.
  induction ds as [|d ds IH]; intros [|e es] Fd Fe E; try discriminate E; [reflexivity|]. cbn [map] in E. inversion Fd. inversion Fe. subst.
  assert (lab v d = lab v e /\ map (lab v) ds = map (lab v) es) as [E1 E2] by (split; congruence). f_equal; [eapply lab_inj; eassumption|apply IH; assumption].
Qed.
Lemma skipn_rev_map v ds k : (k <= length ds)%nat -> skipn k (rev (map (lab v) ds)) = rev (map (lab v) (firstn (length ds - k) ds)).
Proof.
  intros K. rewrite <- (firstn_skipn (length ds - k) ds) at 1. rewrite map_app, rev_app_distr, skipn_app.
  assert (length (rev (map (lab v) (skipn (length ds - k) ds))) = k) as E by (rewrite rev_length, map_length, skipn_length; lia).
  rewrite skipn_all2 by lia. rewrite E, Nat.sub_diag. reflexivity.
Qed.
Lemma same_top v ds es k : Forall (fun d => 0 <= d < base v) ds -> Forall (fun d => 0 <= d < base v) es -> length ds = length es -> (k <= length ds)%nat ->
  (skipn k (rev (map (lab v) ds)) = skipn k (rev (map (lab v) es)) <-> horner (base v) 0 ds / base v ^ Z.of_nat k = horner (base v) 0 es / base v ^ Z.of_nat k).
Proof.
  intros Fd Fe L K. rewrite leading by (first [assumption|destruct v; cbn [base]; lia]). rewrite (skipn_rev_map v ds) by exact K. rewrite (skipn_rev_map v es) by lia. rewrite <- L.
  split; [|intros ->; reflexivity]. intros E. apply (f_equal (@rev _)) in E. rewrite !rev_involutive in E. apply lab_map_inj in E; [exact E| |].
  - rewrite <- (firstn_skipn (length ds - k) ds) in Fd. apply Forall_app in Fd. apply Fd.
  - rewrite <- (firstn_skipn (length ds - k) es) in Fe. apply Forall_app in Fe. apply Fe.
Qed.

(** *** Zones *)
Definition labels_of (v : ver) (p : Z) : nat := Z.to_nat ((width v - p) / label_bits v).
Lemma zone_size v p : 0 <= p <= width v -> p mod label_bits v = 0 -> (labels_of v p <= ndigits v)%nat /\ base v ^ Z.of_nat (labels_of v p) = 2 ^ (width v - p).
Proof.
  intros H M. unfold labels_of. destruct v; cbn [width label_bits base ndigits] in *.
  - split; [lia|]. rewrite Z2Nat.id by lia. change 256 with (2 ^ 8). rewrite <- Z.pow_mul_r by lia. f_equal. lia.
  - split; [lia|]. rewrite Z2Nat.id by lia. change 16 with (2 ^ 4). rewrite <- Z.pow_mul_r by lia. f_equal. lia.
Qed.
Lemma root_nodot v : Forall nodot (root v).
Proof. destruct v; repeat constructor; unfold nodot; cbn [In]; lia. Qed.
Lemma labs_nodot v ds : Forall (fun d => 0 <= d < base v) ds -> Forall nodot (rev (map (lab v) ds)).
Proof. intros F. apply Forall_rev. apply Forall_map. eapply Forall_impl; [|exact F]. intros. apply lab_nodot. assumption. Qed.
Lemma skipn_skipn A : forall j (l : list A) i, skipn i (skipn j l) = skipn (i + j) l.
Proof.
  induction j as [|j IH]; intros l i; [rewrite Nat.add_0_r; reflexivity|]. rewrite Nat.add_succ_r. destruct l as [|x l]; [rewrite !skipn_nil; reflexivity|]. apply IH.
Qed.
Lemma forall_skipn A (P : A -> Prop) k l : Forall P l -> Forall P (skipn k l).
Proof. intros F. rewrite <- (firstn_skipn k l) in F. apply Forall_app in F. apply F. Qed.
Lemma zone_labels v p ds : 0 <= p <= width v -> p mod label_bits v = 0 -> length ds = ndigits v -> Forall (fun d => 0 <= d < base v) ds ->
  zone v p (dj (rev (map (lab v) ds) ++ root v)) = dj (skipn (labels_of v p) (rev (map (lab v) ds)) ++ root v).
Proof.
  intros H M L F. destruct (zone_size v p H M) as [K _]. unfold zone. fold (labels_of v p).
  assert (length (rev (map (lab v) ds)) = ndigits v) as E by (rewrite rev_length, map_length; exact L).
  rewrite drop_dj.
  - rewrite skipn_app. do 2 f_equal. replace (labels_of v p - length (rev (map (lab v) ds)))%nat with 0%nat by lia. reflexivity.
  - apply Forall_app. split; [apply labs_nodot; exact F|apply root_nodot].
  - rewrite app_length. destruct v; cbn [root length]; lia.
Qed.
Lemma in_net_div v n x : wf_net v n -> (in_net v n x <-> x / size v n = first n / size v n).
Proof.
  intros (_ & _ & _ & P & _ & Al). unfold in_net. assert (0 < size v n) by (apply Z.pow_pos_nonneg; lia).
  set (s := size v n) in *. clearbody s. set (f := first n) in *. clearbody f. clear -H Al.
  pose proof (Z.div_mod f s ltac:(lia)) as Df. pose proof (Z.div_mod x s ltac:(lia)) as Dx. pose proof (Z.mod_pos_bound x s H). rewrite Al in Df.
  set (qf := f / s) in *. set (qx := x / s) in *. clearbody qf qx. split; [intros B|intros ->]; [|lia].
  destruct (Z.lt_trichotomy qx qf) as [|[|]]; [nia|assumption|nia].
Qed.
Lemma roots_differ v v' (a b : list (list Z)) : a ++ root v = b ++ root v' -> v = v' /\ a = b.
Proof.
  intros E. apply (f_equal (@rev _)) in E. rewrite !rev_app_distr in E. destruct v, v'; cbn [root rev app] in E; try discriminate E; (split; [reflexivity|]);
    injection E as E; apply (f_equal (@rev _)) in E; rewrite !rev_involutive in E; exact E.
Qed.
Lemma suffix_skipn A (l m : list A) k : length l = length m -> (k <= length m)%nat -> ((exists pre, l = pre ++ skipn k m) <-> skipn k l = skipn k m).
Proof.
  intros L K. split.
  - intros (pre & E). assert (length pre = k) as P by (rewrite E, app_length, skipn_length in L; lia). rewrite E, skipn_app, skipn_all2, P, Nat.sub_diag by lia. reflexivity.
  - intros E. exists (firstn k l). rewrite <- E. symmetry. apply firstn_skipn.
Qed.
Lemma zone_contains x y s z : wf_anet x -> wf_any y -> anet_prefixlen x mod label_bits (an_ver x) = 0 ->
  any_reverse_pointer y = Ret s -> any_reverse_pointer (anet_address x) = Ret z ->
  (anet_contains x y = true <-> within s (zone (an_ver x) (anet_prefixlen x) z)).
Proof.
  destruct x as [v n], y as [v' a]. unfold wf_anet, wf_any, anet_prefixlen. cbn [an_ver an_net aa_ver aa_addr]. intros Wn Wa M Es Ez.
  pose proof Wn as (Wna & _ & _ & P & _).
  assert (anet_address (mk_an v n) = mk_aa v (n_addr n)) as Ea by (destruct v; reflexivity). rewrite Ea in Ez. clear Ea.
  destruct (pointer_labels v (n_addr n) Wna) as (ds & Ld & Fd & Vd & Ed). destruct (pointer_labels v' a Wa) as (es & Le & Fe & Ve & Ee).
  rewrite Ed in Ez. rewrite Ee in Es. injection Ez as <-. injection Es as <-. rewrite zone_labels by assumption. destruct (zone_size v _ P M) as [K B].
  rewrite within_iff.
  2:{ apply Forall_app. split; [apply labs_nodot; exact Fe|apply root_nodot]. }
  2:{ apply Forall_app. split; [apply forall_skipn, labs_nodot; exact Fd|apply root_nodot]. }
  2:{ intros C. apply app_eq_nil in C as [_ C]. destruct v'; discriminate C. }
  2:{ intros C. apply app_eq_nil in C as [_ C]. destruct v; discriminate C. }
  unfold anet_contains. cbn [an_ver an_net aa_ver aa_addr].
  assert ((exists pre, rev (map (lab v') es) ++ root v' = pre ++ skipn (labels_of v (n_prefix n)) (rev (map (lab v) ds)) ++ root v) <->
          v' = v /\ exists pre, rev (map (lab v') es) = pre ++ skipn (labels_of v (n_prefix n)) (rev (map (lab v) ds))) as ->.
  { split.
    - intros (pre & E). rewrite app_assoc in E. apply roots_differ in E as [-> E]. eauto.
    - intros (-> & pre & ->). exists pre. rewrite <- app_assoc. reflexivity. }
  destruct (ver_eqb v v') eqn:Ev.
  - assert (v' = v) as -> by (destruct v, v'; (reflexivity || discriminate Ev)).
    rewrite suffix_skipn by (rewrite !rev_length, !map_length; lia). rewrite same_top by (first [assumption|lia]). rewrite Vd, Ve, B.
    rewrite (contains_spec v) by assumption. rewrite in_net_div by exact Wn. unfold size, first. tauto.
  - split; [discriminate|]. intros (-> & _). destruct v; discriminate Ev.
Qed.
Lemma subset_iff v m n : wf_net v m -> wf_net v n -> (subset v m n <-> n_prefix n <= n_prefix m /\ in_net v n (first m)).
Proof.
  intros Wm Wn. pose proof Wm as (_ & _ & _ & Pm & _ & Am). pose proof Wn as (_ & _ & _ & Pn & _ & An). unfold subset. split.
  - intros H. assert (0 < size v m) by (apply Z.pow_pos_nonneg; lia). assert (I1 : in_net v n (first m)) by (apply H; unfold in_net; lia).
    split; [|exact I1]. assert (I2 : in_net v n (first m + size v m - 1)) by (apply H; unfold in_net; lia). unfold in_net in *.
    assert (size v m <= size v n) as S by lia. unfold size in S. apply Z.pow_le_mono_r_iff in S; lia.
  - intros [L I] x Hx. assert (Sp : size v n = size v m * 2 ^ (n_prefix m - n_prefix n)).
    { unfold size. rewrite <- Z.pow_add_r by lia. f_equal. lia. }
    assert (0 < size v m) by (apply Z.pow_pos_nonneg; lia). assert (0 < 2 ^ (n_prefix m - n_prefix n)) by (apply Z.pow_pos_nonneg; lia).
    unfold in_net in *. set (k := 2 ^ (n_prefix m - n_prefix n)) in *. set (sm := size v m) in *. set (sn := size v n) in *. set (fm := first m) in *. set (fn := first n) in *.
    clearbody k sm sn fm fn. clear -Sp H H0 I Hx Am An.
    pose proof (Z.div_mod fm sm ltac:(lia)) as Dm. rewrite Am in Dm. assert (sn <> 0) by nia. pose proof (Z.div_mod fn sn ltac:(lia)) as Dn. rewrite An in Dn.
    set (qm := fm / sm) in *. set (qn := fn / sn) in *. clearbody qm qn. subst sn. assert (fn + sm * k = sm * (qn * k + k)) by (rewrite Dn; ring). assert (fm = sm * qm) by lia.
    split; [lia|]. assert (qm + 1 <= qn * k + k) by nia. nia.
Qed.
Lemma zone_subset v m n s z : wf_net v m -> wf_net v n -> n_prefix m mod label_bits v = 0 -> n_prefix n mod label_bits v = 0 ->
  any_reverse_pointer (mk_aa v (n_addr m)) = Ret s -> any_reverse_pointer (mk_aa v (n_addr n)) = Ret z ->
  (subset v m n <-> within (zone v (n_prefix m) s) (zone v (n_prefix n) z)).
Proof.
  intros Wm Wn Mm Mn Es Ez. pose proof Wm as (Wma & _ & _ & Pm & _). pose proof Wn as (Wna & _ & _ & Pn & _).
  destruct (pointer_labels v (n_addr n) Wna) as (ds & Ld & Fd & Vd & Ed). destruct (pointer_labels v (n_addr m) Wma) as (es & Le & Fe & Ve & Ee).
  rewrite Ed in Ez. rewrite Ee in Es. injection Ez as <-. injection Es as <-. rewrite !zone_labels by assumption.
  destruct (zone_size v _ Pn Mn) as [Kn Bn]. destruct (zone_size v _ Pm Mm) as [Km Bm]. rewrite within_iff.
  2:{ apply Forall_app. split; [apply forall_skipn, labs_nodot; exact Fe|apply root_nodot]. }
  2:{ apply Forall_app. split; [apply forall_skipn, labs_nodot; exact Fd|apply root_nodot]. }
  2:{ intros C. apply app_eq_nil in C as [_ C]. destruct v; discriminate C. }
  2:{ intros C. apply app_eq_nil in C as [_ C]. destruct v; discriminate C. }
  rewrite subset_iff, in_net_div by assumption. unfold size. rewrite <- Bn. unfold first. rewrite <- Vd, <- Ve. rewrite <- same_top by (first [assumption|lia]).
  assert (n_prefix n <= n_prefix m <-> (labels_of v (n_prefix m) <= labels_of v (n_prefix n))%nat) as ->.
  { unfold labels_of. clear -Pm Pn Mm Mn. destruct v; cbn [width label_bits] in *; lia. }
  set (km := labels_of v (n_prefix m)) in *. set (kn := labels_of v (n_prefix n)) in *. set (lm := rev (map (lab v) es)). set (ln := rev (map (lab v) ds)).
  assert (length lm = ndigits v /\ length ln = ndigits v) as [Lm Ln] by (unfold lm, ln; rewrite !rev_length, !map_length; auto).
  clearbody lm ln km kn. clear -Km Kn Lm Ln. split.
  - intros [K E]. exists (firstn (kn - km) (skipn km lm)). rewrite app_assoc. f_equal. rewrite <- E. replace kn with (kn - km + km)%nat at 2 by lia. rewrite <- skipn_skipn. symmetry. apply firstn_skipn.
  - intros (pre & E). rewrite app_assoc in E. apply app_inv_tail in E. assert (length (skipn km lm) = (length pre + length (skipn kn ln))%nat) as L by (rewrite E, app_length; reflexivity).
    rewrite !skipn_length in L. split; [lia|]. replace kn with (kn - km + km)%nat at 1 by lia. rewrite <- skipn_skipn, E, skipn_app, skipn_all2 by lia.
    replace (kn - km - length pre)%nat with 0%nat by lia. reflexivity.
Qed.
Lemma same_block (W j k f : Z) : 0 <= j <= W -> 0 <= k <= W -> f mod 2 ^ j = 0 -> 0 <= f -> f + 2 ^ j <= 2 ^ W ->
  (forall x, 0 <= x < 2 ^ W -> (f <= x < f + 2 ^ j <-> x / 2 ^ k = f / 2 ^ k)) -> j = k.
Proof.
  intros Hj Hk Al F0 FW H. assert (0 < 2 ^ j /\ 0 < 2 ^ k) as [Pj Pk] by (split; apply Z.pow_pos_nonneg; lia).
  assert (2 ^ j <= 2 ^ k -> 2 ^ k <= 2 ^ j -> j = k) as Fin by (intros A B; apply Z.pow_le_mono_r_iff in A, B; lia).
  apply Fin.
  - destruct (Z.le_gt_cases j k) as [|G]; [apply Z.pow_le_mono_r; lia|].
    assert (2 ^ j = 2 ^ (j - k) * 2 ^ k) as E by (rewrite <- Z.pow_add_r by lia; f_equal; lia). assert (0 < 2 ^ (j - k)) by (apply Z.pow_pos_nonneg; lia).
    assert (I : f <= f + 2 ^ j - 1 < f + 2 ^ j) by lia. apply H in I; [|lia].
    pose proof (Z.div_mod f (2 ^ j) ltac:(lia)) as D. rewrite Al in D.
    assert (f = (f / 2 ^ j * 2 ^ (j - k)) * 2 ^ k) as Ef by (rewrite D at 1; rewrite E; ring).
    rewrite Ef in I. rewrite Z.div_mul in I by lia. set (q := f / 2 ^ j * 2 ^ (j - k)) in *. clearbody q.
    pose proof (Z.div_mod (q * 2 ^ k + 2 ^ j - 1) (2 ^ k) ltac:(lia)) as D2. rewrite I in D2. pose proof (Z.mod_pos_bound (q * 2 ^ k + 2 ^ j - 1) (2 ^ k) Pk). lia.
  - assert (2 ^ W = 2 ^ (W - k) * 2 ^ k) as E by (rewrite <- Z.pow_add_r by lia; f_equal; lia).
    pose proof (Z.div_mod f (2 ^ k) ltac:(lia)) as D. pose proof (Z.mod_pos_bound f (2 ^ k) Pk) as M. set (q := f / 2 ^ k) in *.
    assert (q < 2 ^ (W - k)) as Q by (clear -E D M FW Pj Pk; nia). assert (0 <= q) by (apply Z.div_pos; lia).
    assert (I1 : f <= q * 2 ^ k < f + 2 ^ j) by (apply H; [nia|apply Z.div_mul; lia]).
    assert (I2 : f <= q * 2 ^ k + (2 ^ k - 1) < f + 2 ^ j). { apply H; [nia|]. rewrite Z.div_add_l by lia. rewrite Z.div_small by lia. lia. }
    lia.
Qed.
Lemma zone_only v n : wf_net v n ->
  ((exists z, forall a s, wf_addr v a -> any_reverse_pointer (mk_aa v a) = Ret s -> (contains n a = true <-> within s z)) <-> n_prefix n mod label_bits v = 0).
Proof.
  intros Wn. pose proof Wn as (Wna & _ & _ & P & Vm & Al). destruct (pointer_labels v (n_addr n) Wna) as (ds & Ld & Fd & Vd & Ed). split.
  - intros (z & H). destruct (split_dots z) as (zl & Nz & Fz & <-). set (ln := rev (map (lab v) ds)) in *.
    assert (Ln : length ln = ndigits v) by (unfold ln; rewrite rev_length, map_length; exact Ld).
    assert (Ne : forall l : list (list Z), l ++ root v <> []) by (intros l C; apply app_eq_nil in C as [_ C]; destruct v; discriminate C).
    assert (Hn : within (dj (ln ++ root v)) (dj zl)).
    { apply (H (n_addr n) _ Wna Ed). apply contains_spec with v; try assumption. unfold in_net, first. assert (0 < size v n) by (apply Z.pow_pos_nonneg; lia). lia. }
    apply within_iff in Hn as (pre & Hn); [|apply Forall_app; split; [apply labs_nodot; exact Fd|apply root_nodot]|exact Fz|apply Ne|exact Nz].
    set (k := Nat.min (length pre) (ndigits v)).
    assert (Kr : Z.of_nat k * label_bits v <= width v /\ 0 <= Z.of_nat k * label_bits v) by (unfold k; destruct v; cbn [ndigits label_bits width]; lia).
    assert (Bk : base v ^ Z.of_nat k = 2 ^ (Z.of_nat k * label_bits v)).
    { destruct v; cbn [base label_bits]; [change 256 with (2 ^ 8)|change 16 with (2 ^ 4)]; rewrite <- Z.pow_mul_r by lia; f_equal; lia. }
    assert (Blk : forall x, 0 <= x < 2 ^ width v -> (first n <= x < first n + 2 ^ (width v - n_prefix n) <-> x / 2 ^ (Z.of_nat k * label_bits v) = first n / 2 ^ (Z.of_nat k * label_bits v))).
    { intros x Hx. pose proof (addr_of_wf v x Hx) as Wx. destruct (pointer_labels v _ Wx) as (es & Le & Fe & Ve & Ee). rewrite (addr_of_val v x Hx) in Ve.
      specialize (H _ _ Wx Ee). rewrite (contains_spec v) in H by assumption. rewrite (addr_of_val v x Hx) in H. unfold in_net, size in H. rewrite H. clear H.
      rewrite within_iff; [|apply Forall_app; split; [apply labs_nodot; exact Fe|apply root_nodot]|exact Fz|apply Ne|exact Nz].
      rewrite <- Bk. unfold first. rewrite <- Vd, <- Ve. rewrite <- same_top by (first [assumption|lia]). fold ln. set (lx := rev (map (lab v) es)) in *.
      assert (Lx : length lx = ndigits v) by (unfold lx; rewrite rev_length, map_length; exact Le).
      assert (length (ln ++ root v) = length (lx ++ root v)) as LL by (rewrite !app_length; lia).
      assert ((exists p, lx ++ root v = p ++ zl) <-> skipn (length pre) (lx ++ root v) = zl) as ->.
      { split.
        - intros (p & E). rewrite E. rewrite Hn, E, !app_length in LL. rewrite skipn_app, skipn_all2 by lia. replace (length pre - length p)%nat with 0%nat by lia. reflexivity.
        - intros <-. exists (firstn (length pre) (lx ++ root v)). symmetry. apply firstn_skipn. }
      assert (zl = skipn (length pre) (ln ++ root v)) as -> by (rewrite Hn, skipn_app, skipn_all, Nat.sub_diag; reflexivity).
      rewrite !skipn_app, Lx, Ln. unfold k. destruct (Nat.le_gt_cases (length pre) (ndigits v)) as [G|G].
      - rewrite (Nat.min_l _ _ G). split; [apply app_inv_tail|intros ->; reflexivity].
      - rewrite Nat.min_r by lia. assert (A : forall i (l : list (list Z)), length l = ndigits v -> (ndigits v <= i)%nat -> skipn i l = []) by (intros; apply skipn_all2; lia).
        rewrite !(A _ lx), !(A _ ln) by lia. split; reflexivity. }
    assert (Fw : 0 <= first n /\ first n + 2 ^ (width v - n_prefix n) <= 2 ^ width v).
    { pose proof (val_range v _ Wna) as R. split; [apply R|]. fold (size v n). unfold first in *. assert (0 < size v n) as S0 by (apply Z.pow_pos_nonneg; lia).
      assert (2 ^ width v = 2 ^ n_prefix n * size v n) as E by (unfold size; rewrite <- Z.pow_add_r by lia; f_equal; lia).
      pose proof (Z.div_mod (val (n_addr n)) (size v n) ltac:(lia)) as D. rewrite Al in D. set (q := val (n_addr n) / size v n) in *. clearbody q.
      rewrite E in R |- *. set (t := 2 ^ n_prefix n) in *. clearbody t. set (sz := size v n) in *. clearbody sz. clear -D R S0. assert (q < t) by nia. nia. }
    pose proof (same_block (width v) (width v - n_prefix n) (Z.of_nat k * label_bits v) (first n) ltac:(lia) ltac:(lia) Al (proj1 Fw) (proj2 Fw) Blk) as E.
    clear -E P. destruct v; cbn [width label_bits] in *; lia.
  - intros M. exists (zone v (n_prefix n) (dj (rev (map (lab v) ds) ++ root v))). intros a s Wa Es.
    pose proof (fun z => zone_contains (mk_an v n) (mk_aa v a) s z Wn Wa M Es) as Z0.
    assert (anet_address (mk_an v n) = mk_aa v (n_addr n)) as Ea by (destruct v; reflexivity). rewrite Ea in Z0. specialize (Z0 _ Ed).
    unfold anet_contains, anet_prefixlen in Z0. cbn [an_ver an_net aa_ver aa_addr] in Z0. assert (ver_eqb v v = true) as Ev by (destruct v; reflexivity). rewrite Ev in Z0. exact Z0.
Qed.
