(** Proofs about byte_array and optional. *)
From Verif Require Import Base Tac SpecText SpecAddr SpecInt Uint128Model BitProofs StrProofs V4Model V6Model AddressModel SpecOrder AddressProofs Uint128OpsModel SpecOps ContainerModel SpecContainer.

(** *** byte_array *)
Lemma ba_size_ok N a : ba_array N a -> ba_size N = zlen a /\ ba_max_size N = zlen a /\ (ba_empty N = true <-> a = []).
Proof.
  intros [L _]. unfold ba_size, ba_max_size, ba_empty. rewrite L. split; [reflexivity|]. split; [reflexivity|].
  destruct (Z.eqb_spec N 0) as [E|E]; [|split; [discriminate|intros ->; cbn in L; lia]].
  split; [intros _|reflexivity]. destruct a; [reflexivity|]. unfold zlen in L. cbn [length] in L. lia.
Qed.
Lemma rd_out {A} (s : list A) i : zlen s <= i -> rd s i = UB OutOfBounds.
Proof.
  intros H. unfold rd. destruct (Z.ltb_spec i 0); [reflexivity|]. destruct (nth_error s (Z.to_nat i)) eqn:E; [|reflexivity].
  exfalso. assert (X : (Z.to_nat i < length s)%nat) by (apply nth_error_Some; congruence). unfold zlen in H. lia.
Qed.
Lemma ba_at_ok N a n : ba_array N a -> 0 <= n ->
  ba_index N a n = ba_at N a n /\
  (n < N -> ba_at N a n = Ret (nth (Z.to_nat n) a 0)) /\ (N <= n -> ~ is_defined (ba_at N a n)).
Proof.
  intros [L _] Hn. split; [reflexivity|]. unfold ba_at. destruct (Z.eqb_spec N 0) as [E|E].
  - split; [lia|]. cbn. auto.
  - split; intros H.
    + destruct (rd_some a n ltac:(lia)) as (x & -> & K). f_equal. symmetry. apply nth_error_nth. exact K.
    + rewrite rd_out by lia. cbn. auto.
Qed.
Lemma upd_nth {A} : forall (l : list A) i x, (i < length l)%nat -> exists l', upd l i x = Some l' /\ length l' = length l /\
  forall k d, nth k l' d = if Nat.eqb k i then x else nth k l d.
Proof.
  induction l as [|y l IH]; intros i x H; [cbn in H; lia|]. destruct i as [|i]; cbn [upd].
  - eexists. split; [reflexivity|]. split; [reflexivity|]. intros [|k] d; reflexivity.
  - cbn [length] in H. destruct (IH i x ltac:(lia)) as (l' & -> & El & F). eexists. split; [reflexivity|]. split; [cbn [length]; lia|].
    intros [|k] d; [reflexivity|]. apply F.
Qed.
Lemma upd_in {A} : forall (l : list A) i y l', upd l i y = Some l' -> (i < length l)%nat.
Proof.
  induction l as [|z l IH]; intros [|i] y l' Q; cbn [upd] in Q; try discriminate; cbn [length]; [lia|].
  destruct (upd l i y) eqn:Q'; [|discriminate]. apply IH in Q'. lia.
Qed.
Lemma wr_nth {A} (l : list A) i x : 0 <= i < zlen l -> exists l', wr l i x = Ret l' /\ length l' = length l /\
  forall k d, nth k l' d = if Nat.eqb k (Z.to_nat i) then x else nth k l d.
Proof.
  intros H. unfold wr. destruct (Z.ltb_spec i 0); [lia|]. destruct (upd_nth l (Z.to_nat i) x ltac:(unfold zlen in H; lia)) as (l' & -> & K). eauto.
Qed.
Lemma ba_put_ok N a n x : ba_array N a -> 0 <= n -> is_byte x ->
  (n < N -> exists b, ba_put N a n x = Ret b /\ ba_array N b /\ ba_at N b n = Ret x /\ forall k, 0 <= k < N -> k <> n -> ba_at N b k = ba_at N a k) /\
  (N <= n -> ~ is_defined (ba_put N a n x)).
Proof.
  intros [L F] Hn Hx. unfold ba_put. destruct (Z.eqb_spec N 0) as [E|E]; [split; [lia|cbn; auto]|]. split; intros H.
  - destruct (wr_nth a n x ltac:(lia)) as (b & -> & Lb & K). exists b.
    assert (Ab : ba_array N b).
    { split; [unfold zlen in *; lia|]. apply Forall_nth. intros i d Hi. rewrite (K i d). destruct (Nat.eqb _ _); [exact Hx|].
      apply Forall_nth; [exact F|lia]. }
    split; [reflexivity|]. split; [exact Ab|]. split.
    + destruct (ba_at_ok N b n Ab Hn) as (_ & G & _). rewrite (G H), K, Nat.eqb_refl. reflexivity.
    + intros k Hk Nk. destruct (ba_at_ok N b k Ab ltac:(lia)) as (_ & G & _). rewrite (G ltac:(lia)).
      destruct (ba_at_ok N a k (conj L F) ltac:(lia)) as (_ & G' & _). rewrite (G' ltac:(lia)), K. f_equal.
      destruct (Nat.eqb_spec (Z.to_nat k) (Z.to_nat n)); [lia|reflexivity].
  - unfold wr. destruct (Z.ltb_spec n 0); [lia|]. destruct (upd a (Z.to_nat n) x) eqn:U; [|cbn; auto]. exfalso.
    apply upd_in in U. unfold zlen in L. lia.
Qed.
Lemma ba_ends_ok N a : ba_array N a -> 0 < N < 2 ^ 64 -> ba_front N a = Ret (hd 0 a) /\ ba_back N a = Ret (last a 0).
Proof.
  intros [L _] H. unfold ba_front, ba_back. destruct (Z.eqb_spec N 0); [lia|]. split.
  - destruct a as [|x a]; [cbn in L; lia|]. reflexivity.
  - unfold w64. rewrite Z.mod_small by lia. destruct (exists_last (l := a)) as (q & x & ->).
    + intros ->. cbn in L. lia.
    + rewrite last_last. apply rd_mid. unfold zlen in *. rewrite app_length in L. cbn [length] in L. lia.
Qed.
Lemma ba_ends_none a : ~ is_defined (ba_front 0 a) /\ ~ is_defined (ba_back 0 a).
Proof. split; cbn; auto. Qed.
Lemma walk_ok : forall post pre fuel, (length post <= fuel)%nat -> ba_walk fuel (pre ++ post) (zlen pre) (zlen (pre ++ post)) = Ret post.
Proof.
  induction post as [|x post IH]; intros pre fuel H.
  - rewrite app_nil_r. destruct fuel; cbn [ba_walk]; rewrite Z.eqb_refl; reflexivity.
  - cbn [length] in H. destruct fuel as [|fuel]; [lia|]. cbn [ba_walk].
    destruct (Z.eqb_spec (zlen pre) (zlen (pre ++ x :: post))) as [E|_]; [unfold zlen in E; rewrite app_length in E; cbn [length] in E; lia|].
    rewrite rd_mid by reflexivity. cbn [bind]. specialize (IH (pre ++ [x]) fuel ltac:(lia)). rewrite <- app_assoc in IH. cbn [app] in IH.
    replace (zlen (pre ++ [x])) with (zlen pre + 1) in IH by (unfold zlen; rewrite app_length; cbn [length]; lia). rewrite IH. reflexivity.
Qed.
Lemma rwalk_ok : forall pre post fuel, (length pre <= fuel)%nat -> ba_rwalk fuel (pre ++ post) (zlen pre) 0 = Ret (rev pre).
Proof.
  induction pre as [|x pre IH] using rev_ind; intros post fuel H.
  - destruct fuel; reflexivity.
  - rewrite app_length in H. cbn [length] in H. destruct fuel as [|fuel]; [lia|]. cbn [ba_rwalk].
    assert (E : zlen (pre ++ [x]) = zlen pre + 1) by (unfold zlen; rewrite app_length; cbn [length]; lia). rewrite E.
    destruct (Z.eqb_spec (zlen pre + 1) 0) as [K|_]; [unfold zlen in K; lia|]. rewrite Z.add_simpl_r.
    rewrite <- app_assoc. cbn [app]. rewrite rd_mid by reflexivity. cbn [bind]. rewrite IH by lia. cbn [bind]. rewrite rev_app_distr. reflexivity.
Qed.
Lemma ba_end_len N a : ba_array N a -> ba_end N = zlen a.
Proof. intros [L _]. unfold ba_end. destruct (Z.eqb_spec N 0); lia. Qed.
Lemma ba_iterate N a : ba_array N a -> ba_elements N a = Ret a /\ ba_reversed N a = Ret (rev a).
Proof.
  intros A. pose proof (proj1 A) as L. unfold ba_elements, ba_reversed, ba_begin. rewrite (ba_end_len N a A).
  split.
  - apply (walk_ok a [] (Z.to_nat N)). unfold zlen in L. lia.
  - pose proof (rwalk_ok a [] (Z.to_nat N)) as R. rewrite app_nil_r in R. apply R. unfold zlen in L. lia.
Qed.

(** Comparisons: the loops are those of the model of addresses. *)
Lemma eq_loop : forall a b pre pre' N, N <> 0 -> length a = length b -> length pre = length pre' ->
  ba_eq_loop (length a) N (zlen pre) (pre ++ a) (pre' ++ b) = Ret (list_eqb a b).
Proof.
  induction a as [|x a IH]; intros [|y b] pre pre' N HN L Lp; try discriminate; [reflexivity|]. cbn [length] in *. cbn [ba_eq_loop list_eqb].
  unfold ba_index, ba_at. destruct (Z.eqb_spec N 0); [lia|].
  rewrite rd_mid by reflexivity. rewrite (rd_mid pre') by (unfold zlen; lia). cbn [bind]. destruct (Z.eqb_spec x y); cbn [negb andb]; [|reflexivity].
  specialize (IH b (pre ++ [x]) (pre' ++ [y]) N HN ltac:(lia) ltac:(rewrite !app_length; cbn [length]; lia)). rewrite <- !app_assoc in IH. cbn [app] in IH.
  replace (zlen (pre ++ [x])) with (zlen pre + 1) in IH by (unfold zlen; rewrite app_length; cbn [length]; lia). exact IH.
Qed.
Lemma cmp_loop : forall a b pre pre' N, N <> 0 -> length a = length b -> length pre = length pre' ->
  ba_cmp_loop (length a) N (zlen pre) (pre ++ a) (pre' ++ b) = Ret (bytes_cmp a b).
Proof.
  induction a as [|x a IH]; intros [|y b] pre pre' N HN L Lp; try discriminate; [reflexivity|]. cbn [length] in *. cbn [ba_cmp_loop bytes_cmp].
  unfold ba_index, ba_at. destruct (Z.eqb_spec N 0); [lia|].
  rewrite rd_mid by reflexivity. rewrite (rd_mid pre') by (unfold zlen; lia). cbn [bind].
  destruct (Z.compare_spec x y) as [E|E|E]; destruct (Z.eqb_spec x y); try lia; cbn [negb].
  - specialize (IH b (pre ++ [x]) (pre' ++ [y]) N HN ltac:(lia) ltac:(rewrite !app_length; cbn [length]; lia)). rewrite <- !app_assoc in IH. cbn [app] in IH.
    replace (zlen (pre ++ [x])) with (zlen pre + 1) in IH by (unfold zlen; rewrite app_length; cbn [length]; lia). exact IH.
  - destruct (Z.ltb_spec x y); [reflexivity|lia].
  - destruct (Z.ltb_spec x y); [lia|reflexivity].
Qed.
Lemma lt_loop : forall a b pre pre', length a = length b -> length pre = length pre' ->
  ba_lt_loop (length a) (zlen pre) (pre ++ a) (pre' ++ b) = Ret (bytes_ltb a b).
Proof.
  induction a as [|x a IH]; intros [|y b] pre pre' L Lp; try discriminate; [reflexivity|]. cbn [length] in *. cbn [ba_lt_loop bytes_ltb].
  rewrite rd_mid by reflexivity. rewrite (rd_mid pre') by (unfold zlen; lia). cbn [bind].
  destruct (x <? y); [reflexivity|]. destruct (Z.eqb_spec x y); cbn [negb]; [|reflexivity].
  specialize (IH b (pre ++ [x]) (pre' ++ [y]) ltac:(lia) ltac:(rewrite !app_length; cbn [length]; lia)). rewrite <- !app_assoc in IH. cbn [app] in IH.
  replace (zlen (pre ++ [x])) with (zlen pre + 1) in IH by (unfold zlen; rewrite app_length; cbn [length]; lia). exact IH.
Qed.
Lemma ba_nil N a : ba_array N a -> N = 0 -> a = [].
Proof. intros [L _] E. destruct a; [reflexivity|]. unfold zlen in L. cbn [length] in L. lia. Qed.
Lemma ba_loops N a b : ba_array N a -> ba_array N b ->
  ba_eq N a b = Ret (list_eqb a b) /\ ba_cmp N a b = Ret (bytes_cmp a b) /\ ba_lt N a b = Ret (bytes_ltb a b).
Proof.
  intros A B. destruct (Z.eq_dec N 0) as [E|E].
  - rewrite (ba_nil N a A E), (ba_nil N b B E). subst N. repeat split.
  - pose proof (proj1 A) as La. pose proof (proj1 B) as Lb. assert (El : length a = length b) by (unfold zlen in *; lia).
    assert (En : Z.to_nat N = length a) by (unfold zlen in *; lia). unfold ba_eq, ba_cmp, ba_lt. rewrite En.
    split; [exact (eq_loop a b [] [] N E El eq_refl)|]. split; [exact (cmp_loop a b [] [] N E El eq_refl)|exact (lt_loop a b [] [] El eq_refl)].
Qed.
Lemma be_inj_len : forall a b, length a = length b -> Forall is_byte a -> Forall is_byte b -> (a = b <-> be_value a = be_value b).
Proof.
  intros a b L A B. split; [intros ->; reflexivity|]. intros E. pose proof (bytes_cmp_ok a b L A B) as H. rewrite E, Z.compare_refl in H.
  revert b L A B E H. induction a as [|x a IH]; intros [|y b] L A B E H; try discriminate; [reflexivity|]. cbn [bytes_cmp] in H.
  destruct (Z.eqb_spec x y) as [->|N]; cbn [negb] in H; [|destruct (x <? y); discriminate]. f_equal. inversion A. inversion B. subst. cbn [length] in L.
  apply IH; auto. rewrite !be_cons in E. assert (Q : zlen a = zlen b) by (unfold zlen; lia). rewrite Q in E. lia.
Qed.
Lemma ba_rel_ok sp N op a b : ba_array N a -> ba_array N b ->
  exists r, ba_rel sp N op a b = Ret r /\ (r = true <-> rel_Z op (be_value a) (be_value b)).
Proof.
  intros A B. assert (El : length a = length b) by (destruct A as [La _], B as [Lb _]; unfold zlen in *; lia).
  destruct (ba_loops N a b A B) as (E1 & E2 & E3). destruct (ba_loops N b a B A) as (_ & _ & E4).
  pose proof (bytes_cmp_ok a b El (proj2 A) (proj2 B)) as C. pose proof (bytes_cmp_ok b a (eq_sym El) (proj2 B) (proj2 A)) as C'.
  rewrite bytes_ltb_cmp in E3, E4. rewrite C' in E4. rewrite C in E2, E3.
  pose proof (be_inj_len a b El (proj2 A) (proj2 B)) as J. pose proof (list_eqb_eq a b) as Q. rewrite J in Q.
  unfold ba_rel. rewrite E1, E2, E3, E4. clear - Q.
  destruct (Z.compare_spec (be_value a) (be_value b)) as [K|K|K]; destruct (Z.compare_spec (be_value b) (be_value a)) as [M|M|M]; try lia;
    destruct op, sp; cbn [bind rel_Z negb]; eexists; (split; [reflexivity|]); rewrite ?negb_true_iff, <- ?not_true_iff_false, ?Q;
    split; intros ?; try discriminate; try reflexivity; try lia.
Qed.
Lemma ba_equal N a b : ba_array N a -> ba_array N b -> exists r, ba_rel true N CEq a b = Ret r /\ (r = true <-> a = b).
Proof.
  intros A B. destruct (ba_loops N a b A B) as (E & _). cbn [ba_rel]. rewrite E. eexists. split; [reflexivity|]. apply list_eqb_eq.
Qed.

(** *** swap *)
Lemma swap_loop p q : forall post pre post' pre' s, p <> q -> length pre = length pre' -> length post = length post' ->
  s p = pre' ++ post -> s q = pre ++ post' ->
  exists s', ba_swap_loop (length post) (zlen pre) s p q = Ret s' /\ s' p = pre' ++ post' /\ s' q = pre ++ post /\ forall k, k <> p -> k <> q -> s' k = s k.
Proof.
  induction post as [|x post IH]; intros pre [|y post'] pre' s N Lp L Ep Eq0; try discriminate.
  - exists s. split; [reflexivity|]. auto.
  - cbn [length] in *. cbn [ba_swap_loop]. rewrite Ep, Eq0. rewrite (rd_mid pre') by (unfold zlen; lia). rewrite (rd_mid pre) by reflexivity. cbn [bind].
    rewrite wr_mid by (unfold zlen; lia). cbn [bind]. unfold ba_set at 1. destruct (Z.eqb_spec q p) as [K|_]; [lia|]. rewrite Eq0.
    rewrite wr_mid by reflexivity. cbn [bind].
    destruct (IH (pre ++ [x]) post' (pre' ++ [y]) (ba_set (ba_set s p (pre' ++ y :: post)) q (pre ++ x :: post'))) as (s' & E & F & G & H).
    + exact N.
    + rewrite !app_length. cbn [length]. lia.
    + lia.
    + unfold ba_set. destruct (Z.eqb_spec p q); [lia|]. rewrite Z.eqb_refl, <- app_assoc. reflexivity.
    + unfold ba_set. rewrite Z.eqb_refl, <- app_assoc. reflexivity.
    + exists s'. rewrite <- !app_assoc in F, G. cbn [app] in F, G.
      replace (zlen (pre ++ [x])) with (zlen pre + 1) in E by (unfold zlen; rewrite app_length; cbn [length]; lia).
      split; [exact E|]. split; [exact F|]. split; [exact G|]. intros k Hp Hq. rewrite H by assumption. unfold ba_set.
      destruct (Z.eqb_spec k q); [contradiction|]. destruct (Z.eqb_spec k p); [contradiction|]. reflexivity.
Qed.
Lemma self_loop p : forall post pre s, s p = pre ++ post ->
  exists s', ba_swap_loop (length post) (zlen pre) s p p = Ret s' /\ s' p = pre ++ post /\ forall k, k <> p -> s' k = s k.
Proof.
  induction post as [|x post IH]; intros pre s Ep.
  - exists s. split; [reflexivity|]. auto.
  - cbn [length ba_swap_loop]. rewrite Ep. rewrite rd_mid by reflexivity. cbn [bind]. rewrite wr_mid by reflexivity. cbn [bind].
    unfold ba_set at 1. rewrite Z.eqb_refl. rewrite wr_mid by reflexivity. cbn [bind].
    destruct (IH (pre ++ [x]) (ba_set (ba_set s p (pre ++ x :: post)) p (pre ++ x :: post))) as (s' & E & F & H).
    + unfold ba_set. rewrite Z.eqb_refl, <- app_assoc. reflexivity.
    + exists s'. rewrite <- !app_assoc in F. cbn [app] in F.
      replace (zlen (pre ++ [x])) with (zlen pre + 1) in E by (unfold zlen; rewrite app_length; cbn [length]; lia).
      split; [exact E|]. split; [exact F|]. intros k Hp. rewrite H by assumption. unfold ba_set.
      destruct (Z.eqb_spec k p); [contradiction|]. reflexivity.
Qed.
Lemma ba_swap_ok N s p q : ba_array N (s p) -> ba_array N (s q) ->
  exists s', ba_swap N s p q = Ret s' /\ s' p = s q /\ s' q = s p /\ forall k, k <> p -> k <> q -> s' k = s k.
Proof.
  intros A B. unfold ba_swap. destruct (Z.eqb_spec N 0) as [E|E].
  - exists s. rewrite (ba_nil _ _ A E), (ba_nil _ _ B E). auto.
  - pose proof (proj1 A) as La. pose proof (proj1 B) as Lb. assert (En : Z.to_nat N = length (s p)) by (unfold zlen in *; lia). rewrite En.
    destruct (Z.eq_dec p q) as [<-|D].
    + destruct (self_loop p (s p) [] s eq_refl) as (s' & E' & F & G). exists s'. split; [exact E'|]. split; [exact F|]. split; [exact F|]. auto.
    + destruct (swap_loop p q (s p) [] (s q) [] s D eq_refl ltac:(unfold zlen in *; lia) eq_refl eq_refl) as (s' & E' & F & G & H).
      exists s'. auto.
Qed.

(** *** optional *)
Lemma opt_make_ok {T} (dflt x : T) (o : opt T) :
  as_option (opt_default dflt) = None /\ as_option (opt_null dflt) = None /\ as_option (opt_of x) = Some x /\ as_option (opt_copy o) = as_option o /\
  opt_value (opt_default dflt) = dflt /\ opt_value (opt_null dflt) = dflt /\
  (opt_has o = true <-> as_option o <> None) /\ opt_bool o = opt_has o /\ (forall y, as_option o = Some y -> opt_value o = y).
Proof.
  destruct o as [[|] y]; unfold as_option, opt_has, opt_bool, opt_value; cbn; repeat split; intros; try discriminate; try congruence.
Qed.
Lemma opt_set_at {T} (s : opt_store T) i o k : opt_set s i o k = if k =? i then o else s k.
Proof. reflexivity. Qed.
Lemma opt_step_ok {T} (dflt : T) s st k : as_option (opt_step dflt s st k) = spec_step (fun j => as_option (s j)) st k.
Proof.
  destruct st as [i|i x|i j|i x]; cbn [opt_step spec_step]; rewrite ?opt_set_at.
  - destruct (Z.eqb_spec k i); reflexivity.
  - destruct (Z.eqb_spec k i); [|reflexivity]. rewrite Z.eqb_refl. reflexivity.
  - destruct (Z.eqb_spec i j) as [->|D]; [destruct (Z.eqb_spec k j); [subst; reflexivity|reflexivity]|].
    rewrite !opt_set_at, Z.eqb_refl. destruct (Z.eqb_spec j i); [congruence|]. destruct (Z.eqb_spec k i); [|reflexivity].
    unfold as_option. reflexivity.
  - destruct (Z.eqb_spec k i) as [->|]; [|reflexivity]. unfold as_option. cbn [o_has o_val]. destruct (o_has (s i)); reflexivity.
Qed.
Lemma spec_step_ext {T} (s t : Z -> option T) st : (forall k, s k = t k) -> forall k, spec_step s st k = spec_step t st k.
Proof. intros E k. destruct st; cbn [spec_step]; rewrite ?E; reflexivity. Qed.
Lemma spec_run_ext {T} : forall (p : list (opt_stmt T)) (s t : Z -> option T), (forall k, s k = t k) -> forall k, spec_run s p k = spec_run t p k.
Proof. induction p as [|st p IH]; intros s t E k; cbn; [apply E|]. apply IH. apply spec_step_ext. exact E. Qed.
Lemma opt_run_ok {T} (dflt : T) : forall p s k, as_option (opt_run dflt s p k) = spec_run (fun j => as_option (s j)) p k.
Proof.
  induction p as [|st p IH]; intros s k; [reflexivity|]. cbn [opt_run fold_left spec_run]. fold (opt_run dflt (opt_step dflt s st) p). rewrite IH.
  apply spec_run_ext. intros j. apply opt_step_ok.
Qed.
Lemma opt_reset_ok {T} (dflt : T) s i : opt_value (opt_step dflt s (SNull i) i) = dflt.
Proof. cbn [opt_step]. rewrite opt_set_at, Z.eqb_refl. reflexivity. Qed.
