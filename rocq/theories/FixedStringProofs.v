(** Bounded strings hold the text before the first NUL. *)
From Verif Require Import Base Tac UnicodeModel FixedStringModel V4Proofs BufProofs SpecStr StrProofs.

(** A fixed_string<n> whose length does not exceed its capacity. *)
Definition wf_fs (n : nat) (f : fstr) : Prop :=
  length (fs_data f) = n /\ 0 <= fs_length f <= Z.of_nat n.

Lemma buf_nat n pre : buf (Z.of_nat n) pre = pre ++ repeat 0 (n - length pre).
Proof. unfold buf. rewrite Nat2Z.id. reflexivity. Qed.
Lemma length_buf n pre : zlen pre <= n -> length (buf n pre) = Z.to_nat n.
Proof. intros H. apply zlen_buf in H. unfold zlen in H. lia. Qed.

Lemma buf_zero n pre : zlen pre < n -> buf n (pre ++ [0]) = buf n pre.
Proof.
  intros H. unfold buf, zlen in *. rewrite app_length. cbn [length].
  replace (Z.to_nat n - length pre)%nat with (S (Z.to_nat n - (length pre + 1)))%nat by lia.
  rewrite <- app_assoc. reflexivity.
Qed.

(** The constructor with the char reader. *)
Lemma fs_fill_ok : forall k n data pre, zlen pre + Z.of_nat k = n -> n <= zlen data ->
  (exists post, data = pre ++ post) -> ~ In 0 pre ->
  exists s, c_string (Z.to_nat n) data s /\
    fs_fill k char_next data n (zlen pre) (zlen pre) (mkfs (zlen pre) (buf n pre)) = Ret (mkfs (zlen s) (buf n s)).
Proof.
  induction k as [|k IH]; intros n data pre Hn Hd (post & ->) H0; cbn [fs_fill].
  - exists pre. split; [|reflexivity]. split; [assumption|]. exists post. split; [reflexivity|left]. unfold zlen in Hn. lia.
  - autorewrite with zl in Hd. destruct post as [|c post]; [autorewrite with zl in Hd; lia|].
    unfold char_next at 1. rewrite rd_mid by reflexivity. cbn [bind fs_data fs_length].
    rewrite wr_buf by lia. cbn [bind]. destruct (Z.eqb_spec c 0) as [->|Hc].
    + exists pre. rewrite buf_zero by lia. split; [|reflexivity]. split; [assumption|].
      exists (0 :: post). split; [reflexivity|right]. unfold zlen in Hn. split; [lia|eauto].
    + destruct (IH n (pre ++ c :: post) (pre ++ [c])) as (s & Hs & E).
      * autorewrite with zl. lia.
      * autorewrite with zl in *. lia.
      * exists post. rewrite <- app_assoc. reflexivity.
      * rewrite in_app_iff. intros [|[|[]]]; [contradiction|congruence].
      * exists s. split; [assumption|]. revert E. autorewrite with zl. intros <-. do 3 f_equal; lia.
Qed.

Lemma fs_make_ok n data : (n <= length data)%nat ->
  exists s, c_string n data s /\ fs_make char_next n data = Ret (mkfs (zlen s) (buf (Z.of_nat n) s)).
Proof.
  intros H. destruct (fs_fill_ok n (Z.of_nat n) data []) as (s & Hs & E).
  - reflexivity.
  - unfold zlen. lia.
  - exists data. reflexivity.
  - intros [].
  - rewrite Nat2Z.id in Hs. exists s. split; [assumption|].
    unfold fs_make, fs_empty. rewrite <- E. rewrite <- buf_nil, Nat2Z.id. reflexivity.
Qed.

Lemma c_string_unique n data s s' : c_string n data s -> c_string n data s' -> s = s'.
Proof.
  assert (K : forall s s' r r', ~ In 0 s -> ~ In 0 s' -> s ++ r = s' ++ r' ->
    (length s = n \/ (length s < n)%nat /\ exists q, r = 0 :: q) ->
    (length s' = n \/ (length s' < n)%nat /\ exists q, r' = 0 :: q) -> s = s').
  { clear. revert n. induction n as [|n IH]; intros s s' r r' H0 H0' E H H'.
    - destruct s, s'; cbn in *; try lia. reflexivity.
    - destruct s as [|x s], s' as [|y s'].
      + reflexivity.
      + exfalso. destruct H as [|[_ [q ->]]]; [discriminate|]. cbn in E. injection E as <- _. apply H0'. left. reflexivity.
      + exfalso. destruct H' as [|[_ [q ->]]]; [discriminate|]. cbn in E. injection E as -> _. apply H0. left. reflexivity.
      + cbn in E. injection E as -> E. f_equal. eapply (IH s s' r r'); eauto.
        * intros C. apply H0. right. assumption.
        * intros C. apply H0'. right. assumption.
        * cbn in H. destruct H as [|[? ?]]; [left; lia|right; split; [lia|assumption]].
        * cbn in H'. destruct H' as [|[? ?]]; [left; lia|right; split; [lia|assumption]]. }
  intros (H0 & r & -> & H) (H0' & r' & E & H'). eapply K; eauto.
Qed.

Lemma c_string_len n data s : c_string n data s -> (length s <= n)%nat.
Proof. intros (_ & r & _ & H). lia. Qed.

Lemma fs_make_chars n data : (n <= length data)%nat ->
  exists f, fs_make char_next n data = Ret f /\ wf_fs n f /\ c_string n data (fs_chars f) /\ fs_size f = zlen (fs_chars f).
Proof.
  intros H. destruct (fs_make_ok n data H) as (s & Hs & ->). eexists. split; [reflexivity|].
  pose proof (c_string_len _ _ _ Hs).
  assert (E : fs_chars (mkfs (zlen s) (buf (Z.of_nat n) s)) = s).
  { unfold fs_chars. cbn [fs_length fs_data]. rewrite to_nat_zlen. apply firstn_buf. }
  rewrite E. split; [|split; [assumption|reflexivity]].
  split; cbn [fs_data fs_length]; [rewrite length_buf; unfold zlen; lia|unfold zlen; lia].
Qed.

(** Comparison. *)
Lemma rd_chars n f i : wf_fs n f -> 0 <= i < fs_length f ->
  exists c, fs_at f i = Ret c /\ nth_error (fs_chars f) (Z.to_nat i) = Some c.
Proof.
  intros (Hl & Hr) Hi. destruct (rd_some (fs_data f) i) as (c & E & E'); [unfold zlen; lia|].
  exists c. split; [exact E|]. unfold fs_chars.
  rewrite <- (firstn_skipn (Z.to_nat (fs_length f)) (fs_data f)) in E'.
  rewrite nth_error_app1 in E'; [exact E'|]. rewrite firstn_length. lia.
Qed.
Lemma chars_length n f : wf_fs n f -> zlen (fs_chars f) = fs_length f.
Proof. intros (Hl & Hr). unfold zlen, fs_chars. rewrite firstn_length. lia. Qed.

Definition sgn_spec (c : Z) (a b : list Z) : Prop :=
  (c = 0 /\ a = b) \/ (c < 0 /\ lex_lt a b) \/ (0 < c /\ lex_lt b a).

Lemma sgn_cons c x a b : sgn_spec c a b -> sgn_spec c (x :: a) (x :: b).
Proof. intros [[? ->]|[[? ?]|[? ?]]]; unfold sgn_spec; auto using lex_lt_cons. Qed.

Lemma fs_compare_loop_ok n m f g : wf_fs n f -> wf_fs m g ->
  Forall is_char (fs_chars f) -> Forall is_char (fs_chars g) ->
  forall k i, 0 <= i <= fs_length f -> i <= fs_length g -> (Z.to_nat (Z.of_nat n - i) <= k)%nat ->
  exists c, fs_compare_loop k i f g = Ret c /\
    sgn_spec c (skipn (Z.to_nat i) (fs_chars f)) (skipn (Z.to_nat i) (fs_chars g)).
Proof.
  intros Hf Hg Cf Cg. pose proof (chars_length n f Hf) as Lf. pose proof (chars_length m g Hg) as Lg.
  induction k as [|k IH]; intros i Hi Hi' Hk; cbn [fs_compare_loop]; unfold fs_size.
  - destruct Hf as [Hf1 Hf2]. assert (i = fs_length f) by lia.
    destruct (Z.ltb_spec i (fs_length f)); [lia|]. cbn [andb].
    rewrite (skipn_all2 (fs_chars f)) by (unfold zlen in *; lia).
    destruct (Z.eqb_spec i (fs_length f)); [|lia].
    destruct (Z.eqb_spec i (fs_length g)); cbn [andb].
    + exists 0. split; [reflexivity|left]. split; [reflexivity|]. rewrite skipn_all2 by (unfold zlen in *; lia). reflexivity.
    + destruct (Z.ltb_spec i (fs_length g)); [|lia]. exists (-1). split; [reflexivity|right; left]. split; [lia|].
      destruct (rd_chars m g i Hg ltac:(lia)) as (c & _ & E). rewrite (skipn_nth _ _ _ E). apply lex_lt_nil_cons.
  - destruct (Z.ltb_spec i (fs_length f)) as [Lt|Ge]; [destruct (Z.ltb_spec i (fs_length g)) as [Lt'|Ge']|]; cbn [andb].
    + destruct (rd_chars n f i Hf ltac:(lia)) as (c1 & E1 & N1). destruct (rd_chars m g i Hg ltac:(lia)) as (c2 & E2 & N2).
      rewrite E1, E2. cbn [bind]. rewrite (skipn_nth _ _ _ N1), (skipn_nth _ _ _ N2).
      assert (B1 : is_char c1) by (eapply Forall_forall; [exact Cf|eapply nth_error_In; eassumption]).
      assert (B2 : is_char c2) by (eapply Forall_forall; [exact Cg|eapply nth_error_In; eassumption]).
      unfold is_char in *. destruct (Z.eqb_spec c1 c2) as [->|Hne]; cbn [negb].
      * destruct (IH (i + 1) ltac:(lia) ltac:(lia) ltac:(lia)) as (c & E & HS). exists c. split; [exact E|].
        replace (Z.to_nat (i + 1)) with (S (Z.to_nat i)) in HS by lia. apply sgn_cons. assumption.
      * exists (c1 - c2). split.
        -- unfold int32. pows. destruct ((_ <=? _) && _) eqn:E; [reflexivity|lia].
        -- unfold sgn_spec. right. destruct (Z.lt_ge_cases c1 c2); [left|right]; (split; [lia|apply lex_lt_head; lia]).
    + assert (i = fs_length g) by lia. destruct (Z.eqb_spec i (fs_length f)); [lia|]. cbn [andb].
      exists 1. split; [reflexivity|right; right]. split; [lia|].
      rewrite (skipn_all2 (fs_chars g)) by (unfold zlen in *; lia).
      destruct (rd_chars n f i Hf ltac:(lia)) as (c & _ & E). rewrite (skipn_nth _ _ _ E). apply lex_lt_nil_cons.
    + assert (i = fs_length f) by lia. rewrite (skipn_all2 (fs_chars f)) by (unfold zlen in *; lia).
      destruct (Z.eqb_spec i (fs_length f)); [|lia].
      destruct (Z.eqb_spec i (fs_length g)); cbn [andb].
      * exists 0. split; [reflexivity|left]. split; [reflexivity|]. rewrite skipn_all2 by (unfold zlen in *; lia). reflexivity.
      * destruct (Z.ltb_spec i (fs_length g)); [|lia]. exists (-1). split; [reflexivity|right; left]. split; [lia|].
        destruct (rd_chars m g i Hg ltac:(lia)) as (c & _ & E). rewrite (skipn_nth _ _ _ E). apply lex_lt_nil_cons.
Qed.

Lemma fs_compare_ok n m f g : wf_fs n f -> wf_fs m g ->
  Forall is_char (fs_chars f) -> Forall is_char (fs_chars g) ->
  exists c, fs_compare f g = Ret c /\ sgn_spec c (fs_chars f) (fs_chars g).
Proof.
  intros Hf Hg Cf Cg. unfold fs_compare. pose proof Hf as [L1 L2]. pose proof Hg as [L3 L4].
  apply (fs_compare_loop_ok n m f g Hf Hg Cf Cg (length (fs_data f)) 0); lia.
Qed.

Lemma sgn_eq c a b : sgn_spec c a b -> (c = 0 <-> a = b).
Proof.
  intros [[-> ->]|[[H1 H2]|[H1 H2]]]; split; try tauto; try lia; intros ->; exfalso; eapply lex_irrefl; eassumption.
Qed.
Lemma sgn_lt c a b : sgn_spec c a b -> (c < 0 <-> lex_lt a b).
Proof.
  intros [[-> ->]|[[H1 H2]|[H1 H2]]]; split; try tauto; try lia; intros H; exfalso; eapply lex_irrefl; eauto using lex_trans.
Qed.
Lemma sgn_gt c a b : sgn_spec c a b -> (0 < c <-> lex_lt b a).
Proof.
  intros [[-> ->]|[[H1 H2]|[H1 H2]]]; split; try tauto; try lia; intros H; exfalso; eapply lex_irrefl; eauto using lex_trans.
Qed.

Lemma fs_eqb_ok n m f g : wf_fs n f -> wf_fs m g -> Forall is_char (fs_chars f) -> Forall is_char (fs_chars g) ->
  exists b, fs_eqb f g = Ret b /\ (b = true <-> fs_chars f = fs_chars g).
Proof.
  intros Hf Hg Cf Cg. destruct (fs_compare_ok n m f g Hf Hg Cf Cg) as (c & E & S).
  unfold fs_eqb. rewrite E. cbn [bind]. eexists. split; [reflexivity|]. rewrite Z.eqb_eq. apply sgn_eq, S.
Qed.
Lemma fs_ltb_ok n m f g : wf_fs n f -> wf_fs m g -> Forall is_char (fs_chars f) -> Forall is_char (fs_chars g) ->
  exists b, fs_ltb f g = Ret b /\ (b = true <-> lex_lt (fs_chars f) (fs_chars g)).
Proof.
  intros Hf Hg Cf Cg. destruct (fs_compare_ok n m f g Hf Hg Cf Cg) as (c & E & S).
  unfold fs_ltb. rewrite E. cbn [bind]. eexists. split; [reflexivity|]. rewrite Z.ltb_lt. apply sgn_lt, S.
Qed.
Lemma fs_cmp_ok n m f g : wf_fs n f -> wf_fs m g -> Forall is_char (fs_chars f) -> Forall is_char (fs_chars g) ->
  exists c, fs_cmp f g = Ret c /\
    match c with Eq => fs_chars f = fs_chars g | Lt => lex_lt (fs_chars f) (fs_chars g) | Gt => lex_lt (fs_chars g) (fs_chars f) end.
Proof.
  intros Hf Hg Cf Cg. destruct (fs_compare_ok n m f g Hf Hg Cf Cg) as (c & E & S).
  unfold fs_cmp. rewrite E. cbn [bind]. eexists. split; [reflexivity|].
  destruct (Z.eqb_spec c 0); [apply sgn_eq in S; tauto|]. destruct (Z.ltb_spec c 0).
  - apply (sgn_lt _ _ _ S). lia.
  - apply (sgn_gt _ _ _ S). lia.
Qed.

(** Hash depends on the contents only. *)
Lemma fs_hash_loop_ok n f bits prime : wf_fs n f -> forall k i value, 0 <= i -> i + Z.of_nat k = fs_length f ->
  fs_hash_loop k i bits prime value f =
  Ret (fold_left (fun v c => (Z.lxor v (c mod 2 ^ bits) * prime) mod 2 ^ bits) (skipn (Z.to_nat i) (fs_chars f)) value).
Proof.
  intros Hf. pose proof (chars_length n f Hf) as L. induction k as [|k IH]; intros i value Hi Hk; cbn [fs_hash_loop].
  - rewrite skipn_all2 by (unfold zlen in *; lia). reflexivity.
  - destruct (rd_chars n f i Hf ltac:(lia)) as (c & E & N). rewrite E. cbn [bind]. rewrite IH by lia.
    rewrite (skipn_nth _ _ _ N). cbn [fold_left]. replace (Z.to_nat (i + 1)) with (S (Z.to_nat i)) by lia. reflexivity.
Qed.
Lemma fs_hash_ok n m f g is64 : wf_fs n f -> wf_fs m g -> (n = O <-> m = O) -> fs_chars f = fs_chars g ->
  exists h, fs_hash is64 f = Ret h /\ fs_hash is64 g = Ret h.
Proof.
  intros Hf Hg Z0 E. pose proof (chars_length n f Hf) as L. pose proof (chars_length m g Hg) as L'. unfold fs_hash, fs_size.
  destruct Hf as [Hf1 Hf2]. destruct Hg as [Hg1 Hg2].
  unfold zlen. rewrite Hf1, Hg1. destruct (Z.eqb_spec (Z.of_nat n) 0), (Z.eqb_spec (Z.of_nat m) 0); [eauto|lia|lia|].
  rewrite (fs_hash_loop_ok n f) by (try split; try split; auto; lia).
  rewrite (fs_hash_loop_ok m g) by (try split; try split; auto; lia).
  change (Z.to_nat 0) with 0%nat. rewrite E. eauto.
Qed.

(** Swap. *)
Lemma fs_swap_loop_ok : forall k (pa pb a b : list Z), length pa = length pb -> length a = k -> length b = k ->
  forall ra rb, fs_swap_loop k (zlen pa) (pa ++ a ++ ra) (pb ++ b ++ rb) = Ret (pa ++ b ++ ra, pb ++ a ++ rb).
Proof.
  induction k as [|k IH]; intros pa pb a b HL La Lb ra rb.
  - destruct a, b; try discriminate. reflexivity.
  - destruct a as [|x a]; [discriminate|]. destruct b as [|y b]; [discriminate|]. cbn [fs_swap_loop app].
    rewrite rd_mid by reflexivity. cbn [bind]. rewrite rd_mid by (unfold zlen; lia). cbn [bind].
    rewrite wr_mid by reflexivity. cbn [bind]. rewrite wr_mid by (unfold zlen; lia). cbn [bind].
    specialize (IH (pa ++ [y]) (pb ++ [x]) a b). rewrite !app_length in IH. cbn in La, Lb, IH.
    specialize (IH ltac:(lia) ltac:(lia) ltac:(lia) ra rb). autorewrite with zl in IH. rewrite <- !app_assoc in IH. cbn [app] in IH.
    replace (zlen pa + 1) with (zlen pa + (0 + 1)) by lia. exact IH.
Qed.
Lemma fs_swap_ok n f g : wf_fs n f -> wf_fs n g ->
  exists f' g', fs_swap f g = Ret (f', g') /\ wf_fs n f' /\ wf_fs n g' /\ fs_chars f' = fs_chars g /\ fs_chars g' = fs_chars f.
Proof.
  intros [Lf Rf] [Lg Rg]. unfold fs_swap, fs_size.
  set (count := if fs_length f <? fs_length g then fs_length g else fs_length f).
  assert (C : fs_length f <= count <= Z.of_nat n /\ fs_length g <= count).
  { unfold count. destruct (Z.ltb_spec (fs_length f) (fs_length g)); lia. }
  clearbody count. set (k := Z.to_nat count).
  pose proof (fs_swap_loop_ok k [] [] (firstn k (fs_data f)) (firstn k (fs_data g)) eq_refl) as E.
  rewrite !firstn_length in E. specialize (E ltac:(lia) ltac:(lia) (skipn k (fs_data f)) (skipn k (fs_data g))).
  cbn [app] in E. change (zlen []) with 0 in E. rewrite !firstn_skipn in E. unfold k in *. rewrite E. cbn [bind].
  do 2 eexists. split; [reflexivity|]. unfold wf_fs, fs_chars. cbn [fs_data fs_length].
  rewrite !app_length, !firstn_length, !skipn_length.
  split; [lia|]. split; [lia|].
  assert (K : forall (a b : list Z) m, 0 <= m <= count -> (Z.to_nat count <= length a)%nat ->
     firstn (Z.to_nat m) (firstn (Z.to_nat count) a ++ b) = firstn (Z.to_nat m) a).
  { intros a b m Hm Ha. rewrite firstn_app, firstn_firstn, firstn_length.
    replace (Init.Nat.min (Z.to_nat m) (Z.to_nat count)) with (Z.to_nat m) by lia.
    replace (Z.to_nat m - Init.Nat.min (Z.to_nat count) (length a))%nat with 0%nat by lia. cbn. apply app_nil_r. }
  split; apply K; lia.
Qed.

(** Last character. *)
Lemma fs_back_full n f : wf_fs n f -> (0 < n)%nat -> fs_length f = Z.of_nat n ->
  exists c s, fs_back f = Ret c /\ fs_chars f = s ++ [c].
Proof.
  intros [Lf Rf] Hn E. unfold fs_back, fs_chars. rewrite E, Nat2Z.id, <- Lf, firstn_all.
  destruct (exists_last (l := fs_data f)) as (s & c & Es); [intros E'; rewrite E' in Lf; cbn in Lf; lia|].
  exists c, s. split; [|assumption]. rewrite Es. apply rd_mid. autorewrite with zl. lia.
Qed.
Lemma fs_back_wrong : exists f, fs_make char_next 3 [97; 98; 0; 0] = Ret f /\
  wf_fs 3 f /\ fs_chars f = [97; 98] /\ fs_back f = Ret 0.
Proof.
  exists (mkfs 2 [97; 98; 0]). split; [reflexivity|]. split; [|split; reflexivity].
  split; [reflexivity|cbn; lia].
Qed.

(** A full string without capacity hashes to 0, an empty one with capacity does not. *)
Lemma fs_hash_zero : exists f g, wf_fs 0 f /\ wf_fs 1 g /\ fs_eqb f g = Ret true /\
  forall is64, exists h, fs_hash is64 f = Ret 0 /\ fs_hash is64 g = Ret h /\ h <> 0.
Proof.
  exists (mkfs 0 []), (mkfs 0 [0]). split; [split; [reflexivity|cbn; lia]|]. split; [split; [reflexivity|cbn; lia]|].
  split; [reflexivity|]. intros [|]; [exists 14695981039346656037|exists 2166136261]; (do 2 (split; [reflexivity|])); discriminate.
Qed.

(** Access and iteration. *)
Lemma fs_at_ok n f i : wf_fs n f -> 0 <= i < fs_size f -> exists c, fs_at f i = Ret c /\ nth_error (fs_chars f) (Z.to_nat i) = Some c.
Proof. exact (rd_chars n f i). Qed.
Lemma fs_front_ok n f c s : wf_fs n f -> fs_chars f = c :: s -> fs_front f = Ret c.
Proof.
  intros W E. pose proof (chars_length n f W) as L. rewrite E in L. destruct (rd_chars n f 0 W) as (d & Hd & N); [unfold zlen in L; cbn [length] in L; lia|].
  rewrite E in N. injection N as ->. exact Hd.
Qed.
Lemma fs_walk_from n f : wf_fs n f -> forall k i, 0 <= i -> i + Z.of_nat k = fs_length f -> fs_walk k f i = Ret (skipn (Z.to_nat i) (fs_chars f)).
Proof.
  intros W. pose proof (chars_length n f W) as L. induction k as [|k IH]; intros i Hi Hk; cbn [fs_walk]; unfold fs_end; destruct (Z.eqb_spec i (0 + fs_length f)) as [E|E]; try lia.
  - rewrite skipn_all2 by (unfold zlen in L; lia). reflexivity.
  - destruct (rd_chars n f i W ltac:(lia)) as (c & Hc & N). unfold fs_at in Hc. rewrite Hc. cbn [bind]. rewrite IH by lia. cbn [bind].
    rewrite (skipn_nth _ _ _ N). replace (Z.to_nat (i + 1)) with (S (Z.to_nat i)) by lia. reflexivity.
Qed.
Lemma fs_walk_ok n f : wf_fs n f -> fs_walk (Z.to_nat (fs_size f)) f (fs_begin f) = Ret (fs_chars f).
Proof. intros W. rewrite (fs_walk_from n f W); [reflexivity|unfold fs_begin; lia|]. destruct W as [_ W]. unfold fs_begin, fs_size. lia. Qed.
Lemma fs_rwalk_from n f : wf_fs n f -> forall k, Z.of_nat k <= fs_length f -> fs_rwalk k f (Z.of_nat k) = Ret (rev (firstn k (fs_chars f))).
Proof.
  intros W. induction k as [|k IH]; intros Hk; [reflexivity|]. cbn [fs_rwalk]. unfold fs_begin. destruct (Z.eqb_spec (Z.of_nat (S k)) 0) as [E|E]; [lia|].
  replace (Z.of_nat (S k) - 1) with (Z.of_nat k) by lia. destruct (rd_chars n f (Z.of_nat k) W ltac:(lia)) as (c & Hc & N). unfold fs_at in Hc. rewrite Hc. cbn [bind].
  rewrite IH by lia. cbn [bind]. rewrite Nat2Z.id in N.
  assert (G : forall (l : list Z) j x, nth_error l j = Some x -> firstn (S j) l = firstn j l ++ [x]).
  { clear. induction l as [|y l IH]; intros [|j] x H; try discriminate; [injection H as ->; reflexivity|]. cbn [firstn app]. f_equal. apply IH. exact H. }
  rewrite (G _ _ _ N), rev_app_distr. reflexivity.
Qed.
Lemma fs_rwalk_ok n f : wf_fs n f -> fs_rwalk (Z.to_nat (fs_size f)) f (fs_end f) = Ret (rev (fs_chars f)).
Proof.
  intros W. pose proof (chars_length n f W) as L. replace (fs_end f) with (Z.of_nat (Z.to_nat (fs_size f))) by (destruct W as [_ W]; unfold fs_end, fs_size; lia).
  rewrite (fs_rwalk_from n f W) by (destruct W as [_ W]; unfold fs_size; lia). do 2 f_equal. apply firstn_all2. unfold zlen, fs_size in *. lia.
Qed.
