(** Address comparison, hashing and the other whole-address operations. *)
From Verif Require Import Base Tac TextProofs UnicodeModel FixedStringModel V4Model V6Model Uint128Model SpecInt Uint128Proofs
  SpecText SpecAddr SpecStr SpecV6 StrProofs V4Proofs BufProofs BitProofs FixedStringProofs V4Lemmas V6Proofs V6Full V6Lemmas
  AddressModel SpecOrder.

Lemma scope_len t : storable t -> zlen t <= 16.
Proof. intros [->|[[H _] _]]; [cbn; lia|lia]. Qed.
Lemma scope_fs_wf t : zlen t <= 16 -> wf_fs 16 (scope_fs t) /\ fs_chars (scope_fs t) = t.
Proof.
  intros H. unfold zlen in H. split.
  - split; cbn [fs_data fs_length scope_fs]; [rewrite app_length, repeat_length; lia|unfold zlen; lia].
  - unfold fs_chars, scope_fs, zlen. cbn [fs_data fs_length]. rewrite Nat2Z.id, firstn_app, Nat.sub_diag, firstn_all, firstn_O.
    apply app_nil_r.
Qed.
Lemma scope_cmp s t : storable s -> storable t -> Forall is_char s -> Forall is_char t ->
  exists c, fs_compare (scope_fs s) (scope_fs t) = Ret c /\ sgn_spec c s t.
Proof.
  intros Hs Ht Cs Ct. destruct (scope_fs_wf s (scope_len s Hs)) as [W E]. destruct (scope_fs_wf t (scope_len t Ht)) as [W' E'].
  destruct (fs_compare_ok 16 16 _ _ W W') as (c & H & HS); rewrite ?E, ?E' in *; eauto.
Qed.

Lemma list_eqb_eq : forall a b, list_eqb a b = true <-> a = b.
Proof.
  induction a as [|x a IH]; intros [|y b]; cbn [list_eqb]; try (split; congruence).
  rewrite andb_true_iff, Z.eqb_eq, IH. split; [intros [-> ->]; reflexivity|intros [= -> ->]; auto].
Qed.

Lemma be_cons x a : be_value (x :: a) = x * 256 ^ zlen a + be_value a.
Proof. change (x :: a) with ([x] ++ a). rewrite be_app. reflexivity. Qed.

Lemma bytes_cmp_ok : forall a b, length a = length b -> Forall is_byte a -> Forall is_byte b ->
  bytes_cmp a b = (be_value a ?= be_value b).
Proof.
  induction a as [|x a IH]; intros [|y b] L Ha Hb; try discriminate; cbn [bytes_cmp]; [reflexivity|].
  inversion Ha as [|? ? X A]. inversion Hb as [|? ? Y B]. subst. cbn [length] in L.
  rewrite !be_cons. assert (E : zlen a = zlen b) by (unfold zlen; lia). rewrite <- E in *.
  pose proof (be_range a A) as Ra. pose proof (be_range b B) as Rb. rewrite <- E in Rb.
  set (P := 256 ^ zlen a) in *. assert (0 < P) by lia.
  destruct (Z.eqb_spec x y) as [->|N]; cbn [negb].
  - rewrite IH by (auto; lia). symmetry. apply Zcompare_plus_compat.
  - symmetry. destruct (Z.ltb_spec x y).
    + apply Z.compare_lt_iff. nia.
    + apply Z.compare_gt_iff. nia.
Qed.
Lemma bytes_ltb_cmp : forall a b, bytes_ltb a b = match bytes_cmp a b with Lt => true | _ => false end.
Proof.
  induction a as [|x a IH]; intros [|y b]; cbn [bytes_ltb bytes_cmp]; try reflexivity.
  destruct (Z.ltb_spec x y); destruct (Z.eqb_spec x y); cbn [negb]; try lia; auto.
Qed.
Lemma bytes_cmp_val v a b : wf_addr v a -> wf_addr v b -> bytes_cmp (a_bytes a) (a_bytes b) = (val a ?= val b).
Proof. intros [[La Ba] _] [[Lb Bb] _]. apply bytes_cmp_ok; auto; congruence. Qed.
Lemma val_range v a : wf_addr v a -> 0 <= val a < 2 ^ width v.
Proof. intros [H _]. apply be_value_range. exact H. Qed.

Lemma addr_ext a b : a_bytes a = a_bytes b -> a_scope a = a_scope b -> a = b.
Proof. destruct a, b. cbn. intros -> ->. reflexivity. Qed.
Lemma val_inj v a b : wf_addr v a -> wf_addr v b -> val a = val b -> a_bytes a = a_bytes b.
Proof. intros [H _] [H' _] E. eapply be_value_inj; eassumption. Qed.
Lemma v4_scope a b : wf_addr V4 a -> wf_addr V4 b -> a_scope a = a_scope b.
Proof. intros [_ ->] [_ ->]. reflexivity. Qed.

Lemma addr_cmp_ok v a b : wf_addr v a -> wf_addr v b ->
  exists c, addr_cmp v a b = Ret c /\
    match c with Eq => a = b | Lt => addr_before a b | Gt => addr_before b a end.
Proof.
  intros Ha Hb. unfold addr_cmp. rewrite (bytes_cmp_val v a b Ha Hb). destruct v.
  - eexists. split; [reflexivity|]. destruct (Z.compare_spec (val a) (val b)) as [E|E|E].
    + apply addr_ext; [eapply val_inj; eassumption|apply v4_scope; assumption].
    + left. exact E.
    + left. exact E.
  - destruct (Z.compare_spec (val a) (val b)) as [E|E|E].
    + destruct Ha as [Wa [Sa Ca]], Hb as [Wb [Sb Cb]].
      destruct (scope_cmp _ _ Sa Sb Ca Cb) as (c & -> & HS). cbn [bind]. eexists. split; [reflexivity|].
      destruct HS as [[-> HS]|[[Hc HS]|[Hc HS]]].
      * cbn. apply addr_ext; [eapply be_value_inj; eassumption|assumption].
      * destruct (Z.ltb_spec c 0); [|lia]. right. auto.
      * destruct (Z.ltb_spec c 0); [lia|]. destruct (Z.eqb_spec c 0); [lia|]. right. auto.
    + eexists. split; [reflexivity|]. left. exact E.
    + eexists. split; [reflexivity|]. left. exact E.
Qed.

Lemma addr_eqb_ok v a b : wf_addr v a -> wf_addr v b -> exists r, addr_eqb v a b = Ret r /\ (r = true <-> a = b).
Proof.
  intros Ha Hb. unfold addr_eqb. destruct v.
  - eexists. split; [reflexivity|]. rewrite list_eqb_eq. split; [|intros ->; reflexivity].
    intros E. apply addr_ext; [assumption|apply v4_scope; assumption].
  - destruct (list_eqb _ _) eqn:E.
    + apply list_eqb_eq in E. destruct Ha as [Wa [Sa Ca]], Hb as [Wb [Sb Cb]].
      destruct (scope_cmp _ _ Sa Sb Ca Cb) as (c & -> & HS). cbn [bind]. eexists. split; [reflexivity|].
      rewrite Z.eqb_eq. apply sgn_eq in HS. rewrite HS. split; [intros; apply addr_ext; assumption|intros ->; reflexivity].
    + eexists. split; [reflexivity|]. split; [discriminate|]. intros ->.
      assert (list_eqb (a_bytes b) (a_bytes b) = true) by (apply list_eqb_eq; reflexivity). congruence.
Qed.

Lemma before_irrefl a : ~ addr_before a a.
Proof. intros [H|[_ H]]; [lia|eapply lex_irrefl; eassumption]. Qed.
Lemma before_trans a b c : addr_before a b -> addr_before b c -> addr_before a c.
Proof.
  intros [H|[E H]] [H'|[E' H']]; [left; lia|left; lia|left; lia|right]. split; [lia|]. eapply lex_trans; eassumption.
Qed.
Lemma before_total v a b : wf_addr v a -> wf_addr v b -> addr_before a b \/ a = b \/ addr_before b a.
Proof. intros Ha Hb. destruct (addr_cmp_ok v a b Ha Hb) as (c & _ & H). destruct c; auto. Qed.

Lemma op_cpp20 v a b : wf_addr v a -> wf_addr v b ->
  exists lt gt le ge, op_lt true v a b = Ret lt /\ op_gt true v a b = Ret gt /\ op_le true v a b = Ret le /\ op_ge true v a b = Ret ge /\
    (lt = true <-> addr_before a b) /\ (gt = true <-> addr_before b a) /\
    (le = true <-> addr_before a b \/ a = b) /\ (ge = true <-> addr_before b a \/ a = b).
Proof.
  intros Ha Hb. unfold op_lt, op_gt, op_le, op_ge. destruct (addr_cmp_ok v a b Ha Hb) as (c & -> & H). cbn [bind].
  do 4 eexists. do 4 (split; [reflexivity|]).
  pose proof (before_irrefl a) as I1. pose proof (before_irrefl b) as I2.
  pose proof (before_trans a b a) as T1. pose proof (before_trans b a b) as T2.
  destruct c; [subst b| |]; repeat split; intros; try discriminate; auto; exfalso; intuition (subst; auto).
Qed.

(** The pre-C++20 [less]: right for IPv4 and for equal scope ids. *)
Lemma less_ok v a b : wf_addr v a -> wf_addr v b -> a_scope a = a_scope b ->
  exists r, addr_ltb v a b = Ret r /\ (r = true <-> addr_before a b).
Proof.
  intros Ha Hb Es. unfold addr_ltb. rewrite bytes_ltb_cmp, (bytes_cmp_val v a b Ha Hb).
  assert (L : forall x, ~ lex_lt x x) by (intro; apply lex_irrefl).
  destruct v.
  - eexists. split; [reflexivity|]. destruct (Z.compare_spec (val a) (val b)) as [E|E|E]; unfold addr_before; rewrite Es;
      split; intros; try discriminate; try (left; assumption); intuition (try lia); exfalso; eapply L; eassumption.
  - destruct Ha as [Wa [Sa Ca]], Hb as [Wb [Sb Cb]]. destruct (scope_cmp _ _ Sa Sb Ca Cb) as (c & Ec & HS). rewrite Ec. cbn [bind].
    assert (c = 0) by (apply (sgn_eq _ _ _ HS), Es). subst c.
    destruct (Z.compare_spec (val a) (val b)) as [E|E|E]; (eexists; split; [reflexivity|]); unfold addr_before; rewrite Es;
      split; intros; try discriminate; try (left; assumption); intuition (try lia); exfalso; eapply L; eassumption.
Qed.
Lemma op_cpp17 v a b : wf_addr v a -> wf_addr v b -> a_scope a = a_scope b ->
  op_lt false v a b = op_lt true v a b /\ op_gt false v a b = op_gt true v a b /\
  op_le false v a b = op_le true v a b /\ op_ge false v a b = op_ge true v a b.
Proof.
  intros Ha Hb Es. unfold op_lt, op_gt, op_le, op_ge.
  destruct (less_ok v a b Ha Hb Es) as (r & -> & Hr). destruct (less_ok v b a Hb Ha (eq_sym Es)) as (r' & -> & Hr').
  destruct (addr_cmp_ok v a b Ha Hb) as (c & -> & H). cbn [bind].
  pose proof (before_irrefl a) as I1. pose proof (before_irrefl b) as I2. pose proof (before_trans a b a) as T1.
  destruct c; [subst b| |]; destruct r, r'; repeat split; try reflexivity; exfalso; intuition congruence.
Qed.
Definition ex_a := mk_addr (repeat 0 15 ++ [1]) [98].
Definition ex_b := mk_addr (repeat 0 15 ++ [2]) [97].
Lemma storable1 c : scope_char c -> c <> 0 -> storable [c].
Proof. intros H N. right. split; [split; [cbn; lia|repeat constructor; apply H]|]. intros [|[]]. congruence. Qed.
Lemma ex_ab_wf : wf_addr V6 ex_a /\ wf_addr V6 ex_b.
Proof.
  assert (S1 : storable [98]) by (apply storable1; [unfold scope_char|]; lia).
  assert (S2 : storable [97]) by (apply storable1; [unfold scope_char|]; lia).
  split; (split; [split; [reflexivity|cbn; repeat constructor; lia]|]); (split; [assumption|repeat constructor; cbn; lia]).
Qed.
Lemma less_wrong : exists a b, wf_addr V6 a /\ wf_addr V6 b /\ addr_ltb V6 a b = Ret true /\ addr_ltb V6 b a = Ret true.
Proof. exists ex_a, ex_b. destruct ex_ab_wf. do 2 (split; [assumption|]). split; vm_compute; reflexivity. Qed.

(** *** Hashing *)
Lemma addr_hash_defined is64 v a : wf_addr v a -> exists h, addr_hash is64 v a = Ret h.
Proof.
  intros Ha. unfold addr_hash. destruct v; [eauto|]. destruct Ha as [_ [Sa _]].
  destruct (scope_fs_wf _ (scope_len _ Sa)) as [W E].
  destruct (fs_hash_ok 16 16 _ _ is64 W W ltac:(tauto) eq_refl) as (h & -> & _). cbn [bind]. eauto.
Qed.
Lemma addr_hash_eq is64 v a b : wf_addr v a -> wf_addr v b -> addr_eqb v a b = Ret true ->
  exists h, addr_hash is64 v a = Ret h /\ addr_hash is64 v b = Ret h.
Proof.
  intros Ha Hb E. destruct (addr_eqb_ok v a b Ha Hb) as (r & E' & Hr). rewrite E in E'. injection E' as <-.
  assert (a = b) as -> by (apply Hr; reflexivity). destruct (addr_hash_defined is64 v b Hb) as (h & Hh). eauto.
Qed.

(** *** from_bytes *)
Lemma from_bytes_loop_ok : forall k i pre rest src count, 0 <= count -> zlen pre = i -> length rest = k ->
  count <= zlen src ->
  from_bytes_loop k i src count (pre ++ rest) =
    Ret (pre ++ firstn (Z.to_nat (count - i)) (firstn k (skipn (Z.to_nat i) src)) ++ skipn (Z.to_nat (count - i)) rest).
Proof.
  induction k as [|k IH]; intros i pre rest src count Hc Hi Hr Hs; cbn [from_bytes_loop].
  - destruct rest; [|discriminate]. rewrite firstn_O, firstn_nil, skipn_nil. reflexivity.
  - destruct rest as [|y rest]; [discriminate|]. cbn in Hr. pose proof (zlen_nonneg pre).
    destruct (Z.ltb_spec i count).
    + destruct (rd_some src i ltac:(lia)) as (x & -> & N). cbn [bind].
      rewrite wr_mid by (symmetry; exact Hi). cbn [bind].
      change (pre ++ x :: rest) with (pre ++ [x] ++ rest). rewrite app_assoc, IH; [|lia|rewrite zlen_app, zlen_cons, zlen_nil; lia|lia|lia].
      rewrite (skipn_nth _ _ _ N). replace (Z.to_nat (i + 1)) with (S (Z.to_nat i)) by lia.
      replace (Z.to_nat (count - i)) with (S (Z.to_nat (count - (i + 1)))) by lia. cbn [firstn skipn].
      rewrite <- app_assoc. reflexivity.
    + replace (Z.to_nat (count - i)) with 0%nat by lia. cbn [firstn skipn app]. reflexivity.
Qed.
Lemma from_bytes_ok v src count : 0 <= count <= zlen src ->
  from_bytes v src count =
    Ret (mk_addr (firstn (nbytes v) (firstn (Z.to_nat count) src ++ repeat 0 (nbytes v))) []).
Proof.
  intros H. unfold from_bytes.
  pose proof (from_bytes_loop_ok (nbytes v) 0 [] (repeat 0 (nbytes v)) src count ltac:(lia) eq_refl ltac:(apply repeat_length) ltac:(lia)) as E.
  cbn [app] in E. rewrite E. cbn [bind]. do 2 f_equal. rewrite Z.sub_0_r. cbn [Z.to_nat]. cbn [skipn].
  rewrite firstn_firstn, firstn_app, firstn_length, firstn_firstn. unfold zlen in H.
  rewrite (Nat.min_comm (nbytes v)). f_equal.
  assert (S : forall m n, skipn m (repeat 0 n) = repeat 0 (n - m)).
  { clear. induction m as [|m IH]; intros [|n]; cbn; try reflexivity. apply IH. }
  assert (F : forall m n, (m <= n)%nat -> firstn m (repeat 0 n) = repeat 0 m).
  { clear. induction m as [|m IH]; intros [|n] L; cbn; try reflexivity; try lia. f_equal. apply IH. lia. }
  rewrite S, F by lia. f_equal. lia.
Qed.
Lemma Forall_firstn' {A} (P : A -> Prop) n l : Forall P l -> Forall P (firstn n l).
Proof. intros H. revert n. induction H; intros [|n]; cbn; constructor; auto. Qed.
Lemma from_bytes_wf v src count : 0 <= count <= zlen src -> Forall is_byte src ->
  exists a, from_bytes v src count = Ret a /\ wf_addr v a.
Proof.
  intros H F. rewrite from_bytes_ok by assumption. eexists. split; [reflexivity|]. split.
  - split; cbn [a_bytes].
    + rewrite firstn_length, app_length, repeat_length. lia.
    + apply Forall_firstn', Forall_app. split; [apply Forall_firstn'; assumption|].
      apply Forall_forall. intros x Hx. apply repeat_spec in Hx as ->. unfold is_byte. lia.
  - cbn [a_scope]. destruct v; [reflexivity|]. split; [left; reflexivity|constructor].
Qed.

Lemma unspecified_ok v a : wf_addr v a -> (addr_unspecified a = true <-> val a = 0).
Proof.
  intros [[_ H] _]. unfold addr_unspecified, val. induction H as [|x b Hx Hb IH]; [cbn; tauto|].
  cbn [all_zero]. rewrite be_cons. pose proof (be_range b Hb). unfold is_byte in Hx.
  destruct (Z.eqb_spec x 0) as [->|N]; cbn [negb]; [rewrite IH; lia|]. split; [discriminate|nia].
Qed.

(** *** Setting and swapping scopes *)
Lemma set_scope_loop_err : forall s i str e v, set_scope_loop (chars s) i str = Err e v -> e = invalid_scope_id.
Proof.
  induction s as [|c s IH]; intros i str e v; cbn [chars map set_scope_loop]; [discriminate|].
  destruct (is_invalid_scope_id_symbol c); [intros [= <- _]; reflexivity|].
  unfold wr. destruct (i <? 0); [discriminate|]. destruct (upd _ _ _); cbn [bind]; [apply IH|discriminate].
Qed.
Lemma set_scope_err s e v : v6_set_scope (zlen s) (chars s) = Err e v ->
  (e = scope_id_is_too_long /\ zlen s > 16) \/ (e = invalid_scope_id /\ zlen s <= 16 /\ ~ Forall scope_char s).
Proof.
  intros H. pose proof (set_scope_iff s (cut s)) as I. revert H. unfold v6_set_scope in *. unfold scope_max in *.
  destruct (Z.gtb_spec (zlen s) 16).
  - intros [= <- _]. left. split; [reflexivity|lia].
  - intros H'. right.
    assert (E : e = invalid_scope_id).
    { revert H'. destruct (set_scope_loop _ _ _) as [str|e' v'|] eqn:E; cbn [bind]; try discriminate.
      - destruct (fs_make char_next 16 str) as [f|e' v'|] eqn:E2; cbn [bind]; try discriminate. intros [= -> ->].
        exfalso. revert E2. unfold fs_make. generalize (Z.of_nat 16), 0 at 1, (fs_empty 16). generalize 0.
        generalize 16%nat. induction n as [|n IH]; intros i it m f; cbn [fs_fill]; [discriminate|].
        unfold char_next at 1. destruct (rd str m) as [c| |] eqn:Er; cbn [bind]; try discriminate.
        + unfold wr. destruct (i <? 0); [discriminate|]. destruct (upd _ _ _); cbn [bind]; [|discriminate].
          destruct (c =? 0); [discriminate|apply IH].
        + unfold rd in Er. destruct (m <? 0); [discriminate|]. destruct (nth_error _ _); discriminate.
      - intros [= -> ->]. eapply set_scope_loop_err; eassumption. }
    split; [exact E|]. split; [lia|]. intros F. rewrite H' in I. destruct I as [_ I]. discriminate I. auto.
Qed.
Lemma cut_storable s : zlen s <= 16 -> Forall scope_char s -> storable (cut s).
Proof.
  intros L F. destruct (cut s) as [|c t] eqn:Ec; [left; reflexivity|right]. rewrite <- Ec.
  pose proof (cut_len s) as Lc. unfold zlen in *.
  split; [split|]; [unfold zlen; rewrite Ec in *; cbn [length] in *; lia|apply cut_forall; assumption|apply cut_no0].
Qed.
Lemma set_scope_state a code s : wf_addr V6 a -> Forall is_char s ->
  exists a' e i, addr_set_scope a code (zlen s) (chars s) = Ret (a', e, i) /\ wf_addr V6 a' /\ a_bytes a' = a_bytes a /\
    (e = no_error <-> zlen s <= 16 /\ Forall scope_char s) /\
    (e <> no_error -> a' = a) /\
    (e = no_error -> v6_set_scope (zlen s) (chars s) = Ret (a_scope a')).
Proof.
  intros Ha Cs. unfold addr_set_scope. pose proof (set_scope_defined s) as D.
  destruct (v6_set_scope (zlen s) (chars s)) as [t|e i|u] eqn:E; [| |destruct D].
  - exists (mk_addr (a_bytes a) t), no_error, 0. split; [reflexivity|]. apply set_scope_iff in E as (L & F & ->).
    split; [|split; [reflexivity|split; [tauto|split; [congruence|reflexivity]]]].
    destruct Ha as [Ba _]. split; [exact Ba|]. cbn [a_scope]. split; [apply cut_storable; assumption|apply cut_forall; assumption].
  - exists a, e, i. split; [reflexivity|]. split; [assumption|]. split; [reflexivity|].
    apply set_scope_err in E. split; [|split; [auto|]]; destruct E as [[-> ?]|[-> [? ?]]]; try discriminate.
    + split; [discriminate|lia].
    + split; [discriminate|tauto].
Qed.
Lemma addr_swap_ok v a b : wf_addr v a -> wf_addr v b -> addr_swap a b = Ret (b, a).
Proof.
  assert (K : forall a, wf_addr v a -> zlen (a_scope a) <= 16).
  { intros x [_ H]. destruct v; [rewrite H; cbn; lia|apply scope_len, H]. }
  intros Ha Hb. unfold addr_swap. destruct (scope_fs_wf _ (K a Ha)) as [W E]. destruct (scope_fs_wf _ (K b Hb)) as [W' E'].
  destruct (fs_swap_ok 16 _ _ W W') as (f & g & -> & _ & _ & E1 & E2). cbn [bind]. rewrite E1, E2, E, E'.
  destruct a, b. reflexivity.
Qed.

(** *** Literals *)
Lemma max_len_pos v : 0 <= max_string_len v. Proof. destruct v; cbn; lia. Qed.
Lemma parse_array_ok v s k : zlen s <= max_string_len v -> ~ In 0 s -> (max_string_len v < zlen s + Z.of_nat k) ->
  addr_parse_array v (s ++ repeat 0 k) = addr_parse v (chars s).
Proof.
  intros L N K. unfold addr_parse_array. pose proof (max_len_pos v).
  destruct (fs_make_chars (Z.to_nat (max_string_len v)) (s ++ repeat 0 k)) as (f & -> & _ & C & _).
  - rewrite app_length, repeat_length. unfold zlen in *. lia.
  - cbn [bind]. do 2 f_equal. eapply c_string_unique; [exact C|]. split; [exact N|]. exists (repeat 0 k). split; [reflexivity|].
    unfold zlen in *. destruct (Nat.eq_dec (length s) (Z.to_nat (max_string_len v))); [left; assumption|right]. split; [lia|].
    destruct k as [|k]; [lia|]. exists (repeat 0 k). reflexivity.
Qed.
Lemma literal_ok v s : ~ In 0 s ->
  addr_literal v s = if zlen s >? max_string_len v then Err string_is_too_long 0 else addr_parse v (chars s).
Proof.
  intros N. unfold addr_literal. destruct (Z.gtb_spec (zlen s) (max_string_len v)); [reflexivity|].
  apply parse_array_ok; [lia|assumption|]. lia.
Qed.
