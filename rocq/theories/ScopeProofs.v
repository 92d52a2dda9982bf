(** The class scope, and set_scope_id in every character type. *)
From Verif Require Import Base Tac TextProofs UnicodeModel FixedStringModel V4Model V6Model SpecText SpecV6 SpecAddr SpecStr StrProofs Utf8Proofs UnicodeLemmas
  BufProofs FixedStringProofs V6Proofs V6Full V6Lemmas AddressModel SpecOrder AddressProofs AnyModel SpecAny AnyProofs SpecCode CodeModel CodeProofs CodeProofs3
  StreamModel SpecStream StreamProofs StreamProofs2 SpecLiteral LiteralModel LiteralProofs ErrProofs RaiseProofs5 LiteralProofs2 SpecLoose LooseProofs ScopeModel SpecScope.

(** ** The class *)
Lemma parse_value_ok n f : wf_fs n f -> forall k i value, 0 <= i -> i + Z.of_nat k = fs_length f ->
  parse_value k i f value = Ret (scope_value_loop (skipn (Z.to_nat i) (fs_chars f)) value).
Proof.
  intros Hf. pose proof (chars_length n f Hf) as L. induction k as [|k IH]; intros i value Hi Hk; cbn [parse_value].
  - rewrite skipn_all2 by (unfold zlen in *; lia). reflexivity.
  - destruct (rd_chars n f i Hf ltac:(lia)) as (c & E & N). rewrite E. cbn [bind]. rewrite (skipn_nth _ _ _ N).
    cbn [scope_value_loop]. destruct ((c >=? 48) && (c <=? 57)); [|reflexivity]. rewrite IH by lia.
    replace (Z.to_nat (i + 1)) with (S (Z.to_nat i)) by lia.
    replace (w32 (w32 (value * 10) + (c - 48))) with (w32 (value * 10 + (c - 48))); [reflexivity|].
    unfold w32. rewrite Z.add_mod_idemp_l by lia. reflexivity.
Qed.
Lemma chars_nil_iff n f : wf_fs n f -> (fs_empty_b f = true <-> fs_chars f = []).
Proof.
  intros Hf. pose proof (chars_length n f Hf) as L. unfold fs_empty_b, fs_size. rewrite Z.eqb_eq, <- L. unfold zlen.
  split; [intros H; apply length_zero_iff_nil; lia|intros ->; reflexivity].
Qed.
Lemma scope_make_ok n f : wf_fs n f -> scope_make f = Ret (mk_scope f (snd (scope_value (fs_chars f))) (fst (scope_value (fs_chars f)))).
Proof.
  intros Hf. unfold scope_make. pose proof (chars_nil_iff n f Hf) as N. destruct (fs_empty_b f); cbn [negb].
  - rewrite (proj1 N eq_refl). reflexivity.
  - pose proof (chars_length n f Hf) as L. unfold fs_size. rewrite (parse_value_ok n f Hf) by (destruct Hf as [_ ?]; lia).
    cbn [bind skipn]. change (Z.to_nat 0) with 0%nat. cbn [skipn]. unfold scope_value.
    destruct (fs_chars f) as [|c t]; [discriminate (proj2 N eq_refl)|]. destruct (scope_value_loop (c :: t) 0); reflexivity.
Qed.
Lemma scope_sees n f : wf_fs n f -> exists s, scope_make f = Ret s /\ sc_id s = f /\ sees s (fs_chars f).
Proof.
  intros Hf. eexists. split; [apply (scope_make_ok n f Hf)|]. split; [reflexivity|].
  destruct (scope_value_ok (fs_chars f)) as (A & B & C). pose proof (chars_nil_iff n f Hf) as N.
  unfold sees, scope_string, scope_bool, scope_has_string, scope_has_uint32, scope_uint32, decimal. cbn [sc_id sc_value sc_has].
  assert (K : negb (fs_empty_b f) = true <-> fs_chars f <> []).
  { destruct (fs_empty_b f); cbn; [split; [discriminate|intros H; destruct H; apply N; reflexivity]|split; [intros _ H; apply N in H; discriminate|reflexivity]]. }
  split; [reflexivity|]. do 2 (split; [exact K|]). split; [rewrite A; split; [intros [H [ds D]]; exists ds; auto|intros [ds [H D]]; eauto]|].
  split; [|exact C]. intros ds [H D]. apply B; assumption.
Qed.
Lemma get_scope_ok a : wf_addr V6 a -> exists s, get_scope a = Ret s /\ sees s (a_scope a).
Proof.
  intros [_ [St _]]. destruct (scope_fs_wf _ (scope_len _ St)) as [W E]. destruct (scope_sees 16 _ W) as (s & Es & _ & H).
  exists s. split; [exact Es|]. rewrite E in H. exact H.
Qed.
Lemma any_get_scope_ok x : wf_any x -> exists s, any_get_scope x = Ret s /\ sees s (if ver_eqb (aa_ver x) V4 then [] else a_scope (aa_addr x)).
Proof.
  destruct x as [[] a]; intros H; unfold any_get_scope; cbn [aa_ver aa_addr ver_eqb].
  - change (ver_eqb V4 V4) with true. cbv iota. destruct (scope_sees 16 (fs_empty 16)) as (s & Es & _ & K); [split; cbn; lia|].
    exists s. split; [exact Es|]. exact K.
  - change (ver_eqb V6 V4) with false. cbv iota. apply get_scope_ok. exact H.
Qed.

(** ** The setters *)
Lemma lax_shorter s cs : lax_utf8 s cs -> zlen cs <= zlen s.
Proof.
  induction 1 as [|seq c s p H _ IH]; [lia|]. autorewrite with zl. enough (1 <= zlen seq) by lia.
  destruct H; unfold zlen; cbn [length]; lia.
Qed.
Lemma chars_inj a b : chars a = chars b -> a = b.
Proof. revert b. induction a as [|x a IH]; intros [|y b]; cbn; try discriminate; [reflexivity|]. intros [= -> H]. f_equal. apply IH. exact H. Qed.
Lemma wchar_strict : strict_reader (unit_ok TWchar) utf32_next.
Proof.
  intros s e it x Hit -> Hs E. unfold utf32_next. rewrite E. cbn [bind].
  pose proof (rd_ok _ _ _ _ Hs E) as Hx. cbn [unit_ok] in Hx. change (2 ^ 31) with 2147483648 in Hx. unfold is_ascii in *. unfold w32.
  change (2 ^ 32) with 4294967296. destruct (Z.ltb_spec x 0).
  - replace (x mod 4294967296) with (x + 4294967296) by lia. destruct (Z.gtb_spec (x + 4294967296) 127); [|lia].
    right. split; [lia|]. exists unexpected_symbol, (x + 4294967296), (it + 1). split; [lia|]. auto.
  - rewrite Z.mod_small by lia. destruct (Z.gtb_spec x 127).
    + right. split; [lia|]. exists unexpected_symbol, x, (it + 1). split; [lia|]. auto.
    + left. split; [lia|reflexivity].
Qed.
(** What the readers make of the units. *)
Lemma reads_tokens T s cs : Forall (unit_ok T) s -> exists ts, tokens (reader_of T) s = Ret ts /\ (ts = chars cs <-> reads T s cs).
Proof.
  intros U. assert (W : forall ok next, strict_reader ok next -> Forall ok s -> exists ts, tokens next s = Ret ts /\ (ts = chars cs <-> Forall is_ascii s /\ cs = s)).
  { intros ok next R O. destruct (strict_tokens ok next s R O) as (ts & E & H). exists ts. split; [exact E|].
    destruct H as [[A ->]|(p & x & q & e & v & rest & -> & A & N & -> & _)].
    - split; [intros K; apply chars_inj in K; auto|intros [_ ->]; reflexivity].
    - split; [intros K; destruct (chars_bad _ _ _ _ _ K)|]. intros [F _]. apply Forall_app in F as [_ F]. inversion F. contradiction. }
  destruct T; cbn [reader_of reads unit_ok] in *.
  - exists (chars s). split; [apply char_tokens|]. split; [intros K; apply chars_inj in K; auto|intros ->; reflexivity].
  - destruct (utf8_tokens s U) as (ts & E & H). exists ts. split; [exact E|]. apply H.
  - apply (W _ _ utf16_strict). exact U.
  - apply (W _ _ utf32_strict). exact U.
  - apply (W _ _ wchar_strict). exact U.
Qed.

Lemma set_tokens n ts t : v6_set_scope n ts = Ret t -> exists cs, ts = chars cs.
Proof.
  unfold v6_set_scope. destruct (n >? scope_max); [discriminate|]. generalize 0 (repeat 0 17). induction ts as [|[c|e x] ts IH]; intros i str H.
  - exists []. reflexivity.
  - cbn [set_scope_loop] in H. destruct (is_invalid_scope_id_symbol c); [discriminate|]. destruct (wr str i c) as [str'| |]; cbn [bind] in H; try discriminate.
    destruct (IH _ _ H) as (cs & ->). exists (c :: cs). reflexivity.
  - discriminate.
Qed.
Lemma set_units n cs t : zlen cs <= n -> (v6_set_scope n (chars cs) = Ret t <-> n <= 16 /\ Forall scope_char cs /\ before_nul cs t).
Proof.
  intros L. split.
  - intros H. assert (n <= 16) by (unfold v6_set_scope, scope_max in H; destruct (Z.gtb_spec n 16); [discriminate|lia]). split; [assumption|].
    apply scope_exact. rewrite <- H. unfold v6_set_scope, scope_max. destruct (Z.gtb_spec n 16), (Z.gtb_spec (zlen cs) 16); try lia. reflexivity.
  - intros (Hn & F & B). assert (H : v6_set_scope (zlen cs) (chars cs) = Ret t) by (apply scope_exact; split; [lia|auto]).
    rewrite <- H. unfold v6_set_scope, scope_max. destruct (Z.gtb_spec n 16), (Z.gtb_spec (zlen cs) 16); try lia. reflexivity.
Qed.
Lemma set_defined n cs : zlen cs <= n -> is_defined (v6_set_scope n (chars cs)).
Proof.
  intros L. unfold v6_set_scope, scope_max. destruct (Z.gtb_spec n 16); [exact I|]. pose proof (set_scope_defined cs) as D.
  unfold v6_set_scope, scope_max in D. destruct (Z.gtb_spec (zlen cs) 16); [lia|exact D].
Qed.
Lemma reads_shorter T s cs : reads T s cs -> zlen cs <= zlen s.
Proof. destruct T; cbn [reads]; [intros ->; lia|apply lax_shorter|intros [_ ->]; lia..]. Qed.

Lemma set_loop_safe u : forall ts i str, 0 <= i -> i + zlen ts <= zlen str -> set_scope_loop ts i str <> UB u.
Proof.
  induction ts as [|[c|e x] ts IH]; intros i str Hi L; cbn [set_scope_loop]; [discriminate| |discriminate]. autorewrite with zl in L.
  pose proof (zlen_nonneg ts) as Z0. destruct (is_invalid_scope_id_symbol c); [discriminate|]. destruct (wr_some str i c ltac:(lia)) as (str' & E & L'). rewrite E. cbn [bind].
  apply IH; lia.
Qed.
Lemma set_safe n ts u : zlen ts <= n -> v6_set_scope n ts <> UB u.
Proof.
  intros L H. unfold v6_set_scope, scope_max in H. destruct (Z.gtb_spec n 16); [discriminate|].
  destruct (set_scope_loop ts 0 (repeat 0 17)) as [str|e x|w] eqn:El; cbn [bind] in H; [|discriminate|].
  - assert (exists cs, ts = chars cs) as [cs ->].
    { clear -El. revert El. generalize 0 (repeat 0 17). induction ts as [|[c|e x] ts IH]; intros i s0 H; [exists []; reflexivity| |discriminate].
      cbn [set_scope_loop] in H. destruct (is_invalid_scope_id_symbol c); [discriminate|]. destruct (wr s0 i c) as [s1| |]; cbn [bind] in H; try discriminate.
      destruct (IH _ _ H) as (cs & ->). exists (c :: cs). reflexivity. }
    assert (Lc : zlen cs <= n) by (unfold zlen, chars in *; rewrite map_length in L; exact L).
    pose proof (set_defined n cs Lc) as D. unfold v6_set_scope, scope_max in D. destruct (Z.gtb_spec n 16); [lia|]. rewrite El in D. cbn [bind] in D.
    rewrite H in D. exact D.
  - apply (set_loop_safe w) in El; [exact El|lia|]. change (zlen (repeat 0 17)) with 17. lia.
Qed.
Lemma tokens_shorter next s ts : tokens next s = Ret ts -> zlen ts <= zlen s.
Proof.
  unfold tokens, zlen. enough (K : forall k it ts, tokens_from k next s it = Ret ts -> (length ts <= k)%nat) by (intros H; apply K in H; lia).
  induction k as [|k IH]; intros it r; cbn [tokens_from]; destruct (it <? zlen s); try discriminate; try (intros [= <-]; cbn; lia).
  destruct (next s (zlen s) it) as [[t it']| |]; cbn [bind]; try discriminate. destruct (tokens_from k next s it') as [ts'| |] eqn:Et; cbn [bind]; try discriminate.
  intros [= <-]. apply IH in Et. cbn [length]. lia.
Qed.
Lemma set_real T s ts : tokens (reader_of T) s = Ret ts -> Forall tok_real ts.
Proof. apply tokens_real, (real T). Qed.

Lemma loop_error ts e x : Forall tok_text ts -> forall i str, 0 <= i -> i + zlen ts <= zlen str -> set_scope_loop ts i str = Err e x ->
  e = invalid_scope_id \/ encoding_error e.
Proof.
  induction 1 as [|[c|f y] ts H _ IH]; intros i str Hi L Q; cbn [set_scope_loop] in Q; [discriminate| |].
  - autorewrite with zl in L. pose proof (zlen_nonneg ts). destruct (is_invalid_scope_id_symbol c); [injection Q as <- _; left; reflexivity|].
    destruct (wr_some str i c ltac:(lia)) as (str' & E & L'). rewrite E in Q. cbn [bind] in Q. apply IH in Q; [exact Q|lia|lia].
  - injection Q as <- _. right. exact H.
Qed.
Lemma set_error n ts e x : Forall tok_text ts -> zlen ts <= n -> n <= 16 -> v6_set_scope n ts = Err e x -> e = invalid_scope_id \/ encoding_error e.
Proof.
  intros F L N. unfold v6_set_scope, scope_max. destruct (Z.gtb_spec n 16); [lia|].
  destruct (set_scope_loop ts 0 (repeat 0 17)) as [str|e' x'|w] eqn:El; cbn [bind]; [|intros [= <- _]|discriminate].
  - destruct (fs_make char_next 16 str) as [f|e' x'|] eqn:Ef; cbn [bind]; [discriminate| |discriminate]. intros [= <- _].
    right. apply (fs_make_error char_next 16 str e' x'); [apply char_text|exact Ef].
  - apply (loop_error ts _ _ F 0 _ ltac:(lia)) in El; [exact El|]. change (zlen (repeat 0 17)) with 17. lia.
Qed.
Lemma thrown_is a n ts : Forall tok_real ts -> set_scope_throw a n ts = (t <- v6_set_scope n ts ;; Ret (mk_addr (a_bytes a) t)).
Proof.
  intros H. unfold set_scope_throw. cbv zeta. pose proof (change_sim (a_scope a) n ts no_error H) as G.
  destruct (v6_set_scope n ts) as [t|e x|u]; cbn [bind]; [rewrite G; reflexivity| |rewrite G; reflexivity]. destruct G as (N & ->). cbn [bind].
  destruct e; try reflexivity. contradiction N. reflexivity.
Qed.
Lemma coded_is a n ts code : Forall tok_real ts -> set_scope_st a n ts code =
  match v6_set_scope n ts with Ret t => Ret (mk_addr (a_bytes a) t, no_error) | Err e _ => Ret (a, e) | UB u => UB u end.
Proof.
  intros H. unfold set_scope_st. pose proof (change_sim (a_scope a) n ts code H) as G.
  destruct (v6_set_scope n ts) as [t|e x|u]; cbn [bind]; [rewrite G; reflexivity| |rewrite G; reflexivity]. destruct G as (N & ->). destruct a; reflexivity.
Qed.

Lemma scope_set_iff T a s a' : Forall (unit_ok T) s -> (scope_set T a s = Ret a' <->
  exists cs, zlen s <= 16 /\ reads T s cs /\ Forall scope_char cs /\ before_nul cs (a_scope a') /\ a_bytes a' = a_bytes a).
Proof.
  intros U. destruct (reads_tokens T s [] U) as (ts & E & _). unfold scope_set. rewrite E. cbn [bind]. rewrite (thrown_is _ _ _ (set_real _ _ _ E)).
  assert (R : forall cs, ts = chars cs <-> reads T s cs).
  { intros cs. destruct (reads_tokens T s cs U) as (ts' & E' & H). rewrite E in E'. injection E' as <-. exact H. }
  split.
  - destruct (v6_set_scope (zlen s) ts) as [t| |] eqn:Es; cbn [bind]; try discriminate. intros [= <-]. destruct (set_tokens _ _ _ Es) as (cs & ->).
    pose proof (proj1 (R cs) eq_refl) as Rc. apply set_units in Es as (L & F & B); [|apply (reads_shorter T); exact Rc]. exists cs. auto.
  - intros (cs & L & Rc & F & B & Eb). pose proof (proj2 (R cs) Rc) as ->. pose proof (proj2 (set_units (zlen s) cs (a_scope a') (reads_shorter _ _ _ Rc)) ltac:(auto)) as ->.
    cbn [bind]. destruct a'. cbn in *. congruence.
Qed.
Lemma scope_set_codes T a s code : Forall (unit_ok T) s -> exists a' c, scope_set_code T a s code = Ret (a', c) /\
  (c = no_error -> scope_set T a s = Ret a') /\ (c <> no_error -> a' = a /\ exists x, scope_set T a s = Err c x) /\
  (c = scope_id_is_too_long <-> 16 < zlen s) /\ (c = no_error \/ c = scope_id_is_too_long \/ c = invalid_scope_id \/ encoding_error c).
Proof.
  intros U. destruct (reads_tokens T s [] U) as (ts & E & _). unfold scope_set, scope_set_code. rewrite E. cbn [bind].
  rewrite (thrown_is _ _ _ (set_real _ _ _ E)), (coded_is _ _ _ _ (set_real _ _ _ E)). pose proof (tokens_shorter _ _ _ E) as L.
  pose proof (set_safe (zlen s) ts) as N. pose proof (change_sim (a_scope a) (zlen s) ts no_error (set_real _ _ _ E)) as G.
  assert (K : forall e x, v6_set_scope (zlen s) ts = Err e x -> 16 < zlen s \/ e = invalid_scope_id \/ encoding_error e).
  { intros e x H. destruct (Z.le_gt_cases (zlen s) 16); [right|lia].
    apply (set_error (zlen s) ts e x); [apply (tokens_text (reader_of T) s); [apply reader_T_text|exact E]|exact L|assumption|exact H]. }
  assert (K' : 16 < zlen s -> exists x, v6_set_scope (zlen s) ts = Err scope_id_is_too_long x).
  { intros H. unfold v6_set_scope, scope_max. destruct (Z.gtb_spec (zlen s) 16); [eauto|lia]. }
  destruct (v6_set_scope (zlen s) ts) as [t|e x|u]; cbn [bind].
  - do 2 eexists. split; [reflexivity|]. split; [reflexivity|]. split; [intros H; contradiction H; reflexivity|].
    split; [|auto]. split; [discriminate|]. intros H. destruct (K' H). discriminate.
  - do 2 eexists. split; [reflexivity|]. destruct G as (Ne & _). split; [congruence|]. split; [intros _; eauto|]. split; [split|].
    + intros ->. destruct (K _ x eq_refl) as [H|[H|[H|H]]]; [exact H|discriminate..].
    + intros H. destruct (K' H). congruence.
    + destruct (K e x eq_refl) as [H|H]; [destruct (K' H) as [y Hy]; injection Hy as -> _; auto|tauto].
  - destruct (N u L). reflexivity.
Qed.
Lemma lax_ascii s cs : lax_utf8 s cs -> Forall is_char cs.
Proof.
  induction 1 as [|seq c s p H _ IH]; [constructor|]. constructor; [|exact IH]. unfold is_char.
  destruct H; unfold inner, cont, is_ascii in *; lia.
Qed.
Lemma reads_chars T s cs : Forall (unit_ok T) s -> reads T s cs -> Forall is_char cs.
Proof.
  destruct T; cbn [reads unit_ok]; intros U; [intros ->; exact U|apply lax_ascii|intros [F ->]..];
    (eapply Forall_impl; [|exact F]; unfold is_ascii, is_char; intros; lia).
Qed.
Lemma scope_set_wf T a s a' : wf_addr V6 a -> Forall (unit_ok T) s -> scope_set T a s = Ret a' -> wf_addr V6 a'.
Proof.
  intros [B _] U H. apply scope_set_iff in H as (cs & L & R & F & N & E); [|exact U]. apply before_is in N. split; [rewrite E; exact B|].
  rewrite N. split; [apply cut_storable; [pose proof (reads_shorter _ _ _ R); lia|exact F]|apply V6Lemmas.cut_forall, (reads_chars T s); assumption].
Qed.
Lemma scope_set_get T a s a' : wf_addr V6 a -> Forall (unit_ok T) s -> scope_set T a s = Ret a' ->
  exists sc cs t, get_scope a' = Ret sc /\ reads T s cs /\ before_nul cs t /\ sees sc t.
Proof.
  intros W U H. destruct (get_scope_ok a' (scope_set_wf _ _ _ _ W U H)) as (sc & E & S). apply scope_set_iff in H as (cs & L & R & F & N & Eb); [|exact U].
  exists sc, cs, (a_scope a'). auto.
Qed.
Lemma before_whole s : ~ In 0 s -> before_nul s s.
Proof. intros H. split; [exact H|auto]. Qed.
Lemma storable_parts t : storable t -> zlen t <= 16 /\ Forall scope_char t /\ ~ In 0 t.
Proof.
  intros [->|[[L F] N]]; [split; [cbn; lia|split; [constructor|auto]]|]. split; [lia|]. split; [exact F|exact N].
Qed.
Lemma scope_copy a b : wf_addr V6 a -> wf_addr V6 b -> exists s, get_scope b = Ret s /\
  scope_set TChar a (scope_string s) = Ret (mk_addr (a_bytes a) (a_scope b)).
Proof.
  intros Wa Wb. destruct (get_scope_ok b Wb) as (s & E & S). exists s. split; [exact E|]. destruct S as (-> & _). destruct Wb as [_ [St C]].
  apply scope_set_iff; [exact C|]. destruct (storable_parts _ St) as (L & F & N). exists (a_scope b). cbn [reads a_scope a_bytes].
  pose proof (before_whole _ N). auto 7.
Qed.
Lemma scope_set_types T a s : Forall is_ascii s -> scope_set T a s = scope_set TChar a s.
Proof.
  intros F. unfold scope_set. rewrite !(tokens_plain _ s) by (right; exact F). reflexivity.
Qed.
Lemma scope_code_types T a s code : Forall is_ascii s -> scope_set_code T a s code = scope_set_code TChar a s code.
Proof.
  intros F. unfold scope_set_code. rewrite !(tokens_plain _ s) by (right; exact F). reflexivity.
Qed.
Lemma scope_array_ok T a data s : c_string (cap data) data s -> plain T s -> scope_set_array T a data = scope_set TChar a s.
Proof.
  intros C P. unfold scope_set_array, set_scope_array_throw, scope_set. rewrite (fs_make_plain T _ _ s C P), (tokens_plain TChar s) by (left; reflexivity).
  cbn [bind]. rewrite filled_chars by (pose proof (c_string_len _ _ _ C); unfold zlen; lia). reflexivity.
Qed.
Lemma scope_array_code_ok T a data s code : c_string (cap data) data s -> plain T s -> scope_set_array_code T a data code = scope_set_code TChar a s code.
Proof.
  intros C P. unfold scope_set_array_code, set_scope_array_st, scope_set_code.
  pose proof (fs_make_sim (reader_of T) (cap data) data code (real T)) as G. rewrite (fs_make_plain T _ _ s C P) in G. cbn [fs_outcome] in G. rewrite G.
  rewrite (tokens_plain TChar s) by (left; reflexivity). cbn [bind]. change (ok no_error) with true. cbv iota.
  rewrite filled_chars by (pose proof (c_string_len _ _ _ C); unfold zlen; lia). cbn [fs_size filled fs_length]. apply set_scope_any.
Qed.
Lemma scope_array_bad T a data s code : wide T -> Forall (unit_ok T) data -> c_string (cap data) data s -> ~ Forall is_ascii s ->
  exists e x, scope_set_array T a data = Err e x /\ scope_set_array_code T a data code = Ret (a, e) /\ encoding_error e.
Proof.
  intros W U C N. destruct (fs_make_bad T (cap data) data s W U ltac:(unfold cap; lia) C N) as (e & v & E & H).
  exists e, v. unfold scope_set_array, set_scope_array_throw, scope_set_array_code, set_scope_array_st. rewrite E. split; [reflexivity|]. split; [|exact H].
  pose proof (fs_make_sim (reader_of T) (cap data) data code (real T)) as G. rewrite E in G. cbn [fs_outcome] in G.
  destruct G as (Ne & f & ->). cbn [bind]. destruct H as [-> | ->]; reflexivity.
Qed.
Lemma any_scope_four T x s data code : aa_ver x = V4 -> any_scope_set T x s = Ret x /\ any_scope_set_code T x s code = Ret (x, code) /\ any_scope_set_array T x data = Ret x.
Proof. intros E. unfold any_scope_set, any_scope_set_code, any_scope_set_array. rewrite E. repeat split; reflexivity. Qed.
Lemma any_scope_six T x s data code : aa_ver x = V6 ->
  any_scope_set T x s = rmap (mk_aa V6) (scope_set T (aa_addr x) s) /\
  any_scope_set_code T x s code = rmap (fun p => (mk_aa V6 (fst p), snd p)) (scope_set_code T (aa_addr x) s code) /\
  any_scope_set_array T x data = rmap (mk_aa V6) (scope_set_array T (aa_addr x) data).
Proof.
  intros E. unfold any_scope_set, any_scope_set_code, any_scope_set_array. rewrite E. change (ver_eqb V6 V6) with true. cbv iota.
  split; [destruct (scope_set _ _ _); reflexivity|]. split; [destruct (scope_set_code _ _ _ _) as [[]| |]; reflexivity|]. destruct (scope_set_array _ _ _); reflexivity.
Qed.
Lemma scope_set_nul : exists a s a' sc, wf_addr V6 a /\ scope_set TChar a s = Ret a' /\ get_scope a' = Ret sc /\ scope_string sc <> s.
Proof.
  exists (mk_addr (repeat 0 16) []), [97; 0; 98], (mk_addr (repeat 0 16) [97]). eexists.
  split; [|split; [vm_compute; reflexivity|split; [vm_compute; reflexivity|vm_compute; discriminate]]].
  split; [split; [reflexivity|]|split; [left; reflexivity|constructor]]. apply Forall_forall. intros y Hy. apply repeat_spec in Hy. subst. vm_compute. split; congruence.
Qed.
Lemma scope_number_wraps : exists a sc, wf_addr V6 a /\ get_scope a = Ret sc /\ scope_string sc = [52; 50; 57; 52; 57; 54; 55; 50; 57; 54] /\
  scope_has_uint32 sc = true /\ scope_uint32 sc = 0.
Proof.
  exists (mk_addr (repeat 0 16) [52; 50; 57; 52; 57; 54; 55; 50; 57; 54]). eexists.
  split; [|split; [vm_compute; reflexivity|split; [vm_compute; reflexivity|split; vm_compute; reflexivity]]].
  split; [split; [reflexivity|]|split; [right; split; [split; [vm_compute; split; congruence|]|]|]].
  - apply Forall_forall. intros y Hy. apply repeat_spec in Hy. subst. vm_compute. split; congruence.
  - repeat (constructor; [vm_compute; intuition congruence|]). constructor.
  - unfold no_nul. cbn. intuition lia.
  - repeat (constructor; [split; vm_compute; congruence|]); constructor.
Qed.
