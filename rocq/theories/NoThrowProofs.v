(** Builds without exceptions. *)
From Coq Require Import String.
From Verif Require Import Base Tac UnicodeModel Uint128Model SpecInt SpecIter FixedStringModel V4Model V6Model AddressModel NetworkModel IterModel AnyModel CodeModel StreamModel LiteralModel
  ScopeModel SpecCode SpecStr SpecOrder SpecNet SpecAny SpecStream SpecLiteral SpecScope ErrProofs BufProofs FixedStringProofs CodeProofs CodeProofs2 CodeProofs3 CodeLemmas
  LiteralProofs LiteralProofs2 IterProofs IterProofs2 IterProofs3 IterProofs4 IterProofs5 IterLemmas AnyIter AnyLemmas NetProofs NetProofs2 NetProofs3 NetWitness StreamWitness NoThrowModel SpecNoThrow.

Lemma silent_map {A B} (f : A -> B) d t s : silent d t s -> silent (f d) (rmap f t) (rmap f s).
Proof. destruct t as [a|e x|u]; cbn; intros ->; reflexivity. Qed.
Lemma silent_bind {A B} (m : res A) d (t s : A -> res B) : quiet m -> (forall a, silent d (t a) (s a)) -> silent d (bind m t) (bind m s).
Proof. intros Q H. destruct m as [a|e x|u]; cbn [bind]; [apply H|contradiction|reflexivity]. Qed.
Lemma silent_wrap {A B} (f : A -> B) d t s : silent d t s -> silent (f d) (a <- t ;; Ret (f a)) (a <- s ;; Ret (f a)).
Proof. destruct t as [a|e x|u]; cbn; intros ->; reflexivity. Qed.
Lemma silent_never (A : Type) (d : A) t s : silent d t s -> forall e x, s <> Err e x.
Proof. destruct t as [a|e' x'|u]; cbn; intros -> e x; discriminate. Qed.

(** *** parse *)
Lemma nx_parse_silent v ts : Forall tok_real ts -> silent (addr_default v) (parse_throw v ts) (nx_parse v ts).
Proof.
  intros H. rewrite (parse_throw_eq v ts H). unfold nx_parse, nx_raise. pose proof (string_sim0 v ts no_error H) as G.
  destruct (addr_parse v ts) as [a|e x|u]; cbn [outcome silent] in *; [destruct G as (x & ->)|rewrite G|rewrite G]; reflexivity.
Qed.
Lemma nx_net_parse_silent v ts strict : Forall tok_real ts -> silent (net_default v) (net_parse_throw v ts strict) (nx_net_parse v ts strict).
Proof.
  intros H. unfold net_parse_throw, nx_net_parse, nx_raise. cbv zeta. pose proof (net_string_sim v ts strict no_error H) as G.
  destruct (net_parse_res v ts strict) as [a|e x|u]; cbn [weak] in G.
  - rewrite G. cbn [bind]. rewrite ok_ok. reflexivity.
  - destruct G as (E & ->). cbn [bind]. rewrite (ok_no _ E). reflexivity.
  - rewrite G. reflexivity.
Qed.
Lemma tokens_quiet next s : reader_real next -> quiet (tokens next s).
Proof.
  intros R. unfold tokens. generalize (List.length s) at 1. intros k. generalize 0 as it. induction k as [|k IH]; intros it; cbn [tokens_from]; destruct (_ <? _); try exact I.
  pose proof (R s (zlen s) it) as Q. destruct (next s (zlen s) it) as [[t i]| |]; cbn [bind]; [|contradiction|exact I].
  specialize (IH i). destruct (tokens_from k next s i); [exact I|contradiction|exact I].
Qed.
Lemma parse_st_quiet v ts code : Forall tok_real ts -> quiet (parse_st v ts code).
Proof. intros H. rewrite (parse_st_eq v ts code code H). unfold addr_parse_code. destruct (addr_parse v ts); exact I. Qed.
Lemma net_parse_st_quiet v ts strict code : Forall tok_real ts -> quiet (net_parse_st v ts strict code).
Proof.
  intros H. unfold net_parse_st. pose proof (net_string_sim v ts strict code H) as G.
  destruct (net_parse_res v ts strict) as [n|e x|u]; cbn [weak] in G; [rewrite G|destruct G as (E & ->)|rewrite G]; exact I.
Qed.
(** One function for the classes. *)
Definition nx_of (k : kind) (strict : bool) (ts : list tok) : res obj :=
  match k with
  | KAddr v => rmap (OAddr v) (nx_parse v ts)
  | KNet v => rmap (ONet v) (nx_net_parse v ts strict)
  | KAny => rmap OAny ('(ipv4, code) <- parse_st V4 ts no_error ;; if ok code then Ret (mk_aa V4 ipv4) else a <- nx_parse V6 ts ;; Ret (mk_aa V6 a))
  | KAnyNet => rmap OAnyNet ('(net4, code) <- net_parse_st V4 ts strict no_error ;; if ok code then Ret (mk_an V4 net4) else n <- nx_net_parse V6 ts strict ;; Ret (mk_an V6 n))
  end.
Lemma nx_of_silent k strict ts : Forall tok_real ts -> silent (nothing k) (throw_of k strict ts) (nx_of k strict ts).
Proof.
  intros H. destruct k; cbn [nothing default_of throw_of nx_of]; apply silent_map.
  - apply nx_parse_silent; exact H.
  - apply nx_net_parse_silent; exact H.
  - unfold any_parse_throw. cbv zeta. apply silent_bind; [apply parse_st_quiet; exact H|]. intros [a c]. destruct (ok c); [reflexivity|]. apply silent_wrap, nx_parse_silent, H.
  - unfold anet_parse_throw. cbv zeta. apply silent_bind; [apply net_parse_st_quiet; exact H|]. intros [a c]. destruct (ok c); [reflexivity|]. apply silent_wrap, nx_net_parse_silent, H.
Qed.
Lemma nx_string_eq T k strict s : nx_string_of T k strict s = (ts <- tokens (reader_of T) s ;; nx_of k strict ts).
Proof. destruct k; cbn [nx_string_of nx_of]; unfold nx_addr_string, nx_net_string, nx_any_string, nx_anet_string; apply rmap_bind. Qed.
Lemma nx_array_eq T k strict data : nx_array_of T k strict data =
  match fs_make (reader_of T) (cap data) data with Ret f => nx_of k strict (chars (fs_chars f)) | Err _ _ => Ret (nothing k) | UB u => UB u end.
Proof.
  pose proof (fs_make_sim (reader_of T) (cap data) data no_error (real T)) as Q.
  destruct k; cbn [nx_array_of nx_of nothing default_of]; unfold nx_any_array, nx_anet_array, nx_addr_array, nx_net_array, parse_array_st, net_array_st;
    (destruct (fs_make (reader_of T) (cap data) data) as [f|e x|u]; cbn [fs_outcome bind] in *;
     [rewrite Q; cbn [bind]; rewrite ok_ok; reflexivity|destruct Q as [Q (f & ->)]; cbn [bind]; rewrite (ok_no _ Q); cbn [bind]; try rewrite (ok_no _ Q); reflexivity|rewrite Q; reflexivity]).
Qed.
Lemma chars_real s : Forall tok_real (chars s).
Proof. unfold chars. apply Forall_forall. intros t Ht. apply in_map_iff in Ht as (c & <- & _). exact I. Qed.
Lemma nx_string_silent T k strict s : silent (nothing k) (string_of T k strict s) (nx_string_of T k strict s).
Proof.
  rewrite string_throw, nx_string_eq. pose proof (tokens_quiet (reader_of T) s (real T)) as Q.
  destruct (tokens (reader_of T) s) as [ts|e x|u] eqn:E; cbn [bind]; [|contradiction|reflexivity]. apply nx_of_silent. exact (tokens_real _ _ _ (real T) E).
Qed.
Lemma nx_array_silent T k strict data : silent (nothing k) (array_of T k strict data) (nx_array_of T k strict data).
Proof.
  rewrite array_throw, nx_array_eq. destruct (fs_make _ _ _) as [f|e x|u]; cbn [bind]; [|reflexivity|reflexivity]. apply nx_of_silent, chars_real.
Qed.
Lemma nx_literal_eq T k s : nx_literal_of T k s =
  nx_array_of T k true (firstn (Z.to_nat (longest k)) s ++ repeat 0 (Z.to_nat (longest k + 1 - zlen (firstn (Z.to_nat (longest k)) s)))).
Proof.
  destruct k as [[]|[]| |]; cbn [nx_literal_of nx_array_of longest]; unfold nx_addr_literal, nx_net_literal, nx_any_literal, nx_anet_literal, nx_literal; cbn [max_string_len];
    change (15 * 2 + 1) with 31; change (57 + 4) with 61; change (57 * 2 + 1) with 115; reflexivity.
Qed.
Lemma longest_pos k : 0 <= longest k. Proof. destruct k as [[]|[]| |]; cbn [longest]; lia. Qed.
Lemma nx_literal_silent T k s : zlen s <= longest k -> silent (nothing k) (literal_of T k s) (nx_literal_of T k s).
Proof.
  intros H. rewrite literal_array, nx_literal_eq. destruct (Z.gtb_spec (zlen s) (longest k)); [lia|].
  rewrite firstn_all2 by (unfold zlen in H; lia). apply nx_array_silent.
Qed.
Lemma nx_literal_long T k s : longest k < zlen s ->
  literal_of T k s = Err string_is_too_long 0 /\ nx_literal_of T k s = nx_literal_of T k (firstn (Z.to_nat (longest k)) s).
Proof.
  intros H. split; [rewrite literal_array; destruct (Z.gtb_spec (zlen s) (longest k)); [reflexivity|lia]|].
  rewrite !nx_literal_eq. rewrite firstn_firstn, Nat.min_id. reflexivity.
Qed.
(** The overloads with a code. *)
(** The overloads with a code. *)
Lemma nx_parse_coded v ts code : nx_parse v ts = ('(a, c) <- parse_st v ts code ;; Ret a).
Proof. unfold nx_parse, parse_st, nx_raise. cbv zeta. destruct (string_st v ts no_error 0) as [[[a c] x]| |]; reflexivity. Qed.
Lemma nx_net_coded v ts strict code : nx_net_parse v ts strict = ('(n, c) <- net_parse_st v ts strict code ;; Ret n).
Proof.
  rewrite (net_parse_any v ts strict code no_error). unfold nx_net_parse, net_parse_st, nx_raise. destruct (net_string_st v ts strict no_error 0) as [[[a c] x]| |]; reflexivity.
Qed.
Lemma coded_nothing {A} (d : A) (o : res (A * ec)) (t s : res A) a c : o = Ret (a, c) -> agree o t -> silent d t s -> s = Ret (if ok c then a else d).
Proof.
  intros -> [H1 H2] S'. destruct (ok c) eqn:O.
  - apply ok_yes in O. rewrite (H1 O) in S'. exact S'.
  - destruct H2 as (x & E); [intros ->; rewrite ok_ok in O; discriminate|]. rewrite E in S'. exact S'.
Qed.
Lemma agree_rmap {A B} (f : A -> B) (o : res (A * ec)) (t : res A) : agree o t -> agree (rmap (fun r => (f (fst r), snd r)) o) (rmap f t).
Proof.
  destruct o as [[a c]|e x|u]; cbn [agree rmap fst snd]; [|intros ->; reflexivity|intros ->; reflexivity]. intros [H1 H2]. split; [intros E; rewrite (H1 E); reflexivity|].
  intros E. destruct (H2 E) as (x & ->). exists x. reflexivity.
Qed.
Lemma coded_agree T k strict s code : agree (coded_of T k strict s code) (string_of T k strict s).
Proof.
  rewrite string_throw. unfold coded_of. destruct (tokens (reader_of T) s) as [ts|e x|u] eqn:E; cbn [bind]; [|reflexivity|reflexivity].
  pose proof (tokens_real _ _ _ (real T) E) as H. destruct k; cbn [throw_of]; apply agree_rmap.
  - apply parse_agree, H.
  - apply net_parse_agree, H.
  - apply any_parse_agree, H.
  - apply anet_parse_agree, H.
Qed.
Lemma nx_coded T k strict s code o c : coded_of T k strict s code = Ret (o, c) -> nx_string_of T k strict s = Ret (if ok c then o else nothing k).
Proof. intros H. exact (coded_nothing _ _ _ _ _ _ H (coded_agree T k strict s code) (nx_string_silent T k strict s)). Qed.
Lemma coded_default T k strict s code o c : coded_of T k strict s code = Ret (o, c) -> c <> no_error -> o = default_of k.
Proof.
  unfold coded_of. destruct (tokens (reader_of T) s) as [ts|e x|u] eqn:E; cbn [bind]; [|discriminate|discriminate].
  pose proof (tokens_real _ _ _ (real T) E) as H. intros Q N.
  assert (P : forall v o' c', parse_st v ts no_error = Ret (o', c') -> c' <> no_error -> o' = addr_default v).
  { intros v o' c'. rewrite (parse_st_eq v ts no_error no_error H). unfold addr_parse_code. destruct (addr_parse v ts); intros [= <- <-]; [intros K; contradiction K; reflexivity|reflexivity]. }
  destruct k; cbn [default_of].
  - destruct (parse_st v ts code) as [[a c']| |] eqn:F; cbn [rmap fst snd] in Q; try discriminate. injection Q as <- <-. f_equal. apply (P v a c'); [exact F|exact N].
  - destruct (net_parse_st v ts strict code) as [[a c']| |] eqn:F; cbn [rmap fst snd] in Q; try discriminate. injection Q as <- <-. f_equal.
    revert F N. unfold net_parse_st. pose proof (net_string_sim v ts strict code H) as G.
    destruct (net_parse_res v ts strict) as [n|e x|u]; cbn [weak] in G; [rewrite G|destruct G as (_ & ->)|rewrite G]; cbn [bind]; intros [= <- <-]; [intros K; contradiction K; reflexivity|reflexivity].
  - revert Q. unfold any_parse_st. cbv zeta. destruct (parse_st V4 ts no_error) as [[a c']| |]; cbn [bind rmap]; try discriminate. destruct (ok c') eqn:O.
    + apply ok_yes in O. subst c'. cbn [rmap fst snd]. intros [= _ <-]. contradiction N. reflexivity.
    + destruct (parse_st V6 ts c') as [[b c'']| |]; cbn [bind rmap]; try discriminate. destruct (ok c'') eqn:O'; cbn [rmap fst snd]; intros [= <- <-]; [apply ok_yes in O'; contradiction|reflexivity].
  - revert Q. unfold anet_parse_st. cbv zeta. destruct (net_parse_st V4 ts strict no_error) as [[a c']| |]; cbn [bind rmap]; try discriminate. destruct (ok c') eqn:O.
    + apply ok_yes in O. subst c'. cbn [rmap fst snd]. intros [= _ <-]. contradiction N. reflexivity.
    + destruct (net_parse_st V6 ts strict c') as [[b c'']| |]; cbn [bind rmap]; try discriminate. destruct (ok c'') eqn:O'; cbn [rmap fst snd]; intros [= <- <-]; [apply ok_yes in O'; contradiction|reflexivity].
Qed.
Lemma nx_coded_same T k strict s code o c : k <> KAny -> k <> KAnyNet -> coded_of T k strict s code = Ret (o, c) -> nx_string_of T k strict s = Ret o.
Proof.
  intros K1 K2 H. rewrite (nx_coded _ _ _ _ _ _ _ H). destruct (ok c) eqn:O; [reflexivity|]. f_equal.
  rewrite (coded_default _ _ _ _ _ _ _ H) by (intros ->; rewrite ok_ok in O; discriminate). destruct k; try reflexivity; contradiction.
Qed.

(** *** fixed_string *)
Lemma nx_fill_ok next : forall k data n it i f g, fs_fill k next data n it i f = Ret g -> nx_fs_fill k next data n it i f = Ret g.
Proof.
  induction k as [|k IH]; intros data n it i f g; cbn [fs_fill nx_fs_fill]; [auto|].
  destruct (next data n it) as [[[c|e x] it']| |]; cbn [bind]; [|discriminate|discriminate|discriminate]. change (nx_next (Ch c)) with c. cbv zeta.
  destruct (wr (fs_data f) i c); cbn [bind]; [|discriminate|discriminate]. destruct (c =? 0); [auto|apply IH].
Qed.
Lemma nx_make_ok next n data g : fs_make next n data = Ret g -> nx_fs_make next n data = Ret g.
Proof.
  unfold fs_make, nx_fs_make. destruct n as [|n]; [auto|]. apply nx_fill_ok.
Qed.
Lemma nx_fill_cut T n data : wide T -> Forall (unit_ok T) data -> (n <= List.length data)%nat -> forall s k pre b rest, data = pre ++ s ++ b :: rest ->
  zlen pre + Z.of_nat k = Z.of_nat n -> (List.length s < k)%nat -> Forall is_ascii s -> ~ In 0 s -> ~ is_ascii b ->
  nx_fs_fill k (reader_of T) data (Z.of_nat n) (zlen pre) (zlen pre) (filled n pre) = Ret (filled n (pre ++ s)).
Proof.
  intros W U HL. assert (NT : T <> TChar) by (destruct W as [->|[->| ->]]; discriminate).
  induction s as [|c s IH]; intros k pre b rest E Hn Hk HA H0 HB; (destruct k as [|k]; [cbn [List.length] in Hk; lia|]); cbn [nx_fs_fill].
  - rewrite app_nil_r. cbn [app] in E. assert (R : rd data (zlen pre) = Ret b) by (rewrite E; apply rd_mid; reflexivity).
    destruct (step_other T n data (zlen pre) b NT R ltac:(split; [unfold zlen; lia|lia]) HL U HB) as (t & it' & -> & _ & [(er & v & -> & He)|(-> & _)]);
      [|destruct W as [W|[W|W]]; discriminate]. cbn [bind]. change (nx_next (Bad er v)) with 0. cbv zeta.
    unfold filled at 1. cbn [fs_data]. rewrite wr_buf by lia. cbn [bind]. change (0 =? 0) with true. cbn iota. rewrite buf_zero by lia. reflexivity.
  - inversion HA as [|? ? Hc HA']. subst. rewrite (step_ascii T _ _ _ c); [|cbn [app]; apply rd_mid; reflexivity|right; constructor; [exact Hc|constructor]]. cbn [bind].
    change (nx_next (Ch c)) with c. cbv zeta. unfold filled at 1. cbn [fs_data]. rewrite wr_buf by lia. cbn [bind].
    destruct (Z.eqb_spec c 0) as [->|_]; [exfalso; apply H0; left; reflexivity|].
    specialize (IH k (pre ++ [c]) b rest). rewrite <- app_assoc in IH. cbn [app] in IH. replace (pre ++ c :: s) with ((pre ++ [c]) ++ s) by (rewrite <- app_assoc; reflexivity). rewrite <- app_assoc. cbn [app].
    rewrite <- app_assoc in IH. cbn [app] in IH. rewrite <- IH.
    + autorewrite with zl. unfold filled. cbn [fs_length]. autorewrite with zl. f_equal; try lia; f_equal; lia.
    + reflexivity.
    + autorewrite with zl. lia.
    + cbn [List.length] in Hk. lia.
    + exact HA'.
    + intros K. apply H0. right. exact K.
    + exact HB.
Qed.
Lemma nx_make_cut T n a b rest : wide T -> Forall (unit_ok T) (a ++ b :: rest) -> (List.length a < n)%nat -> (n <= List.length (a ++ b :: rest))%nat ->
  Forall is_ascii a -> ~ In 0 a -> ~ is_ascii b -> exists f, nx_fs_make (reader_of T) n (a ++ b :: rest) = Ret f /\ fs_chars f = a.
Proof.
  intros W U Hn HL HA H0 HB. exists (filled n a). split; [|apply filled_chars; unfold zlen; lia].
  unfold nx_fs_make. destruct n as [|n]; [lia|]. rewrite fs_empty_filled. apply (nx_fill_cut T (S n) _ W U HL a (S n) [] b rest); auto.
Qed.

(** *** set_scope_id *)
Lemma nx_set_silent a n ts : Forall tok_real ts -> silent a (set_scope_throw a n ts) (nx_set_scope a n ts).
Proof.
  intros H. unfold set_scope_throw, nx_set_scope. cbv zeta. pose proof (change_sim (a_scope a) n ts no_error H) as G.
  destruct (v6_set_scope n ts) as [s|e x|u]; [rewrite G|destruct G as [N ->]|rewrite G]; cbn [bind].
  - rewrite ok_ok. reflexivity.
  - rewrite (ok_no _ N). cbn [negb silent]. destruct a; reflexivity.
  - reflexivity.
Qed.
Lemma nx_scope_silent T a s : silent a (scope_set T a s) (nx_scope_set T a s).
Proof.
  unfold scope_set, nx_scope_set. pose proof (tokens_quiet (reader_of T) s (real T)) as Q.
  destruct (tokens (reader_of T) s) as [ts|e x|u] eqn:E; cbn [bind]; [|contradiction|reflexivity]. apply nx_set_silent. exact (tokens_real _ _ _ (real T) E).
Qed.
Lemma nx_scope_array_silent T a data : silent a (scope_set_array T a data) (nx_scope_set_array T a data).
Proof.
  unfold scope_set_array, set_scope_array_throw, nx_scope_set_array. pose proof (fs_make_sim (reader_of T) (cap data) data no_error (real T)) as Q.
  destruct (fs_make (reader_of T) (cap data) data) as [f|e x|u]; cbn [fs_outcome bind] in *.
  - rewrite Q. cbn [bind]. rewrite ok_ok. apply nx_set_silent, chars_real.
  - destruct Q as [Q (f & ->)]. cbn [bind]. rewrite (ok_no _ Q). reflexivity.
  - rewrite Q. reflexivity.
Qed.
Lemma v6_only x : ver_eqb (aa_ver x) V6 = true -> mk_aa V6 (aa_addr x) = x.
Proof. destruct x as [[] a]; [discriminate|reflexivity]. Qed.
Lemma nx_any_scope_silent T x s : silent x (any_scope_set T x s) (nx_any_scope_set T x s).
Proof.
  unfold any_scope_set, nx_any_scope_set. destruct (ver_eqb (aa_ver x) V6) eqn:E; [|reflexivity].
  rewrite <- (v6_only x E) at 1. apply silent_wrap, nx_scope_silent.
Qed.
Lemma nx_any_scope_array_silent T x data : silent x (any_scope_set_array T x data) (nx_any_scope_set_array T x data).
Proof.
  unfold any_scope_set_array, nx_any_scope_set_array. destruct (ver_eqb (aa_ver x) V6) eqn:E; [|reflexivity].
  rewrite <- (v6_only x E) at 1. apply silent_wrap, nx_scope_array_silent.
Qed.

(** *** Networks *)
Lemma nx_from_address_silent v a p strict : silent (net_default v) (from_address_throw v a p strict) (nx_from_address v a p strict).
Proof.
  unfold from_address_throw, nx_from_address, from_address_st, nx_raise. cbv zeta. pose proof (ip_from_prefix_quiet v p) as Q.
  destruct (ip_from_prefix v p) as [m|e x|u]; cbn [bind]; [|contradiction|reflexivity]. pose proof (strict_sim v a m strict) as T.
  destruct (strict_netmask v a m strict) as [b|e x|u]; [rewrite T|destruct T as (-> & ->)|rewrite T]; reflexivity.
Qed.
Lemma nx_from_address_silent' v a p strict : silent (net_default v) (from_address v a p strict) (nx_from_address v a p strict).
Proof. rewrite <- from_address_throw_eq. apply nx_from_address_silent. Qed.
(** [mirror t s]: unless [t] throws, [s] does the same. *)
Definition mirror {A} (t s : res A) : Prop := match t with Ret a => s = Ret a | Err _ _ => True | UB AssertFailed => True | UB u => s = UB u end.
Lemma mirror_refl {A} (t : res A) : mirror t t.
Proof. destruct t as [a|e x|[]]; cbn; auto. Qed.
Lemma mirror_bind {A B} (m m' : res A) (k k' : A -> res B) : mirror m m' -> (forall a, m = Ret a -> mirror (k a) (k' a)) -> mirror (bind m k) (bind m' k').
Proof. destruct m as [a|e x|u]; cbn [mirror bind]; [intros ->; cbn [bind]; auto|intros _ _; exact I|]. destruct u; intros H _; try exact I; rewrite H; reflexivity. Qed.
Lemma mirror_same {A B} (m : res A) (k k' : A -> res B) : (forall a, m = Ret a -> mirror (k a) (k' a)) -> mirror (bind m k) (bind m k').
Proof. apply mirror_bind, mirror_refl. Qed.
Lemma mirror_ret {A} (t s : res A) a : mirror t s -> t = Ret a -> s = Ret a.
Proof. intros H ->. exact H. Qed.
Lemma silent_mirror {A} (d : A) t s : silent d t s -> mirror t s.
Proof. destruct t as [a|e x|[]]; cbn; auto. Qed.
Ltac mir := repeat first
  [ solve [auto with mirror] | simple apply mirror_refl | exact I
  | apply mirror_bind; [solve [auto with mirror | simple apply mirror_refl]|intros ? _]
  | match goal with |- mirror (match ?x with _ => _ end) (match ?x with _ => _ end) => destruct x end
  | match goal with |- mirror (let x := ?e in _) _ => cbv zeta end ].
Create HintDb mirror discriminated.
Lemma mir_from v a p strict : mirror (from_address v a p strict) (nx_from_address v a p strict).
Proof. eapply silent_mirror, nx_from_address_silent'. Qed.
#[local] Hint Resolve mir_from : mirror.
Lemma mir_nit_make v r s p c : mirror (nit_make v r s p c) (nx_nit_make v r s p c).
Proof. unfold nit_make, nx_nit_make. mir. Qed.
Lemma mir_nit_add v a n : mirror (nit_add v a n) (nx_nit_add v a n).
Proof. unfold nit_add, nx_nit_add. mir. Qed.
#[local] Hint Resolve mir_nit_make mir_nit_add : mirror.
Lemma mir_single sp v na p : mirror (subnets_single sp v na p) (nx_subnets_single sp v na p).
Proof. unfold subnets_single, nx_subnets_single. mir. Qed.
Lemma mir_make v na ba hm d p : mirror (subnets_make v na ba hm d p) (nx_subnets_make v na ba hm d p).
Proof. unfold subnets_make, nx_subnets_make. mir. Qed.
#[local] Hint Resolve mir_single mir_make : mirror.
Lemma mir_subnets_code sp v n c d np : mirror (subnets_code sp v n c d np) (nx_subnets_code sp v n c d np).
Proof. unfold subnets_code, nx_subnets_code. mir. Qed.
Lemma mir_raise {A} (o o' : res (A * ec)) : mirror o o' -> mirror ('(r, c) <- o ;; raise_if r c 0) ('(r, c) <- o' ;; nx_raise r c).
Proof. intros H. apply mirror_bind; [exact H|]. intros [r c] _. unfold raise_if, nx_raise. destruct (ec_eqb c no_error); [reflexivity|exact I]. Qed.
Lemma mir_subnets sp v n d np : mirror (subnets sp v n d np) (nx_subnets sp v n d np).
Proof. apply mir_raise, mir_subnets_code. Qed.
Lemma mir_at v s i : mirror (subnets_at v s i) (nx_subnets_at v s i).
Proof. unfold subnets_at, nx_subnets_at. mir. Qed.
#[local] Hint Resolve mir_subnets mir_at : mirror.
Lemma mir_remove v n : mirror (remove_scope_net v n) (nx_remove_scope_net v n).
Proof. unfold remove_scope_net, nx_remove_scope_net. mir. Qed.
Lemma mir_halves sp v n : mirror (halves sp v n) (nx_halves sp v n).
Proof. unfold halves, nx_halves. mir. Qed.
#[local] Hint Resolve mir_remove mir_halves : mirror.
Lemma mir_xnext sp v x : mirror (xit_next sp v x) (nx_xit_next sp v x).
Proof. unfold xit_next, nx_xit_next. mir. Qed.
#[local] Hint Resolve mir_xnext : mirror.
Lemma mir_xmake sp v n o : mirror (xit_make sp v n o) (nx_xit_make sp v n o).
Proof. unfold xit_make, nx_xit_make. mir. Qed.
#[local] Hint Resolve mir_xmake : mirror.
Lemma mir_exclude_code sp v n o c : mirror (exclude_code sp v n o c) (nx_exclude_code sp v n o c).
Proof. unfold exclude_code, nx_exclude_code. mir. Qed.
Lemma mir_exclude sp v n o : mirror (address_exclude sp v n o) (nx_exclude sp v n o).
Proof. apply mir_raise, mir_exclude_code. Qed.
Lemma mir_walk {A B} eqb next next' (get : A -> B) : (forall x, mirror (next x) (next' x)) -> forall k i j, mirror (walk eqb next get k i j) (walk eqb next' get k i j).
Proof. intros H. induction k as [|k IH]; intros i j; cbn [walk]; mir. Qed.
(** Version-erased. *)
Lemma mir_afrom a p strict : mirror (anet_from_address a p strict) (nx_anet_from_address a p strict).
Proof. unfold anet_from_address, nx_anet_from_address. mir. Qed.
Lemma mir_asubnets sp x d np : mirror (any_subnets sp x d np) (nx_any_subnets sp x d np).
Proof. unfold any_subnets, nx_any_subnets. mir. Qed.
Lemma mir_aadd a n : mirror (aiter_add net_ops a n) (nx_aiter_add a n).
Proof. unfold aiter_add, nx_aiter_add. cbn [net_ops o_add]. destruct (ver_eqb (ai_ver a) V4); (eapply mirror_bind; [apply mir_nit_add|intros ? _; reflexivity]). Qed.
#[local] Hint Resolve mir_afrom mir_asubnets mir_aadd : mirror.
Lemma mir_aat s n : mirror (aseq_at net_ops s n) (nx_aseq_at s n).
Proof. unfold aseq_at, nx_aseq_at. mir. Qed.
#[local] Hint Resolve mir_aat : mirror.
Lemma mir_ahalves sp x : mirror (any_halves sp x) (nx_any_halves sp x).
Proof. unfold any_halves, nx_any_halves. mir. Qed.
#[local] Hint Resolve mir_ahalves : mirror.
Lemma mir_axnext sp x : mirror (axit_next sp x) (nx_axit_next sp x).
Proof. unfold axit_next, nx_axit_next. mir. Qed.
#[local] Hint Resolve mir_axnext : mirror.
Lemma mir_axmake sp x y : mirror (axit_make sp x y) (nx_axit_make sp x y).
Proof. unfold axit_make, nx_axit_make. mir. Qed.
#[local] Hint Resolve mir_axmake : mirror.
Lemma mir_aexclude_code sp x y c : mirror (any_exclude_code sp x y c) (nx_any_exclude_code sp x y c).
Proof. unfold any_exclude_code, nx_any_exclude_code. mir. Qed.
Lemma mir_aexclude sp x y : mirror (any_exclude sp x y) (nx_any_exclude sp x y).
Proof. apply mir_raise, mir_aexclude_code. Qed.
(** *** supernet *)
Lemma quiet_sh64 a n : quiet (shl64 a n) /\ quiet (shr64 a n).
Proof. unfold shl64, shr64. split; destruct (_ && _); exact I. Qed.
Ltac qt := repeat first
  [ exact I | apply quiet_rd | apply quiet_wr | apply quiet_sh64 | apply quiet_shift32 | apply v4_to_uint_quiet | solve [auto]
  | apply quiet_bind; [|intros ?]
  | match goal with |- quiet (match ?x with _ => _ end) => destruct x end
  | match goal with |- quiet (let x := ?e in _) => cbv zeta end ].
Lemma quiet_to6 : forall k i s inc b u l, quiet (v6_to_uint_loop k i s inc b u l).
Proof. induction k as [|k IH]; intros; cbn [v6_to_uint_loop]; qt. Qed.
Lemma quiet_from6 : forall k i s inc u b, quiet (v6_from_uint_loop k i s inc u b).
Proof. induction k as [|k IH]; intros; cbn [v6_from_uint_loop]; qt. Qed.
Lemma quiet_uint v a : quiet (addr_to_uint v a).
Proof. unfold addr_to_uint, v6_to_uint. destruct v; [apply v4_to_uint_quiet|]. apply quiet_bind; [apply quiet_to6|intros ?; exact I]. Qed.
Lemma quiet_of_uint v x : quiet (addr_from_uint v x).
Proof. unfold addr_from_uint, v6_from_uint. destruct v; [exact I|]. apply quiet_bind; [apply quiet_from6|intros ?; exact I]. Qed.
Lemma quiet_ushl v x n : quiet (ushl v x n).
Proof. unfold ushl, u128_shl. qt. Qed.
Lemma nx_supernet_silent v n d np : silent (net_default v) (supernet_throw v n d np) (nx_supernet v n d np).
Proof.
  unfold supernet_throw, nx_supernet, supernet_st, nx_supernet_st. cbv zeta.
  assert (F : forall k, silent (net_default v)
    ('(result, code) <- (if k >? n_prefix n then Ret (net_default v, invalid_prefixlen_diff) else
        a <- addr_to_uint v (n_addr n) ;; m <- addr_to_uint v (n_mask n) ;; s <- ushl v m k ;; address <- addr_from_uint v (uand v a s) ;;
        r <- from_address_throw v address (n_prefix n - k) true ;; Ret (r, no_error)) ;; if negb (ok code) then Err code 0 else Ret result)
    ('(result, code) <- (if k >? n_prefix n then Ret (net_default v, invalid_prefixlen_diff) else
        a <- addr_to_uint v (n_addr n) ;; m <- addr_to_uint v (n_mask n) ;; s <- ushl v m k ;; address <- addr_from_uint v (uand v a s) ;;
        r <- nx_from_address v address (n_prefix n - k) true ;; Ret (r, no_error)) ;; nx_raise result code)).
  { intros k. destruct (k >? n_prefix n); [reflexivity|].
    pose proof (quiet_uint v (n_addr n)) as Q1. destruct (addr_to_uint v (n_addr n)) as [a| |]; cbn [bind]; [|contradiction|reflexivity].
    pose proof (quiet_uint v (n_mask n)) as Q2. destruct (addr_to_uint v (n_mask n)) as [m| |]; cbn [bind]; [|contradiction|reflexivity].
    pose proof (quiet_ushl v m k) as Q3. destruct (ushl v m k) as [s| |]; cbn [bind]; [|contradiction|reflexivity].
    pose proof (quiet_of_uint v (uand v a s)) as Q4. destruct (addr_from_uint v (uand v a s)) as [b| |]; cbn [bind]; [|contradiction|reflexivity].
    pose proof (nx_from_address_silent v b (n_prefix n - k) true) as G.
    destruct (from_address_throw v b (n_prefix n - k) true) as [r|e x|u]; cbn [silent] in G; rewrite G; reflexivity. }
  destruct (n_prefix n =? 0); [reflexivity|]. destruct np as [q|]; [|apply F].
  destruct (q >? n_prefix n); [reflexivity|]. destruct (negb (d =? 1)); [reflexivity|apply F].
Qed.
Lemma nx_supernet_silent' v n d np : silent (net_default v) (supernet v n d np) (nx_supernet v n d np).
Proof. rewrite <- supernet_throw_eq. apply nx_supernet_silent. Qed.
Lemma nx_anet_from_silent v a p strict :
  silent (mk_an v (net_default v)) (anet_from_address (mk_aa v a) p strict) (nx_anet_from_address (mk_aa v a) p strict).
Proof. destruct v; cbn; unfold anet_from_address, nx_anet_from_address; cbn [ver_eqb ver_num Z.eqb Pos.eqb aa_ver aa_addr]; apply silent_wrap, nx_from_address_silent'. Qed.
Lemma nx_anet_supernet_silent v n d np :
  silent (mk_an v (net_default v)) (anet_supernet (mk_an v n) d np) (nx_anet_supernet (mk_an v n) d np).
Proof. destruct v; unfold anet_supernet, nx_anet_supernet, anet_is_v4; cbn [ver_eqb ver_num Z.eqb Pos.eqb an_ver an_net]; apply silent_wrap, nx_supernet_silent'. Qed.

(** *** subnets *)
Lemma nx_subnets_silent sp v n d np : wf_net v n -> args_ok d np -> (np = None -> n_prefix n + d < 2 ^ 64) ->
  silent (subnets_default v) (subnets sp v n d np) (nx_subnets sp v n d np).
Proof.
  intros W Ha Hw. pose proof (mir_subnets sp v n d np) as Mr. assert (P : n_prefix n <= width v) by apply W.
  destruct (Z.eq_dec (n_prefix n) (width v)) as [Hp|Hp]; [destruct (subnets_single_any sp v n d np W Ha Hp) as (s & E & _); rewrite E in *; exact Mr|].
  pose proof (subnets_checks sp v n d np W Ha ltac:(lia) Hw) as C. pose proof (asked_diff_pos (n_prefix n) d np) as D0.
  destruct (asked_diff (n_prefix n) d np) as [e|d'] eqn:Ea.
  - rewrite C. cbn [silent]. unfold nx_subnets, nx_subnets_code. rewrite remove_scope_ok by apply W. cbn [bind]. replace (n_prefix n =? width v) with false by lia. unfold asked_diff in Ea. rewrite Ea. reflexivity.
  - specialize (D0 d' ltac:(apply W) Ha eq_refl). destruct (Z.gtb_spec (n_prefix n + d') (width v)) as [G|G].
    + rewrite C. cbn [silent]. unfold nx_subnets, nx_subnets_code. rewrite remove_scope_ok by apply W. cbn [bind]. replace (n_prefix n =? width v) with false by lia.
      assert (Dw : n_prefix n + d' < 2 ^ 64).
      { unfold asked_diff in Ea. destruct np as [q|]; [|injection Ea as <-; auto]. destruct Ha as (_ & Hq). unfold is_size in Hq. destruct (q <? n_prefix n); [discriminate|]. destruct (negb _); [discriminate|]. injection Ea as <-. lia. }
      unfold asked_diff in Ea. rewrite Ea. assert (P0 : 0 <= n_prefix n) by apply W. unfold w64. rewrite Z.mod_small by lia. replace (n_prefix n + d' >? width v) with true by lia. reflexivity.
    + destruct (_ && _); [rewrite C in *; exact Mr|]. destruct v; [destruct (_ && _); [rewrite C in *; exact Mr|]|]; destruct C as (s & C); rewrite C in *; exact Mr.
Qed.
Lemma nx_any_subnets_silent sp v n d np : wf_net v n -> args_ok d np -> (np = None -> n_prefix n + d < 2 ^ 64) ->
  silent (aseq_make net_ops v (nit_default v) (nit_default v)) (any_subnets sp (mk_an v n) d np) (nx_any_subnets sp (mk_an v n) d np).
Proof.
  intros W Ha Hw. destruct v; unfold any_subnets, nx_any_subnets, anet_is_v4; cbn [ver_eqb ver_num Z.eqb Pos.eqb an_ver an_net].
  - exact (silent_wrap (fun s => aseq_make net_ops V4 (s_begin s) (s_end s)) (subnets_default V4) _ _ (nx_subnets_silent sp V4 n d np W Ha Hw)).
  - exact (silent_wrap (fun s => aseq_make net_ops V6 (s_begin s) (s_end s)) (subnets_default V6) _ _ (nx_subnets_silent sp V6 n d np W Ha Hw)).
Qed.
Lemma nx_default_walk v k : nx_subnets_walk v k (s_begin (subnets_default v)) (s_end (subnets_default v)) = Ret [] /\
  nx_aseq_walk k (q_begin (aseq_make net_ops v (nit_default v) (nit_default v))) (q_end (aseq_make net_ops v (nit_default v) (nit_default v))) = Ret [].
Proof. destruct v; split; unfold nx_subnets_walk, nx_aseq_walk; destruct k; reflexivity. Qed.
Lemma nx_subnets_walk_ok v k s l : subnets_walk v k (s_begin s) (s_end s) = Ret l -> nx_subnets_walk v k (s_begin s) (s_end s) = Ret l.
Proof. apply mirror_ret. apply mir_walk. intros x. apply mir_nit_add. Qed.
Lemma nx_aseq_walk_ok k (s : aseq nit anet) l : aseq_walk net_ops k (q_begin s) (q_end s) = Ret l -> nx_aseq_walk k (q_begin s) (q_end s) = Ret l.
Proof. apply mirror_ret. apply mir_walk. intros x. apply mir_aadd. Qed.

(** *** address_exclude *)
Lemma silent_code {A} (d s : A) c (o o' : res (A * ec)) : o = Ret (s, c) -> mirror o o' -> (c <> no_error -> s = d) ->
  silent d ('(r, c) <- o ;; raise_if r c 0) ('(r, c) <- o' ;; nx_raise r c).
Proof.
  intros -> Mr H. cbn [mirror] in Mr. rewrite Mr. cbn [bind]. unfold raise_if, nx_raise. fold (ok c). destruct (ok c) eqn:O; [reflexivity|]. cbn [silent]. f_equal. apply H. intros ->. rewrite ok_ok in O. discriminate.
Qed.
Lemma subset_cases v n o : wf_net v n -> wf_net v o -> unscoped n -> unscoped o -> subset v o n -> n <> o -> n_prefix n < n_prefix o.
Proof.
  intros Wn Wo Un Uo So Ne. pose proof (proj1 (subset_prefix v o n Wo Wn) So) as [H _]. destruct (Z.eq_dec (n_prefix n) (n_prefix o)) as [E|E]; [|lia].
  contradiction Ne. symmetry. apply (subset_eq v); auto.
Qed.
Lemma exclude_code_ret sp v n o code : wf_net v n -> wf_net v o -> exists s c, exclude_code sp v n o code = Ret (s, c) /\ (c = code \/ c = not_contained_network /\ s = exclude_default v).
Proof.
  intros Wn Wo. destruct (bare_ok v n Wn) as (Wbn & Ubn & _ & Pn). destruct (bare_ok v o Wo) as (Wbo & Ubo & Fo & Po).
  unfold exclude_code. rewrite !remove_scope_net_ok by assumption. cbn [bind].
  destruct (subnet_spec sp v (bare v o) (bare v n) Wbo Wbn Ubo Ubn) as (b & -> & _ & Hb). cbn [bind]. destruct b; [|eexists _, _; split; [reflexivity|auto]]. cbn [negb]. pose proof (proj1 Hb eq_refl) as So.
  destruct (net_eqb_ok v (bare v n) (bare v o) Wbn Wbo) as (e & -> & He). cbn [bind]. destruct e; [eexists _, _; split; [reflexivity|auto]|].
  assert (Ne : bare v n <> bare v o) by (intros K; apply He in K; discriminate).
  destruct (exclude_core sp v (bare v n) (bare v o) Wbn Wbo Ubn Ubo So (subset_cases v _ _ Wbn Wbo Ubn Ubo So Ne)) as (it & -> & _). eexists _, _. split; [reflexivity|auto].
Qed.
Lemma nx_exclude_silent sp v n o : wf_net v n -> wf_net v o -> silent (exclude_default v) (address_exclude sp v n o) (nx_exclude sp v n o).
Proof.
  intros Wn Wo. destruct (exclude_code_ret sp v n o no_error Wn Wo) as (s & c & E & H). apply (silent_code _ s c); [exact E|apply mir_exclude_code|]. destruct H as [->|[_ ->]]; [congruence|auto].
Qed.
Lemma any_exclude_code_ret sp v n v' o code : wf_net v n -> wf_net v' o ->
  exists s c, any_exclude_code sp (mk_an v n) (mk_an v' o) code = Ret (s, c) /\ (c = no_error \/ s = aexclude_default).
Proof.
  intros Wn Wo. destruct (ver_eqb v v') eqn:Ev.
  2:{ unfold any_exclude_code. cbn [an_ver]. rewrite Ev. eexists _, _. split; [reflexivity|auto]. }
  assert (v' = v) as -> by (destruct v, v'; (reflexivity || discriminate)).
  destruct (bare_ok v n Wn) as (Wbn & Ubn & _ & Pn). destruct (bare_ok v o Wo) as (Wbo & Ubo & Fo & Po). rewrite any_exclude_open by assumption.
  destruct (subnet_spec sp v (bare v o) (bare v n) Wbo Wbn Ubo Ubn) as (b & -> & _ & Hb). cbn [bind]. destruct b; [|eexists _, _; split; [reflexivity|auto]]. cbn [negb]. pose proof (proj1 Hb eq_refl) as So.
  destruct (net_eqb_ok v (bare v n) (bare v o) Wbn Wbo) as (e & -> & He). cbn [bind]. destruct e; [eexists _, _; split; [reflexivity|auto]|].
  assert (Ne : bare v n <> bare v o) by (intros K; apply He in K; discriminate).
  destruct (any_exclude_core sp v (bare v n) (bare v o) Wbn Wbo Ubn Ubo So (subset_cases v _ _ Wbn Wbo Ubn Ubo So Ne)) as (it & x & _ & -> & _). eexists _, _. split; [reflexivity|auto].
Qed.
Lemma nx_any_exclude_silent sp v n v' o : wf_net v n -> wf_net v' o ->
  silent aexclude_default (any_exclude sp (mk_an v n) (mk_an v' o)) (nx_any_exclude sp (mk_an v n) (mk_an v' o)).
Proof.
  intros Wn Wo. destruct (any_exclude_code_ret sp v n v' o no_error Wn Wo) as (s & c & E & H). apply (silent_code _ s c); [exact E|apply mir_aexclude_code|]. destruct H as [->| ->]; [congruence|auto].
Qed.
Lemma nx_default_exclude sp v k : nx_exclude_walk sp v k (e_begin (exclude_default v)) (e_end (exclude_default v)) = Ret [] /\
  nx_aexclude_walk sp k (ae_begin aexclude_default) (ae_end aexclude_default) = Ret [].
Proof. split; unfold nx_exclude_walk, nx_aexclude_walk; [destruct v|]; destruct k; reflexivity. Qed.
Lemma nx_exclude_walk_ok sp v k i j l : exclude_walk sp v k i j = Ret l -> nx_exclude_walk sp v k i j = Ret l.
Proof. apply mirror_ret. apply mir_walk. intros x. apply mir_xnext. Qed.
Lemma nx_aexclude_walk_ok sp k i j l : aexclude_walk sp k i j = Ret l -> nx_aexclude_walk sp k i j = Ret l.
Proof. apply mirror_ret. apply mir_walk. intros x. apply mir_axnext. Qed.
(** The iterator constructed for a network that is not inside. *)
Lemma nx_stuck sp v n o : wf_net v n -> wf_net v o -> unscoped n -> unscoped o -> ~ subset v o n -> n_prefix n < width v ->
  xit_make sp v n o = UB AssertFailed /\ exists it, nx_xit_make sp v n o = Ret it /\ x_current it = n /\ nx_xit_next sp v it = Ret it.
Proof.
  intros Wn Wo Un Uo So Hp. destruct (halves_ok sp v n Wn Hp) as (a & b & E & Ha & Hb).
  assert (N1 : nx_halves sp v n = Ret (a, b)) by (eapply mirror_ret; [apply mir_halves|exact E]).
  assert (P0 : 0 <= n_prefix n) by apply Wn. assert (D : 2 ^ (n_prefix n + 1 - n_prefix n) = 2) by (replace (n_prefix n + 1 - n_prefix n) with 1 by lia; reflexivity).
  assert (Sa : subset v a n) by (intros x Hx; apply (nth_inside v n (n_prefix n + 1) 0 a x); auto; lia).
  assert (Sb : subset v b n) by (intros x Hx; apply (nth_inside v n (n_prefix n + 1) 1 b x); auto; lia).
  assert (Wa : wf_net v a) by apply Ha. assert (Wb : wf_net v b) by apply Hb. assert (Ua : unscoped a) by apply Ha. assert (Ub : unscoped b) by apply Hb.
  assert (E1 : net_eqb v a o = Ret false) by (apply eqb_false; auto; intros ->; contradiction).
  assert (E2 : net_eqb v b o = Ret false) by (apply eqb_false; auto; intros ->; contradiction).
  assert (I1 : subnet_of sp v o a = Ret false) by (apply subnet_false; auto; intros K; apply So; intros x Hx; apply Sa, K, Hx).
  assert (I2 : subnet_of sp v o b = Ret false) by (apply subnet_false; auto; intros K; apply So; intros x Hx; apply Sb, K, Hx).
  assert (Nx : nx_xit_next sp v (mk_xit o a b n) = Ret (mk_xit o a b n)).
  { unfold nx_xit_next. cbn [x_s1 x_s2 x_other x_current]. rewrite E1, E2. cbn [bind negb andb]. rewrite I1. cbn [bind]. rewrite I2. reflexivity. }
  split.
  - unfold xit_make. rewrite E. cbn [bind]. unfold xit_next. cbn [x_s1 x_s2 x_other x_current]. rewrite E1, E2. cbn [bind negb andb]. rewrite I1. cbn [bind]. rewrite I2. reflexivity.
  - exists (mk_xit o a b n). split; [unfold nx_xit_make; rewrite N1; exact Nx|]. split; [reflexivity|exact Nx].
Qed.
(** So a loop over it visits [n] without end. *)
Lemma nx_stuck_walk sp v n o k : wf_net v n -> wf_net v o -> unscoped n -> unscoped o -> ~ subset v o n -> 0 < n_prefix n < width v ->
  exists it, nx_xit_make sp v n o = Ret it /\ nx_exclude_walk sp v k it (xit_default v) = UB OutOfFuel.
Proof.
  intros Wn Wo Un Uo So Hp. destruct (nx_stuck sp v n o Wn Wo Un Uo So ltac:(lia)) as (_ & it & E & C & N). exists it. split; [exact E|].
  assert (Ne : xit_eqb v it (xit_default v) = Ret false).
  { unfold xit_eqb. rewrite C. apply eqb_false; [exact Wn|apply net_default_wf|]. intros K. cbn [x_current xit_default] in K. rewrite K in Hp. destruct v; cbn in Hp; lia. }
  unfold nx_exclude_walk. induction k as [|k IH]; cbn [walk]; rewrite Ne; cbn [bind]; [reflexivity|]. rewrite N. cbn [bind]. rewrite IH. reflexivity.
Qed.

(** *** Where silence differs from the overloads with a code, and from rejection *)
Lemma nothing_differs : exists s c, coded_of TChar KAny true s no_error = Ret (default_of KAny, c) /\ c <> no_error /\ nx_string_of TChar KAny true s = Ret (nothing KAny) /\
  nothing KAny <> default_of KAny.
Proof. exists (str "1.2.3"), expected_4_octets. split; [vm_compute; reflexivity|]. split; [discriminate|]. split; [vm_compute; reflexivity|discriminate]. Qed.
Lemma literal_cut : exists s a, literal_of TChar (KAddr V4) s = Err string_is_too_long 0 /\ string_of TChar (KAddr V4) true s <> Ret a /\
  nx_literal_of TChar (KAddr V4) s = Ret a /\ a <> default_of (KAddr V4) /\ a = OAddr V4 (addr_at V4 "192.168.100.100").
Proof.
  exists (str "192.168.100.1005"), (OAddr V4 (addr_at V4 "192.168.100.100")). split; [vm_compute; reflexivity|]. split; [vm_compute; discriminate|].
  split; [vm_compute; reflexivity|]. split; [vm_compute; discriminate|reflexivity].
Qed.
Lemma string_cut : exists data f, fs_make (reader_of TChar16) (cap data) data = Err unexpected_symbol 1077 /\
  nx_fs_make (reader_of TChar16) (cap data) data = Ret f /\ fs_chars f = str "10.0.0.1".
Proof. exists (str "10.0.0.1" ++ [1077; 49; 0]). eexists. split; [vm_compute; reflexivity|]. split; [vm_compute; reflexivity|vm_compute; reflexivity]. Qed.
Lemma subnets_wrap : exists n s, wf_net V6 n /\ args_ok (2 ^ 64 - 1) None /\ subnets true V6 n (2 ^ 64 - 1) None = Err has_host_bits_set 0 /\
  nx_subnets true V6 n (2 ^ 64 - 1) None = Ret s /\ subnets_front s = net_default V6 /\ s <> subnets_default V6.
Proof.
  exists (net_at V6 "0:0:0:1::/64"). eexists. split; [wfn|]. split; [split; [split; vm_compute; congruence|exact I]|]. split; [vm_compute; reflexivity|]. split; [vm_compute; reflexivity|].
  split; [vm_compute; reflexivity|]. vm_compute. discriminate.
Qed.
