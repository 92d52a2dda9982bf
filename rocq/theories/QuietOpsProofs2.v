(** Network operations in builds without exceptions under every setting of the
    scope-id macros: version-erased networks, and iterators of exclusion that
    do not move. *)
From Coq Require Import String.
From Verif Require Import Base Tac V4Model V6Model Uint128Model SpecInt SpecIter AddressModel NetworkModel SpecNet SpecOrder NetProofs NetProofs2 IterModel IterProofs IterLemmas AnyModel SpecAny
  ConfigModel SpecConfig ConfigProofs NetConfigModel SpecNetConfig NetConfigProofs NetConfigProofs2 NetConfigProofs3 NetOpsConfigModel SpecNetOpsConfig NetOpsConfigProofs NetOpsConfigProofs2
  RelModel AnyConfigModel SpecAnyConfig AnyConfigProofs3 NoThrowModel SpecNoThrow NoThrowProofs NetWitness QuietOpsModel QuietOpsProofs.
Close Scope string_scope.

(** *** subnets *)
Lemma q_any_subnets_same g sp x d np : cfg_ok g -> anet_for (c_max g) (c_spaces g) x -> q_any_subnets g sp x d np = nx_any_subnets sp (anet_without x) d np.
Proof.
  intros C. destruct x as [[|] n]; unfold anet_for, anet_without; cbn [an_ver an_net]; intros W.
  - rewrite v4_without by exact W. reflexivity.
  - unfold q_any_subnets, nx_any_subnets, anet_is_v4. cbn [an_ver an_net ver_eqb ver_num Z.eqb Pos.eqb]. rewrite q_subnets_same by assumption. reflexivity.
Qed.
Lemma nx_any_plain sp x d np s : nx_any_subnets sp (anet_without x) d np = Ret s -> plain_si (q_begin s) /\ plain_si (q_end s).
Proof.
  destruct x as [[|] n]; unfold anet_without, nx_any_subnets, anet_is_v4; cbn [an_ver an_net ver_eqb ver_num Z.eqb Pos.eqb].
  - destruct (nx_subnets sp V4 _ d np); [|discriminate..]. intros H. apply ret_inj in H. subst s. split; discriminate.
  - destruct (nx_subnets sp V6 _ d np) as [h| |] eqn:Q; [|discriminate..]. intros H. apply ret_inj in H. subst s. destruct (nx_subnets_plain _ _ _ _ _ Q). split; intros _; assumption.
Qed.
Lemma nx_si_add a n b : plain_si a -> nx_aiter_add a n = Ret b -> plain_si b.
Proof.
  unfold plain_si, nx_aiter_add. destruct a as [[|] a ca]; cbn [ai_ver ai_it ver_eqb ver_num Z.eqb Pos.eqb]; intros A.
  - generalize (u32_of_u128 n). clear n. intros n. destruct (nx_nit_add V4 a n); [|discriminate..]. intros H. apply ret_inj in H. subst b. discriminate.
  - destruct (nx_nit_add V6 a n) as [x| |] eqn:X; [|discriminate..]. intros H. apply ret_inj in H. subst b. intros _. exact (nx_nit_add_plain _ _ _ (A eq_refl) X).
Qed.
Lemma q_aseq_walk_same g k a b : plain_si a -> plain_si b -> q_aseq_walk g k a b = nx_aseq_walk k a b.
Proof. apply walk_same; [apply si_eqb|reflexivity|]. intros x y P. apply nx_si_add. exact P. Qed.

(** *** address_exclude *)
Lemma q_an_halves g sp x : plain_an x -> q_any_halves g sp x = nx_any_halves sp x.
Proof.
  destruct x as [[|] n]; unfold plain_an; cbn [an_ver an_net]; intros A; [reflexivity|].
  unfold q_any_halves, nx_any_halves, q_any_subnets, nx_any_subnets, anet_is_v4. cbn [an_ver an_net ver_eqb ver_num Z.eqb Pos.eqb].
  rewrite q_subnets_plain_same by exact (A eq_refl). reflexivity.
Qed.
Lemma nx_an_halves_plain sp x a b : plain_an x -> nx_any_halves sp x = Ret (a, b) -> plain_an a /\ plain_an b.
Proof.
  intros P. unfold nx_any_halves. assert (X : nx_any_subnets sp x 1 None = nx_any_subnets sp (anet_without x) 1 None \/ an_ver x = V4).
  { destruct x as [[|] n]; [right; reflexivity|left]. unfold plain_an in P. cbn [an_ver an_net] in P. destruct (P eq_refl) as [Q _]. unfold anet_without. cbn [an_ver an_net]. rewrite (without_same n Q). reflexivity. }
  destruct (nx_any_subnets sp x 1 None) as [s| |] eqn:S; [|discriminate..]. cbn [bind].
  assert (B : plain_si (q_begin s)).
  { destruct X as [X|X]; [apply (nx_any_plain sp x 1 None); congruence|]. destruct x as [[|] n]; [|discriminate]. unfold nx_any_subnets, anet_is_v4 in S.
    cbn [an_ver an_net ver_eqb ver_num Z.eqb Pos.eqb] in S. destruct (nx_subnets sp V4 n 1 None); [|discriminate..]. apply ret_inj in S. subst s. discriminate. }
  assert (C : forall i c, nx_aiter_add (q_begin s) i = Ret c -> plain_an (ai_cur c)).
  { intros i c H. pose proof (nx_si_add _ _ _ B H) as Q. revert H. unfold nx_aiter_add. destruct (q_begin s) as [[|] it cu]; cbn [ai_ver ai_it ver_eqb ver_num Z.eqb Pos.eqb].
    - destruct (nx_nit_add V4 it _); [|discriminate..]. intros H. apply ret_inj in H. subst c. discriminate.
    - destruct (nx_nit_add V6 it i) as [z| |]; [|discriminate..]. intros H. apply ret_inj in H. subst c. intros _. apply (Q eq_refl). }
  unfold nx_aseq_at. destruct (nx_aiter_add (q_begin s) 0) as [u| |] eqn:U; [|discriminate..]. destruct (nx_aiter_add (q_begin s) 1) as [w| |] eqn:V; [|discriminate..].
  cbn [bind]. intros H. apply ret_inj in H. injection H as <- <-. split; eapply C; eassumption.
Qed.
Lemma q_axit_same g sp x : plain_axit x -> q_axit_next g sp x = nx_axit_next sp x.
Proof. intros (O & P1 & P2 & Q). unfold q_axit_next, nx_axit_next. rewrite !an_eqb, !an_subnet, !q_an_halves by assumption. reflexivity. Qed.
Lemma nx_axit_plain sp x y : plain_axit x -> nx_axit_next sp x = Ret y -> plain_axit y.
Proof.
  intros (O & P1 & P2 & Q). unfold nx_axit_next. intros H.
  repeat match type of H with
  | Ret _ = Ret _ => apply ret_inj in H; subst y
  | UB _ = Ret _ => discriminate H
  | Err _ _ = Ret _ => discriminate H
  | (if ?c then _ else _) = _ => destruct c
  | (let '(a, b) := ?c in _) = _ => destruct c
  | bind ?r _ = Ret _ => destruct r eqn:?; cbn [bind] in H
  end; try exact axit_default_plain;
  try (match goal with E : nx_any_halves _ ?n = Ret (_, _), P : plain_an ?n |- _ => destruct (nx_an_halves_plain _ _ _ _ P E) end);
  (split; [|split; [|split]]); assumption.
Qed.
Lemma q_axmake_same g sp n o : plain_an n -> plain_an o -> q_axit_make g sp n o = nx_axit_make sp n o.
Proof.
  intros N O. unfold q_axit_make, nx_axit_make. rewrite q_an_halves by assumption. destruct (nx_any_halves sp n) as [[a b]| |] eqn:H; cbn [bind]; try reflexivity.
  apply q_axit_same. destruct (nx_an_halves_plain _ _ _ _ N H). split; [|split; [|split]]; assumption.
Qed.
Lemma q_clear g x : cfg_ok g -> anet_for (c_max g) (c_spaces g) x -> q_any_clear_scope g (anet_address x) = any_clear_scope (anet_address (anet_without x)).
Proof.
  intros C. destruct x as [[|] n]; unfold anet_for, anet_without; cbn [an_ver an_net]; intros W; [rewrite v4_without by exact W; reflexivity|].
  unfold q_any_clear_scope, any_clear_scope, anet_address. cbn. rewrite q_remove_c by (try assumption; apply W). reflexivity.
Qed.
Lemma nx_made_plain a p strict x : (aa_ver a = V6 -> a_scope (aa_addr a) = []) -> nx_anet_from_address a p strict = Ret x -> plain_an x.
Proof.
  destruct a as [[|] a]; cbn [aa_ver aa_addr]; intros A; unfold nx_anet_from_address; cbn [aa_ver aa_addr ver_eqb ver_num Z.eqb Pos.eqb].
  - destruct (nx_from_address V4 a p strict); [|discriminate..]. intros H. apply ret_inj in H. subst x. discriminate.
  - destruct (nx_from_address V6 a p strict) as [n| |] eqn:F; [|discriminate..]. intros H. apply ret_inj in H. subst x. intros _. exact (nx_from_plain _ _ _ _ (A eq_refl) F).
Qed.
Lemma q_any_exclude_code_same g sp x o code : cfg_ok g -> anet_for (c_max g) (c_spaces g) x -> anet_for (c_max g) (c_spaces g) o ->
  q_any_exclude_code g sp x o code = nx_any_exclude_code sp (anet_without x) (anet_without o) code.
Proof.
  intros C X O. unfold q_any_exclude_code, nx_any_exclude_code. rewrite !q_clear by assumption.
  change (an_ver (anet_without x)) with (an_ver x). change (an_ver (anet_without o)) with (an_ver o). destruct (negb _); [reflexivity|].
  destruct (any_clear_scope (anet_address (anet_without x))) as [a| |] eqn:A; cbn [bind]; try reflexivity.
  destruct (any_clear_scope (anet_address (anet_without o))) as [b| |] eqn:B; cbn [bind]; try reflexivity.
  change (anet_prefixlen (anet_without x)) with (anet_prefixlen x). change (anet_prefixlen (anet_without o)) with (anet_prefixlen o).
  destruct (nx_anet_from_address a _ true) as [l| |] eqn:L; cbn [bind]; try reflexivity.
  destruct (nx_anet_from_address b _ true) as [r| |] eqn:R; cbn [bind]; try reflexivity.
  assert (Pl : plain_an l) by exact (nx_made_plain _ _ _ _ (clear_plain x a A) L). assert (Pr : plain_an r) by exact (nx_made_plain _ _ _ _ (clear_plain o b B) R).
  rewrite an_subnet, an_eqb, q_axmake_same by assumption. reflexivity.
Qed.
Lemma q_any_exclude_same g sp x o : cfg_ok g -> anet_for (c_max g) (c_spaces g) x -> anet_for (c_max g) (c_spaces g) o ->
  q_any_exclude g sp x o = nx_any_exclude sp (anet_without x) (anet_without o).
Proof. intros C N O. unfold q_any_exclude, nx_any_exclude. rewrite q_any_exclude_code_same by assumption. reflexivity. Qed.
Lemma q_aexclude_walk_same g sp k a b : plain_axit a -> plain_axit b -> q_aexclude_walk g sp k a b = nx_aexclude_walk sp k a b.
Proof. apply walk_same; [apply axit_eqb_plain|apply q_axit_same|apply nx_axit_plain]. Qed.

(** *** The operations *)
Lemma q_any_subnets_all g sp x d np : cfg_ok g -> anet_for (c_max g) (c_spaces g) x -> args_ok d np -> (np = None -> n_prefix (an_net x) + d < 2 ^ 64) ->
  silent (aseq_make net_ops (an_ver x) (nit_default (an_ver x)) (nit_default (an_ver x))) (any_subnets_c g sp x d np) (q_any_subnets g sp x d np) /\
  forall s k l, any_subnets_c g sp x d np = Ret s -> aseq_walk (net_ops_c g) k (q_begin s) (q_end s) = Ret l -> q_aseq_walk g k (q_begin s) (q_end s) = Ret l.
Proof.
  intros C N A B. split.
  - rewrite any_subnets_same, q_any_subnets_same by assumption. apply (nx_any_subnets_silent sp (an_ver x) (without_scope (an_net x))); [exact (bare_an g x N)|exact A|exact B].
  - intros s k l H W. destruct (any_subnets_all g sp x d np C N) as (E & _ & R). destruct (R s H) as (_ & Wk & _). rewrite Wk in W. rewrite E in H.
    destruct (any_subnets_plain _ _ _ _ _ H) as [P Q]. rewrite q_aseq_walk_same by assumption. apply nx_aseq_walk_ok. exact W.
Qed.
Lemma q_any_exclude_all g sp x o : cfg_ok g -> anet_for (c_max g) (c_spaces g) x -> anet_for (c_max g) (c_spaces g) o ->
  silent aexclude_default (any_exclude_c g sp x o) (q_any_exclude g sp x o) /\
  forall s k l, any_exclude_c g sp x o = Ret s -> aexclude_walk_c g sp k (ae_begin s) (ae_end s) = Ret l -> q_aexclude_walk g sp k (ae_begin s) (ae_end s) = Ret l.
Proof.
  intros C N O. split.
  - rewrite any_exclude_same, q_any_exclude_same by assumption.
    apply (nx_any_exclude_silent sp (an_ver x) (without_scope (an_net x)) (an_ver o) (without_scope (an_net o))); [exact (bare_an g x N)|exact (bare_an g o O)].
  - intros s k l H W. destruct (any_exclude_all g sp x o C N O) as (E & _ & R). rewrite (R s H) in W. rewrite E in H.
    destruct (any_exclude_plain _ _ _ _ H) as [P Q]. rewrite q_aexclude_walk_same by assumption. apply nx_aexclude_walk_ok. exact W.
Qed.
(** What is not a network inside, given to the constructor of the iterator. *)
Lemma q_stuck g sp n o k : cfg_ok g -> net_for (c_max g) (c_spaces g) n -> net_for (c_max g) (c_spaces g) o ->
  ~ subset V6 o n -> 0 < n_prefix n < 128 ->
  xit_make_c g sp (without_scope n) (without_scope o) = UB AssertFailed /\
  exists it, q_xit_make g sp (without_scope n) (without_scope o) = Ret it /\ x_current it = without_scope n /\ q_xit_next g sp it = Ret it /\
    q_exclude_walk g sp k it (xit_default V6) = UB OutOfFuel.
Proof.
  intros C N O S P. assert (Pn : plain (without_scope n)) by (apply without_plain, N). assert (Po : plain (without_scope o)) by (apply without_plain, O).
  pose proof (bare_wf _ _ n N) as Wn. pose proof (bare_wf _ _ o O) as Wo.
  rewrite xit_make_same, q_xmake_same by assumption.
  destruct (nx_stuck sp V6 _ _ Wn Wo eq_refl eq_refl S (proj2 P)) as (X & it & E & Cu & Nx). split; [exact X|]. exists it. split; [exact E|]. split; [exact Cu|].
  pose proof (nx_xmake_plain _ _ _ _ Pn Po E) as Pi. split; [rewrite q_xit_same by exact Pi; exact Nx|].
  rewrite q_exclude_walk_same by (try exact Pi; exact xit_default_plain).
  destruct (nx_stuck_walk sp V6 _ _ k Wn Wo eq_refl eq_refl S P) as (it' & E' & L). assert (it' = it) by congruence. subst it'. exact L.
Qed.
(** The overloads with an error code. *)
Lemma q_codes g sp n o code d np : cfg_ok g -> net_for (c_max g) (c_spaces g) n -> net_for (c_max g) (c_spaces g) o ->
  (forall r, subnets_code_c g sp n code d np = Ret r -> q_subnets_code g sp n code d np = Ret r) /\
  (forall r, exclude_code_c g sp n o code = Ret r -> q_exclude_code g sp n o code = Ret r).
Proof.
  intros C N O. rewrite subnets_code_same, q_subnets_code_same, exclude_code_same, q_exclude_code_same by assumption.
  split; intros r H; (eapply mirror_ret; [|exact H]); [apply mir_subnets_code|apply mir_exclude_code].
Qed.
Lemma q_any_codes g sp x o code : cfg_ok g -> anet_for (c_max g) (c_spaces g) x -> anet_for (c_max g) (c_spaces g) o ->
  forall r, any_exclude_code_c g sp x o code = Ret r -> q_any_exclude_code g sp x o code = Ret r.
Proof. intros C N O r. rewrite any_exclude_code_same, q_any_exclude_code_same by assumption. apply mirror_ret, mir_aexclude_code. Qed.
(** The empty sequences that stand for errors. *)
Lemma q_empty g sp v k : q_subnets_walk g k (s_begin (subnets_default V6)) (s_end (subnets_default V6)) = Ret [] /\
  q_aseq_walk g k (q_begin (aseq_make net_ops v (nit_default v) (nit_default v))) (q_end (aseq_make net_ops v (nit_default v) (nit_default v))) = Ret [] /\
  q_exclude_walk g sp k (e_begin (exclude_default V6)) (e_end (exclude_default V6)) = Ret [] /\
  q_aexclude_walk g sp k (ae_begin aexclude_default) (ae_end aexclude_default) = Ret [].
Proof.
  split; [rewrite q_subnets_walk_same by apply default_plain; apply nx_default_walk|].
  split; [rewrite q_aseq_walk_same; [apply nx_default_walk|..]; intros _; apply default_plain|].
  split; [rewrite q_exclude_walk_same by apply xit_default_plain; apply nx_default_exclude|].
  rewrite q_aexclude_walk_same by apply axit_default_plain. apply (nx_default_exclude sp V6 k).
Qed.
