(** Network operations in builds without exceptions under every setting of the
    scope-id macros. *)
From Verif Require Import Base Tac V4Model V6Model Uint128Model SpecInt SpecIter AddressModel NetworkModel SpecNet SpecOrder NetProofs NetProofs2 IterModel IterProofs AnyModel SpecAny
  ConfigModel SpecConfig ConfigProofs NetConfigModel SpecNetConfig NetConfigProofs NetConfigProofs2 NetConfigProofs3 NetOpsConfigModel SpecNetOpsConfig NetOpsConfigProofs NetOpsConfigProofs2
  RelModel AnyConfigModel SpecAnyConfig AnyConfigProofs3 NoThrowModel SpecNoThrow NoThrowProofs QuietOpsModel.

(** *** Networks made here have no scope id *)
Lemma nx_from_plain a p strict n : a_scope a = [] -> nx_from_address V6 a p strict = Ret n -> plain n.
Proof.
  intros A H. pose proof (nx_from_address_silent' V6 a p strict) as S. destruct (from_address V6 a p strict) as [r|e x|u] eqn:F; cbn [silent] in S.
  - assert (r = n) by congruence. subst r. exact (from_address_plain _ _ _ _ A F).
  - assert (n = net_default V6) by congruence. subst n. split; reflexivity.
  - congruence.
Qed.
Lemma q_remove_c g a : cfg_ok g -> addr_for (c_max g) (c_spaces g) a -> q_remove_scope g a = Ret (mk_addr (a_bytes a) []).
Proof.
  intros C H. pose proof (remove_c g a C H) as R. unfold remove_scope_c in R. unfold q_remove_scope.
  destruct (v6_set_scope_c g (a_scope a) no_error 0 []) as [[s c]|e x|u]; cbn [bind] in *; [|discriminate..].
  unfold raise_if in R. destruct (ec_eqb c no_error); [exact R|discriminate].
Qed.
Lemma q_remove_none g b : q_remove_scope g (mk_addr b []) = Ret (mk_addr b []).
Proof.
  unfold q_remove_scope, v6_set_scope_c. cbn [a_scope a_bytes]. destruct (Z.gtb_spec (c_max g) 0) as [G|G].
  - destruct (Z.gtb_spec 0 (c_max g)); [lia|]. cbn [set_scope_loop_c bind].
    destruct (Z.to_nat (c_max g)) as [|k] eqn:E; [lia|]. replace (Z.to_nat (c_max g + 1)) with (S (S k)) by lia. reflexivity.
  - reflexivity.
Qed.
Lemma nx_nit_make_plain ref step p c a : a_scope ref = [] -> nx_nit_make V6 ref step p c = Ret a -> plain_nit a.
Proof.
  intros R. unfold nx_nit_make. destruct (nx_from_address V6 ref p true) as [n| |] eqn:F; [|discriminate..]. cbn [bind].
  destruct (ait_make V6 ref c) as [i| |] eqn:I; [|discriminate..]. intros H. apply ret_inj in H. subst a.
  split; [exact (nx_from_plain _ _ _ _ R F)|exact (ait_make_plain _ _ _ R I)].
Qed.
Lemma nx_nit_add_plain a n b : plain_nit a -> nx_nit_add V6 a n = Ret b -> plain_nit b.
Proof.
  intros [_ P]. unfold nx_nit_add. destruct (ait_add V6 (ni_it a) _) as [x| |] eqn:X; [|discriminate..]. cbn [bind].
  destruct (nx_from_address V6 _ _ _) as [c| |] eqn:F; [|discriminate..]. intros H. apply ret_inj in H. subst b.
  pose proof (ait_add_plain _ _ _ P X) as Q. split; [exact (nx_from_plain _ _ _ _ Q F)|exact Q].
Qed.

(** *** subnets *)
Lemma q_single_same g sp b p : q_subnets_single g sp (mk_addr b []) p = nx_subnets_single sp V6 (mk_addr b []) p.
Proof.
  unfold q_subnets_single, nx_subnets_single. cbn [a_bytes]. destruct (addr_to_uint V6 _) as [u| |]; cbn [bind]; try reflexivity.
  destruct (addr_from_uint V6 (uadd V6 u 1)) as [l| |] eqn:L; cbn [bind]; try reflexivity. rewrite lt_plain by (try reflexivity; eapply from_uint_plain; eassumption). reflexivity.
Qed.
Lemma q_make_same g na ba hm d p : q_subnets_make g na ba hm d p = nx_subnets_make V6 na ba hm d p.
Proof.
  unfold q_subnets_make, nx_subnets_make. destruct (addr_to_uint V6 na) as [u| |]; cbn [bind]; try reflexivity. destruct (addr_to_uint V6 ba) as [w| |]; cbn [bind]; try reflexivity.
  destruct (addr_from_uint V6 u) as [f| |] eqn:F; cbn [bind]; try reflexivity.
  destruct (addr_from_uint V6 (uadd V6 w 1)) as [l| |] eqn:L; cbn [bind]; try reflexivity. rewrite eqb_plain by (eapply from_uint_plain; eassumption). reflexivity.
Qed.
Lemma q_code_cleared g sp n code d np : q_remove_scope g (n_addr n) = Ret (mk_addr (a_bytes (n_addr n)) []) ->
  q_subnets_code g sp n code d np = nx_subnets_code sp V6 (without_scope n) code d np.
Proof.
  intros R. unfold q_subnets_code, nx_subnets_code. rewrite R, broadcast_without.
  change (hostmask (without_scope n)) with (hostmask n). change (n_prefix (without_scope n)) with (n_prefix n).
  change (remove_scope V6 (n_addr (without_scope n))) with (@Ret addr (mk_addr (a_bytes (n_addr n)) [])). cbn [bind width]. rewrite q_single_same.
  destruct (n_prefix n =? 128); [reflexivity|].
  destruct (match np with Some _ => _ | None => _ end); [reflexivity|]. rewrite q_make_same. reflexivity.
Qed.
Lemma q_subnets_code_same g sp n code d np : cfg_ok g -> net_for (c_max g) (c_spaces g) n ->
  q_subnets_code g sp n code d np = nx_subnets_code sp V6 (without_scope n) code d np.
Proof. intros C (H & _). apply q_code_cleared, q_remove_c; assumption. Qed.
Lemma q_subnets_same g sp n d np : cfg_ok g -> net_for (c_max g) (c_spaces g) n ->
  q_subnets g sp n d np = nx_subnets sp V6 (without_scope n) d np.
Proof. intros C H. unfold q_subnets, nx_subnets. rewrite q_subnets_code_same by assumption. reflexivity. Qed.
Lemma q_subnets_plain_same g sp n d np : plain n -> q_subnets g sp n d np = nx_subnets sp V6 n d np.
Proof.
  intros [P _]. rewrite <- (without_same n P) at 2. unfold q_subnets, nx_subnets. rewrite q_code_cleared; [reflexivity|].
  destruct n as [[b s] m p]. cbn [n_addr a_scope a_bytes] in *. subst s. apply q_remove_none.
Qed.
Lemma nx_single_plain sp b p s : nx_subnets_single sp V6 (mk_addr b []) p = Ret s -> plain_nit (s_begin s) /\ plain_nit (s_end s).
Proof.
  unfold nx_subnets_single. cbn [a_bytes]. intros H.
  repeat match type of H with bind ?r _ = Ret _ => destruct r eqn:?; cbn [bind] in H; [|discriminate..] end.
  apply ret_inj in H. subst s. cbn [s_begin s_end]. split; (eapply nx_nit_make_plain; [|eassumption]); [reflexivity|eapply from_uint_plain; eassumption].
Qed.
Lemma nx_make_plain na ba hm d p s : nx_subnets_make V6 na ba hm d p = Ret s -> plain_nit (s_begin s) /\ plain_nit (s_end s).
Proof.
  unfold nx_subnets_make. intros H.
  repeat match type of H with bind ?r _ = Ret _ => destruct r eqn:?; cbn [bind] in H; [|discriminate..] end.
  apply ret_inj in H. subst s. cbn [s_begin s_end]. split; (eapply nx_nit_make_plain; [|eassumption]); eapply from_uint_plain; eassumption.
Qed.
Lemma nx_subnets_plain sp n d np s : nx_subnets sp V6 (without_scope n) d np = Ret s -> plain_nit (s_begin s) /\ plain_nit (s_end s).
Proof.
  unfold nx_subnets, nx_subnets_code, nx_raise. change (remove_scope V6 (n_addr (without_scope n))) with (@Ret addr (mk_addr (a_bytes (n_addr n)) [])). cbn [bind]. intros H.
  destruct (n_prefix (without_scope n) =? width V6).
  - destruct (nx_subnets_single _ _ _ _) eqn:S; [|discriminate..]. apply ret_inj in H. subst s. exact (nx_single_plain _ _ _ _ S).
  - destruct (match np with Some _ => _ | None => _ end); [apply ret_inj in H; subst s; exact default_plain|].
    destruct (_ >? _); [apply ret_inj in H; subst s; exact default_plain|].
    destruct (nx_subnets_make _ _ _ _ _ _) eqn:S; [|discriminate..]. apply ret_inj in H. subst s. exact (nx_make_plain _ _ _ _ _ _ S).
Qed.
Lemma q_subnets_walk_same g k a b : plain_nit a -> plain_nit b -> q_subnets_walk g k a b = nx_subnets_walk V6 k a b.
Proof. apply walk_same; [apply nit_eqb_plain|reflexivity|]. intros x y P. apply nx_nit_add_plain. exact P. Qed.

(** *** address_exclude *)
Lemma q_halves_same g sp n : plain n -> q_halves g sp n = nx_halves sp V6 n.
Proof. intros P. unfold q_halves, nx_halves. rewrite q_subnets_plain_same by exact P. reflexivity. Qed.
Lemma nx_halves_plain sp n a b : plain n -> nx_halves sp V6 n = Ret (a, b) -> plain a /\ plain b.
Proof.
  intros [P _]. unfold nx_halves. rewrite <- (without_same n P). destruct (nx_subnets sp V6 (without_scope n) 1 None) as [s| |] eqn:S; [|discriminate..]. cbn [bind].
  destruct (nx_subnets_plain _ _ _ _ _ S) as [B _]. unfold nx_subnets_at.
  destruct (nx_nit_add V6 (s_begin s) 0) as [x| |] eqn:X; [|discriminate..]. cbn [bind].
  destruct (nx_nit_add V6 (s_begin s) 1) as [y| |] eqn:Y; [|discriminate..]. cbn [bind].
  intros H. apply ret_inj in H. injection H as <- <-. split; [apply (nx_nit_add_plain _ _ _ B X)|apply (nx_nit_add_plain _ _ _ B Y)].
Qed.
Lemma q_xit_same g sp x : plain_xit x -> q_xit_next g sp x = nx_xit_next sp V6 x.
Proof.
  intros (O & P1 & P2 & Q). unfold q_xit_next, nx_xit_next. rewrite !net_eqb_plain, !subnet_plain, !q_halves_same by assumption. reflexivity.
Qed.
Lemma nx_xit_plain sp x y : plain_xit x -> nx_xit_next sp V6 x = Ret y -> plain_xit y.
Proof.
  intros (O & P1 & P2 & Q). unfold nx_xit_next. intros H.
  repeat match type of H with
  | Ret _ = Ret _ => apply ret_inj in H; subst y
  | UB _ = Ret _ => discriminate H
  | Err _ _ = Ret _ => discriminate H
  | (if ?c then _ else _) = _ => destruct c
  | (let '(a, b) := ?c in _) = _ => destruct c
  | bind ?r _ = Ret _ => destruct r eqn:?; cbn [bind] in H
  end; try exact xit_default_plain; (repeat split; cbn [x_other x_s1 x_s2 x_current]; try apply O; try apply P1; try apply P2; try apply Q);
  match goal with E : nx_halves _ _ ?n = Ret (_, _), P : plain ?n |- _ => destruct (nx_halves_plain _ _ _ _ P E) as [[] []]; assumption end.
Qed.
Lemma q_xmake_same g sp n o : plain n -> plain o -> q_xit_make g sp n o = nx_xit_make sp V6 n o.
Proof.
  intros N O. unfold q_xit_make, nx_xit_make. rewrite q_halves_same by assumption. destruct (nx_halves sp V6 n) as [[a b]| |] eqn:H; cbn [bind]; try reflexivity.
  apply q_xit_same. destruct (nx_halves_plain _ _ _ _ N H). repeat split; cbn [x_other x_s1 x_s2 x_current]; try apply O; try apply N; try apply H0; apply H1.
Qed.
Lemma nx_xmake_plain sp n o x : plain n -> plain o -> nx_xit_make sp V6 n o = Ret x -> plain_xit x.
Proof.
  intros N O. unfold nx_xit_make. destruct (nx_halves sp V6 n) as [[a b]| |] eqn:H; cbn [bind]; try discriminate.
  apply nx_xit_plain. destruct (nx_halves_plain _ _ _ _ N H). repeat split; cbn [x_other x_s1 x_s2 x_current]; try apply O; try apply N; try apply H0; apply H1.
Qed.
Lemma q_remove_net g n : cfg_ok g -> net_for (c_max g) (c_spaces g) n -> q_remove_scope_net g n = nx_remove_scope_net V6 (without_scope n).
Proof. intros C (H & _). unfold q_remove_scope_net. rewrite q_remove_c by assumption. reflexivity. Qed.
Lemma nx_remove_plain n r : nx_remove_scope_net V6 (without_scope n) = Ret r -> plain r.
Proof. unfold nx_remove_scope_net, without_scope. cbn [n_addr n_prefix a_bytes]. rewrite remove_16. cbn [bind]. apply nx_from_plain. reflexivity. Qed.
Lemma q_exclude_code_same g sp n o code : cfg_ok g -> net_for (c_max g) (c_spaces g) n -> net_for (c_max g) (c_spaces g) o ->
  q_exclude_code g sp n o code = nx_exclude_code sp V6 (without_scope n) (without_scope o) code.
Proof.
  intros C N O. unfold q_exclude_code, nx_exclude_code. rewrite !q_remove_net by assumption.
  destruct (nx_remove_scope_net V6 (without_scope n)) as [l| |] eqn:L; cbn [bind]; try reflexivity.
  destruct (nx_remove_scope_net V6 (without_scope o)) as [r| |] eqn:R; cbn [bind]; try reflexivity.
  apply nx_remove_plain in L, R. rewrite subnet_plain, net_eqb_plain, q_xmake_same by assumption. reflexivity.
Qed.
Lemma q_exclude_same g sp n o : cfg_ok g -> net_for (c_max g) (c_spaces g) n -> net_for (c_max g) (c_spaces g) o ->
  q_exclude g sp n o = nx_exclude sp V6 (without_scope n) (without_scope o).
Proof. intros C N O. unfold q_exclude, nx_exclude. rewrite q_exclude_code_same by assumption. reflexivity. Qed.
Lemma nx_exclude_plain sp n o s : nx_exclude sp V6 (without_scope n) (without_scope o) = Ret s -> plain_xit (e_begin s) /\ plain_xit (e_end s).
Proof.
  unfold nx_exclude, nx_exclude_code, nx_raise.
  destruct (nx_remove_scope_net V6 (without_scope n)) as [l| |] eqn:L; cbn [bind]; try discriminate.
  destruct (nx_remove_scope_net V6 (without_scope o)) as [r| |] eqn:R; cbn [bind]; try discriminate. apply nx_remove_plain in L, R.
  destruct (subnet_of sp V6 r l) as [[|]| |]; cbn [bind negb]; try discriminate; [|intros H; apply ret_inj in H; subst s; split; exact xit_default_plain].
  destruct (net_eqb V6 l r) as [[|]| |]; cbn [bind]; try discriminate.
  - intros H. apply ret_inj in H. subst s. split; exact xit_default_plain.
  - destruct (nx_xit_make sp V6 l r) as [x| |] eqn:X; cbn [bind]; try discriminate. intros H. apply ret_inj in H. subst s.
    split; [exact (nx_xmake_plain _ _ _ _ L R X)|exact xit_default_plain].
Qed.
Lemma q_exclude_walk_same g sp k a b : plain_xit a -> plain_xit b -> q_exclude_walk g sp k a b = nx_exclude_walk sp V6 k a b.
Proof. apply walk_same; [apply xit_eqb_plain|apply q_xit_same|apply nx_xit_plain]. Qed.

(** *** The operations *)
Lemma q_subnets_all g sp n d np : cfg_ok g -> net_for (c_max g) (c_spaces g) n -> args_ok d np -> (np = None -> n_prefix n + d < 2 ^ 64) ->
  silent (subnets_default V6) (subnets_c g sp n d np) (q_subnets g sp n d np) /\
  forall s k l, subnets_c g sp n d np = Ret s -> subnets_walk_c g k (s_begin s) (s_end s) = Ret l -> q_subnets_walk g k (s_begin s) (s_end s) = Ret l.
Proof.
  intros C N A B. split; [rewrite subnets_same, q_subnets_same by assumption; apply nx_subnets_silent; [exact (bare_wf _ _ n N)|exact A|exact B]|].
  intros s k l H W. rewrite subnets_same in H by assumption. destruct (subnets_plain _ _ _ _ _ H) as [P Q].
  rewrite subnets_walk_same in W by assumption. rewrite q_subnets_walk_same by assumption. apply nx_subnets_walk_ok. exact W.
Qed.
Lemma q_exclude_all g sp n o : cfg_ok g -> net_for (c_max g) (c_spaces g) n -> net_for (c_max g) (c_spaces g) o ->
  silent (exclude_default V6) (address_exclude_c g sp n o) (q_exclude g sp n o) /\
  forall s k l, address_exclude_c g sp n o = Ret s -> exclude_walk_c g sp k (e_begin s) (e_end s) = Ret l -> q_exclude_walk g sp k (e_begin s) (e_end s) = Ret l.
Proof.
  intros C N O. split; [rewrite exclude_same, q_exclude_same by assumption; apply nx_exclude_silent; eapply bare_wf; eassumption|].
  intros s k l H W. rewrite exclude_same in H by assumption. destruct (exclude_plain _ _ _ _ H) as [P Q].
  rewrite exclude_walk_same in W by assumption. rewrite q_exclude_walk_same by assumption. apply nx_exclude_walk_ok. exact W.
Qed.
