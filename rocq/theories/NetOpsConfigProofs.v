(** Network operations under every setting of the scope-id macros. *)
From Coq Require Import String.
From Verif Require Import Base Tac TextProofs UnicodeModel FixedStringModel V4Model V6Model Uint128Model SpecInt Uint128Proofs Uint128Div2
  SpecText SpecAddr SpecStr SpecV4 SpecV6 StrProofs V4Proofs BufProofs BitProofs FixedStringProofs V4Lemmas V6Proofs V6Parse V6Grammar V6Full V6Format V6Lemmas
  AddressModel SpecOrder AddressProofs NetworkModel SpecNet NetProofs NetProofs2 NetProofs3 MaskProofs ErrProofs NetText NetText2 NetText3
  SpecLoose LooseProofs SpecExact HashProofs IterModel ConfigModel SpecConfig ConfigProofs NetConfigModel SpecNetConfig NetConfigProofs NetConfigProofs2 NetConfigProofs3
  NetOpsConfigModel SpecNetOpsConfig ExactProofs.
Close Scope string_scope.

(** *** Addresses without scope id *)
Definition plain (n : net) : Prop := a_scope (n_addr n) = [] /\ a_scope (n_mask n) = [].
Lemma none_c g : fs_compare (scope_fs_c g []) (scope_fs_c g []) = Ret 0.
Proof. unfold fs_compare. destruct (length _); reflexivity. Qed.
Lemma none_16 : fs_compare (scope_fs []) (scope_fs []) = Ret 0. Proof. reflexivity. Qed.
Lemma eqb_plain g a b : a_scope a = [] -> a_scope b = [] -> addr_eqb_c g a b = addr_eqb V6 a b.
Proof. intros A B. unfold addr_eqb_c, addr_eqb. rewrite A, B, none_c, none_16. destruct (list_eqb _ _), (c_max g >? 0); reflexivity. Qed.
Lemma cmp_plain g a b : a_scope a = [] -> a_scope b = [] -> addr_cmp_c g a b = addr_cmp V6 a b.
Proof. intros A B. unfold addr_cmp_c, addr_cmp. rewrite A, B, none_c, none_16. destruct (bytes_cmp _ _), (c_max g >? 0); reflexivity. Qed.
Lemma ltb_plain g a b : a_scope a = [] -> a_scope b = [] -> addr_ltb_c g a b = addr_ltb V6 a b.
Proof. intros A B. unfold addr_ltb_c, addr_ltb. rewrite A, B, none_c, none_16. destruct (bytes_ltb _ _), (c_max g >? 0); reflexivity. Qed.
Lemma lt_plain g sp a b : a_scope a = [] -> a_scope b = [] -> op_lt_c g sp a b = op_lt sp V6 a b.
Proof. intros A B. unfold op_lt_c, op_lt. rewrite cmp_plain, ltb_plain by assumption. reflexivity. Qed.
Lemma le_plain g sp a b : a_scope a = [] -> a_scope b = [] -> op_le_c g sp a b = op_le sp V6 a b.
Proof. intros A B. unfold op_le_c, op_le. rewrite cmp_plain, ltb_plain by assumption. reflexivity. Qed.
Lemma ge_plain g sp a b : a_scope a = [] -> a_scope b = [] -> op_ge_c g sp a b = op_ge sp V6 a b.
Proof. intros A B. unfold op_ge_c, op_ge. rewrite cmp_plain, ltb_plain by assumption. reflexivity. Qed.
Lemma net_eqb_plain g a b : plain a -> plain b -> net_eqb_c g a b = net_eqb V6 a b.
Proof. intros [A A'] [B B']. unfold net_eqb_c, net_eqb. rewrite !eqb_plain by assumption. reflexivity. Qed.
Lemma subnet_plain g sp a b : plain a -> plain b -> subnet_of_c g sp a b = subnet_of sp V6 a b.
Proof. intros [A _] [B _]. unfold subnet_of_c, is_subnet_of_c, subnet_of, is_subnet_of. rewrite le_plain, ge_plain by (try assumption; reflexivity). reflexivity. Qed.
Lemma without_plain n : a_scope (n_mask n) = [] -> plain (without_scope n).
Proof. intros H. split; [reflexivity|exact H]. Qed.
Lemma broadcast_without n : broadcast (without_scope n) = broadcast n. Proof. reflexivity. Qed.

(** Removing the scope id. *)
Lemma remove_c g a : cfg_ok g -> addr_for (c_max g) (c_spaces g) a -> remove_scope_c g a = Ret (mk_addr (a_bytes a) []).
Proof.
  intros C H. unfold remove_scope_c, v6_set_scope_c. destruct (Z.gtb_spec (c_max g) 0) as [G|G].
  - destruct (Z.gtb_spec 0 (c_max g)); [lia|]. cbn [set_scope_loop_c bind].
    destruct (Z.to_nat (c_max g)) as [|k] eqn:E; [lia|]. replace (Z.to_nat (c_max g + 1)) with (S (S k)) by lia. reflexivity.
  - cbn [bind]. assert (E : a_scope a = []) by (apply (of_off g); [unfold cfg_ok in C; lia|apply H]). rewrite E. reflexivity.
Qed.
Lemma remove_16 b : remove_scope V6 (mk_addr b []) = Ret (mk_addr b []). Proof. reflexivity. Qed.

(** *** Addresses made by the arithmetic have none *)
Lemma from_uint_plain n a : addr_from_uint V6 n = Ret a -> a_scope a = [].
Proof. unfold addr_from_uint. destruct (v6_from_uint true (of_Z n)); [|discriminate..]. intros H. apply ret_inj in H. subst a. reflexivity. Qed.
Lemma prefix_plain p m : ip_from_prefix V6 p = Ret m -> a_scope m = [].
Proof. unfold ip_from_prefix. destruct (v6_from_prefix p); [|discriminate..]. intros H. apply ret_inj in H. subst m. reflexivity. Qed.
Lemma strict_plain a m strict r : a_scope a = [] -> strict_netmask V6 a m strict = Ret r -> a_scope r = [].
Proof.
  intros A. unfold strict_netmask, v6_strict_netmask. rewrite A. destruct (and_loop _ _ _ _ _) as [c|e x|u]; [|discriminate..]. cbn [bind].
  destruct (list_eqb c (a_bytes a)); [|destruct strict]; cbn [negb bind]; intros H; try discriminate H; apply ret_inj in H; subst r; reflexivity.
Qed.
Lemma from_address_plain a p strict n : a_scope a = [] -> from_address V6 a p strict = Ret n -> plain n.
Proof.
  intros A. unfold from_address, from_address_code. destruct (ip_from_prefix V6 p) as [m|e x|u] eqn:M; [|discriminate..]. cbn [bind].
  destruct (strict_netmask V6 a m strict) as [r|e x|u] eqn:S; [| |discriminate]; cbn [bind]; unfold raise_if.
  - intros H. apply ret_inj in H. subst n. split; [exact (strict_plain _ _ _ _ A S)|exact (prefix_plain _ _ M)].
  - destruct (ec_eqb e no_error); [|discriminate]. intros H. apply ret_inj in H. subst n. split; reflexivity.
Qed.
Lemma remove_net_c g n : cfg_ok g -> net_for (c_max g) (c_spaces g) n ->
  remove_scope_net_c g n = remove_scope_net V6 (without_scope n).
Proof. intros C (H & _). unfold remove_scope_net_c. rewrite remove_c by assumption. reflexivity. Qed.
Lemma remove_net_plain n r : remove_scope_net V6 (without_scope n) = Ret r -> plain r.
Proof. unfold remove_scope_net, without_scope. cbn [n_addr n_prefix a_bytes]. rewrite remove_16. cbn [bind]. apply from_address_plain. reflexivity. Qed.

(** *** Loops *)
Lemma walk_same {A B} (eqb eqb' : A -> A -> res bool) (next next' : A -> res A) (get : A -> B) (P : A -> Prop) :
  (forall a b, P a -> P b -> eqb a b = eqb' a b) -> (forall a, P a -> next a = next' a) -> (forall a b, P a -> next' a = Ret b -> P b) ->
  forall k a b, P a -> P b -> walk eqb next get k a b = walk eqb' next' get k a b.
Proof.
  intros E N I. induction k as [|k IH]; intros a b Pa Pb; cbn [walk]; rewrite E by assumption; destruct (eqb' a b) as [[|]| |]; cbn [bind]; try reflexivity.
  rewrite N by assumption. destruct (next' a) as [a'| |] eqn:Q; cbn [bind]; try reflexivity. rewrite (IH a' b (I a a' Pa Q) Pb). reflexivity.
Qed.

(** *** hosts *)
Definition plain_ait (a : ait) : Prop := a_scope (it_current a) = [].
Lemma ait_make_plain ref c a : a_scope ref = [] -> ait_make V6 ref c = Ret a -> plain_ait a.
Proof. intros R. unfold ait_make. destruct (addr_to_uint V6 ref); [|discriminate..]. intros H. apply ret_inj in H. subst a. exact R. Qed.
Lemma ait_add_plain a n b : plain_ait a -> ait_add V6 a n = Ret b -> plain_ait b.
Proof.
  intros P. unfold ait_add. destruct (negb _); [|intros H; apply ret_inj in H; subst b; exact P].
  destruct (addr_from_uint V6 _) as [c| |] eqn:E; [|discriminate..]. intros H. apply ret_inj in H. subst b. exact (from_uint_plain _ _ E).
Qed.
Lemma ait_sub_plain a n b : plain_ait a -> ait_sub V6 a n = Ret b -> plain_ait b.
Proof.
  intros P. unfold ait_sub. destruct (negb _); [|intros H; apply ret_inj in H; subst b; exact P].
  destruct (addr_from_uint V6 _) as [c| |] eqn:E; [|discriminate..]. intros H. apply ret_inj in H. subst b. exact (from_uint_plain _ _ E).
Qed.
Lemma ait_rev_plain a b : ait_reverse V6 a = Ret b -> plain_ait b.
Proof. unfold ait_reverse. destruct (addr_from_uint V6 _) as [c| |] eqn:E; [|discriminate..]. intros H. apply ret_inj in H. subst b. exact (from_uint_plain _ _ E). Qed.
Lemma ait_eqb_plain g a b : plain_ait a -> plain_ait b -> ait_eqb_c g a b = ait_eqb V6 a b.
Proof. intros A B. unfold ait_eqb_c, ait_eqb. rewrite eqb_plain by assumption. reflexivity. Qed.
Lemma hosts_same g sp n : hosts_c g sp n = hosts sp V6 (without_scope n).
Proof.
  unfold hosts_c, hosts, hosts_make_c, hosts_make. rewrite broadcast_without. unfold without_scope. cbn [n_addr n_prefix width].
  change (addr_to_uint V6 (mk_addr (a_bytes (n_addr n)) [])) with (addr_to_uint V6 (n_addr n)).
  destruct (n_prefix n =? 128 - 1); [reflexivity|]. destruct (n_prefix n =? 128); [|reflexivity].
  destruct (addr_to_uint V6 (n_addr n)) as [u| |]; cbn [bind]; try reflexivity.
  destruct (addr_from_uint V6 u) as [f| |] eqn:F; cbn [bind]; try reflexivity.
  destruct (addr_from_uint V6 (uadd V6 u 1)) as [l| |] eqn:L; cbn [bind]; try reflexivity.
  rewrite lt_plain by (eapply from_uint_plain; eassumption). reflexivity.
Qed.
Lemma hosts_plain sp n s : hosts sp V6 n = Ret s -> plain_ait (h_begin s) /\ plain_ait (h_end s).
Proof.
  unfold hosts, hosts_make. intros H.
  repeat match type of H with
  | (if ?c then _ else _) = _ => destruct c
  | bind ?r _ = Ret _ => destruct r eqn:?; cbn [bind] in H; [|discriminate..]
  end; apply ret_inj in H; subst s; cbn [h_begin h_end]; split;
    match goal with E : ait_make V6 ?a _ = Ret ?x |- plain_ait ?x => refine (ait_make_plain _ _ _ _ E); eapply from_uint_plain; eassumption end.
Qed.
Lemma hosts_walk_same g k a b : plain_ait a -> plain_ait b -> hosts_walk_c g k a b = hosts_walk V6 k a b.
Proof. apply walk_same; [apply ait_eqb_plain|reflexivity|]. intros x y P. apply ait_add_plain. exact P. Qed.
Lemma hosts_rwalk_same g k a b : plain_ait a -> plain_ait b -> hosts_rwalk_c g k a b = hosts_rwalk V6 k a b.
Proof. apply walk_same; [apply ait_eqb_plain|reflexivity|]. intros x y P. apply ait_sub_plain. exact P. Qed.
Lemma hosts_all g sp n : hosts_c g sp n = hosts sp V6 (without_scope n) /\
  forall s, hosts_c g sp n = Ret s -> hosts_empty_c g s = hosts_empty V6 s /\
    (forall k, hosts_walk_c g k (h_begin s) (h_end s) = hosts_walk V6 k (h_begin s) (h_end s)) /\
    (forall b e, hosts_rbegin V6 s = Ret b -> hosts_rend V6 s = Ret e -> forall k, hosts_rwalk_c g k b e = hosts_rwalk V6 k b e).
Proof.
  split; [apply hosts_same|]. intros s H. rewrite hosts_same in H. destruct (hosts_plain _ _ _ H) as [B E].
  split; [apply ait_eqb_plain; assumption|]. split; [intros k; apply hosts_walk_same; assumption|].
  intros b e Hb He k. apply hosts_rwalk_same; eapply ait_rev_plain; eassumption.
Qed.

(** *** subnets *)
Definition plain_nit (a : nit) : Prop := plain (ni_current a) /\ plain_ait (ni_it a).
Lemma nit_make_plain ref step p c a : a_scope ref = [] -> nit_make V6 ref step p c = Ret a -> plain_nit a.
Proof.
  intros R. unfold nit_make. destruct (from_address V6 ref p true) as [n| |] eqn:F; [|discriminate..]. cbn [bind].
  destruct (ait_make V6 ref c) as [i| |] eqn:I; [|discriminate..]. intros H. apply ret_inj in H. subst a.
  split; [exact (from_address_plain _ _ _ _ R F)|exact (ait_make_plain _ _ _ R I)].
Qed.
Lemma nit_add_plain a n b : plain_nit a -> nit_add V6 a n = Ret b -> plain_nit b.
Proof.
  intros [_ P]. unfold nit_add. destruct (ait_add V6 (ni_it a) _) as [x| |] eqn:X; [|discriminate..]. cbn [bind].
  destruct (from_address V6 _ _ _) as [c| |] eqn:F; [|discriminate..]. intros H. apply ret_inj in H. subst b.
  pose proof (ait_add_plain _ _ _ P X) as Q. split; [exact (from_address_plain _ _ _ _ Q F)|exact Q].
Qed.
Lemma nit_sub_plain a n b : plain_nit a -> nit_sub V6 a n = Ret b -> plain_nit b.
Proof.
  intros [_ P]. unfold nit_sub. destruct (ait_sub V6 (ni_it a) _) as [x| |] eqn:X; [|discriminate..]. cbn [bind].
  destruct (from_address V6 _ _ _) as [c| |] eqn:F; [|discriminate..]. intros H. apply ret_inj in H. subst b.
  pose proof (ait_sub_plain _ _ _ P X) as Q. split; [exact (from_address_plain _ _ _ _ Q F)|exact Q].
Qed.
Lemma nit_rev_plain a b : nit_reverse V6 a = Ret b -> plain_nit b.
Proof.
  unfold nit_reverse. destruct (addr_from_uint V6 _) as [c| |] eqn:E; [|discriminate..]. cbn [bind]. destruct (from_address V6 _ _ _) as [m| |] eqn:F; [|discriminate..].
  intros H. apply ret_inj in H. subst b. pose proof (from_uint_plain _ _ E) as Q. split; [exact (from_address_plain _ _ _ _ Q F)|exact Q].
Qed.
Lemma nit_eqb_plain g a b : plain_nit a -> plain_nit b -> nit_eqb_c g a b = nit_eqb V6 a b.
Proof. intros [A _] [B _]. unfold nit_eqb_c, nit_eqb. rewrite net_eqb_plain by assumption. reflexivity. Qed.
Lemma single_same g sp b p : subnets_single_c g sp (mk_addr b []) p = subnets_single sp V6 (mk_addr b []) p.
Proof.
  unfold subnets_single_c, subnets_single. cbn [a_bytes]. destruct (addr_to_uint V6 _) as [u| |]; cbn [bind]; try reflexivity.
  destruct (addr_from_uint V6 (uadd V6 u 1)) as [l| |] eqn:L; cbn [bind]; try reflexivity. rewrite lt_plain by (try reflexivity; eapply from_uint_plain; eassumption). reflexivity.
Qed.
Lemma make_same g na ba hm d p : subnets_make_c g na ba hm d p = subnets_make V6 na ba hm d p.
Proof.
  unfold subnets_make_c, subnets_make. destruct (addr_to_uint V6 na) as [u| |]; cbn [bind]; try reflexivity. destruct (addr_to_uint V6 ba) as [w| |]; cbn [bind]; try reflexivity.
  destruct (addr_from_uint V6 u) as [f| |] eqn:F; cbn [bind]; try reflexivity.
  destruct (addr_from_uint V6 (uadd V6 w 1)) as [l| |] eqn:L; cbn [bind]; try reflexivity. rewrite eqb_plain by (eapply from_uint_plain; eassumption). reflexivity.
Qed.
Lemma subnets_code_same g sp n code d np : cfg_ok g -> net_for (c_max g) (c_spaces g) n ->
  subnets_code_c g sp n code d np = subnets_code sp V6 (without_scope n) code d np.
Proof.
  intros C (H & _). unfold subnets_code_c, subnets_code. rewrite remove_c by assumption. rewrite broadcast_without.
  change (hostmask (without_scope n)) with (hostmask n). change (n_prefix (without_scope n)) with (n_prefix n).
  change (remove_scope V6 (n_addr (without_scope n))) with (@Ret addr (mk_addr (a_bytes (n_addr n)) [])). cbn [bind width]. rewrite single_same.
  destruct (n_prefix n =? 128); [reflexivity|].
  destruct (match np with Some _ => _ | None => _ end); [reflexivity|]. rewrite make_same. reflexivity.
Qed.
Lemma subnets_same g sp n d np : cfg_ok g -> net_for (c_max g) (c_spaces g) n ->
  subnets_c g sp n d np = subnets sp V6 (without_scope n) d np.
Proof. intros C H. unfold subnets_c, subnets. rewrite subnets_code_same by assumption. reflexivity. Qed.
Lemma single_plain sp b p s : subnets_single sp V6 (mk_addr b []) p = Ret s -> plain_nit (s_begin s) /\ plain_nit (s_end s).
Proof.
  unfold subnets_single. cbn [a_bytes]. intros H.
  repeat match type of H with bind ?r _ = Ret _ => destruct r eqn:?; cbn [bind] in H; [|discriminate..] end.
  apply ret_inj in H. subst s. cbn [s_begin s_end]. split; (eapply nit_make_plain; [|eassumption]); [reflexivity|eapply from_uint_plain; eassumption].
Qed.
Lemma make_plain na ba hm d p s : subnets_make V6 na ba hm d p = Ret s -> plain_nit (s_begin s) /\ plain_nit (s_end s).
Proof.
  unfold subnets_make. intros H.
  repeat match type of H with bind ?r _ = Ret _ => destruct r eqn:?; cbn [bind] in H; [|discriminate..] end.
  apply ret_inj in H. subst s. cbn [s_begin s_end]. split; (eapply nit_make_plain; [|eassumption]); eapply from_uint_plain; eassumption.
Qed.
Lemma default_plain : plain_nit (s_begin (subnets_default V6)) /\ plain_nit (s_end (subnets_default V6)).
Proof. repeat split; reflexivity. Qed.
Lemma subnets_code_plain sp n code d np s e : subnets_code sp V6 (without_scope n) code d np = Ret (s, e) -> plain_nit (s_begin s) /\ plain_nit (s_end s).
Proof.
  unfold subnets_code. change (remove_scope V6 (n_addr (without_scope n))) with (@Ret addr (mk_addr (a_bytes (n_addr n)) [])). cbn [bind]. intros H.
  destruct (n_prefix (without_scope n) =? width V6).
  - destruct (subnets_single _ _ _ _) eqn:S; [|discriminate..]. apply ret_inj in H. injection H as <- _. exact (single_plain _ _ _ _ S).
  - destruct (match np with Some _ => _ | None => _ end); [apply ret_inj in H; injection H as <- _; exact default_plain|].
    destruct (_ >? _); [apply ret_inj in H; injection H as <- _; exact default_plain|].
    destruct (subnets_make _ _ _ _ _ _) eqn:S; [|discriminate..]. apply ret_inj in H. injection H as <- _. exact (make_plain _ _ _ _ _ _ S).
Qed.
Lemma subnets_plain sp n d np s : subnets sp V6 (without_scope n) d np = Ret s -> plain_nit (s_begin s) /\ plain_nit (s_end s).
Proof.
  unfold subnets. destruct (subnets_code sp V6 (without_scope n) no_error d np) as [[q e]| |] eqn:S; [|discriminate..]. cbn [bind]. unfold raise_if.
  destruct (ec_eqb e no_error); [|discriminate]. intros H. apply ret_inj in H. subst q. exact (subnets_code_plain _ _ _ _ _ _ _ S).
Qed.
Lemma subnets_walk_same g k a b : plain_nit a -> plain_nit b -> subnets_walk_c g k a b = subnets_walk V6 k a b.
Proof. apply walk_same; [apply nit_eqb_plain|reflexivity|]. intros x y P. apply nit_add_plain. exact P. Qed.
Lemma subnets_rwalk_same g k a b : plain_nit a -> plain_nit b -> subnets_rwalk_c g k a b = subnets_rwalk V6 k a b.
Proof. apply walk_same; [apply nit_eqb_plain|reflexivity|]. intros x y P. apply nit_sub_plain. exact P. Qed.
Lemma subnets_all g sp n d np : cfg_ok g -> net_for (c_max g) (c_spaces g) n ->
  subnets_c g sp n d np = subnets sp V6 (without_scope n) d np /\
  (forall code, subnets_code_c g sp n code d np = subnets_code sp V6 (without_scope n) code d np) /\
  forall s, subnets_c g sp n d np = Ret s -> subnets_empty_c g s = subnets_empty V6 s /\
    (forall k, subnets_walk_c g k (s_begin s) (s_end s) = subnets_walk V6 k (s_begin s) (s_end s)) /\
    (forall b e, subnets_rbegin V6 s = Ret b -> subnets_rend V6 s = Ret e -> forall k, subnets_rwalk_c g k b e = subnets_rwalk V6 k b e).
Proof.
  intros C N. split; [apply subnets_same; assumption|]. split; [intros; apply subnets_code_same; assumption|].
  intros s H. rewrite subnets_same in H by assumption. destruct (subnets_plain _ _ _ _ _ H) as [B E].
  split; [apply nit_eqb_plain; assumption|]. split; [intros k; apply subnets_walk_same; assumption|].
  intros b e Hb He k. apply subnets_rwalk_same; eapply nit_rev_plain; eassumption.
Qed.

(** *** address_exclude: all networks involved are without scope id *)
Lemma without_same n : a_scope (n_addr n) = [] -> without_scope n = n.
Proof. destruct n as [[b s] m p]. cbn [n_addr a_scope]. intros ->. reflexivity. Qed.
Lemma halves_same g sp n : plain n -> halves_c g sp n = halves sp V6 n.
Proof.
  intros [P _]. unfold halves_c, halves, subnets_c, subnets, subnets_code_c, subnets_code.
  assert (R : remove_scope_c g (n_addr n) = Ret (mk_addr (a_bytes (n_addr n)) [])).
  { unfold remove_scope_c, v6_set_scope_c. rewrite P. destruct (Z.gtb_spec (c_max g) 0) as [G|G].
    - destruct (Z.gtb_spec 0 (c_max g)); [lia|]. cbn [set_scope_loop_c bind].
      destruct (Z.to_nat (c_max g)) as [|k] eqn:E; [lia|]. replace (Z.to_nat (c_max g + 1)) with (S (S k)) by lia. reflexivity.
    - reflexivity. }
  rewrite R. change (remove_scope V6 (n_addr n)) with (@Ret addr (mk_addr (a_bytes (n_addr n)) [])). cbn [bind width]. rewrite single_same.
  destruct (n_prefix n =? 128); [reflexivity|]. rewrite make_same. reflexivity.
Qed.
Lemma halves_plain sp n a b : plain n -> halves sp V6 n = Ret (a, b) -> plain a /\ plain b.
Proof.
  intros [P _]. unfold halves. rewrite <- (without_same n P). destruct (subnets sp V6 (without_scope n) 1 None) as [s| |] eqn:S; [|discriminate..]. cbn [bind].
  destruct (subnets_plain _ _ _ _ _ S) as [B _]. unfold subnets_at.
  destruct (nit_add V6 (s_begin s) 0) as [x| |] eqn:X; [|discriminate..]. cbn [bind].
  destruct (nit_add V6 (s_begin s) 1) as [y| |] eqn:Y; [|discriminate..]. cbn [bind].
  intros H. apply ret_inj in H. injection H as <- <-. split; [apply (nit_add_plain _ _ _ B X)|apply (nit_add_plain _ _ _ B Y)].
Qed.
Definition plain_xit (x : xit) : Prop := plain (x_other x) /\ plain (x_s1 x) /\ plain (x_s2 x) /\ plain (x_current x).
Lemma xit_default_plain : plain_xit (xit_default V6). Proof. repeat split; reflexivity. Qed.
Lemma xit_same g sp x : plain_xit x -> xit_next_c g sp x = xit_next sp V6 x.
Proof.
  intros (O & P1 & P2 & Q). unfold xit_next_c, xit_next. rewrite !net_eqb_plain, !subnet_plain, !halves_same by assumption. reflexivity.
Qed.
Lemma xit_plain sp x y : plain_xit x -> xit_next sp V6 x = Ret y -> plain_xit y.
Proof.
  intros (O & P1 & P2 & Q). unfold xit_next. intros H.
  repeat match type of H with
  | Ret _ = Ret _ => apply ret_inj in H; subst y
  | UB _ = Ret _ => discriminate H
  | Err _ _ = Ret _ => discriminate H
  | (if ?c then _ else _) = _ => destruct c
  | (let '(a, b) := ?c in _) = _ => destruct c
  | bind ?r _ = Ret _ => destruct r eqn:?; cbn [bind] in H
  end; try exact xit_default_plain; (repeat split; cbn [x_other x_s1 x_s2 x_current]; try apply O; try apply P1; try apply P2; try apply Q);
  match goal with E : halves _ _ ?n = Ret (_, _), P : plain ?n |- _ => destruct (halves_plain _ _ _ _ P E) as [[] []]; assumption end.
Qed.
Lemma xit_eqb_plain g a b : plain_xit a -> plain_xit b -> xit_eqb_c g a b = xit_eqb V6 a b.
Proof. intros (_ & _ & _ & A) (_ & _ & _ & B). apply net_eqb_plain; assumption. Qed.
Lemma xit_make_same g sp n o : plain n -> plain o -> xit_make_c g sp n o = xit_make sp V6 n o.
Proof.
  intros N O. unfold xit_make_c, xit_make. rewrite halves_same by assumption. destruct (halves sp V6 n) as [[a b]| |] eqn:H; cbn [bind]; try reflexivity.
  apply xit_same. destruct (halves_plain _ _ _ _ N H). repeat split; cbn [x_other x_s1 x_s2 x_current]; try apply O; try apply N; try apply H0; apply H1.
Qed.
Lemma xit_make_plain sp n o x : plain n -> plain o -> xit_make sp V6 n o = Ret x -> plain_xit x.
Proof.
  intros N O. unfold xit_make. destruct (halves sp V6 n) as [[a b]| |] eqn:H; cbn [bind]; try discriminate.
  apply xit_plain. destruct (halves_plain _ _ _ _ N H). repeat split; cbn [x_other x_s1 x_s2 x_current]; try apply O; try apply N; try apply H0; apply H1.
Qed.
Lemma exclude_code_same g sp n o code : cfg_ok g -> net_for (c_max g) (c_spaces g) n -> net_for (c_max g) (c_spaces g) o ->
  exclude_code_c g sp n o code = exclude_code sp V6 (without_scope n) (without_scope o) code.
Proof.
  intros C N O. unfold exclude_code_c, exclude_code. rewrite !remove_net_c by assumption.
  destruct (remove_scope_net V6 (without_scope n)) as [l| |] eqn:L; cbn [bind]; try reflexivity.
  destruct (remove_scope_net V6 (without_scope o)) as [r| |] eqn:R; cbn [bind]; try reflexivity.
  apply remove_net_plain in L, R. rewrite subnet_plain, net_eqb_plain, xit_make_same by assumption. reflexivity.
Qed.
Lemma exclude_same g sp n o : cfg_ok g -> net_for (c_max g) (c_spaces g) n -> net_for (c_max g) (c_spaces g) o ->
  address_exclude_c g sp n o = address_exclude sp V6 (without_scope n) (without_scope o).
Proof. intros C N O. unfold address_exclude_c, address_exclude. rewrite exclude_code_same by assumption. reflexivity. Qed.
Lemma exclude_plain sp n o s : address_exclude sp V6 (without_scope n) (without_scope o) = Ret s -> plain_xit (e_begin s) /\ plain_xit (e_end s).
Proof.
  unfold address_exclude, exclude_code.
  destruct (remove_scope_net V6 (without_scope n)) as [l| |] eqn:L; cbn [bind]; try discriminate.
  destruct (remove_scope_net V6 (without_scope o)) as [r| |] eqn:R; cbn [bind]; try discriminate. apply remove_net_plain in L, R.
  destruct (subnet_of sp V6 r l) as [[|]| |]; cbn [bind negb]; try discriminate.
  destruct (net_eqb V6 l r) as [[|]| |]; cbn [bind]; try discriminate.
  - intros H. apply ret_inj in H. subst s. split; exact xit_default_plain.
  - destruct (xit_make sp V6 l r) as [x| |] eqn:X; cbn [bind]; try discriminate. intros H. apply ret_inj in H. subst s.
    split; [exact (xit_make_plain _ _ _ _ L R X)|exact xit_default_plain].
Qed.
Lemma exclude_walk_same g sp k a b : plain_xit a -> plain_xit b -> exclude_walk_c g sp k a b = exclude_walk sp V6 k a b.
Proof. apply walk_same; [apply xit_eqb_plain|apply xit_same|apply xit_plain]. Qed.
Lemma exclude_all g sp n o : cfg_ok g -> net_for (c_max g) (c_spaces g) n -> net_for (c_max g) (c_spaces g) o ->
  address_exclude_c g sp n o = address_exclude sp V6 (without_scope n) (without_scope o) /\
  (forall code, exclude_code_c g sp n o code = exclude_code sp V6 (without_scope n) (without_scope o) code) /\
  forall s, address_exclude_c g sp n o = Ret s -> forall k, exclude_walk_c g sp k (e_begin s) (e_end s) = exclude_walk sp V6 k (e_begin s) (e_end s).
Proof.
  intros C N O. split; [apply exclude_same; assumption|]. split; [intros; apply exclude_code_same; assumption|].
  intros s H k. rewrite exclude_same in H by assumption. destruct (exclude_plain _ _ _ _ H). apply exclude_walk_same; assumption.
Qed.
